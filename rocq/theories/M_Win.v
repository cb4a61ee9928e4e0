(** Model of the part of cli/xsum_os_specific.c that is compiled on Windows (XSUM_WIN32_USE_WCHAR): UTF-8 inside the
    program, UTF-16 at the border to the system.

    The system is an argument ([os]): its two conversions, its files and its console.  A string is the list of its units
    without the final NUL.  The heap is the list of the live blocks, by a number that stands for the address (0 is NULL);
    a block is the list of its units (bytes, wchar_t or pointers).  [alloc] decides which calls fail and what a fresh block
    contains. *)
From Coq Require Import String.
From Verif Require Import Base Mem M_Cli M_Cli2 M_Cli3.

Module Win.
(** what the functions call of the system: MultiByteToWideChar and WideCharToMultiByte with CP_UTF8 ([None]: they fail),
    _wfopen with a name and a mode, _wstat64 (whether the name is a directory; [None]: it fails), WriteConsoleW (the number of
    units written; [None]: it fails) and fwrite (the number of bytes written): cli/xsum_os_specific.c:172-196, 223, 239, 341, 350 *)
Record os := Os {
  to_wide : list Z -> option (list Z);
  to_narrow : list Z -> option (list Z);
  wfopen : list Z -> list Z -> option file;
  wstat : list Z -> option bool;
  writeConsole : list Z -> option Z;
  fwrite : list Z -> Z }.
(** by the number of calls of malloc so far: whether the call for so many bytes succeeds, what the block contains, and whether
    the conversion into the block succeeds that succeeded before without a block *)
Record alloc := Alloc { a_ok : nat -> Z -> bool; a_junk : nat -> Z -> list Z; a_again : nat -> bool }.
Record heap := Heap { h_blocks : list (Z * list Z); h_calls : nat }.
(** a number no live block has (used at cli/xsum_os_specific.c:175, 194, 278, 368) *)
Definition fresh (h : heap) : Z := 1 + fold_right Z.max 0 (map fst (h_blocks h)).
(** malloc (cli/xsum_os_specific.c:175, 194, 278, 368): [size] bytes as units of [width] bytes *)
Definition malloc (a : alloc) (h : heap) (size width : Z) : Z * heap :=
  if a_ok a (h_calls h) size
  then (fresh h, Heap ((fresh h, a_junk a (h_calls h) (size / width)) :: h_blocks h) (S (h_calls h)))
  else (0, Heap (h_blocks h) (S (h_calls h))).
(** free (cli/xsum_os_specific.c:178, 197, 224-226, 240, 285, 346, 355, 376-378, 394-396) *)
Fixpoint remove (p : Z) (l : list (Z * list Z)) : res (list (Z * list Z)) :=
  match l with
  | [] => UB
  | b :: l => if fst b =? p then OK l else let! l := remove p l in OK (b :: l)
  end.
Definition free (h : heap) (p : Z) : res heap :=
  if p =? 0 then OK h else let! l := remove p (h_blocks h) in OK (Heap l (h_calls h)).
(** the block at an address, and a store of units into it (used at cli/xsum_os_specific.c:177, 196, 284, 372) *)
Fixpoint find (p : Z) (l : list (Z * list Z)) : res (list Z) :=
  match l with [] => UB | b :: l => if fst b =? p then OK (snd b) else find p l end.
Fixpoint replace (p : Z) (d : list Z) (l : list (Z * list Z)) : list (Z * list Z) :=
  match l with [] => [] | b :: l => if fst b =? p then (p, d) :: l else b :: replace p d l end.
Definition put (h : heap) (p i : Z) (d : list Z) : res heap :=
  let! b := find p (h_blocks h) in
  let! b := store b i d in
  OK (Heap (replace p b (h_blocks h)) (h_calls h)).
(** the string that starts at [p]: up to the first NUL, which has to be in the block (used at cli/xsum_os_specific.c:223, 239, 338, 350, 422) *)
Fixpoint upto_nul (b : list Z) : res (list Z) :=
  match b with [] => UB | x :: b => if x =? 0 then OK [] else let! s := upto_nul b in OK (x :: s) end.
Definition string_at (h : heap) (p : Z) : res (list Z) := let! b := find p (h_blocks h) in upto_nul b.

(** MultiByteToWideChar(CP_UTF8, 0, s, -1, buf, len) and WideCharToMultiByte: the length of the result with its NUL when
    [len] is 0, otherwise the units written; 0 when the conversion fails, the buffer is too small or an int too short
    (used at cli/xsum_os_specific.c:172, 177, 191, 196) *)
Definition Convert (f : list Z -> option (list Z)) (s : list Z) (len : Z) : Z * list Z :=
  match f s with
  | None => (0, [])
  | Some w => let n := zlen w + 1 in
      if 2 ^ 31 <=? n then (0, []) else if len =? 0 then (n, []) else if len <? n then (0, []) else (n, w ++ [0])
  end.
(** XSUM_widenString: cli/xsum_os_specific.c:170-183 (and XSUM_narrowString, 189-202, with [width] 1); result: the address and *lenOut *)
Definition convertString (c : cfg) (a : alloc) (f : list Z -> option (list Z)) (width : Z) (h : heap) (s : list Z) : res (Z * Z * heap) :=
  let '(len, _) := Convert f s 0 in
  if len =? 0 then OK (0, len, h)
  else
    let '(buf, h) := malloc a h (usz c (len * width)) width in
    if buf =? 0 then OK (0, len, h)
    else
      let '(r, w) := if a_again a (h_calls h) then Convert f s len else (0, []) in
      let! h := put h buf 0 w in
      if r =? 0 then let! h := free h buf in OK (0, len, h)
      else OK (buf, len, h).
(** XSUM_widenString: cli/xsum_os_specific.c:170-183; sizeof(wchar_t) is 2 *)
Definition widenString (c : cfg) (a : alloc) (o : os) := convertString c a (to_wide o) 2.
(** XSUM_narrowString: cli/xsum_os_specific.c:189-202 *)
Definition narrowString (c : cfg) (a : alloc) (o : os) := convertString c a (to_narrow o) 1.
(** XSUM_fopen: cli/xsum_os_specific.c:216-229 *)
Definition XSUM_fopen (c : cfg) (a : alloc) (o : os) (h : heap) (filename mode : list Z) : res (option file * heap) :=
  let! (wide_filename, _, h) := widenString c a o h filename in
  if wide_filename =? 0 then OK (None, h)
  else
    let! (wide_mode, _, h) := widenString c a o h mode in
    let! (f, h) :=
      if wide_mode =? 0 then OK (None, h)
      else
        let! n := string_at h wide_filename in
        let! m := string_at h wide_mode in
        let! h := free h wide_mode in
        OK (wfopen o n m, h) in
    let! h := free h wide_filename in
    OK (f, h).
(** XSUM_stat: cli/xsum_os_specific.c:234-243; of the result only whether it is a directory is kept, which is what
    XSUM_isDirectory (502-512) looks at *)
Definition XSUM_isDirectory (c : cfg) (a : alloc) (o : os) (h : heap) (infilename : list Z) : res (bool * heap) :=
  let! (wide_filename, _, h) := widenString c a o h infilename in
  if wide_filename =? 0 then OK (false, h)
  else
    let! n := string_at h wide_filename in
    let! h := free h wide_filename in
    OK (match wstat o n with Some d => d | None => false end, h).

(** the clean-up loop of XSUM_convertArgv: cli/xsum_os_specific.c:375-377 *)
Fixpoint free_down (h : heap) (argv : Z) (i : nat) : res heap :=
  match i with
  | O => OK h
  | S i => let! b := find argv (h_blocks h) in let! p := cget b (Z.of_nat i) in let! h := free h p in free_down h argv i
  end.
(** the loop of XSUM_convertArgv: cli/xsum_os_specific.c:371-381; [false]: the clean-up ran *)
Fixpoint convert_from (c : cfg) (a : alloc) (o : os) (h : heap) (argv : Z) (i : nat) (l : list (list Z)) : res (bool * heap) :=
  match l with
  | [] => OK (true, h)
  | s :: l =>
      let! (p, _, h) := narrowString c a o h s in
      let! h := put h argv (Z.of_nat i) [p] in
      if p =? 0 then
        let! h := free_down h argv i in
        let! h := free h argv in
        OK (false, h)
      else convert_from c a o h argv (S i) l
  end.
(** XSUM_convertArgv: cli/xsum_os_specific.c:366-385; [szbits c / 8] is sizeof(char* ) *)
Definition convertArgv (c : cfg) (a : alloc) (o : os) (h : heap) (utf16_argv : list (list Z)) : res (Z * heap) :=
  let argc := zlen utf16_argv in
  let '(utf8_argv, h) := malloc a h (usz c ((argc + 1) * (szbits c / 8))) (szbits c / 8) in
  if utf8_argv =? 0 then OK (0, h)
  else
    let! (done, h) := convert_from c a o h utf8_argv 0 utf16_argv in
    if done then let! h := put h utf8_argv argc [0] in OK (utf8_argv, h)
    else OK (0, h).
(** XSUM_freeArgv: cli/xsum_os_specific.c:387-397 *)
Definition freeArgv (argc : Z) (h : heap) (argv : Z) : res heap :=
  if argv =? 0 then OK h
  else
    let! h := for_ (Z.to_nat argc) 0 (fun i h => let! b := find argv (h_blocks h) in let! p := cget b i in free h p) h in
    free h argv.
(** the arguments as XSUM_main sees them (cli/xsum_os_specific.c:422) *)
Fixpoint strings_at (h : heap) (ps : list Z) : res (list (list Z)) :=
  match ps with [] => OK [] | p :: ps => let! s := string_at h p in let! l := strings_at h ps in OK (s :: l) end.
(** XSUM_main with the files of the system: XSUM_fopen and XSUM_isDirectory as above, where malloc succeeds (cli/xxhsum.c:416-420, 878,
    1000).  Every file is opened as by "rb": what "rt" (1000) does to the ends of lines is not modelled *)
Definition env_on (o : os) (e : env) : env :=
  Env (e_cfg e) (fun n => match to_wide o n, to_wide o (str "rb") with Some w, Some m => wfopen o w m | _, _ => None end)
      (fun n => match to_wide o n with Some w => match wstat o w with Some d => d | None => false end | None => false end)
      (e_malloc e) (e_state3 e) (e_adr e) (e_strerror e) (e_ulbits e).
(** XSUM_wmain: cli/xsum_os_specific.c:399-428; [None]: abort() *)
Definition wmain (c : cfg) (a : alloc) (o : os) (e : env) (console : bool) (m : mach) (h : heap) (utf16_argv : list (list Z)) : res (option outcome * heap) :=
  let! (utf8_argv, h) := convertArgv c a o h utf16_argv in
  if utf8_argv =? 0 then OK (None, h)
  else
    let! ps := find utf8_argv (h_blocks h) in
    let! argv := strings_at h (firstn (List.length utf16_argv) ps) in
    let! ret := XSUM_main (env_on o e) console m argv in
    let! h := freeArgv (zlen utf16_argv) h utf8_argv in
    OK (Some ret, h).

(** ** Formatted output *)
(** a va_list: the arguments, or indeterminate.  [by_value]: a va_list is a plain pointer, so that a function that walks a copy
    leaves the caller's where it was; the C standard (7.16) promises only that the caller's is indeterminate then *)
Inductive va := Args (l : list Z) | Spent.
Definition walk (by_value : bool) (ap : va) : va := if by_value then ap else Spent.
(** XSUM_vasprintf: cli/xsum_os_specific.c:258-290.  [fmt]: the text the format makes of the arguments, [None] an error; the copy
    (268) is never used.  Result: *strp, the return value, the heap *)
Definition vasprintf (c : cfg) (a : alloc) (by_value : bool) (fmt : list Z -> option (list Z)) (h : heap) (ap : va) : res (Z * Z * heap) :=
  match ap with
  | Spent => UB
  | Args l =>
      let size := match fmt l with Some t => if zlen t <? 2 ^ 31 then zlen t else -1 | None => -1 end in
      if size <? 0 then OK (0, size, h)
      else
        let '(strp, h) := malloc a h (usz c (size + 1)) 1 in
        if strp =? 0 then OK (0, -1, h)
        else
          match walk by_value ap with
          | Spent => UB
          | Args l =>
              match (if a_again a (h_calls h) then fmt l else None) with
              | Some t => let! h := put h strp 0 (t ++ [0]) in OK (strp, zlen t, h)
              | None => let! h := free h strp in OK (0, -1, h)
              end
          end
  end.
(** a FILE*: whether it has a handle, whether that is a console, what was written as bytes and as wide characters
    (used at cli/xsum_os_specific.c:321-352) *)
Record stream := Stream { s_handle : bool; s_console : bool; s_bytes : list Z; s_units : list Z }.
(** XSUM_vfprintf: cli/xsum_os_specific.c:305-358; WriteConsoleW and fwrite write the first units they are given *)
Definition vfprintf (c : cfg) (a : alloc) (o : os) (by_value : bool) (fmt : list Z -> option (list Z)) (h : heap) (s : stream) (ap : va) : res (Z * stream * heap) :=
  let! (u8_str, result, h) := vasprintf c a by_value fmt h ap in
  if result <? 0 then OK (result, s, h)
  else
    let nchar := result + 1 in
    let! (result, s, h) :=
      if negb (s_handle s) then OK (-1, s, h)
      else if s_console s then
        let! t := string_at h u8_str in
        let! (u16_buf, len, h) := widenString c a o h t in
        if u16_buf =? 0 then OK (-1, s, h)
        else
          let! b := find u16_buf (h_blocks h) in
          let! w := load (Ptr b 0 0) (len - 1) in
          let! h := free h u16_buf in
          match writeConsole o w with
          | Some n => OK (n, Stream (s_handle s) (s_console s) (s_bytes s) (s_units s ++ firstn (Z.to_nat n) w), h)
          | None => OK (-1, s, h)
          end
      else
        let! b := find u8_str (h_blocks h) in
        let! t := load (Ptr b 0 0) (nchar - 1) in
        let result := fwrite o t in
        let s := Stream (s_handle s) (s_console s) (s_bytes s ++ firstn (Z.to_nat result) t) (s_units s) in
        OK (if result =? 0 then -1 else result, s, h) in
    let! h := free h u8_str in
    OK (result, s, h).
End Win.
