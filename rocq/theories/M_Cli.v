(** Model of the text side of xxhsum (cli/xxhsum.c): file name escaping, the checksum lines it prints, and the parser
    of checksum lines.

    Characters are bytes 0..255 (no comparison in this code tells a signed char from an unsigned one).  A buffer that
    holds a C string is a [list Z], and an access outside it is [UB].  A string that the code only walks up to its NUL
    (a file name) is the list of its bytes before the NUL. *)
From Coq Require Import String Ascii List.
From Verif Require Import Base Mem.

(** a string literal as bytes (for example cli/xxhsum.c:706-712) *)
Definition str (s : string) : list Z := map (fun a => Z.of_N (N_of_ascii a)) (list_ascii_of_string s).
Arguments str s%string.

(* ------------------------------------------------------------------ *)
(** ** The C library on buffers: its functions are used at cli/xxhsum.c:109-111, 692-712, 752, 780, 1157-1158, 1232-1235 *)
(** b[i] and b[i] = v (used at cli/xxhsum.c:160-197, 569-613, 688-800) *)
Definition cget (b : list Z) (i : Z) : res Z :=
  if (0 <=? i) && (i <? zlen b) then OK (nth (Z.to_nat i) b 0) else UB.
Definition cset (b : list Z) (i v : Z) : res (list Z) := store b i [v].
(** strchr(b + i, ch), ch not NUL; the result is an index (used at cli/xxhsum.c:692) *)
Fixpoint strchr_l (l : list Z) (k ch : Z) : res (option Z) :=
  match l with
  | [] => UB
  | x :: l => if x =? ch then OK (Some k) else if x =? 0 then OK None else strchr_l l (k + 1) ch
  end.
Definition strchr (b : list Z) (i ch : Z) : res (option Z) := if i <? 0 then UB else strchr_l (skipn (Z.to_nat i) b) i ch.
(** strrchr: the last occurrence (used at cli/xxhsum.c:701) *)
Fixpoint strrchr_l (l : list Z) (k ch : Z) (last : option Z) : res (option Z) :=
  match l with
  | [] => UB
  | x :: l => if x =? 0 then OK last else strrchr_l l (k + 1) ch (if x =? ch then Some k else last)
  end.
Definition strrchr (b : list Z) (i ch : Z) : res (option Z) := if i <? 0 then UB else strrchr_l (skipn (Z.to_nat i) b) i ch None.
(** the string at index i; strlen is its length (used at cli/xxhsum.c:708, 780) *)
Fixpoint cstr_l (l : list Z) : res (list Z) :=
  match l with [] => UB | x :: l => if x =? 0 then OK [] else let! r := cstr_l l in OK (x :: r) end.
Definition cstr (b : list Z) (i : Z) : res (list Z) := if i <? 0 then UB else cstr_l (skipn (Z.to_nat i) b).
Definition strlen (b : list Z) (i : Z) : res Z := let! s := cstr b i in OK (zlen s).
(** comparisons of strings (strcmp, memcmp, strstr: cli/xxhsum.c:706-712, 1238-1262) *)
Fixpoint eqb_list (a b : list Z) : bool :=
  match a, b with [], [] => true | x :: a, y :: b => (x =? y) && eqb_list a b | _, _ => false end.
Fixpoint prefixb (p l : list Z) : bool :=
  match p, l with [], _ => true | x :: p, y :: l => (x =? y) && prefixb p l | _, [] => false end.
Fixpoint containsb (p l : list Z) : bool := prefixb p l || match l with [] => false | _ :: l => containsb p l end.
(** strstr(b + i, pat) != NULL, pat without NUL (used at cli/xxhsum.c:706) *)
Definition strstr (b : list Z) (i : Z) (pat : list Z) : res bool := let! s := cstr b i in OK (containsb pat s).
(** memcmp(b + i, pat, strlen(pat)) == 0; all the bytes are read (used at cli/xxhsum.c:709-712, 752) *)
Definition memeq (b : list Z) (i : Z) (pat : list Z) : res bool :=
  if (0 <=? i) && (i + zlen pat <=? zlen b) then OK (eqb_list (zslice b i (zlen pat)) pat) else UB.

(* ------------------------------------------------------------------ *)
(** ** File name escaping: cli/xxhsum.c:105-197 *)
Definition BSL := 92. Definition LF := 10. Definition CR := 13.
(** XSUM_filenameNeedsEscape: cli/xxhsum.c:108-112 *)
Definition filenameNeedsEscape (name : list Z) : bool :=
  existsb (Z.eqb BSL) name || existsb (Z.eqb LF) name || existsb (Z.eqb CR) name.
(** XSUM_lineNeedsUnescape: cli/xxhsum.c:114-121, on the buffer from its start *)
Fixpoint lineNeedsUnescape (l : list Z) : res bool :=
  match l with
  | [] => UB
  | x :: l => if (x =? 32) || (x =? 9) then lineNeedsUnescape l else OK (x =? BSL)
  end.
(** XSUM_printFilename: cli/xxhsum.c:123-145; the bytes it outputs *)
Definition printFilename (name : list Z) (needsEscape : bool) : list Z :=
  if negb needsEscape then name
  else flat_map (fun ch => if ch =? LF then str "\n" else if ch =? CR then str "\r" else if ch =? BSL then str "\\" else [ch]) name.
(** XSUM_filenameUnescape: cli/xxhsum.c:160-197, on the file name at index [f], of length [n].  Loop state
    (i, p, buffer, false once the function has returned NULL); [p] is the distance from [f]. *)
Definition unescape_body (f n : Z) (s : Z * Z * list Z * bool) : res (Z * Z * list Z * bool) :=
  let '(i, p, b, _) := s in
  let! ch := cget b (f + i) in
  if ch =? BSL then
    let i := i + 1 in
    if i =? n then OK (i, p, b, false)
    else
      let! ch := cget b (f + i) in
      if ch =? 110 then let! b := cset b (f + p) LF in OK (i + 1, p + 1, b, true)
      else if ch =? 114 then let! b := cset b (f + p) CR in OK (i + 1, p + 1, b, true)
      else if ch =? BSL then let! b := cset b (f + p) BSL in OK (i + 1, p + 1, b, true)
      else OK (i, p, b, false)
  else if ch =? 0 then OK (i, p, b, false)
  else let! b := cset b (f + p) ch in OK (i + 1, p + 1, b, true).
Definition filenameUnescape (b : list Z) (f n : Z) : res (bool * list Z) :=
  let! (_, p, b, ok) := while_ (Z.to_nat n) (fun s => let '(i, _, _, ok) := s in ok && (i <? n)) (unescape_body f n) (0, 0, b, true) in
  if negb ok then OK (false, b)
  else if p <? n then let! b := cset b (f + p) 0 in OK (true, b)
  else OK (true, b).

(* ------------------------------------------------------------------ *)
(** ** Algorithms: cli/xxhsum.c:80, 83-93, 203-212 *)
Inductive algo := algo_xxh32 | algo_xxh64 | algo_xxh128 | algo_xxh3.
Definition algo_num (a : algo) : Z := match a with algo_xxh32 => 0 | algo_xxh64 => 1 | algo_xxh128 => 2 | algo_xxh3 => 3 end.
Definition algo_eqb (a b : algo) : bool := algo_num a =? algo_num b.
(** XSUM_algoBitmask_Accepts: cli/xxhsum.c:209-212 *)
Definition algoBitmask_Accepts (mask : Z) (a : algo) : bool := negb (Z.land mask (shl32 1 (algo_num a)) =? 0).

(* ------------------------------------------------------------------ *)
(** ** Printing: cli/xxhsum.c:222-237, 313-396 *)
(** printf("%02x") of a byte (used at cli/xxhsum.c:228, 236) *)
Definition hexdigit (d : Z) : Z := if d <? 10 then 48 + d else 87 + d.
Definition hex2 (x : Z) : list Z := [hexdigit (x / 16); hexdigit (x mod 16)].
(** XSUM_display_LittleEndian: cli/xxhsum.c:223-229: from the last byte to the first *)
Definition display_LittleEndian (p : list Z) (length : Z) : res (list Z) :=
  for_ (Z.to_nat length) 0 (fun k out => let! x := cget p (length - 1 - k) in OK (out ++ hex2 x)) [].
(** XSUM_display_BigEndian: cli/xxhsum.c:231-237 *)
Definition display_BigEndian (p : list Z) (length : Z) : res (list Z) :=
  for_ (Z.to_nat length) 0 (fun idx out => let! x := cget p idx in OK (out ++ hex2 x)) [].
(** cli/xxhsum.c:313-315 *)
Definition algoName (a : algo) : list Z :=
  match a with algo_xxh32 => str "XXH32" | algo_xxh64 => str "XXH64" | algo_xxh128 => str "XXH128" | algo_xxh3 => str "XXH3" end.
Definition algoLE_name (a : algo) : list Z :=
  match a with algo_xxh32 => str "XXH32_LE" | algo_xxh64 => str "XXH64_LE" | algo_xxh128 => str "XXH128_LE" | algo_xxh3 => str "XXH3_LE" end.
Definition algoLength (a : algo) : Z := match a with algo_xxh32 => 4 | algo_xxh64 => 8 | algo_xxh128 => 16 | algo_xxh3 => 8 end.
(** XSUM_printLine_BSD_internal: cli/xxhsum.c:321-338 *)
Definition printLine_BSD_internal (name canonicalHash : list Z) (hashType : algo) (algoString : algo -> list Z)
    (f_displayHash : list Z -> Z -> res (list Z)) : res (list Z) :=
  let needsEscape := filenameNeedsEscape name in
  let! h := f_displayHash canonicalHash (algoLength hashType) in
  OK ((if needsEscape then [BSL] else []) ++ algoString hashType ++ str " (" ++ printFilename name needsEscape ++ str ") = " ++ h ++ [LF]).
(** XSUM_displayPrefix: cli/xxhsum.c:350-356 *)
Definition displayPrefix (hashType : algo) : list Z := match hashType with algo_xxh3 => str "XXH3_" | _ => [] end.
(** XSUM_printLine_GNU_internal: cli/xxhsum.c:358-373 *)
Definition printLine_GNU_internal (name canonicalHash : list Z) (hashType : algo) (f_displayHash : list Z -> Z -> res (list Z)) : res (list Z) :=
  let needsEscape := filenameNeedsEscape name in
  let! h := f_displayHash canonicalHash (algoLength hashType) in
  OK ((if needsEscape then [BSL] else []) ++ displayPrefix hashType ++ h ++ str "  " ++ printFilename name needsEscape ++ [LF]).
(** the four functions of XSUM_kDisplayLine_fTable: cli/xxhsum.c:340-348, 375-396 *)
Inductive endianness := big_endian | little_endian.
Inductive convention := display_gnu | display_bsd.
Definition displayLine (conv : convention) (e : endianness) (name canonicalHash : list Z) (hashType : algo) : res (list Z) :=
  match conv, e with
  | display_gnu, big_endian => printLine_GNU_internal name canonicalHash hashType display_BigEndian
  | display_gnu, little_endian => printLine_GNU_internal name canonicalHash hashType display_LittleEndian
  | display_bsd, big_endian => printLine_BSD_internal name canonicalHash hashType algoName display_BigEndian
  | display_bsd, little_endian => printLine_BSD_internal name canonicalHash hashType algoLE_name display_LittleEndian
  end.

(* ------------------------------------------------------------------ *)
(** ** Parsing: cli/xxhsum.c:624-800 *)
(** charToHex: cli/xxhsum.c:628-639 *)
Definition charToHex (ch : Z) : Z :=
  if (48 <=? ch) && (ch <=? 57) then ch - 48
  else if (65 <=? ch) && (ch <=? 70) then ch - 65 + 10
  else if (97 <=? ch) && (ch <=? 102) then ch - 97 + 10
  else -1.
(** XSUM_canonicalFromString: cli/xxhsum.c:649-669; [None] is CanonicalFromString_invalidFormat, else the bytes of dst *)
Definition canonicalFromString (dstSize : Z) (b : list Z) (hashStr : Z) (reverseBytes : bool) : res (option (list Z)) :=
  for_ (Z.to_nat dstSize) 0 (fun i r =>
    match r with
    | None => OK None
    | Some dst =>
        let j := if reverseBytes then dstSize - i - 1 else i in
        let! ch := cget b (hashStr + (j * 2 + 0)) in
        let h0 := charToHex ch in
        if h0 <? 0 then OK None
        else
          let! ch := cget b (hashStr + (j * 2 + 1)) in
          let h1 := charToHex ch in
          if h1 <? 0 then OK None
          else OK (Some (dst ++ [u8 (Z.lor (Z.shiftl h0 4) h1)]))
    end) (Some []).

(** the hash part of XSUM_parseLine1, its switch on hash_len: cli/xxhsum.c:730-776 *)
Definition parseHash (b : list Z) (hash_ptr hash_len : Z) (a : algo) (rev : bool) : res (option (list Z)) :=
  match hash_len with
  | 8 => if negb (algo_eqb a algo_xxh32) then OK None else canonicalFromString 4 b hash_ptr rev
  | 16 => if negb (algo_eqb a algo_xxh64) && negb (algo_eqb a algo_xxh3) then OK None else canonicalFromString 8 b hash_ptr rev
  | 21 => if negb (algo_eqb a algo_xxh3) then OK None
          else
            let! p := memeq b hash_ptr (str "XXH3_") in
            if negb p then OK None else canonicalFromString 8 b (hash_ptr + 5) rev
  | 32 => if negb (algo_eqb a algo_xxh128) then OK None else canonicalFromString 16 b hash_ptr rev
  | _ => OK None
  end.
(** the members of ParsedLine that are set on success (cli/xxhsum.c:527-531): algorithm, digest bytes, and the index of
    the file name in the line *)
Definition parsed := (algo * list Z * Z)%type.
(** XSUM_parseLine1: cli/xxhsum.c:690-790.  [line] is the index of the line in the buffer [b].  [None] is
    ParseLine_invalidFormat; the second component is the buffer after the call. *)
Definition parseLine1 (b : list Z) (line : Z) (rev needsUnescape : bool) (mask : Z) : res (option parsed * list Z) :=
  let! firstSpace := strchr b line 32 in
  match firstSpace with
  | None => OK (None, b)
  | Some firstSpace =>
      let! ch := cget b (firstSpace + 1) in
      if ch =? 0 then OK (None, b)
      else
        let! r :=
          (if ch =? 40 then
             let! last := strrchr b line 32 in
             match last with
             | None => UB
             | Some lastSpace =>
                 if lastSpace - firstSpace <? 5 then OK None
                 else
                   let! c1 := cget b (lastSpace - 1) in
                   if negb (c1 =? 61) then OK None else
                   let! c2 := cget b (lastSpace - 2) in
                   if negb (c2 =? 32) then OK None else
                   let! c3 := cget b (lastSpace - 3) in
                   if negb (c3 =? 41) then OK None else
                   let! b := cset b (lastSpace - 3) 0 in
                   let! b := cset b firstSpace 0 in
                   let! rev := strstr b line (str "_LE") in
                   let hash_ptr := lastSpace + 1 in
                   let! hash_len := strlen b hash_ptr in
                   let a := algo_xxh64 in
                   let! t := memeq b line (str "XXH3") in let a := if t then algo_xxh3 else a in
                   let! t := memeq b line (str "XXH32") in let a := if t then algo_xxh32 else a in
                   let! t := memeq b line (str "XXH64") in let a := if t then algo_xxh64 else a in
                   let! t := memeq b line (str "XXH128") in let a := if t then algo_xxh128 else a in
                   OK (Some (b, hash_ptr, hash_len, a, rev))
             end
           else
             let hash_len := firstSpace - line in
             let a := algo_xxh64 in
             let a := if hash_len =? 8 then algo_xxh32 else a in
             let a := if hash_len =? 16 then algo_xxh64 else a in
             let a := if hash_len =? 21 then algo_xxh3 else a in
             let a := if hash_len =? 32 then algo_xxh128 else a in
             OK (Some (b, line, hash_len, a, rev))) in
        match r with
        | None => OK (None, b)
        | Some (b, hash_ptr, hash_len, a, rev) =>
            if negb (algoBitmask_Accepts mask a) then OK (None, b)
            else
              let! canonical := parseHash b hash_ptr hash_len a rev in
              match canonical with
              | None => OK (None, b)
              | Some canonical =>
                  let filename := firstSpace + 2 in
                  let! filenameLen := strlen b filename in
                  if needsUnescape then
                    let! (ok, b) := filenameUnescape b filename filenameLen in
                    if ok then OK (Some (a, canonical, filename), b) else OK (None, b)
                  else OK (Some (a, canonical, filename), b)
              end
        end
  end.
(** XSUM_parseLine: cli/xxhsum.c:792-798, on the line buffer *)
Definition parseLine (b : list Z) (rev : bool) (mask : Z) : res (option parsed * list Z) :=
  let! needsUnescape := lineNeedsUnescape b in
  parseLine1 b (if needsUnescape then 1 else 0) rev needsUnescape mask.
