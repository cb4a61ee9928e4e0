(** Model of xxhsum (cli/xxhsum.c) with what it asks of the system about files and memory: the functions of M_Cli2.v that open, read and close
    files or allocate, use and free blocks, each with the list of these calls as one more result.  P_CliRes.v proves that without that result
    they are those of M_Cli2.v.  Not here: the benchmark, the buffers inside the C library. *)
From Coq Require Import String Ascii List.
From Verif Require Import Base Mem M_XXH32 M_XXH64 M_XXH3 M_Kernels M_Long M_Stream3 M_Util M_Cli M_Cli2 M_Cli3.

(** A FILE* or the address of a block is named by the place in the list of the call that returned it (used at cli/xxhsum.c:413-438, 569-621, 878, 995-1031). *)
Inductive handle := Std | At (n : nat).
Inductive event :=
  | Opened                  (* a successful fopen *)
  | Read (f : handle)       (* fread, fgetc, ferror *)
  | Closed (f : handle)     (* fclose *)
  | Allocated               (* a successful malloc *)
  | Moved (b : handle)      (* a successful realloc: the old block is gone, the new one is named by this event *)
  | Used (b : handle)       (* bytes of the block are read or written *)
  | Freed (b : handle).     (* free, not of NULL *)
Definition log := list event.
(** what the call returns that is logged next *)
Definition fresh (l : log) : handle := At (List.length l).

Module Res.
(** XSUM_hashStream: cli/xxhsum.c:250-310; it reads the stream [fp] into the block [bp] *)
Definition hashStream (e : env) (t : nat) (fp : handle) (f : file) (hashType : algo) (bp : handle) (buffer : list Z) (blockSize : Z) (l : log)
  : res (option mhash * list Z * file * log) :=
  let! r := M_Cli2.hashStream e t f hashType buffer blockSize in
  OK (r, l ++ [Read fp; Used bp]).
(** XSUM_hashFile: cli/xxhsum.c:398-472; stdin is closed like any file (437) *)
Definition hashFile (e : env) (m : mach) (l : log) (fileName : fname) (hashType : algo) (de : endianness) (conv : convention)
  : res (option Z * mach * log) :=
  let blockSize := 65536 in
  let opened := match fileName with
    | Stdin => Some (m_stdin m, stdinFileName, Std, l)
    | Named n => if e_dir e n then None else match e_fs e n with None => None | Some f => Some (f, n, fresh l, l ++ [Opened]) end
    end in
  match opened with
  | None => OK (Some 1, m, l)
  | Some (inFile, name, fp, l) =>
      let '(buffer, m) := malloc e m blockSize in
      match buffer with
      | None => OK (Some 1, m, l ++ [Closed fp])
      | Some buffer =>
          let bp := fresh l in
          let l := l ++ [Allocated] in
          let! (h, _, f, l) := hashStream e (m_tick m) fp inFile hashType bp buffer blockSize l in
          let m := tick match fileName with Stdin => Mach f (m_out m) (m_tick m) | _ => m end in
          match h with
          | None => OK (None, m, l)
          | Some h =>
              let l := l ++ [Closed fp] in
              let l := l ++ [Freed bp] in
              let! canon := canonicalOf (e_cfg e) h (repeat 0 4) (repeat 0 8) (repeat 0 16) in
              let! line := displayLine conv de name canon hashType in
              OK (Some 0, output m line, l)
          end
      end
  end.
(** XSUM_hashFiles: cli/xxhsum.c:480-495 *)
Fixpoint hashFiles_loop (e : env) (m : mach) (l : log) (fnList : list (list Z)) (hashType : algo) (de : endianness) (conv : convention) (result : Z)
  : res (option Z * mach * log) :=
  match fnList with
  | [] => OK (Some result, m, l)
  | n :: rest =>
      let! (r, m, l) := hashFile e m l (Named n) hashType de conv in
      match r with
      | None => OK (None, m, l)
      | Some r => hashFiles_loop e m l rest hashType de conv (Z.lor result r)
      end
  end.
Definition hashFiles (e : env) (m : mach) (l : log) (fnList : list (list Z)) (hashType : algo) (de : endianness) (conv : convention) : res (option Z * mach * log) :=
  match fnList with
  | [] => hashFile e m l Stdin hashType de conv
  | _ => hashFiles_loop e m l fnList hashType de conv 0
  end.

(** the loop of XSUM_getLine: cli/xxhsum.c:582-611; [fp] is the stream, [bp] the line buffer *)
Definition getLine_body (e : env) (fp : handle) (sl : (list Z * Z * Z * file * mach * option left) * (handle * log))
  : res ((list Z * Z * Z * file * mach * option left) * (handle * log)) :=
  let '((b, lineMax, len, f, m, _), (bp, l)) := sl in
  let '(ch, f) := fgetc f in
  let l := l ++ [Read fp] in
  match ch with
  | None => OK ((b, lineMax, len, f, m, Some (Break (if len =? 0 then GetLine_eof else GetLine_ok))), (bp, l))
  | Some ch =>
      let grown :=
        (if lineMax <=? len + 1 then
           let n := lineMax + (lineMax / 2 + 1) in
           let n := if MAX_LINE_LENGTH <? n then MAX_LINE_LENGTH else n in
           if n <=? len + 1 then (b, lineMax, m, Some (Return GetLine_exceedMaxLineLength), bp, l)
           else
             match realloc e m b n with
             | (None, m) => (b, lineMax, m, Some (Return GetLine_outOfMemory), bp, l)
             | (Some b, m) => (b, n, m, None, fresh l, l ++ [Moved bp])
             end
         else (b, lineMax, m, None, bp, l)) in
      let '(b, lineMax, m, stop, bp, l) := grown in
      match stop with
      | Some _ => OK ((b, lineMax, len, f, m, stop), (bp, l))
      | None =>
          if ch =? LF then OK ((b, lineMax, len, f, m, Some (Break GetLine_ok)), (bp, l))
          else let! b := cset b len ch in OK ((b, lineMax, len + 1, f, m, None), (bp, l ++ [Used bp]))
      end
  end.
(** XSUM_getLine: cli/xxhsum.c:569-621; [bp] is *lineBuf, if it is not NULL *)
Definition getLine (e : env) (m : mach) (l : log) (lineBuf : option (list Z)) (bp : option handle) (lineMax : Z) (fp : handle) (f : file)
  : res (getline_res * option (list Z) * Z * file * mach * (option handle * log)) :=
  let anew l :=
    match malloc e m DEFAULT_LINE_LENGTH with
    | (None, m) => (None, 0, m, None, l)
    | (Some b, m) => (Some b, DEFAULT_LINE_LENGTH, m, Some (fresh l), l ++ [Allocated])
    end in
  let '(lineBuf, lineMax, m, bp, l) :=
    match lineBuf with
    | Some b => if lineMax <? 1 then anew (match bp with Some p => l ++ [Freed p] | None => l end) else (Some b, lineMax, m, bp, l)
    | None => anew l
    end in
  match lineBuf, bp with
  | Some b, Some bp =>
      let! (b, lineMax, len, f, m, stop, (bp, l)) :=
        while_ (S (List.length (f_content f))) (fun s => match snd (fst s) with None => true | Some _ => false end) (getLine_body e fp) (b, lineMax, 0, f, m, None, (bp, l)) in
      match stop with
      | None => UB
      | Some (Return r) => OK (r, Some b, lineMax, f, m, (Some bp, l))
      | Some (Break r) =>
          let! b := cset b len 0 in
          let! ch := cget b 0 in
          let r := match r with GetLine_ok => if (0 <? len) && (ch =? 35) then GetLine_comment else GetLine_ok | r => r end in
          OK (r, Some b, lineMax, f, m, (Some bp, l ++ [Used bp]))
      end
  | _, _ => OK (GetLine_outOfMemory, None, lineMax, f, m, (None, l))
  end.

(** the do-while(0) block of XSUM_parseFile1: cli/xxhsum.c:874-915; [kp] is blockBuf *)
Definition verifyLine (e : env) (m : mach) (l : log) (kp : handle) (block : list Z) (filename : list Z) (a : algo) (canonical : list Z)
  : res (option status * list Z * mach * log) :=
  let isStdin := eqb_list filename stdinFileName in
  match (if isStdin then Some (m_stdin m, Std, l) else match e_fs e filename with None => None | Some f => Some (f, fresh l, l ++ [Opened]) end) with
  | None => OK (Some failedToOpen, block, m, l)
  | Some (f, fp, l) =>
      let! (h, block, f, l) := hashStream e (m_tick m) fp f a kp block 65536 l in
      let m := tick (if isStdin then Mach f (m_out m) (m_tick m) else m) in
      match h with
      | None => OK (None, block, m, l)
      | Some h =>
          let! st := compare_hash (e_cfg e) h (e_adr e (m_tick m)) canonical in
          OK (Some st, block, m, if isStdin then l else l ++ [Closed fp])
      end
  end.
(** one iteration of the loop of XSUM_parseFile1: cli/xxhsum.c:813-957; [fp] is inFile, [kp] blockBuf, [bp] lineBuf.  The file name of the line is
    in the line buffer (874, 929, 948-952). *)
Definition parseFile1_body (e : env) (a : pargs) (rev : bool) (fp kp : handle) (sl : pstate * (option handle * log)) : res (pstate * (option handle * log)) :=
  let '(PState own lineBuf lineMax block rep line m _ _, (bp, l)) := sl in
  let line := incr e line in
  if line =? 0 then OK (PState own lineBuf lineMax block (set_quit rep) line m true false, (bp, l))
  else
    let inFile := match own with Some f => f | None => m_stdin m end in
    let! (g, lineBuf, lineMax, f, m, (bp, l)) := getLine e m l lineBuf bp lineMax fp inFile in
    let '(own, m) := match own with Some _ => (Some f, m) | None => (None, Mach f (m_out m) (m_tick m)) end in
    match g with
    | GetLine_comment => OK (PState own lineBuf lineMax block rep line m false false, (bp, l))
    | GetLine_eof => OK (PState own lineBuf lineMax block rep line m true false, (bp, l))
    | GetLine_exceedMaxLineLength | GetLine_outOfMemory => OK (PState own lineBuf lineMax block (set_quit rep) line m true false, (bp, l))
    | GetLine_ok =>
        match lineBuf, bp with
        | Some b, Some p =>
            let! (r, b) := parseLine b rev (a_mask a) in
            let l := l ++ [Used p] in
            match r with
            | None => OK (PState own (Some b) lineMax block (add_improper e rep) line m false false, (bp, l))
            | Some (al, canonical, fidx) =>
                let rep := add_proper e rep in
                let! filename := cstr b fidx in
                let! (st, block, m, l) := verifyLine e m (l ++ [Used p]) kp block filename al canonical in
                match st with
                | None => OK (PState own (Some b) lineMax block rep line m true true, (bp, l))
                | Some st =>
                    let '(rep, m) := lineReport e a m rep line filename st in
                    OK (PState own (Some b) lineMax block rep line m false false, (bp, l ++ [Used p]))
                end
            end
        | _, _ => UB
        end
    end.
(** XSUM_parseFile1: cli/xxhsum.c:805-958 *)
Definition parseFile1 (e : env) (a : pargs) (rev : bool) (fp kp : handle) (s : pstate) (bl : option handle * log) : res (pstate * (option handle * log)) :=
  let inFile := match p_own s with Some f => f | None => m_stdin (p_m s) end in
  while_ (S (List.length (f_content inFile))) (fun s => negb (quit (p_rep (fst s))) && negb (p_break (fst s))) (parseFile1_body e a rev fp kp)
    (PState (p_own s) (p_lineBuf s) (p_lineMax s) (p_block s) (Report 0 0 0 0 0 0 false) 0 (p_m s) false false, bl).
(** XSUM_checkFile: cli/xxhsum.c:976-1071 *)
Definition checkFile (e : env) (m : mach) (l : log) (inFileName : fname) (de : endianness) (strict status ignoreMissing warn quiet_ : bool) (mask : Z)
  : res (option Z * mach * log) :=
  let opened := match inFileName with
    | Stdin => Some (None, stdinFileName, Std, l)
    | Named n => match e_fs e n with None => None | Some f => Some (Some f, n, fresh l, l ++ [Opened]) end
    end in
  match opened with
  | None => OK (Some 0, m, l)
  | Some (own, name, fp, l) =>
      let '(lineBuf, m) := malloc e m DEFAULT_LINE_LENGTH in
      let bp := fresh l in
      let l := match lineBuf with Some _ => l ++ [Allocated] | None => l end in
      let '(blockBuf, m) := malloc e m 65536 in
      let kp := fresh l in
      let l := match blockBuf with Some _ => l ++ [Allocated] | None => l end in
      match lineBuf, blockBuf with
      | Some lineBuf, Some blockBuf =>
          let a := PArgs name strict status ignoreMissing warn quiet_ mask in
          let! (s, (bp, l)) := parseFile1 e a (match de with big_endian => false | little_endian => true end) fp kp
                      (PState own (Some lineBuf) DEFAULT_LINE_LENGTH blockBuf (Report 0 0 0 0 0 0 false) 0 m false false) (Some bp, l) in
          if p_exit s then OK (None, p_m s, l)
          else
            let l := l ++ [Freed kp] in
            let l := match bp with Some bp => l ++ [Freed bp] | None => l end in
            let l := match inFileName with Stdin => l | Named _ => l ++ [Closed fp] end in
            let r := p_rep s in
            let m := output (p_m s) (summary a r) in
            let result := negb (nProperlyFormattedLines r =? 0) && (nMismatchedChecksums r =? 0) && (nOpenOrReadFailures r =? 0)
                          && (negb strict || (nImproperlyFormattedLines r =? 0)) && negb (quit r) in
            if ignoreMissing && (nMatchedChecksums r =? 0)
            then OK (Some 0, output m (name ++ str ": no file was verified" ++ [LF]), l)
            else OK (Some (if result then 1 else 0), m, l)
      | _, _ => OK (None, m, l)
      end
  end.
(** XSUM_checkFiles: cli/xxhsum.c:1074-1097 *)
Fixpoint checkFiles_loop (e : env) (m : mach) (l : log) (fnList : list (list Z)) (de : endianness) (strict status ignoreMissing warn quiet_ : bool) (mask ok : Z)
  : res (option Z * mach * log) :=
  match fnList with
  | [] => OK (Some ok, m, l)
  | n :: rest =>
      let! (r, m, l) := checkFile e m l (Named n) de strict status ignoreMissing warn quiet_ mask in
      match r with
      | None => OK (None, m, l)
      | Some r => checkFiles_loop e m l rest de strict status ignoreMissing warn quiet_ mask (Z.land ok r)
      end
  end.
Definition checkFiles (e : env) (m : mach) (l : log) (fnList : list (list Z)) (de : endianness) (strict status ignoreMissing warn quiet_ : bool) (mask : Z)
  : res (option Z * mach * log) :=
  let! (r, m, l) := match fnList with
    | [] => let! (r, m, l) := checkFile e m l Stdin de strict status ignoreMissing warn quiet_ mask in
            OK (match r with None => None | Some r => Some (Z.land 1 r) end, m, l)
    | _ => checkFiles_loop e m l fnList de strict status ignoreMissing warn quiet_ mask 1
    end in
  OK (match r with None => None | Some ok => Some (if ok =? 0 then 1 else 0) end, m, l).
(** XSUM_main: cli/xxhsum.c:1211-1370 *)
Definition XSUM_main (e : env) (console : bool) (m : mach) (argv : list (list Z)) : res (outcome * log) :=
  let! a := command console argv in
  let exits (r : option Z * mach * log) := OK (Exits match fst (fst r) with Some c => c | None => 1 end (snd (fst r)), snd r) in
  match a with
  | Stop Version | Stop Help => OK (Exits 0 m, [])
  | Stop _ => OK (Exits 1 m, [])
  | Bench ids it size names => OK (Benchmark ids it size names, [])
  | Check names de strict status ignore warn q mask => let! r := checkFiles e m [] names de strict status ignore warn q mask in exits r
  | Hash names a de conv => let! r := hashFiles e m [] names a de conv in exits r
  end.
End Res.
