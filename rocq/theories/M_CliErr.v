(** Model of xxhsum (cli/xxhsum.c) with what it writes to stderr (XSUM_log: cli/xsum_output.c:33-42): the functions of M_Cli2.v that write
    there, each with the text it writes as one more result.  P_CliErr.v proves that without that result they are those of M_Cli2.v.
    Not here: the messages of the benchmark (M_BenchErr.v), and those of XSUM_sanityCheck. *)
From Coq Require Import String Ascii List.
From Verif Require Import Base Mem M_XXH32 M_XXH64 M_XXH3 M_Kernels M_Long M_Stream3 M_Util M_Cli M_Cli2 M_Cli3.

Module Err.
(** XSUM_hashStream: cli/xxhsum.c:250-310; exit(1) comes after the message of line 286 *)
Definition hashStream (e : env) (t : nat) (f : file) (hashType : algo) (buffer : list Z) (blockSize : Z) : res (option mhash * list Z * file * list Z) :=
  let! (h, buffer, f) := M_Cli2.hashStream e t f hashType buffer blockSize in
  OK (h, buffer, f, match h with None => str "Error: a failure occurred reading the input file." ++ [LF] | Some _ => [] end).
(** XSUM_hashFile: cli/xxhsum.c:398-472 *)
Definition hashFile (e : env) (m : mach) (fileName : fname) (hashType : algo) (de : endianness) (conv : convention)
  : res (option Z * mach * list Z) :=
  let blockSize := 65536 in
  let opened := match fileName with
    | Stdin => inr (m_stdin m, stdinFileName)
    | Named n =>
        if e_dir e n then inl (str "xxhsum: " ++ n ++ str ": Is a directory " ++ [LF])
        else match e_fs e n with
             | None => inl (str "Error: Could not open '" ++ n ++ str "': " ++ e_strerror e ++ str ". " ++ [LF])
             | Some f => inr (f, n)
             end
    end in
  match opened with
  | inl log => OK (Some 1, m, log)
  | inr (inFile, name) =>
      let '(buffer, m) := malloc e m blockSize in
      match buffer with
      | None => OK (Some 1, m, [LF] ++ str "Error: Out of memory." ++ [LF])
      | Some buffer =>
          let! (h, _, f, log) := hashStream e (m_tick m) inFile hashType buffer blockSize in
          let m := tick match fileName with Stdin => Mach f (m_out m) (m_tick m) | _ => m end in
          match h with
          | None => OK (None, m, log)
          | Some h =>
              let! canon := canonicalOf (e_cfg e) h (repeat 0 4) (repeat 0 8) (repeat 0 16) in
              let! line := displayLine conv de name canon hashType in
              OK (Some 0, output m line, log)
          end
      end
  end.
(** XSUM_hashFiles: cli/xxhsum.c:480-495 *)
Fixpoint hashFiles_loop (e : env) (m : mach) (fnList : list (list Z)) (hashType : algo) (de : endianness) (conv : convention) (result : Z)
  : res (option Z * mach * list Z) :=
  match fnList with
  | [] => OK (Some result, m, [])
  | n :: rest =>
      let! (r, m, log) := hashFile e m (Named n) hashType de conv in
      match r with
      | None => OK (None, m, log)
      | Some r => let! (r, m, log2) := hashFiles_loop e m rest hashType de conv (Z.lor result r) in OK (r, m, log ++ log2)
      end
  end.
Definition hashFiles (e : env) (m : mach) (fnList : list (list Z)) (hashType : algo) (de : endianness) (conv : convention) : res (option Z * mach * list Z) :=
  match fnList with
  | [] => hashFile e m Stdin hashType de conv
  | _ => hashFiles_loop e m fnList hashType de conv 0
  end.

(** the do-while(0) block of XSUM_parseFile1: cli/xxhsum.c:874-915 *)
Definition verifyLine (e : env) (m : mach) (block : list Z) (filename : list Z) (a : algo) (canonical : list Z)
  : res (option status * list Z * mach * list Z) :=
  let isStdin := eqb_list filename stdinFileName in
  match (if isStdin then Some (m_stdin m) else e_fs e filename) with
  | None => OK (Some failedToOpen, block, m, [])
  | Some fp =>
      let! (h, block, fp, log) := hashStream e (m_tick m) fp a block 65536 in
      let m := tick (if isStdin then Mach fp (m_out m) (m_tick m) else m) in
      match h with
      | None => OK (None, block, m, log)
      | Some h => let! st := compare_hash (e_cfg e) h (e_adr e (m_tick m)) canonical in OK (Some st, block, m, log)
      end
  end.
(** one iteration of the loop of XSUM_parseFile1: cli/xxhsum.c:813-957; the messages at 821, 854, 858 and 867.  Those at 850 and 919 are
    behind values that the enumerations do not have. *)
Definition parseFile1_body (e : env) (a : pargs) (rev : bool) (sl : pstate * list Z) : res (pstate * list Z) :=
  let '(PState own lineBuf lineMax block rep line m _ _, log) := sl in
  let line := incr e line in
  let at_line (msg : string) := a_name a ++ str ":" ++ dec line ++ str ": Error: " ++ str msg ++ [LF] in
  if line =? 0 then OK (PState own lineBuf lineMax block (set_quit rep) line m true false, log ++ a_name a ++ str ": Error: Too many checksum lines" ++ [LF])
  else
    let inFile := match own with Some f => f | None => m_stdin m end in
    let! (g, lineBuf, lineMax, f, m) := getLine e m lineBuf lineMax inFile in
    let '(own, m) := match own with Some _ => (Some f, m) | None => (None, Mach f (m_out m) (m_tick m)) end in
    match g with
    | GetLine_comment => OK (PState own lineBuf lineMax block rep line m false false, log)
    | GetLine_eof => OK (PState own lineBuf lineMax block rep line m true false, log)
    | GetLine_exceedMaxLineLength => OK (PState own lineBuf lineMax block (set_quit rep) line m true false, log ++ at_line "Line too long."%string)
    | GetLine_outOfMemory => OK (PState own lineBuf lineMax block (set_quit rep) line m true false, log ++ at_line "Out of memory."%string)
    | GetLine_ok =>
        match lineBuf with
        | None => UB
        | Some b =>
            let! (r, b) := parseLine b rev (a_mask a) in
            match r with
            | None => OK (PState own (Some b) lineMax block (add_improper e rep) line m false false,
                          log ++ if a_warn a then at_line "Improperly formatted checksum line."%string else [])
            | Some (al, canonical, fidx) =>
                let rep := add_proper e rep in
                let! filename := cstr b fidx in
                let! (st, block, m, l) := verifyLine e m block filename al canonical in
                match st with
                | None => OK (PState own (Some b) lineMax block rep line m true true, log ++ l)
                | Some st =>
                    let '(rep, m) := lineReport e a m rep line filename st in
                    OK (PState own (Some b) lineMax block rep line m false false, log ++ l)
                end
            end
        end
    end.
(** XSUM_parseFile1: cli/xxhsum.c:805-958 *)
Definition parseFile1 (e : env) (a : pargs) (rev : bool) (s : pstate) : res (pstate * list Z) :=
  let inFile := match p_own s with Some f => f | None => m_stdin (p_m s) end in
  while_ (S (List.length (f_content inFile))) (fun s => negb (quit (p_rep (fst s))) && negb (p_break (fst s))) (parseFile1_body e a rev)
    (PState (p_own s) (p_lineBuf s) (p_lineMax s) (p_block s) (Report 0 0 0 0 0 0 false) 0 (p_m s) false false, []).
(** XSUM_checkFile: cli/xxhsum.c:976-1071; the messages at 1004, 1023 and 1036 *)
Definition checkFile (e : env) (m : mach) (inFileName : fname) (de : endianness) (strict status ignoreMissing warn quiet_ : bool) (mask : Z)
  : res (option Z * mach * list Z) :=
  let opened := match inFileName with
    | Stdin => inr (None, stdinFileName)
    | Named n => match e_fs e n with
                 | None => inl (str "Error: Could not open '" ++ n ++ str "': " ++ e_strerror e ++ [LF])
                 | Some f => inr (Some f, n)
                 end
    end in
  match opened with
  | inl log => OK (Some 0, m, log)
  | inr (own, name) =>
      let '(lineBuf, m) := malloc e m DEFAULT_LINE_LENGTH in
      let '(blockBuf, m) := malloc e m 65536 in
      match lineBuf, blockBuf with
      | Some lineBuf, Some blockBuf =>
          let a := PArgs name strict status ignoreMissing warn quiet_ mask in
          let! (s, log) := parseFile1 e a (match de with big_endian => false | little_endian => true end)
                      (PState own (Some lineBuf) DEFAULT_LINE_LENGTH blockBuf (Report 0 0 0 0 0 0 false) 0 m false false) in
          if p_exit s then OK (None, p_m s, log)
          else
            let r := p_rep s in
            let log := if nProperlyFormattedLines r =? 0 then log ++ name ++ str ": no properly formatted xxHash checksum lines found" ++ [LF] else log in
            let m := output (p_m s) (summary a r) in
            let result := negb (nProperlyFormattedLines r =? 0) && (nMismatchedChecksums r =? 0) && (nOpenOrReadFailures r =? 0)
                          && (negb strict || (nImproperlyFormattedLines r =? 0)) && negb (quit r) in
            if ignoreMissing && (nMatchedChecksums r =? 0)
            then OK (Some 0, output m (name ++ str ": no file was verified" ++ [LF]), log)
            else OK (Some (if result then 1 else 0), m, log)
      | _, _ => OK (None, m, str "Error: : memory allocation failed " ++ [LF])
      end
  end.
(** XSUM_checkFiles: cli/xxhsum.c:1074-1097 *)
Fixpoint checkFiles_loop (e : env) (m : mach) (fnList : list (list Z)) (de : endianness) (strict status ignoreMissing warn quiet_ : bool) (mask ok : Z)
  : res (option Z * mach * list Z) :=
  match fnList with
  | [] => OK (Some ok, m, [])
  | n :: rest =>
      let! (r, m, log) := checkFile e m (Named n) de strict status ignoreMissing warn quiet_ mask in
      match r with
      | None => OK (None, m, log)
      | Some r => let! (r, m, log2) := checkFiles_loop e m rest de strict status ignoreMissing warn quiet_ mask (Z.land ok r) in OK (r, m, log ++ log2)
      end
  end.
Definition checkFiles (e : env) (m : mach) (fnList : list (list Z)) (de : endianness) (strict status ignoreMissing warn quiet_ : bool) (mask : Z)
  : res (option Z * mach * list Z) :=
  let! (r, m, log) := match fnList with
    | [] => let! (r, m, log) := checkFile e m Stdin de strict status ignoreMissing warn quiet_ mask in
            OK (match r with None => None | Some r => Some (Z.land 1 r) end, m, log)
    | _ => checkFiles_loop e m fnList de strict status ignoreMissing warn quiet_ mask 1
    end in
  OK (match r with None => None | Some ok => Some (if ok =? 0 then 1 else 0) end, m, log).
(** XSUM_main: cli/xxhsum.c:1211-1370.  The texts of --version and of the usage are arguments ([version], [usage], [advanced]: cli/xxhsum.c:71-75,
    1101-1139; they depend on the build and the name of the program); XSUM_badusage: 1141-1146; errorOut: 1148-1152, with the message of
    XSUM_readU32FromChar: 1202-1209 *)
Definition XSUM_main (version usage advanced : list Z -> list Z) (e : env) (console : bool) (m : mach) (argv : list (list Z)) : res (outcome * list Z) :=
  let! a := command console argv in
  let! exename := lastNameFromPath (hd [] argv) in
  let exits (r : option Z * mach * list Z) := OK (Exits match fst (fst r) with Some c => c | None => 1 end (snd (fst r)), snd r) in
  match a with
  | Stop Version => OK (Exits 0 m, version exename)
  | Stop Help => OK (Exits 0 m, advanced exename)
  | Stop BadUsage => OK (Exits 1 m, str "Wrong parameters" ++ [LF; LF] ++ usage exename)
  | Stop TooLarge => OK (Exits 1 m, str "Error: numeric value too large " ++ [LF])
  | Bench ids it size names => OK (Benchmark ids it size names, [])
  | Check names de strict status ignore warn q mask => let! r := checkFiles e m names de strict status ignore warn q mask in exits r
  | Hash names a de conv => let! r := hashFiles e m names a de conv in exits r
  end.
End Err.
