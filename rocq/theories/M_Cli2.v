(** Model of the file side of xxhsum (cli/xxhsum.c): hashing a stream, printing the checksums of files, reading a
    checksum file line by line and checking it.

    The outside world.  A stream is the list of the pieces in which the system delivers its bytes, and whether an error
    is reported at its end.  The file system does not change during the run.  [malloc] answers with a block of arbitrary
    content, or NULL.  What goes to stdout is modelled byte by byte; what goes to stderr (XSUM_log) is in M_CliErr.v.
    The conversions of XSUM_fopen and the text/binary modes only matter on Windows and are not modelled.  The result
    [None] of a function is a call of exit(1). *)
From Coq Require Import String Ascii List.
From Verif Require Import Base Mem M_XXH32 M_XXH64 M_XXH3 M_Kernels M_Long M_Stream3 M_Util M_Cli.

Record file := File { f_chunks : list (list Z); f_err : bool }.
Definition f_content (f : file) : list Z := concat (f_chunks f).
Fixpoint next_chunk (l : list (list Z)) : option (list Z * list (list Z)) :=
  match l with [] => None | [] :: l => next_chunk l | d :: l => Some (d, l) end.
(** fread(buffer, 1, n, f), n > 0: some of the next bytes, none at the end *)
Definition fread (n : Z) (f : file) : list Z * file :=
  match next_chunk (f_chunks f) with
  | None => ([], File [] (f_err f))
  | Some (d, l) => (firstn (Z.to_nat n) d, File (skipn (Z.to_nat n) d :: l) (f_err f))
  end.
(** fgetc(f); [None] is EOF (used at cli/xxhsum.c:583) *)
Definition fgetc (f : file) : option Z * file :=
  match next_chunk (f_chunks f) with
  | Some (x :: d, l) => (Some x, File (d :: l) (f_err f))
  | _ => (None, File [] (f_err f))
  end.

(** what the functions find in the outside world (fopen, malloc, realloc, locals: cli/xxhsum.c:250-262, 398-436, 577, 602, 976-1014);
    the number is a count of the calls so far *)
Record env := Env {
  e_cfg : cfg;
  e_fs : list Z -> option file;      (* fopen *)
  e_dir : list Z -> bool;            (* XSUM_isDirectory *)
  e_malloc : nat -> Z -> option (list Z);
  e_state3 : nat -> state3;          (* content of an uninitialised XXH3_state_t *)
  e_adr : nat -> Z;                  (* addresses of buffers *)
  e_strerror : list Z;
  e_ulbits : Z                       (* width of unsigned long *)
}.
(** the state of the program that the functions share: stdin, what was written to stdout (XSUM_output: cli/xsum_output.c), the count *)
Record mach := Mach { m_stdin : file; m_out : list Z; m_tick : nat }.
Definition tick (m : mach) : mach := Mach (m_stdin m) (m_out m) (S (m_tick m)).
Definition output (m : mach) (s : list Z) : mach := Mach (m_stdin m) (m_out m ++ s) (m_tick m).
Definition malloc (e : env) (m : mach) (n : Z) : option (list Z) * mach := (e_malloc e (m_tick m) n, tick m).
(** realloc: the old bytes are kept, a NULL result leaves the block alone (used at cli/xxhsum.c:602) *)
Definition realloc (e : env) (m : mach) (b : list Z) (n : Z) : option (list Z) * mach :=
  (match e_malloc e (m_tick m) n with
   | None => None
   | Some g => Some (firstn (Z.to_nat n) b ++ skipn (List.length b) g)
   end, tick m).

(* ------------------------------------------------------------------ *)
(** ** Hashing a stream: cli/xxhsum.c:239-310 *)
(** Multihash: cli/xxhsum.c:239-243, with the member that is written *)
Inductive mhash := H32 (h : Z) | H64 (h : Z) | H128 (h : Z * Z).
Definition ignore_err {A} (r : res (errorcode * A)) : res A := let! (_, s) := r in OK s.
(** the loop of XSUM_hashStream: cli/xxhsum.c:263-283.  State: the three hash states, the buffer, the stream and false once
    fread returned 0. *)
Definition hashStream_body (e : env) (hashType : algo) (adr blockSize : Z)
    (s : state32 * state64 * state3 * list Z * file * bool) : res (state32 * state64 * state3 * list Z * file * bool) :=
  let '(s32, s64, s3, buffer, f, _) := s in
  let '(data, f) := fread blockSize f in
  let readSize := zlen data in
  let! buffer := store buffer 0 data in
  if readSize =? 0 then OK (s32, s64, s3, buffer, f, false)
  else
    let c := e_cfg e in
    let p := Ptr buffer adr 0 in
    match hashType with
    | algo_xxh32 => let! s32 := ignore_err (XXH32_update c s32 p readSize) in OK (s32, s64, s3, buffer, f, true)
    | algo_xxh64 => let! s64 := ignore_err (XXH64_update c s64 p readSize) in OK (s32, s64, s3, buffer, f, true)
    | algo_xxh128 => let! s3 := ignore_err (XXH3_128bits_update c s3 p readSize) in OK (s32, s64, s3, buffer, f, true)
    | algo_xxh3 => let! s3 := ignore_err (XXH3_64bits_update c s3 p readSize) in OK (s32, s64, s3, buffer, f, true)
    end.
(** XSUM_hashStream: cli/xxhsum.c:250-310; also returns the buffer and the stream.  XXHSUM32_DEFAULT_SEED and
    XXHSUM64_DEFAULT_SEED are 0 (cli/xxhsum.c:219-220). *)
Definition hashStream (e : env) (t : nat) (f : file) (hashType : algo) (buffer : list Z) (blockSize : Z)
  : res (option mhash * list Z * file) :=
  let c := e_cfg e in
  let s32 := XXH32_reset 0 in
  let s64 := XXH64_reset 0 in
  let! (_, s3) := XXH3_128bits_reset c (Some (e_state3 e t)) in
  match s3 with
  | None => UB
  | Some s3 =>
      let! (s32, s64, s3, buffer, f, _) :=
        while_ (S (S (List.length (f_content f)))) (fun s => snd s) (hashStream_body e hashType (e_adr e t) blockSize)
          (s32, s64, s3, buffer, f, true) in
      if f_err f then OK (None, buffer, f)
      else
        let! h := match hashType with
          | algo_xxh32 => let! h := XXH32_digest c s32 in OK (H32 h)
          | algo_xxh64 => let! h := XXH64_digest c s64 in OK (H64 h)
          | algo_xxh128 => let! h := XXH3_128bits_digest c s3 in OK (H128 h)
          | algo_xxh3 => let! h := XXH3_64bits_digest c s3 in OK (H64 h)
          end in
        OK (Some h, buffer, f)
  end.

(* ------------------------------------------------------------------ *)
(** ** Printing checksums: cli/xxhsum.c:398-497 *)
Inductive fname := Stdin | Named (name : list Z).
Definition stdinFileName : list Z := str "stdin".   (* cli/xxhsum.c:79 *)
(** the switch at cli/xxhsum.c:438-469; [d4], [d8], [d16] is what the local variables hold before *)
Definition canonicalOf (c : cfg) (h : mhash) (d4 d8 d16 : list Z) : res (list Z) :=
  match h with
  | H32 h => XXH32_canonicalFromHash c d4 h
  | H64 h => XXH64_canonicalFromHash c d8 h
  | H128 h => XXH128_canonicalFromHash c d16 h
  end.
(** XSUM_hashFile: cli/xxhsum.c:398-472; result: the returned code ([None]: exit(1)) *)
Definition hashFile (e : env) (m : mach) (fileName : fname) (hashType : algo) (de : endianness) (conv : convention)
  : res (option Z * mach) :=
  let blockSize := 65536 in
  let opened := match fileName with
    | Stdin => Some (m_stdin m, stdinFileName)
    | Named n => if e_dir e n then None else match e_fs e n with None => None | Some f => Some (f, n) end
    end in
  match opened with
  | None => OK (Some 1, m)
  | Some (inFile, name) =>
      let '(buffer, m) := malloc e m blockSize in
      match buffer with
      | None => OK (Some 1, m)
      | Some buffer =>
          let! (h, _, f) := hashStream e (m_tick m) inFile hashType buffer blockSize in
          let m := tick match fileName with Stdin => Mach f (m_out m) (m_tick m) | _ => m end in
          match h with
          | None => OK (None, m)
          | Some h =>
              let! canon := canonicalOf (e_cfg e) h (repeat 0 4) (repeat 0 8) (repeat 0 16) in
              let! line := displayLine conv de name canon hashType in
              OK (Some 0, output m line)
          end
      end
  end.
(** XSUM_hashFiles: cli/xxhsum.c:480-495; [fnList] holds names, never the stdinName pointer *)
Fixpoint hashFiles_loop (e : env) (m : mach) (fnList : list (list Z)) (hashType : algo) (de : endianness) (conv : convention) (result : Z)
  : res (option Z * mach) :=
  match fnList with
  | [] => OK (Some result, m)
  | n :: rest =>
      let! (r, m) := hashFile e m (Named n) hashType de conv in
      match r with
      | None => OK (None, m)
      | Some r => hashFiles_loop e m rest hashType de conv (Z.lor result r)
      end
  end.
Definition hashFiles (e : env) (m : mach) (fnList : list (list Z)) (hashType : algo) (de : endianness) (conv : convention) : res (option Z * mach) :=
  match fnList with
  | [] => hashFile e m Stdin hashType de conv
  | _ => hashFiles_loop e m fnList hashType de conv 0
  end.

(* ------------------------------------------------------------------ *)
(** ** Reading lines: cli/xxhsum.c:95-100, 560-621 *)
Definition DEFAULT_LINE_LENGTH := 8 * 2 + 2 + 4096 + 1.
Definition MAX_LINE_LENGTH := 32 * 1024.
Inductive getline_res := GetLine_ok | GetLine_comment | GetLine_eof | GetLine_exceedMaxLineLength | GetLine_outOfMemory.
(** the loop of XSUM_getLine: cli/xxhsum.c:583-612.  State: buffer, lineMax, len, stream, machine, and how the loop was
    left: by break with a result, or by return. *)
Inductive left := Break (r : getline_res) | Return (r : getline_res).
Definition getLine_body (e : env) (s : list Z * Z * Z * file * mach * option left) : res (list Z * Z * Z * file * mach * option left) :=
  let '(b, lineMax, len, f, m, _) := s in
  let '(ch, f) := fgetc f in
  match ch with
  | None => OK (b, lineMax, len, f, m, Some (Break (if len =? 0 then GetLine_eof else GetLine_ok)))
  | Some ch =>
      let grown :=
        (if lineMax <=? len + 1 then
           let n := lineMax + (lineMax / 2 + 1) in
           let n := if MAX_LINE_LENGTH <? n then MAX_LINE_LENGTH else n in
           if n <=? len + 1 then (b, lineMax, m, Some (Return GetLine_exceedMaxLineLength))
           else
             match realloc e m b n with
             | (None, m) => (b, lineMax, m, Some (Return GetLine_outOfMemory))
             | (Some b, m) => (b, n, m, None)
             end
         else (b, lineMax, m, None)) in
      let '(b, lineMax, m, stop) := grown in
      match stop with
      | Some _ => OK (b, lineMax, len, f, m, stop)
      | None =>
          if ch =? LF then OK (b, lineMax, len, f, m, Some (Break GetLine_ok))
          else let! b := cset b len ch in OK (b, lineMax, len + 1, f, m, None)
      end
  end.
(** XSUM_getLine: cli/xxhsum.c:569-621; a NULL line buffer is [None] *)
Definition getLine (e : env) (m : mach) (lineBuf : option (list Z)) (lineMax : Z) (f : file)
  : res (getline_res * option (list Z) * Z * file * mach) :=
  let '(lineBuf, lineMax, m) :=
    match lineBuf with
    | Some b => if lineMax <? 1 then
        match malloc e m DEFAULT_LINE_LENGTH with (None, m) => (None, 0, m) | (Some b, m) => (Some b, DEFAULT_LINE_LENGTH, m) end
        else (Some b, lineMax, m)
    | None => match malloc e m DEFAULT_LINE_LENGTH with (None, m) => (None, 0, m) | (Some b, m) => (Some b, DEFAULT_LINE_LENGTH, m) end
    end in
  match lineBuf with
  | None => OK (GetLine_outOfMemory, None, lineMax, f, m)
  | Some b =>
      let! (b, lineMax, len, f, m, stop) :=
        while_ (S (List.length (f_content f))) (fun s => match snd s with None => true | Some _ => false end) (getLine_body e) (b, lineMax, 0, f, m, None) in
      match stop with
      | None => UB
      | Some (Return r) => OK (r, Some b, lineMax, f, m)
      | Some (Break r) =>
          let! b := cset b len 0 in
          let! ch := cget b 0 in
          let r := match r with GetLine_ok => if (0 <? len) && (ch =? 35) then GetLine_comment else GetLine_ok | r => r end in
          OK (r, Some b, lineMax, f, m)
      end
  end.

(* ------------------------------------------------------------------ *)
(** ** Checking: cli/xxhsum.c:533-557, 802-1097 *)
(** ParseFileReport: cli/xxhsum.c:533-542, without nMixedFormatLines, which is never used *)
Record report := Report {
  nProperlyFormattedLines : Z; nImproperlyFormattedLines : Z; nMismatchedChecksums : Z; nMatchedChecksums : Z;
  nOpenOrReadFailures : Z; nMissing : Z; quit : bool }.
(** the constant members of ParseFileArg: cli/xxhsum.c:544-557 *)
Record pargs := PArgs { a_name : list Z; a_strict : bool; a_status : bool; a_ignoreMissing : bool; a_warn : bool; a_quiet : bool; a_mask : Z }.
(** the rest of ParseFileArg (cli/xxhsum.c:544-559) and the variables of XSUM_parseFile1 (805-812).  [p_own] is inFile, or [None] when inFile is stdin;
    [p_break] records a break out of the loop, [p_exit] a call of exit(1). *)
Record pstate := PState { p_own : option file; p_lineBuf : option (list Z); p_lineMax : Z; p_block : list Z; p_rep : report; p_line : Z; p_m : mach;
  p_break : bool; p_exit : bool }.
(** ++ on an unsigned long (used at cli/xxhsum.c:817, 866, 874, 925-943) *)
Definition incr (e : env) (x : Z) : Z := (x + 1) mod 2 ^ e_ulbits e.
(** printf("%lu") (used at cli/xxhsum.c:929, 1039-1049) *)
Fixpoint dec_f (fuel : nat) (n : Z) : list Z :=
  match fuel with O => [] | S fuel => if n <? 10 then [48 + n] else dec_f fuel (n / 10) ++ [48 + n mod 10] end.
Definition dec (n : Z) : list Z := dec_f 40 n.

(** LineStatus: cli/xxhsum.c:515-519 *)
Inductive status := hashOk | hashFailed | failedToOpen.
(** the comparison at cli/xxhsum.c:887-911; the Canonical union holds the parsed bytes followed by zeros *)
Definition compare_hash (c : cfg) (xxh : mhash) (adr : Z) (canonical : list Z) : res status :=
  let p := Ptr (canonical ++ repeat 0 (16 - List.length canonical)) adr 0 in
  match xxh with
  | H32 h => let! v := XXH32_hashFromCanonical c p in OK (if h =? v then hashOk else hashFailed)
  | H64 h => let! v := XXH64_hashFromCanonical c p in OK (if h =? v then hashOk else hashFailed)
  | H128 h => let! v := XXH128_hashFromCanonical c p in OK (if negb (XXH128_isEqual c h v =? 0) then hashOk else hashFailed)
  end.
(** the do-while(0) block of XSUM_parseFile1: cli/xxhsum.c:874-915 ([None]: exit(1)); returns the block buffer and stdin *)
Definition verifyLine (e : env) (m : mach) (block : list Z) (filename : list Z) (a : algo) (canonical : list Z)
  : res (option status * list Z * mach) :=
  let isStdin := eqb_list filename stdinFileName in
  match (if isStdin then Some (m_stdin m) else e_fs e filename) with
  | None => OK (Some failedToOpen, block, m)
  | Some fp =>
      let! (h, block, fp) := hashStream e (m_tick m) fp a block 65536 in
      let m := tick (if isStdin then Mach fp (m_out m) (m_tick m) else m) in
      match h with
      | None => OK (None, block, m)
      | Some h => let! st := compare_hash (e_cfg e) h (e_adr e (m_tick m)) canonical in OK (Some st, block, m)
      end
  end.
(** the switch on lineStatus: cli/xxhsum.c:917-956 *)
Definition lineReport (e : env) (a : pargs) (m : mach) (r : report) (lineNumber : Z) (filename : list Z) (st : status) : report * mach :=
  let 'Report np ni nm nk no nx q := r in
  match st with
  | failedToOpen =>
      if a_ignoreMissing a then (Report np ni nm nk no (incr e nx) q, m)
      else (Report np ni nm nk (incr e no) nx q,
            if a_status a then m
            else output m (a_name a ++ str ":" ++ dec lineNumber ++ str ": Could not open or read '" ++ filename ++ str "': " ++ e_strerror e ++ str "." ++ [LF]))
  | _ =>
      let okay := match st with hashOk => true | _ => false end in
      let r := if okay then Report np ni nm (incr e nk) no nx q else Report np ni (incr e nm) nk no nx q in
      let b := negb (okay && a_quiet a) in
      (r, if b && negb (a_status a) then
            let needsEscape := filenameNeedsEscape filename in
            output m ((if needsEscape then [BSL] else []) ++ printFilename filename needsEscape ++ (if okay then str ": OK" else str ": FAILED") ++ [LF])
          else m)
  end.
Definition add_improper (e : env) (r : report) : report :=
  let 'Report np ni nm nk no nx q := r in Report np (incr e ni) nm nk no nx q.
Definition add_proper (e : env) (r : report) : report :=
  let 'Report np ni nm nk no nx q := r in Report (incr e np) ni nm nk no nx q.
Definition set_quit (r : report) : report :=
  let 'Report np ni nm nk no nx _ := r in Report np ni nm nk no nx true.
(** one iteration of the loop of XSUM_parseFile1: cli/xxhsum.c:813-957 *)
Definition parseFile1_body (e : env) (a : pargs) (rev : bool) (s : pstate) : res pstate :=
  let 'PState own lineBuf lineMax block rep line m _ _ := s in
  let line := incr e line in
  if line =? 0 then OK (PState own lineBuf lineMax block (set_quit rep) line m true false)
  else
    let inFile := match own with Some f => f | None => m_stdin m end in
    let! (g, lineBuf, lineMax, f, m) := getLine e m lineBuf lineMax inFile in
    let '(own, m) := match own with Some _ => (Some f, m) | None => (None, Mach f (m_out m) (m_tick m)) end in
    match g with
    | GetLine_comment => OK (PState own lineBuf lineMax block rep line m false false)
    | GetLine_eof => OK (PState own lineBuf lineMax block rep line m true false)
    | GetLine_exceedMaxLineLength | GetLine_outOfMemory => OK (PState own lineBuf lineMax block (set_quit rep) line m true false)
    | GetLine_ok =>
        match lineBuf with
        | None => UB
        | Some b =>
            let! (r, b) := parseLine b rev (a_mask a) in
            match r with
            | None => OK (PState own (Some b) lineMax block (add_improper e rep) line m false false)
            | Some (al, canonical, fidx) =>
                let rep := add_proper e rep in
                let! filename := cstr b fidx in
                let! (st, block, m) := verifyLine e m block filename al canonical in
                match st with
                | None => OK (PState own (Some b) lineMax block rep line m true true)
                | Some st =>
                    let '(rep, m) := lineReport e a m rep line filename st in
                    OK (PState own (Some b) lineMax block rep line m false false)
                end
            end
        end
    end.
(** XSUM_parseFile1: cli/xxhsum.c:805-958 *)
Definition parseFile1 (e : env) (a : pargs) (rev : bool) (s : pstate) : res pstate :=
  let inFile := match p_own s with Some f => f | None => m_stdin (p_m s) end in
  while_ (S (List.length (f_content inFile))) (fun s => negb (quit (p_rep s)) && negb (p_break s)) (parseFile1_body e a rev)
    (PState (p_own s) (p_lineBuf s) (p_lineMax s) (p_block s) (Report 0 0 0 0 0 0 false) 0 (p_m s) false false).
(** XSUM_checkFile: cli/xxhsum.c:976-1071; result: the returned code ([None]: exit(1)) *)
Definition summary (a : pargs) (r : report) : list Z :=
  let line (n : Z) (one many tail : list Z) := if n =? 0 then [] else dec n ++ (if n =? 1 then one else many) ++ tail ++ [LF] in
  if nProperlyFormattedLines r =? 0 then []
  else if a_status a then []
  else line (nImproperlyFormattedLines r) (str " line is") (str " lines are") (str " improperly formatted")
    ++ line (nOpenOrReadFailures r) (str " listed file") (str " listed files") (str " could not be read")
    ++ line (nMismatchedChecksums r) (str " computed checksum") (str " computed checksums") (str " did NOT match").
Definition checkFile (e : env) (m : mach) (inFileName : fname) (de : endianness) (strict status ignoreMissing warn quiet_ : bool) (mask : Z)
  : res (option Z * mach) :=
  let opened := match inFileName with
    | Stdin => Some (None, stdinFileName)
    | Named n => match e_fs e n with None => None | Some f => Some (Some f, n) end
    end in
  match opened with
  | None => OK (Some 0, m)
  | Some (own, name) =>
      let '(lineBuf, m) := malloc e m DEFAULT_LINE_LENGTH in
      let '(blockBuf, m) := malloc e m 65536 in
      match lineBuf, blockBuf with
      | Some lineBuf, Some blockBuf =>
          let a := PArgs name strict status ignoreMissing warn quiet_ mask in
          let! s := parseFile1 e a (match de with big_endian => false | little_endian => true end)
                      (PState own (Some lineBuf) DEFAULT_LINE_LENGTH blockBuf (Report 0 0 0 0 0 0 false) 0 m false false) in
          if p_exit s then OK (None, p_m s)
          else
            let r := p_rep s in
            let m := output (p_m s) (summary a r) in
            let result := negb (nProperlyFormattedLines r =? 0) && (nMismatchedChecksums r =? 0) && (nOpenOrReadFailures r =? 0)
                          && (negb strict || (nImproperlyFormattedLines r =? 0)) && negb (quit r) in
            if ignoreMissing && (nMatchedChecksums r =? 0)
            then OK (Some 0, output m (name ++ str ": no file was verified" ++ [LF]))
            else OK (Some (if result then 1 else 0), m)
      | _, _ => OK (None, m)
      end
  end.
(** XSUM_checkFiles: cli/xxhsum.c:1074-1097 *)
Fixpoint checkFiles_loop (e : env) (m : mach) (fnList : list (list Z)) (de : endianness) (strict status ignoreMissing warn quiet_ : bool) (mask ok : Z)
  : res (option Z * mach) :=
  match fnList with
  | [] => OK (Some ok, m)
  | n :: rest =>
      let! (r, m) := checkFile e m (Named n) de strict status ignoreMissing warn quiet_ mask in
      match r with
      | None => OK (None, m)
      | Some r => checkFiles_loop e m rest de strict status ignoreMissing warn quiet_ mask (Z.land ok r)
      end
  end.
Definition checkFiles (e : env) (m : mach) (fnList : list (list Z)) (de : endianness) (strict status ignoreMissing warn quiet_ : bool) (mask : Z)
  : res (option Z * mach) :=
  let! (r, m) := match fnList with
    | [] => let! (r, m) := checkFile e m Stdin de strict status ignoreMissing warn quiet_ mask in
            OK (match r with None => None | Some r => Some (Z.land 1 r) end, m)
    | _ => checkFiles_loop e m fnList de strict status ignoreMissing warn quiet_ mask 1
    end in
  OK (match r with None => None | Some ok => Some (if ok =? 0 then 1 else 0) end, m).
