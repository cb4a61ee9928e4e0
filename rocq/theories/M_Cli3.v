(** Model of the command line of xxhsum (cli/xxhsum.c:1148-1370): numeric arguments, options, and the choice of what to do.

    [argv] is the list of the argument strings, without their NUL; an argument that is walked by a pointer becomes a
    buffer that ends with the NUL.  What the messages on stderr say is in M_CliErr.v and M_BenchErr.v.  The variables of XSUM_main and the
    globals it changes (XSUM_logLevel, g_testIDs) are one record.  g_defaultAlgo is only read by the help text. *)
From Coq Require Import String Ascii List.
From Verif Require Import Base Mem M_Cli M_Cli2.

(** XSUM_lastNameFromPath: cli/xxhsum.c:1154-1160; 47 is '/' *)
Definition lastNameFromPath (path : list Z) : res (list Z) :=
  let b := path ++ [0] in
  let! k := strrchr b 0 47 in
  let name := match k with Some k => k + 1 | None => 0 end in
  let! k := strrchr b name BSL in
  let name := match k with Some k => k + 1 | None => name end in
  cstr b name.

(** XSUM_readU32FromCharChecked: cli/xxhsum.c:1169-1193, on the string at index [i].  The result: the value ([None]: the
    error code 1) and the new index.
    Loop state (lines 1173-1178): index, result, and how the loop was left: at a character that is no digit (true) or by
    the overflow return (false). *)
Definition readU32_body (b : list Z) (s : Z * Z * option bool) : res (Z * Z * option bool) :=
  let '(i, result, _) := s in
  let max := (2 ^ 32 - 1) / 10 - 1 in
  let! ch := cget b i in
  if (48 <=? ch) && (ch <=? 57) then
    if max <? result then OK (i, result, Some false)
    else OK (i + 1, (result * 10 mod 2 ^ 32 + (ch - 48)) mod 2 ^ 32, None)
  else OK (i, result, Some true).
Definition readU32FromCharChecked (b : list Z) (i : Z) : res (option Z * Z) :=
  let! (i, result, left) := while_ (S (List.length b)) (fun s => match snd s with None => true | Some _ => false end) (readU32_body b) (i, 0, None) in
  match left with
  | None => UB
  | Some false => OK (None, i)
  | Some true =>
      let! ch := cget b i in
      if (ch =? 75) || (ch =? 77) then
        let maxK := Z.shiftr (2 ^ 32 - 1) 10 in
        if maxK <? result then OK (None, i)
        else
          let result := Z.shiftl result 10 mod 2 ^ 32 in
          if (ch =? 77) && (maxK <? result) then OK (None, i)
          else
            let result := if ch =? 77 then Z.shiftl result 10 mod 2 ^ 32 else result in
            let i := i + 1 in
            let! ch := cget b i in
            let i := if ch =? 105 then i + 1 else i in
            let! ch := cget b i in
            let i := if ch =? 66 then i + 1 else i in
            OK (Some result, i)
      else OK (Some result, i)
  end.

(** the variables of XSUM_main (cli/xxhsum.c:1213-1229), with XSUM_logLevel (cli/xsum_output.c:29) and g_testIDs
    (cli/xsum_bench.c:219) *)
Record opts := Opts {
  benchmarkMode : bool; fileCheckMode : bool; strictMode : bool; statusOnly : bool; warn : bool; ignoreMissing : bool;
  algoBitmask : Z; explicitStdin : bool; selectBenchIDs : Z; keySize : Z; o_algo : algo; displayEndianness : endianness;
  o_convention : convention; nbIterations : Z; logLevel : Z; testIDs : list Z }.
Definition kBenchAll := 99.            (* cli/xxhsum.c:1224 *)
Definition NB_TESTFUNC := 29.          (* cli/xsum_bench.c:200-217: 1 + 2 * 14 *)
Definition NBLOOPS_DEFAULT := 3.       (* cli/xsum_bench.h:31 *)
Definition XSUM_DEFAULT_SAMPLE_SIZE := 100 * 1024.   (* cli/xxhsum.c:102 *)
(** the initial values: cli/xxhsum.c:1213-1229 *)
Definition opts0 : opts :=
  Opts false false false false false false 15 false 0 XSUM_DEFAULT_SAMPLE_SIZE algo_xxh64 big_endian display_gnu NBLOOPS_DEFAULT 2 (repeat 0 29).
(** assignments to one variable of main (the variables: cli/xxhsum.c:1213-1229; the assignments: 1232-1345) *)
Definition set_bench (o : opts) (sel : Z) : opts :=
  Opts true (fileCheckMode o) (strictMode o) (statusOnly o) (warn o) (ignoreMissing o) (algoBitmask o) (explicitStdin o) sel (keySize o) (o_algo o) (displayEndianness o) (o_convention o) (nbIterations o) (logLevel o) (testIDs o).
Definition set_check (o : opts) : opts :=
  Opts (benchmarkMode o) true (strictMode o) (statusOnly o) (warn o) (ignoreMissing o) (algoBitmask o) (explicitStdin o) (selectBenchIDs o) (keySize o) (o_algo o) (displayEndianness o) (o_convention o) (nbIterations o) (logLevel o) (testIDs o).
Definition set_strict (o : opts) : opts :=
  Opts (benchmarkMode o) (fileCheckMode o) true (statusOnly o) (warn o) (ignoreMissing o) (algoBitmask o) (explicitStdin o) (selectBenchIDs o) (keySize o) (o_algo o) (displayEndianness o) (o_convention o) (nbIterations o) (logLevel o) (testIDs o).
Definition set_status (o : opts) : opts :=
  Opts (benchmarkMode o) (fileCheckMode o) (strictMode o) true (warn o) (ignoreMissing o) (algoBitmask o) (explicitStdin o) (selectBenchIDs o) (keySize o) (o_algo o) (displayEndianness o) (o_convention o) (nbIterations o) (logLevel o) (testIDs o).
Definition set_warn (o : opts) : opts :=
  Opts (benchmarkMode o) (fileCheckMode o) (strictMode o) (statusOnly o) true (ignoreMissing o) (algoBitmask o) (explicitStdin o) (selectBenchIDs o) (keySize o) (o_algo o) (displayEndianness o) (o_convention o) (nbIterations o) (logLevel o) (testIDs o).
Definition set_ignoreMissing (o : opts) : opts :=
  Opts (benchmarkMode o) (fileCheckMode o) (strictMode o) (statusOnly o) (warn o) true (algoBitmask o) (explicitStdin o) (selectBenchIDs o) (keySize o) (o_algo o) (displayEndianness o) (o_convention o) (nbIterations o) (logLevel o) (testIDs o).
Definition set_mask (o : opts) (a : algo) : opts :=
  Opts (benchmarkMode o) (fileCheckMode o) (strictMode o) (statusOnly o) (warn o) (ignoreMissing o) (Z.shiftl 1 (algo_num a)) (explicitStdin o) (selectBenchIDs o) (keySize o) a (displayEndianness o) (o_convention o) (nbIterations o) (logLevel o) (testIDs o).
Definition set_stdin (o : opts) : opts :=
  Opts (benchmarkMode o) (fileCheckMode o) (strictMode o) (statusOnly o) (warn o) (ignoreMissing o) (algoBitmask o) true (selectBenchIDs o) (keySize o) (o_algo o) (displayEndianness o) (o_convention o) (nbIterations o) (logLevel o) (testIDs o).
Definition set_keySize (o : opts) (k : Z) : opts :=
  Opts (benchmarkMode o) (fileCheckMode o) (strictMode o) (statusOnly o) (warn o) (ignoreMissing o) (algoBitmask o) (explicitStdin o) (selectBenchIDs o) k (o_algo o) (displayEndianness o) (o_convention o) (nbIterations o) (logLevel o) (testIDs o).
Definition set_algo (o : opts) (a : algo) : opts :=
  Opts (benchmarkMode o) (fileCheckMode o) (strictMode o) (statusOnly o) (warn o) (ignoreMissing o) (algoBitmask o) (explicitStdin o) (selectBenchIDs o) (keySize o) a (displayEndianness o) (o_convention o) (nbIterations o) (logLevel o) (testIDs o).
Definition set_little (o : opts) : opts :=
  Opts (benchmarkMode o) (fileCheckMode o) (strictMode o) (statusOnly o) (warn o) (ignoreMissing o) (algoBitmask o) (explicitStdin o) (selectBenchIDs o) (keySize o) (o_algo o) little_endian (o_convention o) (nbIterations o) (logLevel o) (testIDs o).
Definition set_tag (o : opts) : opts :=
  Opts (benchmarkMode o) (fileCheckMode o) (strictMode o) (statusOnly o) (warn o) (ignoreMissing o) (algoBitmask o) (explicitStdin o) (selectBenchIDs o) (keySize o) (o_algo o) (displayEndianness o) display_bsd (nbIterations o) (logLevel o) (testIDs o).
Definition set_iterations (o : opts) (n : Z) : opts :=
  Opts (benchmarkMode o) (fileCheckMode o) (strictMode o) (statusOnly o) (warn o) (ignoreMissing o) (algoBitmask o) (explicitStdin o) (selectBenchIDs o) (keySize o) (o_algo o) (displayEndianness o) (o_convention o) n (logLevel o) (testIDs o).
(** XSUM_logLevel--: an int that overflows below -2^31 (cli/xxhsum.c:1244, 1339) *)
Definition dec_logLevel (o : opts) : res opts :=
  if logLevel o <=? - 2 ^ 31 then UB
  else OK (Opts (benchmarkMode o) (fileCheckMode o) (strictMode o) (statusOnly o) (warn o) (ignoreMissing o) (algoBitmask o) (explicitStdin o) (selectBenchIDs o) (keySize o) (o_algo o) (displayEndianness o) (o_convention o) (nbIterations o) (logLevel o - 1) (testIDs o)).
(** g_testIDs[id] = 1: cli/xxhsum.c:1317, the array cli/xsum_bench.c:219 *)
Definition set_testID (o : opts) (id : Z) : res opts :=
  let! t := cset (testIDs o) id 1 in
  OK (Opts (benchmarkMode o) (fileCheckMode o) (strictMode o) (statusOnly o) (warn o) (ignoreMissing o) (algoBitmask o) (explicitStdin o) (selectBenchIDs o) (keySize o) (o_algo o) (displayEndianness o) (o_convention o) (nbIterations o) (logLevel o) t).
(** the conversion to int: two's complement, as every compiler defines it (cli/xxhsum.c:1316, 1327) *)
Definition to_int (x : Z) : Z := if x <? 2 ^ 31 then x else x - 2 ^ 32.

(** how option processing can end the program (cli/xxhsum.c:1242-1344): the version (which runs XSUM_sanityCheck and returns 0), the help page
    (returns 0), XSUM_badusage (returns 1), errorOut (exit(1)) *)
Inductive stop := Version | Help | BadUsage | TooLarge.

(** the do-while of case 'b': cli/xxhsum.c:1310-1322.  State: index, variables, whether to go on, whether errorOut was
    called. *)
Definition bench_body (b : list Z) (s : Z * opts * bool * bool) : res (Z * opts * bool * bool) :=
  let '(i, o, _, _) := s in
  let! ch := cget b i in
  let i := if ch =? 44 then i + 1 else i in
  let! (n, i) := readU32FromCharChecked b i in
  match n with
  | None => OK (i, o, false, true)
  | Some n =>
      let o := set_bench o n in
      let! o := if to_int n <? NB_TESTFUNC then set_testID o n else OK (set_bench o kBenchAll) in
      let! ch := cget b i in
      OK (i, o, ch =? 44, false)
  end.
(** the switch of the while loop: cli/xxhsum.c:1269-1344.  State: index, variables, and how the program ended. *)
Definition cluster_body (b : list Z) (s : Z * opts * option stop * bool) : res (Z * opts * option stop * bool) :=
  let '(i, o, _, _) := s in
  let! ch := cget b i in
  if ch =? 0 then OK (i, o, None, false)
  else if ch =? 86 then OK (i, o, Some Version, false)
  else if ch =? 104 then OK (i, o, Some Help, false)
  else if ch =? 72 then
    let! (n, i) := readU32FromCharChecked b (i + 1) in
    match n with
    | None => OK (i, o, Some TooLarge, false)
    | Some n =>
        if (n =? 0) || (n =? 32) then OK (i, set_algo o algo_xxh32, None, true)
        else if (n =? 1) || (n =? 64) then OK (i, set_algo o algo_xxh64, None, true)
        else if (n =? 2) || (n =? 128) then OK (i, set_algo o algo_xxh128, None, true)
        else if n =? 3 then OK (i, set_algo o algo_xxh3, None, true)
        else OK (i, o, Some BadUsage, false)
    end
  else if ch =? 99 then OK (i + 1, set_check o, None, true)
  else if ch =? 119 then OK (i + 1, set_warn o, None, true)
  else if ch =? 98 then
    let! (i, o, _, over) := while_ (S (List.length b)) (fun s => snd (fst s)) (bench_body b) (i + 1, set_bench o (selectBenchIDs o), true, false) in
    OK (i, o, if over then Some TooLarge else None, negb over)
  else if ch =? 105 then
    let! (n, i) := readU32FromCharChecked b (i + 1) in
    match n with None => OK (i, o, Some TooLarge, false) | Some n => OK (i, set_iterations o (to_int n), None, true) end
  else if ch =? 66 then
    let! (n, i) := readU32FromCharChecked b (i + 1) in
    match n with None => OK (i, o, Some TooLarge, false) | Some n => OK (i, set_keySize o n, None, true) end
  else if ch =? 113 then
    let! o := dec_logLevel o in OK (i + 1, o, None, true)
  else OK (i, o, Some BadUsage, false).
(** the while loop: cli/xxhsum.c:1268-1345, from the character after the '-' *)
Definition cluster (b : list Z) (o : opts) : res (opts * option stop) :=
  let! (_, o, st, _) := while_ (S (List.length b)) (fun s => snd s) (cluster_body b) (1, o, None, true) in OK (o, st).

(** the options of the whole line: cli/xxhsum.c:1237-1346.  The result: how the program ended, or the variables and the
    file names (none: filenamesStart is 0). *)
Fixpoint options (o : opts) (args : list (list Z)) : res (stop + opts * list (list Z)) :=
  match args with
  | [] => OK (inr (o, []))
  | a :: rest =>
      let is s := eqb_list a s in
      if is (str "--check") then options (set_check o) rest
      else if is (str "--benchmark-all") then options (set_bench o kBenchAll) rest
      else if is (str "--bench-all") then options (set_bench o kBenchAll) rest
      else if is (str "--quiet") then let! o := dec_logLevel o in options o rest
      else if is (str "--little-endian") then options (set_little o) rest
      else if is (str "--strict") then options (set_strict o) rest
      else if is (str "--status") then options (set_status o) rest
      else if is (str "--warn") then options (set_warn o) rest
      else if is (str "--binary") then options o rest
      else if is (str "--ignore-missing") then options (set_ignoreMissing o) rest
      else if is (str "--help") then OK (inl Help)
      else if is (str "--version") then OK (inl Version)
      else if is (str "--tag") then options (set_tag o) rest
      else if is (str "--") then OK (inr (o, rest))
      else
        let b := a ++ [0] in
        let! ch := cget b 0 in
        if negb (ch =? 45) then OK (inr (o, a :: rest))
        else
          let! ch := cget b 1 in
          let o := if ch =? 0 then set_stdin o else o in
          let! (o, st) := cluster b o in
          match st with Some st => OK (inl st) | None => options o rest end
  end.
(** the special case of the names xxhNNsum: cli/xxhsum.c:1231-1235 *)
Definition named (exename : list Z) (o : opts) : opts :=
  let o := if containsb (str "xxh32sum") exename then set_mask o algo_xxh32 else o in
  let o := if containsb (str "xxh64sum") exename then set_mask o algo_xxh64 else o in
  let o := if containsb (str "xxh128sum") exename then set_mask o algo_xxh128 else o in
  if containsb (str "xxh3sum") exename then set_mask o algo_xxh3 else o.

(** what XSUM_main does after the options: cli/xxhsum.c:1348-1370 *)
Inductive action :=
  | Stop (st : stop)
  | Bench (ids : list Z) (iterations : Z) (sampleSize : Z) (names : list (list Z))
  | Check (names : list (list Z)) (de : endianness) (strict status ignore warn quiet_ : bool) (mask : Z)
  | Hash (names : list (list Z)) (a : algo) (de : endianness) (conv : convention).
(** k_testIDs_default: cli/xsum_bench.c:220-224 *)
Definition k_testIDs_default : list Z := [0; 1; 0; 1; 0; 1; 0; 0; 0; 0; 0; 1] ++ repeat 0 17.
Definition choose (console : bool) (o : opts) (names : list (list Z)) : action :=
  if benchmarkMode o then
    let ids := if selectBenchIDs o =? 0 then k_testIDs_default else testIDs o in
    let ids := if selectBenchIDs o =? kBenchAll then repeat 1 29 else ids in
    Bench ids (nbIterations o) (keySize o) names
  else if (match names with [] => true | _ => false end) && console && negb (explicitStdin o) then Stop BadUsage
  else if fileCheckMode o then
    Check names (displayEndianness o) (strictMode o) (statusOnly o) (ignoreMissing o) (warn o) (logLevel o <? 2) (algoBitmask o)
  else Hash names (o_algo o) (displayEndianness o) (o_convention o).
(** the first part of XSUM_main: cli/xxhsum.c:1211-1370; [console]: XSUM_isConsole(stdin) *)
Definition command (console : bool) (argv : list (list Z)) : res action :=
  match argv with
  | [] => UB
  | exe :: args =>
      let! exename := lastNameFromPath exe in
      let! r := options (named exename opts0) args in
      match r with
      | inl st => OK (Stop st)
      | inr (o, names) => OK (choose console o names)
      end
  end.
(** XSUM_main: cli/xxhsum.c:1211-1370, except for the benchmark, which is given as an action *)
Inductive outcome := Exits (code : Z) (m : mach) | Benchmark (ids : list Z) (iterations sampleSize : Z) (names : list (list Z)).
Definition XSUM_main (e : env) (console : bool) (m : mach) (argv : list (list Z)) : res outcome :=
  let! a := command console argv in
  let exits (r : option Z * mach) := OK (Exits match fst r with Some c => c | None => 1 end (snd r)) in
  match a with
  | Stop Version | Stop Help => OK (Exits 0 m)
  | Stop BadUsage | Stop TooLarge => OK (Exits 1 m)
  | Bench ids it size names => OK (Benchmark ids it size names)
  | Check names de strict status ignore warn q mask => let! r := checkFiles e m names de strict status ignore warn q mask in exits r
  | Hash names a de conv => let! r := hashFiles e m names a de conv in exits r
  end.
