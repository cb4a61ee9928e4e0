(** Model of the program benchHash of tests/bench (benchHash.c, bhDisplay.c, hashes.h, main.c).

    The clock, the duration of every call, rand() and the memory malloc delivers are arguments ([ambient]).  What the
    program prints is modelled as the list of the cells it computes; the text around them is not.  malloc succeeds.  A
    failed assert of main.c and bhDisplay.c, which depends on the command line, aborts the program; those of benchHash.c
    are [UB], as in M_BenchFn.v. *)
From Coq Require Import String.
From Verif Require Import Base Mem M_XXH32 M_XXH64 M_XXH3 M_Long M_Util M_Cli M_BenchFn.
Import BF.

Module BH.
(** the outside world: the duration in nanoseconds of the [k]-th call of a hash function on [n] bytes, the [k]-th number of rand() after
    srand(seed), the content and the address of fresh memory (benchHash.c:70, 123; benchfn.c:117-138) *)
Record ambient := Ambient { a_tick : Z -> Z -> Z; a_rand : Z -> Z -> Z; a_fresh : Z -> list Z; a_addr : Z -> Z }.
(** its state: the time in nanoseconds, the number of calls so far, the state of rand(), the static variable of benchLatency (benchHash.c:134) *)
Record world := World { w_clock : Z; w_calls : Z; w_seed : Z; w_rands : Z; w_hash : Z }.
(** the clock (timefn.c:92-102), and memset into the buffer nobody reads (benchHash.c:75, benchfn.c:113): only its bounds are kept *)
Definition benv : env world := Env (fun w => (w, (w_clock w / 1000000000, w_clock w mod 1000000000))) (fun dst cap w => let! _ := load dst cap in OK w).

(** BMK_benchFn_t: benchfn.h:56, with the world it changes *)
Definition benchFn := ptr -> Z -> ptr -> Z -> world -> res (world * Z).
(** one call of a hash function takes time: what the bodies of hashes.h:69-94 have in common *)
Definition timed_call (c : cfg) (a : ambient) (h : ptr -> Z -> res Z) : benchFn := fun src srcSize _ _ w =>
  let! r := h src srcSize in
  OK (World (w_clock w + a_tick a (w_calls w) srcSize) (w_calls w + 1) (w_seed w) (w_rands w) (w_hash w), usz c r).
(** XXH32_wrapper: hashes.h:69-73 *)
Definition XXH32_wrapper (c : cfg) (a : ambient) : benchFn := timed_call c a (fun src srcSize => XXH32 c src srcSize 0).
(** XXH64_wrapper: hashes.h:76-80 *)
Definition XXH64_wrapper (c : cfg) (a : ambient) : benchFn := timed_call c a (fun src srcSize => XXH64 c src srcSize 0).
(** xxh3_wrapper: hashes.h:83-87 *)
Definition xxh3_wrapper (c : cfg) (a : ambient) : benchFn := timed_call c a (fun src srcSize => XXH3_64bits c src srcSize).
(** XXH128_wrapper: hashes.h:90-94 *)
Definition XXH128_wrapper (c : cfg) (a : ambient) : benchFn := timed_call c a (fun src srcSize => let! h := XXH3_128bits c src srcSize in OK (fst h)).
(** hashCandidates: hashes.h:110-118 *)
Definition hashCandidates (c : cfg) (a : ambient) : list (list Z * benchFn) :=
  [ (str "xxh3", xxh3_wrapper c a); (str "XXH32", XXH32_wrapper c a); (str "XXH64", XXH64_wrapper c a); (str "XXH128", XXH128_wrapper c a) ].
(** NB_HASHES: hashes.h:104-108 *)
Definition NB_HASHES := 4.

(** ** benchHash.c *)
(** initBuffer: benchHash.c:36-46 *)
Definition initBuffer (buffer : list Z) (size : Z) : res (list Z) :=
  let! (p, _) := for_ (Z.to_nat size) 0 (fun s '(p, acc) =>
    let acc := mul64 acc 11400714785074694791 in
    let! p := store p s [shr acc 56] in
    OK (p, acc)) (buffer, 14029467366897019727) in
  OK p.
(** MARGIN_FOR_LATENCY, START_MASK: benchHash.c:49-50 *)
Definition MARGIN_FOR_LATENCY := 1024.
Definition START_MASK := MARGIN_FOR_LATENCY - 1.
(** rand_1_N, identity: benchHash.c:123-125 *)
Definition rand_1_N (c : cfg) (a : ambient) (N : Z) (w : world) : res (world * Z) :=
  if N =? 0 then UB
  else OK (World (w_clock w) (w_calls w) (w_seed w) (w_rands w + 1) (w_hash w), usz c (usz c (a_rand a (w_seed w) (w_rands w)) mod N + 1)).
Definition identity (s : Z) (w : world) : res (world * Z) := OK (w, s).
(** srand (used at bhDisplay.c:123, 146) *)
Definition srand (seed : Z) (w : world) : world := World (w_clock w) (w_calls w) (u32 seed) 0 (w_hash w).
(** benchLatency: benchHash.c:127-139; the custom payload is the function [f] *)
Definition benchLatency (f : benchFn) : benchFn := fun src srcSize dst dstCapacity w =>
  let start := padd src (Z.land (w_hash w) START_MASK) in
  let! (w, r) := f start srcSize dst dstCapacity w in
  OK (World (w_clock w) (w_calls w) (w_seed w) (w_rands w) r, r).
(** bench_hash_internal: benchHash.c:59-120.  BMK_initStatic_timedFnState never fails on the shell (static assert
    benchfn.c:171).  The arrays have the nbBlocks elements that are set, of the NB_BLOCKS_MAX declared.  The speed returned is
    1e9 / nanoSecPerRun * nbBlocks, kept as the run time and nbBlocks. *)
Definition bench_hash_internal (c : cfg) (a : ambient) (fuel : nat) (hashfn : benchFn) (nbBlocks : Z) (selectSize : Z -> world -> res (world * Z))
    (size total_time_ms iter_time_ms : Z) (w : world) : res (world * (runTime * Z)) :=
  let txf := resetTimed c total_time_ms iter_time_ms in
  let srcBufferSize := usz c (size + MARGIN_FOR_LATENCY) in
  let! buffer := initBuffer (a_fresh a srcBufferSize) srcBufferSize in
  let src := Ptr buffer (a_addr a srcBufferSize) 0 in
  let dst := Ptr (repeat 0 32) 0 0 in
  let! _ := assert_ (nbBlocks <? 1024) in
  let! _ := assert_ (0 <? size) in
  let! (w, srcSizes) := for_ (Z.to_nat nbBlocks) 0 (fun _ '(w, l) => let! (w, s) := selectSize size w in OK (w, l ++ [s])) (w, []) in
  let n := Z.to_nat nbBlocks in
  let p := Params hashfn None None nbBlocks (repeat src n) srcSizes (repeat dst n) (repeat 32 n) in
  let! (w, _, _, result) := session c benv fuel p txf w None (Valid (RunTime 0 1 0)) in
  let! runTime := extract_runTime result in
  let! _ := assert_ (negb (rt_ns runTime =? 0)) in
  OK (w, (runTime, nbBlocks)).
(** bench_hash: benchHash.c:143-166 *)
Definition bench_hash (c : cfg) (a : ambient) (fuel : nat) (hashfn : benchFn) (latency : bool) (size : Z) (random : bool)
    (total_time_ms iter_time_ms : Z) (w : world) : res (world * (runTime * Z)) :=
  let sizef := if random then rand_1_N c a else identity in
  let benchfn := if latency then benchLatency hashfn else hashfn in
  if size =? 0 then UB      (* division by zero *)
  else
    let nbBlocks := usz c (200000 / size + 1) in
    let nbBlocks := if 1000 <? nbBlocks then 1000 else nbBlocks in
    bench_hash_internal c a fuel benchfn nbBlocks sizef size total_time_ms iter_time_ms w.

(** ** bhDisplay.c *)
(** the five tables of the program, and one line of a table: its name and, for each size, what bench_hash returned (bhDisplay.c:43-160) *)
Inductive table := LargeInput | ThroughputSmall | ThroughputRandom | LatencySmall | LatencyRandom.
Record row := Row { r_table : table; r_name : list Z; r_cells : list (Z * (runTime * Z)) }.
(** bench_oneHash_largeInput: bhDisplay.c:43-54 *)
Definition oneHash_largeInput (c : cfg) (a : ambient) (fuel : nat) (h : list Z * benchFn) (minlog maxlog : Z) (w : world) : res (world * row) :=
  let! (w, cells) := for_ (Z.to_nat (maxlog + 1 - minlog)) minlog (fun sizelog '(w, cells) =>
    let inputSize := usz c (Z.shiftl 1 sizelog) in
    let! (w, nbhps) := bench_hash c a fuel (snd h) false inputSize false 1010 490 w in
    OK (w, cells ++ [(inputSize, nbhps)])) (w, []) in
  OK (w, Row LargeInput (fst h) cells).
(** the four loops over small sizes: bhDisplay.c:73-83, 97-107, 119-130, 142-153.  The condition is s < sizeMax + 1; s++ cannot wrap below it *)
Definition oneHash_small (c : cfg) (a : ambient) (fuel : nat) (t : table) (latency random : bool) (h : list Z * benchFn) (sizeMin sizeMax : Z) (w : world) : res (world * row) :=
  let! (w, cells) := for_ (Z.to_nat (usz c (sizeMax + 1) - sizeMin)) sizeMin (fun s '(w, cells) =>
    let w := if random then srand s w else w in
    let! (w, nbhps) := bench_hash c a fuel (snd h) latency s random 490 170 w in
    OK (w, cells ++ [(s, nbhps)])) (w, []) in
  OK (w, Row t (fst h) cells).
(** the loops over the hashes: bhDisplay.c:63-64, 89-90, 112-113, 135-136, 158-159; [tab] is the table from hashNb on *)
Definition all_hashes (tab : list (list Z * benchFn)) (nbHashes : Z) (f : list Z * benchFn -> world -> res (world * row)) (s : world * list row) : res (world * list row) :=
  for_ (Z.to_nat nbHashes) 0 (fun i '(w, rows) => let! h := at_ tab i in let! (w, r) := f h w in OK (w, rows ++ [r])) s.
(** bench_largeInput: bhDisplay.c:56-65; [None] when an assert fails *)
Definition bench_largeInput (c : cfg) (a : ambient) (fuel : nat) (tab : list (list Z * benchFn)) (nbHashes minlog maxlog : Z) (s : world * list row) : res (option (world * list row)) :=
  if negb (maxlog <? 31) then OK None
  else if negb (0 <=? minlog) then OK None
  else let! s := all_hashes tab nbHashes (fun h w => oneHash_largeInput c a fuel h minlog maxlog w) s in OK (Some s).

(** ** main.c *)
(** int arithmetic (used at main.c:56-66) *)
Definition s32 (x : Z) : res Z := if (- 2 ^ 31 <=? x) && (x <? 2 ^ 31) then OK x else UB.
(** the first character of a string, 0 at its end (used at main.c:54-70) *)
Definition ch (s : list Z) : Z := match s with [] => 0 | x :: _ => x end.
(** the loop over the digits: main.c:54-59; [None] when an assert fails *)
Fixpoint readDigits (s : list Z) (result : Z) : res (option (Z * list Z)) :=
  match s with
  | x :: s' => if (48 <=? x) && (x <=? 57) then
                 if negb (result <? (2 ^ 31 - 1) / 10 - 1) then OK None else
                 let! result := s32 (result * 10) in
                 let! result := s32 (result + (x - 48)) in
                 readDigits s' result
               else OK (Some (result, s))
  | [] => OK (Some (result, s))
  end.
(** readIntFromChar: main.c:50-73 (K = 75, M = 77, i = 105, B = 66); [None] when an assert fails *)
Definition readIntFromChar (s : list Z) : res (option (Z * list Z)) :=
  let! r := readDigits s 0 in
  match r with
  | None => OK None
  | Some (result, s) =>
      if (ch s =? 75) || (ch s =? 77) then
        let maxK := shr (2 ^ 31 - 1) 10 in
        if negb (result <? maxK) then OK None else
        let! result := s32 (result * 2 ^ 10) in
        if (ch s =? 77) && negb (result <? maxK) then OK None else
        let! result := if ch s =? 77 then s32 (result * 2 ^ 10) else OK result in
        let s := tl s in
        let s := if ch s =? 105 then tl s else s in
        let s := if ch s =? 66 then tl s else s in
        OK (Some (result, s))
      else OK (Some (result, s))
  end.
(** isCommand: main.c:81-87: [string] starts with [longCommand] *)
Definition isCommand (string longCommand : list Z) : bool := prefixb longCommand string.
(** hashID: main.c:138-148 *)
Fixpoint hashID_from (id : Z) (names : list (list Z)) (hname : list Z) : Z :=
  match names with
  | [] => -1
  | n :: names => if negb (zlen hname =? zlen n) then hashID_from (id + 1) names hname
                  else if isCommand hname n then id else hashID_from (id + 1) names hname
  end.
Definition hashID (names : list (list Z)) (hname : list Z) : Z := hashID_from 0 names hname.

(** the variables of main: main.c:175-180, with their defaults (109-120) *)
Record settings := Settings { s_hashNb : Z; s_nb_h_test : Z; s_log_min : Z; s_log_max : Z; s_size_min : Z; s_size_max : Z }.
Definition defaults : settings := Settings 0 NB_HASHES 9 27 1 127.
(** how a failed assert ends the program: the status a shell shows for abort() (used at main.c:55-65, bhDisplay.c:58-59) *)
Definition ABORT := 134.
(** [x = readIntFromChar(arg)]: main.c:187-191 *)
Definition with_int (arg : list Z) (f : Z -> settings) : res (settings + Z) :=
  let! r := readIntFromChar arg in
  OK (match r with None => inr ABORT | Some (v, _) => inl (f v) end).
(** one argument: main.c:184-199.  [inr code] leaves the program *)
Definition one_arg (names : list (list Z)) (arg : list Z) (s : settings) : res (settings + Z) :=
  if isCommand arg (str "-h") then OK (inr 0)
  else if isCommand arg (str "--list") then OK (inr 0)
  else if isCommand arg (str "--n=") then with_int (skipn 4 arg) (fun v => Settings (s_hashNb s) v (s_log_min s) (s_log_max s) (s_size_min s) (s_size_max s))
  else if isCommand arg (str "--minl=") then with_int (skipn 7 arg) (fun v => Settings (s_hashNb s) (s_nb_h_test s) v (s_log_max s) (s_size_min s) (s_size_max s))
  else if isCommand arg (str "--maxl=") then with_int (skipn 7 arg) (fun v => Settings (s_hashNb s) (s_nb_h_test s) (s_log_min s) v (s_size_min s) (s_size_max s))
  else if isCommand arg (str "--mins=") then with_int (skipn 7 arg) (fun v => Settings (s_hashNb s) (s_nb_h_test s) (s_log_min s) (s_log_max s) v (s_size_max s))
  else if isCommand arg (str "--maxs=") then with_int (skipn 7 arg) (fun v => Settings (s_hashNb s) (s_nb_h_test s) (s_log_min s) (s_log_max s) (s_size_min s) v)
  else
    let id := hashID names arg in
    if 0 <=? id then OK (inl (Settings id 1 (s_log_min s) (s_log_max s) (s_size_min s) (s_size_max s)))
    else OK (inr 1).
(** the loop over the arguments: main.c:183-200 *)
Fixpoint all_args (names : list (list Z)) (args : list (list Z)) (s : settings) : res (settings + Z) :=
  match args with
  | [] => OK (inl s)
  | arg :: args => let! r := one_arg names arg s in
                   match r with inl s => all_args names args s | inr code => OK (inr code) end
  end.
(** the benchmarks asked for: main.c:203-219: the exit code and the rows *)
Definition run_benchmarks (c : cfg) (a : ambient) (fuel : nat) (s : settings) (w : world) : res (world * Z * list row) :=
  let! sum := s32 (s_hashNb s + s_nb_h_test s) in
  if NB_HASHES <? sum then OK (w, 1, [])
  else
    let tab := skipn (Z.to_nat (s_hashNb s)) (hashCandidates c a) in
    let n := s_nb_h_test s in
    let! st := if s_log_min s <=? s_log_max s then bench_largeInput c a fuel tab n (s_log_min s) (s_log_max s) (w, []) else OK (Some (w, [])) in
    match st with
    | None => OK (w, ABORT, [])
    | Some st =>
        let! (w, rows) :=
          if s_size_min s <=? s_size_max s then
            let! st := all_hashes tab n (fun h => oneHash_small c a fuel ThroughputSmall false false h (s_size_min s) (s_size_max s)) st in
            let! st := all_hashes tab n (fun h => oneHash_small c a fuel ThroughputRandom false true h (s_size_min s) (s_size_max s)) st in
            let! st := all_hashes tab n (fun h => oneHash_small c a fuel LatencySmall true false h (s_size_min s) (s_size_max s)) st in
            all_hashes tab n (fun h => oneHash_small c a fuel LatencyRandom true true h (s_size_min s) (s_size_max s)) st
          else OK st in
        OK (w, 0, rows)
    end.
(** main: main.c:172-220; [args] are the arguments after the name of the program *)
Definition main (c : cfg) (a : ambient) (fuel : nat) (args : list (list Z)) (w : world) : res (world * Z * list row) :=
  let! r := all_args (map fst (hashCandidates c a)) args defaults in
  match r with inr code => OK (w, code, []) | inl s => run_benchmarks c a fuel s w end.
End BH.
