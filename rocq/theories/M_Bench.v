(** Model of the benchmark of xxhsum (cli/xsum_bench.c).

    Timing is not modelled: how often a hash is repeated after the first round depends on the clock, so the numbers of calls of
    the later rounds are arguments ([a_later]) and the theorems quantify over all of them (M_BenchClock.v computes them from
    the clock).  There is a first round unless the number of -i is negative as an int (M_BenchClock.v).  The messages and the speeds
    printed are not modelled.  What a benchmark returns in the model is the list of the sums [r] of each round. *)
From Coq Require Import String.
From Verif Require Import Base Mem M_XXH32 M_XXH64 M_XXH3 M_Kernels M_Long M_Stream3 M_Util M_Sanity M_Cli.

(** cli/xsum_config.h:210, cli/xsum_bench.c:56-60 *)
Definition MB := 2 ^ 20.                                       (* cli/xsum_config.h:210 *)
Definition MAX_MEM := 2 * 2 ^ 30 - 64 * MB.                    (* cli/xsum_bench.c:60 *)
Definition SPEED_TARGET := 10.                                 (* XXH_1ST_SPEED_TARGET: cli/xsum_bench.c:56-58 *)

(** XSUM_findMaxMem: cli/xsum_bench.c:67-88.  [malloc j n] tells whether the [j]-th call of malloc, for [n] bytes,
    succeeds.  The loop is bounded by [fuel] only in the model. *)
Definition less (requiredMem : Z) : Z := if 64 * MB <? requiredMem then requiredMem - 64 * MB else requiredMem / 2.
Definition findMaxMem (c : cfg) (fuel : nat) (malloc : nat -> Z -> bool) (requiredMem : Z) : res Z :=
  let requiredMem := ((requiredMem / 2 ^ 26 + 1) mod 2 ^ 64 * 2 ^ 26) mod 2 ^ 64 in
  let requiredMem := (requiredMem + 2 * (64 * MB)) mod 2 ^ 64 in
  let requiredMem := if MAX_MEM <? requiredMem then MAX_MEM else requiredMem in
  let! (requiredMem, _, _) := while_ fuel (fun '(_, _, testmem) => negb testmem) (fun '(requiredMem, j, _) =>
    let requiredMem := less requiredMem in
    OK (requiredMem, S j, malloc j (usz c requiredMem))) (requiredMem, O, false) in
  let requiredMem := less requiredMem in
  OK (usz c requiredMem).

(** ** The wrappers: cli/xsum_bench.c:98-191.  [secret]: g_benchSecretBuf; [st]: the uninitialised local state *)
(** hashFunction: 106 *)
Definition hashFunction := state3 -> ptr -> ptr -> Z -> Z -> res Z.
(** localXXH32: 108-111 *)
Definition localXXH32 (c : cfg) : hashFunction := fun st secret buffer bufferSize seed => XXH32 c buffer bufferSize seed.
(** localXXH32_stream: 112-119 *)
Definition localXXH32_stream (c : cfg) : hashFunction := fun st secret buffer bufferSize seed =>
  let! s := void (XXH32_update c (XXH32_reset seed) buffer bufferSize) in
  let! h := XXH32_digest c s in OK (u32 h).
(** localXXH64: 120-123 *)
Definition localXXH64 (c : cfg) : hashFunction := fun st secret buffer bufferSize seed =>
  let! h := XXH64 c buffer bufferSize seed in OK (u32 h).
(** localXXH64_stream: 124-131 *)
Definition localXXH64_stream (c : cfg) : hashFunction := fun st secret buffer bufferSize seed =>
  let! s := void (XXH64_update c (XXH64_reset seed) buffer bufferSize) in
  let! h := XXH64_digest c s in OK (u32 h).
(** localXXH3_64b: 132-136 *)
Definition localXXH3_64b (c : cfg) : hashFunction := fun st secret buffer bufferSize seed =>
  let! h := XXH3_64bits c buffer bufferSize in OK (u32 h).
(** localXXH3_64b_seeded: 137-140 *)
Definition localXXH3_64b_seeded (c : cfg) : hashFunction := fun st secret buffer bufferSize seed =>
  let! h := XXH3_64bits_withSeed c buffer bufferSize seed in OK (u32 h).
(** localXXH3_64b_secret: 141-145 *)
Definition localXXH3_64b_secret (c : cfg) : hashFunction := fun st secret buffer bufferSize seed =>
  let! h := XXH3_64bits_withSecret c buffer bufferSize secret SECRET_SIZE_MIN in OK (u32 h).
(** localXXH3_128b: 146-150 *)
Definition localXXH3_128b (c : cfg) : hashFunction := fun st secret buffer bufferSize seed =>
  let! h := XXH3_128bits c buffer bufferSize in OK (u32 (fst h)).
(** localXXH3_128b_seeded: 151-154 *)
Definition localXXH3_128b_seeded (c : cfg) : hashFunction := fun st secret buffer bufferSize seed =>
  let! h := XXH3_128bits_withSeed c buffer bufferSize seed in OK (u32 (fst h)).
(** localXXH3_128b_secret: 155-159 *)
Definition localXXH3_128b_secret (c : cfg) : hashFunction := fun st secret buffer bufferSize seed =>
  let! h := XXH3_128bits_withSecret c buffer bufferSize secret SECRET_SIZE_MIN in OK (u32 (fst h)).
(** localXXH3_stream: 160-167 *)
Definition localXXH3_stream (c : cfg) : hashFunction := fun st secret buffer bufferSize seed =>
  let! s := void3 (XXH3_64bits_reset c (Some st)) in
  let! s := void (XXH3_64bits_update c s buffer bufferSize) in
  let! h := XXH3_64bits_digest c s in OK (u32 h).
(** localXXH3_stream_seeded: 168-175 *)
Definition localXXH3_stream_seeded (c : cfg) : hashFunction := fun st secret buffer bufferSize seed =>
  let! s := void3 (XXH3_64bits_reset_withSeed c (Some (XXH3_INITSTATE st)) seed) in
  let! s := void (XXH3_64bits_update c s buffer bufferSize) in
  let! h := XXH3_64bits_digest c s in OK (u32 h).
(** localXXH128_stream: 176-183 *)
Definition localXXH128_stream (c : cfg) : hashFunction := fun st secret buffer bufferSize seed =>
  let! s := void3 (XXH3_128bits_reset c (Some st)) in
  let! s := void (XXH3_128bits_update c s buffer bufferSize) in
  let! h := XXH3_128bits_digest c s in OK (u32 (fst h)).
(** localXXH128_stream_seeded: 184-191 *)
Definition localXXH128_stream_seeded (c : cfg) : hashFunction := fun st secret buffer bufferSize seed =>
  let! s := void3 (XXH3_128bits_reset_withSeed c (Some (XXH3_INITSTATE st)) seed) in
  let! s := void (XXH3_128bits_update c s buffer bufferSize) in
  let! h := XXH3_128bits_digest c s in OK (u32 (fst h)).

(** g_hashesToBench: cli/xsum_bench.c:199-214 *)
Definition hashesToBench (c : cfg) : list (list Z * hashFunction) := [
  (str "XXH32", localXXH32 c);
  (str "XXH64", localXXH64 c);
  (str "XXH3_64b", localXXH3_64b c);
  (str "XXH3_64b w/seed", localXXH3_64b_seeded c);
  (str "XXH3_64b w/secret", localXXH3_64b_secret c);
  (str "XXH128", localXXH3_128b c);
  (str "XXH128 w/seed", localXXH3_128b_seeded c);
  (str "XXH128 w/secret", localXXH3_128b_secret c);
  (str "XXH32_stream", localXXH32_stream c);
  (str "XXH64_stream", localXXH64_stream c);
  (str "XXH3_stream", localXXH3_stream c);
  (str "XXH3_stream w/seed", localXXH3_stream_seeded c);
  (str "XXH128_stream", localXXH128_stream c);
  (str "XXH128_stream w/seed", localXXH128_stream_seeded c)].

(** XSUM_benchHash: cli/xsum_bench.c:228-316, without the clock: the first round makes nbh_perIteration calls, the
    later ones as many as [later] says; [st j u]: the local state in call [u] of round [j] *)
Definition benchHash (c : cfg) (h : hashFunction) (st : Z -> Z -> state3) (secret buffer : ptr) (bufferSize : Z) (later : list Z) : res (list Z) :=
  if usz c (bufferSize + 1) =? 0 then UB      (* division by zero *)
  else
    let nbh_perIteration := u32 (u32 (SPEED_TARGET * MB / usz c (bufferSize + 1)) + 1) in
    fold_left (fun acc nbh =>
      let! acc := acc in
      let! r := for_ (Z.to_nat nbh) 0 (fun u r => let! x := h (st (zlen acc) u) secret buffer bufferSize u in OK (u32 (r + x))) 0 in
      OK (acc ++ [r])) (nbh_perIteration :: later) (OK []).

(** XSUM_strcatDup: cli/xsum_bench.c:323-338, on two C strings in their own arrays; [fresh n] is the content of the
    [n] bytes malloc delivers *)
Definition strcatDup (c : cfg) (fresh : Z -> list Z) (s1 s2 : list Z) : res (list Z) :=
  let! len1 := strlen s1 0 in
  let! len2 := strlen s2 0 in
  let buf := fresh (usz c (len1 + len2 + 1)) in
  let! d1 := load (Ptr s1 0 0) len1 in
  let! buf := store buf 0 d1 in
  let! d2 := load (Ptr s2 0 0) (len2 + 1) in
  store buf len1 d2.

(** What the memory and the clock do: the content of fresh memory, the uninitialised local state of call [u] of
    round [j] of the [i]-th test of the [k]-th file ([a_state k i j u]), the later rounds of that test (cli/xsum_bench.c:98, 162-186, 255-306, 329) *)
Record ambience := Ambience { a_fresh : Z -> list Z; a_state : Z -> Z -> Z -> Z -> state3; a_later : Z -> Z -> list Z; a_secret : list Z; a_sadr : Z }.

(** XSUM_benchMem: cli/xsum_bench.c:351-373.  [a_secret], [a_sadr]: g_benchSecretBuf before the call.  The name and the sums
    of each test run.  The assert on hashNameBuf is dropped: malloc succeeds. *)
Definition benchMem (c : cfg) (a : ambience) (k : Z) (testIDs : list Z) (buffer : ptr) (bufferSize : Z) : res (list (list Z * list Z)) :=
  let! _ := assert_ (Z.land (paddr buffer) 15 =? 0) in
  let! sb := fillTestBuffer (a_secret a) SECRET_SIZE_MIN in
  let secret := Ptr sb (a_sadr a) 0 in
  for_ 28 1 (fun i acc =>
    let hashFuncID := (i - 1) / 2 in
    let! t := cget testIDs i in
    match nth_error (hashesToBench c) (Z.to_nat hashFuncID) with
    | None => UB
    | Some (name, func) =>
        if t =? 0 then OK acc
        else if i mod 2 =? 1 then
          let! r := benchHash c func (a_state a k i) secret buffer bufferSize (a_later a k i) in
          OK (acc ++ [(name, r)])
        else
          let! b := strcatDup c (a_fresh a) (name ++ [0]) (str " unaligned" ++ [0]) in
          let! n := cstr b 0 in
          let! r := benchHash c func (a_state a k i) secret (padd buffer 3) bufferSize (a_later a k i) in
          OK (acc ++ [(n, r)])
    end) [].

(** calloc (cli/xsum_bench.c:396, 431): NULL or the base of a block of zeros *)
Definition calloc := Z -> option Z.
(** [(buffer+15) - ((size_t)(buffer+15) & 0xF)]: cli/xsum_bench.c:397, 437; as an offset into the block at [base] *)
Definition aligned16 (base : Z) : Z := 15 - Z.land (base + 15) 15.
(** exit(code) (cli/xsum_bench.c:403, 408, 417, 434), or the end with the results *)
Inductive bench := BExit (code : Z) | BDone (r : list (list (list Z * list Z))).

(** XSUM_benchInternal: cli/xsum_bench.c:429-452 *)
Definition benchInternal (c : cfg) (a : ambience) (get : calloc) (testIDs : list Z) (keySize : Z) : res bench :=
  let n := usz c (usz c (keySize + 16) + 3) in
  match get n with
  | None => OK (BExit 12)
  | Some base =>
      let! r := benchMem c a 0 testIDs (Ptr (repeat 0 (Z.to_nat n)) base (aligned16 base)) keySize in
      OK (BDone [r])
  end.

(** XSUM_selectBenchedSize: cli/xsum_bench.c:375-384; [inFileSize]: XSUM_getFileSize *)
Definition selectBenchedSize (c : cfg) (fuel : nat) (malloc : nat -> Z -> bool) (inFileSize : Z) : res Z :=
  let! benchedSize := findMaxMem c fuel malloc inFileSize in
  OK (if inFileSize <? benchedSize then usz c inFileSize else benchedSize).

(** what the system says of a file: its size by stat(2), and its bytes up to the end or the first read error, if fopen
    succeeds (cli/xsum_bench.c:377, 394, 412) *)
Record bfile := BFile { bf_size : Z; bf_open : option (list Z) }.
(** XSUM_benchFiles: cli/xsum_bench.c:387-426.  Simplification: the addition [buffer+15] on NULL, before the check, is
    harmless here. *)
Fixpoint benchFiles (c : cfg) (a : ambience) (fuel : nat) (malloc : Z -> nat -> Z -> bool) (get : Z -> calloc) (testIDs : list Z)
    (fs : list bfile) (k : Z) (acc : list (list (list Z * list Z))) : res bench :=
  match fs with
  | [] => OK (BDone acc)
  | f :: fs =>
      let! benchedSize := selectBenchedSize c fuel (malloc k) (bf_size f) in
      let n := usz c (usz c (benchedSize + 16) + 3) in
      match bf_open f, get k n with
      | None, _ => OK (BExit 11)
      | Some _, None => OK (BExit 12)
      | Some bytes, Some base =>
          let d := firstn (Z.to_nat benchedSize) bytes in
          let! blk := store (repeat 0 (Z.to_nat n)) (aligned16 base) d in
          if negb (zlen d =? benchedSize) then OK (BExit 13)
          else
            let! r := benchMem c a k testIDs (Ptr blk base (aligned16 base)) benchedSize in
            benchFiles c a fuel malloc get testIDs fs (k + 1) (acc ++ [r])
      end
  end.
