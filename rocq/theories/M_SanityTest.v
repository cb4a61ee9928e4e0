(** Model of tests/sanity_test.c, which checks the library against the tables of sanity_test_vectors.h, and of
    tests/sanity_test_vectors_generator.c, which writes that header.

    The tables are arguments.  The message after a mismatch ends the program, [abortByError] being 1: the result [None].
    The create functions and malloc are assumed to succeed (the code asserts it); [garbage] is what a test function finds
    in its locals, as in M_Sanity.v.  The names and numbers of the tests, which only appear in messages, are left out. *)
From Coq Require Import String.
From Verif Require Import Base Mem M_XXH32 M_XXH64 M_XXH3 M_Kernels M_Long M_Stream3 M_Util M_Cli M_Cli2 M_Sanity.

Module ST.
(** PRIME32, PRIME64, SANITY_BUFFER_SIZE: tests/sanity_test.c:37-40 *)
Definition PRIME32 := 2654435761.
Definition PRIME64 := 11400714785074694797.
Definition SANITY_BUFFER_SIZE := 4096 + 64 + 1.
(** fillTestBuffer: tests/sanity_test.c:62-73; the buffer is given: createSanityBuffer, 82-88 *)
Definition fillTestBuffer (buffer : list Z) (len : Z) : res (list Z) :=
  let! (buffer, _) := for_ (Z.to_nat len) 0 (fun i '(buffer, byteGen) =>
    let! buffer := store buffer i [(byteGen / 2 ^ 56) mod 256] in
    OK (buffer, byteGen * PRIME64 mod 2 ^ 64)) (buffer, PRIME32) in
  OK buffer.
(** checkResult32, checkResult64: tests/sanity_test.c:104-134 *)
Definition checkResult (r1 r2 : Z) (k : go) : go := if r1 =? r2 then k else OK None.
(** checkResult128: tests/sanity_test.c:139-153 *)
Definition checkResult128 (r1 r2 : Z * Z) (k : go) : go := if (fst r1 =? fst r2) && (snd r1 =? snd r2) then k else OK None.
(** checkResultTestDataSample: tests/sanity_test.c:158-172 *)
Definition checkResultTestDataSample (r1 r2 : list Z) (k : go) : go := if eqb_list r1 r2 then k else OK None.

(** testXXH32: tests/sanity_test.c:177-213; [rnd] is not used here and in testXXH64 *)
Definition testXXH32 (c : cfg) (data : ptr) (t : Z * Z * Z) (rnd : Z) : go :=
  let '(len, seed, Nresult) := t in
  let data := data_of data len in
  let! r := XXH32 c data len seed in
  checkResult r Nresult (
  let! st := void (XXH32_update c (XXH32_reset seed) data len) in
  let! r := XXH32_digest c st in
  checkResult r Nresult (
  let! st := bytewise (XXH32_update c) data len (XXH32_reset seed) in
  let! r := XXH32_digest c st in
  checkResult r Nresult (
  OK (Some rnd)))).
(** testXXH64: tests/sanity_test.c:218-254 *)
Definition testXXH64 (c : cfg) (data : ptr) (t : Z * Z * Z) (rnd : Z) : go :=
  let '(len, seed, Nresult) := t in
  let data := data_of data len in
  let! r := XXH64 c data len seed in
  checkResult r Nresult (
  let! st := void (XXH64_update c (XXH64_reset seed) data len) in
  let! r := XXH64_digest c st in
  checkResult r Nresult (
  let! st := bytewise (XXH64_update c) data len (XXH64_reset seed) in
  let! r := XXH64_digest c st in
  checkResult r Nresult (
  OK (Some rnd)))).

(** SANITY_TEST_rand: tests/sanity_test.c:262-268 *)
Definition rand (seed : Z) : Z * Z := let seed := seed * PRIME64 mod 2 ^ 64 in ((seed / 2 ^ 40) mod 2 ^ 32, seed).
(** SANITY_TEST_computeRandSeed: tests/sanity_test.c:273-281 *)
Definition computeRandSeed (step : Z) : res Z := for_ (Z.to_nat step) 0 (fun _ randSeed => OK (snd (rand randSeed))) PRIME32.
(** SANITY_TEST_XXH3_randomUpdate: tests/sanity_test.c:298-314; [rounds] as in M_Sanity.v *)
Definition randomUpdate (rounds : nat) (c : cfg) (update_fn : state3 -> ptr -> Z -> res (errorcode * state3)) (st : state3) (data : ptr)
    (len rnd : Z) : res (state3 * Z) :=
  let! (st, _, rnd) := while_ rounds (fun '(_, p, _) => p <? len) (fun '(st, p, rnd) =>
    let modulo := if 2 <? len then len else 2 in
    let '(v, rnd) := rand rnd in
    let l := v mod modulo in
    let l := if len <? usz c (p + l) then len - p else l in
    let! st := void (update_fn st (padd data p) l) in
    OK (st, usz c (p + l), rnd)) (st, 0, rnd) in
  OK (st, rnd).

(** testXXH3: tests/sanity_test.c:319-408 *)
Definition testXXH3 (rounds : nat) (c : cfg) (g : garbage) (data secret : ptr) (secretSize : Z) (t : Z * Z * Z) (rnd : Z) : go :=
  let '(len, seed, Nresult) := t in
  let data := data_of data len in
  let! Dresult := XXH3_64bits_withSeed c data len seed in
  checkResult Dresult Nresult (
  let no_seed k := if seed =? 0 then let! Dresult := XXH3_64bits c data len in checkResult Dresult Nresult k else k in
  no_seed (
  let! secretBuffer := XXH3_generateSecret_fromSeed c (Ptr (g_buf1 g) (g_adr1 g) 1) seed in
  let! Dresult := XXH3_64bits_withSecretandSeed c data len (Ptr secretBuffer (g_adr1 g) 1) SECRET_DEFAULT_SIZE seed in
  checkResult Dresult Nresult (
  let any_secret k :=
    if len <=? MIDSIZE_MAX
    then let! Dresult := XXH3_64bits_withSecretandSeed c data len secret secretSize seed in
         checkResult Dresult Nresult k
    else k in
  any_secret (
  (* single ingestion *)
  let! st := void3 (XXH3_64bits_reset_withSeed c (Some (g_state g)) seed) in
  let! st := void (XXH3_64bits_update c st data len) in
  let! r := XXH3_64bits_digest c st in
  checkResult r Nresult (
  (* random ingestion *)
  let! st := void3 (XXH3_64bits_reset_withSeed c (Some st) seed) in
  let! (st, rnd) := randomUpdate rounds c (XXH3_64bits_update c) st data len rnd in
  let! r := XXH3_64bits_digest c st in
  checkResult r Nresult (
  (* byte by byte ingestion *)
  let! st := void3 (XXH3_64bits_reset_withSeed c (Some st) seed) in
  let! st := bytewise (XXH3_64bits_update c) data len st in
  let! r := XXH3_64bits_digest c st in
  checkResult r Nresult (
  let! secretBuffer := XXH3_generateSecret_fromSeed c (Ptr (g_buf2 g) (g_adr2 g) 1) seed in
  let! st := void3 (XXH3_64bits_reset_withSecretandSeed c (Some st) (Ptr secretBuffer (g_adr2 g) 1) SECRET_DEFAULT_SIZE seed) in
  let! st := void (XXH3_64bits_update c st data len) in
  let! r := XXH3_64bits_digest c st in
  checkResult r Nresult (
  if len <=? MIDSIZE_MAX
  then let! st := void3 (XXH3_64bits_reset_withSecretandSeed c (Some st) secret secretSize seed) in
       let! st := void (XXH3_64bits_update c st data len) in
       let! r := XXH3_64bits_digest c st in
       checkResult r Nresult (OK (Some rnd))
  else OK (Some rnd))))))))).

(** testXXH3_withSecret: tests/sanity_test.c:413-473 *)
Definition testXXH3_withSecret (rounds : nat) (c : cfg) (g : garbage) (data secret : ptr) (secretSize : Z) (t : Z * Z * Z) (rnd : Z) : go :=
  let '(len, _, Nresult) := t in
  let data := data_of data len in
  let! Dresult := XXH3_64bits_withSecret c data len secret secretSize in
  checkResult Dresult Nresult (
  let any_seed k :=
    if MIDSIZE_MAX <? len
    then let! Dresult := XXH3_64bits_withSecretandSeed c data len secret secretSize 0 in checkResult Dresult Nresult k
    else k in
  any_seed (
  let! st := void3 (XXH3_64bits_reset_withSecret c (Some (g_state g)) secret secretSize) in
  let! st := void (XXH3_64bits_update c st data len) in
  let! r := XXH3_64bits_digest c st in
  checkResult r Nresult (
  (* random ingestion *)
  let! st := void3 (XXH3_64bits_reset_withSecret c (Some st) secret secretSize) in
  let! (st, rnd) := randomUpdate rounds c (XXH3_64bits_update c) st data len rnd in
  let! r := XXH3_64bits_digest c st in
  checkResult r Nresult (
  (* byte by byte ingestion *)
  let! st := void3 (XXH3_64bits_reset_withSecret c (Some st) secret secretSize) in
  let! st := bytewise (XXH3_64bits_update c) data len st in
  let! r := XXH3_64bits_digest c st in
  checkResult r Nresult (
  if MIDSIZE_MAX <? len
  then let! st := void3 (XXH3_64bits_reset_withSecretandSeed c (Some st) secret secretSize 0) in
       let! st := void (XXH3_64bits_update c st data len) in
       let! r := XXH3_64bits_digest c st in
       checkResult r Nresult (OK (Some rnd))
  else OK (Some rnd)))))).

(** testXXH128: tests/sanity_test.c:478-574 *)
Definition testXXH128 (rounds : nat) (c : cfg) (g : garbage) (data secret : ptr) (secretSize : Z) (t : Z * Z * (Z * Z)) (rnd : Z) : go :=
  let '(len, seed, Nresult) := t in
  let data := data_of data len in
  let! Dresult := XXH3_128bits_withSeed c data len seed in
  checkResult128 Dresult Nresult (
  let! Dresult2 := XXH128 c data len seed in
  checkResult128 Dresult2 Nresult (
  let no_seed k := if seed =? 0 then let! Dresult := XXH3_128bits c data len in checkResult128 Dresult Nresult k else k in
  no_seed (
  let! secretBuffer := XXH3_generateSecret_fromSeed c (Ptr (g_buf1 g) (g_adr1 g) 1) seed in
  let! Dresult := XXH3_128bits_withSecretandSeed c data len (Ptr secretBuffer (g_adr1 g) 1) SECRET_DEFAULT_SIZE seed in
  checkResult128 Dresult Nresult (
  let any_secret k :=
    if len <=? MIDSIZE_MAX
    then let! Dresult := XXH3_128bits_withSecretandSeed c data len secret secretSize seed in
         checkResult128 Dresult Nresult k
    else k in
  any_secret (
  (* single ingestion *)
  let! st := void3 (XXH3_128bits_reset_withSeed c (Some (g_state g)) seed) in
  let! st := void (XXH3_128bits_update c st data len) in
  let! r := XXH3_128bits_digest c st in
  checkResult128 r Nresult (
  (* random ingestion *)
  let! st := void3 (XXH3_128bits_reset_withSeed c (Some st) seed) in
  let! (st, rnd) := randomUpdate rounds c (XXH3_128bits_update c) st data len rnd in
  let! r := XXH3_128bits_digest c st in
  checkResult128 r Nresult (
  (* byte by byte ingestion *)
  let! st := void3 (XXH3_128bits_reset_withSeed c (Some st) seed) in
  let! st := bytewise (XXH3_128bits_update c) data len st in
  let! r := XXH3_128bits_digest c st in
  checkResult128 r Nresult (
  let! secretBuffer := XXH3_generateSecret_fromSeed c (Ptr (g_buf2 g) (g_adr2 g) 1) seed in
  let! st := void3 (XXH3_128bits_reset_withSecretandSeed c (Some st) (Ptr secretBuffer (g_adr2 g) 1) SECRET_DEFAULT_SIZE seed) in
  let! st := void (XXH3_128bits_update c st data len) in
  let! r := XXH3_128bits_digest c st in
  checkResult128 r Nresult (
  if len <=? MIDSIZE_MAX
  then let! st := void3 (XXH3_128bits_reset_withSecretandSeed c (Some st) secret secretSize seed) in
       let! st := void (XXH3_128bits_update c st data len) in
       let! r := XXH3_128bits_digest c st in
       checkResult128 r Nresult (OK (Some rnd))
  else OK (Some rnd)))))))))).

(** testXXH128_withSecret: tests/sanity_test.c:579-639 *)
Definition testXXH128_withSecret (rounds : nat) (c : cfg) (g : garbage) (data secret : ptr) (secretSize : Z) (t : Z * Z * (Z * Z)) (rnd : Z) : go :=
  let '(len, _, Nresult) := t in
  let data := data_of data len in
  let! Dresult := XXH3_128bits_withSecret c data len secret secretSize in
  checkResult128 Dresult Nresult (
  let any_seed k :=
    if MIDSIZE_MAX <? len
    then let! Dresult := XXH3_128bits_withSecretandSeed c data len secret secretSize 0 in checkResult128 Dresult Nresult k
    else k in
  any_seed (
  let! st := void3 (XXH3_128bits_reset_withSecret c (Some (g_state g)) secret secretSize) in
  let! st := void (XXH3_128bits_update c st data len) in
  let! r := XXH3_128bits_digest c st in
  checkResult128 r Nresult (
  (* random ingestion *)
  let! st := void3 (XXH3_128bits_reset_withSecret c (Some st) secret secretSize) in
  let! (st, rnd) := randomUpdate rounds c (XXH3_128bits_update c) st data len rnd in
  let! r := XXH3_128bits_digest c st in
  checkResult128 r Nresult (
  (* byte by byte ingestion *)
  let! st := void3 (XXH3_128bits_reset_withSecret c (Some st) secret secretSize) in
  let! st := bytewise (XXH3_128bits_update c) data len st in
  let! r := XXH3_128bits_digest c st in
  checkResult128 r Nresult (
  if MIDSIZE_MAX <? len
  then let! st := void3 (XXH3_128bits_reset_withSecretandSeed c (Some st) secret secretSize 0) in
       let! st := void (XXH3_128bits_update c st data len) in
       let! r := XXH3_128bits_digest c st in
       checkResult128 r Nresult (OK (Some rnd))
  else OK (Some rnd)))))).

(** testSecretGenerator: tests/sanity_test.c:644-663; [adr] is the address of secretBuffer, SECRET_SIZE_MAX that of the header *)
Definition testSecretGenerator (c : cfg) (adr : Z) (customSeed : ptr) (t : Z * Z * list Z) (rnd : Z) : go :=
  let '(seedLen, secretLen, byte) := t in
  let! _ := assert_ (secretLen <=? SECRET_SIZE_MAX) in
  let! (_, secretBuffer) :=
    XXH3_generateSecret c (Ptr (repeat 0 (Z.to_nat SECRET_SIZE_MAX)) adr 0) secretLen customSeed seedLen in
  let! samples := for_ 5 0 (fun i samples => let! x := load8 (Ptr secretBuffer adr (nth (Z.to_nat i) [0; 62; 131; 191; 241] 0)) in OK (samples ++ [x])) [] in
  checkResultTestDataSample samples byte (OK (Some rnd)).

(** the tables of sanity_test_vectors.h (used at tests/sanity_test.c:680-793) *)
Record vectors := Vectors {
  XXH32_testdata : list (Z * Z * Z); XXH64_testdata : list (Z * Z * Z);
  XXH3_testdata : list (Z * Z * Z); XXH3_withSecret_testdata : list (Z * Z * Z);
  XXH128_testdata : list (Z * Z * (Z * Z)); XXH128_withSecret_testdata : list (Z * Z * (Z * Z));
  XXH3_generateSecret_testdata : list (Z * Z * list Z) }.
(** the loops of main (tests/sanity_test.c:678-796): [step] is what one turn adds to testCount; [None] is exit(1) *)
Fixpoint tests {T} (c : cfg) (step : Z) (test : Z -> T -> Z -> go) (i : Z) (l : list T) (rnd testCount : Z) (k : Z -> res (option Z)) : res (option Z) :=
  match l with
  | [] => k testCount
  | t :: l => let! o := test i t rnd in
      match o with Some rnd => tests c step test (i + 1) l rnd (usz c (testCount + step)) k | None => OK None end
  end.
(** main: tests/sanity_test.c:667-803.  [b], [adr]: the malloc'ed buffer; [g k i]: the locals of the [i]-th call of the
    [k]-th test function; the result is the number of tests printed *)
Definition main (rounds : nat) (c : cfg) (b : list Z) (adr : Z) (g : Z -> Z -> garbage) (v : vectors) : res (option Z) :=
  let! b := fillTestBuffer b SANITY_BUFFER_SIZE in
  let data := Ptr b adr 0 in
  let secret := Ptr b adr 7 in
  let secretSize := SECRET_SIZE_MIN + 11 in
  let! _ := assert_ (7 + secretSize <=? SANITY_BUFFER_SIZE) in
  tests c 1 (fun _ => testXXH32 c data) 0 (XXH32_testdata v) 0 0 (fun testCount =>
  tests c 1 (fun _ => testXXH64 c data) 0 (XXH64_testdata v) 0 testCount (fun testCount =>
  let! randSeed := computeRandSeed 0 in
  tests c 1 (fun i => testXXH3 rounds c (g 0 i) data secret secretSize) 0 (XXH3_testdata v) randSeed testCount (fun testCount =>
  let! randSeed := computeRandSeed 22730 in
  tests c 2 (fun i => testXXH3_withSecret rounds c (g 1 i) data secret secretSize) 0 (XXH3_withSecret_testdata v) randSeed testCount (fun testCount =>
  let! randSeed := computeRandSeed 34068 in
  tests c 1 (fun i => testXXH128 rounds c (g 2 i) data secret secretSize) 0 (XXH128_testdata v) randSeed testCount (fun testCount =>
  let! randSeed := computeRandSeed 68019 in
  tests c 1 (fun i => testXXH128_withSecret rounds c (g 3 i) data secret secretSize) 0 (XXH128_withSecret_testdata v) randSeed testCount (fun testCount =>
  tests c 1 (fun i t rnd => let! _ := assert_ (fst (fst t) <=? SANITY_BUFFER_SIZE) in testSecretGenerator c (g_adr1 (g 4 i)) data t rnd)
        0 (XXH3_generateSecret_testdata v) 0 testCount (fun testCount =>
  OK (Some testCount)))))))).
End ST.

Module TG.
Import ST.
(** SANITY_BUFFER_SIZE, PRIME32, PRIME64 and fillTestBuffer are repeated in tests/sanity_test_vectors_generator.c:21-24 and
    161-172; the sizes of the secrets: 364-375 *)
Definition seedLens := [0; 1; SECRET_SIZE_MIN - 1; SECRET_DEFAULT_SIZE + 500].
Definition secretLens := [192; 240; 277; SECRET_SIZE_MAX].
(** tvgen_XXH32, tvgen_XXH64: tests/sanity_test_vectors_generator.c:63-77 *)
Definition tvgen_XXH32 (c : cfg) (buf : ptr) (len seed : Z) : res (Z * Z * Z) :=
  let! r := XXH32 c buf len (u32 seed) in OK (u32 len, u32 seed, r).
Definition tvgen_XXH64 (c : cfg) (buf : ptr) (len seed : Z) : res (Z * Z * Z) :=
  let! r := XXH64 c buf len seed in OK (u32 len, seed, r).
(** tvgen_XXH3_64bits_withSeed, _withSecret: tests/sanity_test_vectors_generator.c:79-93 *)
Definition tvgen_XXH3_64bits_withSeed (c : cfg) (buf : ptr) (len seed : Z) : res (Z * Z * Z) :=
  let! r := XXH3_64bits_withSeed c buf len seed in OK (u32 len, seed, r).
Definition tvgen_XXH3_64bits_withSecret (c : cfg) (buf : ptr) (len : Z) (secret : ptr) (secretSize : Z) : res (Z * Z * Z) :=
  let! r := XXH3_64bits_withSecret c buf len secret secretSize in OK (u32 len, 0, r).
(** tvgen_XXH3_128bits_withSeed, _withSecret: tests/sanity_test_vectors_generator.c:95-109 *)
Definition tvgen_XXH3_128bits_withSeed (c : cfg) (buf : ptr) (len seed : Z) : res (Z * Z * (Z * Z)) :=
  let! r := XXH3_128bits_withSeed c buf len seed in OK (u32 len, seed, r).
Definition tvgen_XXH3_128bits_withSecret (c : cfg) (buf : ptr) (len : Z) (secret : ptr) (secretSize : Z) : res (Z * Z * (Z * Z)) :=
  let! r := XXH3_128bits_withSecret c buf len secret secretSize in OK (u32 len, 0, r).
(** tvgen_XXH3_generateSecret: tests/sanity_test_vectors_generator.c:111-132; secretBuffer is zeroed (382) and at [adr] *)
Definition tvgen_XXH3_generateSecret (c : cfg) (adr secretSize : Z) (customSeed : ptr) (customSeedSize : Z) : res (Z * Z * list Z) :=
  let! (_, secretBuffer) :=
    XXH3_generateSecret c (Ptr (repeat 0 (Z.to_nat SECRET_SIZE_MAX)) adr 0) secretSize customSeed customSeedSize in
  let! byte := for_ 5 0 (fun i byte => let! x := load8 (Ptr secretBuffer adr (nth (Z.to_nat i) [0; 62; 131; 191; 241] 0)) in OK (byte ++ [x])) [] in
  OK (u32 customSeedSize, u32 secretSize, byte).

(** one loop of the generator: the entries in the order they are written (for example tests/sanity_test_vectors_generator.c:210-220) *)
Fixpoint entries {A T} (f : A -> res T) (l : list A) : res (list T) :=
  match l with [] => OK [] | x :: l => let! t := f x in let! r := entries f l in OK (t :: r) end.
Definition upto (n : Z) : list Z := map Z.of_nat (seq 0 (Z.to_nat n)).
(** the two nested loops: [for len, for iSeed] *)
Definition entries2 {T} (f : Z -> Z -> res T) (l m : list Z) : res (list T) :=
  let! r := entries (fun x => entries (f x) m) l in OK (List.concat r).
(** generate_sanity_test_vectors_xxh32: tests/sanity_test_vectors_generator.c:202-224; the seed goes through a size_t *)
Definition xxh32 (c : cfg) (b : list Z) (adr maxLen : Z) : res (list (Z * Z * Z)) :=
  let! b := fillTestBuffer b maxLen in
  entries2 (fun len seed => tvgen_XXH32 c (Ptr b adr 0) len (usz c seed)) (upto maxLen) [0; PRIME32].
(** generate_sanity_test_vectors_xxh64: tests/sanity_test_vectors_generator.c:228-250 *)
Definition xxh64 (c : cfg) (b : list Z) (adr maxLen : Z) : res (list (Z * Z * Z)) :=
  let! b := fillTestBuffer b maxLen in
  entries2 (fun len seed => tvgen_XXH64 c (Ptr b adr 0) len (usz c seed)) (upto maxLen) [0; PRIME32].
(** generate_sanity_test_vectors_xxh3: tests/sanity_test_vectors_generator.c:254-276 *)
Definition xxh3 (c : cfg) (b : list Z) (adr maxLen : Z) : res (list (Z * Z * Z)) :=
  let! b := fillTestBuffer b maxLen in
  entries2 (fun len seed => tvgen_XXH3_64bits_withSeed c (Ptr b adr 0) len (usz c seed)) (upto maxLen) [0; PRIME64].
(** generate_sanity_test_vectors_xxh3_withSecret: tests/sanity_test_vectors_generator.c:280-303 *)
Definition xxh3_withSecret (c : cfg) (b : list Z) (adr maxLen : Z) : res (list (Z * Z * Z)) :=
  let! b := fillTestBuffer b maxLen in
  let secretSize := SECRET_SIZE_MIN + 11 in
  let! _ := assert_ (7 + secretSize <=? maxLen) in
  entries (fun len => tvgen_XXH3_64bits_withSecret c (Ptr b adr 0) len (Ptr b adr 7) secretSize) (upto maxLen).
(** generate_sanity_test_vectors_xxh128: tests/sanity_test_vectors_generator.c:306-327; the seed is an XSUM_U64 *)
Definition xxh128 (c : cfg) (b : list Z) (adr maxLen : Z) : res (list (Z * Z * (Z * Z))) :=
  let! b := fillTestBuffer b maxLen in
  entries2 (fun len seed => tvgen_XXH3_128bits_withSeed c (Ptr b adr 0) len seed) (upto maxLen) [0; PRIME32; PRIME64].
(** generate_sanity_test_vectors_xxh128_withSecret: tests/sanity_test_vectors_generator.c:331-353 *)
Definition xxh128_withSecret (c : cfg) (b : list Z) (adr maxLen : Z) : res (list (Z * Z * (Z * Z))) :=
  let! b := fillTestBuffer b maxLen in
  let secretSize := SECRET_SIZE_MIN + 11 in
  let! _ := assert_ (7 + secretSize <=? maxLen) in
  entries (fun len => tvgen_XXH3_128bits_withSecret c (Ptr b adr 0) len (Ptr b adr 7) secretSize) (upto maxLen).
(** generate_sanity_test_vectors_xxh3_generateSecret: tests/sanity_test_vectors_generator.c:357-402; [sb]: the address of
    secretBuffer *)
Definition xxh3_generateSecret (c : cfg) (b : list Z) (adr sb maxLen : Z) : res (list (Z * Z * list Z)) :=
  let! b := fillTestBuffer b maxLen in
  entries2 (fun seedLen secretLen =>
    let! _ := assert_ (seedLen <=? maxLen) in
    let! _ := assert_ (secretLen <=? SECRET_SIZE_MAX) in
    tvgen_XXH3_generateSecret c sb secretLen (Ptr b adr 0) seedLen) seedLens secretLens.
(** generate_sanity_test_vectors: tests/sanity_test_vectors_generator.c:406-453; [mem k]: what the [k]-th malloc gives and where *)
Definition generate (c : cfg) (mem : Z -> list Z * Z) (sb maxLen : Z) : res vectors :=
  let! v32 := xxh32 c (fst (mem 0)) (snd (mem 0)) maxLen in
  let! v64 := xxh64 c (fst (mem 1)) (snd (mem 1)) maxLen in
  let! v3 := xxh3 c (fst (mem 2)) (snd (mem 2)) maxLen in
  let! v3s := xxh3_withSecret c (fst (mem 3)) (snd (mem 3)) maxLen in
  let! v128 := xxh128 c (fst (mem 4)) (snd (mem 4)) maxLen in
  let! v128s := xxh128_withSecret c (fst (mem 5)) (snd (mem 5)) maxLen in
  let! vs := xxh3_generateSecret c (fst (mem 6)) (snd (mem 6)) sb maxLen in
  OK (Vectors v32 v64 v3 v3s v128 v128s vs).

(** ** The text of the header *)
(** the text of an unsigned value below 16^w for %0wX *)
Definition hexX (w : nat) (v : Z) : list Z :=
  map (fun k => let d := (v / 16 ^ Z.of_nat k) mod 16 in if d <? 10 then 48 + d else 55 + d) (rev (seq 0 w)).
(** %4d of an unsigned value, which has to be representable as an int *)
Definition pad4 (v : Z) : res (list Z) :=
  let! _ := assert_ (v <? 2 ^ 31) in
  OK (repeat 32 (4 - List.length (dec v)) ++ dec v).
(** fprintf_XSUM_testdata32_t: tests/sanity_test_vectors_generator.c:136-138 *)
Definition text32 (v : Z * Z * Z) : res (list Z) :=
  let '(len, seed, Nresult) := v in
  let! l := pad4 len in
  OK (str "{ " ++ l ++ str ", 0x" ++ hexX 8 seed ++ str "U, 0x" ++ hexX 8 Nresult ++ str "U },").
(** fprintf_XSUM_testdata64_t: tests/sanity_test_vectors_generator.c:140-142 *)
Definition text64 (v : Z * Z * Z) : res (list Z) :=
  let '(len, seed, Nresult) := v in
  let! l := pad4 len in
  OK (str "{ " ++ l ++ str ", 0x" ++ hexX 16 seed ++ str "ULL, 0x" ++ hexX 16 Nresult ++ str "ULL },").
(** fprintf_XSUM_testdata128_t: tests/sanity_test_vectors_generator.c:144-147 *)
Definition text128 (v : Z * Z * (Z * Z)) : res (list Z) :=
  let '(len, seed, (low64, high64)) := v in
  let! l := pad4 len in
  OK (str "{ " ++ l ++ str ", 0x" ++ hexX 16 seed ++ str "ULL, { 0x" ++ hexX 16 low64 ++ str "ULL, 0x" ++ hexX 16 high64 ++ str "ULL } },").
(** fprintf_XSUM_testdata_sample_t: tests/sanity_test_vectors_generator.c:149-152 *)
Definition text_sample (v : Z * Z * list Z) : res (list Z) :=
  let '(seedLen, secretLen, byte) := v in
  let! a := pad4 seedLen in
  let! b := pad4 secretLen in
  OK (str "{ " ++ a ++ str ", " ++ b ++ str ", { 0x" ++ hexX 2 (nth 0 byte 0) ++ str ", 0x" ++ hexX 2 (nth 1 byte 0) ++
      str ", 0x" ++ hexX 2 (nth 2 byte 0) ++ str ", 0x" ++ hexX 2 (nth 3 byte 0) ++ str ", 0x" ++ hexX 2 (nth 4 byte 0) ++ str " } },").
(** the end of a line *)
Definition NL : list Z := [10].
(** the lines of one array (for example tests/sanity_test_vectors_generator.c:216-218) *)
Fixpoint lines {T} (text : T -> res (list Z)) (name : list Z) (index : Z) (l : list T) : res (list Z) :=
  match l with
  | [] => OK []
  | v :: l => let! t := text v in
      let! r := lines text name (index + 1) l in
      OK (str "    " ++ t ++ str " /* " ++ name ++ str "[" ++ dec index ++ str "] */" ++ NL ++ r)
  end.
(** an array: its first line (for example tests/sanity_test_vectors_generator.c:205), its entries and its last line (223) *)
Definition array {T} (text : T -> res (list Z)) (type name : list Z) (l : list T) : res (list Z) :=
  let! r := lines text name 0 l in
  OK (str "static const " ++ type ++ str " " ++ name ++ str "[] = {" ++ NL ++ r ++ str "};" ++ NL).
(** what generate_sanity_test_vectors writes after the type definitions (tests/sanity_test_vectors_generator.c:445-451).
    The type definitions (410-443) are the same in every header and are left out; fopen is assumed to succeed *)
Definition arrays (v : vectors) : res (list Z) :=
  let! a := array text32 (str "XSUM_testdata32_t") (str "XSUM_XXH32_testdata") (XXH32_testdata v) in
  let! b := array text64 (str "XSUM_testdata64_t") (str "XSUM_XXH64_testdata") (XXH64_testdata v) in
  let! d := array text64 (str "XSUM_testdata64_t") (str "XSUM_XXH3_testdata") (XXH3_testdata v) in
  let! e := array text64 (str "XSUM_testdata64_t") (str "XSUM_XXH3_withSecret_testdata") (XXH3_withSecret_testdata v) in
  let! f := array text128 (str "XSUM_testdata128_t") (str "XSUM_XXH128_testdata") (XXH128_testdata v) in
  let! g := array text128 (str "XSUM_testdata128_t") (str "XSUM_XXH128_withSecret_testdata") (XXH128_withSecret_testdata v) in
  let! h := array text_sample (str "XSUM_testdata_sample_t") (str "XSUM_XXH3_generateSecret_testdata") (XXH3_generateSecret_testdata v) in
  OK (a ++ b ++ d ++ e ++ f ++ g ++ h).
(** main: tests/sanity_test_vectors_generator.c:457-464 *)
Definition main (c : cfg) (mem : Z -> list Z * Z) (sb : Z) : res (list Z) :=
  let! v := generate c mem sb SANITY_BUFFER_SIZE in arrays v.
End TG.
