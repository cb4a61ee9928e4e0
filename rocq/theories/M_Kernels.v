(** Model of XXH3, part 2: the accumulate / scramble / custom-secret kernels, scalar and vector
    (xxhash.h:4795-5832).

    The accumulators [xxh_u64 acc[8]] are a list of 8 words; [adr] is the address of that array, used
    only for the alignment assertions.  A vector register is the list of its 64-bit lanes, lowest
    address first.  Intrinsics are modelled by their documented lane semantics. *)
From Verif Require Import Base Mem M_XXH32 M_XXH64 M_XXH3.

(** xxhash.h:4783-4785, 5861, 5919 *)
Definition STRIPE_LEN := 64.
Definition SECRET_CONSUME_RATE := 8.
Definition ACC_NB := 8.
Definition SECRET_LASTACC_START := 7.
Definition SECRET_MERGEACCS_START := 11.

(** XXH_ACC_ALIGN: xxhash.h:3929-3947 *)
Definition acc_align (c : cfg) : Z :=
  if x86dispatch c then 64 else
  match vec c with
  | V_SCALAR => 8 | V_SSE2 => 16 | V_AVX2 => 32 | V_NEON _ _ => 16 | V_VSX => 16 | V_AVX512 => 64 | V_SVE _ _ => 64
  end.
(** XXH_SEC_ALIGN: xxhash.h:3957-3964 *)
Definition sec_align (c : cfg) : Z :=
  if x86dispatch c then acc_align c else
  match vec c with
  | V_SSE2 | V_AVX2 | V_AVX512 | V_SVE _ _ => acc_align c
  | _ => 8
  end.
(** address of a local declared XXH_ALIGN(XXH_ACC_ALIGN) / XXH_ALIGN(XXH_SEC_ALIGN): a multiple of the
    declared alignment and, to be pessimistic, of nothing more (xxhash.h:5912, 5977, 6316, 6427, 6729, 6789, 6925, 7061) *)
Definition local_acc (c : cfg) : Z := acc_align c.
Definition local_sec (c : cfg) : Z := sec_align c.

Definition aligned_adr (adr al : Z) : bool := Z.land adr (al - 1) =? 0.

(** xacc[i] and xacc[i] = v, for [v] of the given lane count (used in every kernel: xxhash.h:4906-5695) *)
Definition aget (acc : list Z) (i : Z) : Z := nth (Z.to_nat i) acc 0.
Definition vget (acc : list Z) (o n : nat) : list Z := firstn n (skipn o acc).
Definition vset (acc : list Z) (o : nat) (v : list Z) : list Z :=
  firstn o acc ++ v ++ skipn (o + length v) acc.
Definition aset (acc : list Z) (i v : Z) : list Z := vset acc (Z.to_nat i) [v].

(** the three kinds of function pointers: xxhash.h:5774-5776 *)
Definition f_accumulate := Z -> list Z -> ptr -> ptr -> Z -> res (list Z).
Definition f_scramble := Z -> list Z -> ptr -> res (list Z).
(** XXH3_f_initCustomSecret: xxhash.h:5777.  [f_initSec adr dest seed]: [dest] is the 192-byte destination before the call *)
Definition f_initSec := Z -> list Z -> Z -> res (list Z).
Definition f_acc512 := Z -> list Z -> ptr -> ptr -> res (list Z).

(** XXH3_ACCUMULATE_TEMPLATE: xxhash.h:4813-4829 (the prefetch is a hint; see M_Strict.v for the
    pointer it forms) *)
Definition accumulate_template (acc512 : f_acc512) : f_accumulate :=
  fun adr acc input secret nbStripes =>
    for_ (Z.to_nat nbStripes) 0
      (fun n acc => acc512 adr acc (padd input (n * STRIPE_LEN)) (padd secret (n * SECRET_CONSUME_RATE))) acc.

(** XXH_writeLE64 into a byte array: xxhash.h:4832-4836 *)
Definition writeLE64 (c : cfg) (b : list Z) (o v64 : Z) : res (list Z) :=
  let v64 := if cpu_le c then v64 else swap64 v64 in
  store b o (native_bytes c 8 v64).

(* ------------------------------------------------------------------ *)
(** ** Scalar: xxhash.h:5591-5772 *)

(** XXH_mult32to64_add64: xxhash.h:5617-5621 (5608-5615 is the UMADDL instruction, same value) *)
Definition mult32to64_add64 (lhs rhs acc : Z) : Z := add64 (mult32to64 (u32 lhs) (u32 rhs)) acc.

(** XXH3_scalarRound: xxhash.h:5631-5648 *)
Definition scalarRound (c : cfg) (adr : Z) (acc : list Z) (input secret : ptr) (lane : Z) : res (list Z) :=
  let! _ := assert_ (lane <? ACC_NB) in
  let! _ := assert_ (aligned_adr adr (acc_align c)) in
  let! data_val := readLE64 c (padd input (lane * 8)) in
  let! key := readLE64 c (padd secret (lane * 8)) in
  let data_key := xor data_val key in
  let acc := aset acc (Z.lxor lane 1) (add64 (aget acc (Z.lxor lane 1)) data_val) in
  OK (aset acc lane (mult32to64_add64 data_key (shr data_key 32) (aget acc lane))).

(** XXH3_accumulate_512_scalar: xxhash.h:5654-5670 *)
Definition accumulate_512_scalar (c : cfg) : f_acc512 := fun adr acc input secret =>
  for_ 8 0 (fun i acc => scalarRound c adr acc input secret i) acc.

(** XXH3_scalarScrambleRound: xxhash.h:5680-5697 *)
Definition scalarScrambleRound (c : cfg) (adr : Z) (acc : list Z) (secret : ptr) (lane : Z) : res (list Z) :=
  let! _ := assert_ (aligned_adr adr (acc_align c)) in
  let! _ := assert_ (lane <? ACC_NB) in
  let! key64 := readLE64 c (padd secret (lane * 8)) in
  let acc64 := aget acc lane in
  let acc64 := xorshift64 acc64 47 in
  let acc64 := xor acc64 key64 in
  let acc64 := mul64 acc64 PRIME32_1 in
  OK (aset acc lane acc64).

(** XXH3_scrambleAcc_scalar: xxhash.h:5703-5710 *)
Definition scrambleAcc_scalar (c : cfg) : f_scramble := fun adr acc secret =>
  for_ 8 0 (fun i acc => scalarScrambleRound c adr acc secret i) acc.

(** XXH3_initCustomSecret_scalar: xxhash.h:5712-5771 *)
Definition initCustomSecret_scalar (c : cfg) : f_initSec := fun adr dest seed64 =>
  for_ 12 0 (fun i dest =>
    let! lo := readLE64 c (padd kSecret_ptr (16 * i)) in
    let lo := add64 lo seed64 in
    let! hi := readLE64 c (padd kSecret_ptr (16 * i + 8)) in
    let hi := sub64 hi seed64 in
    let! dest := writeLE64 c dest (16 * i) lo in
    writeLE64 c dest (16 * i + 8) hi) dest.

(* ------------------------------------------------------------------ *)
(** ** Lane operations shared by the vector units: the intrinsics that the kernels of xxhash.h:4868-5625 use, lane by lane *)
Definition map2 (f : Z -> Z -> Z) (a b : list Z) : list Z := map (fun p => f (fst p) (snd p)) (combine a b).

(** 64-bit lanes of [n] 8-byte groups, in CPU byte order (loads at xxhash.h:4894, 5003, 5110, 5272) *)
Definition qlanes (c : cfg) (n : nat) (l : list Z) : list Z :=
  map (fun i => native_val c (zslice l (8 * Z.of_nat i) 8)) (seq 0 n).
(** unaligned vector load of [n] lanes (_mm_loadu_si128 and the like: xxhash.h:4894-4896, 5003-5005, 5110-5112) *)
Definition vloadu (c : cfg) (n : nat) (p : ptr) : res (list Z) :=
  let! l := load p (8 * Z.of_nat n) in OK (qlanes c n l).
(** bytes of a vector in memory (stores at xxhash.h:4973, 5074-5079, 5186) *)
Definition vbytes (c : cfg) (v : list Z) : list Z := flat_map (native_bytes c 8) v.

(** 32-bit view of 64-bit lanes (little-endian lane order) and back (for the shuffles at xxhash.h:4904, 5013, 5116-5120) *)
Definition to32 (v : list Z) : list Z := flat_map (fun q => [u32 q; shr q 32]) v.
Fixpoint of32 (w : list Z) : list Z :=
  match w with lo :: hi :: r => lo + 2 ^ 32 * hi :: of32 r | _ => [] end.
(** 32-bit lanes by groups of 4 (the 128-bit sub-lanes of SSE/AVX registers; shuffles at xxhash.h:4904, 5013, 5116-5120) *)
Fixpoint groups4 (n : nat) (f : list Z -> list Z) (w : list Z) : list Z :=
  match n with O => [] | S n' => f (firstn 4 w) ++ groups4 n' f (skipn 4 w) end.

(** xor, add and shifts of lanes: xxhash.h:4898, 5114, 5121-5152, 5278-5280, 5326-5349, 5379 *)
Definition v_xor := map2 xor.                                    (* _mm*_xor_si*, veorq_u64 *)
Definition v_add64 := map2 add64.                                (* _mm*_add_epi64, vaddq_u64 *)
Definition v_srl64 (v : list Z) (n : Z) := map (fun q => shr q n) v.    (* _mm*_srli_epi64, vshrq_n_u64 *)
Definition v_sll64 (v : list Z) (n : Z) := map (fun q => shl64 q n) v.  (* _mm*_slli_epi64 *)
(** _mm*_mul_epu32 (xxhash.h:4902, 5011, 5118, 5150-5151): product of the low 32 bits of each 64-bit lane *)
Definition v_mul_epu32 := map2 (fun a b => mul64 (u32 a) (u32 b)).
(** _mm*_shuffle_epi32(v, _MM_SHUFFLE(d3,d2,d1,d0)) (xxhash.h:4904, 5013, 5116, 5120): inside each 128-bit group, word i := word d_i *)
Definition v_shuffle_epi32 (v : list Z) (d3 d2 d1 d0 : nat) : list Z :=
  of32 (groups4 (length v / 2)
          (fun w => [nth d0 w 0; nth d1 w 0; nth d2 w 0; nth d3 w 0]) (to32 v)).
(** _mm*_set1_epi32: every 32-bit lane (xxhash.h:4939, 5029, 5136) *)
Definition v_set1_epi32 (n : nat) (x : Z) : list Z := of32 (repeat (u32 x) (2 * n)).
(** _mm512_ternarylogic_epi32(a,b,c,imm) (xxhash.h:4946): bit = imm[4a+2b+c], bitwise *)
Definition ternary_bit (imm : Z) (a b c : bool) : bool :=
  Z.testbit imm (4 * Z.b2z a + 2 * Z.b2z b + Z.b2z c).
Definition ternary64 (imm x y z : Z) : Z :=
  fold_right (fun i acc => Z.lor (Z.shiftl (Z.b2z (ternary_bit imm (Z.testbit x (Z.of_nat i)) (Z.testbit y (Z.of_nat i))
                                                     (Z.testbit z (Z.of_nat i)))) (Z.of_nat i)) acc) 0 (seq 0 64).
Definition v_ternary (imm : Z) (a b d : list Z) : list Z :=
  map (fun t => ternary64 imm (fst (fst t)) (snd (fst t)) (snd t)) (combine (combine a b) d).

(* ------------------------------------------------------------------ *)
(** ** AVX512 *)
(** XXH3_accumulate_512_avx512: xxhash.h:4883-4909 *)
Definition accumulate_512_avx512 (c : cfg) : f_acc512 := fun adr acc input secret =>
  let! _ := assert_ (aligned_adr adr 64) in
  let! data_vec := vloadu c 8 input in
  let! key_vec := vloadu c 8 secret in
  let data_key := v_xor data_vec key_vec in
  let data_key_lo := v_srl64 data_key 32 in
  let product := v_mul_epu32 data_key data_key_lo in
  let data_swap := v_shuffle_epi32 data_vec 1 0 3 2 in
  let sum := v_add64 (vget acc 0 8) data_swap in
  OK (vset acc 0 (v_add64 product sum)).

(** XXH3_scrambleAcc_avx512: xxhash.h:4933-4954 *)
Definition scrambleAcc_avx512 (c : cfg) : f_scramble := fun adr acc secret =>
  let! _ := assert_ (aligned_adr adr 64) in
  let prime32 := v_set1_epi32 8 PRIME32_1 in
  let acc_vec := vget acc 0 8 in
  let shifted := v_srl64 acc_vec 47 in
  let! key_vec := vloadu c 8 secret in
  let data_key := v_ternary 0x96 key_vec acc_vec shifted in
  let data_key_hi := v_srl64 data_key 32 in
  let prod_lo := v_mul_epu32 data_key prime32 in
  let prod_hi := v_mul_epu32 data_key_hi prime32 in
  OK (vset acc 0 (v_add64 prod_lo (v_sll64 prod_hi 32))).

(** _mm512_mask_sub_epi64(src, k, a, b) (xxhash.h:4965): lane i is a_i - b_i if bit i of k, else src_i *)
Definition v_mask_sub (src : list Z) (k : Z) (a b : list Z) : list Z :=
  map (fun t => let '(i, (s, (x, y))) := t in if Z.testbit k (Z.of_nat i) then sub64 x y else s)
      (combine (seq 0 8) (combine src (combine a b))).

(** dest[i] = _mm*_add_epi64(_mm*_load(src + i), seed), for [n] lanes per register (xxhash.h:4973, 5074-5079, 5186) *)
Definition init_step (c : cfg) (n : nat) (seed : list Z) (i : Z) (dest : list Z) : res (list Z) :=
  let w := 8 * Z.of_nat n in
  let! _ := assert_ (aligned_to (padd kSecret_ptr (w * i)) w) in
  let! src := vloadu c n (padd kSecret_ptr (w * i)) in
  store dest (w * i) (vbytes c (v_add64 src seed)).

(** XXH3_initCustomSecret_avx512: xxhash.h:4956-4974 *)
Definition initCustomSecret_avx512 (c : cfg) : f_initSec := fun adr dest seed64 =>
  let! _ := assert_ (aligned_adr adr 64) in
  let seed_pos := repeat seed64 8 in
  let seed := v_mask_sub seed_pos 0xAA (repeat 0 8) seed_pos in
  for_ 3 0 (fun i dest => init_step c 8 seed i dest) dest.

(* ------------------------------------------------------------------ *)
(** ** AVX2 and SSE2 *)
(** XXH3_accumulate_512_avx2: xxhash.h:4986-5018 *)
Definition accumulate_512_avx2 (c : cfg) : f_acc512 := fun adr acc input secret =>
  let! _ := assert_ (aligned_adr adr 32) in
  for_ 2 0 (fun i acc =>
    let o := Z.to_nat (4 * i) in
    let! data_vec := vloadu c 4 (padd input (32 * i)) in
    let! key_vec := vloadu c 4 (padd secret (32 * i)) in
    let data_key := v_xor data_vec key_vec in
    let data_key_lo := v_srl64 data_key 32 in
    let product := v_mul_epu32 data_key data_key_lo in
    let data_swap := v_shuffle_epi32 data_vec 1 0 3 2 in
    let sum := v_add64 (vget acc o 4) data_swap in
    OK (vset acc o (v_add64 product sum))) acc.

(** XXH3_scrambleAcc_avx2: xxhash.h:5021-5048 *)
Definition scrambleAcc_avx2 (c : cfg) : f_scramble := fun adr acc secret =>
  let! _ := assert_ (aligned_adr adr 32) in
  let prime32 := v_set1_epi32 4 PRIME32_1 in
  for_ 2 0 (fun i acc =>
    let o := Z.to_nat (4 * i) in
    let acc_vec := vget acc o 4 in
    let shifted := v_srl64 acc_vec 47 in
    let data_vec := v_xor acc_vec shifted in
    let! key_vec := vloadu c 4 (padd secret (32 * i)) in
    let data_key := v_xor data_vec key_vec in
    let data_key_hi := v_srl64 data_key 32 in
    let prod_lo := v_mul_epu32 data_key prime32 in
    let prod_hi := v_mul_epu32 data_key_hi prime32 in
    OK (vset acc o (v_add64 prod_lo (v_sll64 prod_hi 32)))) acc.

(** XXH3_initCustomSecret_avx2: xxhash.h:5050-5080; six unrolled stores *)
Definition initCustomSecret_avx2 (c : cfg) : f_initSec := fun adr dest seed64 =>
  let! _ := assert_ (aligned_adr adr 32) in
  let seed := [seed64; sub64 0 seed64; seed64; sub64 0 seed64] in
  for_ 6 0 (fun i dest => init_step c 4 seed i dest) dest.

(** XXH3_accumulate_512_sse2: xxhash.h:5092-5125 *)
Definition accumulate_512_sse2 (c : cfg) : f_acc512 := fun adr acc input secret =>
  let! _ := assert_ (aligned_adr adr 16) in
  for_ 4 0 (fun i acc =>
    let o := Z.to_nat (2 * i) in
    let! data_vec := vloadu c 2 (padd input (16 * i)) in
    let! key_vec := vloadu c 2 (padd secret (16 * i)) in
    let data_key := v_xor data_vec key_vec in
    let data_key_lo := v_shuffle_epi32 data_key 0 3 0 1 in
    let product := v_mul_epu32 data_key data_key_lo in
    let data_swap := v_shuffle_epi32 data_vec 1 0 3 2 in
    let sum := v_add64 (vget acc o 2) data_swap in
    OK (vset acc o (v_add64 product sum))) acc.

(** XXH3_scrambleAcc_sse2: xxhash.h:5128-5155 *)
Definition scrambleAcc_sse2 (c : cfg) : f_scramble := fun adr acc secret =>
  let! _ := assert_ (aligned_adr adr 16) in
  let prime32 := v_set1_epi32 2 PRIME32_1 in
  for_ 4 0 (fun i acc =>
    let o := Z.to_nat (2 * i) in
    let acc_vec := vget acc o 2 in
    let shifted := v_srl64 acc_vec 47 in
    let data_vec := v_xor acc_vec shifted in
    let! key_vec := vloadu c 2 (padd secret (16 * i)) in
    let data_key := v_xor data_vec key_vec in
    let data_key_hi := v_shuffle_epi32 data_key 0 3 0 1 in
    let prod_lo := v_mul_epu32 data_key prime32 in
    let prod_hi := v_mul_epu32 data_key_hi prime32 in
    OK (vset acc o (v_add64 prod_lo (v_sll64 prod_hi 32)))) acc.

(** XXH3_initCustomSecret_sse2: xxhash.h:5157-5188 *)
Definition initCustomSecret_sse2 (c : cfg) : f_initSec := fun adr dest seed64 =>
  let! _ := assert_ (aligned_adr adr 16) in
  let seed := [seed64; sub64 0 seed64] in
  for_ 12 0 (fun i dest => init_step c 2 seed i dest) dest.

(* ------------------------------------------------------------------ *)
(** ** NEON: the intrinsics used at xxhash.h:5263-5411 *)
(** vmovn_u64, vshrn_n_u64: xxhash.h:5341-5343, 5403 *)
Definition v_movn (v : list Z) : list Z := map u32 v.                          (* vmovn_u64 *)
Definition v_shrn (v : list Z) (n : Z) : list Z := map (fun q => u32 (shr q n)) v. (* vshrn_n_u64 *)
(** vmlal_u32(acc, a, b): acc + a * b, widening (xxhash.h:5345, 5405) *)
Definition v_mlal (acc a b : list Z) : list Z := map2 add64 acc (map2 mul64 a b).
(** vextq_u64(v, v, 1): rotate the two lanes (xxhash.h:5275-5276, 5336) *)
Definition v_ext1 (v : list Z) : list Z := [nth 1 v 0; nth 0 v 0].
(** vuzpq_u32 (xxhash.h:5294-5296): even and odd 32-bit lanes of the concatenation *)
Definition v_uzp (a b : list Z) : list Z * list Z :=
  let w := a ++ b in
  (map (fun i => nth (2 * i) w 0) (seq 0 4), map (fun i => nth (2 * i + 1) w 0) (seq 0 4)).
Definition v_mul32 := map2 mul32.   (* vmulq_u32 *)

(** two vectors at a time: xxhash.h:5268-5329 *)
Definition neon_round4 (c : cfg) (acc : list Z) (input secret : ptr) (i : Z) : res (list Z) :=
  let o1 := Z.to_nat (2 * i) in let o2 := Z.to_nat (2 * (i + 1)) in
  let! data_vec_1 := vloadu c 2 (padd input (i * 16)) in
  let! data_vec_2 := vloadu c 2 (padd input ((i + 1) * 16)) in
  let! key_vec_1 := vloadu c 2 (padd secret (i * 16)) in
  let! key_vec_2 := vloadu c 2 (padd secret ((i + 1) * 16)) in
  let data_swap_1 := v_ext1 data_vec_1 in
  let data_swap_2 := v_ext1 data_vec_2 in
  let data_key_1 := v_xor data_vec_1 key_vec_1 in
  let data_key_2 := v_xor data_vec_2 key_vec_2 in
  let unzipped := v_uzp (to32 data_key_1) (to32 data_key_2) in
  let data_key_lo := fst unzipped in
  let data_key_hi := snd unzipped in
  let sum_1 := v_mlal data_swap_1 (firstn 2 data_key_lo) (firstn 2 data_key_hi) in
  let sum_2 := v_mlal data_swap_2 (skipn 2 data_key_lo) (skipn 2 data_key_hi) in
  let acc := vset acc o1 (v_add64 (vget acc o1 2) sum_1) in
  OK (vset acc o2 (v_add64 (vget acc o2 2) sum_2)).

(** one vector: xxhash.h:5331-5350 *)
Definition neon_round2 (c : cfg) (acc : list Z) (input secret : ptr) (i : Z) : res (list Z) :=
  let o := Z.to_nat (2 * i) in
  let! data_vec := vloadu c 2 (padd input (i * 16)) in
  let! key_vec := vloadu c 2 (padd secret (i * 16)) in
  let data_swap := v_ext1 data_vec in
  let data_key := v_xor data_vec key_vec in
  let data_key_lo := v_movn data_key in
  let data_key_hi := v_shrn data_key 32 in
  let sum := v_mlal data_swap data_key_lo data_key_hi in
  OK (vset acc o (v_add64 (vget acc o 2) sum)).

(** XXH3_accumulate_512_neon: xxhash.h:5227-5352 *)
Definition accumulate_512_neon (c : cfg) (lanes : nat) : f_acc512 := fun adr acc input secret =>
  let! _ := assert_ (aligned_adr adr 16) in
  let half := Z.of_nat lanes / 2 in
  let! acc := for_ (8 - lanes) (Z.of_nat lanes) (fun i acc => scalarRound c adr acc input secret i) acc in
  let! (i, acc) :=
    while_ 4 (fun s => fst s + 1 <? half)
      (fun s => let! acc := neon_round4 c (snd s) input secret (fst s) in OK (fst s + 2, acc)) (0, acc) in
  let! (_, acc) :=
    while_ 4 (fun s => fst s <? half)
      (fun s => let! acc := neon_round2 c (snd s) input secret (fst s) in OK (fst s + 1, acc)) (i, acc) in
  OK acc.

(** XXH3_scrambleAcc_neon: xxhash.h:5355-5408; [wasm] selects the 64-bit multiplication *)
Definition scrambleAcc_neon (c : cfg) (lanes : nat) (wasm : bool) : f_scramble := fun adr acc secret =>
  let! _ := assert_ (aligned_adr adr 16) in
  let kPrimeLo := [PRIME32_1; PRIME32_1] in
  let kPrimeHi := to32 (repeat (shl64 PRIME32_1 32) 2) in
  let! acc := for_ (8 - lanes) (Z.of_nat lanes) (fun i acc => scalarScrambleRound c adr acc secret i) acc in
  for_ (lanes / 2) 0 (fun i acc =>
    let o := Z.to_nat (2 * i) in
    let acc_vec := vget acc o 2 in
    let shifted := v_srl64 acc_vec 47 in
    let data_vec := v_xor acc_vec shifted in
    let! key_vec := vloadu c 2 (padd secret (i * 16)) in
    let data_key := v_xor data_vec key_vec in
    if wasm then OK (vset acc o (map (fun q => mul64 q PRIME32_1) data_key))
    else
      let prod_hi := v_mul32 (to32 data_key) kPrimeHi in
      let data_key_lo := v_movn data_key in
      OK (vset acc o (v_mlal (of32 prod_hi) data_key_lo kPrimeLo))) acc.

(* ------------------------------------------------------------------ *)
(** ** VSX / Z vector *)
(** XXH_vec_loadu: xxhash.h:4198-4206: element-wise native load, bytes reversed on big endian
    (XXH_vec_revb, 4186-4191) *)
Definition vsx_loadu (c : cfg) (p : ptr) : res (list Z) :=
  let! v := vloadu c 2 p in OK (if cpu_le c then v else map swap64 v).
(** XXH_vec_mulo / XXH_vec_mule: xxhash.h:4215-4238: the instructions vmulouw / vmuleuw, whose "odd" words
    are the low halves and "even" words the high halves of the 64-bit lanes *)
Definition vsx_mulo := map2 (fun a b => mul64 (u32 a) (u32 b)).
Definition vsx_mule := map2 (fun a b => mul64 (shr a 32) (shr b 32)).
Definition vsx_rl (v : list Z) (n : Z) : list Z := map (fun q => rotl64 q n) v.  (* vec_rl *)

(** XXH3_accumulate_512_vsx: xxhash.h:5414-5447 ("presumed aligned": a typed 16-byte access) *)
Definition accumulate_512_vsx (c : cfg) : f_acc512 := fun adr acc input secret =>
  let! _ := assert_ (aligned_adr adr 16) in
  for_ 4 0 (fun i acc =>
    let o := Z.to_nat (2 * i) in
    let! data_vec := vsx_loadu c (padd input (16 * i)) in
    let! key_vec := vsx_loadu c (padd secret (16 * i)) in
    let data_key := v_xor data_vec key_vec in
    let shuffled := vsx_rl data_key 32 in
    let product := vsx_mulo data_key shuffled in
    let acc_vec := vget acc o 2 in
    let acc_vec := v_add64 acc_vec product in
    let acc_vec := v_add64 acc_vec (v_ext1 data_vec) in
    OK (vset acc o acc_vec)) acc.

(** XXH3_scrambleAcc_vsx: xxhash.h:5450-5478 *)
Definition scrambleAcc_vsx (c : cfg) : f_scramble := fun adr acc secret =>
  let! _ := assert_ (aligned_adr adr 16) in
  let prime := of32 [PRIME32_1; PRIME32_1; PRIME32_1; PRIME32_1] in
  for_ 4 0 (fun i acc =>
    let o := Z.to_nat (2 * i) in
    let acc_vec := vget acc o 2 in
    let data_vec := v_xor acc_vec (v_srl64 acc_vec 47) in
    let! key_vec := vsx_loadu c (padd secret (16 * i)) in
    let data_key := v_xor data_vec key_vec in
    let prod_even := vsx_mule data_key prime in
    let prod_odd := vsx_mulo data_key prime in
    OK (vset acc o (v_add64 prod_odd (v_sll64 prod_even 32)))) acc.

(* ------------------------------------------------------------------ *)
(** ** SVE: registers of [d] lanes; a predicate is the number of active low lanes *)
(** svptrue_pat_b64(SV_VLk): the first k lanes, or none if the register is shorter (xxhash.h:5492-5514, 5534-5571) *)
Definition sv_mask (d k : nat) : nat := if (k <=? d)%nat then k else O.
(** value computed by an "_x" operation (xxhash.h:4243-4252): [v] in active lanes, [junk] in the others *)
Definition sv_x (d act : nat) (junk : Z) (v : list Z) : list Z :=
  map (fun i => if (i <? act)%nat then nth i v 0 else junk) (seq 0 d).
(** svld1_u64 (xxhash.h:4244-4245): active lanes loaded (native byte order), others zero *)
Definition sv_ld1 (c : cfg) (d act : nat) (p : ptr) : res (list Z) :=
  let! v := vloadu c act p in OK (v ++ repeat 0 (d - act)).
(** load and store of accumulator lanes (svld1_u64, svst1_u64: xxhash.h:5501-5520, 5551-5584) *)
Definition sv_ldacc (d act : nat) (acc : list Z) (o : nat) : list Z := vget acc o act ++ repeat 0 (d - act).
Definition sv_stacc (act : nat) (acc : list Z) (o : nat) (v : list Z) : list Z := vset acc o (firstn act v).
(** svtbl_u64: table lookup, zero when out of range (xxhash.h:4247) *)
Definition sv_tbl (v idx : list Z) : list Z := map (fun i => nth (Z.to_nat i) v 0) idx.

(** ACCRND: xxhash.h:4242-4252; kSwap: xxhash.h:5492 / 5535 (svindex_u64(0,1) xor 1, all lanes).
    [off] is in 8-byte elements; the pointer argument is the base already advanced. *)
Definition sve_kSwap (d : nat) : list Z := map (fun i => Z.lxor (Z.of_nat i) 1) (seq 0 d).
Definition ACCRND (c : cfg) (d : nat) (junk : Z) (act : nat) (acc : list Z) (xinput xsecret : ptr) (off : Z) : res (list Z) :=
  let! input_vec := sv_ld1 c d act (padd xinput (8 * off)) in
  let! secret_vec := sv_ld1 c d act (padd xsecret (8 * off)) in
  let mixed := sv_x d act junk (v_xor secret_vec input_vec) in
  let swapped := sv_tbl input_vec (sve_kSwap d) in
  let mixed_lo := sv_x d act junk (map u32 mixed) in
  let mixed_hi := sv_x d act junk (v_srl64 mixed 32) in
  let mul := sv_x d act junk (map2 add64 (map2 mul64 mixed_lo mixed_hi) swapped) in
  OK (sv_x d act junk (v_add64 acc mul)).

(** offsets (in lanes) of the vectors that hold the accumulators, and the predicate: xxhash.h:5494-5521 *)
Definition sve_shape (d : nat) : nat * list Z :=
  if (8 <=? d)%nat then (sv_mask d 8, [0])
  else if (d =? 2)%nat then (sv_mask d 2, [0; 2; 4; 6])
  else (sv_mask d 4, [0; 4]).

Fixpoint sve_rounds (c : cfg) (d : nat) (junk : Z) (act : nat) (offs : list Z) (vs : list (list Z))
         (xinput xsecret : ptr) : res (list (list Z)) :=
  match offs, vs with
  | o :: offs', v :: vs' =>
      let! v := ACCRND c d junk act v xinput xsecret o in
      let! r := sve_rounds c d junk act offs' vs' xinput xsecret in
      OK (v :: r)
  | _, _ => OK []
  end.
Fixpoint sve_store (act : nat) (acc : list Z) (offs : list Z) (vs : list (list Z)) : list Z :=
  match offs, vs with
  | o :: offs', v :: vs' => sve_store act (sv_stacc act acc (Z.to_nat o) v) offs' vs'
  | _, _ => acc
  end.

(** XXH3_accumulate_512_sve: xxhash.h:5484-5522 *)
Definition accumulate_512_sve (c : cfg) (d : nat) (junk : Z) : f_acc512 := fun adr acc input secret =>
  let '(act, offs) := sve_shape d in
  let vs := map (fun o => sv_ldacc d act acc (Z.to_nat o)) offs in
  let! vs := sve_rounds c d junk act offs vs input secret in
  OK (sve_store act acc offs vs).

(** XXH3_accumulate_sve: xxhash.h:5524-5587; the accumulators stay in registers across stripes *)
Definition accumulate_sve (c : cfg) (d : nat) (junk : Z) : f_accumulate := fun adr acc input secret nbStripes =>
  if nbStripes =? 0 then OK acc
  else
    let '(act, offs) := sve_shape d in
    let vs := map (fun o => sv_ldacc d act acc (Z.to_nat o)) offs in
    let! (vs, _, _, _) :=
      do_while (Z.to_nat nbStripes)
        (fun s => let '(vs, xinput, xsecret, nb) := s in
                  let! vs := sve_rounds c d junk act offs vs xinput xsecret in
                  OK (vs, padd xinput (8 * 8), padd xsecret (8 * 1), nb - 1))
        (fun s => let '(_, _, _, nb) := s in negb (nb =? 0))
        (vs, input, secret, nbStripes) in
    OK (sve_store act acc offs vs).

(* ------------------------------------------------------------------ *)
(** ** Selection: xxhash.h:5779-5832 *)
Definition accumulate_512 (c : cfg) : f_acc512 :=
  match vec c with
  | V_AVX512 => accumulate_512_avx512 c
  | V_AVX2 => accumulate_512_avx2 c
  | V_SSE2 => accumulate_512_sse2 c
  | V_NEON l _ => accumulate_512_neon c l
  | V_VSX => accumulate_512_vsx c
  | V_SVE d j => accumulate_512_sve c d j
  | V_SCALAR => accumulate_512_scalar c
  end.
Definition accumulate (c : cfg) : f_accumulate :=
  match vec c with
  | V_SVE d j => accumulate_sve c d j
  | _ => accumulate_template (accumulate_512 c)
  end.
Definition scrambleAcc (c : cfg) : f_scramble :=
  match vec c with
  | V_AVX512 => scrambleAcc_avx512 c
  | V_AVX2 => scrambleAcc_avx2 c
  | V_SSE2 => scrambleAcc_sse2 c
  | V_NEON l w => scrambleAcc_neon c l w
  | V_VSX => scrambleAcc_vsx c
  | V_SVE _ _ | V_SCALAR => scrambleAcc_scalar c
  end.
Definition initCustomSecret (c : cfg) : f_initSec :=
  if 1 <=? size_opt c then initCustomSecret_scalar c
  else match vec c with
  | V_AVX512 => initCustomSecret_avx512 c
  | V_AVX2 => initCustomSecret_avx2 c
  | V_SSE2 => initCustomSecret_sse2 c
  | _ => initCustomSecret_scalar c
  end.
