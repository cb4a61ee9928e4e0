(** XXH3, inputs of at most 240 bytes: the model computes the specification. *)
From Verif Require Import Base Mem M_XXH32 M_XXH64 M_XXH3 M_Kernels M_Long Spec3 P_Base P_Spec P_XXH64 P_X3_Base.

Ltac rdside := first [assumption | lia | llia].
Ltac rdstep :=
  match goal with
  | |- context [readLE64 ?c (padd ?p ?k)] =>
      match goal with P : points_to p ?m |- _ => rewrite (R8 c p m k) by rdside end
  | |- context [readLE32 ?c (padd ?p ?k)] =>
      match goal with P : points_to p ?m |- _ => rewrite (R4 c p m k) by rdside end
  | |- context [readLE64 ?c ?p] =>
      match goal with P : points_to p ?m |- _ => rewrite (R8_0 c p m) by rdside end
  | |- context [readLE32 ?c ?p] =>
      match goal with P : points_to p ?m |- _ => rewrite (R4_0 c p m) by rdside end
  end.
Ltac rd := rewrite ?padd_padd; repeat (rdstep; cbn [bind]).
Ltac words := repeat first
  [ assumption | apply u64_range | apply lo64_w64 | apply avalanche3_w64
  | apply rd8_w64; [assumption|lia|lia]
  | apply w32_w64, rd4_w32; [assumption|lia|lia]
  | apply rd4_w32; [assumption|lia|lia]
  | apply xor_w64 | apply xor_w32 | apply fold128_w64 | apply hi64_w64
  | apply shr_w64; [lia|] | apply swap64_w64 | apply swap32_w32 | apply rotl64_w64; [lia|] | apply rotl32_w32; [lia|]
  | apply u32_range | apply rol64_w64; [lia|] | apply xorshift_w64; [lia|] ].
Ltac fails := unfold assert_; repeat match goal with
  | |- context [if ?b then OK tt else UB] => replace b with true by lia; cbn [bind]
  end.

(** bring model words and specification words to the same syntactic form *)
Ltac norm3 :=
  unfold add64, sub64, mul64, u64, xor;
  change X3.W with 18446744073709551616; change X3.P1 with PRIME64_1; change X3.P2 with PRIME64_2;
  change X3.MX1 with PRIME_MX1; change X3.MX2 with PRIME_MX2.

Section Short.
Context (c : cfg) (input : ptr) (m : list Z) (secret : ptr) (s : list Z) (seed : Z).
Hypothesis C : cfg_ok c.
Hypothesis PI : points_to input m.
Hypothesis BM : bytes_ok m.
Hypothesis PS : points_to secret s.
Hypothesis BS : bytes_ok s.
Hypothesis LS : 136 <= zlen s.
Hypothesis WS : w64 seed.

Lemma secret_nonnull : is_null secret = false.
Proof. destruct secret; [cbn in PS; subst s; zlen_nil; lia|reflexivity]. Qed.
Lemma input_nonnull : 0 < zlen m -> is_null input = false.
Proof. intros. destruct input; [cbn in PI; subst m; zlen_nil; lia|reflexivity]. Qed.

(* ---------------- 0 ---------------- *)
Lemma empty_64 : zlen m = 0 -> XXH3_len_0to16_64b c input 0 secret seed = OK (X3.empty64 s seed).
Proof.
  intros L. unfold XXH3_len_0to16_64b. fails.
  change (8 <? 0) with false. change (4 <=? 0) with false. change (negb (0 =? 0)) with false.
  cbn beta iota. rd. rewrite avalanche64_eq. reflexivity.
Qed.
Lemma empty_128 : zlen m = 0 -> XXH3_len_0to16_128b c input 0 secret seed = OK (X3.empty128 s seed).
Proof.
  intros L. unfold XXH3_len_0to16_128b. fails.
  change (8 <? 0) with false. change (4 <=? 0) with false. change (negb (0 =? 0)) with false.
  cbn beta iota. rd. rewrite !avalanche64_eq. reflexivity.
Qed.

(* ---------------- 1 to 3 ---------------- *)
Lemma combined_ok : 1 <= zlen m <= 3 ->
  combined_1to3 input (zlen m) = OK (X3.combined m) /\ w32 (X3.combined m).
Proof.
  intros L. unfold combined_1to3, X3.combined. change len with (@zlen Z).
  assert (N : input <> Null) by (intros ->; cbn in PI; subst m; zlen_nil; lia).
  rewrite <- (padd_0 input) at 1.
  rewrite shr_eq by lia. change (2 ^ 1) with 2.
  rewrite !(load8_at input m) by (trivial; dlia). cbn [bind].
  rewrite !byte_zslice by dlia.
  pose proof (byte_at_ok m 0 BM ltac:(lia)) as B0. pose proof (byte_at_ok m (zlen m - 1) BM ltac:(lia)) as B1.
  pose proof (byte_at_ok m (zlen m / 2) BM ltac:(dlia)) as B2.
  set (b0 := byte_at m 0) in *. set (b1 := byte_at m (zlen m - 1)) in *. set (b2 := byte_at m (zlen m / 2)) in *.
  unfold byte_ok in *. unfold w32. split; [|lia].
  f_equal. rewrite !shl32_eq by lia. rewrite (Z.mod_small (b1 * 2 ^ 0)) by lia.
  rewrite (Z.mod_small (b0 * _)), (Z.mod_small (b2 * _)) by lia.
  unfold u32. rewrite (Z.mod_small (zlen m)) by lia. rewrite (Z.mod_small (zlen m * _)) by lia.
  rewrite (lor_disj (b0 * 2 ^ 16) b2 24) by lia.
  replace (b0 * 2 ^ 16 + b2 * 2 ^ 24) with ((b0 + b2 * 2 ^ 8) * 2 ^ 16) by lia.
  rewrite <- Z.lor_assoc. rewrite (lor_disj (b1 * 2 ^ 0) (zlen m) 8) by lia. rewrite lor_down by lia. lia.
Qed.
Lemma len_1to3_64 : 1 <= zlen m <= 3 ->
  XXH3_len_1to3_64b c input (zlen m) secret seed = OK (X3.h1to3_64 s seed m).
Proof.
  intros L. unfold XXH3_len_1to3_64b. rewrite input_nonnull, secret_nonnull by lia. cbn [negb]. fails.
  destruct (combined_ok L) as [-> _]. cbn [bind]. rd.
  unfold X3.h1to3_64, X3.small1to3_low. rewrite avalanche64_eq. rewrite (Z.lxor_comm _ (X3.combined m)).
  unfold X3.avalanche_XXH64. norm3. reflexivity.
Qed.
Lemma len_1to3_128 : 1 <= zlen m <= 3 ->
  XXH3_len_1to3_128b c input (zlen m) secret seed = OK (X3.h1to3_128 s seed m).
Proof.
  intros L. unfold XXH3_len_1to3_128b. rewrite input_nonnull, secret_nonnull by lia. cbn [negb]. fails.
  destruct (combined_ok L) as [-> W]. cbn [bind]. rd.
  unfold X3.h1to3_128, X3.small1to3_low. rewrite !avalanche64_eq. unfold xor.
  rewrite rotl32_rol by (try lia; words). rewrite swap32_bswap by assumption.
  rewrite (Z.lxor_comm (X3.combined m)), (Z.lxor_comm (rol _ _ _)).
  unfold X3.avalanche_XXH64. norm3. reflexivity.
Qed.

(* ---------------- 4 to 8 ---------------- *)
Lemma seed_4to8_ok : seed_4to8 seed = X3.modifiedSeed seed /\ w64 (X3.modifiedSeed seed).
Proof.
  unfold seed_4to8, X3.modifiedSeed. rewrite swap32_bswap by words.
  change (X3.lo32 seed) with (u32 seed).
  pose proof (bswap_bound 4 (u32 seed) ltac:(lia) (proj1 (u32_range seed))) as B.
  rewrite shl64_eq by lia. rewrite Z.mod_small by lia. split; [reflexivity|].
  apply xor_w64; [assumption|]. unfold w64; lia.
Qed.
Lemma rrmxmx_ok v L : w64 v -> 0 <= L < 2 ^ 64 ->
  XXH3_rrmxmx v L =
  let v := Z.lxor v (Z.lxor (rol 64 v 49) (rol 64 v 24)) in
  let v := (v * X3.MX2) mod X3.W in
  let v := Z.lxor v ((shift_right v 35 + L) mod X3.W) in
  let v := (v * X3.MX2) mod X3.W in
  xorshift v 28.
Proof.
  intros W HL. unfold XXH3_rrmxmx, xorshift64. rewrite xorshift_eq by lia.
  rewrite !rotl64_rol by (trivial; lia). rewrite !shr_eq by lia. unfold shift_right. norm3. reflexivity.
Qed.
Lemma len_4to8_64 : 4 <= zlen m <= 8 ->
  XXH3_len_4to8_64b c input (zlen m) secret seed = OK (X3.h4to8_64 s seed m).
Proof.
  intros L. unfold XXH3_len_4to8_64b. rewrite input_nonnull, secret_nonnull by lia. cbn [negb]. fails.
  destruct seed_4to8_ok as [-> W]. rd.
  rewrite rrmxmx_ok by (try lia; words). unfold X3.h4to8_64. change len with (@zlen Z).
  replace (zlen m + -4) with (zlen m - 4) by lia. unfold xor.
  rewrite (Z.lxor_comm (add64 _ _) (sub64 _ _)).
  pose proof (rd4_w32 m 0 BM ltac:(lia) ltac:(lia)) as W0.
  pose proof (rd4_w32 m (zlen m - 4) BM ltac:(lia) ltac:(lia)) as W1.
  unfold w32 in W0, W1.
  replace (add64 (X3.rd4 m (zlen m - 4)) (shl64 (X3.rd4 m 0) 32)) with (X3.rd4 m (zlen m - 4) + X3.rd4 m 0 * 2 ^ 32).
  - unfold shift_right. norm3. reflexivity.
  - rewrite shl64_eq by lia. rewrite (Z.mod_small (_ * _)) by lia. symmetry. apply u64_id. unfold w64; lia.
Qed.
Lemma len_4to8_128 : 4 <= zlen m <= 8 ->
  XXH3_len_4to8_128b c input (zlen m) secret seed = OK (X3.h4to8_128 s seed m).
Proof.
  intros L. unfold XXH3_len_4to8_128b. rewrite input_nonnull, secret_nonnull by lia. cbn [negb]. fails.
  destruct seed_4to8_ok as [-> W]. rd.
  replace (zlen m + -4) with (zlen m - 4) by lia. unfold xor.
  pose proof (rd4_w32 m 0 BM ltac:(lia) ltac:(lia)) as W0.
  pose proof (rd4_w32 m (zlen m - 4) BM ltac:(lia) ltac:(lia)) as W1.
  unfold w32 in W0, W1.
  replace (add64 (X3.rd4 m 0) (shl64 (X3.rd4 m (zlen m - 4)) 32)) with (X3.rd4 m 0 + X3.rd4 m (zlen m - 4) * 2 ^ 32).
  2:{ rewrite shl64_eq by lia. rewrite (Z.mod_small (_ * _)) by lia. symmetry. apply u64_id. unfold w64; lia. }
  replace (add64 PRIME64_1 (usz c (Z.shiftl (zlen m) 2))) with (X3.P1 + 4 * zlen m).
  2:{ rewrite Z.shiftl_mul_pow2 by lia. unfold usz. rewrite (Z.mod_small (_ * _)).
      - replace (zlen m * 2 ^ 2) with (4 * zlen m) by lia. symmetry. apply u64_id. unfold w64, PRIME64_1, X3.P1; lia.
      - destruct (ok_sz c C) as [-> | ->]; lia. }
  rewrite mult64to128_ok.
  2:{ words. unfold w64; lia. }
  2:{ unfold w64, X3.P1; lia. }
  unfold X3.h4to8_128. change len with (@zlen Z). rewrite (Z.lxor_comm (_ + _) (add64 _ _)).
  cbv zeta. rewrite !modW. repeat change (u64 (?a + ?b)) with (add64 a b).
  set (p := Z.lxor _ _ * _). change (Z.lxor _ _ * (X3.P1 + 4 * zlen m)) with p.
  replace (add64 (X3.hi64 p) (2 * X3.lo64 p)) with (add64 (X3.hi64 p) (shl64 (X3.lo64 p) 1)).
  2:{ unfold add64, shl64. rewrite u64_add_r, Z.shiftl_mul_pow2 by lia. f_equal. lia. }
  set (high := add64 _ (shl64 _ _)).
  rewrite avalanche3_eq. unfold xorshift64. rewrite !xorshift_eq by lia. rewrite shr_eq by lia. reflexivity.
Qed.

(* ---------------- 9 to 16 ---------------- *)
Lemma len_9to16_64 : 9 <= zlen m <= 16 ->
  XXH3_len_9to16_64b c input (zlen m) secret seed = OK (X3.h9to16_64 s seed m).
Proof.
  intros L. unfold XXH3_len_9to16_64b. rewrite input_nonnull, secret_nonnull by lia. cbn [negb]. fails. rd.
  unfold X3.h9to16_64. change len with (@zlen Z). replace (zlen m + -8) with (zlen m - 8) by lia.
  rewrite fold64_ok by words. rewrite swap64_bswap by words. rewrite avalanche3_eq. unfold xor.
  rewrite (Z.lxor_comm (X3.rd8 m 0)), (Z.lxor_comm (X3.rd8 m (zlen m - 8))).
  rewrite add64_4. norm3. reflexivity.
Qed.
Lemma len_9to16_128 : 9 <= zlen m <= 16 ->
  XXH3_len_9to16_128b c input (zlen m) secret seed = OK (X3.h9to16_128 s seed m).
Proof.
  intros L. unfold XXH3_len_9to16_128b. rewrite input_nonnull, secret_nonnull by lia. cbn [negb]. fails. rd.
  unfold X3.h9to16_128. change len with (@zlen Z). replace (zlen m + -8) with (zlen m - 8) by lia.
  rewrite mult64to128_ok; [|words|unfold w64, PRIME64_1; lia].
  set (v2 := xor (X3.rd8 m (zlen m - 8)) (add64 (xor (X3.rd8 s 48) (X3.rd8 s 56)) seed)).
  assert (V2 : w64 v2) by (unfold v2; words).
  replace (Z.lxor ((Z.lxor (X3.rd8 s 48) (X3.rd8 s 56) + seed) mod X3.W) (X3.rd8 m (zlen m - 8))) with v2
    by (unfold v2, xor; rewrite Z.lxor_comm; reflexivity).
  replace (Z.lxor (Z.lxor ((Z.lxor (X3.rd8 s 32) (X3.rd8 s 40) - seed) mod X3.W) (X3.rd8 m 0)) (X3.rd8 m (zlen m - 8)))
    with (xor (xor (X3.rd8 m 0) (X3.rd8 m (zlen m - 8))) (sub64 (xor (X3.rd8 s 32) (X3.rd8 s 40)) seed))
    by (unfold xor; rewrite (Z.lxor_comm (Z.lxor (X3.rd8 m 0) _)), <- Z.lxor_assoc; reflexivity).
  change X3.P1 with PRIME64_1.
  set (p := _ * PRIME64_1). cbv zeta.
  set (high := (X3.hi64 p + X3.hi32 v2 * 2 ^ 32 + X3.lo32 v2 * X3.P32_2) mod X3.W).
  replace (if ptr_small c then _ else _) with high.
  2:{ unfold high. clearbody p.
      assert (E : v2 = X3.hi32 v2 * 2 ^ 32 + X3.lo32 v2) by (unfold X3.hi32, X3.lo32; dlia).
      assert (WL : w32 (X3.lo32 v2)) by (apply (u32_range v2)).
      change (u32 v2) with (X3.lo32 v2). destruct (ptr_small c).
      - rewrite land_high32 by assumption. rewrite mult32to64_ok by (trivial; unfold w32, PRIME32_2; lia).
        unfold add64. rewrite u64_add_r, Z.add_assoc. reflexivity.
      - rewrite mult32to64_ok by (trivial; unfold w32, sub32, u32, PRIME32_2; dlia).
        unfold add64. rewrite u64_add_r, Z.add_assoc. change (sub32 PRIME32_2 1) with (X3.P32_2 - 1).
        rewrite ?modW. f_equal. unfold X3.P32_2; lia. }
  set (low := (X3.lo64 p + (zlen m - 1) * 2 ^ 54) mod X3.W).
  replace (add64 (X3.lo64 p) (shl64 (zlen m - 1) 54)) with low
    by (unfold low, add64, shl64; rewrite u64_add_r, Z.shiftl_mul_pow2 by lia; reflexivity).
  assert (WH : w64 high) by apply u64_range. assert (WL : w64 low) by apply u64_range.
  rewrite swap64_bswap by assumption.
  assert (WB : w64 (X3.bswap 8 high)) by (rewrite <- swap64_bswap by assumption; words).
  rewrite mult64to128_ok; [|words|unfold w64, PRIME64_2; lia].
  rewrite !avalanche3_eq. unfold add64, mul64. rewrite u64_add_r. reflexivity.
Qed.

Lemma len_0to16_64 : zlen m <= 16 -> XXH3_len_0to16_64b c input (zlen m) secret seed = OK (X3.short64 s seed m).
Proof.
  intros L. pose proof (zlen_nonneg m). unfold X3.short64. change len with (@zlen Z).
  destruct (Z.eqb_spec (zlen m) 0) as [E|E].
  - rewrite E. apply empty_64; assumption.
  - unfold XXH3_len_0to16_64b. fails.
    destruct (Z.leb_spec (zlen m) 3).
    { replace (8 <? zlen m) with false by lia. replace (4 <=? zlen m) with false by lia.
      replace (negb (zlen m =? 0)) with true by lia. apply len_1to3_64; lia. }
    destruct (Z.leb_spec (zlen m) 8).
    { replace (8 <? zlen m) with false by lia. replace (4 <=? zlen m) with true by lia. apply len_4to8_64; lia. }
    replace (8 <? zlen m) with true by lia. replace (zlen m <=? 16) with true by lia. apply len_9to16_64; lia.
Qed.
Lemma len_0to16_128 : zlen m <= 16 -> XXH3_len_0to16_128b c input (zlen m) secret seed = OK (X3.short128 s seed m).
Proof.
  intros L. pose proof (zlen_nonneg m). unfold X3.short128. change len with (@zlen Z).
  destruct (Z.eqb_spec (zlen m) 0) as [E|E].
  - rewrite E. apply empty_128; assumption.
  - unfold XXH3_len_0to16_128b. fails.
    destruct (Z.leb_spec (zlen m) 3).
    { replace (8 <? zlen m) with false by lia. replace (4 <=? zlen m) with false by lia.
      replace (negb (zlen m =? 0)) with true by lia. apply len_1to3_128; lia. }
    destruct (Z.leb_spec (zlen m) 8).
    { replace (8 <? zlen m) with false by lia. replace (4 <=? zlen m) with true by lia. apply len_4to8_128; lia. }
    replace (8 <? zlen m) with true by lia. replace (zlen m <=? 16) with true by lia. apply len_9to16_128; lia.
Qed.

(* ---------------- 17 to 128 ---------------- *)
Lemma mix16B_ok k o sd : 0 <= k -> k + 16 <= zlen m -> 0 <= o -> o + 16 <= zlen s ->
  XXH3_mix16B c (padd input k) (padd secret o) sd = OK (X3.mixStep s (X3.chunk m k) o sd).
Proof.
  intros. unfold XXH3_mix16B. rd. rewrite fold64_ok by words. unfold X3.mixStep. rewrite !rd8_chunk by lia.
  rewrite Z.add_0_r. reflexivity.
Qed.
Lemma add_mix16B_ok acc k o sd : 0 <= k -> k + 16 <= zlen m -> 0 <= o -> o + 16 <= zlen s ->
  add_mix16B c acc (padd input k) (padd secret o) sd = OK (add64 acc (X3.mixStep s (X3.chunk m k) o sd)).
Proof. intros. unfold add_mix16B. rewrite mix16B_ok by assumption. reflexivity. Qed.

Definition rnd64 (acc i : Z) : Z :=
  (acc + X3.mixStep s (X3.chunk m (16 * i)) (32 * i) seed
       + X3.mixStep s (X3.chunk m (len m - 16 * i - 16)) (32 * i + 16) seed) mod X3.W.
Lemma round17_ok acc i k1 o1 k2 o2 : 0 <= i <= 3 -> 16 * i + 16 <= zlen m ->
  k1 = 16 * i -> o1 = 32 * i -> k2 = zlen m - 16 * i - 16 -> o2 = 32 * i + 16 ->
  (let! acc := add_mix16B c acc (padd input k1) (padd secret o1) seed in
   add_mix16B c acc (padd input k2) (padd secret o2) seed) = OK (rnd64 acc i).
Proof.
  intros. subst. rewrite add_mix16B_ok by lia. cbn [bind]. rewrite add_mix16B_ok by lia. rewrite add64_3. reflexivity.
Qed.

Lemma mid17_spec64 n : (zlen m - 1) / 32 + 1 = n ->
  X3.mid17to128_64 s seed m = fold_left rnd64 (X3.down n) ((zlen m * X3.P1) mod X3.W).
Proof. intros <-. reflexivity. Qed.

Lemma down_S n : 0 <= n -> X3.down (n + 1) = n :: X3.down n.
Proof. intros. unfold X3.down. rewrite upto_S by lia. rewrite rev_app_distr. reflexivity. Qed.
Lemma loop_down {A} (body : Z * A -> res (Z * A)) (g : A -> Z -> A) n : forall fuel acc,
  (n <= fuel)%nat -> (forall i a, 0 <= i < Z.of_nat n -> body (i, a) = OK (i, g a i)) ->
  while_ fuel (fun s => negb (fst s =? 0)) (fun s => body (fst s - 1, snd s)) (Z.of_nat n, acc) =
  OK (0, fold_left g (X3.down (Z.of_nat n)) acc).
Proof.
  induction n as [|n IH]; intros fuel acc Hf HB.
  - destruct fuel; reflexivity.
  - destruct fuel as [|fuel]; [lia|]. replace (Z.of_nat (S n)) with (Z.of_nat n + 1) in * by lia.
    rewrite down_S by lia. cbn [while_ fst snd fold_left].
    replace (negb (Z.of_nat n + 1 =? 0)) with true by lia.
    replace (Z.of_nat n + 1 - 1) with (Z.of_nat n) by lia.
    rewrite HB by lia. cbn [bind]. apply IH; [lia|]. intros; apply HB; lia.
Qed.
Lemma down1 : X3.down 1 = [0]. Proof. reflexivity. Qed.
Lemma down2 : X3.down 2 = [1; 0]. Proof. reflexivity. Qed.
Lemma down3 : X3.down 3 = [2; 1; 0]. Proof. reflexivity. Qed.
Lemma down4 : X3.down 4 = [3; 2; 1; 0]. Proof. reflexivity. Qed.
Ltac down17 :=
  rewrite ?down1, ?down2, ?down3, ?down4; cbn [fold_left]; reflexivity.
Ltac step17 j := rewrite (round17_ok _ j) by lia; cbn [bind].
Lemma len_17to128_64 L : 17 <= zlen m <= 128 -> L = zlen s ->
  XXH3_len_17to128_64b c input (zlen m) secret L seed = OK (X3.short64 s seed m).
Proof.
  intros H ->. unfold XXH3_len_17to128_64b. unfold SECRET_SIZE_MIN. fails.
  unfold X3.short64. change len with (@zlen Z).
  replace (zlen m =? 0) with false by lia. replace (zlen m <=? 3) with false by lia.
  replace (zlen m <=? 8) with false by lia. replace (zlen m <=? 16) with false by lia.
  replace (zlen m <=? 128) with true by lia. rewrite !padd_padd.
  match goal with |- (let! x := ?a in _) = _ =>
    assert (E : a = OK (X3.mid17to128_64 s seed m)); [|rewrite E; cbn [bind]; rewrite avalanche3_eq; reflexivity] end.
  assert (U : u32 (zlen m - 1) = zlen m - 1) by (apply u32_id; unfold w32; lia). rewrite U.
  change (mul64 (zlen m) PRIME64_1) with ((zlen m * X3.P1) mod X3.W).
  set (a0 := (zlen m * X3.P1) mod X3.W) in *.
  destruct (Z.leb_spec 1 (size_opt c)).
  - set (body := loop17_64 c input (zlen m) secret seed).
    assert (HB : forall i acc, 0 <= i <= 3 -> 16 * i + 16 <= zlen m -> body (i, acc) = OK (i, rnd64 acc i)).
    { intros i acc Hi Hl. unfold body, loop17_64. rewrite !padd_padd.
      replace (zlen m + - (16 * (i + 1))) with (zlen m - 16 * i - 16) by lia.
      rewrite !add_mix16B_ok by lia. cbn [bind]. rewrite !add_mix16B_ok by lia. cbn [bind]. rewrite add64_3. reflexivity. }
    rewrite (mid17_spec64 _ eq_refl). fold a0. clearbody body a0.
    rewrite HB by dlia. cbn [bind]. set (k := (zlen m - 1) / 32).
    pose proof (loop_down body rnd64 (Z.to_nat k) 4 (rnd64 a0 k)) as EL.
    rewrite Z2Nat.id in EL by (unfold k; dlia).
    rewrite EL by (try (unfold k; dlia); intros; apply HB; unfold k in *; dlia).
    rewrite down_S by (unfold k; dlia). reflexivity.
  -
    destruct (Z.ltb_spec 96 (zlen m)); [|destruct (Z.ltb_spec 64 (zlen m)); [|destruct (Z.ltb_spec 32 (zlen m))]].
    + replace (32 <? zlen m) with true by lia. replace (64 <? zlen m) with true by lia.
      rewrite (mid17_spec64 4) by dlia. fold a0. step17 3. step17 2. step17 1. step17 0. down17.
    + replace (32 <? zlen m) with true by lia.
      rewrite (mid17_spec64 3) by dlia. fold a0. cbn [bind]. step17 2. step17 1. step17 0. down17.
    + rewrite (mid17_spec64 2) by dlia. fold a0. cbn [bind]. step17 1. step17 0. down17.
    + rewrite (mid17_spec64 1) by dlia. fold a0. cbn [bind]. step17 0. down17.
Qed.

Lemma mix32B_ok acc k1 k2 o sd : 0 <= k1 -> k1 + 16 <= zlen m -> 0 <= k2 -> k2 + 16 <= zlen m ->
  0 <= o -> o + 32 <= zlen s ->
  mix32B c acc (padd input k1) (padd input k2) (padd secret o) sd =
  OK (X3.mixTwoChunks s acc (X3.chunk m k1) (X3.chunk m k2) o sd).
Proof.
  intros. unfold mix32B. destruct acc as [lo hi]. rewrite !padd_padd, Z.add_0_r.
  rewrite !add_mix16B_ok by lia. cbn [bind]. rd.
  unfold X3.mixTwoChunks. rewrite !rd8_chunk by lia. rewrite !Z.add_0_r. cbn [fst snd]. reflexivity.
Qed.
Definition rnd128 (acc : Z * Z) (i : Z) : Z * Z :=
  X3.mixTwoChunks s acc (X3.chunk m (16 * i)) (X3.chunk m (len m - 16 * i - 16)) (32 * i) seed.
Lemma round17_128_ok acc i k1 k2 o : 0 <= i <= 3 -> 16 * i + 16 <= zlen m ->
  k1 = 16 * i -> o = 32 * i -> k2 = zlen m - 16 * i - 16 ->
  mix32B c acc (padd input k1) (padd input k2) (padd secret o) seed = OK (rnd128 acc i).
Proof. intros. subst. apply mix32B_ok; lia. Qed.
Lemma mid17_spec128 n : (zlen m - 1) / 32 + 1 = n ->
  X3.mid17to128_128 s seed m = fold_left rnd128 (X3.down n) ((zlen m * X3.P1) mod X3.W, 0).
Proof. intros <-. reflexivity. Qed.
Lemma mid128_final_ok acc L : mid128_final acc L seed = X3.mid128 acc L seed.
Proof.
  unfold mid128_final, X3.mid128. destruct acc as [lo hi]. cbn [fst snd]. rewrite !avalanche3_eq.
  f_equal. unfold sub64 at 1. f_equal. f_equal. f_equal. rewrite add64_3. unfold mul64, sub64.
  rewrite u64_mul_l, u64_add_r. rewrite <- Z.add_assoc, u64_add_l, Z.add_assoc.
  rewrite (Z.add_comm (lo * _)), <- Z.add_assoc, u64_add_l, Z.add_assoc, (Z.add_comm (hi * _)). reflexivity.
Qed.

Ltac step17b j := rewrite (round17_128_ok _ j) by lia; cbn [bind].
Lemma len_17to128_128 L : 17 <= zlen m <= 128 -> L = zlen s ->
  XXH3_len_17to128_128b c input (zlen m) secret L seed = OK (X3.short128 s seed m).
Proof.
  intros H ->. unfold XXH3_len_17to128_128b. unfold SECRET_SIZE_MIN. fails.
  unfold X3.short128. change len with (@zlen Z).
  replace (zlen m =? 0) with false by lia. replace (zlen m <=? 3) with false by lia.
  replace (zlen m <=? 8) with false by lia. replace (zlen m <=? 16) with false by lia.
  replace (zlen m <=? 128) with true by lia. rewrite !padd_padd.
  match goal with |- (let! x := ?a in _) = _ =>
    assert (E : a = OK (X3.mid17to128_128 s seed m)); [|rewrite E; cbn [bind]; rewrite mid128_final_ok; reflexivity] end.
  assert (U : u32 (zlen m - 1) = zlen m - 1) by (apply u32_id; unfold w32; lia). rewrite U.
  change (mul64 (zlen m) PRIME64_1) with ((zlen m * X3.P1) mod X3.W).
  set (a0 := ((zlen m * X3.P1) mod X3.W, 0)).
  destruct (Z.leb_spec 1 (size_opt c)).
  - set (body := loop17_128 c input (zlen m) secret seed).
    assert (HB : forall i acc, 0 <= i <= 3 -> 16 * i + 16 <= zlen m -> body (i, acc) = OK (i, rnd128 acc i)).
    { intros i acc Hi Hl. unfold body, loop17_128. rewrite !padd_padd.
      rewrite (round17_128_ok acc i) by lia. reflexivity. }
    rewrite (mid17_spec128 _ eq_refl). fold a0. clearbody body a0.
    rewrite HB by dlia. cbn [bind]. set (k := (zlen m - 1) / 32).
    pose proof (loop_down body rnd128 (Z.to_nat k) 4 (rnd128 a0 k)) as EL.
    rewrite Z2Nat.id in EL by (unfold k; dlia).
    rewrite EL by (try (unfold k; dlia); intros; apply HB; unfold k in *; dlia).
    rewrite down_S by (unfold k; dlia). reflexivity.
  - replace (mix32B c) with (mix32B c) by reflexivity.
    assert (P0 : forall a, mix32B c a input (padd input (zlen m + -16)) secret seed = OK (rnd128 a 0)).
    { intros a. rewrite <- (padd_0 input) at 1. rewrite <- (padd_0 secret). apply round17_128_ok; lia. }
    destruct (Z.ltb_spec 96 (zlen m)); [|destruct (Z.ltb_spec 64 (zlen m)); [|destruct (Z.ltb_spec 32 (zlen m))]].
    + replace (32 <? zlen m) with true by lia. replace (64 <? zlen m) with true by lia.
      rewrite (mid17_spec128 4) by dlia. fold a0. step17b 3. step17b 2. step17b 1. rewrite P0. down17.
    + replace (32 <? zlen m) with true by lia.
      rewrite (mid17_spec128 3) by dlia. fold a0. cbn [bind]. step17b 2. step17b 1. rewrite P0. down17.
    + rewrite (mid17_spec128 2) by dlia. fold a0. cbn [bind]. step17b 1. rewrite P0. down17.
    + rewrite (mid17_spec128 1) by dlia. fold a0. cbn [bind]. rewrite P0. down17.
Qed.

(* ---------------- 129 to 240 ---------------- *)
Definition sumf (f : Z -> Z) (n : Z) : Z := fold_left (fun a j => a + f j) (upto n) 0.
Lemma fold_sum f a n : 0 <= n -> w64 a -> fold_left (fun acc j => (acc + f j) mod X3.W) (upto n) a = u64 (a + sumf f n).
Proof.
  intros Hn Ha. revert n Hn. apply natlike_ind.
  - unfold sumf. rewrite upto_0 by lia. cbn [fold_left]. rewrite Z.add_0_r. symmetry; apply u64_id; assumption.
  - intros n Hn IH. change (Z.succ n) with (n + 1). unfold sumf. rewrite !fold_upto_S by lia. rewrite IH.
    fold (sumf f n). rewrite ?modW. rewrite u64_add_l, Z.add_assoc. reflexivity.
Qed.
Lemma for_fold (body : Z -> Z -> res Z) g i0 n a0 : 
  (forall i a, 0 <= i < Z.of_nat n -> body (i0 + i) a = OK (g a i)) ->
  for_ n i0 body a0 = OK (fold_left g (upto (Z.of_nat n)) a0).
Proof.
  intros H. apply (for_count body (fun i => fold_left g (upto (Z.of_nat i)) a0)); [reflexivity|].
  intros i Hi. rewrite H by lia. replace (Z.of_nat (S i)) with (Z.of_nat i + 1) by lia. rewrite fold_upto_S by lia. reflexivity.
Qed.
Lemma len_129to240_64 L : 129 <= zlen m <= 240 -> L = zlen s ->
  XXH3_len_129to240_64b c input (zlen m) secret L seed = OK (X3.short64 s seed m).
Proof.
  intros H ->. unfold XXH3_len_129to240_64b. unfold SECRET_SIZE_MIN, MIDSIZE_MAX. fails.
  unfold X3.short64. change len with (@zlen Z).
  replace (zlen m =? 0) with false by lia. replace (zlen m <=? 3) with false by lia.
  replace (zlen m <=? 8) with false by lia. replace (zlen m <=? 16) with false by lia.
  replace (zlen m <=? 128) with false by lia. rewrite !padd_padd. unfold MIDSIZE_LASTOFFSET, MIDSIZE_STARTOFFSET.
  rewrite (for_fold _ (fun acc i => (acc + X3.mixStep s (X3.chunk m (16 * i)) (16 * i) seed) mod X3.W)).
  2:{ intros i a Hi. rewrite Z.add_0_l. rewrite add_mix16B_ok by lia. reflexivity. }
  cbn [bind]. rewrite mix16B_ok by lia. cbn [bind].
  assert (U : u32 (zlen m) = zlen m) by (apply u32_id; unfold w32; lia). rewrite U.
  replace (8 <=? zlen m / 16) with true by dlia. cbn [bind].
  rewrite (for_fold _ (fun acc j => (acc + X3.mixStep s (X3.chunk m (16 * (8 + j))) (16 * j + 3) seed) mod X3.W)).
  2:{ intros i a Hi. rewrite padd_padd. rewrite add_mix16B_ok by dlia.
      replace (16 * (8 + i - 8) + 3) with (16 * i + 3) by lia. reflexivity. }
  cbn [bind]. rewrite !avalanche3_eq. unfold X3.mid64, X3.mid129to240_64. change len with (@zlen Z).
  do 2 f_equal. rewrite Z2Nat.id by dlia. change (Z.of_nat 8) with 8.
  change (mul64 (zlen m) PRIME64_1) with ((zlen m * X3.P1) mod X3.W).
  set (f := fun j => X3.mixStep s (X3.chunk m (16 * (8 + j))) (16 * j + 3) seed).
  assert (WE : w64 (X3.mixStep s (X3.chunk m (zlen m + -16)) (136 + -17) seed)).
  { unfold X3.mixStep. rewrite !rd8_chunk by lia. words. }
  rewrite !(fold_sum f) by (try apply avalanche3_w64; trivial; dlia).
  unfold add64. rewrite u64_add_r. rewrite ?modW. rewrite u64_add_l.
  change (136 + - (17)) with 119. replace (zlen m - 16) with (zlen m + -16) by lia. f_equal. lia.
Qed.

Lemma len_129to240_128 L : 129 <= zlen m <= 240 -> L = zlen s ->
  XXH3_len_129to240_128b c input (zlen m) secret L seed = OK (X3.short128 s seed m).
Proof.
  intros H ->. unfold XXH3_len_129to240_128b. unfold SECRET_SIZE_MIN, MIDSIZE_MAX. fails.
  unfold X3.short128. change len with (@zlen Z).
  replace (zlen m =? 0) with false by lia. replace (zlen m <=? 3) with false by lia.
  replace (zlen m <=? 8) with false by lia. replace (zlen m <=? 16) with false by lia.
  replace (zlen m <=? 128) with false by lia. unfold MIDSIZE_LASTOFFSET, MIDSIZE_STARTOFFSET.
  set (g1 := fun acc i => X3.mixTwoChunks s acc (X3.chunk m (32 * i)) (X3.chunk m (32 * i + 16)) (32 * i) seed).
  set (g2 := fun acc j => X3.mixTwoChunks s acc (X3.chunk m (32 * (4 + j))) (X3.chunk m (32 * (4 + j) + 16)) (32 * j + 3) seed).
  set (a0 := (mul64 (zlen m) PRIME64_1, 0)).
  rewrite (while_count _ _ (fun n => (32 + 32 * Z.of_nat n, fold_left g1 (upto (Z.of_nat n)) a0)) 4); [| reflexivity | lia | |].
  2:{ intros i Hi. cbn [fst]. split; [lia|]. rewrite !padd_padd. rewrite mix32B_ok by lia. cbn [bind].
      replace (Z.of_nat (S i)) with (Z.of_nat i + 1) by lia. rewrite fold_upto_S by lia. unfold g1 at 2.
      do 2 f_equal; [lia|]. f_equal; [f_equal; lia|f_equal; lia|lia]. }
  2:{ cbn [fst]. lia. }
  cbn [bind fst snd]. change (Z.of_nat 4) with 4. rewrite !avalanche3_eq.
  set (a1 := fold_left g1 (upto 4) a0). set (a2 := (X3.avalanche (fst a1), X3.avalanche (snd a1))).
  rewrite (while_count _ _ (fun n => (160 + 32 * Z.of_nat n, fold_left g2 (upto (Z.of_nat n)) a2)) (Z.to_nat (zlen m / 32 - 4)));
    [| reflexivity | dlia | |].
  2:{ intros i Hi. cbn [fst]. split; [dlia|]. rewrite !padd_padd. rewrite mix32B_ok by dlia. cbn [bind].
      replace (Z.of_nat (S i)) with (Z.of_nat i + 1) by lia. rewrite fold_upto_S by lia. unfold g2 at 2.
      do 2 f_equal; [lia|]. f_equal; [f_equal; lia|f_equal; lia|lia]. }
  2:{ cbn [fst]. dlia. }
  cbn [bind]. rewrite !padd_padd. rewrite mix32B_ok by lia. cbn [bind]. rewrite mid128_final_ok.
  rewrite Z2Nat.id by dlia. unfold X3.mid129to240_128. change len with (@zlen Z).
  change (136 + (-17 + -16)) with 103. change (sub64 0 seed) with ((0 - seed) mod X3.W).
  replace (zlen m + -16) with (zlen m - 16) by lia. replace (zlen m + -32) with (zlen m - 32) by lia. reflexivity.
Qed.
End Short.
