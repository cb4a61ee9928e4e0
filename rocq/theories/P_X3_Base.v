(** Arithmetic and reading lemmas shared by the XXH3 proofs. *)
From Verif Require Import Base Mem M_XXH32 M_XXH64 M_XXH3 Spec3 P_Base P_Spec P_XXH64.

(* ------------------------------------------------------------------ *)
(** ** Sums and products *)
Lemma modW a : a mod X3.W = u64 a. Proof. reflexivity. Qed.
Lemma add64_3 a b c : add64 (add64 a b) c = u64 (a + b + c).
Proof. unfold add64. apply u64_add_l. Qed.
Lemma add64_4 a b c d : add64 (add64 (add64 a b) c) d = u64 (a + b + c + d).
Proof. unfold add64. rewrite (u64_add_l (a + b) c). apply u64_add_l. Qed.
Lemma land_low32 x : Z.land x 0xFFFFFFFF = x mod 2 ^ 32.
Proof. change 0xFFFFFFFF with (Z.ones 32). apply Z.land_ones; lia. Qed.
Lemma land_high32 x : w64 x -> Z.land x 0xFFFFFFFF00000000 = x / 2 ^ 32 * 2 ^ 32.
Proof.
  unfold w64; intros H. change 0xFFFFFFFF00000000 with (Z.shiftl (Z.ones 32) 32).
  rewrite <- Z.shiftr_div_pow2, <- Z.shiftl_mul_pow2 by lia.
  apply Z.bits_inj'; intros i Hi. rewrite Z.land_spec. destruct (Z.ltb_spec i 32).
  - rewrite !Z.shiftl_spec_low by lia. apply andb_false_r.
  - rewrite !Z.shiftl_spec by lia. rewrite Z.shiftr_spec by lia. replace (i - 32 + 32) with i by lia.
    destruct (Z.ltb_spec i 64).
    + rewrite Z.ones_spec_low by lia. apply andb_true_r.
    + assert (E : Z.testbit x i = false).
      { destruct (Z.eq_dec x 0) as [->|]; [apply Z.bits_0|].
        apply Z.bits_above_log2; [lia|]. apply Z.log2_lt_pow2; [lia|].
        apply Z.lt_le_trans with (2 ^ 64); [lia|]. apply Z.pow_le_mono_r; lia. }
      rewrite E. reflexivity.
Qed.

Lemma mult32to64_ok a b : w32 a -> w32 b -> mult32to64 a b = a * b.
Proof.
  intros Ha Hb. unfold mult32to64, mul64. rewrite !u32_id by assumption. unfold w32 in *. apply u64_id. unfold w64. nia.
Qed.

Lemma mult64to128_ok c a b : w64 a -> w64 b ->
  mult64to128 c a b = (X3.lo64 (a * b), X3.hi64 (a * b)).
Proof.
  intros Ha Hb. unfold mult64to128. destruct (mul128_hw c).
  - rewrite shr_eq by lia. unfold X3.lo64, X3.hi64, u64. change X3.W with (2 ^ 64). f_equal.
    unfold w64 in *. apply Z.mod_small. split; [apply Z.div_pos; nia|]. apply Z.div_lt_upper_bound; nia.
  - rewrite !land_low32, !shr_eq by lia. unfold w64 in *.
    set (a0 := a mod 2 ^ 32). set (b0 := b mod 2 ^ 32). set (a1 := a / 2 ^ 32). set (b1 := b / 2 ^ 32).
    assert (A0 : w32 a0) by (unfold w32, a0; dlia). assert (B0 : w32 b0) by (unfold w32, b0; dlia).
    assert (A1 : w32 a1) by (unfold w32, a1; dlia). assert (B1 : w32 b1) by (unfold w32, b1; dlia).
    rewrite !mult32to64_ok by assumption.
    assert (EA : a = a0 + 2 ^ 32 * a1) by (unfold a0, a1; dlia).
    assert (EB : b = b0 + 2 ^ 32 * b1) by (unfold b0, b1; dlia).
    assert (E : a * b = a0 * b0 + 2 ^ 32 * (a1 * b0) + 2 ^ 32 * (a0 * b1) + 2 ^ 64 * (a1 * b1)) by (rewrite EA, EB; lia).
    rewrite E. unfold w32 in *.
    assert (B : forall x y, 0 <= x < 2 ^ 32 -> 0 <= y < 2 ^ 32 -> 0 <= x * y <= (2 ^ 32 - 1) * (2 ^ 32 - 1)) by (intros; nia).
    pose proof (B _ _ A0 B0). pose proof (B _ _ A1 B0). pose proof (B _ _ A0 B1). pose proof (B _ _ A1 B1).
    clear B E EA EB.
    set (ll := a0 * b0) in *. set (hl := a1 * b0) in *. set (lh := a0 * b1) in *. set (hh := a1 * b1) in *.
    clearbody ll hl lh hh. clear a0 a1 b0 b1 A0 A1 B0 B1 Ha Hb a b.
    unfold add64, X3.lo64, X3.hi64. change X3.W with (2 ^ 64). rewrite u64_add_l.
    assert (C1 : u64 (ll / 2 ^ 32 + hl mod 2 ^ 32 + lh) = ll / 2 ^ 32 + hl mod 2 ^ 32 + lh)
      by (apply u64_id; unfold w64; dlia).
    rewrite C1. rewrite shl64_eq by lia.
    set (cross := ll / 2 ^ 32 + hl mod 2 ^ 32 + lh).
    assert (C2 : cross * 2 ^ 32 mod 2 ^ 64 = (cross mod 2 ^ 32) * 2 ^ 32).
    { change (2 ^ 64) with (2 ^ 32 * 2 ^ 32). rewrite Z.mul_mod_distr_r by lia. reflexivity. }
    rewrite C2, lor_down by dlia. unfold u64.
    assert (K : 0 <= cross) by (unfold cross; dlia).
    f_equal; [|rewrite u64_add_l || idtac]; unfold cross; dlia.
Qed.
Lemma fold64_ok c a b : w64 a -> w64 b -> mul128_fold64 c a b = X3.fold128 (a * b).
Proof. intros; unfold mul128_fold64. rewrite mult64to128_ok by assumption. reflexivity. Qed.

Lemma lo64_w64 x : w64 (X3.lo64 x).
Proof. apply (u64_range x). Qed.
Lemma hi64_w64 a b : w64 a -> w64 b -> w64 (X3.hi64 (a * b)).
Proof.
  unfold w64, X3.hi64; intros. change X3.W with (2 ^ 64). split; [apply Z.div_pos; nia|].
  apply Z.div_lt_upper_bound; nia.
Qed.
Lemma fold128_w64 a b : w64 a -> w64 b -> w64 (X3.fold128 (a * b)).
Proof. intros; apply xor_w64; [apply lo64_w64|apply hi64_w64; assumption]. Qed.

(* ------------------------------------------------------------------ *)
(** ** Byte reversal *)
Lemma upto4 : upto 4 = [0; 1; 2; 3]. Proof. reflexivity. Qed.
Lemma upto8 : upto 8 = [0; 1; 2; 3; 4; 5; 6; 7]. Proof. reflexivity. Qed.
Lemma digits_le_bytes n x : 0 <= x ->
  map (fun i => x / 2 ^ (8 * i) mod 2 ^ 8) (map Z.of_nat (seq 0 n)) = le_bytes n x.
Proof.
  intros Hx. assert (G : forall s, map (fun i => x / 2 ^ (8 * i) mod 2 ^ 8) (map Z.of_nat (seq s n)) =
                                   le_bytes n (x / 2 ^ (8 * Z.of_nat s))).
  { induction n as [|n IH]; intros s; [reflexivity|]. cbn [seq map le_bytes]. f_equal.
    rewrite IH. f_equal. rewrite Z.div_div by (try apply Z.pow_nonzero; lia).
    replace (8 * Z.of_nat (S s)) with (8 * Z.of_nat s + 8) by lia. rewrite Z.pow_add_r by lia. reflexivity. }
  rewrite (G O). f_equal. cbn. apply Z.div_1_r.
Qed.
Lemma bytes8_eq x : 0 <= x -> X3.bytes8 x = le_bytes 8 x.
Proof. intros. apply (digits_le_bytes 8); assumption. Qed.
Lemma swap32_bswap x : w32 x -> swap32 x = X3.bswap 4 x.
Proof.
  intros H. unfold X3.bswap. change (upto 4) with (map Z.of_nat (seq 0 4)). unfold w32 in H.
  rewrite digits_le_bytes by lia. rewrite LE_le_val, <- swap32_val.
  - rewrite le_bytes_val by lia. f_equal. symmetry; apply Z.mod_small; exact H.
  - apply le_bytes_ok.
  - apply le_bytes_len.
Qed.
Lemma swap64_bswap x : w64 x -> swap64 x = X3.bswap 8 x.
Proof.
  intros H. unfold X3.bswap. change (upto 8) with (map Z.of_nat (seq 0 8)). unfold w64 in H.
  rewrite digits_le_bytes by lia. rewrite LE_le_val, <- swap64_val.
  - rewrite le_bytes_val by lia. f_equal. symmetry; apply Z.mod_small; exact H.
  - apply le_bytes_ok.
  - apply le_bytes_len.
Qed.
Lemma bswap_bound n x : 0 <= n -> 0 <= x -> 0 <= X3.bswap n x < 2 ^ (8 * n).
Proof.
  intros Hn Hx. unfold X3.bswap. rewrite LE_le_val. unfold upto. rewrite digits_le_bytes by lia.
  pose proof (le_val_bound (rev (le_bytes (Z.to_nat n) x)) (bytes_ok_rev _ (le_bytes_ok _ _))) as B.
  rewrite zlen_rev, le_bytes_len, Z2Nat.id in B by lia. exact B.
Qed.
Lemma swap32_w32 x : w32 x -> w32 (swap32 x).
Proof. intros H; rewrite swap32_bswap by assumption. apply (bswap_bound 4); unfold w32 in H; lia. Qed.
Lemma swap64_w64 x : w64 x -> w64 (swap64 x).
Proof. intros H; rewrite swap64_bswap by assumption. apply (bswap_bound 8); unfold w64 in H; lia. Qed.

(* ------------------------------------------------------------------ *)
(** ** Reads *)
Lemma rd8_zslice s o : X3.rd8 s o = le_val (zslice s o 8).
Proof. unfold X3.rd8. rewrite LE_le_val, seg_zslice. do 2 f_equal; lia. Qed.
Lemma rd4_zslice s o : X3.rd4 s o = le_val (zslice s o 4).
Proof. unfold X3.rd4. rewrite LE_le_val, seg_zslice. do 2 f_equal; lia. Qed.
Lemma byte_zslice s o : 0 <= o < zlen s -> X3.byte s o = byte_at s o.
Proof.
  intros. unfold X3.byte. rewrite LE_le_val, seg_zslice. replace (o + 1 - o) with 1 by lia.
  rewrite zslice_1 by lia. cbn [le_val]; lia.
Qed.
Lemma R8 c p m k : cfg_ok c -> points_to p m -> bytes_ok m -> 0 <= k -> k + 8 <= zlen m ->
  readLE64 c (padd p k) = OK (X3.rd8 m k).
Proof. intros. rewrite (readLE64_ok c p m k) by assumption. rewrite rd8_zslice. reflexivity. Qed.
Lemma R4 c p m k : cfg_ok c -> points_to p m -> bytes_ok m -> 0 <= k -> k + 4 <= zlen m ->
  readLE32 c (padd p k) = OK (X3.rd4 m k).
Proof. intros. rewrite (readLE32_ok c p m k) by assumption. rewrite rd4_zslice. reflexivity. Qed.
Lemma R8_0 c p m : cfg_ok c -> points_to p m -> bytes_ok m -> 8 <= zlen m ->
  readLE64 c p = OK (X3.rd8 m 0).
Proof. intros. rewrite <- (padd_0 p). apply R8; trivial; lia. Qed.
Lemma R4_0 c p m : cfg_ok c -> points_to p m -> bytes_ok m -> 4 <= zlen m ->
  readLE32 c p = OK (X3.rd4 m 0).
Proof. intros. rewrite <- (padd_0 p). apply R4; trivial; lia. Qed.
Lemma rd8_w64 m k : bytes_ok m -> 0 <= k -> k + 8 <= zlen m -> w64 (X3.rd8 m k).
Proof. intros. rewrite rd8_zslice. apply le_val_w64; [apply bytes_ok_zslice; assumption|llia]. Qed.
Lemma rd4_w32 m k : bytes_ok m -> 0 <= k -> k + 4 <= zlen m -> w32 (X3.rd4 m k).
Proof. intros. rewrite rd4_zslice. apply le_val_w32; [apply bytes_ok_zslice; assumption|llia]. Qed.
Lemma rd8_chunk m o k : 0 <= o -> 0 <= k <= 8 -> o + 16 <= zlen m ->
  X3.rd8 (X3.chunk m o) k = X3.rd8 m (o + k).
Proof.
  intros. rewrite !rd8_zslice. unfold X3.chunk. rewrite seg_zslice. rewrite zslice_zslice by lia. reflexivity.
Qed.

Lemma avalanche3_eq h : XXH3_avalanche h = X3.avalanche h.
Proof. unfold XXH3_avalanche, X3.avalanche, xorshift64. rewrite !xorshift_eq by lia. reflexivity. Qed.
Lemma xorshift_w64 x s : 0 <= s -> w64 x -> w64 (xorshift x s).
Proof. intros. rewrite <- xorshift_eq by assumption. apply xor_w64; [assumption|apply shr_w64; assumption]. Qed.
Lemma avalanche3_w64 x : w64 (X3.avalanche x).
Proof. unfold X3.avalanche. apply xorshift_w64; [lia|]. apply (u64_range (_ * _)). Qed.

(** the default secret *)
Lemma kSecret_default : kSecret = X3.default_secret.
Proof. vm_compute. reflexivity. Qed.
Lemma kSecret_len : zlen kSecret = 192.
Proof. reflexivity. Qed.
Lemma kSecret_bytes : bytes_ok kSecret.
Proof.
  unfold bytes_ok. apply Forall_forall. intros x Hx.
  assert (F : forallb (fun b => (0 <=? b) && (b <? 256)) kSecret = true) by (vm_compute; reflexivity).
  rewrite forallb_forall in F. specialize (F x Hx). unfold byte_ok. lia.
Qed.
Lemma kSecret_points : points_to kSecret_ptr kSecret.
Proof. exists [], []. rewrite app_nil_r. split; reflexivity. Qed.
