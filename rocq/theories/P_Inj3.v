(** XXH3: collision freedom on the shortest inputs, and injectivity in the seed. *)
From Verif Require Import Base Mem Spec32 Spec64 Spec3 P_Base P_Spec P_X3_Base P_Inj P_Inj64.

(* ------------------------------------------------------------------ *)
(** ** Steps *)
Lemma aval3_inj x y : wd 64 x -> wd 64 y -> X3.avalanche x = X3.avalanche y -> x = y.
Proof.
  unfold X3.avalanche. change X3.W with (2 ^ 64). intros Hx Hy E.
  apply xorshift_inj in E; try apply (mod_wd 64); try lia.
  apply (mul_inj 64) in E; try odd; try lia; try (apply xorshift_wd; trivial; lia).
  apply xorshift_inj in E; trivial; try lia; [apply Hx|apply Hy].
Qed.
(** bits of a rotation *)
Lemma rol_bit x s i : 0 < s < 64 -> wd 64 x -> 0 <= i < 64 -> Z.testbit (rol 64 x s) i = Z.testbit x ((i - s) mod 64).
Proof.
  intros Hs Hx Hi. rewrite rol_eq by lia.
  assert (B : 0 <= x / 2 ^ (64 - s) < 2 ^ s).
  { unfold wd in Hx. pose proof (pow_pos s ltac:(lia)). pose proof (pow_pos (64 - s) ltac:(lia)).
    assert (2 ^ 64 = 2 ^ (64 - s) * 2 ^ s) by (rewrite <- Z.pow_add_r by lia; f_equal; lia).
    split; [apply Z.div_pos; lia|apply Z.div_lt_upper_bound; lia]. }
  destruct (Z.ltb_spec i s) as [H|H].
  - replace ((i - s) mod 64) with (i - s + 64) by dlia.
    rewrite Z.add_comm.
    rewrite <- (Z.mod_pow2_bits_low _ s) by lia. rewrite Z.mod_add by (apply Z.pow_nonzero; lia).
    rewrite Z.mod_small by exact B. rewrite Z.div_pow2_bits by lia. f_equal. lia.
  - replace ((i - s) mod 64) with (i - s) by dlia.
    replace (x / 2 ^ (64 - s)) with ((x / 2 ^ (64 - s)) mod 2 ^ s) by (apply Z.mod_small; exact B).
    replace i with (i - s + s) at 1 by lia. rewrite <- Z.div_pow2_bits by lia.
    rewrite Z.add_comm, Z.div_add by (apply Z.pow_nonzero; lia).
    rewrite Z.div_small by (apply Z.mod_pos_bound, pow_pos; lia). rewrite Z.add_0_l. apply Z.mod_pow2_bits_low. lia.
Qed.
(** a cyclic bit sequence equal to the exclusive or of two of its rotations is zero: doubling the rotations six times *)
Lemma cyc_double (b : Z -> bool) p q : (forall i, b i = xorb (b (i - p)) (b (i - q))) -> forall i, b i = xorb (b (i - 2 * p)) (b (i - 2 * q)).
Proof.
  intros H i. rewrite (H i), (H (i - p)), (H (i - q)). replace (i - p - p) with (i - 2 * p) by lia. replace (i - q - q) with (i - 2 * q) by lia.
  replace (i - q - p) with (i - p - q) by lia.
  destruct (b (i - 2 * p)), (b (i - p - q)), (b (i - 2 * q)); reflexivity.
Qed.
Lemma cyc_zero (b : Z -> bool) p q : (forall i, b (i mod 64) = b i) -> (forall i, b i = xorb (b (i - p)) (b (i - q))) -> forall i, b i = false.
Proof.
  intros C H i. do 6 (let H9 := fresh in pose proof (cyc_double b _ _ H) as H9; clear H; rename H9 into H). rewrite H.
  assert (M : forall r, b (i - 2 * (2 * (2 * (2 * (2 * (2 * r)))))) = b i).
  { intros r. rewrite <- C, <- (C i). f_equal. replace (i - 2 * (2 * (2 * (2 * (2 * (2 * r)))))) with (i + - r * 64) by lia. apply Z.mod_add. lia. }
  rewrite !M. apply xorb_nilpotent.
Qed.
Lemma rot3_inj p q x y : 0 < p < 64 -> 0 < q < 64 -> wd 64 x -> wd 64 y ->
  Z.lxor x (Z.lxor (rol 64 x p) (rol 64 x q)) = Z.lxor y (Z.lxor (rol 64 y p) (rol 64 y q)) -> x = y.
Proof.
  intros Hp Hq Hx Hy E. apply Z.lxor_eq. apply Z.bits_inj_0. intros n.
  assert (Hz : wd 64 (Z.lxor x y)) by (apply lxor_bound; trivial; lia).
  destruct (Z.ltb_spec n 0); [apply Z.testbit_neg_r; lia|].
  destruct (Z.leb_spec 64 n).
  { destruct (Z.eq_dec (Z.lxor x y) 0) as [->|Hn]; [apply Z.bits_0|]. unfold wd in Hz. apply Z.bits_above_log2; [lia|].
    apply Z.lt_le_trans with 64; [|lia]. apply Z.log2_lt_pow2; lia. }
  pose (b := fun i => Z.testbit (Z.lxor x y) (i mod 64)).
  assert (Q : forall i, b i = false).
  { apply (cyc_zero b p q).
    - intros i. unfold b. rewrite Z.mod_mod by lia. reflexivity.
    - intros i. unfold b. pose proof (Z.mod_pos_bound i 64 ltac:(lia)) as Hi. set (j := i mod 64) in *.
      replace ((i - p) mod 64) with ((j - p) mod 64) by (unfold j; rewrite Zminus_mod_idemp_l; reflexivity).
      replace ((i - q) mod 64) with ((j - q) mod 64) by (unfold j; rewrite Zminus_mod_idemp_l; reflexivity). clearbody j.
      pose proof (f_equal (fun z => Z.testbit z j) E) as T. cbv beta in T. rewrite !Z.lxor_spec, !rol_bit in T by trivial.
      rewrite !Z.lxor_spec. revert T.
      destruct (Z.testbit x j), (Z.testbit y j), (Z.testbit x ((j - p) mod 64)), (Z.testbit y ((j - p) mod 64)), (Z.testbit x ((j - q) mod 64)), (Z.testbit y ((j - q) mod 64)); cbn; intros; trivial; discriminate. }
  specialize (Q n). unfold b in Q. rewrite Z.mod_small in Q by lia. exact Q.
Qed.
(** [v ^ ((v >> 35) + n)] for a small [n] *)
Lemma xoradd_inj n x y : 0 <= n <= 8 -> wd 64 x -> wd 64 y ->
  Z.lxor x ((shift_right x 35 + n) mod 2 ^ 64) = Z.lxor y ((shift_right y 35 + n) mod 2 ^ 64) -> x = y.
Proof.
  intros Hn Hx Hy E. unfold shift_right, wd in *.
  assert (Bx : 0 <= x / 2 ^ 35 < 2 ^ 29) by (split; [apply Z.div_pos; lia|apply Z.div_lt_upper_bound; lia]).
  assert (By : 0 <= y / 2 ^ 35 < 2 ^ 29) by (split; [apply Z.div_pos; lia|apply Z.div_lt_upper_bound; lia]).
  assert (S : x / 2 ^ 35 = y / 2 ^ 35).
  { pose proof (f_equal (fun z => Z.shiftr z 35) E) as T. cbv beta in T. rewrite !Z.shiftr_lxor, !Z.shiftr_div_pow2 in T by lia.
    rewrite !(Z.div_small (_ mod _)) in T by (rewrite Z.mod_small; lia). rewrite !Z.lxor_0_r in T. exact T. }
  rewrite S in E. apply lxor_inj_r in E. exact E.
Qed.
Lemma le_wd n l : bytes_ok l -> zlen l <= n -> wd (8 * n) (le_val l).
Proof.
  intros B H. pose proof (zlen_nonneg l). pose proof (le_val_bound l B). pose proof (Z.pow_le_mono_r 2 (8 * zlen l) (8 * n)). unfold wd. lia.
Qed.
Lemma zslice_len_le (l : list Z) o n : 0 <= n -> zlen (zslice l o n) <= n.
Proof. intros. unfold zslice, zlen. rewrite firstn_length. lia. Qed.
Lemma rd8_wd s o : bytes_ok s -> wd 64 (X3.rd8 s o).
Proof. intros. rewrite rd8_zslice. apply (le_wd 8); [apply bytes_ok_zslice; trivial|apply zslice_len_le; lia]. Qed.
Lemma rd4_wd s o : bytes_ok s -> wd 32 (X3.rd4 s o).
Proof. intros. rewrite rd4_zslice. apply (le_wd 4); [apply bytes_ok_zslice; trivial|apply zslice_len_le; lia]. Qed.
Lemma byte_wd8 s o : bytes_ok s -> wd 8 (X3.byte s o).
Proof. intros. unfold X3.byte. rewrite LE_le_val, seg_zslice. apply (le_wd 1); [apply bytes_ok_zslice; trivial|]. replace (o + 1 - o) with 1 by lia. apply zslice_len_le; lia. Qed.
(** two overlapping reads determine a short message *)
Lemma byte_at_nth m i : 0 <= i -> byte_at m i = nth (Z.to_nat i) m 0.
Proof.
  intros _. unfold byte_at, zslice. generalize (Z.to_nat i) as n. intros n. revert n.
  induction m as [|x m IH]; intros [|n]; try reflexivity. cbn [skipn nth]. apply IH.
Qed.
Lemma list_bytes_ext (l l' : list Z) : zlen l = zlen l' -> (forall i, 0 <= i < zlen l -> byte_at l i = byte_at l' i) -> l = l'.
Proof.
  intros L H. apply (nth_ext l l' 0 0); [unfold zlen in L; lia|]. intros n Hn. specialize (H (Z.of_nat n)). rewrite !byte_at_nth, Nat2Z.id in H by lia. apply H. unfold zlen; lia.
Qed.
Lemma two_reads n m m' : 0 < n -> bytes_ok m -> bytes_ok m' -> zlen m = zlen m' -> n <= zlen m <= 2 * n ->
  le_val (zslice m 0 n) = le_val (zslice m' 0 n) -> le_val (zslice m (zlen m - n) n) = le_val (zslice m' (zlen m - n) n) -> m = m'.
Proof.
  intros Hn B B' L Hl E1 E2. apply le_val_inj in E1; try (apply bytes_ok_zslice; trivial); [|rewrite !zlen_zslice; lia].
  apply le_val_inj in E2; try (apply bytes_ok_zslice; trivial); [|rewrite !zlen_zslice; lia].
  assert (Q : forall mm : list Z, zlen mm = zlen m -> mm = zslice mm 0 n ++ zslice (zslice mm (zlen m - n) n) (2 * n - zlen m) (zlen m - n)).
  { intros mm Hm. rewrite zslice_zslice by lia. replace (zlen m - n + (2 * n - zlen m)) with n by lia. rewrite <- Hm. apply zslice_split0. lia. }
  rewrite (Q m), (Q m') by lia. rewrite E1, E2. reflexivity.
Qed.

(* ------------------------------------------------------------------ *)
(** ** 1 to 3 bytes *)
Lemma combined_wd m : bytes_ok m -> 1 <= zlen m <= 3 -> wd 32 (X3.combined m).
Proof.
  intros B L. unfold X3.combined. change (len m) with (zlen m).
  pose proof (byte_wd8 m (zlen m - 1) B) as H1. pose proof (byte_wd8 m 0 B) as H2. pose proof (byte_wd8 m (zlen m / 2) B) as H3. unfold wd in *. lia.
Qed.
Lemma combined_inj m m' : bytes_ok m -> bytes_ok m' -> 1 <= zlen m <= 3 -> 1 <= zlen m' <= 3 -> X3.combined m = X3.combined m' -> m = m'.
Proof.
  intros B B' L L' E. unfold X3.combined in E. change (len m) with (zlen m) in E. change (len m') with (zlen m') in E.
  pose proof (byte_wd8 m (zlen m - 1) B) as H1. pose proof (byte_wd8 m 0 B) as H2. pose proof (byte_wd8 m (zlen m / 2) B) as H3.
  pose proof (byte_wd8 m' (zlen m' - 1) B') as H1'. pose proof (byte_wd8 m' 0 B') as H2'. pose proof (byte_wd8 m' (zlen m' / 2) B') as H3'.
  unfold wd in *. change (2 ^ 8) with 256 in *. change (2 ^ 16) with 65536 in *. change (2 ^ 24) with 16777216 in *.
  assert (Q1 : X3.byte m (zlen m - 1) = X3.byte m' (zlen m' - 1)) by lia. assert (Q : zlen m = zlen m') by lia.
  assert (Q2 : X3.byte m 0 = X3.byte m' 0) by lia. assert (Q3 : X3.byte m (zlen m / 2) = X3.byte m' (zlen m' / 2)) by lia.
  rewrite !byte_zslice in Q1, Q2, Q3 by dlia. rewrite <- Q in *.
  apply list_bytes_ext; trivial. intros i Hi.
  assert (C : i = zlen m - 1 \/ i = 0 \/ i = zlen m / 2) by dlia. destruct C as [->|[->| ->]]; trivial.
Qed.
Lemma h1to3_64_eq s seed m : X3.h1to3_64 s seed m = X64.avalanche (Z.lxor ((Z.lxor (X3.rd4 s 0) (X3.rd4 s 4) + seed) mod 2 ^ 64) (X3.combined m)).
Proof. unfold X3.h1to3_64, X3.small1to3_low, X3.avalanche_XXH64. reflexivity. Qed.
Lemma h1to3_inj s seed m m' : bytes_ok s -> bytes_ok m -> bytes_ok m' -> 1 <= zlen m <= 3 -> 1 <= zlen m' <= 3 ->
  X3.h1to3_64 s seed m = X3.h1to3_64 s seed m' -> m = m'.
Proof.
  intros Bs B B' L L' E. rewrite !h1to3_64_eq in E. apply aval64_inj in E.
  - apply lxor_inj in E. apply combined_inj in E; trivial.
  - apply lxor_bound; [lia|apply (mod_wd 64); lia|]. apply (wd_mono 32); [lia|]. apply combined_wd; trivial.
  - apply lxor_bound; [lia|apply (mod_wd 64); lia|]. apply (wd_mono 32); [lia|]. apply combined_wd; trivial.
Qed.
Lemma h1to3_seed s a b m : bytes_ok s -> bytes_ok m -> 1 <= zlen m <= 3 -> wd 64 a -> wd 64 b ->
  X3.h1to3_64 s a m = X3.h1to3_64 s b m -> a = b.
Proof.
  intros Bs B L Ha Hb E. rewrite !h1to3_64_eq in E. pose proof (wd_mono 32 64 _ ltac:(lia) (combined_wd m B L)).
  apply aval64_inj in E; try (apply lxor_bound; [lia|apply (mod_wd 64); lia|assumption]).
  apply lxor_inj_r in E. rewrite !(Z.add_comm (Z.lxor _ _)) in E. apply (add_inj 64) in E; trivial. lia.
Qed.
(* ------------------------------------------------------------------ *)
(** ** 4 to 8 bytes *)
Lemma bswap4_wd x : wd 32 x -> wd 32 (X3.bswap 4 x).
Proof. intros H. apply (bswap_bound 4); unfold wd in H; lia. Qed.
Lemma lo32_wd x : wd 32 (X3.lo32 x). Proof. apply (mod_wd 32); lia. Qed.
Lemma modifiedSeed_wd x : wd 64 x -> wd 64 (X3.modifiedSeed x).
Proof.
  intros H. unfold X3.modifiedSeed. apply lxor_bound; trivial; [lia|]. pose proof (bswap4_wd _ (lo32_wd x)) as Q. unfold wd in *. lia.
Qed.
Lemma modifiedSeed_inj x y : X3.modifiedSeed x = X3.modifiedSeed y -> x = y.
Proof.
  intros E. unfold X3.modifiedSeed in E.
  assert (Q : X3.lo32 x = X3.lo32 y).
  { unfold X3.lo32. apply Z.bits_inj'. intros i Hi. destruct (Z.ltb_spec i 32).
    - rewrite !Z.mod_pow2_bits_low by lia. pose proof (f_equal (fun z => Z.testbit z i) E) as T. cbv beta in T.
      rewrite !Z.lxor_spec, !(Z.mul_pow2_bits_low _ 32) in T by lia. rewrite !xorb_false_r in T. exact T.
    - rewrite !Z.mod_pow2_bits_high by lia. reflexivity. }
  rewrite Q in E. apply lxor_inj_r in E. exact E.
Qed.
Lemma pair_wd a b : wd 32 a -> wd 32 b -> wd 64 (a + b * 2 ^ 32). Proof. unfold wd. lia. Qed.
Lemma pair_inj a b a' b' : wd 32 a -> wd 32 b -> wd 32 a' -> wd 32 b' -> a + b * 2 ^ 32 = a' + b' * 2 ^ 32 -> a = a' /\ b = b'.
Proof. unfold wd. lia. Qed.
Lemma key4to8_inj m m' : bytes_ok m -> bytes_ok m' -> zlen m = zlen m' -> 4 <= zlen m <= 8 ->
  X3.rd4 m 0 = X3.rd4 m' 0 -> X3.rd4 m (len m - 4) = X3.rd4 m' (len m' - 4) -> m = m'.
Proof.
  intros B B' L Hl E1 E2. change (len m) with (zlen m) in *. change (len m') with (zlen m') in *. rewrite <- L in E2. rewrite !rd4_zslice in *.
  apply (two_reads 4); trivial; lia.
Qed.
Definition rrmxmx (v n : Z) : Z :=
  let v := Z.lxor v (Z.lxor (rol 64 v 49) (rol 64 v 24)) in
  let v := (v * X3.MX2) mod X3.W in
  let v := Z.lxor v ((shift_right v 35 + n) mod X3.W) in
  let v := (v * X3.MX2) mod X3.W in
  xorshift v 28.
Lemma rrmxmx_inj x y n : 0 <= n <= 8 -> wd 64 x -> wd 64 y -> rrmxmx x n = rrmxmx y n -> x = y.
Proof.
  intros Hn Hx Hy E. unfold rrmxmx in E. change X3.W with (2 ^ 64) in E.
  assert (R : forall z, wd 64 z -> wd 64 (Z.lxor z (Z.lxor (rol 64 z 49) (rol 64 z 24)))).
  { intros z Hz. apply lxor_bound; [lia|trivial|]. apply lxor_bound; [lia|apply rol_wd; trivial; lia..]. }
  assert (X : forall z, wd 64 z -> wd 64 (Z.lxor z ((shift_right z 35 + n) mod 2 ^ 64))).
  { intros z Hz. apply lxor_bound; [lia|trivial|apply (mod_wd 64); lia]. }
  apply xorshift_inj in E; [|lia|apply (mod_wd 64); lia|apply (mod_wd 64); lia].
  apply (mul_inj 64) in E; [|lia|odd|apply X, mod_wd; lia|apply X, mod_wd; lia].
  apply xoradd_inj in E; [|trivial|apply mod_wd; lia|apply mod_wd; lia].
  apply (mul_inj 64) in E; [|lia|odd|apply R; trivial|apply R; trivial].
  apply rot3_inj in E; trivial; lia.
Qed.
Lemma h4to8_64_eq s seed m : X3.h4to8_64 s seed m =
  rrmxmx (Z.lxor ((Z.lxor (X3.rd8 s 8) (X3.rd8 s 16) - X3.modifiedSeed seed) mod X3.W) (X3.rd4 m (len m - 4) + X3.rd4 m 0 * 2 ^ 32)) (len m).
Proof. unfold X3.h4to8_64, rrmxmx. cbv zeta. reflexivity. Qed.
Lemma h4to8_64_inj s seed m m' : bytes_ok s -> bytes_ok m -> bytes_ok m' -> zlen m = zlen m' -> 4 <= zlen m <= 8 ->
  X3.h4to8_64 s seed m = X3.h4to8_64 s seed m' -> m = m'.
Proof.
  intros Bs B B' L Hl E. rewrite !h4to8_64_eq in E. change (len m') with (zlen m') in E at 2. rewrite <- L in E. change (len m) with (zlen m) in E at 2.
  apply rrmxmx_inj in E; [|lia|apply lxor_bound; [lia|apply (mod_wd 64); lia|apply pair_wd; apply rd4_wd; trivial]..].
  apply lxor_inj in E. apply pair_inj in E; try (apply rd4_wd; trivial). destruct E as [E2 E1]. apply key4to8_inj; trivial.
Qed.
Lemma h4to8_64_seed s a b m : bytes_ok s -> bytes_ok m -> 4 <= zlen m <= 8 -> wd 64 a -> wd 64 b ->
  X3.h4to8_64 s a m = X3.h4to8_64 s b m -> a = b.
Proof.
  intros Bs B Hl Ha Hb E. rewrite !h4to8_64_eq in E. change (len m) with (zlen m) in E.
  apply rrmxmx_inj in E; [|lia|apply lxor_bound; [lia|apply (mod_wd 64); lia|apply pair_wd; apply rd4_wd; trivial]..].
  apply lxor_inj_r in E. apply (sub_inj 64) in E; [|lia|apply modifiedSeed_wd; trivial..]. apply modifiedSeed_inj, E.
Qed.
(** 128 bits *)
Definition mix4to8 (v n : Z) : Z * Z :=
  let p := v * (X3.P1 + 4 * n) in
  let high := (X3.hi64 p + 2 * X3.lo64 p) mod X3.W in
  let low := Z.lxor (X3.lo64 p) (shift_right high 3) in
  let low := xorshift low 35 in
  let low := (low * X3.MX2) mod X3.W in
  (xorshift low 28, X3.avalanche high).
Lemma shift_wd x s : 0 <= s -> wd 64 x -> wd 64 (shift_right x s).
Proof. intros Hs Hx. unfold shift_right, wd in *. pose proof (pow_pos s Hs). split; [apply Z.div_pos; lia|]. apply Z.div_lt_upper_bound; nia. Qed.
Lemma mix4to8_inj x y n : 0 <= n -> wd 64 x -> wd 64 y -> mix4to8 x n = mix4to8 y n -> x = y.
Proof.
  intros Hn Hx Hy E. unfold mix4to8 in E. change X3.W with (2 ^ 64) in E. apply pair_equal_spec in E. destruct E as [E1 E2].
  apply aval3_inj in E2; [|apply (mod_wd 64); lia..]. rewrite E2 in E1.
  assert (R : forall p h, wd 64 (Z.lxor (X3.lo64 p) (shift_right (h mod 2 ^ 64) 3))).
  { intros. apply lxor_bound; [lia|apply (mod_wd 64); lia|apply shift_wd; [lia|apply (mod_wd 64); lia]]. }
  apply xorshift_inj in E1; [|lia|apply (mod_wd 64); lia|apply (mod_wd 64); lia].
  apply (mul_inj 64) in E1; [|lia|odd|apply xorshift_wd; trivial; lia..].
  apply xorshift_inj in E1; [|lia|apply R|apply R].
  apply lxor_inj_r in E1. unfold X3.lo64 in E1. change X3.W with (2 ^ 64) in E1.
  apply (mul_inj 64) in E1; trivial; try lia. rewrite Z.odd_add, Z.odd_mul. reflexivity.
Qed.
Lemma h4to8_128_eq s seed m : X3.h4to8_128 s seed m =
  mix4to8 (Z.lxor ((Z.lxor (X3.rd8 s 16) (X3.rd8 s 24) + X3.modifiedSeed seed) mod X3.W) (X3.rd4 m 0 + X3.rd4 m (len m - 4) * 2 ^ 32)) (len m).
Proof. unfold X3.h4to8_128, mix4to8. cbv zeta. reflexivity. Qed.
Lemma h4to8_128_inj s seed m m' : bytes_ok s -> bytes_ok m -> bytes_ok m' -> zlen m = zlen m' -> 4 <= zlen m <= 8 ->
  X3.h4to8_128 s seed m = X3.h4to8_128 s seed m' -> m = m'.
Proof.
  intros Bs B B' L Hl E. rewrite !h4to8_128_eq in E. change (len m') with (zlen m') in E at 2. rewrite <- L in E. change (len m) with (zlen m) in E at 2.
  apply mix4to8_inj in E; [|lia|apply lxor_bound; [lia|apply (mod_wd 64); lia|apply pair_wd; apply rd4_wd; trivial]..].
  apply lxor_inj in E. apply pair_inj in E; try (apply rd4_wd; trivial). destruct E as [E1 E2]. apply key4to8_inj; trivial.
Qed.
Lemma h4to8_128_seed s a b m : bytes_ok s -> bytes_ok m -> 4 <= zlen m <= 8 -> wd 64 a -> wd 64 b ->
  X3.h4to8_128 s a m = X3.h4to8_128 s b m -> a = b.
Proof.
  intros Bs B Hl Ha Hb E. rewrite !h4to8_128_eq in E. change (len m) with (zlen m) in E.
  apply mix4to8_inj in E; [|lia|apply lxor_bound; [lia|apply (mod_wd 64); lia|apply pair_wd; apply rd4_wd; trivial]..].
  apply lxor_inj_r in E. rewrite !(Z.add_comm (Z.lxor _ _)) in E. apply (add_inj 64) in E; [|lia|apply modifiedSeed_wd; trivial..]. apply modifiedSeed_inj, E.
Qed.
(* ------------------------------------------------------------------ *)
(** ** 9 to 16 bytes, 128 bits *)
Definition mix9to16 (v1 v2 n : Z) : Z * Z :=
  let p := v1 * X3.P1 in
  let low := (X3.lo64 p + (n - 1) * 2 ^ 54) mod X3.W in
  let high := (X3.hi64 p + X3.hi32 v2 * 2 ^ 32 + X3.lo32 v2 * X3.P32_2) mod X3.W in
  let low := Z.lxor low (X3.bswap 8 high) in
  let q := low * X3.P2 in
  (X3.avalanche (X3.lo64 q), X3.avalanche ((X3.hi64 q + high * X3.P2) mod X3.W)).
Lemma bswap8_wd x : wd 64 x -> wd 64 (X3.bswap 8 x).
Proof. intros H. apply (bswap_bound 8); unfold wd in H; lia. Qed.
Lemma halves_inj x y k : wd 64 x -> wd 64 y ->
  (k + X3.hi32 x * 2 ^ 32 + X3.lo32 x * X3.P32_2) mod 2 ^ 64 = (k + X3.hi32 y * 2 ^ 32 + X3.lo32 y * X3.P32_2) mod 2 ^ 64 -> x = y.
Proof.
  intros Hx Hy E. apply mod_eq_div in E; [|lia]. destruct E as [z E].
  assert (L : X3.lo32 x = X3.lo32 y).
  { apply (mul_inj 32 X3.P32_2); try lia; try odd; try apply lo32_wd. }
  rewrite L in E. unfold X3.hi32, X3.lo32, wd in *.
  assert (Bx : 0 <= x / 2 ^ 32 < 2 ^ 32) by (split; [apply Z.div_pos; lia|apply Z.div_lt_upper_bound; lia]).
  assert (By : 0 <= y / 2 ^ 32 < 2 ^ 32) by (split; [apply Z.div_pos; lia|apply Z.div_lt_upper_bound; lia]).
  assert (H : x / 2 ^ 32 = y / 2 ^ 32) by lia.
  rewrite (Z_div_mod_eq_full x (2 ^ 32)), (Z_div_mod_eq_full y (2 ^ 32)), L, H. reflexivity.
Qed.
Lemma mix9to16_inj x1 x2 y1 y2 n : wd 64 x1 -> wd 64 x2 -> wd 64 y1 -> wd 64 y2 -> mix9to16 x1 x2 n = mix9to16 y1 y2 n -> x1 = y1 /\ x2 = y2.
Proof.
  intros Hx1 Hx2 Hy1 Hy2 E. unfold mix9to16 in E. cbv zeta in E. change X3.W with (2 ^ 64) in E.
  set (lx := (X3.lo64 (x1 * X3.P1) + (n - 1) * 2 ^ 54) mod 2 ^ 64) in E. set (ly := (X3.lo64 (y1 * X3.P1) + (n - 1) * 2 ^ 54) mod 2 ^ 64) in E.
  set (hx := (X3.hi64 (x1 * X3.P1) + X3.hi32 x2 * 2 ^ 32 + X3.lo32 x2 * X3.P32_2) mod 2 ^ 64) in E.
  set (hy := (X3.hi64 (y1 * X3.P1) + X3.hi32 y2 * 2 ^ 32 + X3.lo32 y2 * X3.P32_2) mod 2 ^ 64) in E.
  assert (Wlx : wd 64 lx) by (apply (mod_wd 64); lia). assert (Wly : wd 64 ly) by (apply (mod_wd 64); lia).
  assert (Whx : wd 64 hx) by (apply (mod_wd 64); lia). assert (Why : wd 64 hy) by (apply (mod_wd 64); lia).
  apply pair_equal_spec in E. destruct E as [E1 E2].
  apply aval3_inj in E1; [|apply (mod_wd 64); lia..]. apply aval3_inj in E2; [|apply (mod_wd 64); lia..].
  assert (X : Z.lxor lx (X3.bswap 8 hx) = Z.lxor ly (X3.bswap 8 hy)).
  { apply (mul_inj 64) in E1; [exact E1|lia|odd|apply lxor_bound; [lia|trivial|apply bswap8_wd; trivial]..]. }
  rewrite X in E2. apply (add_mul_inj 64) in E2; trivial; try lia; try odd. rewrite E2 in X. apply lxor_inj_r in X.
  assert (E3 : x1 = y1).
  { unfold lx, ly in X. apply (add_inj 64) in X; [|lia|apply (mod_wd 64); lia..]. apply (mul_inj 64) in X; trivial; try lia; try odd. }
  split; [exact E3|]. subst y1. unfold hx, hy in E2. apply halves_inj in E2; trivial.
Qed.
Lemma h9to16_128_eq s seed m : X3.h9to16_128 s seed m =
  mix9to16 (Z.lxor (Z.lxor ((Z.lxor (X3.rd8 s 32) (X3.rd8 s 40) - seed) mod X3.W) (X3.rd8 m 0)) (X3.rd8 m (len m - 8)))
           (Z.lxor ((Z.lxor (X3.rd8 s 48) (X3.rd8 s 56) + seed) mod X3.W) (X3.rd8 m (len m - 8))) (len m).
Proof. unfold X3.h9to16_128, mix9to16. cbv zeta. reflexivity. Qed.
Lemma v1_wd s seed m k o p q : bytes_ok s -> bytes_ok m -> wd 64 (Z.lxor (Z.lxor ((Z.lxor (X3.rd8 s o) (X3.rd8 s p) - seed) mod X3.W) (X3.rd8 m q)) (X3.rd8 m k)).
Proof. intros. apply lxor_bound; [lia| |apply rd8_wd; trivial]. apply lxor_bound; [lia|apply (mod_wd 64); lia|apply rd8_wd; trivial]. Qed.
Lemma v2_wd s seed m k o p : bytes_ok s -> bytes_ok m -> wd 64 (Z.lxor ((Z.lxor (X3.rd8 s o) (X3.rd8 s p) + seed) mod X3.W) (X3.rd8 m k)).
Proof. intros. apply lxor_bound; [lia|apply (mod_wd 64); lia|apply rd8_wd; trivial]. Qed.
Lemma h9to16_128_inj s seed m m' : bytes_ok s -> bytes_ok m -> bytes_ok m' -> zlen m = zlen m' -> 9 <= zlen m <= 16 ->
  X3.h9to16_128 s seed m = X3.h9to16_128 s seed m' -> m = m'.
Proof.
  intros Bs B B' L Hl E. rewrite !h9to16_128_eq in E. change (len m') with (zlen m') in E. rewrite <- L in E. change (len m) with (zlen m) in E.
  apply mix9to16_inj in E; try apply v1_wd; try apply v2_wd; trivial. destruct E as [E1 E2].
  apply lxor_inj in E2. rewrite E2 in E1. apply lxor_inj_r in E1. apply lxor_inj in E1. rewrite !rd8_zslice in *.
  apply (two_reads 8); trivial; lia.
Qed.
Lemma h9to16_128_seed s a b m : bytes_ok s -> bytes_ok m -> wd 64 a -> wd 64 b ->
  X3.h9to16_128 s a m = X3.h9to16_128 s b m -> a = b.
Proof.
  intros Bs B Ha Hb E. rewrite !h9to16_128_eq in E.
  apply mix9to16_inj in E; try apply v1_wd; try apply v2_wd; trivial. destruct E as [_ E2].
  apply lxor_inj_r in E2. rewrite !(Z.add_comm (Z.lxor _ _)) in E2. apply (add_inj 64) in E2; trivial; lia.
Qed.
(* ------------------------------------------------------------------ *)
(** ** Together *)
Lemma short64_inj s seed m m' : bytes_ok s -> bytes_ok m -> bytes_ok m' -> zlen m = zlen m' -> 1 <= zlen m <= 8 ->
  X3.short64 s seed m = X3.short64 s seed m' -> m = m'.
Proof.
  intros Bs B B' L Hl E. unfold X3.short64 in E. change (len m) with (zlen m) in E. change (len m') with (zlen m') in E. rewrite <- L in E.
  replace (zlen m =? 0) with false in E by lia. destruct (Z.leb_spec (zlen m) 3).
  - apply h1to3_inj in E; trivial; lia.
  - replace (zlen m <=? 8) with true in E by lia. apply h4to8_64_inj in E; trivial; lia.
Qed.
Lemma short64_1to3 s seed m m' : bytes_ok s -> bytes_ok m -> bytes_ok m' -> 1 <= zlen m <= 3 -> 1 <= zlen m' <= 3 ->
  X3.short64 s seed m = X3.short64 s seed m' -> m = m'.
Proof.
  intros Bs B B' L L' E. unfold X3.short64 in E. change (len m) with (zlen m) in E. change (len m') with (zlen m') in E.
  replace (zlen m =? 0) with false in E by lia. replace (zlen m' =? 0) with false in E by lia.
  replace (zlen m <=? 3) with true in E by lia. replace (zlen m' <=? 3) with true in E by lia. apply h1to3_inj in E; trivial.
Qed.
Lemma short64_seed s a b m : bytes_ok s -> bytes_ok m -> zlen m <= 8 -> wd 64 a -> wd 64 b ->
  X3.short64 s a m = X3.short64 s b m -> a = b.
Proof.
  intros Bs B Hl Ha Hb E. pose proof (zlen_nonneg m). unfold X3.short64 in E. change (len m) with (zlen m) in E.
  destruct (Z.eqb_spec (zlen m) 0).
  - unfold X3.empty64, X3.avalanche_XXH64 in E. assert (W : wd 64 (Z.lxor (X3.rd8 s 56) (X3.rd8 s 64))) by (apply lxor_bound; [lia|apply rd8_wd; trivial..]).
    apply aval64_inj in E; try (apply lxor_bound; trivial; lia). apply lxor_inj_r in E. exact E.
  - destruct (Z.leb_spec (zlen m) 3).
    + apply h1to3_seed in E; trivial; lia.
    + replace (zlen m <=? 8) with true in E by lia. apply h4to8_64_seed in E; trivial; lia.
Qed.
Lemma short128_inj s seed m m' : bytes_ok s -> bytes_ok m -> bytes_ok m' -> zlen m = zlen m' -> 1 <= zlen m <= 16 ->
  X3.short128 s seed m = X3.short128 s seed m' -> m = m'.
Proof.
  intros Bs B B' L Hl E. unfold X3.short128 in E. change (len m) with (zlen m) in E. change (len m') with (zlen m') in E. rewrite <- L in E.
  replace (zlen m =? 0) with false in E by lia. destruct (Z.leb_spec (zlen m) 3).
  - unfold X3.h1to3_128 in E. apply pair_equal_spec in E. destruct E as [E _]. apply h1to3_inj in E; trivial; lia.
  - destruct (Z.leb_spec (zlen m) 8).
    + apply h4to8_128_inj in E; trivial; lia.
    + replace (zlen m <=? 16) with true in E by lia. apply h9to16_128_inj in E; trivial; lia.
Qed.
Lemma short128_seed s a b m : bytes_ok s -> bytes_ok m -> zlen m <= 16 -> wd 64 a -> wd 64 b ->
  X3.short128 s a m = X3.short128 s b m -> a = b.
Proof.
  intros Bs B Hl Ha Hb E. pose proof (zlen_nonneg m). unfold X3.short128 in E. change (len m) with (zlen m) in E.
  destruct (Z.eqb_spec (zlen m) 0).
  - unfold X3.empty128, X3.avalanche_XXH64 in E. apply pair_equal_spec in E. destruct E as [E _].
    assert (W : wd 64 (Z.lxor (X3.rd8 s 64) (X3.rd8 s 72))) by (apply lxor_bound; [lia|apply rd8_wd; trivial..]).
    apply aval64_inj in E; try (apply lxor_bound; trivial; lia). apply lxor_inj_r in E. exact E.
  - destruct (Z.leb_spec (zlen m) 3).
    + unfold X3.h1to3_128 in E. apply pair_equal_spec in E. destruct E as [E _]. apply h1to3_seed in E; trivial; lia.
    + destruct (Z.leb_spec (zlen m) 8).
      * apply h4to8_128_seed in E; trivial; lia.
      * replace (zlen m <=? 16) with true in E by lia. apply h9to16_128_seed in E; trivial.
Qed.
