(** Canonical representation, comparison and secret generation. *)
From Verif Require Import Base Mem M_XXH32 M_XXH64 M_XXH3 M_Kernels M_Long M_Util Spec32 Spec64 Spec3 SpecUtil P_Base P_Spec P_X3_Base P_X3_Short
  P_Kernels P_Kernels2 P_X3_Long.
Import Util.

(** ** Tables *)
Lemma zlen_upto n : 0 <= n -> zlen (upto n) = n.
Proof. intros. unfold zlen, upto. rewrite map_length, seq_length. lia. Qed.
Lemma tab_len n f : 0 <= n -> zlen (tab n f) = n.
Proof. intros. unfold tab, zlen. rewrite map_length. apply zlen_upto. assumption. Qed.
Lemma zn_upto n i : 0 <= i < n -> zn (upto n) i = Some i.
Proof.
  intros H. unfold zn, upto. destruct (Z.ltb_spec i 0); [lia|]. rewrite nth_error_map.
  rewrite (nth_error_nth' _ 0%nat) by (rewrite seq_length; lia). rewrite seq_nth by lia. cbn. f_equal. lia.
Qed.
Lemma zn_tab n f i : 0 <= i < n -> zn (tab n f) i = Some (f i).
Proof.
  intros H. pose proof (zn_upto n i H) as E. unfold tab, zn in *. destruct (i <? 0); [discriminate|].
  rewrite nth_error_map, E. reflexivity.
Qed.
Lemma zn_byte_at m i : 0 <= i < zlen m -> zn m i = Some (byte_at m i).
Proof.
  intros H. pose proof (zslice_1 m i H) as E. assert (E2 : zn (zslice m i 1) 0 = Some (byte_at m i)) by (rewrite E; reflexivity).
  rewrite zn_zslice in E2 by lia. cbn in E2. rewrite Z.add_0_r in E2. exact E2.
Qed.
Lemma zn_Some_byte_at m i b : zn m i = Some b -> byte_at m i = b.
Proof.
  intros H. assert (0 <= i < zlen m).
  { split; [destruct (Z.ltb_spec i 0); [rewrite zn_neg in H by assumption; discriminate|assumption]|].
    destruct (Z.ltb_spec i (zlen m)); [assumption|]. rewrite zn_out in H by assumption. discriminate. }
  rewrite zn_byte_at in H by assumption. congruence.
Qed.
Lemma byte_at_tab n f i : 0 <= i < n -> byte_at (tab n f) i = f i.
Proof. intros H. apply zn_Some_byte_at, zn_tab, H. Qed.
Lemma tab_ext n f g : (forall i, 0 <= i < n -> f i = g i) -> tab n f = tab n g.
Proof.
  intros H. destruct (Z.leb_spec n 0). { unfold tab. rewrite upto_0 by assumption. reflexivity. }
  apply zn_ext; rewrite !tab_len by lia; [reflexivity|]. intros i Hi. rewrite !zn_tab by lia. rewrite H by lia. reflexivity.
Qed.
Lemma tab_bytes m : m = tab (zlen m) (byte_at m).
Proof.
  pose proof (zlen_nonneg m). apply zn_ext; [rewrite tab_len by lia; reflexivity|].
  intros i Hi. rewrite zn_tab by lia. apply zn_byte_at. assumption.
Qed.
Lemma tab_is m n f : zlen m = n -> (forall i, 0 <= i < n -> byte_at m i = f i) -> m = tab n f.
Proof. intros <- H. rewrite (tab_bytes m) at 1. apply tab_ext. exact H. Qed.
Lemma byte_at_app a b i : 0 <= i < zlen a + zlen b -> byte_at (a ++ b) i = if i <? zlen a then byte_at a i else byte_at b (i - zlen a).
Proof.
  intros H. apply zn_Some_byte_at. rewrite zn_app. destruct (Z.ltb_spec i (zlen a)); apply zn_byte_at; lia.
Qed.
Lemma byte_at_slice m o n i : 0 <= o -> 0 <= i < n -> o + n <= zlen m -> byte_at (zslice m o n) i = byte_at m (o + i).
Proof.
  intros. apply zn_Some_byte_at. rewrite zn_zslice by lia. replace ((0 <=? i) && (i <? n)) with true by lia. apply zn_byte_at. lia.
Qed.
Lemma le_bytes_at n x i : 0 <= i < Z.of_nat n -> byte_at (le_bytes n x) i = x / 2 ^ (8 * i) mod 2 ^ 8.
Proof.
  revert x i. induction n as [|n IH]; intros x i H; [lia|]. change (le_bytes (S n) x) with ([x mod 256] ++ le_bytes n (x / 256)).
  rewrite byte_at_app by (rewrite le_bytes_len, zlen_cons; zlen_nil; lia). rewrite zlen_cons. zlen_nil.
  destruct (Z.ltb_spec i (1 + 0)).
  - replace i with 0 by lia. rewrite Z.div_1_r. reflexivity.
  - rewrite IH by lia. change (1 + 0) with 1. rewrite Z.div_div by lia. f_equal. f_equal. change 256 with (2 ^ 8). rewrite <- Z.pow_add_r by lia. f_equal. lia.
Qed.
Lemma le_bytes_le n x : le_bytes n x = le (Z.of_nat n) x.
Proof. apply tab_is; [apply le_bytes_len|]. intros i H. apply le_bytes_at, H. Qed.
Lemma byte_at_rev m i : 0 <= i < zlen m -> byte_at (rev m) i = byte_at m (zlen m - 1 - i).
Proof.
  intros H. apply zn_Some_byte_at. rewrite <- zn_byte_at by lia. unfold zn. replace (i <? 0) with false by lia.
  replace (zlen m - 1 - i <? 0) with false by lia. unfold zlen in *.
  rewrite (nth_error_nth' (rev m) 0) by (rewrite rev_length; lia). rewrite (nth_error_nth' m 0) by lia. f_equal.
  rewrite rev_nth by lia. f_equal. lia.
Qed.
Lemma rev_le_be n x : 0 <= n -> rev (le n x) = be n x.
Proof.
  intros. apply tab_is; [rewrite zlen_rev; apply tab_len; assumption|]. intros i Hi. rewrite byte_at_rev by (unfold le; rewrite tab_len; lia).
  unfold le. rewrite tab_len, byte_at_tab by lia. reflexivity.
Qed.
Lemma byte_at_byte m i : X3.byte m i = le_val (zslice m i 1).
Proof. unfold X3.byte. rewrite LE_le_val, seg_zslice. f_equal. f_equal. lia. Qed.
Lemma X3_byte m i : 0 <= i < zlen m -> X3.byte m i = byte_at m i.
Proof. intros. rewrite byte_at_byte, zslice_1 by assumption. cbn. lia. Qed.

(** ** Stores into the middle of a block *)
Lemma store_mid pre m post k d : 0 <= k -> k + zlen d <= zlen m ->
  store (pre ++ m ++ post) (zlen pre + k) d =
  OK (pre ++ tab (zlen m) (fun i => if (k <=? i) && (i <? k + zlen d) then byte_at d (i - k) else byte_at m i) ++ post).
Proof.
  intros H1 H2. rewrite store_ok by llia. f_equal.
  assert (E : tab (zlen m) (fun i => if (k <=? i) && (i <? k + zlen d) then byte_at d (i - k) else byte_at m i) =
              zslice m 0 k ++ d ++ zslice m (k + zlen d) (zlen m - k - zlen d)).
  { symmetry. apply tab_is; [llia|]. intros i Hi. zlen_pose. rewrite byte_at_app by llia.
    rewrite !zlen_zslice by lia.
    destruct (Z.ltb_spec i k).
    - replace (k <=? i) with false by lia. cbn [andb]. rewrite byte_at_slice by lia. reflexivity.
    - replace (k <=? i) with true by lia. cbn [andb]. rewrite byte_at_app by llia. destruct (Z.ltb_spec (i - k) (zlen d)).
      + replace (i <? k + zlen d) with true by lia. reflexivity.
      + replace (i <? k + zlen d) with false by lia. rewrite byte_at_slice by lia. f_equal. lia. }
  rewrite E. list_eq.
Qed.

(** ** Ranges of the XXH3 specification *)
Lemma xorshift_range x s : 0 <= s -> 0 <= x < 2 ^ 64 -> 0 <= xorshift x s < 2 ^ 64.
Proof. intros S W. rewrite <- xorshift_eq by assumption. apply xor_w64; [exact W|]. apply shr_w64; [lia|exact W]. Qed.
Lemma mod_range x : 0 <= x mod 2 ^ 64 < 2 ^ 64. Proof. apply Z.mod_pos_bound. lia. Qed.
Lemma av_range x : w64 (X3.avalanche x).
Proof. unfold X3.avalanche. cbv zeta. apply xorshift_range; [lia|apply mod_range]. Qed.
Lemma av64_range x : w64 (X3.avalanche_XXH64 x).
Proof. unfold X3.avalanche_XXH64, X64.avalanche. cbv zeta. apply xorshift_range; [lia|apply mod_range]. Qed.
Lemma hash128_range s sd l m : w64 (fst (X3.hash128 s sd l m)) /\ w64 (snd (X3.hash128 s sd l m)).
Proof.
  unfold X3.hash128. destruct (len m <=? 240).
  - unfold X3.short128. cbv zeta. repeat match goal with |- context [if ?b then _ else _] => destruct b end.
    + split; apply av64_range.
    + split; apply av64_range.
    + split; [apply xorshift_range; [lia|apply mod_range]|apply av_range].
    + split; apply av_range.
    + split; [apply av_range|apply mod_range].
    + split; [apply av_range|apply mod_range].
  - split; apply av_range.
Qed.
Lemma hash64_range s sd l m : w64 (X3.hash64 s sd l m).
Proof.
  unfold X3.hash64. destruct (len m <=? 240).
  - unfold X3.short64. cbv zeta. repeat match goal with |- context [if ?b then _ else _] => destruct b end.
    + apply av64_range.
    + apply av64_range.
    + apply xorshift_range; [lia|apply mod_range].
    + apply av_range.
    + apply av_range.
    + apply av_range.
  - apply av_range.
Qed.

(** ** Canonical representation *)
Lemma swap32_native c x : w32 x -> native_bytes c 4 (if cpu_le c then swap32 x else x) = be 4 x.
Proof.
  intros W. unfold native_bytes. rewrite <- rev_le_be by lia. change (le 4 x) with (le (Z.of_nat 4) x). rewrite <- le_bytes_le.
  destruct (cpu_le c); [|reflexivity].
  assert (E : swap32 x = le_val (rev (le_bytes 4 x))).
  { rewrite <- swap32_val by (apply le_bytes_ok || reflexivity). f_equal. rewrite le_bytes_val by (unfold w32 in *; lia). symmetry. apply Z.mod_small. exact W. }
  rewrite E. apply (le_val_bytes (rev (le_bytes 4 x))). apply bytes_ok_rev, le_bytes_ok.
Qed.
Lemma swap64_native c x : w64 x -> native_bytes c 8 (if cpu_le c then swap64 x else x) = be 8 x.
Proof.
  intros W. unfold native_bytes. rewrite <- rev_le_be by lia. change (le 8 x) with (le (Z.of_nat 8) x). rewrite <- le_bytes_le.
  destruct (cpu_le c); [|reflexivity].
  assert (E : swap64 x = le_val (rev (le_bytes 8 x))).
  { rewrite <- swap64_val by (apply le_bytes_ok || reflexivity). f_equal. rewrite le_bytes_val by (unfold w64 in *; lia). symmetry. apply Z.mod_small. exact W. }
  rewrite E. apply (le_val_bytes (rev (le_bytes 8 x))). apply bytes_ok_rev, le_bytes_ok.
Qed.
Lemma store_whole b d : zlen b = zlen d -> store b 0 d = OK d.
Proof. intros H. rewrite store_ok by (zlen_pose; lia). f_equal. list_eq. Qed.
Lemma be_len n x : 0 <= n -> zlen (be n x) = n. Proof. apply tab_len. Qed.
Lemma be_bytes n x : bytes_ok (be n x).
Proof. apply Forall_forall. intros b H. unfold be, tab in H. apply in_map_iff in H as (i & <- & _). unfold byte_ok. apply Z.mod_pos_bound. lia. Qed.
Lemma le_len n x : 0 <= n -> zlen (le n x) = n. Proof. apply tab_len. Qed.
Lemma le_bytes' n x : bytes_ok (le n x).
Proof. apply Forall_forall. intros b H. unfold le, tab in H. apply in_map_iff in H as (i & <- & _). unfold byte_ok. apply Z.mod_pos_bound. lia. Qed.
Lemma canonical32_ok c dst h : w32 h -> zlen dst = 4 -> XXH32_canonicalFromHash c dst h = OK (be 4 h).
Proof. intros W L. unfold XXH32_canonicalFromHash. rewrite swap32_native by assumption. apply store_whole. rewrite be_len; lia. Qed.
Lemma canonical64_ok c dst h : w64 h -> zlen dst = 8 -> XXH64_canonicalFromHash c dst h = OK (be 8 h).
Proof. intros W L. unfold XXH64_canonicalFromHash. rewrite swap64_native by assumption. apply store_whole. rewrite be_len; lia. Qed.
Lemma be16 lo hi : w64 lo -> w64 hi -> be 16 (val128 (lo, hi)) = be 8 hi ++ be 8 lo.
Proof.
  intros W1 W2. symmetry. apply tab_is. { rewrite zlen_app, !be_len; lia. }
  intros i Hi. rewrite byte_at_app by (rewrite !be_len by lia; lia). rewrite be_len by lia. unfold be, val128, w64 in *. cbn [fst snd].
  destruct (Z.ltb_spec i 8); rewrite byte_at_tab by lia.
  - replace (8 * (16 - 1 - i)) with (64 + 8 * (8 - 1 - i)) by lia. rewrite Z.pow_add_r, <- Z.div_div by lia. f_equal. f_equal. dlia.
  - replace (8 * (16 - 1 - i)) with (8 * (8 - 1 - (i - 8))) by lia.
    set (e := 8 - 1 - (i - 8)). assert (0 <= e < 8) by lia.
    replace (2 ^ 64 * hi) with ((2 ^ (8 * (7 - e)) * hi) * 2 ^ 8 * 2 ^ (8 * e)).
    2:{ replace (2 ^ 64) with (2 ^ (8 * (7 - e)) * 2 ^ 8 * 2 ^ (8 * e)); [ring|]. rewrite <- !Z.pow_add_r by lia. f_equal. lia. }
    rewrite Z.div_add by (apply Z.pow_nonzero; lia). rewrite Z.mod_add by lia. reflexivity.
Qed.
Lemma le16 lo hi : w64 lo -> w64 hi -> le 16 (val128 (lo, hi)) = le 8 lo ++ le 8 hi.
Proof.
  intros W1 W2. rewrite <- (rev_involutive (le 16 _)), rev_le_be by lia. rewrite be16 by assumption.
  rewrite rev_app_distr, <- !rev_le_be, !rev_involutive by lia. reflexivity.
Qed.
Lemma canonical128_ok c dst h : w64 (fst h) -> w64 (snd h) -> zlen dst = 16 -> XXH128_canonicalFromHash c dst h = OK (be 16 (val128 h)).
Proof.
  destruct h as [lo hi]. cbn [fst snd]. intros W1 W2 L. unfold XXH128_canonicalFromHash. rewrite !swap64_native by assumption.
  pose proof (be_len 8 hi ltac:(lia)). pose proof (be_len 8 lo ltac:(lia)).
  rewrite store_ok by lia. cbn [bind]. rewrite store_ok by llia. f_equal. rewrite be16 by assumption. set (a := be 8 hi) in *. set (b := be 8 lo) in *.
  clearbody a b. list_eq.
Qed.
Lemma le_val_le n x : 0 <= n -> 0 <= x < 2 ^ (8 * n) -> le_val (le n x) = x.
Proof.
  intros. pose proof (le_bytes_le (Z.to_nat n) x) as E. rewrite Z2Nat.id in E by lia. rewrite <- E, le_bytes_val, Z2Nat.id by lia. apply Z.mod_small. assumption.
Qed.
Lemma be_val n x : 0 <= n -> 0 <= x < 2 ^ (8 * n) -> le_val (rev (be n x)) = x.
Proof. intros. rewrite <- rev_le_be, rev_involutive by lia. apply le_val_le; assumption. Qed.
Lemma le_le_val b : bytes_ok b -> le (zlen b) (le_val b) = b.
Proof. intros B. unfold zlen. rewrite <- le_bytes_le. apply le_val_bytes, B. Qed.
Lemma be_le_val b : bytes_ok b -> be (zlen b) (le_val (rev b)) = b.
Proof. intros B. rewrite <- rev_le_be by apply zlen_nonneg. rewrite <- (zlen_rev b), le_le_val by (apply bytes_ok_rev, B). apply rev_involutive. Qed.
Lemma fromcanon32 c p b : cfg_ok c -> points_to p b -> bytes_ok b -> zlen b = 4 -> XXH32_hashFromCanonical c p = OK (le_val (rev b)).
Proof.
  intros C P B L. unfold XXH32_hashFromCanonical. rewrite <- (padd_0 p). rewrite (readBE32_ok c p b 0) by (trivial; lia).
  rewrite zslice_all by lia. reflexivity.
Qed.
Lemma fromcanon64 c p b : cfg_ok c -> points_to p b -> bytes_ok b -> zlen b = 8 -> XXH64_hashFromCanonical c p = OK (le_val (rev b)).
Proof.
  intros C P B L. unfold XXH64_hashFromCanonical. rewrite <- (padd_0 p). rewrite (readBE64_ok c p b 0) by (trivial; lia).
  rewrite zslice_all by lia. reflexivity.
Qed.
Lemma fromcanon128 c p a b : cfg_ok c -> points_to p (a ++ b) -> bytes_ok a -> bytes_ok b -> zlen a = 8 -> zlen b = 8 ->
  XXH128_hashFromCanonical c p = OK (le_val (rev b), le_val (rev a)).
Proof.
  intros C P B1 B2 L1 L2. unfold XXH128_hashFromCanonical.
  assert (B : bytes_ok (a ++ b)) by (apply bytes_ok_app; assumption).
  pose proof (readBE64_ok c p _ 0 C P B ltac:(lia) ltac:(llia)) as E1. rewrite padd_0 in E1. rewrite E1.
  rewrite (readBE64_ok c p _ 8 C P B ltac:(lia) ltac:(llia)). cbn [bind].
  rewrite (zslice_app_l a b 0 8), (zslice_app_r a b 8 8) by lia. rewrite L1. rewrite (zslice_all a), (zslice_all b) by lia. reflexivity.
Qed.

(** ** Comparison *)
Lemma app_inv_both {A} (a b c d : list A) : length a = length c -> a ++ b = c ++ d -> a = c /\ b = d.
Proof.
  revert c. induction a as [|x a IH]; intros [|y c] L E; cbn in *; try discriminate; [auto|]. inv E. destruct (IH c) as [-> ->]; auto.
Qed.
Lemma memcmp_eq a b : zlen a = zlen b -> (memcmp a b = 0 <-> a = b).
Proof.
  unfold zlen. revert b. induction a as [|x a IH]; intros [|y b] L; cbn [length] in L; try lia; cbn [memcmp].
  - split; reflexivity.
  - destruct (Z.ltb_spec x y), (Z.ltb_spec y x); try lia; try (split; [discriminate|intros E; inv E; lia]).
    rewrite IH by lia. split; [intros ->; f_equal; lia|intros E; inv E; reflexivity].
Qed.
Lemma memcmp_range a b : memcmp a b = -1 \/ memcmp a b = 0 \/ memcmp a b = 1.
Proof.
  revert b. induction a as [|x a IH]; intros [|y b]; cbn [memcmp]; auto.
  destruct (x <? y); auto. destruct (y <? x); auto.
Qed.
Lemma rev_val_cons x a : le_val (rev (x :: a)) = le_val (rev a) + 2 ^ (8 * zlen a) * x.
Proof. cbn [rev]. rewrite le_val_app, zlen_rev. cbn [le_val]. ring. Qed.
(** memcmp of equally long byte strings compares their big-endian values *)
Lemma memcmp_val a b : zlen a = zlen b -> bytes_ok a -> bytes_ok b ->
  memcmp a b = Z.sgn (le_val (rev a) - le_val (rev b)).
Proof.
  revert b. induction a as [|x a IH]; intros [|y b] L Ba Bb; rewrite ?zlen_cons in L; repeat (zlen_nil); zlen_pose; try lia; try reflexivity.
  rewrite !rev_val_cons. cbn [memcmp]. inv Ba. inv Bb. replace (zlen b) with (zlen a) by lia.
  pose proof (le_val_bound (rev a) ltac:(apply bytes_ok_rev; assumption)) as R1.
  pose proof (le_val_bound (rev b) ltac:(apply bytes_ok_rev; assumption)) as R2. rewrite zlen_rev in R1, R2. replace (zlen b) with (zlen a) in R2 by lia.
  set (W := 2 ^ (8 * zlen a)) in *. assert (0 < W) by (apply Z.pow_pos_nonneg; lia). clearbody W. unfold byte_ok in *.
  destruct (Z.ltb_spec x y). { symmetry. apply Z.sgn_neg. nia. }
  destruct (Z.ltb_spec y x). { symmetry. apply Z.sgn_pos. nia. }
  rewrite IH by (trivial; lia). f_equal. assert (x = y) by lia. subst. lia.
Qed.
Lemma native_inj c n x y : 0 <= x < 2 ^ (8 * Z.of_nat n) -> 0 <= y < 2 ^ (8 * Z.of_nat n) -> native_bytes c n x = native_bytes c n y -> x = y.
Proof.
  intros X Y E. assert (E2 : le_bytes n x = le_bytes n y).
  { unfold native_bytes in E. destruct (cpu_le c); [exact E|]. rewrite <- (rev_involutive (le_bytes n x)), E. apply rev_involutive. }
  rewrite <- (Z.mod_small _ _ X), <- (Z.mod_small _ _ Y), <- !le_bytes_val by lia. rewrite E2. reflexivity.
Qed.
Lemma native_len c n x : zlen (native_bytes c n x) = Z.of_nat n.
Proof. unfold native_bytes. destruct (cpu_le c); rewrite ?zlen_rev; apply le_bytes_len. Qed.
Definition hash128_ok (h : Z * Z) : Prop := 0 <= fst h < 2 ^ 64 /\ 0 <= snd h < 2 ^ 64.
Lemma isEqual_ok c a b : hash128_ok a -> hash128_ok b -> XXH128_isEqual c a b = if (val128 a =? val128 b) then 1 else 0.
Proof.
  intros [A1 A2] [B1 B2]. unfold XXH128_isEqual, val128. destruct a as [a1 a2], b as [b1 b2]. cbn [fst snd] in *.
  assert (L : zlen (repr128 c (a1, a2)) = zlen (repr128 c (b1, b2))) by (unfold repr128; rewrite !zlen_app, !native_len; reflexivity).
  pose proof (memcmp_eq _ _ L) as H. destruct (Z.eqb_spec (memcmp (repr128 c (a1, a2)) (repr128 c (b1, b2))) 0) as [E|E].
  - apply H in E. unfold repr128 in E. cbn [fst snd] in E. apply app_inv_both in E; [|pose proof (native_len c 8 a1); pose proof (native_len c 8 b1); unfold zlen in *; lia].
    destruct E as [E1 E2]. apply native_inj in E1, E2; trivial. subst. rewrite Z.eqb_refl. reflexivity.
  - destruct (Z.eqb_spec (a1 + 2 ^ 64 * a2) (b1 + 2 ^ 64 * b2)) as [E2|]; [|reflexivity]. exfalso. apply E, H.
    assert (a2 = b2) by lia. assert (a1 = b1) by lia. subst. reflexivity.
Qed.
Lemma cmp_ok a b : hash128_ok a -> hash128_ok b -> XXH128_cmp a b = Z.sgn (val128 a - val128 b).
Proof.
  intros [A1 A2] [B1 B2]. unfold XXH128_cmp, val128, gt_int. destruct a as [a1 a2], b as [b1 b2]. cbn [fst snd] in *.
  destruct (Z.ltb_spec b2 a2), (Z.ltb_spec a2 b2); cbn [Z.sub Z.add Z.opp Z.pos_sub Z.eqb negb]; try lia.
  destruct (Z.ltb_spec b1 a1), (Z.ltb_spec a1 b1); lia.
Qed.

(** ** Secret generation *)
Lemma lxor_div_mod a b i : 0 <= i -> Z.lxor a b / 2 ^ (8 * i) mod 2 ^ 8 = Z.lxor (a / 2 ^ (8 * i) mod 2 ^ 8) (b / 2 ^ (8 * i) mod 2 ^ 8).
Proof.
  intros H. rewrite <- !Z.shiftr_div_pow2, <- !Z.land_ones by lia. rewrite Z.shiftr_lxor. apply Z.bits_inj'. intros n Hn.
  rewrite !Z.land_spec, !Z.lxor_spec, !Z.land_spec. destruct (Z.testbit (Z.ones 8) n); rewrite ?andb_true_r, ?andb_false_r; reflexivity.
Qed.
(** xor the 16 bytes of [h] (low half first) into the table at [k] *)
Definition xat (m : Z -> Z) (k : Z) (d : list Z) (i : Z) : Z := if (k <=? i) && (i <? k + zlen d) then Z.lxor (m i) (byte_at d (i - k)) else m i.
Lemma write_xor c pre m post k x : 0 <= k -> k + 8 <= zlen m -> bytes_ok m -> w64 x ->
  writeLE64 c (pre ++ m ++ post) (zlen pre + k) (xor (le_val (zslice m k 8)) x) =
  OK (pre ++ tab (zlen m) (xat (byte_at m) k (le 8 x)) ++ post).
Proof.
  intros H1 H2 B W. assert (LV : w64 (le_val (zslice m k 8))) by (apply le_val_w64; [apply bytes_ok_zslice, B|llia]).
  rewrite writeLE64_ok by (apply xor_w64; assumption). rewrite le_bytes_le. change (Z.of_nat 8) with 8.
  rewrite store_mid by (rewrite ?le_len; lia). f_equal. f_equal. f_equal. apply tab_ext. intros i Hi. unfold xat. rewrite !le_len by lia.
  destruct ((k <=? i) && (i <? k + 8)) eqn:E; [|reflexivity]. unfold le. rewrite !byte_at_tab by lia. unfold xor. rewrite lxor_div_mod by lia. f_equal.
  rewrite <- (le_bytes_at 8) by lia. change 8%nat with (Z.to_nat 8). replace (Z.to_nat 8) with (length (zslice m k 8)).
  - rewrite le_val_bytes by (apply bytes_ok_zslice, B). rewrite byte_at_slice by lia. f_equal. lia.
  - assert (L : zlen (zslice m k 8) = 8) by llia. unfold zlen in L. lia.
Qed.
Lemma tab_xat_bytes m k x : bytes_ok m -> bytes_ok (tab (zlen m) (xat (byte_at m) k (le 8 x))).
Proof.
  intros B. apply Forall_forall. intros b H. unfold tab in H. apply in_map_iff in H as (i & <- & Hi).
  assert (Hi2 : 0 <= i < zlen m).
  { unfold upto in Hi. apply in_map_iff in Hi as (j & <- & Hj). apply in_seq in Hj. pose proof (zlen_nonneg m). lia. }
  unfold xat. destruct ((k <=? i) && (i <? k + zlen (le 8 x))) eqn:E; [|apply byte_at_ok; assumption].
  unfold byte_ok. change 256 with (2 ^ 8). apply lxor_bound; [lia|apply byte_at_ok; assumption|].
  rewrite le_len in E by lia. apply byte_at_ok; [apply le_bytes'|rewrite le_len; lia].
Qed.
Lemma combine16_ok c pre m post adr k h : cfg_ok c -> 0 <= k -> k + 16 <= zlen m -> bytes_ok m -> w64 (fst h) -> w64 (snd h) ->
  combine16 c (pre ++ m ++ post) adr (zlen pre + k) h =
  OK (pre ++ tab (zlen m) (xat (byte_at m) k (le 16 (val128 h))) ++ post) /\ bytes_ok (tab (zlen m) (xat (byte_at m) k (le 16 (val128 h)))).
Proof.
  destruct h as [lo hi]. cbn [fst snd]. intros C H1 H2 B W1 W2. unfold combine16. cbn [fst snd].
  change (Ptr (pre ++ m ++ post) adr (zlen pre + k)) with (padd (Ptr (pre ++ m ++ post) adr (zlen pre)) k).
  rewrite (readLE64_ok c _ m k) by (trivial; try lia; apply points_to_intro). cbn [bind]. rewrite write_xor by (trivial; lia). cbn [bind].
  set (m1 := tab (zlen m) (xat (byte_at m) k (le 8 lo))).
  assert (L1 : zlen m1 = zlen m) by (apply tab_len; apply zlen_nonneg).
  assert (B1 : bytes_ok m1) by (apply tab_xat_bytes, B).
  change (Ptr (pre ++ m1 ++ post) adr (zlen pre + k + 8)) with (padd (Ptr (pre ++ m1 ++ post) adr (zlen pre + k)) 8).
  change (Ptr (pre ++ m1 ++ post) adr (zlen pre + k)) with (padd (Ptr (pre ++ m1 ++ post) adr (zlen pre)) k). rewrite padd_padd.
  rewrite (readLE64_ok c _ m1 (k + 8)) by (trivial; try lia; apply points_to_intro). cbn [bind].
  replace (zlen pre + k + 8) with (zlen pre + (k + 8)) by lia. rewrite write_xor by (trivial; lia).
  assert (E : tab (zlen m1) (xat (byte_at m1) (k + 8) (le 8 hi)) = tab (zlen m) (xat (byte_at m) k (le 16 (val128 (lo, hi))))).
  { rewrite L1. apply tab_ext. intros i Hi. unfold xat. rewrite le16 by assumption. rewrite zlen_app, !le_len by lia.
    unfold m1. rewrite byte_at_tab by lia. unfold xat. rewrite le_len by lia.
    destruct (Z.leb_spec (k + 8) i); cbn [andb].
    - replace (i <? k + 8) with false by lia. rewrite andb_false_r. replace (k <=? i) with true by lia. cbn [andb].
      replace (i <? k + (8 + 8)) with (i <? k + 8 + 8) by lia. destruct (Z.ltb_spec i (k + 8 + 8)); [|reflexivity].
      rewrite byte_at_app by (rewrite !le_len by lia; lia). rewrite le_len by lia. replace (i - k <? 8) with false by lia. do 2 f_equal. lia.
    - destruct (Z.leb_spec k i); cbn [andb]; [|reflexivity]. replace (i <? k + 8) with true by lia. replace (i <? k + (8 + 8)) with true by lia.
      rewrite byte_at_app by (rewrite !le_len by lia; lia). rewrite le_len by lia. replace (i - k <? 8) with true by lia. reflexivity. }
  split; [rewrite E; reflexivity|]. rewrite <- E. apply tab_xat_bytes, B1.
Qed.
Lemma tab_bytes_ok n f : (forall i, 0 <= i < n -> byte_ok (f i)) -> bytes_ok (tab n f).
Proof.
  intros H. apply Forall_forall. intros b Hb. unfold tab in Hb. apply in_map_iff in Hb as (i & <- & Hi). apply H.
  unfold upto in Hi. apply in_map_iff in Hi as (j & <- & Hj). apply in_seq in Hj. lia.
Qed.
Lemma lxor_byte a b : byte_ok a -> byte_ok b -> byte_ok (Z.lxor a b).
Proof. unfold byte_ok. change 256 with (2 ^ 8). intros. apply lxor_bound; lia. Qed.

Definition cyc (s : list Z) (i : Z) : Z := byte_at s (i mod zlen s).
Lemma cyc_byte s i : bytes_ok s -> 0 < zlen s -> byte_ok (cyc s i).
Proof. intros B L. apply byte_at_ok; [exact B|]. apply Z.mod_pos_bound. exact L. Qed.

Lemma gen_fill_ok c pre old post n p s : cfg_ok c -> points_to p s -> 0 < zlen s < 2 ^ szbits c -> zlen old = n -> n < 2 ^ szbits c ->
  gen_fill c (pre ++ old ++ post) (zlen pre) n p (zlen s) = OK (pre ++ tab n (cyc s) ++ post, n).
Proof.
  intros C P HL Hn Hsz. assert (N0 : 0 <= n) by (subst n; apply zlen_nonneg).
  assert (PN : p <> Null) by (apply (points_to_nonnull p s P); lia).
  assert (HN : exists N : nat, n <= Z.of_nat N * zlen s < n + zlen s).
  { exists (Z.to_nat ((n + zlen s - 1) / zlen s)). rewrite Z2Nat.id by (apply Z.div_pos; lia).
    pose proof (Z.div_mod (n + zlen s - 1) (zlen s) ltac:(lia)). pose proof (Z.mod_pos_bound (n + zlen s - 1) (zlen s) ltac:(lia)). nia. }
  destruct HN as [N HN].
  assert (N1 : Z.of_nat N <= n) by nia.
  assert (STEP : forall j, (j < N)%nat -> Z.of_nat j * zlen s < n) by (intros; nia).
  pose (pos := fun j : nat => Z.min n (Z.of_nat j * zlen s)).
  pose (f := fun j : nat => (pre ++ tab n (fun i => if i <? pos j then cyc s i else byte_at old i) ++ post, pos j)).
  unfold gen_fill. rewrite (while_count _ _ f N).
  - unfold f. assert (E : pos N = n) by (unfold pos; lia). rewrite E. do 4 f_equal. apply tab_ext.
    intros i Hi. replace (i <? n) with true by lia. reflexivity.
  - unfold f. assert (E : pos O = 0) by (unfold pos; lia). rewrite E. do 3 f_equal. rewrite (tab_bytes old) at 1. rewrite Hn. apply tab_ext.
    intros i Hi. replace (i <? 0) with false by lia. reflexivity.
  - lia.
  - intros j Hj. specialize (STEP j Hj). unfold f. assert (Ej : pos j = Z.of_nat j * zlen s) by (unfold pos; lia).
    split; [rewrite Ej; lia|].
    assert (Pj : 0 <= pos j < n) by nia.
    assert (Ej1 : pos (S j) = pos j + Z.min (n - pos j) (zlen s)) by (unfold pos in *; lia).
    assert (Mj : pos j mod zlen s = 0) by (rewrite Ej; apply Z.mod_mul; lia).
    rewrite Ej1. clear Ej1. revert Ej Pj Mj. generalize (pos j). intros q Eq Pq Mq. clear HN STEP.
    set (m1 := tab n (fun i => if i <? q then cyc s i else byte_at old i)).
    assert (L1 : zlen m1 = n) by (apply tab_len; lia).
    unfold usz. rewrite (Z.mod_small (n - q)) by lia.
    set (t := Z.min (n - q) (zlen s)). assert (T : 0 < t <= zlen s /\ q + t <= n) by (unfold t; lia). clearbody t.
    rewrite (Z.mod_small (q + t)) by lia. rewrite (load_at0 p s t P PN) by lia. cbn [bind].
    assert (Lz : zlen (zslice s 0 t) = t) by (rewrite zlen_zslice; lia).
    rewrite store_mid by lia. cbn [bind]. rewrite L1. do 4 f_equal. apply tab_ext. intros i Hi. rewrite Lz. unfold m1. rewrite byte_at_tab by lia.
    destruct (Z.leb_spec q i); cbn [andb].
    + destruct (Z.ltb_spec i (q + t)); [|replace (i <? q) with false by lia; reflexivity].
      rewrite byte_at_slice by lia. unfold cyc. f_equal.
      replace i with (q + (i - q)) at 2 by lia. rewrite <- Zplus_mod_idemp_l, Mq. rewrite Z.mod_small by lia. reflexivity.
    + replace (i <? q) with true by lia. replace (i <? q + t) with true by lia. reflexivity.
  - unfold f. assert (E : pos N = n) by (unfold pos; lia). rewrite E. lia.
Qed.

Lemma generateSecret_ok c pre old post adr p s : cfg_ok c -> zlen s = 0 \/ points_to p s -> bytes_ok s -> zlen s < 2 ^ szbits c ->
  136 <= zlen old -> zlen old < 2 ^ szbits c ->
  XXH3_generateSecret c (Ptr (pre ++ old ++ post) adr (zlen pre)) (zlen old) p (zlen s) =
  OK (XXH_OK, pre ++ generateSecret (zlen old) s ++ post).
Proof.
  intros C P B LS LO1 LO2. unfold XXH3_generateSecret, SECRET_SIZE_MIN. replace (zlen old <? 136) with false by lia.
  assert (SZ : 192 < 2 ^ szbits c /\ 2 ^ szbits c <= 2 ^ 64) by (destruct (ok_sz c C) as [-> | ->]; lia).
  pose (s' := if zlen s =? 0 then kSecret else s).
  assert (E : exists p', (if zlen s =? 0 then (kSecret_ptr, 192) else (p, zlen s)) = (p', zlen s') /\ points_to p' s' /\ bytes_ok s' /\ 0 < zlen s' < 2 ^ szbits c).
  { unfold s'. destruct (Z.eqb_spec (zlen s) 0).
    - exists kSecret_ptr. rewrite <- kSecret_len. split; [reflexivity|]. split; [apply kSecret_points|]. split; [apply kSecret_bytes|rewrite kSecret_len; lia].
    - destruct P as [P|P]; [lia|]. exists p. split; [reflexivity|]. split; [exact P|]. split; [exact B|]. pose proof (zlen_nonneg s). lia. }
  destruct E as (p' & -> & P' & B' & L').
  replace (generateSecret (zlen old) s) with (generateSecret (zlen old) s').
  2:{ unfold s'. destruct (Z.eqb_spec (zlen s) 0) as [E|]; [|reflexivity]. unfold generateSecret. change (len s) with (zlen s). rewrite E.
      change (len kSecret =? 0) with false. change (0 =? 0) with true. cbv iota. rewrite <- kSecret_default. reflexivity. }
  clearbody s'. clear s P B LS. rename s' into s.
  assert (PN : is_null p' = false) by (destruct p'; [|reflexivity]; exfalso; apply (points_to_nonnull Null s P'); [lia|reflexivity]).
  rewrite PN. set (n := zlen old) in *. rewrite (gen_fill_ok c pre old post n p' s) by (trivial; reflexivity). cbn [bind].
  unfold XXH128. rewrite (XXH3_128bits_withSeed_ok c p' s C P' B' 0) by (unfold w64; lia). cbn [bind].
  assert (EH : X3.XXH3_128_withSeed 0 s = X3.XXH3_128 s) by (unfold X3.XXH3_128_withSeed, X3.XXH3_128; rewrite derive_0, kSecret_default; reflexivity).
  rewrite EH. set (h := X3.XXH3_128 s).
  assert (Wh : w64 (fst h) /\ w64 (snd h)) by apply hash128_range. destruct Wh as [Wl Wh].
  rewrite canonical128_ok by trivial. cbn [bind]. set (scr := be 16 (val128 h)).
  assert (Lscr : zlen scr = 16) by (apply be_len; lia). assert (Bscr : bytes_ok scr) by apply be_bytes.
  pose (K := fun j => X3.XXH3_128_withSeed j scr).
  pose (g := fun (j : Z) i => if i / 16 <? j then Z.lxor (cyc s i) (byte_at (le 16 (val128 (K (i / 16)))) (i mod 16)) else cyc s i).
  assert (Bg : forall j i, byte_ok (g j i)).
  { intros j i. unfold g. pose proof (cyc_byte s i B' ltac:(lia)). destruct (i / 16 <? j); [|assumption]. apply lxor_byte; [assumption|].
    apply byte_at_ok; [apply le_bytes'|]. rewrite le_len by lia. apply Z.mod_pos_bound. lia. }
  assert (HS : 0 <= n / 16 /\ 16 * (n / 16) <= n) by (pose proof (zlen_nonneg old); split; [apply Z.div_pos; lia|dlia]).
  rewrite (for_count _ (fun j : nat => pre ++ tab n (g (Z.of_nat j)) ++ post)).
  - cbn [bind]. rewrite Z2Nat.id by lia.
    assert (Escr : scr = be 8 (snd h) ++ be 8 (fst h)) by (unfold scr; destruct h; apply be16; assumption).
    rewrite (fromcanon128 c _ (be 8 (snd h)) (be 8 (fst h))); trivial; try apply be_bytes; try (apply be_len; lia).
    2:{ rewrite <- Escr. apply local_points. }
    rewrite !be_val by (lia || assumption). cbn [bind]. rewrite <- surjective_pairing.
    replace (zlen pre + n - 16) with (zlen pre + (n - 16)) by lia.
    set (m1 := tab n (g (n / 16))). assert (L1 : zlen m1 = n) by (apply tab_len; lia).
    destruct (combine16_ok c pre m1 post adr (n - 16) h) as [-> _]; trivial; try lia.
    { apply tab_bytes_ok. auto. }
    cbn [bind]. do 3 f_equal. f_equal. rewrite L1. unfold generateSecret. change (len s) with (zlen s). replace (zlen s =? 0) with false by lia. fold h. fold scr.
    cbv zeta. apply tab_ext. intros i Hi.
    unfold xat. rewrite le_len by lia. unfold m1. rewrite byte_at_tab by lia. unfold g, K, cyc.
    rewrite (X3_byte s) by (apply Z.mod_pos_bound; lia).
    replace (i <? n - 16 + 16) with true by lia. rewrite andb_true_r.
    rewrite (X3_byte (le 16 _) (i mod 16)) by (rewrite le_len by lia; apply Z.mod_pos_bound; lia).
    destruct (Z.ltb_spec (i / 16) (n / 16)), (Z.leb_spec (n - 16) i); rewrite ?Z.lxor_0_r; try reflexivity;
      rewrite X3_byte by (rewrite le_len by lia; lia); reflexivity.
  - do 2 f_equal. apply tab_ext. intros i Hi. unfold g. replace (i / 16 <? Z.of_nat 0) with false; [reflexivity|]. symmetry. apply Z.ltb_ge. apply Z.div_pos; lia.
  - intros j Hj. rewrite Z.add_0_l. unfold XXH128.
    replace (XXH3_128bits_withSeed c (Ptr scr 1 0) 16 (Z.of_nat j)) with (XXH3_128bits_withSeed c (Ptr scr 1 0) (zlen scr) (Z.of_nat j)) by (rewrite Lscr; reflexivity).
    rewrite (XXH3_128bits_withSeed_ok c (Ptr scr 1 0) scr C (local_points _ _) Bscr (Z.of_nat j)) by (unfold w64; lia). cbn [bind].
    set (m1 := tab n (g (Z.of_nat j))). assert (L1 : zlen m1 = n) by (apply tab_len; lia).
    destruct (hash128_range X3.default_secret (Z.of_nat j) (X3.deriveSecret (Z.of_nat j)) scr) as [W1 W2].
    replace (zlen pre + Z.of_nat j * 16) with (zlen pre + 16 * Z.of_nat j) by lia.
    destruct (combine16_ok c pre m1 post adr (16 * Z.of_nat j) (K (Z.of_nat j))) as [E _]; trivial; try lia.
    { apply tab_bytes_ok. auto. }
    unfold K in E at 1. rewrite E. do 3 f_equal. rewrite L1. apply tab_ext. intros i Hi. unfold xat. rewrite le_len by lia.
    unfold m1. rewrite byte_at_tab by lia. unfold g.
    assert (EQ : i / 16 = Z.of_nat j <-> 16 * Z.of_nat j <= i < 16 * Z.of_nat j + 16) by (split; intros; dlia).
    replace (i / 16 <? Z.of_nat (S j)) with ((i / 16 <? Z.of_nat j) || (i / 16 =? Z.of_nat j)) by lia.
    destruct ((16 * Z.of_nat j <=? i) && (i <? 16 * Z.of_nat j + 16)) eqn:Ei.
    + assert (Q : i / 16 = Z.of_nat j) by (apply EQ; lia). rewrite Q. replace (Z.of_nat j <? Z.of_nat j) with false by lia.
      rewrite Z.eqb_refl. cbn [orb]. do 2 f_equal. dlia.
    + replace (i / 16 =? Z.of_nat j) with false; [|symmetry; apply Z.eqb_neq; intros Q; apply EQ in Q; lia]. rewrite orb_false_r. reflexivity.
Qed.

Lemma fromSeed_ok c pre old post adr seed : cfg_ok c -> zlen old = 192 -> 0 <= seed < 2 ^ 64 ->
  XXH3_generateSecret_fromSeed c (Ptr (pre ++ old ++ post) adr (zlen pre)) seed = OK (pre ++ X3.deriveSecret seed ++ post).
Proof.
  intros C L W. unfold XXH3_generateSecret_fromSeed.
  rewrite (initCustomSecret_ok c (local_sec c) C (local_sec_aligned c) uninit_secret seed) by (trivial; reflexivity). cbn [bind].
  pose proof (derive_len seed) as LD. set (d := X3.deriveSecret seed) in *. clearbody d. rewrite store_ok by llia. f_equal. list_eq.
Qed.
