(** Property theorems about the canonical representation, comparisons and secret generators
    (C16, C17, C19, C20, C21, C35). *)
From Verif Require Import Base Mem M_XXH32 M_XXH64 M_XXH3 M_Kernels M_Long M_Stream3 M_Util Spec32 Spec64 Spec3 SpecUtil P_Base P_Spec
  P_XXH32 P_XXH64 P_X3_Base P_X3_Short P_Kernels P_Kernels2 P_X3_Long P_Stream P_Stream3 P_Stream4 History P_History P_Util
  Vectors Vectors3 Properties1 Properties2 Properties3.
Import Util.

Lemma points_buf b adr : points_to (Ptr b adr 0) b.
Proof. exists [], []. rewrite app_nil_r. split; reflexivity. Qed.
Lemma chunks_bytes c k calls chunks : chunks_ok c k calls chunks -> bytes_ok (concat chunks).
Proof. intros H. apply Forall_concat. induction H as [|? ? ? ? (_ & _ & B & _)]; constructor; assumption. Qed.

(** C16: the canonical form is the value written most significant byte first, in every build; both round trips. *)
Theorem C16_canonical32 : forall c dst adr h p b, cfg_ok c -> zlen dst = 4 -> 0 <= h < 2 ^ 32 -> points_to p b -> bytes_ok b -> zlen b = 4 ->
  XXH32_canonicalFromHash c dst h = OK (be 4 h) /\
  (let! bytes := XXH32_canonicalFromHash c dst h in XXH32_hashFromCanonical c (Ptr bytes adr 0)) = OK h /\
  (let! v := XXH32_hashFromCanonical c p in XXH32_canonicalFromHash c dst v) = OK b.
Proof.
  intros c dst adr h p b C Ld H P B L. rewrite canonical32_ok by trivial. cbn [bind]. split; [reflexivity|]. split.
  - rewrite (fromcanon32 c _ (be 4 h) C (points_buf _ _) (be_bytes _ _) (be_len 4 h ltac:(lia))). rewrite be_val by (trivial; lia). reflexivity.
  - rewrite (fromcanon32 c p b) by trivial. cbn [bind]. pose proof (le_val_bound (rev b) (bytes_ok_rev _ B)) as R.
    rewrite zlen_rev, L in R. rewrite canonical32_ok by (trivial; exact R). rewrite <- L at 1. rewrite be_le_val by assumption. reflexivity.
Qed.
Print Assumptions C16_canonical32.
Theorem C16_canonical64 : forall c dst adr h p b, cfg_ok c -> zlen dst = 8 -> 0 <= h < 2 ^ 64 -> points_to p b -> bytes_ok b -> zlen b = 8 ->
  XXH64_canonicalFromHash c dst h = OK (be 8 h) /\
  (let! bytes := XXH64_canonicalFromHash c dst h in XXH64_hashFromCanonical c (Ptr bytes adr 0)) = OK h /\
  (let! v := XXH64_hashFromCanonical c p in XXH64_canonicalFromHash c dst v) = OK b.
Proof.
  intros c dst adr h p b C Ld H P B L. rewrite canonical64_ok by trivial. cbn [bind]. split; [reflexivity|]. split.
  - rewrite (fromcanon64 c _ (be 8 h) C (points_buf _ _) (be_bytes _ _) (be_len 8 h ltac:(lia))). rewrite be_val by (trivial; lia). reflexivity.
  - rewrite (fromcanon64 c p b) by trivial. cbn [bind]. pose proof (le_val_bound (rev b) (bytes_ok_rev _ B)) as R.
    rewrite zlen_rev, L in R. rewrite canonical64_ok by (trivial; exact R). rewrite <- L at 1. rewrite be_le_val by assumption. reflexivity.
Qed.
Print Assumptions C16_canonical64.
(** a 128-bit hash is the pair (low64, high64), its value low64 + 2^64 high64 *)
Theorem C16_canonical128 : forall c dst adr h p b, cfg_ok c -> zlen dst = 16 -> hash128_ok h -> points_to p b -> bytes_ok b -> zlen b = 16 ->
  XXH128_canonicalFromHash c dst h = OK (be 16 (val128 h)) /\
  (let! bytes := XXH128_canonicalFromHash c dst h in XXH128_hashFromCanonical c (Ptr bytes adr 0)) = OK h /\
  (let! v := XXH128_hashFromCanonical c p in XXH128_canonicalFromHash c dst v) = OK b.
Proof.
  intros c dst adr [lo hi] p b C Ld [H1 H2] P B L. cbn [fst snd] in *. rewrite canonical128_ok by trivial. cbn [bind]. split; [reflexivity|]. split.
  - rewrite be16 by trivial.
    rewrite (fromcanon128 c _ (be 8 hi) (be 8 lo) C (points_buf _ _)) by (trivial using be_bytes; apply be_len; lia).
    rewrite !be_val by (trivial; lia). reflexivity.
  - rewrite (zslice_split0 b 8) in P, B |- * by lia. set (b1 := zslice b 0 8) in *. set (b2 := zslice b 8 (zlen b - 8)) in *.
    assert (L1 : zlen b1 = 8) by (apply zlen_zslice; lia). assert (L2 : zlen b2 = 8) by (unfold b2; rewrite zlen_zslice; lia).
    apply Forall_app in B. destruct B as [B1 B2].
    rewrite (fromcanon128 c p b1 b2) by trivial. cbn [bind].
    pose proof (le_val_bound (rev b1) (bytes_ok_rev _ B1)) as R1. pose proof (le_val_bound (rev b2) (bytes_ok_rev _ B2)) as R2.
    rewrite zlen_rev, L1 in R1. rewrite zlen_rev, L2 in R2.
    rewrite canonical128_ok by (trivial; assumption). rewrite be16 by assumption.
    pose proof (be_le_val b1 B1) as E1. pose proof (be_le_val b2 B2) as E2. rewrite L1 in E1. rewrite L2 in E2. rewrite E1, E2. reflexivity.
Qed.
Print Assumptions C16_canonical128.

(** C17 *)
Theorem C17_isEqual : forall c a b, hash128_ok a -> hash128_ok b -> (XXH128_isEqual c a b <> 0 <-> a = b).
Proof.
  intros c [a1 a2] [b1 b2] [A1 A2] [B1 B2]. cbn [fst snd] in *. rewrite isEqual_ok by (split; assumption). unfold val128; cbn [fst snd].
  destruct (Z.eqb_spec (a1 + 2 ^ 64 * a2) (b1 + 2 ^ 64 * b2)) as [E|E]; split; intros H; try congruence.
  f_equal; lia.
Qed.
Print Assumptions C17_isEqual.
(** the sign of XXH128_cmp is the order of the 128-bit values; it is also memcmp's on the canonical forms *)
Theorem C17_cmp_is_numeric_order : forall c a b da db, cfg_ok c -> hash128_ok a -> hash128_ok b -> zlen da = 16 -> zlen db = 16 ->
  (XXH128_cmp a b < 0 <-> val128 a < val128 b) /\ (XXH128_cmp a b = 0 <-> a = b) /\ (0 < XXH128_cmp a b <-> val128 b < val128 a) /\
  (XXH128_cmp a b = 0 <-> XXH128_isEqual c a b <> 0) /\
  (let! x := XXH128_canonicalFromHash c da a in let! y := XXH128_canonicalFromHash c db b in OK (memcmp x y)) = OK (XXH128_cmp a b).
Proof.
  intros c a b da db C A B La Lb. rewrite C17_isEqual by assumption.
  assert (E : XXH128_cmp a b = 0 <-> a = b).
  { rewrite cmp_ok by assumption. destruct a as [a1 a2], b as [b1 b2], A as [A1 A2], B as [B1 B2]. unfold val128 in *; cbn [fst snd] in *.
    rewrite Z.sgn_null_iff. split; intros H; [f_equal; lia|injection H; lia]. }
  repeat split; try (apply E); try (rewrite cmp_ok by assumption); try lia.
  rewrite !canonical128_ok by (trivial; apply A || apply B). cbn [bind]. f_equal.
  rewrite memcmp_val by (rewrite ?be_len by lia; trivial; apply be_bytes).
  assert (RA : 0 <= val128 a < 2 ^ (8 * 16)) by (destruct A; unfold val128; lia).
  assert (RB : 0 <= val128 b < 2 ^ (8 * 16)) by (destruct B; unfold val128; lia).
  rewrite !be_val by (trivial; lia). reflexivity.
Qed.
Print Assumptions C17_cmp_is_numeric_order.
(** what qsort needs of a comparison function *)
Theorem C17_cmp_total_order : forall a b d, hash128_ok a -> hash128_ok b -> hash128_ok d ->
  XXH128_cmp a a = 0 /\ XXH128_cmp b a = - XXH128_cmp a b /\
  (XXH128_cmp a b < 0 -> XXH128_cmp b d < 0 -> XXH128_cmp a d < 0) /\
  (XXH128_cmp a b <= 0 -> XXH128_cmp b d <= 0 -> XXH128_cmp a d <= 0) /\
  (XXH128_cmp a b = 0 -> XXH128_cmp a d = XXH128_cmp b d).
Proof. intros a b d A B D. rewrite !cmp_ok by assumption. repeat split; lia. Qed.
Print Assumptions C17_cmp_total_order.

(** C19: the bytes outside the buffer are untouched, those inside depend only on the size and the seed's bytes
    (not on what was there: [old] does not occur in the result) *)
Theorem C19_generateSecret : forall c pre old post adr p s, cfg_ok c -> (zlen s = 0 \/ points_to p s) -> bytes_ok s -> zlen s < 2 ^ szbits c ->
  136 <= zlen old -> zlen old < 2 ^ szbits c ->
  XXH3_generateSecret c (Ptr (pre ++ old ++ post) adr (zlen pre)) (zlen old) p (zlen s) =
    OK (XXH_OK, pre ++ generateSecret (zlen old) s ++ post) /\
  zlen (generateSecret (zlen old) s) = zlen old.
Proof. intros. split; [apply generateSecret_ok; assumption|]. unfold generateSecret. apply tab_len, zlen_nonneg. Qed.
Print Assumptions C19_generateSecret.
Theorem C19_generateSecret_errors : forall c b adr off size p n,
  XXH3_generateSecret c Null size p n = OK (XXH_ERROR, []) /\
  (size < 136 -> XXH3_generateSecret c (Ptr b adr off) size p n = OK (XXH_ERROR, b)) /\
  (n <> 0 -> XXH3_generateSecret c (Ptr b adr off) size Null n = OK (XXH_ERROR, b)).
Proof.
  intros. split; [reflexivity|]. unfold XXH3_generateSecret. change SECRET_SIZE_MIN with 136. split; intros H.
  - replace (size <? 136) with true by lia. reflexivity.
  - destruct (size <? 136); [reflexivity|]. replace (n =? 0) with false by lia. reflexivity.
Qed.
Print Assumptions C19_generateSecret_errors.

(** C20 *)
Theorem C20_fromSeed : forall c pre old post adr seed, cfg_ok c -> zlen old = 192 -> 0 <= seed < 2 ^ 64 ->
  XXH3_generateSecret_fromSeed c (Ptr (pre ++ old ++ post) adr (zlen pre)) seed = OK (pre ++ X3.deriveSecret seed ++ post) /\
  zlen (X3.deriveSecret seed) = 192.
Proof. intros. split; [apply fromSeed_ok; assumption|apply derive_len]. Qed.
Print Assumptions C20_fromSeed.
Theorem C20_fromSeed_0 : forall c pre old post adr, cfg_ok c -> zlen old = 192 ->
  XXH3_generateSecret_fromSeed c (Ptr (pre ++ old ++ post) adr (zlen pre)) 0 = OK (pre ++ X3.default_secret ++ post).
Proof. intros. rewrite <- derive_00. apply fromSeed_ok; trivial. lia. Qed.
Print Assumptions C20_fromSeed_0.

(** C21: the secret is the one the generator wrote in the caller's buffer, anywhere in a block *)
Theorem C21_withSecretandSeed_is_withSeed : forall c pre old post adr seed p m,
  cfg_ok c -> zlen old = 192 -> 0 <= seed < 2 ^ 64 -> points_to p m -> bytes_ok m ->
  (let! blk := XXH3_generateSecret_fromSeed c (Ptr (pre ++ old ++ post) adr (zlen pre)) seed in
   XXH3_64bits_withSecretandSeed c p (zlen m) (Ptr blk adr (zlen pre)) 192 seed) = XXH3_64bits_withSeed c p (zlen m) seed /\
  (let! blk := XXH3_generateSecret_fromSeed c (Ptr (pre ++ old ++ post) adr (zlen pre)) seed in
   XXH3_128bits_withSecretandSeed c p (zlen m) (Ptr blk adr (zlen pre)) 192 seed) = XXH3_128bits_withSeed c p (zlen m) seed.
Proof.
  intros c pr old post adr seed p m C L W P B. rewrite fromSeed_ok by trivial. cbn [bind].
  assert (PS : points_to (Ptr (pr ++ X3.deriveSecret seed ++ post) adr (zlen pr)) (X3.deriveSecret seed)) by (exists pr, post; split; reflexivity).
  destruct (derive_ok c seed C) as (S1 & S2 & S3). pose proof (derive_len seed) as LS. rewrite <- LS.
  rewrite (C03_xxh3_64_withSecretandSeed_equals_spec c p m _ (X3.deriveSecret seed)), C03_xxh3_64_withSeed_equals_spec by trivial.
  rewrite (C04_xxh3_128_withSecretandSeed_equals_spec c p m _ (X3.deriveSecret seed)) by trivial.
  destruct (C04_xxh3_128_withSeed_equals_spec c p m seed C P B W) as [-> _].
  split; reflexivity.
Qed.
Print Assumptions C21_withSecretandSeed_is_withSeed.
Theorem C21_streams : forall c pre old post adr seed calls chunks st,
  cfg_ok c -> zlen old = 192 -> 0 <= seed < 2 ^ 64 -> created3 st -> chunks_ok c 1 calls chunks -> zlen (concat chunks) < 2 ^ 64 ->
  (let! blk := XXH3_generateSecret_fromSeed c (Ptr (pre ++ old ++ post) adr (zlen pre)) seed in
   session (XXH3_64bits_reset_withSecretandSeed c (Some st) (Ptr blk adr (zlen pre)) 192 seed) (XXH3_64bits_update c) calls (XXH3_64bits_digest c)) =
  session (XXH3_64bits_reset_withSeed c (Some st) seed) (XXH3_64bits_update c) calls (XXH3_64bits_digest c) /\
  (let! blk := XXH3_generateSecret_fromSeed c (Ptr (pre ++ old ++ post) adr (zlen pre)) seed in
   session (XXH3_128bits_reset_withSecretandSeed c (Some st) (Ptr blk adr (zlen pre)) 192 seed) (XXH3_128bits_update c) calls (XXH3_128bits_digest c)) =
  session (XXH3_128bits_reset_withSeed c (Some st) seed) (XXH3_128bits_update c) calls (XXH3_128bits_digest c).
Proof.
  intros c pr old post adr seed calls chunks st C L W CR HC T. rewrite fromSeed_ok by trivial. cbn [bind].
  assert (PS : points_to (Ptr (pr ++ X3.deriveSecret seed ++ post) adr (zlen pr)) (X3.deriveSecret seed)) by (exists pr, post; split; reflexivity).
  destruct (secret_ok_fits c _ (derive_ok c seed C)) as (S1 & S2 & S3). pose proof (derive_len seed) as LS. rewrite <- LS.
  assert (PM : points_to (Ptr (concat chunks) 1 0) (concat chunks)) by apply points_buf.
  assert (BM : bytes_ok (concat chunks)) by (eapply chunks_bytes; exact HC).
  split.
  - destruct (C07_xxh3_64_withSeed_stream c st seed calls chunks _ _ C CR W HC eq_refl T PM BM) as [-> _].
    destruct (C07_xxh3_64_withSecretandSeed_stream c st _ _ seed calls chunks _ _ C (created_raw st CR) PS S1 S2 S3 W HC eq_refl T PM BM) as [-> _]. reflexivity.
  - destruct (C08_xxh3_128_withSeed_stream c st seed calls chunks _ _ C CR W HC eq_refl T PM BM) as [-> _].
    destruct (C08_xxh3_128_withSecretandSeed_stream c st _ _ seed calls chunks _ _ C (created_raw st CR) PS S1 S2 S3 W HC eq_refl T PM BM) as [-> _]. reflexivity.
Qed.
Print Assumptions C21_streams.

Lemma flat8_len ws : zlen (flat_map (le_bytes 8) ws) = 8 * zlen ws.
Proof. induction ws as [|w ws IH]; [reflexivity|]. cbn [flat_map]. rewrite zlen_app, zlen_cons, IH, le_bytes_len. lia. Qed.
(** C35: the derived secret read at word [j] *)
Lemma rd8_flat ws j : 0 <= j < zlen ws -> Forall w64 ws -> X3.rd8 (flat_map (le_bytes 8) ws) (8 * j) = nth (Z.to_nat j) ws 0.
Proof.
  intros H F. unfold X3.rd8. rewrite seg_zslice, LE_le_val by lia. replace (8 * j + 8 - 8 * j) with 8 by lia.
  revert j H. induction F as [|w ws W F IH]; intros j H; [cbn in H; lia|]. cbn [flat_map].
  assert (L : zlen (le_bytes 8 w) = 8) by apply le_bytes_len.
  destruct (Z.eq_dec j 0) as [->|N].
  - rewrite Z.mul_0_r, (zslice_app_l _ _ 0 8), zslice_all by lia. rewrite le_bytes_val by apply W. apply Z.mod_small, W.
  - rewrite zlen_cons in H. rewrite zslice_app_r by (rewrite ?flat8_len; lia). rewrite L. replace (8 * j - 8) with (8 * (j - 1)) by lia. rewrite IH by lia.
    replace (Z.to_nat j) with (S (Z.to_nat (j - 1))) by lia. reflexivity.
Qed.
Lemma rd8_derive seed j : 0 <= j < 24 -> X3.rd8 (X3.deriveSecret seed) (8 * j) = eword seed j.
Proof.
  intros H. rewrite derive_eq, rd8_flat.
  - rewrite (nth_indep _ 0 (eword seed 0)) by (rewrite map_length; change (length (upto 24)) with 24%nat; lia). rewrite map_nth. f_equal.
    pose proof (zn_upto 24 j H) as E. unfold zn in E. replace (j <? 0) with false in E by lia. apply (nth_error_nth _ _ 0) in E. exact E.
  - unfold zlen. rewrite map_length. change (length (upto 24)) with 24%nat. lia.
  - apply Forall_forall. intros w I. apply in_map_iff in I. destruct I as (i & <- & _). apply eword_w64.
Qed.
Lemma mixStep_derive seed d k : 0 <= k < 12 -> X3.mixStep (X3.deriveSecret seed) d (16 * k) 0 = X3.mixStep X3.default_secret d (16 * k) seed.
Proof.
  intros H. unfold X3.mixStep. rewrite Z.add_0_r, Z.sub_0_r. replace (16 * k + 8) with (8 * (2 * k + 1)) by lia.
  replace (16 * k) with (8 * (2 * k)) by lia. rewrite !rd8_derive by lia. unfold eword, kword. rewrite kSecret_default.
  replace (Z.even (2 * k)) with true by (rewrite Z.even_mul; reflexivity).
  replace (Z.even (2 * k + 1)) with false by (rewrite Z.even_add, Z.even_mul; reflexivity).
  rewrite !modW, !(u64_id (u64 _)) by apply u64_range. reflexivity.
Qed.

Lemma down_ext {A} (f g : A -> Z -> A) a n :
  (forall i a, 0 <= i < n -> f a i = g a i) -> fold_left f (X3.down n) a = fold_left g (X3.down n) a.
Proof.
  unfold X3.down. intros H. assert (F : Forall (fun i => 0 <= i < n) (rev (upto n))).
  { apply Forall_rev. apply Forall_forall. intros x I. apply in_map_iff in I. destruct I as (k & <- & I). apply in_seq in I. lia. }
  revert a. induction F as [|i l Hi F IH]; intros a; [reflexivity|]. cbn [fold_left]. rewrite H by assumption. apply IH.
Qed.
Lemma mid_derive64 seed m : 17 <= zlen m <= 128 -> X3.mid17to128_64 (X3.deriveSecret seed) 0 m = X3.mid17to128_64 X3.default_secret seed m.
Proof.
  intros H. unfold X3.mid17to128_64. change (len m) with (zlen m). apply down_ext. intros i a Hi.
  assert (i < 4). { pose proof (Z.div_le_mono (zlen m - 1) 127 32 ltac:(lia) ltac:(lia)) as Q. change (127 / 32) with 3 in Q. lia. }
  replace (32 * i + 16) with (16 * (2 * i + 1)) by lia. replace (32 * i) with (16 * (2 * i)) by lia.
  rewrite !mixStep_derive by lia. reflexivity.
Qed.
Lemma mid_derive128 seed m : 17 <= zlen m <= 128 -> X3.mid17to128_128 (X3.deriveSecret seed) 0 m = X3.mid17to128_128 X3.default_secret seed m.
Proof.
  intros H. unfold X3.mid17to128_128. change (len m) with (zlen m). apply down_ext. intros i a Hi.
  assert (i < 4). { pose proof (Z.div_le_mono (zlen m - 1) 127 32 ltac:(lia) ltac:(lia)) as Q. change (127 / 32) with 3 in Q. lia. }
  unfold X3.mixTwoChunks.
  replace (32 * i + 16) with (16 * (2 * i + 1)) by lia. replace (32 * i) with (16 * (2 * i)) by lia.
  rewrite !mixStep_derive by lia. reflexivity.
Qed.
Lemma OK_inj {A} (x y : A) : OK x = OK y -> x = y. Proof. congruence. Qed.
(** the header's HashFast: a secret written by the generator, then withSecret *)
Definition HashFast (c : cfg) (blk : list Z) (adr off seed : Z) (p : ptr) (n : Z) : res Z :=
  let! blk := XXH3_generateSecret_fromSeed c (Ptr blk adr off) seed in
  XXH3_64bits_withSecret c p n (Ptr blk adr off) 192.
Definition HashFast128 (c : cfg) (blk : list Z) (adr off seed : Z) (p : ptr) (n : Z) : res (Z * Z) :=
  let! blk := XXH3_generateSecret_fromSeed c (Ptr blk adr off) seed in
  XXH3_128bits_withSecret c p n (Ptr blk adr off) 192.
Lemma HashFast_ok c pre old post adr seed p m : cfg_ok c -> zlen old = 192 -> 0 <= seed < 2 ^ 64 -> points_to p m -> bytes_ok m ->
  HashFast c (pre ++ old ++ post) adr (zlen pre) seed p (zlen m) = OK (X3.XXH3_64_withSecret (X3.deriveSecret seed) m) /\
  HashFast128 c (pre ++ old ++ post) adr (zlen pre) seed p (zlen m) = OK (X3.XXH3_128_withSecret (X3.deriveSecret seed) m).
Proof.
  intros C L W P B. unfold HashFast, HashFast128. rewrite fromSeed_ok by trivial. cbn [bind].
  assert (PS : points_to (Ptr (pre ++ X3.deriveSecret seed ++ post) adr (zlen pre)) (X3.deriveSecret seed)) by (exists pre, post; split; reflexivity).
  destruct (derive_ok c seed C) as (S1 & S2 & S3). pose proof (derive_len seed) as LS. rewrite <- LS.
  rewrite (C03_xxh3_64_withSecret_equals_spec c p m _ (X3.deriveSecret seed)) by trivial.
  rewrite (C04_xxh3_128_withSecret_equals_spec c p m _ (X3.deriveSecret seed)) by trivial. split; reflexivity.
Qed.
Theorem C35_HashFast_equals_withSeed : forall c pre old post adr seed p m,
  cfg_ok c -> zlen old = 192 -> 0 <= seed < 2 ^ 64 -> points_to p m -> bytes_ok m -> 17 <= zlen m <= 128 \/ 240 < zlen m ->
  HashFast c (pre ++ old ++ post) adr (zlen pre) seed p (zlen m) = XXH3_64bits_withSeed c p (zlen m) seed.
Proof.
  intros c pr old post adr seed p m C L W P B H. destruct (HashFast_ok c pr old post adr seed p m C L W P B) as [-> _].
  rewrite C03_xxh3_64_withSeed_equals_spec by trivial.
  unfold X3.XXH3_64_withSecret, X3.XXH3_64_withSeed, X3.hash64. change (len m) with (zlen m).
  destruct (Z.leb_spec (zlen m) 240); [|reflexivity]. unfold X3.short64. change (len m) with (zlen m).
  replace (zlen m =? 0) with false by lia. replace (zlen m <=? 3) with false by lia. replace (zlen m <=? 8) with false by lia.
  replace (zlen m <=? 16) with false by lia. replace (zlen m <=? 128) with true by lia. rewrite mid_derive64 by lia. reflexivity.
Qed.
Print Assumptions C35_HashFast_equals_withSeed.
Theorem C35_HashFast128 : forall c pre old post adr seed p m,
  cfg_ok c -> zlen old = 192 -> 0 <= seed < 2 ^ 64 -> points_to p m -> bytes_ok m ->
  (240 < zlen m -> HashFast128 c (pre ++ old ++ post) adr (zlen pre) seed p (zlen m) = XXH3_128bits_withSeed c p (zlen m) seed) /\
  (17 <= zlen m <= 128 -> exists low h1 h2, HashFast128 c (pre ++ old ++ post) adr (zlen pre) seed p (zlen m) = OK (low, h1) /\
     XXH3_128bits_withSeed c p (zlen m) seed = OK (low, h2)).
Proof.
  intros c pr old post adr seed p m C L W P B. destruct (HashFast_ok c pr old post adr seed p m C L W P B) as [_ ->].
  destruct (C04_xxh3_128_withSeed_equals_spec c p m seed C P B W) as [-> _].
  unfold X3.XXH3_128_withSecret, X3.XXH3_128_withSeed, X3.hash128. change (len m) with (zlen m). split; intros H.
  - replace (zlen m <=? 240) with false by lia. reflexivity.
  - replace (zlen m <=? 240) with true by lia. unfold X3.short128. change (len m) with (zlen m).
    replace (zlen m =? 0) with false by lia. replace (zlen m <=? 3) with false by lia. replace (zlen m <=? 8) with false by lia.
    replace (zlen m <=? 16) with false by lia. replace (zlen m <=? 128) with true by lia. rewrite mid_derive128 by lia.
    unfold X3.mid128. do 3 eexists. split; reflexivity.
Qed.
Print Assumptions C35_HashFast128.
(** in every other class of lengths there is an input on which they differ *)
Theorem C35_other_lengths_differ : forall c, cfg_ok c -> forall n, In n [0; 1; 4; 9; 129; 240] -> exists seed p m pre old post adr,
  0 <= seed < 2 ^ 64 /\ zlen old = 192 /\ points_to p m /\ bytes_ok m /\ zlen m = n /\
  HashFast c (pre ++ old ++ post) adr (zlen pre) seed p (zlen m) <> XXH3_64bits_withSeed c p (zlen m) seed.
Proof.
  intros c C n Hn. exists 1, (Ptr (repeat 0 (Z.to_nat n)) 1 0), (repeat 0 (Z.to_nat n)), [], (repeat 0 192), [], 1.
  assert (P : points_to (Ptr (repeat 0 (Z.to_nat n)) 1 0) (repeat 0 (Z.to_nat n))) by apply points_buf.
  assert (B : bytes_ok (repeat 0 (Z.to_nat n))) by (apply Forall_forall; intros x Hx; apply repeat_spec in Hx; subst x; split; lia).
  repeat split; try reflexivity; try lia; try assumption.
  - cbn [In] in Hn. unfold zlen. rewrite repeat_length. lia.
  - destruct (HashFast_ok c [] (repeat 0 192) [] 1 1 _ _ C eq_refl ltac:(lia) P B) as [-> _].
    rewrite C03_xxh3_64_withSeed_equals_spec by (trivial; lia). intros E. apply OK_inj in E. revert E. clear - Hn.
     repeat (destruct Hn as [<-|Hn]; [vm_compute; discriminate|]). destruct Hn.
Qed.
Print Assumptions C35_other_lengths_differ.

(** the hypotheses are met by real values: a 1-byte-offset buffer in a 32-bit big-endian build with a 37-byte seed *)
Example hyps4_inhabited : cfg_ok c1 /\ hash128_ok (X3.XXH3_128 (zslice sanity 0 37)) /\
  (points_to (Ptr sanity 1 0) (zslice sanity 0 37) /\ bytes_ok (zslice sanity 0 37) /\ zlen (zslice sanity 0 37) < 2 ^ szbits c1) /\
  136 <= zlen (repeat 170 200) < 2 ^ szbits c1 /\ be 4 0x12345678 = [0x12; 0x34; 0x56; 0x78].
Proof.
  split; [constructor; cbn; auto; try lia; discriminate|]. split; [vm_compute; repeat split; discriminate|].
  split; [|vm_compute; repeat split; discriminate]. split; [|split; [|vm_compute; reflexivity]].
  - exists [], (zslice sanity 37 (zlen sanity - 37)). split; [|reflexivity]. cbn [app]. apply zslice_split0. vm_compute; split; discriminate.
  - apply Forall_zslice. apply hyps2_inhabited.
Qed.
