(** XXH64: the model refines the specification. *)
From Verif Require Import Base Mem M_XXH32 M_XXH64 Spec32 Spec64 P_Base P_Spec P_XXH32.

Lemma round64_eq acc w : XXH64_round acc w = X64.round acc w.
Proof.
  unfold XXH64_round, X64.round, mul64 at 1, add64, mul64. rewrite rotl64_rol; [|lia|apply u64_range].
  rewrite u64_add_r. reflexivity.
Qed.
Lemma init64_eq seed : toL (XXH64_init seed) = X64.init seed.
Proof.
  unfold XXH64_init, X64.init, toL, add64, sub64. rewrite u64_add_l, Z.add_0_r.
  reflexivity.
Qed.
Lemma avalanche64_eq h : XXH64_avalanche h = X64.avalanche h.
Proof. unfold XXH64_avalanche, X64.avalanche. rewrite !xorshift_eq by lia. reflexivity. Qed.

Definition lanes64_ok (l : list Z) : Prop := zlen l = 4 /\ Forall w64 l.
Lemma lanes64_ok_init seed : lanes64_ok (X64.init seed).
Proof. split; [reflexivity|]. repeat constructor; apply u64_range. Qed.
Lemma round64_w acc w : w64 (X64.round acc w).
Proof. apply u64_range. Qed.
Lemma stripe64_unfold a b c d s :
  X64.stripe [a; b; c; d] s =
  [X64.round a (le_val (zslice s 0 8)); X64.round b (le_val (zslice s 8 8));
   X64.round c (le_val (zslice s 16 8)); X64.round d (le_val (zslice s 24 8))].
Proof. unfold X64.stripe. change (upto 4) with [0; 1; 2; 3]. cbn [combine map fst snd]. rewrite !LE_le_val. reflexivity. Qed.
Lemma lanes64_ok_stripe a s : lanes64_ok a -> lanes64_ok (X64.stripe a s).
Proof.
  intros [L F]. destruct (list4 a L) as (x & y & z & t & ->). rewrite stripe64_unfold.
  split; [reflexivity|]. repeat constructor; apply u64_range.
Qed.
Lemma lanes64_ok_stripes m a : lanes64_ok a -> lanes64_ok (X64.stripes m a).
Proof. intros; unfold X64.stripes; apply (fold_upto_inv lanes64_ok); [assumption|]. intros; apply lanes64_ok_stripe; assumption. Qed.
Lemma toL_ofL l : lanes64_ok l -> toL (ofL l) = l.
Proof. intros [L _]. destruct (list4 l L) as (x & y & z & t & ->). reflexivity. Qed.

Lemma mergeRound64_eq a v : XXH64_mergeRound a v = X64.mergeAccumulator a v.
Proof.
  unfold XXH64_mergeRound, X64.mergeAccumulator, add64, mul64. rewrite u64_add_l, round64_eq. reflexivity.
Qed.
Lemma merge64_eq l : lanes64_ok l -> XXH64_merge (ofL l) = X64.converge l.
Proof.
  intros [L F]. destruct (list4 l L) as (x & y & z & t & ->).
  repeat match goal with H : Forall _ (_ :: _) |- _ => inv H end.
  cbn [ofL X64.converge fold_left]. unfold XXH64_merge. rewrite !mergeRound64_eq. unfold add64.
  rewrite !rotl64_rol by (assumption || lia).
  rewrite u64_add_l, <- (Z.add_assoc _ (rol 64 z 12)), u64_add_l, Z.add_assoc.
  reflexivity.
Qed.

(** ** stripes *)
Lemma stripes64_app s1 s2 a : zlen s1 mod 32 = 0 ->
  X64.stripes (s1 ++ s2) a = X64.stripes s2 (X64.stripes s1 a).
Proof.
  intros H. unfold X64.stripes. change len with (@zlen Z); rewrite zlen_app. zlen_pose.
  replace ((zlen s1 + zlen s2) / 32) with (zlen s1 / 32 + zlen s2 / 32) by dlia.
  rewrite fold_upto_add by (apply Z.div_pos; lia).
  rewrite (fold_upto_ext _ (fun a i => X64.stripe a (seg s1 (32 * i) (32 * i + 32))) a (zlen s1 / 32)).
  - apply fold_upto_ext. intros i a' Hi. rewrite !seg_zslice. f_equal.
    assert (32 * (i + 1) <= zlen s2) by dlia. assert (E : zlen s1 = 32 * (zlen s1 / 32)) by dlia.
    rewrite zslice_app_r by lia. f_equal; lia.
  - intros i a' Hi. rewrite !seg_zslice. f_equal.
    assert (32 * (i + 1) <= zlen s1) by dlia. apply zslice_app_l; lia.
Qed.
Lemma stripes64_short s a : zlen s < 32 -> X64.stripes s a = a.
Proof.
  intros. unfold X64.stripes. change len with (@zlen Z); rewrite upto_0; [reflexivity|]. zlen_pose. dlia.
Qed.
Lemma stripes64_one s a : zlen s = 32 -> X64.stripes s a = X64.stripe a s.
Proof.
  intros H. unfold X64.stripes. change len with (@zlen Z); rewrite H. change (upto (32 / 32)) with [0].
  cbn [fold_left]. rewrite seg_zslice. change (32 * 0 + 32 - 32 * 0) with 32. rewrite zslice_all by lia. reflexivity.
Qed.
Lemma stripes64_trunc m a : X64.stripes (zslice m 0 (32 * (zlen m / 32))) a = X64.stripes m a.
Proof.
  zlen_pose. set (k := 32 * (zlen m / 32)). assert (0 <= k <= zlen m) by (subst k; dlia).
  rewrite (zslice_split0 m k) at 2 by lia. rewrite stripes64_app by (rewrite zlen_zslice by lia; subst k; dlia).
  symmetry; apply stripes64_short. rewrite zlen_zslice by lia. subst k; dlia.
Qed.

Lemma stripe64_ok rd p m k v :
  0 <= k -> k + 32 <= zlen m ->
  (forall i, 0 <= i < 4 -> rd (padd p (k + 8 * i)) = OK (le_val (zslice m (k + 8 * i) 8))) ->
  XXH64_stripe rd (v, padd p k) = OK (ofL (X64.stripe (toL v) (zslice m k 32)), padd p (k + 32)).
Proof.
  intros Hk H Hrd. destruct v as [[[a b] c] d]. unfold XXH64_stripe, toL. rewrite stripe64_unfold.
  cbn [ofL]. rewrite !padd_padd, !zslice_zslice by lia.
  pose proof (Hrd 0 ltac:(lia)) as H0. pose proof (Hrd 1 ltac:(lia)) as H1.
  pose proof (Hrd 2 ltac:(lia)) as H2. pose proof (Hrd 3 ltac:(lia)) as H3.
  replace (k + 8 * 0) with k in H0 by lia. replace (k + 0) with k by lia.
  replace (k + 8 * 1) with (k + 8) in H1 by lia. replace (k + 8 * 2) with (k + 8 + 8) in H2 by lia.
  replace (k + 8 * 3) with (k + 8 + 8 + 8) in H3 by lia.
  rewrite H0; cbn [bind]. rewrite H1; cbn [bind]. rewrite H2; cbn [bind]. rewrite H3; cbn [bind].
  rewrite !round64_eq. replace (k + 16) with (k + 8 + 8) by lia. replace (k + 24) with (k + 8 + 8 + 8) by lia.
  replace (k + 8 + 8 + 8 + 8) with (k + 32) by lia. reflexivity.
Qed.

(** the stripe loop, from offset [k] of the bytes [d] at [p], [n] turns *)
Lemma stripe_loop64 rd p d k n l cond fuel :
  lanes64_ok l -> 0 <= k -> (1 <= n)%nat -> k + 32 * Z.of_nat n <= zlen d -> (n <= fuel + 1)%nat ->
  (forall i, 0 <= i < 4 * Z.of_nat n ->
     rd (padd p (k + 8 * i)) = OK (le_val (zslice d (k + 8 * i) 8))) ->
  (forall v i, (1 <= i < n)%nat -> cond (v, padd p (k + 32 * Z.of_nat i)) = true) ->
  (forall v, cond (v, padd p (k + 32 * Z.of_nat n)) = false) ->
  do_while fuel (XXH64_stripe rd) cond (ofL l, padd p k) =
  OK (ofL (X64.stripes (zslice d k (32 * Z.of_nat n)) l), padd p (k + 32 * Z.of_nat n)).
Proof.
  intros Hl Hk H1 H Hf Hrd Hc Hn. zlen_pose.
  apply (do_while_count cond (XXH64_stripe rd)
    (fun i => (ofL (X64.stripes (zslice d k (32 * Z.of_nat i)) l), padd p (k + 32 * Z.of_nat i))) n); trivial.
  - change (32 * Z.of_nat 0) with 0. rewrite zslice_0, Z.add_0_r. reflexivity.
  - intros i Hi. rewrite (stripe64_ok rd p d); [|lia|lia|].
    + rewrite toL_ofL by (apply lanes64_ok_stripes; assumption).
      replace (32 * Z.of_nat (S i)) with (32 * Z.of_nat i + 32) by lia.
      rewrite (zslice_split d k (32 * Z.of_nat i + 32) (32 * Z.of_nat i)) by lia.
      rewrite stripes64_app by (rewrite zlen_zslice by lia; dlia).
      replace (32 * Z.of_nat i + 32 - 32 * Z.of_nat i) with 32 by lia.
      rewrite (stripes64_one (zslice d (k + 32 * Z.of_nat i) 32)) by (apply zlen_zslice; lia).
      do 2 f_equal. f_equal; lia.
    + intros j Hj. replace (k + 32 * Z.of_nat i + 8 * j) with (k + 8 * (4 * Z.of_nat i + j)) by lia.
      apply Hrd. lia.
  - intros i Hi; apply Hc; lia.
Qed.

(** ** finalize *)
Definition T8 (r : list Z) (n : Z) (h : Z) : Z :=
  fold_left (fun a i => X64.lane8 a (seg r (8 * i) (8 * i + 8))) (upto n) h.
Definition T1_64 (r : list Z) (o n : Z) (h : Z) : Z := fold_left X64.lane1 (zslice r o n) h.
Lemma T8_S r n h : 0 <= n -> T8 r (n + 1) h = X64.lane8 (T8 r n h) (zslice r (8 * n) 8).
Proof. intros; unfold T8. rewrite fold_upto_S, seg_zslice by lia. f_equal. f_equal. lia. Qed.
Lemma T1_64_S r o n h : 0 <= o -> 0 <= n -> o + n < zlen r ->
  T1_64 r o (n + 1) h = X64.lane1 (T1_64 r o n h) (byte_at r (o + n)).
Proof. intros; unfold T1_64. rewrite zslice_snoc, fold_left_app by lia. reflexivity. Qed.
Lemma T8_w r n h : w64 h -> w64 (T8 r n h).
Proof. intros; unfold T8. apply (fold_upto_inv w64); [assumption|]. intros; apply u64_range. Qed.
Lemma T1_64_w r o n h : w64 h -> w64 (T1_64 r o n h).
Proof.
  intros; unfold T1_64. revert h H; induction (zslice r o n) as [|b l IH]; intros h H; [exact H|].
  cbn [fold_left]. apply IH, u64_range.
Qed.
Definition T4_64 (r : list Z) (L h : Z) : Z :=
  if 4 <=? L mod 8 then X64.lane4 h (zslice r (8 * (L / 8)) 4) else h.
Lemma T_tail64 r L h : 0 <= L <= zlen r ->
  X64.tail h (zslice r 0 L) = T1_64 r (4 * (L / 4)) (L mod 4) (T4_64 r L (T8 r (L / 8) h)).
Proof.
  intros H. unfold X64.tail, T1_64, T4_64, T8. change len with (@zlen Z).
  rewrite !seg_zslice, !(zlen_zslice r 0 L) by lia.
  rewrite zslice_zslice by dlia. rewrite !zlen_zslice by dlia.
  replace (L - 8 * (L / 8)) with (L mod 8) by dlia.
  rewrite (fold_upto_ext _ (fun a i => X64.lane8 a (seg r (8 * i) (8 * i + 8)))).
  2:{ intros i a Hi. rewrite !seg_zslice. f_equal. rewrite zslice_zslice by dlia. f_equal; lia. }
  destruct (Z.leb_spec 4 (L mod 8)) as [H4|H4].
  - rewrite !zslice_zslice by dlia. f_equal; [f_equal; dlia|]. f_equal; f_equal; dlia.
  - f_equal. f_equal; dlia.
Qed.

Lemma finalize64_ok c h p r L al : cfg_ok c -> points_to p r -> bytes_ok r -> al_ok p al 8 -> w64 h ->
  0 <= L -> L mod 32 <= zlen r -> (p = Null -> L = 0) ->
  XXH64_finalize c h p L al = OK (X64.avalanche (X64.tail h (zslice r 0 (L mod 32)))).
Proof.
  intros C P B A Hh HL H HN. unfold XXH64_finalize.
  replace (negb (is_null p) || (L =? 0)) with true.
  2:{ destruct p; cbn; [rewrite HN by reflexivity|]; reflexivity. }
  cbn [assert_ bind]. rewrite land31 by lia.
  assert (HR : 0 <= L mod 32 < 32) by (apply Z.mod_pos_bound; lia).
  assert (HN' : 0 < L mod 32 -> p <> Null).
  { intros Q ->. rewrite HN in Q by reflexivity. vm_compute in Q. discriminate. }
  clear HN HL. set (R := L mod 32) in *. clearbody R. clear L.
  rewrite T_tail64 by lia. zlen_pose.
  rewrite (while_count (fun s => let '(_, _, len) := s in 8 <=? len) _
      (fun i => (T8 r (Z.of_nat i) h, padd p (8 * Z.of_nat i), R - 8 * Z.of_nat i)) (Z.to_nat (R / 8))).
  2:{ change (8 * Z.of_nat 0) with 0. rewrite padd_0, Z.sub_0_r. reflexivity. }
  2:{ dlia. }
  2:{ intros i Hi. split; [dlia|].
      rewrite (readLE64_align_ok c p r) by (trivial; try dlia; apply (al_ok_padd p al 8); trivial; try apply HN'; dlia).
      cbn [bind]. rewrite padd_padd. replace (Z.of_nat (S i)) with (Z.of_nat i + 1) by lia.
      rewrite T8_S by lia. f_equal. f_equal; [f_equal|lia]; [|f_equal; lia].
      unfold X64.lane8, add64, mul64. rewrite <- LE_le_val, round64_eq.
      rewrite rotl64_rol; [|lia|]. { rewrite u64_add_l. reflexivity. }
      apply xor_w64; [apply T8_w, Hh|]. apply round64_w. }
  2:{ dlia. }
  rewrite Z2Nat.id by (apply Z.div_pos; lia). cbn [bind].
  replace (R - 8 * (R / 8)) with (R mod 8) by dlia.
  assert (STEP : (if 4 <=? R mod 8
     then let! w := readLE32_align c (padd p (8 * (R / 8))) al in
          OK (add64 (mul64 (rotl64 (xor (T8 r (R / 8) h) (mul64 w PRIME64_1)) 23) PRIME64_2) PRIME64_3,
              padd (padd p (8 * (R / 8))) 4, R mod 8 - 4)
     else OK (T8 r (R / 8) h, padd p (8 * (R / 8)), R mod 8)) =
     OK (T4_64 r R (T8 r (R / 8) h), padd p (4 * (R / 4)), R mod 4)).
  { unfold T4_64. destruct (Z.leb_spec 4 (R mod 8)) as [H4|H4].
    - assert (N : p <> Null) by (apply HN'; dlia).
      rewrite (readLE32_align_ok c p r) by (trivial; try dlia; intros E; specialize (A E);
         rewrite paddr_padd by assumption; dlia).
      cbn [bind]. rewrite padd_padd. f_equal. f_equal; [f_equal|dlia]; [|f_equal; dlia].
      unfold X64.lane4, add64, mul64. rewrite <- LE_le_val. rewrite rotl64_rol; [|lia|].
      { rewrite u64_add_l. reflexivity. }
      apply xor_w64; [apply T8_w, Hh|apply u64_range].
    - f_equal. f_equal; [f_equal|dlia]. f_equal; dlia. }
  rewrite STEP; clear STEP. cbn [bind].
  assert (HT : w64 (T4_64 r R (T8 r (R / 8) h))).
  { unfold T4_64. destruct (4 <=? R mod 8); [apply u64_range|apply T8_w, Hh]. }
  set (h' := T4_64 r R (T8 r (R / 8) h)) in *. clearbody h'.
  rewrite (while_count (fun s => let '(_, _, len) := s in 0 <? len) _
      (fun i => (T1_64 r (4 * (R / 4)) (Z.of_nat i) h', padd p (4 * (R / 4) + Z.of_nat i), R mod 4 - Z.of_nat i))
      (Z.to_nat (R mod 4))).
  - cbn [bind]. rewrite Z2Nat.id by dlia. rewrite avalanche64_eq. reflexivity.
  - change (Z.of_nat 0) with 0. rewrite Z.add_0_r, Z.sub_0_r. reflexivity.
  - dlia.
  - intros i Hi. split; [dlia|].
    rewrite (load8_at p r) by (trivial; try apply HN'; dlia). cbn [bind]. rewrite padd_padd.
    replace (Z.of_nat (S i)) with (Z.of_nat i + 1) by lia. rewrite T1_64_S by dlia.
    f_equal. f_equal; [f_equal|lia]; [|f_equal; lia].
    unfold X64.lane1, mul64 at 1. rewrite rotl64_rol; [reflexivity|lia|].
    apply xor_w64; [apply T1_64_w, HT|apply u64_range].
  - dlia.
Qed.

(** ** one shot *)
Lemma hash64_unfold m seed :
  X64.hash m seed =
  X64.avalanche (X64.tail
    (((if zlen m <? 32 then (seed + X64.P5) mod X64.W else X64.converge (X64.stripes m (X64.init seed)))
      + zlen m) mod X64.W)
    (zslice m (32 * (zlen m / 32)) (zlen m mod 32))).
Proof.
  unfold X64.hash. change len with (@zlen Z). rewrite seg_zslice.
  replace (zlen m - zlen m / 32 * 32) with (zlen m mod 32) by (zlen_pose; dlia).
  rewrite (Z.mul_comm _ 32). reflexivity.
Qed.

Lemma endian_align64_ok c p m seed al : cfg_ok c -> points_to p m -> bytes_ok m -> al_ok p al 8 ->
  XXH64_endian_align c p (zlen m) seed al = OK (X64.hash m seed).
Proof.
  intros C P B A. unfold XXH64_endian_align. zlen_pose.
  replace (negb (is_null p) || (zlen m =? 0)) with true.
  2:{ destruct p; cbn in *; [subst m|]; reflexivity. }
  cbn [assert_ bind]. rewrite hash64_unfold.
  assert (HM : 0 <= zlen m mod 32 < 32) by (apply Z.mod_pos_bound; lia).
  destruct (Z.leb_spec 32 (zlen m)) as [H|H].
  - assert (N : p <> Null) by (eapply points_to_nonnull; [exact P|lia]).
    destruct (Z.ltb_spec (zlen m) 32); [lia|].
    set (n := Z.to_nat (zlen m / 32)).
    assert (Hn : Z.of_nat n = zlen m / 32) by (subst n; rewrite Z2Nat.id by (apply Z.div_pos; lia); reflexivity).
    pose proof (stripe_loop64 (fun p => readLE64_align c p al) p m 0 n (X64.init seed)
      (fun s => pltb (snd s) (padd (padd p (zlen m)) (-31))) (Z.to_nat (zlen m))) as LOOP.
    rewrite <- init64_eq, ofL_toL, padd_0, init64_eq in LOOP.
    rewrite LOOP; clear LOOP.
    + cbn [bind]. rewrite merge64_eq by (apply lanes64_ok_stripes, lanes64_ok_init).
      rewrite Hn, stripes64_trunc, Z.add_0_l. unfold add64. rewrite u64_add_r.
      rewrite (finalize64_ok c _ _ (zslice m (32 * (zlen m / 32)) (zlen m mod 32))); trivial.
      * rewrite zslice_all; [reflexivity|]. symmetry; apply zlen_zslice; dlia.
      * apply points_to_sub; trivial; dlia.
      * apply bytes_ok_zslice, B.
      * apply al_ok_padd; trivial; try lia; try dlia.
      * apply u64_range.
      * rewrite zlen_zslice by dlia. lia.
      * intros E; exfalso; revert E; apply padd_nonnull; assumption.
    + apply lanes64_ok_init.
    + lia.
    + subst n. dlia.
    + dlia.
    + dlia.
    + intros i Hi. apply readLE64_align_ok; trivial; try dlia.
      apply (al_ok_padd p al 8); trivial; dlia.
    + intros v i Hi. cbn [snd]. unfold pltb. rewrite !poff_padd by (try apply padd_nonnull; assumption). dlia.
    + intros v. cbn [snd]. unfold pltb. rewrite !poff_padd by (try apply padd_nonnull; assumption). dlia.
  - destruct (Z.ltb_spec (zlen m) 32); [|lia]. cbn [bind].
    rewrite (finalize64_ok c _ _ m); trivial; try lia.
    + rewrite (Z.mod_small (zlen m)) by lia. rewrite zslice_all by reflexivity.
      rewrite (Z.div_small (zlen m)) by lia. rewrite zslice_all by reflexivity.
      unfold add64. rewrite u64_add_r. reflexivity.
    + apply u64_range.
    + intros ->. cbn in P. subst m. reflexivity.
Qed.

(** ** streaming *)
Record rep64 (seed : Z) (m : list Z) (st : state64) : Prop := Rep64 {
  r64_total : s64_total_len st = zlen m mod 2 ^ 64;
  r64_v     : s64_v st = ofL (X64.stripes m (X64.init seed));
  r64_size  : s64_memsize st = zlen m mod 32;
  r64_len   : zlen (s64_mem st) = 32;
  r64_mem   : zslice (s64_mem st) 0 (zlen m mod 32) = zslice m (32 * (zlen m / 32)) (zlen m mod 32);
  r64_ok    : bytes_ok (s64_mem st);
  r64_msg   : bytes_ok m
}.

Lemma reset64_rep seed : rep64 seed [] (XXH64_reset seed).
Proof.
  constructor; cbn [XXH64_reset s64_total_len s64_v s64_mem s64_memsize]; try reflexivity.
  - rewrite stripes64_short by (cbn; lia). rewrite <- init64_eq, ofL_toL. reflexivity.
  - repeat constructor; lia.
  - constructor.
Qed.

Lemma update64_ok' c seed m st p d : cfg_ok c -> rep64 seed m st -> points_to p d -> bytes_ok d ->
  zlen m mod 32 + zlen d < 2 ^ szbits c ->
  exists st', XXH64_update c st p (zlen d) = OK (XXH_OK, st') /\ rep64 seed (m ++ d) st'.
Proof.
  intros C R P B SZ. unfold XXH64_update. zlen_pose. pose proof (zlen_nonneg m) as ZM.
  assert (HM : 0 <= zlen m mod 32 < 32) by (apply Z.mod_pos_bound; lia).
  destruct (is_null p) eqn:EN.
  { rewrite (points_to_null p d P EN). rewrite app_nil_r. cbn. eexists; split; [reflexivity|exact R]. }
  assert (N : p <> Null) by (intros ->; discriminate).
  destruct R as [Rt Rv Rs RL Rm Rk Rb]. rewrite Rs.
  assert (USZ : usz c (zlen m mod 32 + zlen d) = zlen m mod 32 + zlen d).
  { unfold usz; apply Z.mod_small; lia. }
  rewrite USZ; clear USZ.
  assert (HT : add64 (s64_total_len st) (zlen d) = zlen (m ++ d) mod 2 ^ 64).
  { unfold add64. rewrite Rt, zlen_app. apply Zplus_mod_idemp_l. }
  rewrite HT.
  set (h := zlen m mod 32) in *. set (q := zlen m / 32) in *.
  assert (Eq : zlen m = 32 * q + h) by (subst h q; dlia). assert (Hq : 0 <= q) by lia.
  destruct (Z.ltb_spec (h + zlen d) 32) as [H|H].
  - (* everything fits in the buffer *)
    rewrite (load_at0 p d) by (trivial; lia). rewrite zslice_all by reflexivity. cbn [bind].
    rewrite store_ok by lia. cbn [bind].
    eexists; split; [reflexivity|].
    assert (Q' : zlen (m ++ d) / 32 = q) by (rewrite zlen_app; dlia).
    assert (H' : zlen (m ++ d) mod 32 = h + zlen d) by (rewrite zlen_app; dlia).
    constructor; cbn [s64_total_len s64_v s64_mem s64_memsize]; rewrite ?Q', ?H'.
    + reflexivity.
    + rewrite Rv. f_equal. rewrite <- (stripes64_trunc (m ++ d)), Q', <- (stripes64_trunc m). fold q.
      f_equal. rewrite zslice_app_l by lia. reflexivity.
    + unfold u32. rewrite (Z.mod_small (zlen d)) by lia. apply Z.mod_small; lia.
    + llia.
    + transitivity (zslice (s64_mem st) 0 h ++ d); [list_eq|]. rewrite Rm. list_eq.
    + repeat apply bytes_ok_app; trivial; apply bytes_ok_zslice; assumption.
    + apply bytes_ok_app; assumption.
  - (* the buffer is completed, then whole stripes, then the rest *)
    set (fill := if h =? 0 then 0 else 32 - h).
    assert (STEP1 : exists mem1,
      (if negb (h =? 0)
       then let! data := load p (32 - h) in
            let! mem := store (s64_mem st) h data in
            let! (v, _) := XXH64_stripe (readLE64 c) (s64_v st, buf_ptr mem) in
            OK (v, mem, 0, padd p (32 - h))
       else OK (s64_v st, s64_mem st, h, p)) =
      OK (ofL (X64.stripes (m ++ zslice d 0 fill) (X64.init seed)), mem1, 0, padd p fill)
      /\ zlen mem1 = 32 /\ bytes_ok mem1).
    { subst fill. destruct (Z.eqb_spec h 0) as [E|E]; cbn [negb].
      - exists (s64_mem st). rewrite zslice_0, app_nil_r, padd_0, <- Rv, E. auto.
      - rewrite (load_at0 p d) by (trivial; lia). cbn [bind].
        rewrite store_ok by llia. cbn [bind]. rewrite (zlen_zslice d 0) by lia.
        set (mem1 := zslice (s64_mem st) 0 h ++ zslice d 0 (32 - h) ++ _).
        assert (L1 : zlen mem1 = 32) by (subst mem1; llia).
        assert (B1 : bytes_ok mem1).
        { subst mem1. repeat apply bytes_ok_app; apply bytes_ok_zslice; assumption. }
        assert (M1 : mem1 = zslice m (32 * q) h ++ zslice d 0 (32 - h)).
        { subst mem1. rewrite <- Rm. list_eq. }
        change (buf_ptr mem1) with (padd (buf_ptr mem1) 0).
        rewrite (stripe64_ok _ _ mem1) by (trivial; try lia;
          intros i Hi; apply readLE64_ok; trivial; try lia; apply points_to_buf).
        cbn [bind]. exists mem1. split; [|auto]. do 4 f_equal.
        rewrite Rv, toL_ofL by (apply lanes64_ok_stripes, lanes64_ok_init).
        rewrite zslice_all by lia. rewrite <- stripes64_one by lia.
        rewrite <- (stripes64_trunc m). fold q.
        rewrite <- stripes64_app by (rewrite zlen_zslice by lia; dlia). f_equal.
        rewrite M1, app_assoc. f_equal. list_eq. }
    destruct STEP1 as (mem1 & -> & L1 & B1). cbn [bind].
    assert (HF : 0 <= fill <= zlen d /\ fill < 32 /\ (h + fill) mod 32 = 0).
    { subst fill. destruct (Z.eqb_spec h 0) as [E|E]; [rewrite E|]; dlia. }
    destruct HF as (HF & HF16 & HFm).
    set (n := (zlen d - fill) / 32).
    assert (Hn : 0 <= n) by (subst n; apply Z.div_pos; lia).
    assert (HE : fill + 32 * n <= zlen d < fill + 32 * n + 32) by (subst n; dlia).
    assert (STEP2 :
      (if pleb (padd (padd p fill) 32) (padd p (zlen d))
       then do_while (Z.to_nat (zlen d)) (XXH64_stripe (readLE64 c))
              (fun s => pleb (snd s) (padd (padd p (zlen d)) (-32)))
              (ofL (X64.stripes (m ++ zslice d 0 fill) (X64.init seed)), padd p fill)
       else OK (ofL (X64.stripes (m ++ zslice d 0 fill) (X64.init seed)), padd p fill)) =
      OK (ofL (X64.stripes (m ++ d) (X64.init seed)), padd p (fill + 32 * n))).
    { assert (EQ : X64.stripes (m ++ d) (X64.init seed) =
                   X64.stripes (zslice d fill (32 * n)) (X64.stripes (m ++ zslice d 0 fill) (X64.init seed))).
      { rewrite <- stripes64_app by (rewrite zlen_app, zlen_zslice by lia; dlia).
        rewrite <- (stripes64_trunc (m ++ d)). f_equal. rewrite zlen_app.
        replace (32 * ((zlen m + zlen d) / 32)) with (zlen m + fill + 32 * n) by dlia.
        list_eq. }
      unfold pleb at 1. rewrite !poff_padd by (try apply padd_nonnull; assumption).
      destruct (Z.leb_spec (poff p + fill + 32) (poff p + zlen d)).
      - rewrite (stripe_loop64 _ p d fill (Z.to_nat n)); trivial.
        + rewrite Z2Nat.id by lia. rewrite <- EQ. reflexivity.
        + apply lanes64_ok_stripes, lanes64_ok_init.
        + lia.
        + subst n. dlia.
        + lia.
        + lia.
        + intros i Hi. apply readLE64_ok; trivial; lia.
        + intros v i Hi. cbn [snd]. unfold pleb. rewrite !poff_padd by (try apply padd_nonnull; assumption). lia.
        + intros v. cbn [snd]. unfold pleb. rewrite !poff_padd by (try apply padd_nonnull; assumption). lia.
      - assert (n = 0) by lia. rewrite EQ. replace (32 * n) with 0 by lia. rewrite zslice_0, Z.add_0_r.
        rewrite (stripes64_short []) by (cbn; lia). reflexivity. }
    rewrite STEP2; clear STEP2. cbn [bind].
    assert (H' : zlen (m ++ d) mod 32 = zlen d - fill - 32 * n) by (rewrite zlen_app; dlia).
    assert (Q' : 32 * (zlen (m ++ d) / 32) = zlen m + (fill + 32 * n)) by (rewrite zlen_app; dlia).
    unfold pltb. rewrite !poff_padd by (try apply padd_nonnull; assumption).
    destruct (Z.ltb_spec (poff p + (fill + 32 * n)) (poff p + zlen d)) as [HR|HR].
    + replace (poff p + zlen d - (poff p + (fill + 32 * n))) with (zlen d - fill - 32 * n) by lia.
      rewrite (load_at p d) by (trivial; lia). cbn [bind]. rewrite store_ok by llia. cbn [bind].
      eexists; split; [reflexivity|].
      constructor; cbn [s64_total_len s64_v s64_mem s64_memsize]; rewrite ?Q', ?H'; trivial.
      * unfold u32. apply Z.mod_small; lia.
      * llia.
      * list_eq.
      * repeat apply bytes_ok_app; apply bytes_ok_zslice; assumption.
      * apply bytes_ok_app; assumption.
    + cbn [bind]. eexists; split; [reflexivity|].
      constructor; cbn [s64_total_len s64_v s64_mem s64_memsize]; rewrite ?Q', ?H'; trivial.
      * lia.
      * replace (zlen d - fill - 32 * n) with 0 by lia. rewrite !zslice_0. reflexivity.
      * apply bytes_ok_app; assumption.
Qed.
Lemma update64_ok c seed m st p d : cfg_ok c -> rep64 seed m st -> points_to p d -> bytes_ok d ->
  zlen d + 32 <= 2 ^ szbits c ->
  exists st', XXH64_update c st p (zlen d) = OK (XXH_OK, st') /\ rep64 seed (m ++ d) st'.
Proof.
  intros C R P B SZ. apply update64_ok'; trivial. assert (HM : 0 <= zlen m mod 32 < 32) by (apply Z.mod_pos_bound; lia). lia.
Qed.

Lemma digest64_ok c seed m st : cfg_ok c -> rep64 seed m st -> zlen m < 2 ^ 64 ->
  XXH64_digest c st = OK (X64.hash m seed).
Proof.
  intros C [Rt Rv Rs RL Rm Rk Rb] SZ. unfold XXH64_digest. rewrite Rv. zlen_pose.
  assert (HM : 0 <= zlen m mod 32 < 32) by (apply Z.mod_pos_bound; lia).
  pose proof (lanes64_ok_stripes m _ (lanes64_ok_init seed)) as LO.
  rewrite (Z.mod_small (zlen m)) in Rt by lia.
  assert (HU : usz c (s64_total_len st) mod 32 = zlen m mod 32).
  { rewrite Rt. unfold usz. destruct C as [[-> | ->] _ _]; dlia. }
  destruct (ofL (X64.stripes m (X64.init seed))) as [[[v1 v2] v3] v4] eqn:EV.
  rewrite (finalize64_ok c _ _ (s64_mem st)); trivial.
  - f_equal. rewrite hash64_unfold, HU, Rm, Rt.
    f_equal. f_equal. unfold add64.
    destruct (Z.leb_spec 32 (zlen m)) as [H|H].
    + destruct (Z.ltb_spec (zlen m) 32); [lia|]. rewrite <- EV, merge64_eq by assumption. reflexivity.
    + destruct (Z.ltb_spec (zlen m) 32); [|lia].
      rewrite stripes64_short in EV by lia. cbn [ofL X64.init] in EV. inv EV.
      change (seed mod X64.W) with (u64 seed). rewrite (u64_add_l seed). reflexivity.
  - apply points_to_buf.
  - intros _. reflexivity.
  - apply u64_range.
  - unfold usz. apply Z.mod_pos_bound. apply Z.pow_pos_nonneg; [lia|]. destruct C as [[-> | ->] _ _]; lia.
  - rewrite HU. lia.
  - discriminate.
Qed.

Theorem XXH64_spec c p m seed : cfg_ok c -> points_to p m -> bytes_ok m -> zlen m < 2 ^ szbits c ->
  XXH64 c p (zlen m) seed = OK (X64.hash m seed).
Proof.
  intros C P B SZ. unfold XXH64.
  destruct (2 <=? size_opt c).
  - destruct (update64_ok' c seed [] (XXH64_reset seed) p m C (reset64_rep seed) P B SZ) as (st' & -> & R).
    cbn [bind]. apply digest64_ok; try assumption. cbn [app].
    destruct C as [[E | E] _ _]; rewrite E in SZ; lia.
  - destruct (align_check c && (Z.land (paddr p) 7 =? 0)) eqn:E; apply endian_align64_ok; trivial.
    + intros _. rewrite land7 in E. lia.
    + intros; discriminate.
Qed.
