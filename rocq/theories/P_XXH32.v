(** XXH32: the model refines the specification. *)
From Verif Require Import Base Mem M_XXH32 Spec32 P_Base P_Spec.

Definition toL (v : lanes4) : list Z := let '(a, b, c, d) := v in [a; b; c; d].
Definition ofL (l : list Z) : lanes4 := match l with [a; b; c; d] => (a, b, c, d) | _ => (0, 0, 0, 0) end.
Lemma ofL_toL v : ofL (toL v) = v.
Proof. destruct v as [[[a b] c] d]; reflexivity. Qed.

Lemma round32_eq acc w : XXH32_round acc w = X32.round acc w.
Proof.
  unfold XXH32_round, X32.round, mul32 at 1, add32, mul32. rewrite rotl32_rol; [|lia|apply u32_range].
  rewrite u32_add_r. reflexivity.
Qed.
Lemma init32_eq seed : toL (XXH32_init seed) = X32.init seed.
Proof.
  unfold XXH32_init, X32.init, toL, add32, sub32. rewrite u32_add_l, Z.add_0_r.
  reflexivity.
Qed.
Lemma avalanche32_eq h : XXH32_avalanche h = X32.avalanche h.
Proof. unfold XXH32_avalanche, X32.avalanche. rewrite !xorshift_eq by lia. reflexivity. Qed.

Definition lanes_ok (l : list Z) : Prop := zlen l = 4 /\ Forall w32 l.
Lemma lanes_ok_init seed : lanes_ok (X32.init seed).
Proof. split; [reflexivity|]. repeat constructor; apply u32_range. Qed.
Lemma round32_w acc w : w32 (X32.round acc w).
Proof. apply u32_range. Qed.
Lemma stripe32_unfold a b c d s :
  X32.stripe [a; b; c; d] s =
  [X32.round a (le_val (zslice s 0 4)); X32.round b (le_val (zslice s 4 4));
   X32.round c (le_val (zslice s 8 4)); X32.round d (le_val (zslice s 12 4))].
Proof. unfold X32.stripe. change (upto 4) with [0; 1; 2; 3]. cbn [combine map fst snd]. rewrite !LE_le_val. reflexivity. Qed.
Lemma lanes_ok_stripe a s : lanes_ok a -> lanes_ok (X32.stripe a s).
Proof.
  intros [L F]. destruct (list4 a L) as (x & y & z & t & ->). rewrite stripe32_unfold.
  split; [reflexivity|]. repeat constructor; apply u32_range.
Qed.
Lemma lanes_ok_stripes m a : lanes_ok a -> lanes_ok (X32.stripes m a).
Proof. intros; unfold X32.stripes; apply (fold_upto_inv lanes_ok); [assumption|]. intros; apply lanes_ok_stripe; assumption. Qed.
Lemma toL_ofL l : lanes_ok l -> toL (ofL l) = l.
Proof. intros [L _]. destruct (list4 l L) as (x & y & z & t & ->). reflexivity. Qed.

Lemma merge32_eq l : lanes_ok l -> XXH32_merge (ofL l) = X32.converge l.
Proof.
  intros [L F]. destruct (list4 l L) as (x & y & z & t & ->).
  repeat match goal with H : Forall _ (_ :: _) |- _ => inv H end.
  cbn [ofL X32.converge]. unfold XXH32_merge, add32. rewrite !rotl32_rol by (assumption || lia).
  rewrite u32_add_l, <- (Z.add_assoc _ (rol 32 z 12)), u32_add_l, Z.add_assoc.
  reflexivity.
Qed.

(** ** stripes *)
Lemma stripes32_app s1 s2 a : zlen s1 mod 16 = 0 ->
  X32.stripes (s1 ++ s2) a = X32.stripes s2 (X32.stripes s1 a).
Proof.
  intros H. unfold X32.stripes. change len with (@zlen Z); rewrite zlen_app. zlen_pose.
  replace ((zlen s1 + zlen s2) / 16) with (zlen s1 / 16 + zlen s2 / 16) by dlia.
  rewrite fold_upto_add by (apply Z.div_pos; lia).
  rewrite (fold_upto_ext _ (fun a i => X32.stripe a (seg s1 (16 * i) (16 * i + 16))) a (zlen s1 / 16)).
  - apply fold_upto_ext. intros i a' Hi. rewrite !seg_zslice. f_equal.
    assert (16 * (i + 1) <= zlen s2) by dlia. assert (E : zlen s1 = 16 * (zlen s1 / 16)) by dlia.
    rewrite zslice_app_r by lia. f_equal; lia.
  - intros i a' Hi. rewrite !seg_zslice. f_equal.
    assert (16 * (i + 1) <= zlen s1) by dlia. apply zslice_app_l; lia.
Qed.
Lemma stripes32_short s a : zlen s < 16 -> X32.stripes s a = a.
Proof.
  intros. unfold X32.stripes. change len with (@zlen Z); rewrite upto_0; [reflexivity|]. zlen_pose. dlia.
Qed.
Lemma stripes32_one s a : zlen s = 16 -> X32.stripes s a = X32.stripe a s.
Proof.
  intros H. unfold X32.stripes. change len with (@zlen Z); rewrite H. change (upto (16 / 16)) with [0].
  cbn [fold_left]. rewrite seg_zslice. change (16 * 0 + 16 - 16 * 0) with 16. rewrite zslice_all by lia. reflexivity.
Qed.
Lemma stripes32_trunc m a : X32.stripes (zslice m 0 (16 * (zlen m / 16))) a = X32.stripes m a.
Proof.
  zlen_pose. set (k := 16 * (zlen m / 16)). assert (0 <= k <= zlen m) by (subst k; dlia).
  rewrite (zslice_split0 m k) at 2 by lia. rewrite stripes32_app by (rewrite zlen_zslice by lia; subst k; dlia).
  symmetry; apply stripes32_short. rewrite zlen_zslice by lia. subst k; dlia.
Qed.

Lemma stripe32_ok rd p m k v :
  0 <= k -> k + 16 <= zlen m ->
  (forall i, 0 <= i < 4 -> rd (padd p (k + 4 * i)) = OK (le_val (zslice m (k + 4 * i) 4))) ->
  XXH32_stripe rd (v, padd p k) = OK (ofL (X32.stripe (toL v) (zslice m k 16)), padd p (k + 16)).
Proof.
  intros Hk H Hrd. destruct v as [[[a b] c] d]. unfold XXH32_stripe, toL. rewrite stripe32_unfold.
  cbn [ofL]. rewrite !padd_padd, !zslice_zslice by lia.
  pose proof (Hrd 0 ltac:(lia)) as H0. pose proof (Hrd 1 ltac:(lia)) as H1.
  pose proof (Hrd 2 ltac:(lia)) as H2. pose proof (Hrd 3 ltac:(lia)) as H3.
  replace (k + 4 * 0) with k in H0 by lia. replace (k + 0) with k by lia.
  replace (k + 4 * 1) with (k + 4) in H1 by lia. replace (k + 4 * 2) with (k + 4 + 4) in H2 by lia.
  replace (k + 4 * 3) with (k + 4 + 4 + 4) in H3 by lia.
  rewrite H0; cbn [bind]. rewrite H1; cbn [bind]. rewrite H2; cbn [bind]. rewrite H3; cbn [bind].
  rewrite !round32_eq. replace (k + 8) with (k + 4 + 4) by lia. replace (k + 12) with (k + 4 + 4 + 4) by lia.
  replace (k + 4 + 4 + 4 + 4) with (k + 16) by lia. reflexivity.
Qed.

(** the stripe loop, from offset [k] of the bytes [d] at [p], [n] turns *)
Lemma stripe_loop32 rd p d k n l cond fuel :
  lanes_ok l -> 0 <= k -> (1 <= n)%nat -> k + 16 * Z.of_nat n <= zlen d -> (n <= fuel + 1)%nat ->
  (forall i, 0 <= i < 4 * Z.of_nat n ->
     rd (padd p (k + 4 * i)) = OK (le_val (zslice d (k + 4 * i) 4))) ->
  (forall v i, (1 <= i < n)%nat -> cond (v, padd p (k + 16 * Z.of_nat i)) = true) ->
  (forall v, cond (v, padd p (k + 16 * Z.of_nat n)) = false) ->
  do_while fuel (XXH32_stripe rd) cond (ofL l, padd p k) =
  OK (ofL (X32.stripes (zslice d k (16 * Z.of_nat n)) l), padd p (k + 16 * Z.of_nat n)).
Proof.
  intros Hl Hk H1 H Hf Hrd Hc Hn. zlen_pose.
  apply (do_while_count cond (XXH32_stripe rd)
    (fun i => (ofL (X32.stripes (zslice d k (16 * Z.of_nat i)) l), padd p (k + 16 * Z.of_nat i))) n); trivial.
  - change (16 * Z.of_nat 0) with 0. rewrite zslice_0, Z.add_0_r. reflexivity.
  - intros i Hi. rewrite (stripe32_ok rd p d); [|lia|lia|].
    + rewrite toL_ofL by (apply lanes_ok_stripes; assumption).
      replace (16 * Z.of_nat (S i)) with (16 * Z.of_nat i + 16) by lia.
      rewrite (zslice_split d k (16 * Z.of_nat i + 16) (16 * Z.of_nat i)) by lia.
      rewrite stripes32_app by (rewrite zlen_zslice by lia; dlia).
      replace (16 * Z.of_nat i + 16 - 16 * Z.of_nat i) with 16 by lia.
      rewrite (stripes32_one (zslice d (k + 16 * Z.of_nat i) 16)) by (apply zlen_zslice; lia).
      do 2 f_equal. f_equal; lia.
    + intros j Hj. replace (k + 16 * Z.of_nat i + 4 * j) with (k + 4 * (4 * Z.of_nat i + j)) by lia.
      apply Hrd. lia.
  - intros i Hi; apply Hc; lia.
Qed.

(** ** finalize *)
Definition al_ok (p : ptr) (al : alignment) (n : Z) : Prop := al = XXH_aligned -> paddr p mod n = 0.

Lemma al_ok_padd p al n k : p <> Null -> al_ok p al n -> 0 < n -> k mod n = 0 -> al_ok (padd p k) al n.
Proof.
  intros N H Hn Hk A. rewrite paddr_padd by assumption. specialize (H A).
  rewrite Z.add_mod, H, Hk by lia. reflexivity.
Qed.

Lemma process4_ok c al p r k h : cfg_ok c -> points_to p r -> bytes_ok r -> al_ok p al 4 ->
  0 <= k -> k mod 4 = 0 -> k + 4 <= zlen r ->
  XXH_PROCESS4 c al (h, padd p k) = OK (X32.lane4 h (zslice r k 4), padd p (k + 4)).
Proof.
  intros C P B A Hk Hm H. assert (N : p <> Null) by (eapply points_to_nonnull; [exact P|lia]).
  unfold XXH_PROCESS4. rewrite (readLE32_align_ok c p r); trivial.
  - cbn [bind]. rewrite padd_padd. f_equal. f_equal. unfold X32.lane4, mul32 at 1, add32, mul32.
    rewrite rotl32_rol by (lia || apply u32_range). rewrite <- LE_le_val. rewrite u32_add_r. reflexivity.
  - apply (al_ok_padd p al 4 k); trivial; lia.
Qed.
Lemma process1_ok p r k h : points_to p r -> p <> Null -> 0 <= k < zlen r ->
  XXH_PROCESS1 (h, padd p k) = OK (X32.lane1 h (byte_at r k), padd p (k + 1)).
Proof.
  intros P N H. unfold XXH_PROCESS1. rewrite (load8_at p r) by assumption. cbn [bind]. rewrite padd_padd.
  f_equal. f_equal. unfold X32.lane1, mul32 at 1, add32, mul32.
  rewrite rotl32_rol by (lia || apply u32_range). rewrite u32_add_r. reflexivity.
Qed.

Definition T4 (r : list Z) (n : Z) (h : Z) : Z :=
  fold_left (fun a i => X32.lane4 a (seg r (4 * i) (4 * i + 4))) (upto n) h.
Definition T1 (r : list Z) (o n : Z) (h : Z) : Z := fold_left X32.lane1 (zslice r o n) h.

Lemma T4_S r n h : 0 <= n -> T4 r (n + 1) h = X32.lane4 (T4 r n h) (zslice r (4 * n) 4).
Proof. intros; unfold T4. rewrite fold_upto_S, seg_zslice by lia. f_equal. f_equal. lia. Qed.
Lemma T1_S r o n h : 0 <= o -> 0 <= n -> o + n < zlen r ->
  T1 r o (n + 1) h = X32.lane1 (T1 r o n h) (byte_at r (o + n)).
Proof. intros; unfold T1. rewrite zslice_snoc, fold_left_app by lia. reflexivity. Qed.
Lemma T_tail r L h : 0 <= L <= zlen r ->
  X32.tail h (zslice r 0 L) = T1 r (4 * (L / 4)) (L mod 4) (T4 r (L / 4) h).
Proof.
  intros H. unfold X32.tail, T1, T4. change len with (@zlen Z); rewrite !zlen_zslice, seg_zslice by lia.
  rewrite zslice_zslice by dlia. f_equal; [f_equal; dlia|].
  apply fold_upto_ext. intros i a Hi. rewrite !seg_zslice. f_equal. rewrite zslice_zslice by dlia. f_equal; lia.
Qed.

Lemma repeat4_ok c al p r n h : cfg_ok c -> points_to p r -> bytes_ok r -> al_ok p al 4 ->
  4 * Z.of_nat n <= zlen r ->
  repeat_ n (XXH_PROCESS4 c al) (h, p) = OK (T4 r (Z.of_nat n) h, padd p (4 * Z.of_nat n)).
Proof.
  intros C P B A H.
  assert (G : forall k, 0 <= k -> 4 * (k + Z.of_nat n) <= zlen r ->
    repeat_ n (XXH_PROCESS4 c al) (T4 r k h, padd p (4 * k)) =
    OK (T4 r (k + Z.of_nat n) h, padd p (4 * (k + Z.of_nat n)))).
  { clear H. induction n as [|n IH]; intros k Hk H; cbn [repeat_].
    - rewrite Z.add_0_r. reflexivity.
    - rewrite (process4_ok c al p r) by (trivial; dlia). cbn [bind].
      rewrite <- T4_S by lia. replace (4 * k + 4) with (4 * (k + 1)) by lia.
      rewrite IH by lia. do 2 f_equal; [f_equal; lia|f_equal; lia]. }
  specialize (G 0 ltac:(lia)). rewrite Z.add_0_l in G. rewrite <- G by lia.
  change (4 * 0) with 0. rewrite padd_0. reflexivity.
Qed.
Lemma repeat1_ok p r n o h : points_to p r -> p <> Null -> 0 <= o -> o + Z.of_nat n <= zlen r ->
  repeat_ n XXH_PROCESS1 (h, padd p o) = OK (T1 r o (Z.of_nat n) h, padd p (o + Z.of_nat n)).
Proof.
  intros P N Ho. revert o h Ho; induction n as [|n IH]; intros o h Ho H; cbn [repeat_].
  - rewrite Z.add_0_r. reflexivity.
  - rewrite (process1_ok p r) by (trivial; lia). cbn [bind]. rewrite IH by lia.
    do 2 f_equal; [|f_equal; lia].
    unfold T1. rewrite (zslice_bytes r o (Z.of_nat (S n))) by lia. cbn [fold_left]. do 2 f_equal. lia.
Qed.

Lemma finalize32_ok c h p r L al : cfg_ok c -> points_to p r -> bytes_ok r -> al_ok p al 4 ->
  0 <= L -> L mod 16 <= zlen r -> (p = Null -> L = 0) ->
  XXH32_finalize c h p L al = OK (X32.avalanche (X32.tail h (zslice r 0 (L mod 16)))).
Proof.
  intros C P B A HL H HN. unfold XXH32_finalize.
  replace (negb (is_null p) || (L =? 0)) with true.
  2:{ destruct p; cbn; [rewrite HN by reflexivity|]; reflexivity. }
  cbn [assert_ bind]. rewrite land15 by lia.
  assert (HR : 0 <= L mod 16 < 16) by (apply Z.mod_pos_bound; lia).
  assert (HN' : 0 < L mod 16 -> p <> Null).
  { intros Q ->. rewrite HN in Q by reflexivity. vm_compute in Q. discriminate. }
  clear HN HL. set (R := L mod 16) in *. clearbody R. clear L.
  rewrite T_tail by lia. zlen_pose.
  destruct (endjmp c); cbn [negb].
  - assert (CASE : forall k m, Z.of_nat k = R / 4 -> Z.of_nat m = R mod 4 ->
      (let! s := repeat_ k (XXH_PROCESS4 c al) (h, p) in
       let! s := repeat_ m XXH_PROCESS1 s in OK (XXH32_avalanche (fst s))) =
      OK (X32.avalanche (T1 r (4 * (R / 4)) (R mod 4) (T4 r (R / 4) h)))).
    { intros k m Hk Hm. rewrite (repeat4_ok c al p r) by (trivial; dlia). cbn [bind].
      destruct m as [|m].
      - cbn [repeat_ bind fst]. rewrite avalanche32_eq, <- Hm, Hk. reflexivity.
      - rewrite (repeat1_ok p r) by (trivial; try apply HN'; dlia). cbn [bind fst].
        rewrite avalanche32_eq, Hm, Hk. reflexivity. }
    assert (Cs : R = 0 \/ R = 1 \/ R = 2 \/ R = 3 \/ R = 4 \/ R = 5 \/ R = 6 \/ R = 7 \/ R = 8 \/ R = 9 \/
      R = 10 \/ R = 11 \/ R = 12 \/ R = 13 \/ R = 14 \/ R = 15) by lia.
    repeat (destruct Cs as [->|Cs]); try subst R; cbv iota zeta; try (apply CASE; reflexivity).
    cbn [fst]. rewrite avalanche32_eq. reflexivity.
  - rewrite (while_count (fun s => 4 <=? snd s) _
      (fun i => ((T4 r (Z.of_nat i) h, padd p (4 * Z.of_nat i)), R - 4 * Z.of_nat i)) (Z.to_nat (R / 4))).
    + cbn [bind]. rewrite Z2Nat.id by (apply Z.div_pos; lia).
      rewrite (while_count (fun s => 0 <? snd s) _
        (fun i => ((T1 r (4 * (R / 4)) (Z.of_nat i) (T4 r (R / 4) h),
                    padd p (4 * (R / 4) + Z.of_nat i)), R mod 4 - Z.of_nat i)) (Z.to_nat (R mod 4))).
      * cbn [bind fst snd]. rewrite avalanche32_eq, Z2Nat.id by dlia. reflexivity.
      * change (Z.of_nat 0) with 0. rewrite Z.add_0_r. apply f_equal2; [reflexivity|dlia].
      * dlia.
      * intros i Hi. cbn [snd]. split; [dlia|].
        rewrite (process1_ok p r) by (trivial; try apply HN'; dlia). cbn [bind].
        replace (Z.of_nat (S i)) with (Z.of_nat i + 1) by lia. rewrite T1_S by dlia.
        do 2 f_equal; [f_equal; f_equal; lia|lia].
      * cbn [snd]. dlia.
    + change (4 * Z.of_nat 0) with 0. rewrite padd_0, Z.sub_0_r. reflexivity.
    + dlia.
    + intros i Hi. cbn [snd]. split; [dlia|].
      rewrite (process4_ok c al p r) by (trivial; dlia). cbn [bind].
      replace (Z.of_nat (S i)) with (Z.of_nat i + 1) by lia. rewrite T4_S by lia.
      do 2 f_equal; [f_equal; f_equal; lia|lia].
    + cbn [snd]. dlia.
Qed.

(** ** one shot *)
Lemma hash32_unfold m seed :
  X32.hash m seed =
  X32.avalanche (X32.tail
    (((if zlen m <? 16 then (seed + X32.P5) mod X32.W else X32.converge (X32.stripes m (X32.init seed)))
      + zlen m) mod X32.W)
    (zslice m (16 * (zlen m / 16)) (zlen m mod 16))).
Proof.
  unfold X32.hash. change len with (@zlen Z). rewrite seg_zslice.
  replace (zlen m - zlen m / 16 * 16) with (zlen m mod 16) by (zlen_pose; dlia).
  rewrite (Z.mul_comm _ 16). reflexivity.
Qed.

Lemma endian_align32_ok c p m seed al : cfg_ok c -> points_to p m -> bytes_ok m -> al_ok p al 4 ->
  XXH32_endian_align c p (zlen m) seed al = OK (X32.hash m seed).
Proof.
  intros C P B A. unfold XXH32_endian_align. zlen_pose.
  replace (negb (is_null p) || (zlen m =? 0)) with true.
  2:{ destruct p; cbn in *; [subst m|]; reflexivity. }
  cbn [assert_ bind]. rewrite hash32_unfold, land15 by lia.
  assert (HM : 0 <= zlen m mod 16 < 16) by (apply Z.mod_pos_bound; lia).
  destruct (Z.leb_spec 16 (zlen m)) as [H|H].
  - assert (N : p <> Null) by (eapply points_to_nonnull; [exact P|lia]).
    destruct (Z.ltb_spec (zlen m) 16); [lia|].
    set (n := Z.to_nat (zlen m / 16)).
    assert (Hn : Z.of_nat n = zlen m / 16) by (subst n; rewrite Z2Nat.id by (apply Z.div_pos; lia); reflexivity).
    pose proof (stripe_loop32 (fun p => readLE32_align c p al) p m 0 n (X32.init seed)
      (fun s => pltb (snd s) (padd (padd p (zlen m)) (-15))) (Z.to_nat (zlen m))) as LOOP.
    rewrite <- init32_eq, ofL_toL, padd_0, init32_eq in LOOP.
    rewrite LOOP; clear LOOP.
    + cbn [bind]. rewrite merge32_eq by (apply lanes_ok_stripes, lanes_ok_init).
      rewrite Hn, stripes32_trunc, Z.add_0_l. unfold add32. rewrite u32_add_r.
      rewrite (finalize32_ok c _ _ (zslice m (16 * (zlen m / 16)) (zlen m mod 16))); trivial.
      * rewrite Z.mod_mod by lia. rewrite zslice_all; [reflexivity|]. symmetry; apply zlen_zslice; dlia.
      * apply points_to_sub; trivial; dlia.
      * apply bytes_ok_zslice, B.
      * apply al_ok_padd; trivial; try lia; try dlia.
      * lia.
      * rewrite Z.mod_mod, zlen_zslice by dlia. lia.
      * intros E; exfalso; revert E; apply padd_nonnull; assumption.
    + apply lanes_ok_init.
    + lia.
    + subst n. dlia.
    + dlia.
    + dlia.
    + intros i Hi. apply readLE32_align_ok; trivial; try dlia.
      apply (al_ok_padd p al 4); trivial; dlia.
    + intros v i Hi. cbn [snd]. unfold pltb. rewrite !poff_padd by (try apply padd_nonnull; assumption). dlia.
    + intros v. cbn [snd]. unfold pltb. rewrite !poff_padd by (try apply padd_nonnull; assumption). dlia.
  - destruct (Z.ltb_spec (zlen m) 16); [|lia]. cbn [bind].
    rewrite (finalize32_ok c _ _ m); trivial; try lia.
    + rewrite Z.mod_mod by lia. rewrite (Z.mod_small (zlen m)) by lia. rewrite zslice_all by reflexivity.
      rewrite (Z.div_small (zlen m)) by lia. rewrite zslice_all by reflexivity.
      unfold add32. rewrite u32_add_r. reflexivity.
    + intros ->. cbn in P. subst m. reflexivity.
Qed.

(** ** streaming *)
Record rep32 (seed : Z) (m : list Z) (st : state32) : Prop := Rep32 {
  r32_total : s32_total_len st = zlen m mod 2 ^ 32;
  r32_large : s32_large_len st = (if 16 <=? zlen m then 1 else 0);
  r32_v     : s32_v st = ofL (X32.stripes m (X32.init seed));
  r32_size  : s32_memsize st = zlen m mod 16;
  r32_len   : zlen (s32_mem st) = 16;
  r32_mem   : zslice (s32_mem st) 0 (zlen m mod 16) = zslice m (16 * (zlen m / 16)) (zlen m mod 16);
  r32_ok    : bytes_ok (s32_mem st);
  r32_msg   : bytes_ok m
}.

Lemma reset32_rep seed : rep32 seed [] (XXH32_reset seed).
Proof.
  constructor; cbn [XXH32_reset s32_total_len s32_large_len s32_v s32_mem s32_memsize]; try reflexivity.
  - rewrite stripes32_short by (cbn; lia). rewrite <- init32_eq, ofL_toL. reflexivity.
  - repeat constructor; lia.
  - constructor.
Qed.


Lemma large32 a (m d : list Z) : a = zlen m mod 2 ^ 32 ->
  Z.lor (if 16 <=? zlen m then 1 else 0)
    (u32 (Z.lor (b2z (16 <=? zlen d)) (b2z (16 <=? add32 a (u32 (zlen d)))))) =
  (if 16 <=? zlen (m ++ d) then 1 else 0).
Proof.
  intros ->. rewrite zlen_app. unfold add32, u32. zlen_pose.
  destruct (Z.leb_spec 16 (zlen m)), (Z.leb_spec 16 (zlen d)),
    (Z.leb_spec 16 ((zlen m mod 2 ^ 32 + zlen d mod M32) mod M32)),
    (Z.leb_spec 16 (zlen m + zlen d)); cbn [b2z]; try reflexivity; exfalso; dlia.
Qed.

Lemma update32_ok' c seed m st p d : cfg_ok c -> rep32 seed m st -> points_to p d -> bytes_ok d ->
  zlen m mod 16 + zlen d < 2 ^ szbits c ->
  exists st', XXH32_update c st p (zlen d) = OK (XXH_OK, st') /\ rep32 seed (m ++ d) st'.
Proof.
  intros C R P B SZ. unfold XXH32_update. zlen_pose. pose proof (zlen_nonneg m) as ZM.
  assert (HM : 0 <= zlen m mod 16 < 16) by (apply Z.mod_pos_bound; lia).
  destruct (is_null p) eqn:EN.
  { rewrite (points_to_null p d P EN). rewrite app_nil_r. cbn. eexists; split; [reflexivity|exact R]. }
  assert (N : p <> Null) by (intros ->; discriminate).
  destruct R as [Rt Rl Rv Rs RL Rm Rk Rb]. rewrite Rs.
  assert (USZ : usz c (zlen m mod 16 + zlen d) = zlen m mod 16 + zlen d).
  { unfold usz; apply Z.mod_small; lia. }
  rewrite USZ; clear USZ.
  assert (HT : add32 (s32_total_len st) (u32 (zlen d)) = zlen (m ++ d) mod 2 ^ 32).
  { unfold add32. rewrite u32_add_r, Rt, zlen_app. apply Zplus_mod_idemp_l. }
  rewrite Rl, (large32 _ m d Rt), HT.
  set (h := zlen m mod 16) in *. set (q := zlen m / 16) in *.
  assert (Eq : zlen m = 16 * q + h) by (subst h q; dlia). assert (Hq : 0 <= q) by lia.
  destruct (Z.ltb_spec (h + zlen d) 16) as [H|H].
  - (* everything fits in the buffer *)
    rewrite (load_at0 p d) by (trivial; lia). rewrite zslice_all by reflexivity. cbn [bind].
    rewrite store_ok by lia. cbn [bind].
    eexists; split; [reflexivity|].
    assert (Q' : zlen (m ++ d) / 16 = q) by (rewrite zlen_app; dlia).
    assert (H' : zlen (m ++ d) mod 16 = h + zlen d) by (rewrite zlen_app; dlia).
    constructor; cbn [s32_total_len s32_large_len s32_v s32_mem s32_memsize]; rewrite ?Q', ?H'.
    + reflexivity.
    + reflexivity.
    + rewrite Rv. f_equal. rewrite <- (stripes32_trunc (m ++ d)), Q', <- (stripes32_trunc m). fold q.
      f_equal. rewrite zslice_app_l by lia. reflexivity.
    + unfold u32. rewrite (Z.mod_small (zlen d)) by lia. apply Z.mod_small; lia.
    + llia.
    + transitivity (zslice (s32_mem st) 0 h ++ d); [list_eq|]. rewrite Rm. list_eq.
    + repeat apply bytes_ok_app; trivial; apply bytes_ok_zslice; assumption.
    + apply bytes_ok_app; assumption.
  - (* the buffer is completed, then whole stripes, then the rest *)
    set (fill := if h =? 0 then 0 else 16 - h).
    assert (STEP1 : exists mem1,
      (if negb (h =? 0)
       then let! data := load p (16 - h) in
            let! mem := store (s32_mem st) h data in
            let! (v, _) := XXH32_stripe (readLE32 c) (s32_v st, buf_ptr mem) in
            OK (v, mem, 0, padd p (16 - h))
       else OK (s32_v st, s32_mem st, h, p)) =
      OK (ofL (X32.stripes (m ++ zslice d 0 fill) (X32.init seed)), mem1, 0, padd p fill)
      /\ zlen mem1 = 16 /\ bytes_ok mem1).
    { subst fill. destruct (Z.eqb_spec h 0) as [E|E]; cbn [negb].
      - exists (s32_mem st). rewrite zslice_0, app_nil_r, padd_0, <- Rv, E. auto.
      - rewrite (load_at0 p d) by (trivial; lia). cbn [bind].
        rewrite store_ok by llia. cbn [bind]. rewrite (zlen_zslice d 0) by lia.
        set (mem1 := zslice (s32_mem st) 0 h ++ zslice d 0 (16 - h) ++ _).
        assert (L1 : zlen mem1 = 16) by (subst mem1; llia).
        assert (B1 : bytes_ok mem1).
        { subst mem1. repeat apply bytes_ok_app; apply bytes_ok_zslice; assumption. }
        assert (M1 : mem1 = zslice m (16 * q) h ++ zslice d 0 (16 - h)).
        { subst mem1. rewrite <- Rm. list_eq. }
        change (buf_ptr mem1) with (padd (buf_ptr mem1) 0).
        rewrite (stripe32_ok _ _ mem1) by (trivial; try lia;
          intros i Hi; apply readLE32_ok; trivial; try lia; apply points_to_buf).
        cbn [bind]. exists mem1. split; [|auto]. do 4 f_equal.
        rewrite Rv, toL_ofL by (apply lanes_ok_stripes, lanes_ok_init).
        rewrite zslice_all by lia. rewrite <- stripes32_one by lia.
        rewrite <- (stripes32_trunc m). fold q.
        rewrite <- stripes32_app by (rewrite zlen_zslice by lia; dlia). f_equal.
        rewrite M1, app_assoc. f_equal. list_eq. }
    destruct STEP1 as (mem1 & -> & L1 & B1). cbn [bind].
    assert (HF : 0 <= fill <= zlen d /\ fill < 16 /\ (h + fill) mod 16 = 0).
    { subst fill. destruct (Z.eqb_spec h 0) as [E|E]; [rewrite E|]; dlia. }
    destruct HF as (HF & HF16 & HFm).
    set (n := (zlen d - fill) / 16).
    assert (Hn : 0 <= n) by (subst n; apply Z.div_pos; lia).
    assert (HE : fill + 16 * n <= zlen d < fill + 16 * n + 16) by (subst n; dlia).
    assert (STEP2 :
      (if pleb (padd p fill) (padd (padd p (zlen d)) (-16))
       then do_while (Z.to_nat (zlen d)) (XXH32_stripe (readLE32 c))
              (fun s => pleb (snd s) (padd (padd p (zlen d)) (-16)))
              (ofL (X32.stripes (m ++ zslice d 0 fill) (X32.init seed)), padd p fill)
       else OK (ofL (X32.stripes (m ++ zslice d 0 fill) (X32.init seed)), padd p fill)) =
      OK (ofL (X32.stripes (m ++ d) (X32.init seed)), padd p (fill + 16 * n))).
    { assert (EQ : X32.stripes (m ++ d) (X32.init seed) =
                   X32.stripes (zslice d fill (16 * n)) (X32.stripes (m ++ zslice d 0 fill) (X32.init seed))).
      { rewrite <- stripes32_app by (rewrite zlen_app, zlen_zslice by lia; dlia).
        rewrite <- (stripes32_trunc (m ++ d)). f_equal. rewrite zlen_app.
        replace (16 * ((zlen m + zlen d) / 16)) with (zlen m + fill + 16 * n) by dlia.
        list_eq. }
      unfold pleb at 1. rewrite !poff_padd by (try apply padd_nonnull; assumption).
      destruct (Z.leb_spec (poff p + fill) (poff p + zlen d + -16)).
      - rewrite (stripe_loop32 _ p d fill (Z.to_nat n)); trivial.
        + rewrite Z2Nat.id by lia. rewrite <- EQ. reflexivity.
        + apply lanes_ok_stripes, lanes_ok_init.
        + lia.
        + subst n. dlia.
        + lia.
        + lia.
        + intros i Hi. apply readLE32_ok; trivial; lia.
        + intros v i Hi. cbn [snd]. unfold pleb. rewrite !poff_padd by (try apply padd_nonnull; assumption). lia.
        + intros v. cbn [snd]. unfold pleb. rewrite !poff_padd by (try apply padd_nonnull; assumption). lia.
      - assert (n = 0) by lia. rewrite EQ. replace (16 * n) with 0 by lia. rewrite zslice_0, Z.add_0_r.
        rewrite (stripes32_short []) by (cbn; lia). reflexivity. }
    rewrite STEP2; clear STEP2. cbn [bind].
    assert (H' : zlen (m ++ d) mod 16 = zlen d - fill - 16 * n) by (rewrite zlen_app; dlia).
    assert (Q' : 16 * (zlen (m ++ d) / 16) = zlen m + (fill + 16 * n)) by (rewrite zlen_app; dlia).
    unfold pltb. rewrite !poff_padd by (try apply padd_nonnull; assumption).
    destruct (Z.ltb_spec (poff p + (fill + 16 * n)) (poff p + zlen d)) as [HR|HR].
    + replace (poff p + zlen d - (poff p + (fill + 16 * n))) with (zlen d - fill - 16 * n) by lia.
      rewrite (load_at p d) by (trivial; lia). cbn [bind]. rewrite store_ok by llia. cbn [bind].
      eexists; split; [reflexivity|].
      constructor; cbn [s32_total_len s32_large_len s32_v s32_mem s32_memsize]; rewrite ?Q', ?H'; trivial.
      * unfold u32. apply Z.mod_small; lia.
      * llia.
      * list_eq.
      * repeat apply bytes_ok_app; apply bytes_ok_zslice; assumption.
      * apply bytes_ok_app; assumption.
    + cbn [bind]. eexists; split; [reflexivity|].
      constructor; cbn [s32_total_len s32_large_len s32_v s32_mem s32_memsize]; rewrite ?Q', ?H'; trivial.
      * lia.
      * replace (zlen d - fill - 16 * n) with 0 by lia. rewrite !zslice_0. reflexivity.
      * apply bytes_ok_app; assumption.
Qed.
Lemma update32_ok c seed m st p d : cfg_ok c -> rep32 seed m st -> points_to p d -> bytes_ok d ->
  zlen d + 16 <= 2 ^ szbits c ->
  exists st', XXH32_update c st p (zlen d) = OK (XXH_OK, st') /\ rep32 seed (m ++ d) st'.
Proof.
  intros C R P B SZ. apply update32_ok'; trivial. assert (HM : 0 <= zlen m mod 16 < 16) by (apply Z.mod_pos_bound; lia). lia.
Qed.

Lemma digest32_ok c seed m st : cfg_ok c -> rep32 seed m st ->
  XXH32_digest c st = OK (X32.hash m seed).
Proof.
  intros C [Rt Rl Rv Rs RL Rm Rk Rb]. unfold XXH32_digest. rewrite Rv. zlen_pose.
  assert (HM : 0 <= zlen m mod 16 < 16) by (apply Z.mod_pos_bound; lia).
  pose proof (lanes_ok_stripes m _ (lanes_ok_init seed)) as LO.
  destruct (ofL (X32.stripes m (X32.init seed))) as [[[v1 v2] v3] v4] eqn:EV.
  rewrite (finalize32_ok c _ _ (s32_mem st)); trivial.
  - f_equal. rewrite hash32_unfold, Rs, Z.mod_mod, Rm, Rt, Rl by lia.
    f_equal. f_equal. unfold add32. rewrite (u32_add_r _ (zlen m)).
    destruct (Z.leb_spec 16 (zlen m)) as [H|H]; cbn [Z.eqb negb].
    + destruct (Z.ltb_spec (zlen m) 16); [lia|]. rewrite <- EV, merge32_eq by assumption. reflexivity.
    + destruct (Z.ltb_spec (zlen m) 16); [|lia].
      rewrite stripes32_short in EV by lia. cbn [ofL X32.init] in EV. inv EV.
      change (seed mod X32.W) with (u32 seed). rewrite (u32_add_l seed). reflexivity.
  - apply points_to_buf.
  - intros _. reflexivity.
  - rewrite Rs. lia.
  - rewrite Rs, Z.mod_mod by lia. lia.
  - discriminate.
Qed.

Theorem XXH32_spec c p m seed : cfg_ok c -> points_to p m -> bytes_ok m -> zlen m < 2 ^ szbits c ->
  XXH32 c p (zlen m) seed = OK (X32.hash m seed).
Proof.
  intros C P B SZ. unfold XXH32.
  destruct (2 <=? size_opt c).
  - destruct (update32_ok' c seed [] (XXH32_reset seed) p m C (reset32_rep seed) P B SZ) as (st' & -> & R).
    cbn [bind]. apply digest32_ok; assumption.
  - destruct (align_check c && (Z.land (paddr p) 3 =? 0)) eqn:E; apply endian_align32_ok; trivial.
    + intros _. rewrite land3 in E. lia.
    + intros; discriminate.
Qed.
