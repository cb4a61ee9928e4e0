(** Proofs about the aligned allocator (M_Alloc). *)
From Verif Require Import Base Mem M_XXH32 M_XXH64 M_XXH3 M_Kernels M_Long M_Stream3 M_Alloc P_Base.

(** live blocks occupy disjoint, non-empty ranges of the address space above NULL *)
Definition block_ok (c : cfg) (b : block) : Prop := 0 < b_base b /\ 0 < zlen (b_data b) /\ b_base b + zlen (b_data b) <= 2 ^ szbits c.
Definition apart (b b' : block) : Prop :=
  b_base b + zlen (b_data b) <= b_base b' \/ b_base b' + zlen (b_data b') <= b_base b.
Inductive heap_ok (c : cfg) : heap -> Prop :=
| ho_nil : heap_ok c []
| ho_cons b h : block_ok c b -> Forall (apart b) h -> heap_ok c h -> heap_ok c (b :: h).

Lemma zlen_upd b a v : inside b a = true -> zlen (b_data (upd_block b a v)) = zlen (b_data b) /\ b_base (upd_block b a v) = b_base b.
Proof.
  unfold inside, upd_block, zlen. cbn [b_base b_data]. intros H. split; [|reflexivity].
  assert (Z.to_nat (a - b_base b) < length (b_data b))%nat by lia.
  rewrite app_length. cbn [length]. rewrite firstn_length, skipn_length. lia.
Qed.
Lemma nth_upd b a v a' : inside b a = true -> inside b a' = true ->
  nth (Z.to_nat (a' - b_base b)) (b_data (upd_block b a v)) 0 = if a' =? a then v else nth (Z.to_nat (a' - b_base b)) (b_data b) 0.
Proof.
  unfold inside, upd_block, zlen. cbn [b_data]. intros H H'.
  set (i := Z.to_nat (a - b_base b)). set (j := Z.to_nat (a' - b_base b)). set (l := b_data b) in *.
  assert (Li : (i < length l)%nat) by lia. assert (Lj : (j < length l)%nat) by lia.
  destruct (Z.eqb_spec a' a) as [->|N].
  - change (nth i (firstn i l ++ v :: skipn (S i) l) 0 = v).
    rewrite app_nth2; rewrite firstn_length, Nat.min_l by lia; [rewrite Nat.sub_diag; reflexivity|lia].
  - destruct (Nat.lt_ge_cases j i) as [L|L].
    + rewrite app_nth1 by (rewrite firstn_length; lia). rewrite <- (firstn_skipn i l) at 2.
      rewrite app_nth1 by (rewrite firstn_length; lia). reflexivity.
    + rewrite app_nth2 by (rewrite firstn_length; lia). rewrite firstn_length, Nat.min_l by lia.
      destruct (j - i)%nat as [|k] eqn:E; [exfalso; lia|]. cbn [nth].
      rewrite <- (firstn_skipn (S i) l) at 2. rewrite app_nth2 by (rewrite firstn_length; lia).
      rewrite firstn_length, Nat.min_l by lia. f_equal. lia.
Qed.

Lemma apart_not_inside b b' a : apart b b' -> inside b a = true -> inside b' a = false.
Proof. unfold apart, inside. lia. Qed.
Lemma hload_live c h b a : heap_ok c h -> In b h -> inside b a = true -> hload h a = OK (nth (Z.to_nat (a - b_base b)) (b_data b) 0).
Proof.
  induction 1 as [|b' h K A H IH]; intros I S; [destruct I|]. cbn [hload]. destruct I as [->|I].
  - rewrite S. reflexivity.
  - rewrite Forall_forall in A. specialize (A _ I). destruct (inside b' a) eqn:E.
    + rewrite (apart_not_inside _ _ _ A E) in S. discriminate.
    + apply IH; assumption.
Qed.
Lemma apart_upd_l b b' a v : inside b a = true -> apart b b' -> apart (upd_block b a v) b'.
Proof. intros S A. destruct (zlen_upd b a v S) as [E1 E2]. unfold apart in *. rewrite E1, E2. exact A. Qed.
Lemma apart_upd_r b b' a v : inside b a = true -> apart b' b -> apart b' (upd_block b a v).
Proof. intros S A. destruct (zlen_upd b a v S) as [E1 E2]. unfold apart in *. rewrite E1, E2. exact A. Qed.
Lemma hstore_ok c h a v h' : heap_ok c h -> hstore h a v = OK h' ->
  heap_ok c h' /\ (forall b, In b h -> In (if inside b a then upd_block b a v else b) h') /\
  (forall b', In b' h' -> exists b, In b h /\ b' = if inside b a then upd_block b a v else b).
Proof.
  intros H. revert h'. induction H as [|b h K A H IH]; intros h' E; cbn [hstore] in E; [discriminate|].
  destruct (inside b a) eqn:S.
  - injection E as <-. rewrite Forall_forall in A.
    assert (NI : forall b', In b' h -> inside b' a = false) by (intros b' I; eapply apart_not_inside; eauto).
    destruct (zlen_upd b a v S) as [E1 E2]. split; [|split].
    + constructor; [unfold block_ok in *; rewrite E1, E2; exact K| |exact H].
      apply Forall_forall. intros b' I. apply apart_upd_l; auto.
    + intros b' [->|I]; [rewrite S; left; reflexivity|]. rewrite NI by exact I. right; exact I.
    + intros b' [<-|I]; [exists b; rewrite S; split; [left|]; reflexivity|]. exists b'. rewrite NI by exact I. split; [right; exact I|reflexivity].
  - destruct (hstore h a v) as [h1| |] eqn:E1; cbn [bind] in E; try discriminate. injection E as <-.
    destruct (IH h1 eq_refl) as (I1 & I2 & I3). split; [|split].
    + constructor; trivial. apply Forall_forall. intros b' I. destruct (I3 _ I) as (b0 & I0 & ->).
      rewrite Forall_forall in A. specialize (A _ I0). destruct (inside b0 a) eqn:S0; [apply apart_upd_r; trivial|exact A].
    + intros b' [->|I]; [rewrite S; left; reflexivity|right; apply I2, I].
    + intros b' [<-|I]; [exists b; rewrite S; split; [left|]; reflexivity|].
      destruct (I3 _ I) as (b0 & I0 & E0). exists b0. split; [right; exact I0|exact E0].
Qed.
Lemma hstore_hit c h b a v : heap_ok c h -> In b h -> inside b a = true -> exists h', hstore h a v = OK h'.
Proof.
  induction 1 as [|b' h K A H IH]; intros I S; [destruct I|]. cbn [hstore]. destruct (inside b' a) eqn:E; [eauto|].
  destruct I as [->|I]; [congruence|]. destruct (IH I S) as (h' & ->). cbn. eauto.
Qed.
Lemma hfree_ok c h a h' : heap_ok c h -> hfree h a = OK h' ->
  heap_ok c h' /\ (forall b, In b h -> b_base b <> a -> In b h') /\ (forall b, In b h' -> In b h).
Proof.
  intros H. revert h'. induction H as [|b h K A H IH]; intros h' E; cbn [hfree] in E; [discriminate|].
  destruct (Z.eqb_spec (b_base b) a) as [Q|Q].
  - injection E as <-. split; [exact H|]. split; [intros b' [->|I] N; [congruence|exact I]|intros; right; assumption].
  - destruct (hfree h a) as [h1| |] eqn:E1; cbn [bind] in E; try discriminate. injection E as <-.
    destruct (IH h1 eq_refl) as (I1 & I2 & I3). split; [|split].
    + constructor; trivial. apply Forall_forall. intros b' I. rewrite Forall_forall in A. apply A, I3, I.
    + intros b' [->|I] N; [left; reflexivity|right; apply I2; assumption].
    + intros b' [<-|I]; [left; reflexivity|right; apply I3, I].
Qed.
Lemma hfree_hit c h b : heap_ok c h -> In b h -> exists h', hfree h (b_base b) = OK h' /\ ~ In b h' /\ heap_ok c h'.
Proof.
  induction 1 as [|b' h K A H IH]; intros I; [destruct I|]. cbn [hfree]. rewrite Forall_forall in A.
  destruct (Z.eqb_spec (b_base b') (b_base b)) as [Q|Q].
  - eexists; split; [reflexivity|]. split; [|exact H]. intros I'. specialize (A _ I'). destruct I as [->|I].
    + unfold apart, block_ok in *. lia.
    + specialize (A). unfold apart, block_ok in *.
      assert (block_ok c b). { clear - H I. induction H; [destruct I|]. destruct I as [->|I]; auto. }
      unfold block_ok in *. lia.
  - destruct I as [->|I]; [congruence|]. destruct (IH I) as (h1 & E1 & N1 & O1). rewrite E1. cbn.
    eexists; split; [reflexivity|]. split.
    + intros [->|I']; [congruence|exact (N1 I')].
    + constructor; trivial. apply Forall_forall. intros x Ix. apply A. apply (proj2 (proj2 (hfree_ok c h _ _ H E1))), Ix.
Qed.

(** ** arithmetic of the alignment *)
Lemma land_pow2 x k : 0 <= k -> Z.land x (2 ^ k - 1) = x mod 2 ^ k.
Proof. intros K. rewrite <- Z.land_ones by exact K. rewrite Z.ones_equiv. reflexivity. Qed.

Section Malloc.
Context (c : cfg) (C : cfg_ok c) (h : heap) (s k : Z).
Let align := 2 ^ k.
Hypothesis K : 3 <= k <= 7.
Hypothesis S : 0 < s.
Hypothesis F : s + align < 2 ^ szbits c.
Lemma align_range : 8 <= align <= 128.
Proof. unfold align. assert (2 ^ 3 <= 2 ^ k <= 2 ^ 7) by (split; apply Z.pow_le_mono_r; lia). lia. Qed.
Lemma asserts : ((align <=? 128) && (8 <=? align)) = true /\ (Z.land align (align - 1) =? 0) = true /\
  (negb (s =? 0) && (s <? usz c (s + align))) = true.
Proof.
  pose proof align_range. split; [lia|]. split.
  - unfold align. rewrite land_pow2 by lia. rewrite Z.mod_same by lia. reflexivity.
  - unfold usz. rewrite Z.mod_small by lia. lia.
Qed.
Lemma alignedMalloc_null : alignedMalloc c h s align None = OK (0, h).
Proof. unfold alignedMalloc. destruct asserts as (-> & -> & ->). reflexivity. Qed.
Lemma alignedMalloc_some base content : zlen content = s + align -> heap_ok c (Block base content :: h) ->
  exists ptr h' data, alignedMalloc c h s align (Some (base, content)) = OK (ptr, h') /\
    ptr mod align = 0 /\ base < ptr /\ ptr + s <= base + zlen content /\ ptr - base <= 128 /\
    h' = Block base data :: h /\ heap_ok c h' /\ zlen data = zlen content /\
    nth (Z.to_nat (ptr - 1 - base)) data 0 = ptr - base.
Proof.
  intros L HO. pose proof align_range as AR. assert (SB : szbits c = 32 \/ szbits c = 64) by apply C.
  inversion HO as [|? ? BK A H']; subst. unfold block_ok in BK. cbn [b_base b_data] in BK. destruct BK as (B1 & B2 & B3).
  unfold alignedMalloc. destruct asserts as (-> & -> & ->). cbn [assert_ bind XXH_malloc].
  replace (base =? 0) with false by lia. cbn [negb].
  assert (R : 0 <= base mod align < align) by (apply Z.mod_pos_bound; lia).
  assert (E : usz c (align - Z.land base (align - 1)) = align - base mod align).
  { unfold align at 2. rewrite land_pow2 by lia. fold align. unfold usz. apply Z.mod_small. destruct SB as [-> | ->]; lia. }
  rewrite E. set (o := align - base mod align). assert (RO : 1 <= o <= align) by lia.
  assert (M0 : (base + o) mod align = 0).
  { unfold o. rewrite (Z.div_mod base align) at 1 by lia.
    replace (align * (base / align) + base mod align + (align - base mod align)) with ((base / align + 1) * align) by ring.
    apply Z.mod_mul. lia. }
  rewrite M0. cbn [Z.eqb assert_ bind].
  assert (IN : inside (Block base content) (base + o - 1) = true) by (unfold inside; cbn [b_base b_data]; lia).
  cbn [hstore]. rewrite IN. cbn [bind].
  pose proof (zlen_upd (Block base content) (base + o - 1) (o mod 256) IN) as [Z1 Z2]. cbn [b_data b_base] in Z1.
  pose proof (nth_upd (Block base content) (base + o - 1) (o mod 256) (base + o - 1) IN IN) as NT. rewrite Z.eqb_refl in NT. cbn [b_base] in NT.
  rewrite (Z.mod_small o 256) in * by lia.
  set (ub := upd_block (Block base content) (base + o - 1) o) in *.
  exists (base + o), (ub :: h), (b_data ub). split; [reflexivity|]. split; [exact M0|]. split; [lia|]. split; [lia|]. split; [lia|].
  assert (UB0 : ub = Block base (b_data ub)) by reflexivity.
  split; [f_equal; exact UB0|]. split.
  - constructor; [unfold block_ok; rewrite Z1; unfold ub; cbn [b_base upd_block]; lia| |exact H'].
    apply Forall_forall. intros b I. rewrite Forall_forall in A. apply apart_upd_l; auto.
  - split; [exact Z1|]. rewrite NT. lia.
Qed.
End Malloc.

(** ** what the rest of the program may do while the object is live *)
Section Life.
Context (c : cfg) (ptr s base : Z).
Inductive hstep : heap -> heap -> Prop :=
| hs_own h a v h' : ptr <= a < ptr + s -> hstore h a v = OK h' -> hstep h h'            (* write into the object *)
| hs_other h a v h' b : In b h -> b_base b <> base -> inside b a = true -> 0 <= v < 256 -> hstore h a v = OK h' -> hstep h h'
| hs_malloc h b : heap_ok c (b :: h) -> hstep h (b :: h)
| hs_free h a h' : a <> base -> hfree h a = OK h' -> hstep h h'.
Inductive hsteps : heap -> heap -> Prop :=
| hss_refl h : hsteps h h
| hss_step h h1 h2 : hstep h h1 -> hsteps h1 h2 -> hsteps h h2.

Definition owned (h : heap) : Prop := exists data, In (Block base data) h /\ zlen data > 0 /\
  inside (Block base data) (ptr - 1) = true /\ nth (Z.to_nat (ptr - 1 - base)) data 0 = ptr - base.
Lemma same_base h b b' : heap_ok c h -> In b h -> In b' h -> b_base b = b_base b' -> b = b'.
Proof.
  induction 1 as [|b0 h BK A H IH]; intros I I' E; [destruct I|]. rewrite Forall_forall in A.
  assert (POS : forall x, In x h -> 0 < zlen (b_data x)).
  { clear - H. induction H as [|y h BK A H IH]; intros x []; [subst; apply BK|auto]. }
  destruct BK as (_ & P0 & _).
  destruct I as [->|I], I' as [->|I']; trivial.
  - specialize (A _ I'). specialize (POS _ I'). unfold apart in A. lia.
  - specialize (A _ I). specialize (POS _ I). unfold apart in A. lia.
  - apply IH; assumption.
Qed.
Lemma owned_write h a v h' : heap_ok c h -> owned h -> a <> ptr - 1 -> hstore h a v = OK h' -> heap_ok c h' /\ owned h'.
Proof.
  intros H (data & I & P & IN & NT) NA E. destruct (hstore_ok c h a v h' H E) as (H' & I1 & _). split; [exact H'|].
  specialize (I1 _ I). destruct (inside (Block base data) a) eqn:SA.
  - destruct (zlen_upd _ a v SA) as [Z1 Z2]. exists (b_data (upd_block (Block base data) a v)). split; [exact I1|]. cbn [b_data] in Z1.
    split; [lia|]. split.
    + unfold inside in *. cbn [b_base] in *. cbn [b_data] in IN |- *. rewrite Z1. exact IN.
    + pose proof (nth_upd _ a v (ptr - 1) SA IN) as Q. cbn [b_base] in Q. rewrite Q. replace (ptr - 1 =? a) with false by lia. exact NT.
  - exists data. auto.
Qed.
Lemma hstep_inv h h' : heap_ok c h -> owned h -> hstep h h' -> heap_ok c h' /\ owned h'.
Proof.
  intros H O X. inversion X; subst.
  - eapply owned_write; eauto; lia.
  - eapply owned_write; eauto. intros ->. destruct O as (data & I & P & IN & NT). destruct b as [bb bd]. cbn [b_base] in *.
    assert (inside (Block bb bd) (ptr - 1) = false \/ Block base data = Block bb bd) as [Q|Q].
    { assert (G : forall h, heap_ok c h -> In (Block base data) h -> In (Block bb bd) h -> inside (Block bb bd) (ptr - 1) = false \/ Block base data = Block bb bd).
      { clear - IN. induction 1 as [|b0 h BK A H IH]; intros I I'; [destruct I|]. rewrite Forall_forall in A.
        destruct I as [->|I], I' as [->|I'].
        - right; reflexivity.
        - left. eapply apart_not_inside; [apply A, I'|exact IN].
        - left. specialize (A _ I). unfold apart, inside in *. lia.
        - auto. }
      eapply G; eauto. }
    + congruence.
    + congruence.
  - split; [assumption|]. destruct O as (data & I & R). exists data. split; [right; exact I|exact R].
  - destruct (hfree_ok c h a h' H H1) as (H' & I1 & _). split; [exact H'|]. destruct O as (data & I & R). exists data. split; [|exact R].
    apply I1; [exact I|]. cbn [b_base]. congruence.
Qed.
Lemma hsteps_inv h h' : hsteps h h' -> heap_ok c h -> owned h -> heap_ok c h' /\ owned h'.
Proof. induction 1 as [|h h1 h2 X _ IH]; intros H O; [auto|]. destruct (hstep_inv _ _ H O X). auto. Qed.
Lemma alignedFree_ok h : heap_ok c h -> owned h -> 0 < base -> base < ptr ->
  exists h' data, alignedFree h ptr = OK (base, h') /\ In (Block base data) h /\ hfree h base = OK h' /\ heap_ok c h' /\
    ~ In (Block base data) h'.
Proof.
  intros H (data & I & P & IN & NT) B0 BP. unfold alignedFree. replace (ptr =? 0) with false by lia. cbn [negb].
  rewrite (hload_live c h _ _ H I IN). cbn [bind b_base b_data]. rewrite NT. replace (ptr - (ptr - base)) with base by lia.
  unfold XXH_free. replace (base =? 0) with false by lia.
  destruct (hfree_hit c h _ H I) as (h1 & E1 & N1 & O1). cbn [b_base] in E1. rewrite E1. cbn [bind].
  exists h1, data. auto.
Qed.
End Life.

(** a block that is written, while others come and go, stays live until it is freed *)
Lemma hsteps_live c base s h h' : hsteps c base s base h h' -> heap_ok c h -> (exists data, In (Block base data) h /\ zlen data = s) ->
  heap_ok c h' /\ exists data, In (Block base data) h' /\ zlen data = s.
Proof.
  induction 1 as [|h h1 h2 X _ IH]; intros H O; [auto|].
  assert (W : forall a v, hstore h a v = OK h1 -> heap_ok c h1 /\ exists data, In (Block base data) h1 /\ zlen data = s).
  { intros a v E. destruct (hstore_ok c h a v h1 H E) as (H1 & I1 & _). split; [exact H1|]. destruct O as (data & I & L). specialize (I1 _ I). destruct (inside (Block base data) a) eqn:SA.
    - destruct (zlen_upd _ a v SA) as [Z1 Z2]. exists (b_data (upd_block (Block base data) a v)). split; [exact I1|]. cbn [b_data] in Z1. lia.
    - exists data. auto. }
  assert (H1 : heap_ok c h1 /\ exists data, In (Block base data) h1 /\ zlen data = s).
  { inversion X; subst; [eauto|eauto| |].
    - split; [assumption|]. destruct O as (data & I & L). exists data. split; [right; exact I|exact L].
    - match goal with E : hfree _ _ = OK _ |- _ => destruct (hfree_ok c h a h1 H E) as (Q & I1 & _) end. split; [exact Q|]. destruct O as (data & I & L). exists data. split; [|exact L]. apply I1; [exact I|]. cbn [b_base]. congruence. }
  destruct H1. auto.
Qed.
