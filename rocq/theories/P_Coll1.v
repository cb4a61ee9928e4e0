(** Proofs about the collision tester's sparse sample generator (M_Coll): combinations and the order in which the
    generator visits them. *)
From Coq Require Import Permutation Sorting.Sorted.
From Verif Require Import Base Mem P_Base SpecColl M_Coll.
Import Coll.

(** ** sets of bit positions, as strictly decreasing lists *)
Lemma below_le N M c : N <= M -> below N c -> below M c.
Proof. destruct c as [|x t]; cbn; [trivial|]. intros L [H1 H2]. split; [lia|exact H2]. Qed.
Lemma below_in N c i : below N c -> In i c -> 0 <= i < N.
Proof.
  revert N. induction c as [|x t IH]; intros N; cbn; [tauto|]. intros [H1 H2] [<-|I]; [exact H1|]. specialize (IH x H2 I). lia.
Qed.
Lemma below_len N c : 0 <= N -> below N c -> zlen c <= N.
Proof.
  revert N. induction c as [|x t IH]; intros N HN; cbn [below]; [cbn; lia|]. intros [H1 H2]. specialize (IH x ltac:(lia) H2).
  rewrite zlen_cons. lia.
Qed.
Lemma below_ext N c d : below N c -> below N d -> (forall i, In i c <-> In i d) -> c = d.
Proof.
  revert N d. induction c as [|x t IH]; intros N [|y u] Hc Hd E; trivial.
  - destruct (proj2 (E y)). left; reflexivity.
  - destruct (proj1 (E x)). left; reflexivity.
  - cbn in Hc, Hd. destruct Hc as [Hx Ht], Hd as [Hy Hu].
    assert (x = y).
    { destruct (proj1 (E x) (or_introl eq_refl)) as [->|I1]; [reflexivity|]. destruct (proj2 (E y) (or_introl eq_refl)) as [->|I2]; [reflexivity|].
      pose proof (below_in _ _ _ Hu I1). pose proof (below_in _ _ _ Ht I2). lia. }
    subst y. f_equal. apply (IH x); trivial. intros i. specialize (E i). cbn in E. split; intros I.
    + destruct (proj1 E (or_intror I)) as [<-|J]; [|exact J]. pose proof (below_in _ _ _ Ht I). lia.
    + destruct (proj2 E (or_intror I)) as [<-|J]; [|exact J]. pose proof (below_in _ _ _ Hu I). lia.
Qed.

(** ** the enumeration *)
Fixpoint zrange (a : Z) (n : nat) : list Z := match n with O => [] | S n => a :: zrange (a + 1) n end.
Lemma in_zrange a n i : In i (zrange a n) <-> a <= i < a + Z.of_nat n.
Proof.
  revert a. induction n as [|n IH]; intros a; cbn [zrange]; [cbn; lia|]. cbn [In]. rewrite IH. lia.
Qed.
Lemma zrange_nodup a n : NoDup (zrange a n).
Proof.
  revert a. induction n as [|n IH]; intros a; cbn [zrange]; constructor; trivial. rewrite in_zrange. lia.
Qed.
Definition top (t : list Z) : Z := hd (-1) t.
Definition block (N : Z) (t : list Z) : list (list Z) := map (fun x => x :: t) (zrange (top t + 1) (Z.to_nat (N - (top t + 1)))).
Fixpoint combos (k : nat) (N : Z) : list (list Z) :=
  match k with O => [[]] | S k => flat_map (block N) (combos k (N - 1)) end.
Lemma in_block N t c : In c (block N t) <-> exists x, c = x :: t /\ top t < x < N.
Proof.
  unfold block. rewrite in_map_iff. split.
  - intros (x & <- & I). apply in_zrange in I. exists x. split; [reflexivity|]. lia.
  - intros (x & -> & I). exists x. split; [reflexivity|]. apply in_zrange. lia.
Qed.
Lemma in_combos k N c : In c (combos k N) <-> length c = k /\ below N c.
Proof.
  revert N c. induction k as [|k IH]; intros N c; cbn [combos].
  - cbn [In]. split.
    + intros [<-|[]]. split; [reflexivity|exact I].
    + intros [L _]. destruct c; [left; reflexivity|discriminate].
  - rewrite in_flat_map. split.
    + intros (t & It & Ic). apply IH in It. destruct It as [L B]. apply in_block in Ic.
      destruct Ic as (x & -> & Hx). split; [cbn; congruence|]. cbn. destruct t as [|y u]; cbn [top hd] in Hx; cbn in *; [lia|].
      split; [lia|]. split; [lia|apply B].
    + intros [L B]. destruct c as [|x t]; [discriminate|]. cbn in B, L. destruct B as [B1 B2]. injection L as L.
      exists t. assert (below (N - 1) t) by (apply (below_le x); [lia|exact B2]). split; [apply IH; auto|].
      apply in_block. exists x. split; [reflexivity|]. destruct t as [|y u]; cbn [top hd] in *; cbn in *; lia.
Qed.
Lemma nodup_app {A} (a b : list A) : NoDup a -> NoDup b -> (forall x, In x a -> ~ In x b) -> NoDup (a ++ b).
Proof.
  induction a as [|x a IH]; intros Na Nb D; [exact Nb|]. inversion Na; subst. cbn [app]. constructor.
  - rewrite in_app_iff. intros [I|I]; [tauto|]. apply (D x); [left; reflexivity|exact I].
  - apply IH; trivial. intros y Iy. apply D. right; exact Iy.
Qed.
Lemma nodup_flat_map {A B} (f : A -> list B) (l : list A) : NoDup l -> (forall a, In a l -> NoDup (f a)) ->
  (forall a a' b, In a l -> In a' l -> In b (f a) -> In b (f a') -> a = a') -> NoDup (flat_map f l).
Proof.
  induction l as [|a l IH]; intros ND NF D; cbn [flat_map]; [constructor|]. inversion ND as [|a0 l0 NI ND']; subst.
  apply nodup_app.
  - apply NF. left; reflexivity.
  - apply IH; trivial; [intros; apply NF; right; assumption|]. intros x x' b Hx Hx'. apply D; right; assumption.
  - intros b Ib Ib'. apply in_flat_map in Ib'. destruct Ib' as (a' & Ia' & Ib'). apply NI.
    rewrite (D a a' b); trivial; [left; reflexivity|right; exact Ia'].
Qed.
Lemma nodup_map {A B} (f : A -> B) (l : list A) : (forall a a', In a l -> In a' l -> f a = f a' -> a = a') -> NoDup l -> NoDup (map f l).
Proof.
  intros J N. induction N as [|a l NI N IH]; cbn [map]; constructor.
  - rewrite in_map_iff. intros (a' & E & I). apply NI. rewrite (J a a'); trivial; [left; reflexivity|right; exact I|congruence].
  - apply IH. intros x x' Ix Ix'. apply J; right; assumption.
Qed.
Lemma block_nodup N t : NoDup (block N t).
Proof. apply nodup_map; [|apply zrange_nodup]. intros a a' _ _ E. congruence. Qed.
Lemma combos_nodup k N : NoDup (combos k N).
Proof.
  revert N. induction k as [|k IH]; intros N; cbn [combos]; [constructor; [intros []|constructor]|].
  apply nodup_flat_map; [apply IH|intros; apply block_nodup|]. intros t t' c _ _ I I'. apply in_block in I, I'.
  destruct I as (x & -> & _), I' as (x' & E & _). congruence.
Qed.

(** ** how many there are *)
Lemma combos_count k n : zlen (combos k (Z.of_nat n)) = binom n k.
Proof.
  revert k. induction n as [|n IH]; intros k.
  - destruct k as [|k]; [reflexivity|]. cbn [binom]. destruct (combos (S k) (Z.of_nat 0)) as [|c l] eqn:E; [reflexivity|].
    assert (I : In c (combos (S k) (Z.of_nat 0))) by (rewrite E; left; reflexivity). apply in_combos in I. destruct I as [L B].
    destruct c as [|x t]; [discriminate|]. cbn in B. lia.
  - destruct k as [|k]; [reflexivity|]. cbn [binom].
    assert (P : Permutation (combos (S k) (Z.of_nat (S n))) (map (cons (Z.of_nat n)) (combos k (Z.of_nat n)) ++ combos (S k) (Z.of_nat n))).
    { apply NoDup_Permutation.
      - apply combos_nodup.
      - apply nodup_app; [|apply combos_nodup|].
        + apply nodup_map; [|apply combos_nodup]. intros a a' _ _ E. congruence.
        + intros c I I'. apply in_map_iff in I. destruct I as (t & <- & _). apply in_combos in I'. destruct I' as [_ [B _]]. lia.
      - intros c. rewrite in_app_iff, in_map_iff, !in_combos. split.
        + intros [L B]. destruct c as [|x t]; [discriminate|]. injection L as L. cbn [below] in B. destruct B as [B1 B2].
          destruct (Z.eq_dec x (Z.of_nat n)) as [->|NE].
          * left. exists t. split; [reflexivity|]. apply in_combos. auto.
          * right. split; [cbn; congruence|]. cbn [below]. split; [lia|exact B2].
        + intros [(t & <- & I)|[L B]].
          * apply in_combos in I. destruct I as [L B]. split; [cbn; congruence|]. cbn [below]. split; [lia|exact B].
          * split; [exact L|]. apply (below_le (Z.of_nat n)); [lia|exact B]. }
    unfold zlen. rewrite (Permutation_length P), app_length, map_length. pose proof (IH k) as E1. pose proof (IH (S k)) as E2. unfold zlen in E1, E2. lia.
Qed.
Lemma binom_pos n k : 0 <= binom n k.
Proof. revert k. induction n as [|n IH]; intros [|k]; cbn; try lia. pose proof (IH k). pose proof (IH (S k)). lia. Qed.
Lemma binom_step n k : binom n (S k) * Z.of_nat (S k) = binom n k * (Z.of_nat n - Z.of_nat k).
Proof.
  revert k. induction n as [|n IH]; intros k.
  - destruct k; cbn [binom]; lia.
  - destruct k as [|k].
    + cbn [binom]. pose proof (IH O) as E. cbn [binom] in E. destruct n; cbn [binom] in *; lia.
    + change (binom (S n) (S (S k))) with (binom n (S k) + binom n (S (S k))). change (binom (S n) (S k)) with (binom n k + binom n (S k)).
      pose proof (IH k). pose proof (IH (S k)). nia.
Qed.

(** ** the successor the generator computes *)
Fixpoint next (N : Z) (c : list Z) : option (list Z) :=
  match c with
  | [] => None
  | x :: t => if x <? N - 1 then Some (x + 1 :: t) else match next (N - 1) t with Some t' => Some (top t' + 1 :: t') | None => None end
  end.
(** [l] lists the orbit of its head under [f], to the end *)
Fixpoint orbit {A} (f : A -> option A) (l : list A) : Prop :=
  match l with [] => True | x :: r => f x = match r with [] => None | y :: _ => Some y end /\ orbit f r end.
Definition ohd {A} (l : list A) : option A := match l with [] => None | x :: _ => Some x end.
Lemma block_orbit N t r : ohd r = (match next (N - 1) t with Some t' => Some (top t' + 1 :: t') | None => None end) ->
  orbit (next N) r -> forall n a, a + Z.of_nat n = N -> orbit (next N) (map (fun x => x :: t) (zrange a n) ++ r).
Proof.
  intros H O n. induction n as [|n IH]; intros a E; [exact O|]. cbn [zrange map app orbit]. split; [|apply IH; lia].
  cbn [next]. destruct n as [|n].
  - replace (a <? N - 1) with false by lia. cbn [zrange map app]. rewrite <- H. destruct r; reflexivity.
  - replace (a <? N - 1) with true by lia. reflexivity.
Qed.
Lemma block_hd N t : top t < N - 1 -> exists r, block N t = (top t + 1 :: t) :: r.
Proof.
  intros L. unfold block. destruct (Z.to_nat (N - (top t + 1))) as [|n] eqn:E; [lia|]. cbn [zrange map]. eexists. reflexivity.
Qed.
Lemma flat_orbit N L : (forall t, In t L -> top t < N - 1) -> orbit (next (N - 1)) L -> orbit (next N) (flat_map (block N) L).
Proof.
  induction L as [|t L IH]; intros T O; [exact I|]. cbn [flat_map]. destruct O as [O1 O2].
  assert (T1 : top t < N - 1) by (apply T; left; reflexivity).
  unfold block at 1. apply block_orbit.
  - rewrite O1. destruct L as [|t' L']; [reflexivity|]. cbn [flat_map].
    destruct (block_hd N t') as (r & ->); [apply T; right; left; reflexivity|]. reflexivity.
  - apply IH; trivial. intros t' I'. apply T. right; exact I'.
  - lia.
Qed.
Lemma combos_orbit k N : Z.of_nat k <= N -> orbit (next N) (combos k N).
Proof.
  revert N. induction k as [|k IH]; intros N L; cbn [combos].
  - split; [reflexivity|exact I].
  - apply flat_orbit; [|apply IH; lia]. intros t It. apply in_combos in It. destruct It as [_ B]. destruct t as [|x u]; cbn [top hd]; [lia|]. cbn in B. lia.
Qed.
Fixpoint first (k : nat) : list Z := match k with O => [] | S k => Z.of_nat k :: first k end.
Lemma top_first k : top (first k) = Z.of_nat k - 1.
Proof. destruct k; cbn [first top hd]; lia. Qed.
Lemma combos_first k N : Z.of_nat k <= N -> exists r, combos k N = first k :: r.
Proof.
  revert N. induction k as [|k IH]; intros N L; cbn [combos first]; [eexists; reflexivity|].
  destruct (IH (N - 1)) as (r & ->); [lia|]. cbn [flat_map]. destruct (block_hd N (first k)) as (r' & ->); [rewrite top_first; lia|].
  rewrite top_first. replace (Z.of_nat k - 1 + 1) with (Z.of_nat k) by lia. eexists. reflexivity.
Qed.
Lemma combos_empty k N : 0 <= N < Z.of_nat k -> combos k N = [].
Proof.
  intros L. destruct (combos k N) as [|c r] eqn:E; [reflexivity|]. assert (I : In c (combos k N)) by (rewrite E; left; reflexivity).
  apply in_combos in I. destruct I as [Lc B]. apply below_len in B; [|lia]. unfold zlen in B. lia.
Qed.

(** ** all levels in a row *)
Definition upto (k : nat) (N : Z) : list (list Z) := flat_map (fun j => combos j N) (seq 0 (S k)).
(** the generator's successor: next combination of this level, or the first of the next level *)
Definition succ (K : nat) (N : Z) (c : list Z) : option (list Z) :=
  match next N c with Some c' => Some c' | None => if Nat.ltb (length c) K then Some (first (S (length c))) else None end.
Lemma orbit_app {A} (f g : A -> option A) l r : (forall x y, In x l -> f x = Some y -> g x = Some y) ->
  (forall x, In x l -> f x = None -> g x = ohd r) -> orbit f l -> orbit g r -> orbit g (l ++ r).
Proof.
  intros H1 H2. induction l as [|x l IH]; intros Ol Or; [exact Or|]. cbn [app]. destruct Ol as [O1 O2]. split.
  - destruct l as [|y l]; cbn [app].
    + rewrite (H2 x); [destruct r; reflexivity|left; reflexivity|exact O1].
    + apply H1; [left; reflexivity|exact O1].
  - apply IH; trivial; intros; [apply H1; trivial; right; assumption|apply H2; trivial; right; assumption].
Qed.
Lemma levels_orbit K N n k : (k + n = K)%nat -> Z.of_nat K <= N -> orbit (succ K N) (flat_map (fun j => combos j N) (seq k (S n))).
Proof.
  revert k. induction n as [|n IH]; intros k E L; cbn [seq flat_map].
  - apply (orbit_app (next N)).
    + intros x y _ Hx. unfold succ. rewrite Hx. reflexivity.
    + intros x Ix Hx. unfold succ. rewrite Hx. apply in_combos in Ix. destruct Ix as [Lx _]. rewrite Lx.
      replace (Nat.ltb k K) with false by (symmetry; apply Nat.ltb_ge; lia). reflexivity.
    + apply combos_orbit. lia.
    + exact I.
  - apply (orbit_app (next N)).
    + intros x y _ Hx. unfold succ. rewrite Hx. reflexivity.
    + intros x Ix Hx. unfold succ. rewrite Hx. apply in_combos in Ix. destruct Ix as [Lx _]. rewrite Lx.
      replace (Nat.ltb k K) with true by (symmetry; apply Nat.ltb_lt; lia).
      change (S k :: seq (S (S k)) n) with (seq (S k) (S n)). cbn [seq flat_map]. destruct (combos_first (S k) N) as (r & ->); [lia|]. reflexivity.
    + apply combos_orbit. lia.
    + exact (IH (S k) ltac:(lia) L).
Qed.
Lemma upto_orbit K N : Z.of_nat K <= N -> orbit (succ K N) (upto K N).
Proof. intros L. apply levels_orbit; [lia|exact L]. Qed.
Lemma in_upto K N c : In c (upto K N) <-> (length c <= K)%nat /\ below N c.
Proof.
  unfold upto. rewrite in_flat_map. split.
  - intros (j & Ij & Ic). apply in_seq in Ij. apply in_combos in Ic. destruct Ic as [<- B]. split; [lia|exact B].
  - intros [L B]. exists (length c). split; [apply in_seq; lia|apply in_combos; auto].
Qed.
Lemma upto_nodup K N : NoDup (upto K N).
Proof.
  apply nodup_flat_map; [apply seq_NoDup|intros; apply combos_nodup|]. intros a a' b _ _ I I'. apply in_combos in I, I'. destruct I as [<- _], I' as [<- _]. reflexivity.
Qed.
Lemma orbit_nth {A} (f : A -> option A) l (d : A) i : orbit f l -> (S i < length l)%nat -> f (nth i l d) = Some (nth (S i) l d).
Proof.
  revert i. induction l as [|x l IH]; intros i O L; [cbn in L; lia|]. destruct O as [O1 O2]. destruct i as [|i].
  - cbn [nth]. rewrite O1. destruct l as [|y l]; [cbn in L; lia|reflexivity].
  - change (nth (S (S i)) (x :: l) d) with (nth (S i) l d). cbn [nth]. apply IH; [exact O2|cbn in L; lia].
Qed.
Lemma upto_S K N : upto (S K) N = upto K N ++ combos (S K) N.
Proof. unfold upto. rewrite (seq_S (S K) 0), flat_map_app. cbn [Nat.add flat_map]. rewrite app_nil_r. reflexivity. Qed.
Lemma upto_0 N : upto 0 N = [[]].
Proof. reflexivity. Qed.
(** levels never decrease *)
Lemma orbit_len K N i d : Z.of_nat K <= N -> (S i < length (upto K N))%nat -> (length (nth i (upto K N) d) <= length (nth (S i) (upto K N) d))%nat.
Proof.
  intros L H. pose proof (orbit_nth _ _ d i (upto_orbit K N L) H) as E. clear H. unfold succ in E. remember (upto K N) as l eqn:El. clear El.
  assert (NL : forall c M c', next M c = Some c' -> length c' = length c).
  { induction c as [|x t IH]; intros M c'; cbn [next]; [discriminate|]. destruct (x <? M - 1); [intros Q; injection Q as <-; reflexivity|].
    destruct (next (M - 1) t) as [t'|] eqn:Et; [|discriminate]. intros Q; injection Q as <-. cbn. f_equal. apply (IH _ _ Et). }
  destruct (next N (nth i l d)) as [c'|] eqn:En.
  - injection E as <-. rewrite (NL _ _ _ En). lia.
  - destruct (Nat.ltb _ _); [|discriminate]. injection E as <-. cbn [length]. assert (LF : forall k, length (first k) = k) by (induction k; cbn; congruence).
    rewrite LF. lia.
Qed.
