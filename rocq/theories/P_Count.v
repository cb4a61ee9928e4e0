(** Counting inputs with a given hash (proofs for C110). *)
From Verif Require Import Base Mem Spec32 SpecCount P_Base.

Lemma skipn_add i j (l : list Z) : skipn (i + j) l = skipn j (skipn i l).
Proof. revert l. induction i as [|i IH]; intros l; [reflexivity|]. destruct l; [rewrite !skipn_nil; reflexivity|]. apply IH. Qed.
(** one word of [k] bytes at [o] is determined by the others, so there is one input for each choice of the others *)
Section Count.
Context (f : list Z -> bool) (o k r : nat).
Hypothesis Ex : forall a b, bytes_ok a -> bytes_ok b -> length a = o -> length b = r -> exists w, bytes_ok w /\ length w = k /\ f (a ++ w ++ b) = true.
Hypothesis Un : forall a b w w', bytes_ok a -> bytes_ok b -> bytes_ok w -> bytes_ok w' -> length a = o -> length b = r -> length w = k -> length w' = k ->
  f (a ++ w ++ b) = true -> f (a ++ w' ++ b) = true -> w = w'.
Definition without (m : list Z) : list Z := firstn o m ++ skipn (o + k) m.
Lemma pieces m : length m = (o + k + r)%nat -> bytes_ok m ->
  exists a w b, m = a ++ w ++ b /\ length a = o /\ length w = k /\ length b = r /\ bytes_ok a /\ bytes_ok w /\ bytes_ok b /\ without m = a ++ b.
Proof.
  intros L B. exists (firstn o m), (firstn k (skipn o m)), (skipn k (skipn o m)).
  assert (E : m = firstn o m ++ firstn k (skipn o m) ++ skipn k (skipn o m)) by (rewrite !firstn_skipn; reflexivity).
  split; [exact E|]. split; [apply firstn_length_le; lia|]. split; [apply firstn_length_le; rewrite skipn_length; lia|]. split; [rewrite !skipn_length; lia|].
  rewrite E in B. apply Forall_app in B. destruct B as [B1 B2]. apply Forall_app in B2. destruct B2 as [B2 B3]. repeat (split; [assumption|]).
  unfold without. rewrite skipn_add. reflexivity.
Qed.
Lemma bytes_in n m : In m (inputs n) <-> length m = n /\ bytes_ok m.
Proof. rewrite inputs_all. reflexivity. Qed.
Lemma count_words : length (filter f (inputs (o + k + r))) = (256 ^ (o + r))%nat.
Proof.
  rewrite <- inputs_length, <- (map_length without). apply Nat.le_antisymm; apply NoDup_incl_length.
  - assert (G : forall l, NoDup l -> (forall m, In m l -> In m (inputs (o + k + r)) /\ f m = true) -> NoDup (map without l)).
    { induction l as [|m l IL]; intros N H; [constructor|]. inversion N as [|? ? NI NL]; subst. cbn [map]. constructor; [|apply IL; [exact NL|intros; apply H; right; assumption]].
      intros I. apply in_map_iff in I. destruct I as (m' & E & I'). destruct (H m (or_introl eq_refl)) as [M1 M2]. destruct (H m' (or_intror I')) as [M1' M2'].
      apply bytes_in in M1, M1'. destruct (pieces m) as (a & w & b & -> & La & Lw & Lb & Ba & Bw & Bb & Q); try tauto. destruct (pieces m') as (a' & w' & b' & -> & La' & Lw' & Lb' & Ba' & Bw' & Bb' & Q'); try tauto.
      rewrite Q, Q' in E.
      assert (EE : a' = a /\ b' = b).
      { split; [apply (f_equal (firstn o)) in E|apply (f_equal (skipn o)) in E].
        - rewrite !firstn_app, La, La', Nat.sub_diag, !firstn_O, !app_nil_r, !firstn_all2 in E by lia. exact E.
        - rewrite !skipn_app, La, La', Nat.sub_diag, !skipn_O, !skipn_all2 in E by lia. exact E. }
      destruct EE as [-> ->]. apply NI. rewrite (Un a b w w'); trivial. }
    apply G; [apply NoDup_filter, inputs_once|]. intros m M. apply filter_In in M. exact M.
  - intros x I. apply in_map_iff in I. destruct I as (m & <- & I). apply filter_In in I. destruct I as [I _]. apply bytes_in in I.
    destruct (pieces m) as (a & w & b & -> & La & Lw & Lb & Ba & Bw & Bb & ->); try tauto. apply bytes_in. split; [rewrite app_length; lia|apply bytes_ok_app; assumption].
  - apply inputs_once.
  - intros x I. apply bytes_in in I. destruct I as [L B]. rewrite <- (firstn_skipn o x) in B. apply Forall_app in B. destruct B as [Ba Bb].
    assert (La : length (firstn o x) = o) by (apply firstn_length_le; lia). assert (Lb : length (skipn o x) = r) by (rewrite skipn_length; lia).
    destruct (Ex _ _ Ba Bb La Lb) as (w & Bw & Lw & F). apply in_map_iff. exists (firstn o x ++ w ++ skipn o x). split.
    + unfold without. rewrite firstn_app, La, Nat.sub_diag, firstn_O, app_nil_r, firstn_all2 by lia. rewrite app_assoc, skipn_app, app_length, La, Lw, Nat.sub_diag, skipn_O.
      rewrite skipn_all2 by (rewrite app_length; lia). apply firstn_skipn.
    + apply filter_In. split; [|exact F]. apply bytes_in. split; [rewrite !app_length; lia|]. repeat apply bytes_ok_app; assumption.
Qed.
End Count.
