(** The invariant of the thread pool is kept by every step. *)
From Coq Require Import Permutation.
From Verif Require Import Base Mem P_Base M_Pool P_Pool1.
Import Pool.

(** permutations by counting *)
Ltac perm :=
  repeat match goal with H : Permutation _ _ |- _ => rewrite (Permutation_count_occ Z.eq_dec) in H end;
  rewrite (Permutation_count_occ Z.eq_dec); let z := fresh "z" in intros z;
  repeat match goal with H : forall x : Z, count_occ _ _ x = count_occ _ _ x |- _ => specialize (H z) end;
  rewrite ?count_occ_app in *; lia.

(** ** the mutex *)
Lemma mutex_step (h h' : tid -> bool) (m m' : option tid) t : (forall u, h u = true <-> m = Some u) -> (forall u, u <> t -> h' u = h u) ->
  (m' = m /\ h' t = h t) \/ (m = None /\ m' = Some t /\ h' t = true) \/ (m = Some t /\ m' = None /\ h' t = false) -> forall u, h' u = true <-> m' = Some u.
Proof.
  intros M O C u. destruct (tid_dec u t) as [->|NE].
  - destruct C as [(-> & ->)|[(-> & -> & ->)|(-> & -> & ->)]]; [apply M|tauto|split; discriminate].
  - rewrite (O u NE), M. destruct C as [(-> & _)|[(-> & -> & _)|(-> & -> & _)]]; [reflexivity|split; congruence|split; congruence].
Qed.
Lemma wstep_mutex i g p g' p' e : wstep i g p = Go g' p' e ->
  (mutex g' = mutex g /\ holdsw p' = holdsw p) \/ (mutex g = None /\ mutex g' = Some (TW i) /\ holdsw p' = true) \/ (mutex g = Some (TW i) /\ mutex g' = None /\ holdsw p' = false).
Proof.
  intros E. destruct p; cbn [wstep] in E; unfold lock, unlock in E.
  all: repeat match type of E with context [match ?x with _ => _ end] => destruct x eqn:? | context [if ?x then _ else _] => destruct x eqn:? end; try discriminate; injection E as <- <- _; subst; cbn; auto.
Qed.
Lemma cstep_mutex ok k g c g' c' e : cstep ok k g c = Go g' c' e ->
  (mutex g' = mutex g /\ holdsc c' = holdsc c) \/ (mutex g = None /\ mutex g' = Some (TC k) /\ holdsc c' = true) \/ (mutex g = Some (TC k) /\ mutex g' = None /\ holdsc c' = false).
Proof.
  intros E. unfold cstep in E. unfold holdsc. destruct (c_pc c) eqn:EP; unfold lock, unlock in E.
  all: repeat match type of E with context [match ?x with _ => _ end] => destruct x eqn:? | context [if ?x then _ else _] => destruct x eqn:? end; try discriminate; injection E as <- <- _; subst; cbn; auto.
Qed.
Lemma ostep_mutex N ok idle ws g p g' p' e : ostep N ok idle ws g p = Go g' p' e ->
  (mutex g' = mutex g /\ holdso p' = holdso p) \/ (mutex g = None /\ mutex g' = Some TO /\ holdso p' = true) \/ (mutex g = Some TO /\ mutex g' = None /\ holdso p' = false).
Proof.
  intros E. destruct p; cbn [ostep] in E; unfold lock, unlock in E.
  all: repeat match type of E with context [match ?x with _ => _ end] => destruct x eqn:? | context [if ?x then _ else _] => destruct x eqn:? end; try discriminate; injection E as <- <- _; subst; cbn; auto.
Qed.

Ltac unfold_step E :=
  unfold lock, unlock in E;
  repeat match type of E with context [match ?x with _ => _ end] => destruct x eqn:? | context [if ?x then _ else _] => destruct x eqn:? end; try discriminate; injection E as <- <- <-; subst.

(** ** workers *)
Lemma wstep_frame i g p g' p' e : wstep i g p = Go g' p' e ->
  capacity g' = capacity g /\ limit g' = limit g /\ queue g' = queue g /\ qTail g' = qTail g /\ qSize g' = qSize g /\ shutdown g' = shutdown g /\ freed g' = freed g /\ added g' = added g /\
  busy g' = busy g - isbusy p + isbusy p' /\ (holdsw p = false -> qHead g' = qHead g /\ qEmpty g' = qEmpty g /\ busy g' = busy g /\ started g' = started g) /\
  (exists x, started g' = started g ++ x /\ Permutation (finished g ++ heldjob p ++ x) (finished g' ++ heldjob p')) /\
  (p <> W_pop -> qHead g' = qHead g /\ qEmpty g' = qEmpty g /\ started g' = started g) /\ e <> E_spawn /\ p <> W_exited /\ p <> W_waiting.
Proof.
  intros E. destruct p; cbn [wstep] in E; unfold_step E; cbn; repeat split; trivial; try lia; try congruence; try (intros; repeat split; congruence).
  all: try (exists []; rewrite ?app_nil_r; split; [reflexivity|]; apply Permutation_refl).
  eexists. split; [reflexivity|]. cbn. apply Permutation_refl.
Qed.
Lemma wstep_wait i g p g' e : wstep i g p = Go g' W_waiting e -> p = W_sleep.
Proof.
  intros E. destruct p; cbn [wstep] in E; unfold lock, unlock in E; trivial; exfalso;
    repeat match type of E with context [match ?x with _ => _ end] => destruct x eqn:? | context [if ?x then _ else _] => destruct x eqn:? end; discriminate.
Qed.
Lemma pop_ring g q g' p' e i : ring g q -> qEmpty g = false -> wstep i g W_pop = Go g' p' e ->
  exists j q', q = j :: q' /\ started g' = started g ++ [j] /\ ring g' q'.
Proof.
  intros (R1 & R2 & R3 & R4 & R5 & R6 & R7) NE E. rewrite R6 in NE. apply Z.eqb_neq in NE. cbn [wstep] in E. destruct (in_queue g (qHead g)); [|discriminate]. injection E as <- <- <-.
  destruct q as [|j q']; [exfalso; apply NE; reflexivity|]. rewrite zlen_cons in *. pose proof (zlen_nonneg q') as ZN.
  assert (J : nth (Z.to_nat (qHead g)) (queue g) 0 = j).
  { specialize (R7 0 ltac:(lia)). rewrite Z.add_0_r, Z.mod_small in R7 by lia. exact R7. }
  exists j, q'. split; [reflexivity|]. cbn. split; [rewrite J; reflexivity|].
  unfold ring. cbn. split; [exact R1|]. split; [exact R2|]. split; [apply Z.mod_pos_bound; lia|].
  split; [rewrite R4, Zplus_mod_idemp_l; f_equal; lia|]. split; [lia|]. split.
  - rewrite R4. destruct (Z.eqb_spec (zlen q') 0) as [Z0|Z0].
    + rewrite Z0, Z.add_0_r. apply Z.eqb_refl.
    + apply Z.eqb_neq. intros Q.
      assert (D : (zlen q') mod qSize g = 0).
      { replace (zlen q') with ((qHead g + (1 + zlen q')) - (qHead g + 1)) by lia. rewrite Zminus_mod, <- Q, Z.sub_diag. apply Z.mod_0_l. lia. }
      rewrite Z.mod_small in D by lia. lia.
  - intros k K. specialize (R7 (k + 1) ltac:(lia)). rewrite Zplus_mod_idemp_l. replace (qHead g + 1 + k) with (qHead g + (k + 1)) by lia. rewrite R7.
    replace (Z.to_nat (k + 1)) with (S (Z.to_nat k)) by lia. reflexivity.
Qed.
Lemma holder_unique N progs g ws cs ow t u : inv N progs g ws cs ow -> holds ws cs ow t = true -> holds ws cs ow u = true -> t = u.
Proof. intros I H1 H2. apply (i_m _ _ _ _ _ _ I) in H1, H2. congruence. Qed.
Lemma wfact_free g g' p : holdsw p = false -> shutdown g' = shutdown g -> wfact g p -> wfact g' p.
Proof. intros H F W. destruct p; cbn in *; try discriminate; congruence. Qed.
Lemma cfact_free g g' n n' c : holdsc c = false -> cfact g n c -> cfact g' n' c.
Proof. unfold holdsc, cfact. destruct (c_pc c); trivial; discriminate. Qed.
Lemma worker_inv N progs g ws cs ow i p g' p' e : inv N progs g ws cs ow -> nth_error ws i = Some p -> wstep i g p = Go g' p' e ->
  inv N progs g' (set_nth ws i p') cs ow.
Proof.
  intros I Hn E. pose proof (wstep_mutex _ _ _ _ _ _ E) as MX.
  destruct (wstep_frame _ _ _ _ _ _ E) as (F1 & F2 & F3 & F4 & F5 & F6 & F7 & F8 & FB & FF & (x & FS & FP) & FN & _ & NX & NW).
  pose proof (nth_error_lt _ _ _ Hn) as Li.
  assert (MI : forall t, holds (set_nth ws i p') cs ow t = true <-> mutex g' = Some t).
  { apply (mutex_step (holds ws cs ow) _ (mutex g) _ (TW i)); [apply I| |].
    - intros [|k|k] NE; cbn [holds]; trivial. rewrite set_nth_other by congruence. reflexivity.
    - cbn [holds]. rewrite set_nth_same by exact Li. rewrite Hn. exact MX. }
  assert (OTH : forall j pj, i <> j -> nth_error ws j = Some pj -> holdsw p = true -> holdsw pj = false).
  { intros j pj NE Ej Hp. destruct (holdsw pj) eqn:Hj; [|reflexivity]. exfalso. assert (TW i = TW j); [|congruence].
    apply (holder_unique _ _ _ _ _ _ _ _ I); cbn; rewrite ?Hn, ?Ej; assumption. }
  assert (OTC : forall k c, nth_error cs k = Some c -> holdsw p = true -> holdsc c = false).
  { intros k c Ek Hp. destruct (holdsc c) eqn:Hk; [|reflexivity]. exfalso. assert (TW i = TC k); [|discriminate].
    apply (holder_unique _ _ _ _ _ _ _ _ I); cbn; rewrite ?Hn, ?Ek; assumption. }
  destruct I as [a1 a6 a7 a8 a9 a10 a11 a12 a13 a14 a15 a16 a17 a18 a19 a20]. pose proof (a7 i p Hn) as WF.
  constructor; rewrite ?set_nth_length; trivial.
  - rewrite FB, a6, (sumf_set isbusy ws i p p' Hn). reflexivity.
  - intros j pj Ej. apply set_nth_get in Ej. destruct Ej as [[<- ->]|[NE Ej]].
    + clear - E WF a10. destruct p; cbn [wstep] in E; unfold_step E; cbn in *; trivial; try tauto.
      * apply orb_true_iff in Heqb. destruct Heqb; [left; assumption|right; lia].
      * apply orb_false_iff in Heqb. split; [apply Heqb|lia].
    + destruct (holdsw p) eqn:Hp; [exact (wfact_free g g' pj (OTH j pj NE Ej eq_refl) F6 (a7 j pj Ej))|].
      destruct (FF eq_refl) as (G1 & G2 & G3 & _). specialize (a7 j pj Ej). destruct pj; cbn in *; rewrite ?F2, ?F6, ?G2, ?G3; assumption.
  - intros k c Ek. destruct (holdsw p) eqn:Hp; [exact (cfact_free g g' _ _ c (OTC k c Ek eq_refl) (a8 k c Ek))|].
    destruct (FF eq_refl) as (G1 & G2 & G3 & _). specialize (a8 k c Ek). unfold cfact, isQueueFull in *. rewrite F1, F2, F4, F5, G1, G2, G3. exact a8.
  - unfold ofact in *. rewrite set_nth_length, ?F1, ?F2. destruct ow; trivial.
    + destruct a9 as (b1 & b2 & b3). split; [exact b1|]. split.
      * intros k q Ek L. apply set_nth_get in Ek. destruct Ek as [[<- ->]|[NE Ek]]; [|exact (b2 k q Ek L)]. exfalso. apply NX. exact (b2 i p Hn L).
      * intros k q Ek. apply set_nth_get in Ek. destruct Ek as [[<- ->]|[NE Ek]]; [|exact (b3 k q Ek)]. intros ->. rewrite (wstep_wait _ _ _ _ _ E) in WF. cbn in WF. destruct WF. cbn in a10. congruence.
    + exfalso. apply NX. exact (a9 i p Hn).
    + exfalso. apply NX. exact (a9 i p Hn).
  - rewrite F6. exact a10.
  - rewrite F7. exact a11.
  - intros EA. specialize (a12 EA). destruct (FN) as (_ & -> & _); [|exact a12]. intros ->. destruct WF. congruence.
  - intros EA. rewrite F2. apply a13. destruct p; try (destruct FN as (_ & Q & _); [discriminate|congruence]). exact (proj1 WF).
  - rewrite F1. exact a15.
  - rewrite F1. exact a16.
  - destruct a17 as (q & AQ & R). assert (DP : {p = W_pop} + {p <> W_pop}) by (destruct p; (left; reflexivity) || (right; discriminate)). destruct DP as [->|NP].
    + destruct (pop_ring g q g' p' e i R (proj1 WF) E) as (j & q' & -> & S' & R'). exists q'. rewrite F8, S', AQ, <- app_assoc. split; [reflexivity|exact R'].
    + destruct (FN NP) as (G1 & G2 & G3). exists q. rewrite F8, G3. split; [exact AQ|]. unfold ring. rewrite F3, F4, F5, G1, G2. exact R.
  - pose proof (flat_map_set heldjob ws i p p' Hn) as FM. rewrite FS. clear - FM FP a18. perm.
  - rewrite F8. exact a20.
Qed.
