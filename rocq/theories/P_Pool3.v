(** The invariant of the thread pool is kept by the steps of clients and of the owner. *)
From Coq Require Import Permutation.
From Verif Require Import Base Mem P_Base M_Pool P_Pool1 P_Pool2.
Import Pool.

Lemma cstep_frame ok k g c g' c' e : cstep ok k g c = Go g' c' e ->
  qHead g' = qHead g /\ qSize g' = qSize g /\ busy g' = busy g /\ shutdown g' = shutdown g /\ freed g' = freed g /\ started g' = started g /\ finished g' = finished g /\
  (holdsc c = false -> capacity g' = capacity g /\ limit g' = limit g /\ queue g' = queue g /\ qTail g' = qTail g /\ qEmpty g' = qEmpty g /\ added g' = added g /\ e <> E_spawn).
Proof.
  intros E. unfold cstep in E. unfold holdsc. destruct (c_pc c) eqn:EP; unfold_step E; cbn; repeat split; trivial; try discriminate.
Qed.
Lemma insert_ring g q j o c ok k g' c' e : ring g q -> isQueueFull g = false -> shutdown g = false -> c_pc c = C_insert o j -> cstep ok k g c = Go g' c' e ->
  added g' = added g ++ [j] /\ ring g' (q ++ [j]) /\ c_pc c' = C_signal o /\ e = E_none /\ qEmpty g' = false /\ capacity g' = capacity g /\ limit g' = limit g /\ c_prog c' = c_prog c /\ c_res c' = c_res c.
Proof.
  intros (R1 & R2 & R3 & R4 & R5 & R6 & R7) NF SD EP E. unfold cstep in E. rewrite EP, SD in E. destruct (in_queue g (qTail g)) eqn:IQ; [|discriminate]. injection E as <- <- <-. cbn.
  split; [reflexivity|]. split; [|repeat split; reflexivity].
  pose proof (zlen_nonneg q) as ZN. unfold isQueueFull in NF.
  assert (LT : zlen q < Z.max 1 (qSize g - 1)).
  { destruct (Z.ltb_spec 1 (qSize g)) as [L|L].
    - assert (zlen q <> qSize g - 1); [|lia]. intros Q. apply Z.eqb_neq in NF. apply NF. rewrite R4, Zplus_mod_idemp_l, Q. replace (qHead g + (qSize g - 1) + 1) with (qHead g + 1 * qSize g) by lia.
      rewrite Z.mod_add by lia. symmetry. apply Z.mod_small. lia.
    - apply orb_false_iff in NF. destruct NF as [_ NF]. apply negb_false_iff in NF. rewrite NF in R6. lia. }
  assert (TB : 0 <= qTail g < qSize g) by (rewrite R4; apply Z.mod_pos_bound; lia).
  unfold ring. cbn. rewrite zlen_app. change (zlen [j]) with 1. unfold zlen at 1. rewrite set_nth_length. fold (zlen (queue g)).
  split; [exact R1|]. split; [exact R2|]. split; [exact R3|]. split; [rewrite R4, Zplus_mod_idemp_l; f_equal; lia|]. split; [lia|]. split; [lia|].
  intros i I. rewrite set_nth_nth. unfold zlen in R1.
  destruct (Z.eq_dec i (zlen q)) as [->|NI].
  - rewrite R4, Nat.eqb_refl. replace (Nat.ltb (Z.to_nat ((qHead g + zlen q) mod qSize g)) (length (queue g))) with true by (rewrite <- R4; lia). cbn [andb].
    rewrite app_nth2 by (unfold zlen; lia). replace (Z.to_nat (zlen q) - length q)%nat with 0%nat by (unfold zlen; lia). reflexivity.
  - assert (MB : 0 <= (qHead g + i) mod qSize g < qSize g) by (apply Z.mod_pos_bound; lia).
    replace (Nat.eqb (Z.to_nat (qTail g)) (Z.to_nat ((qHead g + i) mod qSize g))) with false.
    + cbn [andb]. rewrite app_nth1 by (unfold zlen in *; lia). apply R7. lia.
    + symmetry. apply Nat.eqb_neq. intros Q. assert (Q' : (qHead g + zlen q) mod qSize g = (qHead g + i) mod qSize g) by (rewrite <- R4; lia).
      assert (D : (zlen q - i) mod qSize g = 0).
      { replace (zlen q - i) with ((qHead g + zlen q) - (qHead g + i)) by lia. rewrite Zminus_mod, Q', Z.sub_diag. apply Z.mod_0_l. lia. }
      rewrite Z.mod_small in D by lia. lia.
Qed.
Lemma Forall2_set {A B} (P : A -> B -> Prop) l l' k y y' : Forall2 P l l' -> nth_error l' k = Some y -> (forall x, P x y -> P x y') -> Forall2 P l (set_nth l' k y').
Proof. intros F. revert k. induction F as [|a b l l' H F IH]; intros [|k] E HP; cbn in *; try discriminate; constructor; auto. injection E as ->. auto. Qed.
Lemma Forall2_at {A B} (P : A -> B -> Prop) l l' k y : Forall2 P l l' -> nth_error l' k = Some y -> exists x, In x l /\ P x y.
Proof. intros F. revert k. induction F as [|a b l l' H F IH]; intros [|k] E; cbn in *; try discriminate; [injection E as <-; eauto|]. destruct (IH k E) as (x & I & Q). eauto. Qed.
Definition grown (e : effect) (ws : list wpc) : list wpc := match e with E_spawn => ws ++ [W_top] | _ => ws end.
Lemma grown_get e ws i p : nth_error (grown e ws) i = Some p -> nth_error ws i = Some p \/ p = W_top.
Proof.
  destruct e; cbn [grown]; auto. intros E. destruct (Nat.lt_ge_cases i (length ws)) as [L|L].
  - left. rewrite nth_error_app1 in E by exact L. exact E.
  - right. rewrite nth_error_app2 in E by exact L. destruct (i - length ws)%nat as [|[|n]]; cbn in E; congruence.
Qed.
Lemma grown_holds e ws cs ow t : holds (grown e ws) cs ow t = holds ws cs ow t.
Proof.
  destruct t as [| |i]; trivial. cbn [holds]. destruct e; trivial. cbn [grown]. destruct (Nat.lt_ge_cases i (length ws)) as [L|L].
  - rewrite nth_error_app1 by exact L. reflexivity.
  - rewrite nth_error_app2 by exact L. apply nth_error_None in L. rewrite L. destruct (i - length ws)%nat as [|[|n]]; reflexivity.
Qed.
Lemma grown_busy e ws : sumf isbusy (grown e ws) = sumf isbusy ws.
Proof. destruct e; trivial. cbn [grown]. rewrite sumf_app. cbn. lia. Qed.
Lemma grown_held e ws : flat_map heldjob (grown e ws) = flat_map heldjob ws.
Proof. destruct e; trivial. cbn [grown]. rewrite flat_map_app. cbn. apply app_nil_r. Qed.
Lemma grown_len e ws : Z.of_nat (length (grown e ws)) = Z.of_nat (length ws) + (if match e with E_spawn => true | _ => false end then 1 else 0).
Proof. destruct e; cbn [grown]; rewrite ?app_length; cbn [length]; lia. Qed.
(** the numbers of threads that are asked for are numbers *)
Definition progs_ok (progs : list (list op)) : Prop := forall p n, In p progs -> In (Resize n) p -> 0 <= n.

Lemma cstep_res ok k g c g' c' e : cstep ok k g c = Go g' c' e -> forall p, p = map fst (c_res c) ++ current (c_pc c) ++ c_prog c -> p = map fst (c_res c') ++ current (c_pc c') ++ c_prog c'.
Proof.
  intros E p ->. unfold cstep in E. destruct (c_pc c) eqn:EP; unfold_step E; cbn; rewrite ?EP; trivial.
  all: rewrite ?map_app, <- ?app_assoc; try (match goal with H : c_prog _ = _ |- _ => rewrite H end); reflexivity.
Qed.
Lemma client_inv N progs g ws cs ow k c ok g' c' e : progs_ok progs -> inv N progs g ws cs ow -> ready ow = true -> nth_error cs k = Some c -> cstep ok k g c = Go g' c' e ->
  inv N progs g' (grown e ws) (set_nth cs k c') ow.
Proof.
  intros PO I RD Hn E. pose proof (cstep_mutex _ _ _ _ _ _ _ E) as MX.
  destruct (cstep_frame _ _ _ _ _ _ _ E) as (F1 & F2 & F3 & F4 & F5 & F6 & F7 & FF). pose proof (nth_error_lt _ _ _ Hn) as Lk.
  assert (MI : forall t, holds (grown e ws) (set_nth cs k c') ow t = true <-> mutex g' = Some t).
  { intros t. rewrite grown_holds. revert t. apply (mutex_step (holds ws cs ow) _ (mutex g) _ (TC k)); [apply I| |].
    - intros [|k'|k'] NE; cbn [holds]; trivial. rewrite set_nth_other by congruence. reflexivity.
    - cbn [holds]. rewrite set_nth_same by exact Lk. rewrite Hn. exact MX. }
  assert (OTH : forall j pj, nth_error ws j = Some pj -> holdsc c = true -> holdsw pj = false).
  { intros j pj Ej Hp. destruct (holdsw pj) eqn:Hj; [|reflexivity]. exfalso. assert (TC k = TW j); [|discriminate].
    apply (holder_unique _ _ _ _ _ _ _ _ I); cbn; rewrite ?Hn, ?Ej; assumption. }
  assert (OTC : forall k' c1, k <> k' -> nth_error cs k' = Some c1 -> holdsc c = true -> holdsc c1 = false).
  { intros k' c1 NE Ek Hp. destruct (holdsc c1) eqn:Hk; [|reflexivity]. exfalso. assert (TC k = TC k'); [|congruence].
    apply (holder_unique _ _ _ _ _ _ _ _ I); cbn; rewrite ?Hn, ?Ek; assumption. }
  destruct I as [a1 a6 a7 a8 a9 a10 a11 a12 a13 a14 a15 a16 a17 a18 a19 a20]. pose proof (a8 k c Hn) as CF.
  assert (OW : ow = O_ready) by (destruct ow; try discriminate; reflexivity). subst ow. cbn [late] in a10.
  assert (RN : forall n, c_pc c = C_resize n -> 0 <= n).
  { intros n EP. destruct (Forall2_at _ _ _ _ _ a19 Hn) as (p & Ip & Ep). apply (PO p n Ip). rewrite Ep, EP. apply in_or_app. right. left. reflexivity. }
  assert (CAPC : c_pc c <> C_idle -> holdsc c = true -> spawning c = false -> capacity g = Z.of_nat (length ws)).
  { intros _ HC SP. apply a15; [reflexivity|]. intros k' c1 Ek. destruct (Nat.eq_dec k k') as [<-|NE]; [congruence|]. pose proof (OTC k' c1 NE Ek HC) as Q. unfold holdsc in Q. unfold spawning. destruct (c_pc c1); trivial. }
  cbn [ofact] in a9. destruct a9 as [L1 W1].
  (* the step itself: limit, capacity, number of threads *)
  assert (CORE : 1 <= limit g' /\ cfact g' (Z.of_nat (length (grown e ws))) c' /\ (spawning c' = false -> (spawning c = true -> capacity g' = Z.of_nat (length (grown e ws))) /\ (spawning c = false -> capacity g' = capacity g /\ e <> E_spawn)) /\
    (spawning c' = true -> capacity g' <= Z.of_nat (length (grown e ws))) /\ (e = E_spawn -> spawning c' = true)).
  { rewrite grown_len. clear MI MX OTH OTC a17 a18 a19 a20 FF PO. unfold spawning, holdsc in *. unfold cstep in E. destruct (c_pc c) eqn:EP; unfold_step E; cbn; unfold cfact in *; cbn; rewrite ?EP in *; cbn in *; repeat split; trivial; try discriminate; try lia; try tauto; try (intros; congruence).
    all: try match goal with |- context [match ?o with _ => _ end] => destruct o; cbn; trivial end.
    all: try (apply andb_true_iff in Heqb; apply Heqb).
    all: try (left; reflexivity). all: try (right; reflexivity).
    all: try (exists j; apply CF).
    all: try (apply andb_false_iff in Heqb; destruct Heqb as [Q|Q]; [exact Q|apply negb_false_iff in Q; congruence]).
    all: try (specialize (RN _ eq_refl); lia).
    all: try (specialize (CAPC ltac:(discriminate) eq_refl eq_refl); lia). }
  destruct CORE as (K1 & K2 & K3 & K4 & K5).
  constructor; rewrite ?set_nth_length; trivial.
  - rewrite F3, a6, grown_busy. reflexivity.
  - intros j pj Ej. apply grown_get in Ej. destruct Ej as [Ej| ->]; [|exact Logic.I]. destruct (holdsc c) eqn:Hc.
    + exact (wfact_free g g' pj (OTH j pj Ej eq_refl) F4 (a7 j pj Ej)).
    + destruct (FF eq_refl) as (G1 & G2 & G3 & G4 & G5 & G6 & _). specialize (a7 j pj Ej). destruct pj; cbn in *; rewrite ?F3, ?F4, ?G2, ?G5; assumption.
  - intros k' c1 Ek. apply set_nth_get in Ek. destruct Ek as [[<- ->]|[NE Ek]]; [exact K2|]. destruct (holdsc c) eqn:Hc.
    + exact (cfact_free g g' _ _ c1 (OTC k' c1 NE Ek eq_refl) (a8 k' c1 Ek)).
    + destruct (FF eq_refl) as (G1 & G2 & G3 & G4 & G5 & G6 & G7). specialize (a8 k' c1 Ek). rewrite grown_len. replace (match e with E_spawn => true | _ => false end) with false by (destruct e; congruence). rewrite Z.add_0_r.
      unfold cfact, isQueueFull in *. rewrite F1, F2, F3, G1, G2, G4, G5. exact a8.
  - cbn [ofact]. split; [exact K1|]. rewrite grown_len. clear - W1. destruct e; lia.
  - rewrite F4. exact a10.
  - rewrite F5. exact a11.
  - discriminate.
  - discriminate.
  - intros _ NS. assert (SC' : spawning c' = false) by (apply (NS k); apply set_nth_same; exact Lk). destruct (K3 SC') as [K3a K3b]. destruct (spawning c) eqn:SC; [exact (K3a eq_refl)|].
    destruct (K3b eq_refl) as [-> NSP]. rewrite grown_len. replace (match e with E_spawn => true | _ => false end) with false by (destruct e; congruence). rewrite Z.add_0_r. apply a15; [reflexivity|].
    intros k' c1 Ek. destruct (Nat.eq_dec k k') as [<-|NE]; [congruence|]. apply (NS k'). rewrite set_nth_other by exact NE. exact Ek.
  - intros _. destruct (spawning c') eqn:SC'; [exact (K4 eq_refl)|]. destruct (K3 eq_refl) as [K3a K3b]. destruct (spawning c) eqn:SC; [rewrite (K3a eq_refl); apply Z.le_refl|]. destruct (K3b eq_refl) as [-> _]. rewrite grown_len. specialize (a16 eq_refl). clear - a16. destruct e; lia.
  - destruct a17 as (q & AQ & R). rewrite F6. assert (DI : (exists o j, c_pc c = C_insert o j) \/ (forall o j, c_pc c <> C_insert o j)) by (destruct (c_pc c); (left; eauto; fail) || (right; discriminate)).
    destruct DI as [(o & j & EP)|NI].
    + unfold cfact in CF. rewrite EP in CF. destruct CF as [NF _]. destruct (insert_ring g q j o c ok k g' c' e R NF a10 EP E) as (-> & R' & _). exists (q ++ [j]). rewrite AQ, app_assoc. split; [reflexivity|exact R'].
    + exists q. assert (SM : added g' = added g /\ queue g' = queue g /\ qTail g' = qTail g /\ qEmpty g' = qEmpty g).
      { clear - E NI. unfold cstep in E. destruct (c_pc c); unfold_step E; try (exfalso; eapply NI; reflexivity); repeat split. }
      destruct SM as (-> & S2 & S3 & S4). split; [exact AQ|]. unfold ring. rewrite F1, F2, S2, S3, S4. exact R.
  - rewrite F6, F7, grown_held. exact a18.
  - apply (Forall2_set _ _ _ _ _ _ a19 Hn). exact (cstep_res _ _ _ _ _ _ _ E).
  - pose proof (flat_map_set accepted cs k c c' Hn) as FM.
    assert (AC : exists x, added g' = added g ++ x /\ Permutation (accepted c ++ x) (accepted c')).
    { clear - E CF a10. unfold cstep, cfact, accepted in *. destruct (c_pc c) eqn:EP; unfold_step E; cbn; rewrite ?EP in *.
      all: try (exists []; rewrite ?app_nil_r; split; [reflexivity|apply Permutation_refl]); try congruence.
      - eexists. split; [reflexivity|]. rewrite app_nil_r. destruct CF as [_ [-> | ->]]; apply Permutation_refl.
      - exists []. rewrite ?app_nil_r. split; [reflexivity|]. rewrite flat_map_app. cbn. rewrite app_nil_r. apply Permutation_refl. }
    destruct AC as (x & -> & PX). clear - FM PX a20. perm.
Qed.
