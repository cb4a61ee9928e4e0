(** The invariant of the thread pool holds in every state that can be reached, and no step is undefined. *)
From Coq Require Import Permutation.
From Verif Require Import Base Mem P_Base M_Pool P_Pool1 P_Pool2 P_Pool3.
Import Pool.

Lemma idle_all cs : forallb finished_client cs = true -> forall k c, nth_error cs k = Some c -> c_pc c = C_idle /\ c_prog c = [].
Proof.
  intros F k c E. apply nth_error_In in E. rewrite forallb_forall in F. specialize (F c E). unfold finished_client in F.
  destruct (c_pc c); try discriminate. destruct (c_prog c); [auto|discriminate].
Qed.
Lemma ostep_idle N ok cs ws g p g' p' e : ostep N ok (forallb finished_client cs) ws g p = Go g' p' e -> (ready p = false -> forall k c, nth_error cs k = Some c -> c_pc c = C_idle) ->
  forall k c, nth_error cs k = Some c -> c_pc c = C_idle.
Proof.
  intros E Q k c Ek. destruct (ready p) eqn:R; [|exact (Q eq_refl k c Ek)]. destruct p; try discriminate. cbn in E. destruct (forallb finished_client cs) eqn:F; [|discriminate].
  exact (proj1 (idle_all cs F k c Ek)).
Qed.
Lemma owner_pre N progs g ws cs ow ok g' p' e : 1 <= N -> inv N progs g ws cs ow -> (ow = O_bpop -> forall k p, nth_error ws k = Some p -> p <> W_waiting) ->
  ostep N ok (forallb finished_client cs) ws g ow = Go g' p' e -> inv N progs g' (grown e ws) cs p'.
Proof.
  intros N1 I NW E. pose proof (ostep_mutex _ _ _ _ _ _ _ _ _ E) as MX.
  assert (MI : forall t, holds (grown e ws) cs p' t = true <-> mutex g' = Some t).
  { intros t. rewrite grown_holds. revert t. apply (mutex_step (holds ws cs ow) _ (mutex g) _ TO); [apply I| |].
    - intros [|k'|k'] NE; cbn [holds]; trivial. congruence.
    - exact MX. }
  assert (OTH : forall j pj, nth_error ws j = Some pj -> holdso ow = true -> holdsw pj = false).
  { intros j pj Ej Hp. destruct (holdsw pj) eqn:Hj; [|reflexivity]. exfalso. assert (TO = TW j); [|discriminate].
    apply (holder_unique _ _ _ _ _ _ _ _ I); cbn; rewrite ?Ej; assumption. }
  destruct I as [a1 a6 a7 a8 a9 a10 a11 a12 a13 a14 a15 a16 a17 a18 a19 a20]. pose proof (ostep_idle _ _ _ _ _ _ _ _ _ E a14) as IDLE.
  assert (NSP : forall k c, nth_error cs k = Some c -> spawning c = false) by (intros k c Ek; unfold spawning; rewrite (IDLE k c Ek); reflexivity).
  assert (FR : busy g' = busy g /\ qEmpty g' = qEmpty g /\ queue g' = queue g /\ qHead g' = qHead g /\ qTail g' = qTail g /\ qSize g' = qSize g /\ added g' = added g /\ started g' = started g /\ finished g' = finished g).
  { clear - E. unfold ostep in E. destruct ow; unfold_step E; repeat split. }
  destruct FR as (F1 & F2 & F3 & F4 & F5 & F6 & F7 & F8 & F9).
  constructor; rewrite ?F7, ?F8, ?F9; trivial.
  - rewrite F1, grown_busy. exact a6.
  - intros j pj Ej. apply grown_get in Ej. destruct Ej as [Ej| ->]; [|exact Logic.I]. specialize (a7 j pj Ej). specialize (OTH j pj Ej). clear - a7 OTH E a12 F1 F2. destruct pj; cbn [wfact] in *; trivial; rewrite ?F1, ?F2; trivial;
      unfold ostep in E; destruct ow; unfold_step E; cbn in *; trivial; try (specialize (OTH eq_refl); discriminate); try (left; apply a12; reflexivity); try (split; [left; apply a12; reflexivity|apply a7]); exfalso; destruct a7; specialize (a12 eq_refl); congruence.
  - intros k c Ek. unfold cfact. rewrite (IDLE k c Ek). exact Logic.I.
  - rewrite grown_len || idtac. clear MX MI OTH a7 a8 a14 a17 a18 a19 a20. assert (CP : early ow = false -> capacity g = Z.of_nat (length ws)) by (intros EA; exact (a15 EA NSP)).
    unfold ostep in E. destruct ow; unfold_step E; cbn [ofact grown early] in *; cbn; rewrite ?app_length; cbn [length]; trivial; try (rewrite (CP eq_refl)); try (split; lia).
    + lia.
    + split; [lia|]. split; [intros; lia|exact (NW eq_refl)].
    + destruct a9 as (b1 & b2 & b3). split; [lia|]. split; [|exact b3]. intros k p Ek L. destruct (Z.eq_dec (Z.of_nat k) i) as [<-|NE]; [|apply (b2 k p Ek); lia].
      rewrite Nat2Z.id in *. congruence.
    + destruct a9 as (b1 & b2 & b3). intros k p Ek. apply (b2 k p Ek). pose proof (nth_error_lt _ _ _ Ek). rewrite (CP eq_refl) in *. lia.
  - clear - E a10. unfold ostep in E. destruct ow; unfold_step E; cbn in *; trivial.
  - clear - E a11. unfold ostep in E. destruct ow; unfold_step E; cbn in *; trivial; rewrite ?a11; split; congruence.
  - rewrite F2. clear - E a12. unfold ostep in E. destruct ow; unfold_step E; cbn in *; intros; try discriminate; auto.
  - rewrite F2. clear - E a13 N1. unfold ostep in E. destruct ow; unfold_step E; cbn in *; auto.
  - intros EA _. clear MX MI OTH a7 a8 a14 a17 a18 a19 a20. rewrite grown_len. unfold ostep in E. destruct ow; unfold_step E; cbn in *; try discriminate; try (rewrite (a15 eq_refl NSP)); try lia.
  - intros EA. clear MX MI OTH a7 a8 a14 a17 a18 a19 a20. rewrite grown_len. unfold ostep in E. destruct ow; unfold_step E; cbn in *; try discriminate; try (rewrite (a15 eq_refl NSP)); try lia.
  - destruct a17 as (q & AQ & R). exists q. split; [exact AQ|]. unfold ring. rewrite F2, F3, F4, F5, F6. exact R.
  - rewrite grown_held. exact a18.
Qed.
Lemma map_wwake_nowait ws k p : nth_error (map wwake ws) k = Some p -> p <> W_waiting.
Proof. rewrite nth_error_map. destruct (nth_error ws k) as [[]|]; cbn; congruence. Qed.
Lemma owner_inv N progs g ws cs ow ok g' p' e ws' cs' : 1 <= N -> inv N progs g ws cs ow -> ostep N ok (forallb finished_client cs) ws g ow = Go g' p' e -> affects e ws cs ws' cs' ->
  inv N progs g' ws' cs' p'.
Proof.
  intros N1 I E A. assert (CE : e = E_none \/ e = E_spawn \/ (ow = O_bpush /\ e = E_bcast_push) \/ (ow = O_bpop /\ e = E_bcast_pop)) by (clear - E; unfold ostep in E; destruct ow; unfold_step E; auto).
  destruct CE as [-> | [-> | [[-> ->] | [-> ->]]]]; cbn in A; destruct A as [-> ->].
  - apply (owner_pre N progs g ws cs ow ok g' p' E_none N1 I); [|exact E]. intros ->. discriminate.
  - apply (owner_pre N progs g ws cs ow ok g' p' E_spawn N1 I); [|exact E]. intros ->. discriminate.
  - apply (inv_wake _ _ _ _ _ _ ws (map cwake cs)) in I; [|apply woke_refl|apply woke_all]. cbn in E.
    apply (owner_pre N progs g ws (map cwake cs) O_bpush ok g' p' E_bcast_push N1 I); [discriminate|exact E].
  - apply (inv_wake _ _ _ _ _ _ (map wwake ws) cs) in I; [|apply woke_all|apply woke_refl]. cbn in E.
    apply (owner_pre N progs g (map wwake ws) cs O_bpop ok g' p' E_bcast_pop N1 I); [|exact E]. intros _. exact (map_wwake_nowait ws).
Qed.
Lemma affects_inv N progs g ws cs ow e ws' cs' : inv N progs g (grown e ws) cs ow -> affects e ws cs ws' cs' -> inv N progs g ws' cs' ow.
Proof.
  intros I A. destruct (match e with E_spawn => true | _ => false end) eqn:S1.
  - destruct e; try discriminate. destruct A as [-> ->]. exact I.
  - destruct (affects_woke _ _ _ _ _ A) as [WW WC]; [destruct e; congruence|]. apply (inv_wake _ _ _ ws cs); trivial. destruct e; trivial. discriminate.
Qed.
Lemma step_inv N progs s s' : 1 <= N -> progs_ok progs -> inv N progs (sh s) (ws s) (cs s) (ow s) -> step N s s' -> inv N progs (sh s') (ws s') (cs s') (ow s').
Proof.
  intros N1 PO I HS. destruct HS as [s i p g p' e ws' cs' Hn E A|s ok k c g c' e ws' cs' R Hn E A|s ok g p' e ws' cs' E A]; cbn [sh ws cs ow].
  - pose proof (worker_inv _ _ _ _ _ _ _ _ _ _ _ I Hn E) as I'. assert (NS : e <> E_spawn) by (clear - E; unfold wstep in E; destruct p; unfold_step E; discriminate).
    apply (affects_inv _ _ _ _ _ _ _ _ _) with (2 := A). destruct e; trivial. congruence.
  - pose proof (client_inv _ _ _ _ _ _ _ _ _ _ _ _ PO I R Hn E) as I'. exact (affects_inv _ _ _ _ _ _ _ _ _ I' A).
  - exact (owner_inv _ _ _ _ _ _ _ _ _ _ _ _ N1 I E A).
Qed.
Lemma woke_set {A} (wake : A -> A) l i p : nth_error l i = Some p -> woke wake l (set_nth l i (wake p)).
Proof. revert i. induction l as [|x l IH]; intros [|i] E; cbn in *; try discriminate; constructor; auto; [right; congruence|apply woke_refl|apply IH; exact E]. Qed.
Lemma spurious_inv N progs s s' : inv N progs (sh s) (ws s) (cs s) (ow s) -> spurious s s' -> inv N progs (sh s') (ws s') (cs s') (ow s').
Proof.
  intros I HS. destruct HS as [s i Hn|s k c Hn NE]; cbn [sh ws cs ow].
  - apply (inv_wake _ _ _ _ _ _ _ _ I); [|apply woke_refl]. exact (woke_set wwake _ _ _ Hn).
  - apply (inv_wake _ _ _ _ _ _ _ _ I); [apply woke_refl|]. exact (woke_set cwake _ _ _ Hn).
Qed.
Lemma flat_map_nil {A B} (f : A -> list B) l : (forall x, In x l -> f x = []) -> flat_map f l = [].
Proof. induction l as [|x l IH]; cbn; intros H; [reflexivity|]. rewrite H by auto. cbn. auto. Qed.
Lemma init_inv N queueSize junk progs : 1 <= N -> 0 <= queueSize -> zlen junk = queueSize + 1 -> let s := init queueSize junk progs in inv N progs (sh s) (ws s) (cs s) (ow s).
Proof.
  intros N1 Q J s. assert (CI : forall k c, nth_error (map (fun p => Cl p C_idle []) progs) k = Some c -> c_pc c = C_idle).
  { intros k c. rewrite nth_error_map. destruct (nth_error progs k); cbn; [|discriminate]. intros E. injection E as <-. reflexivity. }
  constructor; cbn.
  - intros t. split; [|discriminate]. destruct t as [|k|[|i]]; cbn; try discriminate. destruct (nth_error (map _ progs) k) as [c|] eqn:E; [|discriminate]. unfold holdsc. rewrite (CI k c E). discriminate.
  - reflexivity.
  - intros [|i] p E; discriminate.
  - intros k c E. unfold cfact. rewrite (CI k c E). exact Logic.I.
  - lia.
  - reflexivity.
  - split; discriminate.
  - reflexivity.
  - discriminate.
  - intros _. exact CI.
  - discriminate.
  - discriminate.
  - exists []. split; [reflexivity|]. unfold ring. cbn. change (zlen (@nil Z)) with 0. rewrite J. repeat split; try lia.
  - constructor.
  - clear. induction progs as [|p l IH]; cbn; constructor; auto.
  - rewrite flat_map_nil; [constructor|]. intros c I. apply in_map_iff in I. destruct I as (p & <- & _). reflexivity.
Qed.
Lemma exec_inv N n m queueSize junk progs s : 1 <= N -> 0 <= queueSize -> zlen junk = queueSize + 1 -> progs_ok progs -> exec N n m (init queueSize junk progs) s -> inv N progs (sh s) (ws s) (cs s) (ow s).
Proof.
  intros N1 Q J PO E. remember (init queueSize junk progs) as s0 eqn:E0. induction E as [s|n m s s' s'' E IH HS|n m s s' s'' E IH HS].
  - subst s. apply init_inv; assumption.
  - exact (step_inv _ _ _ _ N1 PO (IH E0) HS).
  - exact (spurious_inv _ _ _ _ (IH E0) HS).
Qed.

(** ** no step is undefined *)
Lemma unlock_ok {A} me g (a : A) : mutex g = Some me -> unlock me g a <> Bad.
Proof. intros E. unfold unlock. rewrite E. destruct (tid_dec me me); [discriminate|congruence]. Qed.
Lemma worker_ok N progs g ws cs ow i p : inv N progs g ws cs ow -> nth_error ws i = Some p -> wstep i g p <> Bad.
Proof.
  intros I Hn. assert (MU : holdsw p = true -> mutex g = Some (TW i)) by (intros H; apply (i_m _ _ _ _ _ _ I); cbn; rewrite Hn; exact H).
  destruct p; cbn; try discriminate; try (apply unlock_ok; apply MU; reflexivity); try (unfold lock; destruct (mutex g); discriminate).
  - destruct (_ || _); discriminate.
  - destruct (shutdown g); discriminate.
  - destruct (i_ring _ _ _ _ _ _ I) as (q & _ & R1 & R2 & R3 & _). unfold in_queue. rewrite <- R1. replace (0 <=? qHead g) with true by lia. replace (qHead g <? qSize g) with true by lia. rewrite Z.eqb_refl. discriminate.
Qed.
Lemma client_ok N progs g ws cs ow ok k c : inv N progs g ws cs ow -> nth_error cs k = Some c -> cstep ok k g c <> Bad.
Proof.
  intros I Hn. assert (MU : holdsc c = true -> mutex g = Some (TC k)) by (intros H; apply (i_m _ _ _ _ _ _ I); cbn; rewrite Hn; exact H).
  unfold holdsc in MU. unfold cstep. destruct (c_pc c) eqn:EP; cbn; try discriminate; try (apply unlock_ok; apply MU; reflexivity); try (unfold lock; destruct (mutex g); discriminate).
  - destruct (c_prog c); discriminate.
  - destruct (_ && _); discriminate.
  - destruct (isQueueFull g); discriminate.
  - destruct (shutdown g); [discriminate|]. destruct (i_ring _ _ _ _ _ _ I) as (q & _ & R1 & R2 & R3 & R4 & _). assert (0 <= qTail g < qSize g) by (rewrite R4; apply Z.mod_pos_bound; lia).
    unfold in_queue. rewrite <- R1. replace (0 <=? qTail g) with true by lia. replace (qTail g <? qSize g) with true by lia. rewrite Z.eqb_refl. discriminate.
  - destruct (n <=? capacity g), (n =? 0), ok; discriminate.
  - destruct (i <? n), ok; discriminate.
Qed.
Lemma owner_ok N progs g ws cs ow ok idle : inv N progs g ws cs ow -> ostep N ok idle ws g ow <> Bad.
Proof.
  intros I. assert (MU : holdso ow = true -> mutex g = Some TO) by (intros H; apply (i_m _ _ _ _ _ _ I); cbn; exact H).
  destruct ow; cbn; try discriminate; try (apply unlock_ok; apply MU; reflexivity); try (unfold lock; destruct (mutex g); discriminate).
  - destruct (i <? N), ok; discriminate.
  - destruct idle; discriminate.
  - destruct (Z.ltb_spec i (capacity g)) as [L|L]; [|discriminate]. pose proof (i_o _ _ _ _ _ _ I) as O. pose proof (i_capw _ _ _ _ _ _ I eq_refl) as CW. cbn in O. destruct O as [B _].
    destruct (nth_error ws (Z.to_nat i)) as [[]|] eqn:E; try discriminate. apply nth_error_None in E. lia.
Qed.
