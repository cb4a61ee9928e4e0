(** The end of an execution of the thread pool; schedules for examples. *)
From Coq Require Import Permutation.
From Verif Require Import Base Mem P_Base M_Pool P_Pool1 P_Pool2 P_Pool3 P_Pool4 P_Pool5 P_Pool6.
Import Pool.

Definition fresh (progs : list (list op)) : list client := map (fun p => Cl p C_idle []) progs.
(** whether the clients run is decided by whether all threads could be created *)
Definition ended (N : Z) (progs : list (list op)) (s : st) : Prop :=
  (early (ow s) = true -> cs s = fresh progs) /\
  (early (ow s) = false -> ready (ow s) = false -> (cs s = fresh progs /\ Z.of_nat (length (ws s)) < N) \/ forallb finished_client (cs s) = true).
Lemma woke_idle cs cs' : woke cwake cs cs' -> (forall k c, nth_error cs k = Some c -> c_pc c = C_idle) -> cs' = cs.
Proof.
  intros W. induction W as [|c c' cs cs' D W IH]; intros H; [reflexivity|]. rewrite (IH (fun k => H (S k))). f_equal. specialize (H 0%nat c eq_refl). destruct D as [-> | ->]; trivial. unfold cwake. rewrite H. reflexivity.
Qed.
Lemma affects_idle e ws cs ws' cs' : affects e ws cs ws' cs' -> (forall k c, nth_error cs k = Some c -> c_pc c = C_idle) -> cs' = cs /\ (e <> E_spawn -> length ws' = length ws).
Proof.
  intros A H. destruct (match e with E_spawn => true | _ => false end) eqn:SE.
  - destruct e; try discriminate. destruct A as [_ ->]. split; [reflexivity|congruence].
  - destruct (affects_woke _ _ _ _ _ A) as [WW WC]; [intros ->; discriminate|]. split; [exact (woke_idle _ _ WC H)|intros _; exact (woke_length _ _ _ WW)].
Qed.
Lemma step_ended N progs s s' : inv N progs (sh s) (ws s) (cs s) (ow s) -> ended N progs s -> step N s s' -> ended N progs s'.
Proof.
  intros I [A B] HS. destruct HS as [s i p g p' e ws' cs' Hn E AF|s ok k c g c' e ws' cs' R Hn E AF|s ok g p' e ws' cs' E AF]; unfold ended; cbn [sh ws cs ow] in *.
  - assert (NS : e <> E_spawn) by (clear - E; unfold wstep in E; destruct p; unfold_step E; discriminate). destruct (ready (ow s)) eqn:R.
    + destruct (ow s); try discriminate. split; discriminate.
    + destruct (affects_idle _ _ _ _ _ AF (i_quiet _ _ _ _ _ _ I R)) as [-> LW]. rewrite (LW NS), set_nth_length. split; [exact A|exact (fun X _ => B X eq_refl)].
  - destruct (ow s); try discriminate. split; discriminate.
  - pose proof (ostep_idle _ _ _ _ _ _ _ _ _ E (i_quiet _ _ _ _ _ _ I)) as IDLE. destruct (affects_idle _ _ _ _ _ AF IDLE) as [-> LW]. pose proof (i_o _ _ _ _ _ _ I) as O.
    clear - A B E LW O. unfold ostep in E. destruct (ow s); unfold_step E; cbn in *; split; try discriminate; auto; intros _ _; rewrite ?LW by discriminate; auto.
    left. split; [auto|]. lia.
Qed.
Lemma exec_ended N n m queueSize junk progs s : 1 <= N -> 0 <= queueSize -> zlen junk = queueSize + 1 -> progs_ok progs -> exec N n m (init queueSize junk progs) s -> ended N progs s.
Proof.
  intros N1 Q0 Jk PO E. remember (init queueSize junk progs) as s0 eqn:E0. induction E as [s|n m s s' s'' E IH HS|n m s s' s'' E IH HS].
  - subst s. split; [reflexivity|discriminate].
  - subst s. exact (step_ended _ _ _ _ (exec_inv _ _ _ _ _ _ _ N1 Q0 Jk PO E) (IH eq_refl) HS).
  - subst s. destruct (IH eq_refl) as [A B]. pose proof (exec_inv _ _ _ _ _ _ _ N1 Q0 Jk PO E) as I. destruct HS as [s i Hn|s k c Hn NE]; unfold ended; cbn [ws cs ow].
    + rewrite set_nth_length. auto.
    + destruct (ready (ow s)) eqn:R.
      * destruct (ow s); try discriminate. split; discriminate.
      * exfalso. apply NE. unfold cwake. rewrite (i_quiet _ _ _ _ _ _ I R k c Hn). reflexivity.
Qed.
Lemma nil_of {A} (l : list A) : Z.of_nat (length l) = 0 -> l = [].
Proof. destruct l; cbn; [reflexivity|lia]. Qed.
Lemma final_state N n m queueSize junk progs s : 1 <= N -> 0 <= queueSize -> zlen junk = queueSize + 1 -> progs_ok progs -> exec N n m (init queueSize junk progs) s -> ow s = O_done ->
  freed (sh s) = true /\ mutex (sh s) = None /\ (forall i p, nth_error (ws s) i = Some p -> p = W_exited) /\ started (sh s) = added (sh s) /\ Permutation (finished (sh s)) (added (sh s)) /\
  ((Z.of_nat (length (ws s)) < N /\ cs s = fresh progs /\ added (sh s) = []) \/
   (Forall2 (fun p c => c_pc c = C_idle /\ map fst (c_res c) = p) progs (cs s) /\ Permutation (added (sh s)) (flat_map (fun c => flat_map acc (c_res c)) (cs s)))).
Proof.
  intros N1 Q0 Jk PO E D. pose proof (exec_inv _ _ _ _ _ _ _ N1 Q0 Jk PO E) as I. destruct (exec_J _ _ _ _ _ _ _ N1 Q0 Jk PO E) as [A1 _]. destruct (exec_ended _ _ _ _ _ _ _ N1 Q0 Jk PO E) as [_ EN].
  rewrite D in *. specialize (EN eq_refl eq_refl). pose proof (i_o _ _ _ _ _ _ I) as EX. cbn [ofact] in EX. pose proof (i_quiet _ _ _ _ _ _ I eq_refl) as IDLE.
  assert (QE : qEmpty (sh s) = true).
  { destruct (qEmpty (sh s)) eqn:QE; [reflexivity|]. exfalso. destruct (A1 QE) as [X|X]; apply existsb_nth in X; destruct X as (i & p & Ei & F).
    - rewrite (EX i p Ei) in F. discriminate.
    - unfold atsig in F. rewrite (IDLE i p Ei) in F. discriminate. }
  destruct (i_ring _ _ _ _ _ _ I) as (q & AQ & R). assert (q = []). { destruct R as (_ & _ & _ & _ & _ & R6 & _). rewrite QE in R6. symmetry in R6. apply Z.eqb_eq in R6. exact (nil_of q R6). } subst q. rewrite app_nil_r in AQ.
  split; [apply (i_fr _ _ _ _ _ _ I); reflexivity|]. split.
  { destruct (mutex (sh s)) as [t|] eqn:EM; [|reflexivity]. apply (i_m _ _ _ _ _ _ I) in EM. destruct t as [|k|i]; cbn in EM; try discriminate.
    - destruct (nth_error (cs s) k) as [c|] eqn:Ek; [|discriminate]. unfold holdsc in EM. rewrite (IDLE k c Ek) in EM. discriminate.
    - destruct (nth_error (ws s) i) as [p|] eqn:Ei; [|discriminate]. rewrite (EX i p Ei) in EM. discriminate. }
  split; [exact EX|]. split; [auto|]. split.
  { pose proof (i_fin _ _ _ _ _ _ I) as F. rewrite flat_map_nil in F; [rewrite app_nil_r in F; rewrite AQ; symmetry; exact F|]. intros p Ip. apply In_nth_error in Ip. destruct Ip as [i Ei]. rewrite (EX i p Ei). reflexivity. }
  pose proof (i_added _ _ _ _ _ _ I) as AD. destruct EN as [[EN L]|EN]; [left|right].
  - split; [exact L|]. split; [exact EN|]. rewrite EN in AD. rewrite flat_map_nil in AD; [apply Permutation_sym, Permutation_nil in AD; exact AD|]. intros c Ic. apply in_map_iff in Ic. destruct Ic as (p & <- & _). reflexivity.
  - split.
    + pose proof (i_prog _ _ _ _ _ _ I) as PR. clear - PR EN IDLE. revert EN IDLE. induction PR as [|p c progs cs H PR IH]; intros EN IDLE; constructor.
      * pose proof (idle_all _ EN 0%nat c eq_refl) as [X Y]. split; [exact X|]. rewrite H, X, Y. cbn. rewrite app_nil_r. reflexivity.
      * cbn in EN. apply andb_true_iff in EN. apply IH; [apply EN|exact (fun k => IDLE (S k))].
    + rewrite AD. replace (flat_map accepted (cs s)) with (flat_map (fun c => flat_map acc (c_res c)) (cs s)); [apply Permutation_refl|].
      clear - IDLE. revert IDLE. induction (cs s) as [|c l IH]; intros H; cbn [flat_map]; [reflexivity|]. rewrite (IH (fun k => H (S k))). f_equal. unfold accepted. rewrite (H 0%nat c eq_refl). symmetry. apply app_nil_r.
Qed.

(** ** without POOL_resize the limit is the number of threads *)
Definition no_resize (progs : list (list op)) : Prop := forall p o, In p progs -> In o p -> forall n, o <> Resize n.
Lemma no_resize_ok progs : no_resize progs -> progs_ok progs.
Proof. intros H p n Ip Io. exfalso. exact (H p (Resize n) Ip Io n eq_refl). Qed.
Definition limit_is (N : Z) (s : st) : Prop := early (ow s) = false -> ready (ow s) = true -> limit (sh s) = N /\ Z.of_nat (length (ws s)) = N.
Lemma step_limit N progs s s' : no_resize progs -> inv N progs (sh s) (ws s) (cs s) (ow s) -> limit_is N s -> step N s s' -> limit_is N s'.
Proof.
  intros NR I L HS. destruct HS as [s i p g p' e ws' cs' Hn E A|s ok k c g c' e ws' cs' R Hn E A|s ok g p' e ws' cs' E A]; unfold limit_is in *; cbn [sh ws cs ow] in *; intros EA RD.
  - assert (NS : e <> E_spawn /\ limit g = limit (sh s)) by (clear - E; unfold wstep in E; destruct p; unfold_step E; split; trivial; discriminate). destruct NS as [NS ->].
    destruct (affects_woke _ _ _ _ _ A NS) as [WW _]. rewrite (woke_length _ _ _ WW), set_nth_length. exact (L EA RD).
  - assert (NR' : forall n, ~ In (Resize n) (current (c_pc c))).
    { intros n In1. destruct (Forall2_at _ _ _ _ _ (i_prog _ _ _ _ _ _ I) Hn) as (p & Ip & Ep). apply (NR p (Resize n) Ip) with (n := n); [|reflexivity]. rewrite Ep. apply in_or_app. right. apply in_or_app. left. exact In1. }
    assert (NS : e <> E_spawn /\ limit g = limit (sh s)).
    { clear - E NR'. unfold cstep in E. destruct (c_pc c); unfold_step E; split; trivial; try discriminate; exfalso; eapply NR'; cbn; left; reflexivity. }
    destruct NS as [NS ->]. destruct (affects_woke _ _ _ _ _ A NS) as [WW _]. rewrite (woke_length _ _ _ WW). exact (L EA RD).
  - pose proof (i_o _ _ _ _ _ _ I) as O. clear - E A RD O EA. unfold ostep in E. destruct (ow s); unfold_step E; try discriminate. destruct A as [-> _]. cbn in *. split; [reflexivity|apply O].
Qed.
Lemma exec_limit N n m queueSize junk progs s : 1 <= N -> 0 <= queueSize -> zlen junk = queueSize + 1 -> no_resize progs -> exec N n m (init queueSize junk progs) s -> limit_is N s.
Proof.
  intros N1 Q0 Jk NR E. remember (init queueSize junk progs) as s0 eqn:E0. induction E as [s|n m s s' s'' E IH HS|n m s s' s'' E IH HS].
  - subst s. discriminate.
  - subst s. exact (step_limit _ _ _ _ NR (exec_inv _ _ _ _ _ _ _ N1 Q0 Jk (no_resize_ok _ NR) E) (IH eq_refl) HS).
  - specialize (IH E0). destruct HS as [s' i Hn|s' k c Hn NE]; unfold limit_is in *; cbn [sh ws cs ow]; rewrite ?set_nth_length; exact IH.
Qed.
Lemma busy_le ws : sumf isbusy ws <= Z.of_nat (length ws).
Proof. induction ws as [|p ws IH]; cbn [sumf length]; [lia|]. assert (isbusy p <= 1) by (destruct p; cbn; lia). lia. Qed.

(** ** schedules *)
Inductive choice := PW (i : nat) | PC (ok : bool) (k : nat) | PO (ok : bool).
Definition wake_all (e : effect) (ws : list wpc) (cs : list client) : list wpc * list client :=
  match e with
  | E_none => (ws, cs) | E_signal_push | E_bcast_push => (ws, map cwake cs) | E_signal_pop | E_bcast_pop => (map wwake ws, cs) | E_spawn => (ws ++ [W_top], cs)
  end.
Definition go (N : Z) (ch : choice) (s : st) : option st :=
  match ch with
  | PW i => match nth_error (ws s) i with
      | Some p => match wstep i (sh s) p with Go g p' e => let '(w, c) := wake_all e (set_nth (ws s) i p') (cs s) in Some (St g w c (ow s)) | _ => None end
      | None => None end
  | PC ok k => if ready (ow s) then match nth_error (cs s) k with
      | Some c => match cstep ok k (sh s) c with Go g c' e => let '(w, c) := wake_all e (ws s) (set_nth (cs s) k c') in Some (St g w c (ow s)) | _ => None end
      | None => None end else None
  | PO ok => match ostep N ok (forallb finished_client (cs s)) (ws s) (sh s) (ow s) with Go g p' e => let '(w, c) := wake_all e (ws s) (cs s) in Some (St g w c p') | _ => None end
  end.
Fixpoint run (N : Z) (l : list choice) (s : st) : option (nat * st) :=
  match l with [] => Some (0%nat, s) | ch :: l => match go N ch s with Some s' => match run N l s' with Some (n, s'') => Some (S n, s'') | None => None end | None => None end end.
Lemma wake_all_ok e ws cs : affects e ws cs (fst (wake_all e ws cs)) (snd (wake_all e ws cs)).
Proof.
  assert (SW : forall {A} (wake : A -> A) l, some_woken wake l (map wake l)).
  { intros A wake l. split; [apply woke_all|]. intros (i & p & E & NP). exists i, p. repeat split; trivial. rewrite nth_error_map, E. reflexivity. }
  destruct e; cbn; auto.
Qed.
Lemma go_step N ch s s' : go N ch s = Some s' -> step N s s'.
Proof.
  unfold go. destruct ch as [i|ok k|ok].
  - destruct (nth_error (ws s) i) as [p|] eqn:Hn; [|discriminate]. destruct (wstep i (sh s) p) as [| |g p' e] eqn:E; try discriminate. pose proof (wake_all_ok e (set_nth (ws s) i p') (cs s)) as A. destruct (wake_all _ _ _) as [w c]. intros X. injection X as <-. exact (Step_worker N s i p g p' e w c Hn E A).
  - destruct (ready (ow s)) eqn:R; [|discriminate]. destruct (nth_error (cs s) k) as [c|] eqn:Hn; [|discriminate]. destruct (cstep ok k (sh s) c) as [| |g p' e] eqn:E; try discriminate. pose proof (wake_all_ok e (ws s) (set_nth (cs s) k p')) as A. destruct (wake_all _ _ _) as [w c1]. intros X. injection X as <-. exact (Step_client N s ok k c g p' e w c1 R Hn E A).
  - destruct (ostep _ _ _ _ _ _) as [| |g p' e] eqn:E; try discriminate. pose proof (wake_all_ok e (ws s) (cs s)) as A. destruct (wake_all _ _ _) as [w c]. intros X. injection X as <-. exact (Step_owner N s ok g p' e w c E A).
Qed.
Lemma exec_app N n m s s' n' m' s'' : exec N n m s s' -> exec N n' m' s' s'' -> exec N (n' + n) (m' + m) s s''.
Proof. intros E1 E2. induction E2; cbn; [exact E1|econstructor; eauto|econstructor 3; eauto]. Qed.
Lemma run_exec N l s n s' : run N l s = Some (n, s') -> exec N n 0 s s'.
Proof.
  revert s n. induction l as [|ch l IH]; cbn [run]; intros s n E; [injection E as <- <-; constructor|]. destruct (go N ch s) as [s1|] eqn:G; [|discriminate]. destruct (run N l s1) as [[n1 s2]|] eqn:R; [|discriminate]. injection E as <- <-.
  replace (S n1) with (n1 + 1)%nat by lia. apply (exec_app N 1 0 s s1 n1 0 s2); [|apply IH; exact R]. exact (Exec_step N 0 0 s s s1 (Exec_nil N s) (go_step _ _ _ _ G)).
Qed.
(** a round-robin schedule, for examples *)
Fixpoint robin (N : Z) (fuel : nat) (all : list choice) (s : st) : list choice :=
  match fuel with
  | O => []
  | S f => match find (fun ch => match go N ch s with Some _ => true | None => false end) all with
      | Some ch => match go N ch s with Some s' => ch :: robin N f (tl all ++ firstn 1 all) s' | None => [] end
      | None => [] end
  end.
