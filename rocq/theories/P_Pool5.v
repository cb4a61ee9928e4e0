(** No wake-up is lost: the thread pool never stops before it is done. *)
From Coq Require Import Permutation.
From Verif Require Import Base Mem P_Base M_Pool P_Pool1 P_Pool2 P_Pool3 P_Pool4.
Import Pool.

(** ** existsb and updates *)
Lemma existsb_nth {A} (f : A -> bool) l : existsb f l = true <-> exists i p, nth_error l i = Some p /\ f p = true.
Proof.
  rewrite existsb_exists. split.
  - intros (x & I & F). apply In_nth_error in I. destruct I as [i E]. eauto.
  - intros (i & p & E & F). apply nth_error_In in E. eauto.
Qed.
Lemma existsb_set {A} (f : A -> bool) l i p v : nth_error l i = Some p -> existsb f l = true -> (f p = true -> f v = true) -> existsb f (set_nth l i v) = true.
Proof.
  rewrite !existsb_nth. intros E (j & q & Ej & F) M. destruct (Nat.eq_dec i j) as [<-|N].
  - exists i, v. split; [apply set_nth_same; exact (nth_error_lt _ _ _ E)|]. apply M. congruence.
  - exists j, q. split; [rewrite set_nth_other by exact N; exact Ej|exact F].
Qed.
Lemma existsb_new {A} (f : A -> bool) l i p v : nth_error l i = Some p -> f v = true -> existsb f (set_nth l i v) = true.
Proof. intros E F. apply existsb_nth. exists i, v. split; [apply set_nth_same; exact (nth_error_lt _ _ _ E)|exact F]. Qed.
Lemma existsb_was {A} (f : A -> bool) l i p v : nth_error l i = Some p -> existsb f (set_nth l i v) = true -> f v = false \/ f p = true -> existsb f l = true.
Proof.
  rewrite !existsb_nth. intros E (j & q & Ej & F) M. apply set_nth_get in Ej. destruct Ej as [[<- ->]|[N Ej]]; [|eauto]. exists i, p. split; [exact E|]. destruct M; congruence.
Qed.
Lemma existsb_woke {A} (f : A -> bool) (wake : A -> A) l l' : woke wake l l' -> (forall x, f x = true -> f (wake x) = true) -> existsb f l = true -> existsb f l' = true.
Proof. intros W M. induction W as [|x x' l l' [-> | ->] W IH]; cbn; trivial; rewrite !orb_true_iff; intros [F|F]; auto. Qed.
Lemma existsb_unwoke {A} (f : A -> bool) (wake : A -> A) l l' : woke wake l l' -> (forall x, f (wake x) = true -> f x = true) -> existsb f l' = true -> existsb f l = true.
Proof. intros W M. induction W as [|x x' l l' [-> | ->] W IH]; cbn; trivial; rewrite !orb_true_iff; intros [F|F]; auto. Qed.

(** a worker that will look at the queue again; a client that is about to wake a worker *)
Definition active (p : wpc) : bool := match p with W_waiting | W_exited => false | _ => true end.
Definition atsig (c : client) : bool := match c_pc c with C_signal _ => true | _ => false end.
(** a client that waits for room in the queue *)
Definition waitc (c : client) : bool := match c_pc c with C_waiting _ => true | _ => false end.
(** a client that has seen, or will look for, room in the queue; a worker that is about to wake a client *)
Definition livec (c : client) : bool := match c_pc c with C_relock _ | C_full _ | C_insert _ _ => true | _ => false end.
Definition livew (one : bool) (p : wpc) : bool := match p with W_signal _ => true | W_unlock _ | W_run _ | W_lock2 | W_dec | W_signal2 => one | _ => false end.
Definition J1 (g : ctx) (ws : list wpc) (cs : list client) : Prop := qEmpty g = false -> existsb active ws = true \/ existsb atsig cs = true.
Definition J2 (g : ctx) (ws : list wpc) (cs : list client) : Prop :=
  existsb waitc cs = true -> qEmpty g = false \/ existsb livec cs = true \/ existsb (livew (qSize g =? 1)) ws = true.
Definition J (g : ctx) (ws : list wpc) (cs : list client) : Prop := J1 g ws cs /\ J2 g ws cs.

Lemma J_wake g ws cs ws' cs' : J g ws cs -> woke wwake ws ws' -> woke cwake cs cs' -> J g ws' cs'.
Proof.
  intros [A B] WW WC. split.
  - intros Q. destruct (A Q) as [X|X]; [left|right].
    + apply (existsb_woke _ _ _ _ WW) in X; [exact X|]. intros []; cbn; trivial.
    + apply (existsb_woke _ _ _ _ WC) in X; [exact X|]. unfold atsig, cwake. intros [? []]; cbn; trivial.
  - intros Q. apply (existsb_unwoke _ _ _ _ WC) in Q; [|unfold waitc, cwake; intros [? []]; cbn; trivial]. destruct (B Q) as [X|[X|X]]; auto.
    + right. left. apply (existsb_woke _ _ _ _ WC) in X; [exact X|]. unfold livec, cwake. intros [? []]; cbn; trivial.
    + right. right. apply (existsb_woke _ _ _ _ WW) in X; [exact X|]. intros []; cbn; trivial.
Qed.
(** a signal reaches a waiting thread *)
Lemma some_woken_in {A} (wake : A -> A) (f h : A -> bool) l l' : some_woken wake l l' -> (forall x, f x = true -> wake x <> x) -> (forall x, wake x <> x -> h (wake x) = true) -> existsb f l = true -> existsb h l' = true.
Proof.
  intros [_ HS] F H X. apply existsb_nth in X. destruct X as (i & p & E & FP). destruct HS as (j & q & Ej & NQ & Ej'); [exists i, p; auto|]. apply existsb_nth. eauto.
Qed.
Lemma cwake_live c : cwake c <> c -> livec (cwake c) = true.
Proof. unfold cwake, livec. destruct c as [? []]; cbn; congruence. Qed.
Lemma waitc_wake c : waitc c = true -> cwake c <> c.
Proof. unfold waitc, cwake. destruct c as [? []]; cbn; try discriminate. Qed.

Lemma busy_worker ws i p : 1 <= sumf isbusy ws -> nth_error ws i = Some p -> isbusy p = 0 -> forall q, existsb active (set_nth ws i q) = true.
Proof.
  intros B E P q. destruct (sumf_some isbusy ws) as (j & pj & Ej & Bj); [intros []; cbn; lia|exact B|].
  apply existsb_nth. exists j, pj. assert (i <> j) by (intros <-; assert (p = pj) by congruence; subst; lia).
  rewrite set_nth_other by assumption. split; [exact Ej|]. destruct pj; cbn in *; trivial; lia.
Qed.
Lemma J_worker N progs g ws cs ow i p g' p' e ws' cs' : inv N progs g ws cs ow -> J g ws cs -> nth_error ws i = Some p -> wstep i g p = Go g' p' e -> affects e (set_nth ws i p') cs ws' cs' -> J g' ws' cs'.
Proof.
  intros I JJ Hn E A. assert (NS : e = E_none \/ e = E_signal_push) by (clear - E; unfold wstep in E; destruct p; unfold_step E; auto).
  assert (SZ : qSize g' = qSize g) by (clear - E; unfold wstep in E; destruct p; unfold_step E; reflexivity).
  assert (QE : qEmpty g' = qEmpty g \/ p = W_pop) by (clear - E; unfold wstep in E; destruct p; unfold_step E; auto).
  assert (LP : p = W_pop -> forall b, livew b p' = true) by (clear - E; intros ->; cbn in E; unfold_step E; reflexivity).
  assert (LS : e = E_none -> livew (qSize g =? 1) p = true -> livew (qSize g =? 1) p' = true) by (clear - E; unfold wstep in E; destruct p; unfold_step E; cbn; trivial; try discriminate; intros _ ->; reflexivity).
  assert (J1' : J1 g' (set_nth ws i p') cs).
  { intros Q. destruct (active p') eqn:AP; [left; exact (existsb_new _ _ _ _ _ Hn AP)|]. left.
    assert (BP : limit g <= busy g /\ isbusy p = 0 /\ 1 <= limit g).
    { pose proof (i_w _ _ _ _ _ _ I i p Hn) as WF. pose proof (i_lim _ _ _ _ _ _ I) as IL. clear - E AP WF Q IL. unfold wstep in E. destruct p; unfold_step E; try discriminate; cbn in *; destruct WF as [[W|W] _]; try congruence; auto.
      all: destruct (qSize g =? 1); discriminate. }
    destruct BP as (B1 & B2 & B3). apply (busy_worker ws i p); trivial. rewrite <- (i_busy _ _ _ _ _ _ I). lia. }
  destruct JJ as [_ B]. destruct NS as [-> | ->]; cbn in A; destruct A as [-> A].
  - subst cs'. split; [exact J1'|]. intros W. rewrite SZ. specialize (B W). destruct B as [B|[B|B]].
    + destruct QE as [->|QP]; [auto|]. right. right. apply (existsb_new _ _ _ _ _ Hn). exact (LP QP _).
    + auto.
    + right. right. exact (existsb_set _ _ _ _ _ Hn B (LS eq_refl)).
  - pose proof A as A0. destruct A as [WC _]. split.
    + intros Q. destruct (J1' Q) as [X|X]; [auto|]. right. apply (existsb_woke _ _ _ _ WC) in X; [exact X|]. unfold atsig, cwake. intros [? []]; cbn; trivial.
    + intros Q. apply (existsb_unwoke _ _ _ _ WC) in Q; [|unfold waitc, cwake; intros [? []]; cbn; trivial]. right. left. exact (some_woken_in _ _ _ _ _ A0 waitc_wake cwake_live Q).
Qed.
Lemma full_nonempty N progs g ws cs ow : inv N progs g ws cs ow -> ready ow = true -> isQueueFull g = true -> qEmpty g = false \/ existsb (livew (qSize g =? 1)) ws = true.
Proof.
  intros I R F. destruct (i_ring _ _ _ _ _ _ I) as (q & _ & R1 & R2 & R3 & R4 & R5 & R6 & _). unfold isQueueFull in F. destruct (Z.ltb_spec 1 (qSize g)) as [L|L].
  - left. rewrite R6. destruct (Z.eqb_spec (zlen q) 0) as [Z0|Z0]; [|reflexivity]. exfalso. apply Z.eqb_eq in F. rewrite R4, Z0, Z.add_0_r, Zplus_mod_idemp_l in F.
    destruct (Z_lt_le_dec (qHead g + 1) (qSize g)) as [M|M]; [rewrite Z.mod_small in F by lia; lia|].
    replace (qHead g + 1) with (0 + 1 * qSize g) in F by lia. rewrite Z.mod_add, Z.mod_0_l in F by lia. lia.
  - apply orb_true_iff in F. destruct F as [F|F]; [|left; apply negb_true_iff; exact F]. right. replace (qSize g =? 1) with true by lia.
    destruct ow; try discriminate. pose proof (i_o _ _ _ _ _ _ I) as O. cbn in O. pose proof (i_busy _ _ _ _ _ _ I) as B.
    destruct (sumf_some isbusy ws) as (j & pj & Ej & Bj); [intros []; cbn; lia|lia|]. apply existsb_nth. exists j, pj. split; [exact Ej|]. destruct pj; cbn in *; trivial; lia.
Qed.
Lemma J_client N progs g ws cs ow ok k c g' c' e ws' cs' : inv N progs g ws cs ow -> ready ow = true -> J g ws cs -> nth_error cs k = Some c -> cstep ok k g c = Go g' c' e ->
  affects e ws (set_nth cs k c') ws' cs' -> J g' ws' cs'.
Proof.
  intros I R [A1 A2] Hn E A. assert (SZ : qSize g' = qSize g) by (apply (cstep_frame _ _ _ _ _ _ _ E)).
  assert (QE : qEmpty g' = qEmpty g \/ (qEmpty g' = false /\ atsig c' = true)) by (clear - E; unfold cstep in E; destruct (c_pc c); unfold_step E; auto).
  (* before the effect: no claim about the queue if the client has just signalled *)
  assert (P1 : e <> E_signal_pop -> J1 g' ws (set_nth cs k c')).
  { intros NE Q. destruct QE as [QE|[_ QE]]; [|right; exact (existsb_new _ _ _ _ _ Hn QE)]. rewrite QE in Q. destruct (A1 Q) as [X|X]; [auto|]. right. apply (existsb_set _ _ _ _ _ Hn X).
    clear - E NE. unfold cstep, atsig in *. destruct (c_pc c); unfold_step E; cbn; try discriminate; congruence. }
  assert (P2 : J2 g' ws (set_nth cs k c')).
  { intros Q. rewrite SZ. destruct (waitc c') eqn:WC'.
    - assert (SL : exists j, c_pc c = C_sleep j /\ qEmpty g' = qEmpty g) by (clear - E WC'; unfold cstep, waitc in *; destruct (c_pc c); unfold_step E; cbn in *; try discriminate; eauto; destruct o; discriminate).
      destruct SL as (j & EP & ->). pose proof (i_c _ _ _ _ _ _ I k c Hn) as CF. unfold cfact in CF. rewrite EP in CF. destruct (full_nonempty _ _ _ _ _ _ I R CF); auto.
    - apply (existsb_was _ _ _ _ _ Hn) in Q; [|auto]. destruct (A2 Q) as [X|[X|X]].
      + left. destruct QE as [->|[-> _]]; trivial.
      + destruct (livec c') eqn:LC'; [right; left; exact (existsb_new _ _ _ _ _ Hn LC')|]. destruct (livec c) eqn:LC; [|right; left; apply (existsb_set _ _ _ _ _ Hn X); congruence].
        assert (D : isQueueFull g = true /\ qEmpty g' = qEmpty g \/ qEmpty g' = false \/ shutdown g = true).
        { clear - E LC LC'. unfold cstep, livec in *. destruct (c_pc c); unfold_step E; cbn in *; try discriminate; auto. left. apply andb_true_iff in Heqb. split; [apply Heqb|reflexivity]. }
        destruct D as [[F ->]|[F|F]]; [destruct (full_nonempty _ _ _ _ _ _ I R F); auto|auto|]. rewrite (i_sd _ _ _ _ _ _ I) in F. destruct ow; discriminate.
      + auto. }
  destruct (match e with E_signal_pop => true | _ => false end) eqn:SG.
  - assert (ES : e = E_signal_pop) by (destruct e; congruence). clear SG. subst e. cbn in A. destruct A as [A ->]. destruct A as [WW SW]. split.
    + intros _. left. destruct (existsb active ws') eqn:X; [reflexivity|]. exfalso. destruct ow; try discriminate. pose proof (i_o _ _ _ _ _ _ I) as O. cbn in O. pose proof (i_sd _ _ _ _ _ _ I) as SD. cbn in SD.
      destruct ws as [|p ws1] eqn:EW; [cbn in O; lia|]. assert (NA : forall i q, nth_error ws' i = Some q -> active q = false).
      { intros i q Ei. destruct (active q) eqn:AQ; [|reflexivity]. assert (existsb active ws' = true) by (apply existsb_nth; eauto). congruence. }
      destruct (woke_fwd _ _ _ 0%nat p WW eq_refl) as (p' & E0 & D). specialize (NA 0%nat p' E0) as AP.
      assert (PW : p = W_waiting). { pose proof (i_w _ _ _ _ _ _ I 0%nat p eq_refl) as WF. destruct D as [-> | ->]; destruct p; cbn in *; try discriminate; trivial; congruence. }
      destruct SW as (i & q & Ei & NQ & Ei'). { exists 0%nat, p. split; [reflexivity|]. subst p. discriminate. }
      specialize (NA i _ Ei'). destruct q; cbn in *; congruence.
    + intros Q. destruct (P2 Q) as [X|[X|X]]; auto. right. right. apply (existsb_woke _ _ _ _ WW) in X; [exact X|]. intros []; cbn; trivial.
  - assert (NE : e <> E_signal_pop) by (intros ->; discriminate). specialize (P1 NE). destruct (match e with E_spawn => true | _ => false end) eqn:SP.
    + destruct e; try discriminate. destruct A as [-> ->]. split.
      * intros Q. left. rewrite existsb_app. cbn. apply orb_true_r.
      * intros Q. destruct (P2 Q) as [X|[X|X]]; auto. right. right. rewrite existsb_app, X. reflexivity.
    + destruct (affects_woke _ _ _ _ _ A) as [WW WC]; [intros ->; discriminate|]. exact (J_wake _ _ _ _ _ (conj P1 P2) WW WC).
Qed.
Lemma J_owner N g ws cs ok idle ow g' p' e ws' cs' : J g ws cs -> ostep N ok idle ws g ow = Go g' p' e -> affects e ws cs ws' cs' -> J g' ws' cs'.
Proof.
  intros [A1 A2] E A. assert (FR : qEmpty g' = qEmpty g /\ qSize g' = qSize g) by (clear - E; unfold ostep in E; destruct ow; unfold_step E; auto). destruct FR as [F1 F2].
  assert (JJ : J g' ws cs) by (split; unfold J1, J2; rewrite ?F1, ?F2; assumption).
  destruct (match e with E_spawn => true | _ => false end) eqn:SP.
  - destruct e; try discriminate. destruct A as [-> ->]. destruct JJ as [B1 B2]. split.
    + intros Q. left. rewrite existsb_app. cbn. apply orb_true_r.
    + intros Q. destruct (B2 Q) as [X|[X|X]]; auto. right. right. rewrite existsb_app, X. reflexivity.
  - destruct (affects_woke _ _ _ _ _ A) as [WW WC]; [intros ->; discriminate|]. exact (J_wake _ _ _ _ _ JJ WW WC).
Qed.
Lemma init_J queueSize junk progs : let s := init queueSize junk progs in J (sh s) (ws s) (cs s).
Proof.
  split; [intros Q; discriminate|]. intros Q. exfalso. cbn in Q. apply existsb_nth in Q. destruct Q as (i & c & E & W). rewrite nth_error_map in E. destruct (nth_error progs i); [|discriminate]. injection E as <-. discriminate.
Qed.
Lemma step_J N progs s s' : inv N progs (sh s) (ws s) (cs s) (ow s) -> J (sh s) (ws s) (cs s) -> step N s s' -> J (sh s') (ws s') (cs s').
Proof.
  intros I JJ HS. destruct HS as [s i p g p' e ws' cs' Hn E A|s ok k c g c' e ws' cs' R Hn E A|s ok g p' e ws' cs' E A]; cbn [sh ws cs ow].
  - exact (J_worker _ _ _ _ _ _ _ _ _ _ _ _ _ I JJ Hn E A).
  - exact (J_client _ _ _ _ _ _ _ _ _ _ _ _ _ _ I R JJ Hn E A).
  - exact (J_owner _ _ _ _ _ _ _ _ _ _ _ _ JJ E A).
Qed.
Lemma spurious_J s s' : J (sh s) (ws s) (cs s) -> spurious s s' -> J (sh s') (ws s') (cs s').
Proof.
  intros I HS. destruct HS as [s i Hn|s k c Hn NE]; cbn [sh ws cs ow].
  - apply (J_wake _ _ _ _ _ I); [|apply woke_refl]. exact (woke_set wwake _ _ _ Hn).
  - apply (J_wake _ _ _ _ _ I); [apply woke_refl|]. exact (woke_set cwake _ _ _ Hn).
Qed.
Lemma exec_J N n m queueSize junk progs s : 1 <= N -> 0 <= queueSize -> zlen junk = queueSize + 1 -> progs_ok progs -> exec N n m (init queueSize junk progs) s -> J (sh s) (ws s) (cs s).
Proof.
  intros N1 Q Jk PO E. remember (init queueSize junk progs) as s0 eqn:E0. induction E as [s|n m s s' s'' E IH HS|n m s s' s'' E IH HS].
  - subst s. apply init_J.
  - subst s. exact (step_J _ _ _ _ (exec_inv _ _ _ _ _ _ _ N1 Q Jk PO E) (IH eq_refl) HS).
  - exact (spurious_J _ _ (IH E0) HS).
Qed.

(** ** deadlock freedom *)
Lemma affects_any e ws cs : exists ws' cs', affects e ws cs ws' cs'.
Proof.
  assert (SW : forall {A} (wake : A -> A) l, some_woken wake l (map wake l)).
  { intros A wake l. split; [apply woke_all|]. intros (i & p & E & NP). exists i, p. repeat split; trivial. rewrite nth_error_map, E. reflexivity. }
  destruct e; cbn; eauto.
Qed.
Lemma lock_free {A} me g (a : A) : mutex g = None -> exists g', lock me g a = Go g' a E_none.
Proof. intros E. unfold lock. rewrite E. eauto. Qed.
Lemma unlock_go {A} me g (a : A) : mutex g = Some me -> exists g', unlock me g a = Go g' a E_none.
Proof. intros E. unfold unlock. rewrite E. destruct (tid_dec me me); [eauto|congruence]. Qed.
Lemma worker_go N progs g ws cs ow i p : inv N progs g ws cs ow -> nth_error ws i = Some p -> active p = true -> holdsw p = true \/ mutex g = None -> exists g' p' e, wstep i g p = Go g' p' e.
Proof.
  intros I Hn A M. pose proof (worker_ok _ _ _ _ _ _ _ _ I Hn) as OK. destruct (wstep i g p) as [| |g' p' e] eqn:E; [|congruence|eauto]. exfalso. clear OK.
  unfold wstep, lock, unlock in E. destruct p; try discriminate; try (destruct M as [M|M]; [discriminate|rewrite M in E; discriminate]).
  all: unfold_step E.
Qed.
Lemma client_go N progs g ws cs ow k c : inv N progs g ws cs ow -> nth_error cs k = Some c -> waitc c = false -> finished_client c = false -> holdsc c = true \/ mutex g = None -> exists g' p' e, cstep true k g c = Go g' p' e.
Proof.
  intros I Hn A F M. pose proof (client_ok _ _ _ _ _ _ true _ _ I Hn) as OK. destruct (cstep true k g c) as [| |g' p' e] eqn:E; [|congruence|eauto]. exfalso. clear OK.
  unfold cstep, lock, unlock, waitc, finished_client, holdsc in *. destruct (c_pc c); try discriminate; try (destruct M as [M|M]; [discriminate|rewrite M in E; discriminate]).
  all: unfold_step E; try discriminate.
Qed.
Lemma worker_step N s i p : (exists g' p' e, wstep i (sh s) p = Go g' p' e) -> nth_error (ws s) i = Some p -> exists s', step N s s'.
Proof. intros (g' & p' & e & E) Hn. destruct (affects_any e (set_nth (ws s) i p') (cs s)) as (ws' & cs' & A). eexists. exact (Step_worker N s i p g' p' e ws' cs' Hn E A). Qed.
Lemma client_step N s ok k c : ready (ow s) = true -> (exists g' p' e, cstep ok k (sh s) c = Go g' p' e) -> nth_error (cs s) k = Some c -> exists s', step N s s'.
Proof. intros R (g' & p' & e & E) Hn. destruct (affects_any e (ws s) (set_nth (cs s) k p')) as (ws' & cs' & A). eexists. exact (Step_client N s ok k c g' p' e ws' cs' R Hn E A). Qed.
Lemma owner_step N s ok : (exists g' p' e, ostep N ok (forallb finished_client (cs s)) (ws s) (sh s) (ow s) = Go g' p' e) -> exists s', step N s s'.
Proof. intros (g' & p' & e & E). destruct (affects_any e (ws s) (cs s)) as (ws' & cs' & A). eexists. exact (Step_owner N s ok g' p' e ws' cs' E A). Qed.
Lemma forallb_not {A} (f : A -> bool) l : forallb f l = false -> exists i p, nth_error l i = Some p /\ f p = false.
Proof.
  induction l as [|x l IH]; cbn; [discriminate|]. intros H. apply andb_false_iff in H. destruct H as [H|H]; [exists 0%nat, x; auto|]. destruct (IH H) as (i & p & E & F). exists (S i), p. auto.
Qed.
Lemma no_deadlock N progs s : inv N progs (sh s) (ws s) (cs s) (ow s) -> J (sh s) (ws s) (cs s) -> ow s = O_done \/ exists s', step N s s'.
Proof.
  intros I [A1 A2]. destruct (ow s) eqn:EO; try (left; reflexivity); right.
  all: destruct (mutex (sh s)) as [t|] eqn:EM.
  (* the mutex is held: its holder can go on *)
  all: try (match goal with H : mutex _ = Some ?t |- _ => assert (HT : holds (ws s) (cs s) (ow s) t = true) by (try rewrite EO; apply (i_m _ _ _ _ _ _ I); exact H) end;
    destruct t as [|k|wi]; cbn [holds] in HT;
    [ apply (owner_step N s true); rewrite EO in *; try discriminate HT; cbn; try (destruct (unlock_go TO (sh s) O_bpush EM) as (g' & E)); eauto
    | destruct (nth_error (cs s) k) as [c|] eqn:Ek; [|discriminate HT]; assert (R : ready (ow s) = true);
      [ destruct (ready (ow s)) eqn:RR; [reflexivity|]; rewrite EO in RR; pose proof (i_quiet _ _ _ _ _ _ I RR k c Ek) as Q; unfold holdsc in HT; rewrite Q in HT; discriminate HT
      | apply (client_step N s true k c R); [|exact Ek]; apply (client_go _ _ _ _ _ _ _ _ I Ek); [| |auto]; unfold waitc, finished_client, holdsc in *; destruct (c_pc c); trivial; discriminate ]
    | destruct (nth_error (ws s) wi) as [p|] eqn:Ei; [|discriminate HT]; apply (worker_step N s wi p); [|exact Ei]; apply (worker_go _ _ _ _ _ _ _ _ I Ei); [destruct p; trivial; discriminate HT|auto] ]).
  all: try (apply (owner_step N s true); rewrite EO; cbn; rewrite ?EM; eauto; fail).
  - apply (owner_step N s true). rewrite EO. cbn. destruct (i <? N); eauto.
  - (* the owner waits for its clients *)
    destruct (forallb finished_client (cs s)) eqn:F; [apply (owner_step N s true); rewrite EO, F; cbn; eauto|].
    destruct (existsb active (ws s)) eqn:AW.
    { apply existsb_nth in AW. destruct AW as (i & p & Ei & AP). apply (worker_step N s i p); [|exact Ei]. apply (worker_go _ _ _ _ _ _ _ _ I Ei AP). auto. }
    destruct (forallb_not _ _ F) as (k & c & Ek & FC). assert (R : ready (ow s) = true) by (rewrite EO; reflexivity).
    destruct (existsb (fun c => negb (waitc c) && negb (finished_client c)) (cs s)) eqn:AC.
    { apply existsb_nth in AC. destruct AC as (k1 & c1 & Ek1 & AP). apply andb_true_iff in AP. destruct AP as [AP1 AP2]. apply negb_true_iff in AP1, AP2.
      apply (client_step N s true k1 c1 R); [|exact Ek1]. apply (client_go _ _ _ _ _ _ _ _ I Ek1 AP1 AP2). auto. }
    exfalso. assert (NC : forall h, (forall c, h c = true -> negb (waitc c) && negb (finished_client c) = true) -> existsb h (cs s) = false).
    { intros h H. destruct (existsb h (cs s)) eqn:X; [|reflexivity]. apply existsb_nth in X. destruct X as (k1 & c1 & Ek1 & HC). assert (existsb (fun c => negb (waitc c) && negb (finished_client c)) (cs s) = true); [|congruence].
      apply existsb_nth. exists k1, c1. auto. }
    assert (WC : waitc c = true). { destruct (waitc c) eqn:WC; [reflexivity|]. assert (existsb (fun c => negb (waitc c) && negb (finished_client c)) (cs s) = true); [|congruence]. apply existsb_nth. exists k, c. rewrite WC, FC. auto. }
    assert (X : existsb waitc (cs s) = true) by (apply existsb_nth; eauto).
    destruct (A2 X) as [Y|[Y|Y]].
    + destruct (A1 Y) as [Z|Z]; [congruence|]. rewrite NC in Z; [discriminate|]. unfold atsig, waitc, finished_client. intros c1. destruct (c_pc c1); trivial; discriminate.
    + rewrite NC in Y; [discriminate|]. unfold livec, waitc, finished_client. intros c1. destruct (c_pc c1); trivial; discriminate.
    + apply existsb_nth in Y. destruct Y as (i & p & Ei & LP). assert (existsb active (ws s) = true); [|congruence]. apply existsb_nth. exists i, p. split; [exact Ei|]. destruct p; cbn in *; trivial; discriminate.
  - apply (owner_step N s true). rewrite EO. cbn. destruct (lock_free TO (sh s) O_shutdown EM) as (g' & E). eauto.
  - exfalso. assert (mutex (sh s) = Some TO) by (apply (i_m _ _ _ _ _ _ I); reflexivity). congruence.
  - (* the owner joins a worker *)
    pose proof (i_o _ _ _ _ _ _ I) as O. cbn [ofact] in O. destruct O as (O1 & O2 & O3).
    destruct (Z.ltb_spec i (capacity (sh s))) as [L|L]; [|apply (owner_step N s true); rewrite EO; cbn; replace (i <? capacity (sh s)) with false by lia; eauto].
    assert (CW : capacity (sh s) <= Z.of_nat (length (ws s))) by (apply (i_capw _ _ _ _ _ _ I); reflexivity).
    destruct (nth_error (ws s) (Z.to_nat i)) as [p|] eqn:Ei; [|apply nth_error_None in Ei; lia]. destruct (active p) eqn:AP.
    + apply (worker_step N s (Z.to_nat i) p); [|exact Ei]. apply (worker_go _ _ _ _ _ _ _ _ I Ei AP). auto.
    + assert (p = W_exited) by (specialize (O3 _ _ Ei); destruct p; try discriminate; congruence). subst p. apply (owner_step N s true). rewrite EO. cbn. replace (i <? capacity (sh s)) with true by lia. rewrite Ei. eauto.
Qed.
