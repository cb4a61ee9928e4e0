(** Invariants of the thread pool (M_Pool). *)
From Coq Require Import Permutation.
From Verif Require Import Base Mem P_Base M_Pool.
Import Pool.

(** ** lists *)
Lemma set_nth_length {A} (l : list A) i v : length (set_nth l i v) = length l.
Proof. revert i. induction l as [|x l IH]; intros [|i]; cbn; [reflexivity..|]. rewrite IH. reflexivity. Qed.
Lemma zlen_set_nth {A} (l : list A) i v : Z.of_nat (length (set_nth l i v)) = Z.of_nat (length l).
Proof. rewrite set_nth_length. reflexivity. Qed.
Lemma set_nth_same {A} (l : list A) i v : (i < length l)%nat -> nth_error (set_nth l i v) i = Some v.
Proof. revert i. induction l as [|x l IH]; intros [|i] L; cbn in *; try lia; [reflexivity|]. apply IH. lia. Qed.
Lemma set_nth_other {A} (l : list A) i j v : i <> j -> nth_error (set_nth l i v) j = nth_error l j.
Proof. revert i j. induction l as [|x l IH]; intros [|i] [|j] N; cbn; try congruence; try reflexivity. apply IH. congruence. Qed.
Lemma set_nth_nth {A} (l : list A) i v d j : nth j (set_nth l i v) d = if (Nat.eqb i j && Nat.ltb i (length l))%bool then v else nth j l d.
Proof.
  revert i j. induction l as [|x l IH]; intros [|i] [|j]; cbn [set_nth nth]; try reflexivity.
  - rewrite andb_false_r. reflexivity.
  - rewrite IH. reflexivity.
Qed.
Lemma nth_error_lt {A} (l : list A) i p : nth_error l i = Some p -> (i < length l)%nat.
Proof. intros E. apply nth_error_Some. congruence. Qed.
Lemma set_nth_get {A} (l : list A) i v j p : nth_error (set_nth l i v) j = Some p -> (i = j /\ p = v) \/ (i <> j /\ nth_error l j = Some p).
Proof.
  intros E. destruct (Nat.eq_dec i j) as [<-|N].
  - left. pose proof (nth_error_lt _ _ _ E) as L. rewrite set_nth_length in L. rewrite set_nth_same in E by exact L. split; [reflexivity|congruence].
  - right. rewrite set_nth_other in E by exact N. auto.
Qed.
Fixpoint sumf {A} (f : A -> Z) (l : list A) : Z := match l with [] => 0 | x :: l => f x + sumf f l end.
Lemma sumf_app {A} (f : A -> Z) l l' : sumf f (l ++ l') = sumf f l + sumf f l'.
Proof. induction l as [|x l IH]; cbn [app sumf]; [lia|rewrite IH; lia]. Qed.
Lemma sumf_set {A} (f : A -> Z) l i p v : nth_error l i = Some p -> sumf f (set_nth l i v) = sumf f l - f p + f v.
Proof. revert i. induction l as [|x l IH]; intros [|i] E; cbn in *; try discriminate; [injection E as ->; lia|]. rewrite (IH i E). lia. Qed.
Lemma flat_map_set {A B} (f : A -> list B) l i p v : nth_error l i = Some p -> Permutation (f p ++ flat_map f (set_nth l i v)) (f v ++ flat_map f l).
Proof.
  revert i. induction l as [|x l IH]; intros [|i] E; cbn [set_nth flat_map nth_error] in *; try discriminate.
  - injection E as ->. rewrite !app_assoc. apply Permutation_app_tail. apply Permutation_app_comm.
  - rewrite !app_assoc. rewrite (Permutation_app_comm (f p)), (Permutation_app_comm (f v)). rewrite <- !app_assoc. apply Permutation_app_head. exact (IH i E).
Qed.
Lemma sumf_pos {A} (f : A -> Z) l : (forall x, 0 <= f x) -> 0 <= sumf f l.
Proof. intros P. induction l as [|x l IH]; cbn; [lia|]. specialize (P x). lia. Qed.
Lemma sumf_some {A} (f : A -> Z) l : (forall x, 0 <= f x) -> 1 <= sumf f l -> exists i p, nth_error l i = Some p /\ 1 <= f p.
Proof.
  intros P. induction l as [|x l IH]; cbn; [lia|]. intros HS. destruct (Z_lt_le_dec 0 (f x)) as [L|L].
  - exists 0%nat, x. split; [reflexivity|lia].
  - specialize (P x). destruct IH as (i & p & E & F); [lia|]. exists (S i), p. auto.
Qed.

(** ** waking *)
Definition woke {A} (wake : A -> A) (l l' : list A) : Prop := Forall2 (fun p p' => p' = p \/ p' = wake p) l l'.
Lemma woke_refl {A} (wake : A -> A) l : woke wake l l.
Proof. induction l; constructor; auto. Qed.
Lemma woke_all {A} (wake : A -> A) l : woke wake l (map wake l).
Proof. induction l; cbn; constructor; auto. Qed.
Lemma woke_length {A} (wake : A -> A) l l' : woke wake l l' -> length l' = length l.
Proof. induction 1; cbn; congruence. Qed.
Lemma woke_fwd {A} (wake : A -> A) l l' i p : woke wake l l' -> nth_error l i = Some p -> exists p', nth_error l' i = Some p' /\ (p' = p \/ p' = wake p).
Proof. intros W. revert i. induction W as [|x x' l l' X W IH]; intros [|i] E; cbn in *; try discriminate; [injection E as ->; eauto|]. exact (IH i E). Qed.
Lemma woke_bwd {A} (wake : A -> A) l l' i p' : woke wake l l' -> nth_error l' i = Some p' -> exists p, nth_error l i = Some p /\ (p' = p \/ p' = wake p).
Proof. intros W. revert i. induction W as [|x x' l l' X W IH]; intros [|i] E; cbn in *; try discriminate; [injection E as ->; eauto|]. exact (IH i E). Qed.
Lemma woke_sumf {A} (f : A -> Z) (wake : A -> A) l l' : (forall x, f (wake x) = f x) -> woke wake l l' -> sumf f l' = sumf f l.
Proof. intros F W. induction W as [|x x' l l' [-> | ->] W IH]; cbn; rewrite ?F; lia. Qed.
Lemma woke_flat {A B} (f : A -> list B) (wake : A -> A) l l' : (forall x, f (wake x) = f x) -> woke wake l l' -> flat_map f l' = flat_map f l.
Proof. intros F W. induction W as [|x x' l l' [-> | ->] W IH]; cbn; rewrite ?F; congruence. Qed.
(** every effect but the creation of a thread only wakes *)
Lemma affects_woke e ws cs ws' cs' : affects e ws cs ws' cs' -> e <> E_spawn -> woke wwake ws ws' /\ woke cwake cs cs'.
Proof.
  destruct e; cbn; intros A NE; try congruence.
  - destruct A as [-> ->]. split; apply woke_refl.
  - destruct A as [-> [F _]]. split; [apply woke_refl|exact F].
  - destruct A as [[F _] ->]. split; [exact F|apply woke_refl].
  - destruct A as [-> ->]. split; [apply woke_refl|apply woke_all].
  - destruct A as [-> ->]. split; [apply woke_all|apply woke_refl].
Qed.

(** ** classes of program points *)
Definition holdsw (p : wpc) : bool :=
  match p with W_check | W_test | W_bye | W_sleep | W_pop | W_signal _ | W_unlock _ | W_dec | W_signal2 | W_unlock2 => true | _ => false end.
Definition holdsc (c : client) : bool :=
  match c_pc c with C_full _ | C_sleep _ | C_try _ | C_insert _ _ | C_signal _ | C_resize _ | C_spawn _ _ | C_bcast _ _ | C_unlock _ _ => true | _ => false end.
Definition holdso (p : opc) : bool := match p with O_shutdown | O_unlock => true | _ => false end.
Definition holds (ws : list wpc) (cs : list client) (ow : opc) (t : tid) : bool :=
  match t with
  | TO => holdso ow
  | TC k => match nth_error cs k with Some c => holdsc c | None => false end
  | TW i => match nth_error ws i with Some p => holdsw p | None => false end
  end.
Definition isbusy (p : wpc) : Z := match p with W_signal _ | W_unlock _ | W_run _ | W_lock2 | W_dec => 1 | _ => 0 end.
Definition heldjob (p : wpc) : list Z := match p with W_signal j | W_unlock j | W_run j => [j] | _ => [] end.
Definition late (p : opc) : bool := match p with O_unlock | O_bpush | O_bpop | O_join _ | O_free | O_done => true | _ => false end.
Definition early (p : opc) : bool := match p with O_create _ | O_capacity | O_limit => true | _ => false end.
Definition spawning (c : client) : bool := match c_pc c with C_spawn _ _ => true | _ => false end.
(** the jobs a client has put into the queue *)
Definition acc (x : op * Z) : list Z := match x with (Add j, _) => [j] | (TryAdd j, r) => if r =? 1 then [j] else [] | (Resize _, _) => [] end.
Definition accepted (c : client) : list Z :=
  flat_map acc (c_res c) ++ match c_pc c with C_signal o => acc (o, result o) | C_unlock o r => acc (o, r) | _ => [] end.
(** the call a client is in *)
Definition current (p : cpc) : list op :=
  match p with
  | C_idle => [] | C_lock o | C_insert o _ | C_signal o | C_unlock o _ => [o]
  | C_full j | C_sleep j | C_waiting j | C_relock j => [Add j]
  | C_try j => [TryAdd j]
  | C_resize n | C_spawn n _ | C_bcast n _ => [Resize n]
  end.
(** an insertion is for the job of its call *)
Definition jobof (o : op) (j : Z) : Prop := o = Add j \/ o = TryAdd j.

(** ** the invariant *)
Definition ring (g : ctx) (q : list Z) : Prop :=
  qSize g = zlen (queue g) /\ 1 <= qSize g /\ 0 <= qHead g < qSize g /\ qTail g = (qHead g + zlen q) mod qSize g /\
  zlen q <= Z.max 1 (qSize g - 1) /\ qEmpty g = (zlen q =? 0) /\
  forall i, 0 <= i < zlen q -> nth (Z.to_nat ((qHead g + i) mod qSize g)) (queue g) 0 = nth (Z.to_nat i) q 0.
Definition wfact (g : ctx) (p : wpc) : Prop :=
  match p with
  | W_test => qEmpty g = true \/ limit g <= busy g
  | W_sleep => (qEmpty g = true \/ limit g <= busy g) /\ shutdown g = false
  | W_bye => (qEmpty g = true \/ limit g <= busy g) /\ shutdown g = true
  | W_pop => qEmpty g = false /\ busy g < limit g
  | W_exited => shutdown g = true
  | _ => True
  end.
Definition cfact (g : ctx) (nw : Z) (c : client) : Prop :=
  match c_pc c with
  | C_sleep _ => isQueueFull g = true
  | C_insert o j => isQueueFull g = false /\ jobof o j
  | C_signal o => qEmpty g = false /\ exists j, jobof o j
  | C_spawn n i => nw = i /\ capacity g <= i <= n /\ 1 <= i
  | _ => True
  end.
Definition ofact (N : Z) (g : ctx) (ws : list wpc) (p : opc) : Prop :=
  match p with
  | O_create i => Z.of_nat (length ws) = i /\ 0 <= i <= N
  | O_capacity => Z.of_nat (length ws) = N
  | O_limit => Z.of_nat (length ws) = N /\ capacity g = N
  | O_ready => 1 <= limit g /\ 1 <= Z.of_nat (length ws)
  | O_join i => 0 <= i <= capacity g /\ (forall k p, nth_error ws k = Some p -> Z.of_nat k < i -> p = W_exited) /\ (forall k p, nth_error ws k = Some p -> p <> W_waiting)
  | O_free | O_done => forall k p, nth_error ws k = Some p -> p = W_exited
  | _ => True
  end.
Record inv (N : Z) (progs : list (list op)) (g : ctx) (ws : list wpc) (cs : list client) (ow : opc) : Prop := {
  i_m : forall t, holds ws cs ow t = true <-> mutex g = Some t;
  i_busy : busy g = sumf isbusy ws;
  i_w : forall i p, nth_error ws i = Some p -> wfact g p;
  i_c : forall k c, nth_error cs k = Some c -> cfact g (Z.of_nat (length ws)) c;
  i_o : ofact N g ws ow;
  i_sd : shutdown g = late ow;
  i_fr : freed g = true <-> ow = O_done;
  i_early : early ow = true -> qEmpty g = true;
  i_lim : qEmpty g = false -> 1 <= limit g;
  i_quiet : ready ow = false -> forall k c, nth_error cs k = Some c -> c_pc c = C_idle;
  i_cap : early ow = false -> (forall k c, nth_error cs k = Some c -> spawning c = false) -> capacity g = Z.of_nat (length ws);
  i_capw : early ow = false -> capacity g <= Z.of_nat (length ws);
  i_ring : exists q, added g = started g ++ q /\ ring g q;
  i_fin : Permutation (started g) (finished g ++ flat_map heldjob ws);
  i_prog : Forall2 (fun p c => p = map fst (c_res c) ++ current (c_pc c) ++ c_prog c) progs cs;
  i_added : Permutation (added g) (flat_map accepted cs)
}.

(** waking keeps it *)
Lemma wwake_cases p : wwake p = p \/ (p = W_waiting /\ wwake p = W_relock).
Proof. destruct p; auto. Qed.
Lemma cwake_cases c : cwake c = c \/ exists j, c_pc c = C_waiting j /\ cwake c = Cl (c_prog c) (C_relock j) (c_res c).
Proof. unfold cwake. destruct c as [a p b]. destruct p; cbn; eauto. Qed.
Lemma inv_wake N progs g ws cs ow ws' cs' : inv N progs g ws cs ow -> woke wwake ws ws' -> woke cwake cs cs' -> inv N progs g ws' cs' ow.
Proof.
  intros I WW WC. pose proof (woke_length _ _ _ WW) as LW. pose proof (woke_length _ _ _ WC) as LC. destruct I as [a1 a6 a7 a8 a9 a10 a11 a12 a13 a14 a15 a16 a17 a18 a19 a20].
  constructor; rewrite ?LW, ?LC; trivial.
  - intros t. rewrite <- a1. destruct t as [|k|i]; cbn [holds]; [reflexivity| |].
    + destruct (nth_error cs' k) as [c|] eqn:E.
      * destruct (woke_bwd _ _ _ _ _ WC E) as (c0 & -> & [-> | ->]); [reflexivity|]. unfold holdsc, cwake. destruct c0 as [? []]; reflexivity.
      * destruct (nth_error cs k) as [c0|] eqn:E0; [|reflexivity]. destruct (woke_fwd _ _ _ _ _ WC E0) as (? & Q & _). congruence.
    + destruct (nth_error ws' i) as [p|] eqn:E.
      * destruct (woke_bwd _ _ _ _ _ WW E) as (p0 & -> & [-> | ->]); [reflexivity|]. destruct p0; reflexivity.
      * destruct (nth_error ws i) as [p0|] eqn:E0; [|reflexivity]. destruct (woke_fwd _ _ _ _ _ WW E0) as (? & Q & _). congruence.
  - rewrite a6. symmetry. apply (woke_sumf _ wwake); [|exact WW]. intros []; reflexivity.
  - intros i p E. destruct (woke_bwd _ _ _ _ _ WW E) as (p0 & E0 & [-> | ->]); [exact (a7 i p0 E0)|]. specialize (a7 i p0 E0). destruct p0; trivial.
  - intros k c E. destruct (woke_bwd _ _ _ _ _ WC E) as (c0 & E0 & [-> | ->]); [exact (a8 k c0 E0)|]. specialize (a8 k c0 E0). unfold cfact, cwake in *. destruct c0 as [? []]; trivial.
  - unfold ofact in *. rewrite LW. destruct ow; trivial.
    + destruct a9 as (b1 & b2 & b3). split; [exact b1|]. split.
      * intros k p E L. destruct (woke_bwd _ _ _ _ _ WW E) as (p0 & E0 & [-> | ->]); rewrite (b2 k p0 E0 L); reflexivity.
      * intros k p E. destruct (woke_bwd _ _ _ _ _ WW E) as (p0 & E0 & [-> | ->]); specialize (b3 k p0 E0); [exact b3|]. destruct p0; cbn; congruence.
    + intros k p E. destruct (woke_bwd _ _ _ _ _ WW E) as (p0 & E0 & [-> | ->]); rewrite (a9 k p0 E0); reflexivity.
    + intros k p E. destruct (woke_bwd _ _ _ _ _ WW E) as (p0 & E0 & [-> | ->]); rewrite (a9 k p0 E0); reflexivity.
  - intros R k c E. destruct (woke_bwd _ _ _ _ _ WC E) as (c0 & E0 & [-> | ->]); specialize (a14 R k c0 E0); [exact a14|]. unfold cwake. rewrite a14. exact a14.
  - intros R HS. apply a15; [exact R|]. intros k c E. destruct (woke_fwd _ _ _ _ _ WC E) as (c' & E' & [-> | ->]); [exact (HS k c E')|]. specialize (HS _ _ E'). unfold spawning, cwake in *. destruct c as [? []]; trivial.
  - rewrite (woke_flat heldjob wwake ws ws'); trivial. intros []; reflexivity.
  - clear - a19 WC. revert progs a19. induction WC as [|c c' cs cs' [-> | ->] WC IH]; intros progs F; inversion F as [|p ? progs' ? E F']; subst; constructor; auto. unfold cwake. destruct c as [? []]; reflexivity.
  - rewrite (woke_flat accepted cwake cs cs'); trivial. intros [? []]; reflexivity.
Qed.
