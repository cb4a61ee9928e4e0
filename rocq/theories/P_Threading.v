(** Proofs about the Windows emulation of threads. *)
From Verif Require Import Base Mem M_Pool M_Threading SpecThr.
Import Thr.

(** ** lists and arrays *)
Lemma sn_same {A} (l : list A) i v : (i < length l)%nat -> nth_error (Pool.set_nth l i v) i = Some v.
Proof. revert i; induction l as [|x l IH]; intros [|i] H; cbn in *; try lia; [reflexivity|apply IH; lia]. Qed.
Lemma sn_other {A} (l : list A) i j v : i <> j -> nth_error (Pool.set_nth l i v) j = nth_error l j.
Proof. revert i j; induction l as [|x l IH]; intros [|i] [|j] H; cbn; try reflexivity; try lia. apply IH. lia. Qed.
Lemma sn_length {A} (l : list A) i v : length (Pool.set_nth l i v) = length l.
Proof. revert i; induction l as [|x l IH]; intros [|i]; cbn; try reflexivity. now rewrite IH. Qed.
Lemma sn_split {A} (l : list A) i v : (i < length l)%nat -> Pool.set_nth l i v = firstn i l ++ v :: skipn (S i) l.
Proof. revert i; induction l as [|x l IH]; intros [|i] H; cbn [length] in H; try lia; [reflexivity|]. cbn [Pool.set_nth firstn app]. rewrite IH by lia. reflexivity. Qed.
Lemma ne_lt {A} (l : list A) i x : nth_error l i = Some x -> (i < length l)%nat.
Proof. intros H. apply nth_error_Some. congruence. Qed.
Lemma sn_cases {A} (l : list A) i v j x : nth_error (Pool.set_nth l i v) j = Some x -> (j = i /\ x = v) \/ (j <> i /\ nth_error l j = Some x).
Proof.
  intros H. destruct (Nat.eq_dec i j) as [->|N].
  - left. pose proof (ne_lt _ _ _ H) as L. rewrite sn_length in L. rewrite sn_same in H by exact L. injection H as <-. auto.
  - right. rewrite sn_other in H by exact N. auto.
Qed.
Lemma nodup_snoc {A} (l : list A) x : NoDup l -> ~ In x l -> NoDup (l ++ [x]).
Proof.
  induction l as [|y l IH]; cbn; intros N H; [constructor; [tauto|constructor]|]. inversion N as [|? ? N1 N2]; subst.
  constructor; [|apply IH; tauto]. rewrite in_app_iff. cbn. intros [Q|[Q|[]]]; [tauto|]. apply H. left. auto.
Qed.

Lemma cell_put_same h l r r0 : cell h l = Some r0 -> cell (put h l r) l = Some r.
Proof.
  unfold cell, put. destruct (nth_error h (fst l)) as [[b|]|] eqn:E; try discriminate. intros H.
  rewrite sn_same by exact (ne_lt _ _ _ E). apply sn_same. exact (ne_lt _ _ _ H).
Qed.
Lemma cell_put_other h l l' r : l <> l' -> cell (put h l r) l' = cell h l'.
Proof.
  intros N. unfold cell, put. destruct (nth_error h (fst l)) as [[b|]|] eqn:E; try reflexivity.
  destruct (Nat.eq_dec (fst l) (fst l')) as [Q|Q].
  - rewrite Q, sn_same by (rewrite <- Q; exact (ne_lt _ _ _ E)). rewrite <- Q, E. apply sn_other. intros X. apply N. destruct l, l'; cbn in *; congruence.
  - rewrite sn_other by exact Q. reflexivity.
Qed.
Lemma cell_freed h b l : fst l <> b -> cell (Pool.set_nth h b None) l = cell h l.
Proof. intros N. unfold cell. rewrite sn_other by auto. reflexivity. Qed.
Lemma cell_app h x l r : cell h l = Some r -> cell (h ++ x) l = Some r.
Proof. unfold cell. destruct (nth_error h (fst l)) as [[b|]|] eqn:E; try discriminate. rewrite nth_error_app1 by exact (ne_lt _ _ _ E). rewrite E. auto. Qed.

Definition same_size (x : option (list rec)) (n : option nat) : Prop := match x, n with Some b, Some k => length b = k | None, None => True | _, _ => False end.
Definition shape (h : heap) (bl : list (option nat)) : Prop := Forall2 same_size h bl.
Lemma shape_nth h bl b n : shape h bl -> nth_error bl b = Some (Some n) -> exists x, nth_error h b = Some (Some x) /\ length x = n.
Proof.
  intros S. revert b. induction S as [|x k h bl E S IH]; intros [|b] H; cbn in *; try discriminate; [|exact (IH b H)].
  injection H as ->. destruct x as [x|]; [|destruct E]. exists x. auto.
Qed.
Lemma shape_cell h bl l n : shape h bl -> nth_error bl (fst l) = Some (Some n) -> (snd l < n)%nat -> exists r, cell h l = Some r.
Proof.
  intros S E L. destruct (shape_nth _ _ _ _ S E) as (x & Ex & Lx). unfold cell. rewrite Ex.
  destruct (nth_error x (snd l)) as [r|] eqn:Er; [exists r; reflexivity|]. apply nth_error_None in Er. lia.
Qed.
Lemma shape_put h bl l r : shape h bl -> shape (put h l r) bl.
Proof.
  intros S. unfold put. destruct (nth_error h (fst l)) as [[b|]|] eqn:E; trivial. generalize (fst l) E. clear E. induction S as [|x k h bl Q S IH]; intros [|i] E; cbn in *; try discriminate.
  - injection E as ->. constructor; [|exact S]. destruct k; [|exact Q]. cbn in *. rewrite sn_length. exact Q.
  - constructor; [exact Q|]. exact (IH i E).
Qed.
Lemma shape_free h bl b : shape h bl -> (b < length bl)%nat -> shape (Pool.set_nth h b None) (firstn b bl ++ None :: skipn (S b) bl).
Proof.
  intros S. revert b. induction S as [|x k h bl Q S IH]; intros [|b] L; cbn [length] in L; try lia.
  - cbn. constructor; [exact I|exact S].
  - cbn [Pool.set_nth firstn app]. constructor; [exact Q|]. apply IH. lia.
Qed.

(** ** the invariant *)
Section Inv.
Context (F : Z -> Z -> Z).
Definition value_ok (t : thr) (r : rec) : Prop :=
  match t_pc t with
  | T_start => r_fn r = t_fn t /\ r_arg r = t_arg t
  | T_run fn a => fn = t_fn t /\ a = t_arg t /\ r_arg r = t_arg t
  | T_store v => v = F (t_fn t) (t_arg t) /\ r_arg r = t_arg t
  | T_end => r_arg r = F (t_fn t) (t_arg t)
  end.
Definition quiet (l : list thr) (x : loc) : Prop := forall i t, nth_error l i = Some t -> t_loc t = x -> t_pc t = T_end.
Definition held (h : heap) (tl : list thr) (l : loc) (ho : option nat) : Prop :=
  match ho with
  | None => quiet tl l
  | Some i => exists t r, nth_error tl i = Some t /\ t_loc t = l /\ cell h l = Some r /\ value_ok t r /\
      forall j t', nth_error tl j = Some t' -> t_loc t' = l -> j <> i -> t_pc t' = T_end
  end.
Definition good (h : heap) (tl : list thr) (l : loc) : Prop := exists r, cell h l = Some r /\ held h tl l (r_handle r).
Definition active (c : cpc) : option loc := match c with P_fn l _ _ | P_begin l _ _ | P_handle l _ _ => Some l | _ => None end.
Definition at_work (s : st) (live : list loc) : Prop :=
  match pc s with
  | P_idle => True
  | P_fn l fn a => In l live /\ quiet (ts s) l /\ exists r, cell (hp s) l = Some r /\ r_arg r = a
  | P_begin l fn a => In l live /\ quiet (ts s) l /\ exists r, cell (hp s) l = Some r /\ r_fn r = fn /\ r_arg r = a
  | P_handle l ho code => In l live /\ held (hp s) (ts s) l ho /\ (exists r, cell (hp s) l = Some r) /\
      match ho with Some i => code = 0 | None => code <> 0 end
  | P_join l copy => In l live /\ exists r, cell (hp s) l = Some r /\ r_handle copy = r_handle r /\
      forall i, r_handle copy = Some i -> exists t, nth_error (ts s) i = Some t /\ (r_arg copy = t_arg t \/ r_arg copy = F (t_fn t) (t_arg t))
  end.
Definition has_run (p : tpc) : bool := match p with T_store _ | T_end => true | _ => false end.
Definition ran_ok (s : st) : Prop := NoDup (map (fun x => fst (fst x)) (ran s)) /\
  (forall i fn a, In (i, fn, a) (ran s) <-> exists t, nth_error (ts s) i = Some t /\ t_fn t = fn /\ t_arg t = a /\ has_run (t_pc t) = true).
Definition result_ok (tl : list thr) (x : result) : Prop :=
  match x with
  | R_create l code => code = 0 -> exists i t, nth_error tl i = Some t /\ t_loc t = l
  | R_join l None code v => code = 0 /\ v = None
  | R_join l (Some i) code v => code = 0 /\ exists t, nth_error tl i = Some t /\ t_loc t = l /\ t_pc t = T_end /\ (v = Some (t_arg t) \/ v = Some (F (t_fn t) (t_arg t)))
  end.
Record inv (s : st) (blocks : list (option nat)) (live : list loc) : Prop := Inv {
  i_shape : shape (hp s) blocks;
  i_prog : careful blocks (match pc s with P_join l _ => remove loc_dec l live | _ => live end) (prog s);
  i_live : forall i t, nth_error (ts s) i = Some t -> t_pc t <> T_end -> In (t_loc t) live;
  i_good : forall l, In l live -> active (pc s) <> Some l -> good (hp s) (ts s) l;
  i_work : at_work s live;
  i_ran : ran_ok s;
  i_res : Forall (result_ok (ts s)) (res s) }.

(** a thread that has not ended finds its record as it left it *)
Lemma cover s bl live i t : inv s bl live -> nth_error (ts s) i = Some t -> t_pc t <> T_end ->
  exists r, cell (hp s) (t_loc t) = Some r /\ value_ok t r.
Proof.
  intros I E N. pose proof (i_live _ _ _ I i t E N) as L.
  assert (H : forall ho, held (hp s) (ts s) (t_loc t) ho -> exists r, cell (hp s) (t_loc t) = Some r /\ value_ok t r).
  { intros [k|] H; cbn in H; [|destruct (N (H i t E eq_refl))]. destruct H as (t' & r & E' & L' & C & V & U).
    destruct (Nat.eq_dec i k) as [->|NK]; [|destruct (N (U i t E eq_refl NK))]. assert (t' = t) by congruence. subst t'. exists r. auto. }
  pose proof (i_work _ _ _ I) as W. unfold at_work in W.
  destruct (active (pc s)) as [l|] eqn:A.
  - destruct (loc_dec l (t_loc t)) as [->|NL].
    + destruct (pc s); cbn in A; try discriminate; injection A as ->.
      * destruct W as (_ & Q & _). destruct (N (Q i t E eq_refl)).
      * destruct W as (_ & Q & _). destruct (N (Q i t E eq_refl)).
      * destruct W as (_ & Hh & _). exact (H _ Hh).
    + destruct (i_good _ _ _ I (t_loc t) L) as (r & _ & Hh); [congruence|]. exact (H _ Hh).
  - destruct (i_good _ _ _ I (t_loc t) L) as (r & _ & Hh); [congruence|]. exact (H _ Hh).
Qed.

(** results stay right when threads go on *)
Definition later (a b : list thr) : Prop := forall i t, nth_error a i = Some t -> exists t', nth_error b i = Some t' /\ t_loc t' = t_loc t /\ t_fn t' = t_fn t /\ t_arg t' = t_arg t /\ (t_pc t = T_end -> t_pc t' = T_end).
Lemma later_refl a : later a a.
Proof. intros i t E. exists t. auto. Qed.
Lemma later_set a i t p : nth_error a i = Some t -> t_pc t <> T_end -> later a (Pool.set_nth a i (at_pc p t)).
Proof.
  intros E N j u Ej. destruct (Nat.eq_dec i j) as [<-|NJ].
  - assert (u = t) by congruence. subst u. exists (at_pc p t). rewrite sn_same by exact (ne_lt _ _ _ E). repeat split. intros X. destruct (N X).
  - exists u. rewrite sn_other by exact NJ. auto.
Qed.
Lemma later_app a x : later a (a ++ x).
Proof. intros i t E. exists t. rewrite nth_error_app1 by exact (ne_lt _ _ _ E). auto. Qed.
Lemma later_res a b l : later a b -> Forall (result_ok a) l -> Forall (result_ok b) l.
Proof.
  intros L. apply Forall_impl. intros [x code|x [i|] code v]; cbn; trivial.
  - intros H C. destruct (H C) as (i & t & E & Q). destruct (L i t E) as (t' & E' & Q' & _). exists i, t'. split; [exact E'|congruence].
  - intros (C & t & E & Q & P & V). split; [exact C|]. destruct (L i t E) as (t' & E' & Q1 & Q2 & Q3 & Q4). exists t'. rewrite Q1, Q2, Q3. auto.
Qed.

(** ** steps of a thread *)
Lemma held_thread h h' tl i t p l ho r0 r1 : nth_error tl i = Some t -> t_pc t <> T_end -> cell h (t_loc t) = Some r0 -> cell h' (t_loc t) = Some r1 ->
  (forall x, x <> t_loc t -> cell h' x = cell h x) -> (value_ok t r0 -> value_ok (at_pc p t) r1) ->
  held h tl l ho -> held h' (Pool.set_nth tl i (at_pc p t)) l ho.
Proof.
  intros E N C0 C1 OT V. destruct ho as [k|]; cbn.
  - intros (t' & r & E' & L & C & VO & U). destruct (Nat.eq_dec k i) as [->|NK].
    + assert (t' = t) by congruence. subst t'. exists (at_pc p t), r1. subst l. split; [apply sn_same; exact (ne_lt _ _ _ E)|].
      split; [reflexivity|]. split; [exact C1|]. split; [apply V; congruence|]. intros j u Ej Lj NJ.
      rewrite sn_other in Ej by auto. exact (U j u Ej Lj NJ).
    + assert (NL : l <> t_loc t) by (intros ->; exact (N (U i t E eq_refl ltac:(auto)))).
      exists t', r. rewrite sn_other by auto. split; [exact E'|]. split; [exact L|]. split; [rewrite OT by exact NL; exact C|]. split; [exact VO|].
      intros j u Ej Lj NJ. apply sn_cases in Ej. destruct Ej as [[-> ->]|[_ Ej]]; [destruct (NL (eq_sym Lj))|exact (U j u Ej Lj NJ)].
  - intros Q j u Ej Lj. apply sn_cases in Ej. destruct Ej as [[-> ->]|[_ Ej]]; [destruct (N (Q i t E Lj))|exact (Q j u Ej Lj)].
Qed.
Lemma handle_put h l r l' x : cell h l = Some r -> cell h l' = Some x -> forall v, exists x', cell (put h l (Rec (r_handle r) (r_fn r) v)) l' = Some x' /\ r_handle x' = r_handle x /\ r_fn x' = r_fn x.
Proof.
  intros C C' v. destruct (loc_dec l l') as [<-|N].
  - eexists. split; [exact (cell_put_same _ _ _ _ C)|]. assert (x = r) by congruence. subst. auto.
  - exists x. rewrite cell_put_other by exact N. auto.
Qed.

Lemma thread_inv s bl live i t s' : inv s bl live -> nth_error (ts s) i = Some t -> tstep F i t s = Go s' -> inv s' bl live.
Proof.
  intros I E ST.
  assert (N : t_pc t <> T_end) by (intros Q; unfold tstep in ST; rewrite Q in ST; discriminate).
  destruct (cover _ _ _ _ _ I E N) as (r & C & V).
  (* the shape of the step *)
  assert (X : exists h p rn r1, s' = St h (Pool.set_nth (ts s) i (at_pc p t)) (gate s) rn (prog s) (pc s) (res s) /\
    shape h bl /\ cell h (t_loc t) = Some r1 /\ (forall x, x <> t_loc t -> cell h x = cell (hp s) x) /\
    (forall l x, cell (hp s) l = Some x -> exists x', cell h l = Some x' /\ r_handle x' = r_handle x) /\
    value_ok (at_pc p t) r1 /\
    ((rn = ran s /\ has_run p = has_run (t_pc t)) \/ (rn = ran s ++ [(i, t_fn t, t_arg t)] /\ has_run (t_pc t) = false /\ has_run p = true)) /\
    ((h = hp s /\ r1 = r) \/ exists v, t_pc t = T_store v)).
  { unfold tstep in ST. destruct (t_pc t) as [|fn a|v|] eqn:P; unfold value_ok in V; rewrite P in V.
    - rewrite C in ST. injection ST as <-. exists (hp s), (T_run (r_fn r) (r_arg r)), (ran s), r. split; [reflexivity|]. split; [exact (i_shape _ _ _ I)|]. split; [exact C|].
      split; [auto|]. split; [intros l x Q; exists x; auto|]. destruct V as [V1 V2]. split; [unfold value_ok; cbn; auto|]. split; [left; auto|left; auto].
    - destruct (gate s); [|discriminate]. injection ST as <-. destruct V as (-> & -> & V). exists (hp s), (T_store (F (t_fn t) (t_arg t))), (ran s ++ [(i, t_fn t, t_arg t)]), r.
      split; [reflexivity|]. split; [exact (i_shape _ _ _ I)|]. split; [exact C|]. split; [auto|]. split; [intros l x Q; exists x; auto|]. split; [unfold value_ok; cbn; auto|]. split; [right; auto|left; auto].
    - rewrite C in ST. injection ST as <-. destruct V as [-> V]. eexists _, T_end, (ran s), _. split; [reflexivity|]. split; [apply shape_put; exact (i_shape _ _ _ I)|].
      split; [exact (cell_put_same _ _ _ _ C)|]. split; [intros x NX; apply cell_put_other; auto|].
      split; [intros l x Q; destruct (handle_put _ _ _ _ _ C Q (F (t_fn t) (t_arg t))) as (x' & Q1 & Q2 & _); exists x'; auto|].
      split; [unfold value_ok; cbn; auto|]. split; [left; auto|right; eauto].
    - destruct (N eq_refl). }
  destruct X as (h & p & rn & r1 & -> & SH & C1 & OT & HD & V1 & RN & FR).
  assert (HL : forall l ho, held (hp s) (ts s) l ho -> held h (Pool.set_nth (ts s) i (at_pc p t)) l ho)
    by (intros l ho; apply (held_thread _ _ _ _ _ _ _ _ r r1 E N C C1 OT); auto).
  assert (QU : forall l, quiet (ts s) l -> quiet (Pool.set_nth (ts s) i (at_pc p t)) l) by (intros l; exact (HL l None)).
  assert (LT : later (ts s) (Pool.set_nth (ts s) i (at_pc p t))) by (apply later_set; assumption).
  split; cbn [hp ts gate ran prog pc res].
  - exact SH.
  - exact (i_prog _ _ _ I).
  - intros j u Ej NU. apply sn_cases in Ej. destruct Ej as [[-> ->]|[_ Ej]]; [exact (i_live _ _ _ I i t E N)|exact (i_live _ _ _ I j u Ej NU)].
  - intros l L A. destruct (i_good _ _ _ I l L A) as (x & Cx & Hx). destruct (HD l x Cx) as (x' & Cx' & Q). exists x'. split; [exact Cx'|]. rewrite Q. exact (HL l _ Hx).
  - pose proof (i_work _ _ _ I) as W. unfold at_work in *. cbn [hp ts pc]. destruct (pc s) as [|l fn a|l fn a|l ho code|l copy]; trivial.
    + destruct W as (L & Q & x & Cx & A). split; [exact L|]. split; [exact (QU l Q)|]. exists x. split; [|exact A]. rewrite OT; [exact Cx|]. intros ->. exact (N (Q i t E eq_refl)).
    + destruct W as (L & Q & x & Cx & A). split; [exact L|]. split; [exact (QU l Q)|]. exists x. split; [|exact A]. rewrite OT; [exact Cx|]. intros ->. exact (N (Q i t E eq_refl)).
    + destruct W as (L & Hh & (x & Cx) & A). split; [exact L|]. split; [exact (HL l ho Hh)|]. destruct (HD l x Cx) as (x' & Cx' & _). split; [exists x'; exact Cx'|exact A].
    + destruct W as (L & x & Cx & Hx & A). split; [exact L|]. destruct (HD l x Cx) as (x' & Cx' & Q). exists x'. split; [exact Cx'|]. split; [congruence|].
      intros k Hk. destruct (A k Hk) as (u & Eu & Vu). destruct (LT k u Eu) as (u' & Eu' & _ & Q2 & Q3 & _). exists u'. rewrite Q2, Q3. auto.
  - destruct (i_ran _ _ _ I) as [ND IN]. unfold ran_ok. cbn [ran ts].
    assert (CH : forall b, has_run (t_pc t) = b \/ True -> forall j fn a, (exists u, nth_error (Pool.set_nth (ts s) i (at_pc p t)) j = Some u /\ t_fn u = fn /\ t_arg u = a /\ has_run (t_pc u) = true) <->
       ((j = i /\ t_fn t = fn /\ t_arg t = a /\ has_run p = true) \/ (j <> i /\ exists u, nth_error (ts s) j = Some u /\ t_fn u = fn /\ t_arg u = a /\ has_run (t_pc u) = true))).
    { intros _ _ j fn a. split.
      - intros (u & Eu & Q). apply sn_cases in Eu. destruct Eu as [[-> ->]|[NJ Eu]]; [left; cbn in Q; tauto|right; split; [exact NJ|]; exists u; tauto].
      - intros [(-> & Q)|(NJ & u & Eu & Q)]; [exists (at_pc p t); split; [apply sn_same; exact (ne_lt _ _ _ E)|exact Q]|exists u; rewrite sn_other by auto; tauto]. }
    specialize (CH true (or_intror Logic.I)).
    destruct RN as [[-> RP]|(-> & RF & RP)].
    + split; [exact ND|]. intros j fn a. rewrite IN, CH, RP. destruct (Nat.eq_dec j i) as [->|NJ].
      * split; [intros (u & Eu & Q); left; assert (u = t) by congruence; subst u; tauto|]. intros [Q|[NJ _]]; [exists t; tauto|lia].
      * split; [intros Q; right; tauto|]. intros [Q|Q]; tauto.
    + split.
      * rewrite map_app. apply nodup_snoc; [exact ND|]. intros Q. apply in_map_iff in Q. destruct Q as ([[k fn] a] & Q1 & Q2). cbn in Q1. subst k.
        apply IN in Q2. destruct Q2 as (u & Eu & _ & _ & Q). assert (u = t) by congruence. subst u. congruence.
      * intros j fn a. rewrite in_app_iff, CH, IN, RP. cbn [In]. destruct (Nat.eq_dec j i) as [->|NJ].
        -- split; [intros [(u & Eu & _ & _ & Q)|[Q|[]]]|intros [(_ & <- & <- & _)|[NJ _]]].
           ++ assert (u = t) by congruence. subst u. congruence.
           ++ injection Q as <- <-. auto.
           ++ right. left. reflexivity.
           ++ lia.
        -- split; [intros [Q|[Q|[]]]; [right; tauto|injection Q; intros; lia]|intros [Q|Q]; tauto].
  - exact (later_res _ _ _ LT (i_res _ _ _ I)).
Qed.

(** ** steps of the creating thread *)
Lemma held_heap h h' tl l ho : cell h' l = cell h l -> held h tl l ho -> held h' tl l ho.
Proof. intros C. destruct ho as [k|]; cbn; [|auto]. intros (t & r & A & B & D & G). exists t, r. rewrite C. auto. Qed.
Lemma good_heap h h' tl l : cell h' l = cell h l -> good h tl l -> good h' tl l.
Proof. intros C (r & Cr & H). exists r. rewrite C. split; [exact Cr|]. exact (held_heap _ _ _ _ _ C H). Qed.
Lemma held_spawn h tl l l' ho fn a : l <> l' -> held h tl l' ho -> held h (tl ++ [T l T_start fn a]) l' ho.
Proof.
  intros N. assert (X : forall j u, nth_error (tl ++ [T l T_start fn a]) j = Some u -> t_loc u = l' -> nth_error tl j = Some u).
  { intros j u E L. destruct (Nat.lt_ge_cases j (length tl)) as [H|H]; [rewrite nth_error_app1 in E by exact H; exact E|].
    rewrite nth_error_app2 in E by exact H. destruct (j - length tl)%nat as [|k]; cbn in E; [injection E as <-; destruct (N L)|destruct k; discriminate]. }
  destruct ho as [k|]; cbn.
  - intros (t & r & A & B & D & G & U). exists t, r. rewrite nth_error_app1 by exact (ne_lt _ _ _ A). repeat (split; [assumption|]). intros j u Ej Lj. apply U; auto.
  - intros Q j u Ej Lj. exact (Q j u (X j u Ej Lj) Lj).
Qed.

Lemma creator_inv s bl live e s' : inv s bl live -> cstep e s = Go s' -> exists bl' live', inv s' bl' live'.
Proof.
  intros I ST. pose proof (i_work _ _ _ I) as W. pose proof (i_prog _ _ _ I) as PR. pose proof (i_good _ _ _ I) as G. pose proof (i_live _ _ _ I) as LV.
  unfold cstep, at_work in *. destruct (pc s) as [|l fn a|l fn a|l ho code|l copy] eqn:EP; cbn [active] in G.
  - (* between calls *) destruct (prog s) as [|[l fn a|l|b junk|b|] p] eqn:EG; [discriminate| | | | |]; cbn [careful] in PR.
    + destruct PR as ((n & B1 & B2) & NL & PR). destruct (cell (hp s) l) as [r|] eqn:C; [|discriminate]. injection ST as <-. exists bl, (l :: live).
      split; cbn [hp ts gate ran prog pc res active]; trivial.
      * apply shape_put. exact (i_shape _ _ _ I).
      * intros i t E N. right. exact (LV i t E N).
      * intros x [->|L] A; [congruence|]. apply (good_heap (hp s)); [apply cell_put_other; congruence|]. apply G; [exact L|discriminate].
      * unfold at_work. cbn [hp ts pc]. split; [left; reflexivity|]. split.
        -- intros i t E L. destruct (t_pc t) eqn:P; try reflexivity; destruct NL; rewrite <- L; apply (LV i t E); rewrite P; discriminate.
        -- eexists. split; [exact (cell_put_same _ _ _ _ C)|reflexivity].
      * exact (i_ran _ _ _ I).
      * exact (i_res _ _ _ I).
    + destruct PR as (L & PR). destruct (cell (hp s) l) as [r|] eqn:C; [|discriminate]. injection ST as <-. exists bl, live.
      split; cbn [hp ts gate ran prog pc res active]; trivial.
      * exact (i_shape _ _ _ I).
      * unfold at_work. cbn [hp ts pc]. split; [exact L|]. exists r. split; [exact C|]. split; [reflexivity|]. intros i Hi.
        destruct (G l L ltac:(discriminate)) as (r' & C' & Hh). assert (r' = r) by congruence. subst r'. rewrite Hi in Hh. cbn in Hh.
        destruct Hh as (t & r' & Et & _ & C'' & V & _). assert (r' = r) by congruence. subst r'. exists t. split; [exact Et|]. unfold value_ok in V. destruct (t_pc t); tauto.
      * exact (i_ran _ _ _ I).
      * exact (i_res _ _ _ I).
    + destruct PR as (n & B & NB & PR). destruct (shape_nth _ _ _ _ (i_shape _ _ _ I) B) as (x & Ex & Lx). rewrite Ex in ST. injection ST as <-.
      exists (firstn b bl ++ None :: skipn (S b) bl ++ [Some (n + length junk)%nat]), live.
      split; cbn [hp ts gate ran prog pc res active]; trivial.
      * replace (firstn b bl ++ None :: skipn (S b) bl ++ [Some (n + length junk)%nat]) with ((firstn b bl ++ None :: skipn (S b) bl) ++ [Some (n + length junk)%nat]) by (rewrite <- app_assoc; reflexivity).
        apply Forall2_app; [apply shape_free; [exact (i_shape _ _ _ I)|exact (ne_lt _ _ _ B)]|]. constructor; [cbn; rewrite app_length; lia|constructor].
      * intros y L _. destruct (G y L ltac:(discriminate)) as (r & C & Hh).
        apply (good_heap (hp s)); [rewrite C; apply cell_app; rewrite cell_freed by (apply NB; exact L); exact C|]. exists r. auto.
      * exact (i_ran _ _ _ I).
      * exact (i_res _ _ _ I).
    + destruct PR as (n & B & NB & PR). destruct (shape_nth _ _ _ _ (i_shape _ _ _ I) B) as (x & Ex & Lx). rewrite Ex in ST. injection ST as <-.
      exists (firstn b bl ++ None :: skipn (S b) bl), live. split; cbn [hp ts gate ran prog pc res active]; trivial.
      * apply shape_free; [exact (i_shape _ _ _ I)|exact (ne_lt _ _ _ B)].
      * intros y L _. apply (good_heap (hp s)); [apply cell_freed; apply NB; exact L|]. apply G; [exact L|discriminate].
      * exact (i_ran _ _ _ I).
      * exact (i_res _ _ _ I).
    + injection ST as <-. exists bl, live. split; cbn [hp ts gate ran prog pc res active]; trivial.
      * exact (i_shape _ _ _ I).
      * exact (i_ran _ _ _ I).
      * exact (i_res _ _ _ I).
  - destruct W as (L & Q & r & C & A). rewrite C in ST. injection ST as <-. exists bl, live. split; cbn [hp ts gate ran prog pc res active]; trivial.
    + apply shape_put. exact (i_shape _ _ _ I).
    + intros y Ly NA. apply (good_heap (hp s)); [apply cell_put_other; congruence|]. exact (G y Ly NA).
    + unfold at_work. cbn [hp ts pc]. split; [exact L|]. split; [exact Q|]. eexists. split; [exact (cell_put_same _ _ _ _ C)|]. cbn. auto.
    + exact (i_ran _ _ _ I).
    + exact (i_res _ _ _ I).
  - destruct W as (L & Q & r & C & A1 & A2). destruct (Z.eqb_spec e 0) as [E0|E0]; injection ST as <-; exists bl, live; split; cbn [hp ts gate ran prog pc res active]; trivial;
      try exact (i_shape _ _ _ I); try exact (i_ran _ _ _ I); try exact (i_res _ _ _ I).
    + intros i t E N. destruct (Nat.lt_ge_cases i (length (ts s))) as [H|H]; [rewrite nth_error_app1 in E by exact H; exact (LV i t E N)|].
      rewrite nth_error_app2 in E by exact H. destruct (i - length (ts s))%nat as [|k]; cbn in E; [injection E as <-; exact L|destruct k; discriminate].
    + intros y Ly NA. destruct (G y Ly NA) as (x & Cx & Hx). exists x. split; [exact Cx|]. apply held_spawn; [congruence|exact Hx].
    + unfold at_work. cbn [hp ts pc]. split; [exact L|]. split; [|split; [exists r; exact C|reflexivity]]. cbn [held].
      exists (T l T_start fn a), r. split; [rewrite nth_error_app2, Nat.sub_diag by lia; reflexivity|]. split; [reflexivity|]. split; [exact C|]. split; [cbn; auto|].
      intros j u Ej Lj NJ. destruct (Nat.lt_ge_cases j (length (ts s))) as [H|H]; [rewrite nth_error_app1 in Ej by exact H; exact (Q j u Ej Lj)|].
      rewrite nth_error_app2 in Ej by exact H. destruct (j - length (ts s))%nat as [|k] eqn:K; [lia|]. destruct k; discriminate.
    + destruct (i_ran _ _ _ I) as [ND IN]. split; [exact ND|]. cbn [ran ts]. intros j f v. rewrite IN. split; intros (u & Eu & X).
      * exists u. rewrite nth_error_app1 by exact (ne_lt _ _ _ Eu). auto.
      * destruct (Nat.lt_ge_cases j (length (ts s))) as [H|H]; [rewrite nth_error_app1 in Eu by exact H; exists u; auto|].
        rewrite nth_error_app2 in Eu by exact H. destruct (j - length (ts s))%nat as [|k]; cbn in Eu; [injection Eu as <-; cbn in X; destruct X as (_ & _ & X); discriminate|destruct k; discriminate].
    + exact (later_res _ _ _ (later_app _ _) (i_res _ _ _ I)).
    + unfold at_work. cbn [hp ts pc]. split; [exact L|]. split; [exact Q|]. split; [exists r; exact C|exact E0].
  - destruct W as (L & Hh & (r & C) & A). rewrite C in ST. injection ST as <-. exists bl, live. split; cbn [hp ts gate ran prog pc res active]; trivial.
    + apply shape_put. exact (i_shape _ _ _ I).
    + intros y Ly _. destruct (loc_dec l y) as [<-|NY].
      * eexists. split; [exact (cell_put_same _ _ _ _ C)|]. cbn [r_handle]. destruct ho as [i|]; [|exact Hh]. cbn in *.
        destruct Hh as (t & r' & Et & Lt & C' & V & U). assert (r' = r) by congruence. subst r'. eexists t, _. split; [exact Et|]. split; [exact Lt|].
        split; [exact (cell_put_same _ _ _ _ C)|]. split; [exact V|exact U].
      * apply (good_heap (hp s)); [apply cell_put_other; exact NY|]. apply G; [exact Ly|congruence].
    + exact Logic.I.
    + exact (i_ran _ _ _ I).
    + apply Forall_app. split; [exact (i_res _ _ _ I)|]. constructor; [|constructor]. cbn. intros Z0. destruct ho as [i|]; [|destruct (A Z0)].
      destruct Hh as (t & r' & Et & Lt & _). exists i, t. auto.
  - destruct W as (L & r & C & Hr & A).
    assert (GL : held (hp s) (ts s) l (r_handle copy)).
    { destruct (G l L ltac:(discriminate)) as (r' & C' & Hh). assert (r' = r) by congruence. subst r'. rewrite Hr. exact Hh. }
    assert (X : quiet (ts s) l -> forall rs, Forall (result_ok (ts s)) (res s ++ rs) -> exists bl' live', inv (St (hp s) (ts s) (gate s) (ran s) (prog s) P_idle (res s ++ rs)) bl' live').
    { intros Q rs RS. exists bl, (remove loc_dec l live). split; cbn [hp ts gate ran prog pc res active]; trivial.
      - exact (i_shape _ _ _ I).
      - intros i t E N. apply in_in_remove; [|exact (LV i t E N)]. intros Lt. exact (N (Q i t E Lt)).
      - intros y Ly _. apply in_remove in Ly. apply G; [tauto|discriminate].
      - exact Logic.I.
      - exact (i_ran _ _ _ I). }
    destruct (r_handle copy) as [i|] eqn:HC.
    + destruct (nth_error (ts s) i) as [t|] eqn:Et; [|discriminate]. destruct (t_pc t) eqn:P; try discriminate. injection ST as <-.
      destruct GL as (t' & r' & Et' & Lt & _ & _ & U). assert (t' = t) by congruence. subst t'. apply X.
      * intros j u Ej Lj. destruct (Nat.eq_dec j i) as [->|NJ]; [congruence|exact (U j u Ej Lj NJ)].
      * apply Forall_app. split; [exact (i_res _ _ _ I)|]. constructor; [|constructor]. cbn. split; [reflexivity|]. exists t. repeat (split; [assumption|]).
        destruct (A i eq_refl) as (u & Eu & V). assert (u = t) by congruence. subst u. destruct V as [->| ->]; auto.
    + injection ST as <-. apply X; [exact GL|]. apply Forall_app. split; [exact (i_res _ _ _ I)|]. constructor; [|constructor]. cbn. auto.
Qed.

(** ** nothing undefined, nothing stuck *)
Lemma inv_not_bad s bl live : inv s bl live -> ~ bad F s.
Proof.
  intros I [(i & t & E & B)|(e & B)].
  - assert (N : t_pc t <> T_end) by (intros Q; unfold tstep in B; rewrite Q in B; discriminate). destruct (cover _ _ _ _ _ I E N) as (r & C & _).
    unfold tstep in B. rewrite C in B. destruct (t_pc t); try discriminate. destruct (gate s); discriminate.
  - pose proof (i_work _ _ _ I) as W. pose proof (i_prog _ _ _ I) as PR. unfold cstep, at_work in *. destruct (pc s) as [|l fn a|l fn a|l ho code|l copy] eqn:EP.
    + destruct (prog s) as [|[l fn a|l|b junk|b|] p]; [discriminate| | | | |discriminate]; cbn [careful] in PR.
      * destruct PR as ((n & B1 & B2) & _). destruct (shape_cell _ _ _ _ (i_shape _ _ _ I) B1 B2) as (r & C). rewrite C in B. discriminate.
      * destruct PR as (L & _). destruct (i_good _ _ _ I l L) as (r & C & _); [rewrite EP; discriminate|]. rewrite C in B. discriminate.
      * destruct PR as (n & B1 & _). destruct (shape_nth _ _ _ _ (i_shape _ _ _ I) B1) as (x & Ex & _). rewrite Ex in B. discriminate.
      * destruct PR as (n & B1 & _). destruct (shape_nth _ _ _ _ (i_shape _ _ _ I) B1) as (x & Ex & _). rewrite Ex in B. discriminate.
    + destruct W as (_ & _ & r & C & _). rewrite C in B. discriminate.
    + destruct (e =? 0); discriminate.
    + destruct W as (_ & _ & (r & C) & _). rewrite C in B. discriminate.
    + destruct W as (_ & r & _ & _ & A). destruct (r_handle copy) as [i|]; [|discriminate]. destruct (A i eq_refl) as (t & Et & _). rewrite Et in B. destruct (t_pc t); discriminate.
Qed.
Lemma inv_progress s bl live : inv s bl live -> gate s = true -> (pc s = P_idle /\ prog s = [] /\ forall i t, nth_error (ts s) i = Some t -> t_pc t = T_end) \/ exists s', step F s s'.
Proof.
  intros I GA. pose proof (inv_not_bad _ _ _ I) as NB.
  assert (TH : forall i t, nth_error (ts s) i = Some t -> t_pc t <> T_end -> exists s', step F s s').
  { intros i t E N. destruct (tstep F i t s) as [| |s'] eqn:ST; [|destruct NB; left; exists i, t; auto|exists s'; exact (Step_thread _ _ _ _ _ E ST)].
    unfold tstep in ST. rewrite GA in ST. destruct (t_pc t); try discriminate; [destruct (cell _ _); discriminate|destruct (cell _ _); discriminate|destruct (N eq_refl)]. }
  destruct (cstep 0 s) as [| |s'] eqn:ST; [|destruct NB; right; exists 0; exact ST|right; exists s'; exact (Step_creator _ _ _ _ ST)].
  destruct (Exists_dec (fun t => t_pc t <> T_end) (ts s)) as [X|X].
  { intros t. destruct (t_pc t); [left|left|left|right]; congruence. }
  - apply Exists_exists in X. destruct X as (t & Hin & N). apply In_nth_error in Hin. destruct Hin as (i & E). right. exact (TH i t E N).
  - assert (AE : forall i t, nth_error (ts s) i = Some t -> t_pc t = T_end).
    { intros i t E. destruct (t_pc t) eqn:P; trivial; destruct X; apply Exists_exists; exists t; (split; [exact (nth_error_In _ _ E)|congruence]). }
    left. unfold cstep in ST. destruct (pc s) as [|l fn a|l fn a|l ho code|l copy].
    + split; [reflexivity|]. split; [|exact AE]. destruct (prog s) as [|[l fn a|l|b junk|b|] p]; [reflexivity| | | | |discriminate];
        [destruct (cell _ _)|destruct (cell _ _)|destruct (nth_error _ _) as [[]|]|destruct (nth_error _ _) as [[]|]]; discriminate.
    + destruct (cell _ _); discriminate.
    + discriminate.
    + destruct (cell _ _); discriminate.
    + destruct (r_handle copy) as [i|]; [|discriminate]. destruct (nth_error (ts s) i) as [t|] eqn:Et; [|discriminate]. rewrite (AE i t Et) in ST. discriminate.
Qed.

Definition sizes (h : list (list rec)) : list (option nat) := map (fun b => Some (length b)) h.
Lemma init_inv h g p : careful (sizes h) [] p -> inv (init h g p) (sizes h) [].
Proof.
  intros C. split; cbn; trivial.
  - clear. induction h as [|x h IH]; cbn; constructor; [reflexivity|exact IH].
  - intros [|i] t E; discriminate.
  - intros l [].
  - split; [constructor|]. cbn. intros i fn a. split; [intros []|]. intros (t & E & _). destruct i; discriminate.
Qed.
Lemma exec_inv h g p n s : careful (sizes h) [] p -> exec F n (init h g p) s -> exists bl live, inv s bl live.
Proof.
  intros C E. remember (init h g p) as s0 eqn:E0. induction E as [s|n s s' s'' E IH ST]; [subst; eexists _, _; apply init_inv; exact C|].
  destruct (IH E0) as (bl & live & I). destruct ST as [a i t b Et ST|a e b ST]; [exists bl, live; exact (thread_inv _ _ _ _ _ _ I Et ST)|exact (creator_inv _ _ _ _ _ I ST)].
Qed.

(** ** the number of steps *)
Definition tcost (t : thr) : nat := match t_pc t with T_start => 3 | T_run _ _ => 2 | T_store _ => 1 | T_end => 0 end.
Definition ocost (o : op) : nat := match o with Create _ _ _ => 7 | Join _ => 2 | _ => 1 end.
Definition ccost (c : cpc) : nat := match c with P_idle => 0 | P_fn _ _ _ => 6 | P_begin _ _ _ => 5 | P_handle _ _ _ => 1 | P_join _ _ => 1 end.
Definition total (l : list nat) : nat := fold_right Nat.add 0%nat l.
Definition cost (s : st) : nat := (total (map tcost (ts s)) + total (map ocost (prog s)) + ccost (pc s))%nat.
Lemma total_set (l : list thr) i t u : nth_error l i = Some t -> (total (map tcost (Pool.set_nth l i u)) + tcost t = total (map tcost l) + tcost u)%nat.
Proof. revert i. induction l as [|x l IH]; intros [|i] E; cbn in *; try discriminate; [injection E as ->; unfold total; lia|]. specialize (IH i E). unfold total in *. lia. Qed.
Lemma total_app a b : total (a ++ b) = (total a + total b)%nat.
Proof. induction a as [|x a IH]; cbn; [reflexivity|]. unfold total in *. cbn. lia. Qed.
Lemma step_cost s s' : step F s s' -> (cost s' < cost s)%nat.
Proof.
  intros [s0 i t s1 E ST|s0 e s1 ST].
  - unfold tstep in ST. pose proof (fun p => total_set (ts s0) i t (at_pc p t) E) as TS. unfold tcost at 2 4 in TS. cbn [at_pc t_pc] in TS.
    destruct (t_pc t) as [|fn a|v|]; [destruct (cell _ _); [|discriminate]|destruct (gate s0); [|discriminate]|destruct (cell _ _); [|discriminate]|discriminate];
      injection ST as <-; unfold cost; cbn [ts prog pc].
    + specialize (TS (T_run (r_fn r) (r_arg r))). cbn in TS. lia.
    + specialize (TS (T_store (F fn a))). cbn in TS. lia.
    + specialize (TS T_end). cbn in TS. lia.
  - unfold cstep in ST. unfold cost. destruct (pc s0) as [|l fn a|l fn a|l ho code|l copy].
    + destruct (prog s0) as [|[l fn a|l|b junk|b|] p]; [discriminate|destruct (cell _ _); [|discriminate]|destruct (cell _ _); [|discriminate]|destruct (nth_error _ _) as [[]|]; try discriminate|destruct (nth_error _ _) as [[]|]; try discriminate|];
        injection ST as <-; cbn [ts prog pc map ocost ccost total fold_right]; unfold total; lia.
    + destruct (cell _ _); [|discriminate]. injection ST as <-. cbn [ts prog pc ccost]. lia.
    + destruct (e =? 0); injection ST as <-; cbn [ts prog pc ccost]; [rewrite map_app, total_app; cbn|]; lia.
    + destruct (cell _ _); [|discriminate]. injection ST as <-. cbn [ts prog pc ccost]. lia.
    + destruct (r_handle copy) as [i|]; [destruct (nth_error _ _) as [t|]; [|discriminate]; destruct (t_pc t); try discriminate|]; injection ST as <-; cbn [ts prog pc ccost]; lia.
Qed.
Lemma exec_cost n s s' : exec F n s s' -> (n + cost s' <= cost s)%nat.
Proof. intros E. induction E as [s|n s s' s'' E IH ST]; [lia|]. apply step_cost in ST. lia. Qed.
Lemma cost_bound h g p : (cost (init h g p) <= 7 * length p)%nat.
Proof. unfold cost, init. cbn [ts prog pc map total fold_right ccost]. induction p as [|o p IH]; cbn [map total fold_right length]; [lia|]. unfold total in *. destruct o; cbn [ocost]; lia. Qed.
Lemma gate_stays s s' : step F s s' -> gate s = true -> gate s' = true.
Proof.
  intros [s0 i t s1 E ST|s0 e s1 ST] G.
  - unfold tstep in ST. destruct (t_pc t); [destruct (cell _ _)|rewrite G in ST|destruct (cell _ _)|]; try discriminate; injection ST as <-; cbn [gate]; trivial.
  - unfold cstep in ST. destruct (pc s0) as [|l fn a|l fn a|l ho code|l copy].
    + destruct (prog s0) as [|[l fn a|l|b junk|b|] p]; [discriminate|destruct (cell _ _); [|discriminate]|destruct (cell _ _); [|discriminate]|destruct (nth_error _ _) as [[]|]; try discriminate|destruct (nth_error _ _) as [[]|]; try discriminate|];
        injection ST as <-; trivial.
    + destruct (cell _ _); [|discriminate]. injection ST as <-. exact G.
    + destruct (e =? 0); injection ST as <-; exact G.
    + destruct (cell _ _); [|discriminate]. injection ST as <-. exact G.
    + destruct (r_handle copy) as [i|]; [destruct (nth_error _ _) as [t|]; [|discriminate]; destruct (t_pc t); try discriminate|]; injection ST as <-; exact G.
Qed.
End Inv.

(** ** a pool that grows *)
Definition is_create (o : op) : Prop := match o with Create _ _ _ => True | _ => False end.
Definition first_freed (h : heap) : Prop := nth_error h 0 = Some None.
Lemma freed_put h l r : first_freed h -> first_freed (put h l r).
Proof.
  unfold first_freed, put. intros H. destruct (nth_error h (fst l)) as [[b|]|] eqn:E; trivial. rewrite sn_other; [exact H|]. intros Q. rewrite Q in E. congruence.
Qed.
Lemma freed_cell h l : first_freed h -> fst l = 0%nat -> cell h l = None.
Proof. unfold first_freed, cell. intros H ->. rewrite H. reflexivity. Qed.
Definition phase (junk : list rec) (s : st) : Prop :=
  (gate s = false /\ (exists pre rest, prog s = pre ++ Grow 0 junk :: rest /\ Forall is_create pre) /\ (forall i t, nth_error (ts s) i = Some t -> match t_pc t with T_store _ | T_end => False | _ => True end) /\
   match pc s with P_join _ _ => False | _ => True end) \/
  (first_freed (hp s) /\ forall i t, nth_error (ts s) i = Some t -> fst (t_loc t) = 0%nat -> t_pc t <> T_end).
Lemma phase_step F junk s s' : phase junk s -> step F s s' -> phase junk s'.
Proof.
  intros PH ST. destruct ST as [s i t s' E ST|s e s' ST].
  - destruct PH as [(G & PR & TH & PC)|(FF & TH)]; unfold tstep in ST.
    + pose proof (TH i t E) as TT. left. destruct (t_pc t) as [|fn a|v|]; [|rewrite G in ST; discriminate|destruct TT|destruct TT].
      destruct (cell _ _); [|discriminate]. injection ST as <-. cbn [gate prog ts pc]. split; [exact G|]. split; [exact PR|]. split; [|exact PC].
      intros j u Ej. apply sn_cases in Ej. destruct Ej as [[-> ->]|[_ Ej]]; [exact Logic.I|exact (TH j u Ej)].
    + right. pose proof (TH i t E) as TT. destruct (t_pc t) as [|fn a|v|] eqn:P.
      * destruct (cell _ _); [|discriminate]. injection ST as <-. cbn [hp ts]. split; [exact FF|]. intros j u Ej L. apply sn_cases in Ej. destruct Ej as [[-> ->]|[_ Ej]]; [discriminate|exact (TH j u Ej L)].
      * destruct (gate s); [|discriminate]. injection ST as <-. cbn [hp ts]. split; [exact FF|]. intros j u Ej L. apply sn_cases in Ej. destruct Ej as [[-> ->]|[_ Ej]]; [discriminate|exact (TH j u Ej L)].
      * destruct (cell (hp s) (t_loc t)) as [r|] eqn:C; [|discriminate]. injection ST as <-. cbn [hp ts]. split; [apply freed_put; exact FF|].
        intros j u Ej L. apply sn_cases in Ej. destruct Ej as [[-> ->]|[_ Ej]]; [|exact (TH j u Ej L)]. cbn [at_pc t_loc] in L. rewrite (freed_cell _ _ FF L) in C. discriminate.
      * discriminate.
  - destruct PH as [(G & (pre & rest & PR & CR) & TH & PC)|(FF & TH)]; unfold cstep in ST.
    + destruct (pc s) as [|l fn a|l fn a|l ho code|l copy]; [| | | |destruct PC].
      * rewrite PR in ST. destruct pre as [|o pre]; cbn [app] in ST.
        -- destruct (nth_error (hp s) 0) as [[x|]|] eqn:E0; try discriminate. injection ST as <-. right. cbn [hp ts]. split.
           ++ unfold first_freed. destruct (hp s); [discriminate|reflexivity].
           ++ intros i t E _ Q. pose proof (TH i t E) as X. rewrite Q in X. exact X.
        -- inversion CR as [|? ? CO CR']; subst. destruct o as [l fn a|l|b j|b|]; try destruct CO. destruct (cell _ _); [|discriminate]. injection ST as <-.
           left. cbn [gate prog ts pc]. split; [exact G|]. split; [exists pre, rest; auto|]. split; [exact TH|exact Logic.I].
      * destruct (cell _ _); [|discriminate]. injection ST as <-. left. cbn [gate prog ts pc]. split; [exact G|]. split; [exists pre, rest; auto|]. auto.
      * left. destruct (e =? 0); injection ST as <-; cbn [gate prog ts pc]; (split; [exact G|]); (split; [exists pre, rest; auto|]); (split; [|exact Logic.I]); [|exact TH].
        intros i t E. destruct (Nat.lt_ge_cases i (length (ts s))) as [H|H]; [rewrite nth_error_app1 in E by exact H; exact (TH i t E)|].
        rewrite nth_error_app2 in E by exact H. destruct (i - length (ts s))%nat as [|k]; cbn in E; [injection E as <-; exact Logic.I|destruct k; discriminate].
      * destruct (cell _ _); [|discriminate]. injection ST as <-. left. cbn [gate prog ts pc]. split; [exact G|]. split; [exists pre, rest; auto|]. auto.
    + right. destruct (pc s) as [|l fn a|l fn a|l ho code|l copy].
      * destruct (prog s) as [|[l fn a|l|b j|b|] p]; [discriminate| | | | |].
        -- destruct (cell _ _); [|discriminate]. injection ST as <-. split; [apply freed_put; exact FF|exact TH].
        -- destruct (cell _ _); [|discriminate]. injection ST as <-. split; assumption.
        -- destruct (nth_error (hp s) b) as [[x|]|] eqn:EB; try discriminate. injection ST as <-. split; [|exact TH]. cbn [hp]. unfold first_freed in *.
           destruct b as [|b]; [congruence|]. rewrite nth_error_app1 by (rewrite sn_length; exact (ne_lt _ _ _ FF)). rewrite sn_other by lia. exact FF.
        -- destruct (nth_error (hp s) b) as [[x|]|] eqn:EB; try discriminate. injection ST as <-. split; [|exact TH]. cbn [hp]. unfold first_freed in *.
           destruct b as [|b]; [congruence|]. rewrite sn_other by lia. exact FF.
        -- injection ST as <-. split; assumption.
      * destruct (cell _ _); [|discriminate]. injection ST as <-. split; [apply freed_put; exact FF|exact TH].
      * destruct (e =? 0); injection ST as <-; (split; [exact FF|]); [|exact TH]. cbn [ts].
        intros i t E. destruct (Nat.lt_ge_cases i (length (ts s))) as [H|H]; [rewrite nth_error_app1 in E by exact H; exact (TH i t E)|].
        rewrite nth_error_app2 in E by exact H. destruct (i - length (ts s))%nat as [|k]; cbn in E; [injection E as <-; discriminate|destruct k; discriminate].
      * destruct (cell _ _); [|discriminate]. injection ST as <-. split; [apply freed_put; exact FF|exact TH].
      * destruct (r_handle copy) as [i|]; [destruct (nth_error _ _) as [t|]; [|discriminate]; destruct (t_pc t); try discriminate|]; injection ST as <-; split; assumption.
Qed.
Lemma phase_exec F junk n s s' : phase junk s -> exec F n s s' -> phase junk s'.
Proof. intros P E. induction E as [s|n s s' s'' E IH ST]; [exact P|]. exact (phase_step _ _ _ _ (IH P) ST). Qed.

(** running the creating thread alone *)
Lemma exec_app F n m a b c : exec F n a b -> exec F m b c -> exists k, exec F k a c.
Proof. intros E1 E2. induction E2 as [s|m s s' s'' E IH ST]; [exists n; exact E1|]. destruct (IH E1) as (k & Ek). exists (S k). exact (Exec_step _ _ _ _ _ Ek ST). Qed.
Definition block_size (h : heap) (b : nat) : option nat := match nth_error h b with Some (Some x) => Some (length x) | _ => None end.
Lemma put_size h l r b : block_size (put h l r) b = block_size h b.
Proof.
  unfold block_size, put. destruct (nth_error h (fst l)) as [[x|]|] eqn:E; trivial. destruct (Nat.eq_dec (fst l) b) as [<-|N].
  - rewrite sn_same by exact (ne_lt _ _ _ E). rewrite E, sn_length. reflexivity.
  - rewrite sn_other by exact N. reflexivity.
Qed.
Lemma put_length h l r : length (put h l r) = length h.
Proof. unfold put. destruct (nth_error h (fst l)) as [[x|]|]; trivial. apply sn_length. Qed.
Lemma size_cell h b n i : block_size h b = Some n -> (i < n)%nat -> exists r, cell h (b, i) = Some r.
Proof.
  unfold block_size, cell. cbn [fst snd]. destruct (nth_error h b) as [[x|]|]; try discriminate. intros Q L. injection Q as <-.
  destruct (nth_error x i) as [r|] eqn:E; [exists r; reflexivity|]. apply nth_error_None in E. lia.
Qed.
Lemma run_create F h tl g rn b i fn a p rs n : block_size h b = Some n -> (i < n)%nat ->
  exists h', exec F 4 (St h tl g rn (Create (b, i) fn a :: p) P_idle rs) (St h' (tl ++ [T (b, i) T_start fn a]) g rn p P_idle (rs ++ [R_create (b, i) 0])) /\
    (forall x, block_size h' x = block_size h x) /\ length h' = length h /\ (first_freed h -> first_freed h').
Proof.
  intros S L. destruct (size_cell _ _ _ _ S L) as (r & C).
  set (h1 := put h (b, i) (Rec (r_handle r) (r_fn r) a)). set (h2 := put h1 (b, i) (Rec (r_handle r) fn a)). set (h3 := put h2 (b, i) (Rec (Some (length tl)) fn a)).
  assert (C1 : cell h1 (b, i) = Some (Rec (r_handle r) (r_fn r) a)) by exact (cell_put_same _ _ _ _ C).
  assert (C2 : cell h2 (b, i) = Some (Rec (r_handle r) fn a)) by exact (cell_put_same _ _ _ _ C1).
  exists h3. split.
  - eapply Exec_step; [eapply Exec_step; [eapply Exec_step; [eapply Exec_step; [apply Exec_nil|]|]|]|].
    + apply (Step_creator _ _ 0). unfold cstep. cbn [pc prog hp ts gate ran res]. rewrite C. fold h1. reflexivity.
    + apply (Step_creator _ _ 0). unfold cstep. cbn [pc prog hp ts gate ran res]. rewrite C1. cbn [r_handle r_arg]. fold h2. reflexivity.
    + apply (Step_creator _ _ 0). unfold cstep. cbn [pc prog hp ts gate ran res Z.eqb]. reflexivity.
    + apply (Step_creator _ _ 0). unfold cstep. cbn [pc prog hp ts gate ran res]. rewrite C2. reflexivity.
  - split; [intros x; unfold h3, h2, h1; rewrite !put_size; reflexivity|]. split; [unfold h3, h2, h1; rewrite !put_length; reflexivity|].
    intros FF. unfold h3, h2, h1. do 3 apply freed_put. exact FF.
Qed.
Lemma run_creates F b fn a n p k : forall j h tl g rn rs, block_size h b = Some n -> (j + k <= n)%nat ->
  exists m h' tl' rs', exec F m (St h tl g rn (map (fun i => Create (b, i) fn a) (seq j k) ++ p) P_idle rs) (St h' (tl ++ tl') g rn p P_idle rs') /\
    (forall x, block_size h' x = block_size h x) /\ length h' = length h /\ (first_freed h -> first_freed h') /\ tl' = map (fun i => T (b, i) T_start fn a) (seq j k).
Proof.
  induction k as [|k IH]; intros j h tl g rn rs S L.
  - exists 0%nat, h, [], rs. rewrite app_nil_r. split; [apply Exec_nil|]. auto.
  - cbn [seq map app]. destruct (run_create F h tl g rn b j fn a (map (fun i => Create (b, i) fn a) (seq (Datatypes.S j) k) ++ p) rs n S ltac:(lia)) as (h1 & E1 & S1 & L1 & F1).
    destruct (IH (Datatypes.S j) h1 (tl ++ [T (b, j) T_start fn a]) g rn (rs ++ [R_create (b, j) 0])) as (m & h' & tl' & rs' & E2 & S2 & L2 & F2 & Q); [rewrite S1; exact S|lia|].
    destruct (exec_app _ _ _ _ _ _ E1 E2) as (m' & E). exists m', h', (T (b, j) T_start fn a :: tl'), rs'. rewrite <- app_assoc in E. cbn [app] in E. split; [exact E|].
    split; [intros x; rewrite S2, S1; reflexivity|]. split; [congruence|]. split; [auto|]. rewrite Q. reflexivity.
Qed.
