(** Property theorems about the Windows thread emulation of the collision tester and its pool without threads: C93
    (create and join), C94 (a pool that grows), C95 (the pool without threads). *)
From Coq Require Import Permutation.
From Verif Require Import Base Mem M_Pool M_Threading SpecThr P_Threading.
Import Thr.

(** ** C93: ZSTD_pthread_create and ZSTD_pthread_join *)
(** with a careful client nothing undefined happens in any interleaving, and there are at most 7 steps per call *)
Theorem C93_defined : forall F h g p n s, careful (map (fun b => Some (length b)) h) [] p -> exec F n (init h g p) s -> ~ bad F s /\ (n <= 7 * length p)%nat.
Proof.
  intros F h g p n s C E. destruct (exec_inv F h g p n s C E) as (bl & live & I). split; [exact (inv_not_bad F _ _ _ I)|].
  pose proof (exec_cost F _ _ _ E). pose proof (cost_bound h g p). lia.
Qed.
Print Assumptions C93_defined.
(** once the start routines may return, the client gets through all its calls and all threads end *)
Theorem C93_progress : forall F h g p n s, careful (map (fun b => Some (length b)) h) [] p -> exec F n (init h g p) s -> gate s = true ->
  (pc s = P_idle /\ prog s = [] /\ forall i t, nth_error (ts s) i = Some t -> t_pc t = T_end) \/ exists s', step F s s'.
Proof. intros F h g p n s C E G. destruct (exec_inv F h g p n s C E) as (bl & live & I). exact (inv_progress F _ _ _ I G). Qed.
Print Assumptions C93_progress.
(** a start routine runs at most once, with the code and the argument given to ZSTD_pthread_create, and a join returns only after the
    thread has ended; what it delivers is the result of the routine or its argument *)
Theorem C93_join : forall F h g p n s, careful (map (fun b => Some (length b)) h) [] p -> exec F n (init h g p) s ->
  NoDup (map (fun x => fst (fst x)) (ran s)) /\
  (forall i fn a, In (i, fn, a) (ran s) -> exists t, nth_error (ts s) i = Some t /\ t_fn t = fn /\ t_arg t = a) /\
  (forall l i code v, In (R_join l (Some i) code v) (res s) -> code = 0 /\
     exists t, nth_error (ts s) i = Some t /\ t_loc t = l /\ t_pc t = T_end /\ In (i, t_fn t, t_arg t) (ran s) /\ (v = Some (t_arg t) \/ v = Some (F (t_fn t) (t_arg t)))) /\
  (forall l, In (R_create l 0) (res s) -> exists i t, nth_error (ts s) i = Some t /\ t_loc t = l).
Proof.
  intros F h g p n s C E. destruct (exec_inv F h g p n s C E) as (bl & live & I). destruct (i_ran F _ _ _ I) as [ND IN]. pose proof (i_res F _ _ _ I) as RS. rewrite Forall_forall in RS.
  split; [exact ND|]. split; [intros i fn a Q; apply IN in Q; destruct Q as (t & Q); exists t; tauto|]. split.
  - intros l i code v Q. destruct (RS _ Q) as (Z0 & t & Et & Lt & Pt & V). split; [exact Z0|]. exists t. repeat (split; [assumption|]). split; [|exact V].
    apply IN. exists t. rewrite Pt. auto.
  - intros l Q. exact (RS _ Q eq_refl).
Qed.
Print Assumptions C93_join.
(** a pool that does not grow is a careful client *)
Lemma careful_creates n fn ctx rest : forall k j live, (j + k <= n)%nat -> (forall i, In (0%nat, i) live -> (i < j)%nat) ->
  careful [Some n] (rev (map (fun i => (0%nat, i)) (seq j k)) ++ live) rest -> careful [Some n] live (map (fun i => Create (0%nat, i) fn ctx) (seq j k) ++ rest).
Proof.
  induction k as [|k IH]; intros j live L B H; [exact H|]. cbn [seq map app careful fst snd nth_error]. split; [exists n; split; [reflexivity|lia]|].
  split; [intros Q; apply B in Q; lia|]. apply IH; [lia| |].
  - intros i [Q|Q]; [injection Q as <-; lia|apply B in Q; lia].
  - cbn [seq map rev] in H. rewrite <- app_assoc in H. exact H.
Qed.
Lemma careful_joins n rest : forall k j live, (forall i, In (0%nat, i) live <-> (j <= i < j + k)%nat) -> (forall x, In x live -> fst x = 0%nat) ->
  careful [Some n] [] rest -> careful [Some n] live (map (fun i => Join (0%nat, i)) (seq j k) ++ rest).
Proof.
  induction k as [|k IH]; intros j live B Z H.
  - destruct live as [|[x i] live]; [exact H|]. pose proof (Z (x, i) (or_introl eq_refl)) as Q. cbn in Q. subst x. destruct (proj1 (B i) (or_introl eq_refl)). lia.
  - cbn [seq map app careful]. split; [apply B; lia|]. apply IH; trivial.
    + intros i. split; [intros Q; apply in_remove in Q; destruct Q as [Q N]; apply B in Q; assert (i <> j) by (intros ->; apply N; reflexivity); lia|].
      intros Q. apply in_in_remove; [intros X; injection X as ->; lia|]. apply B. lia.
    + intros x Q. apply in_remove in Q. apply Z. tauto.
Qed.
Example C93_pool : forall n fn ctx, careful [Some n] [] (pool_program n fn ctx).
Proof.
  intros n fn ctx. unfold pool_program.
  apply careful_creates; [lia|intros i []|]. rewrite app_nil_r. cbn [careful]. apply careful_joins.
  - intros i. rewrite <- in_rev, in_map_iff. split; [intros (x & Q & H); injection Q as ->; apply in_seq in H; lia|]. intros H. exists i. split; [reflexivity|]. apply in_seq. lia.
  - intros x Q. rewrite <- in_rev, in_map_iff in Q. destruct Q as (i & <- & _). reflexivity.
  - cbn. exists n. split; [reflexivity|]. split; [intros l []|exact I].
Qed.

(** "the value a join delivers is what the start routine returned" is false: ZSTD_pthread_join gets a copy of the record made before it
    waits.  For every routine and argument there is an execution that delivers the argument, and one that delivers the result *)
Theorem C93_value_refuted : forall F fn a r, exists n1 s1 n2 s2,
  let s0 := init [[r]] true [Create (0%nat, 0%nat) fn a; Join (0%nat, 0%nat)] in
  exec F n1 s0 s1 /\ prog s1 = [] /\ pc s1 = P_idle /\ In (R_join (0%nat, 0%nat) (Some 0%nat) 0 (Some a)) (res s1) /\ ran s1 = [(0%nat, fn, a)] /\
  exec F n2 s0 s2 /\ prog s2 = [] /\ pc s2 = P_idle /\ In (R_join (0%nat, 0%nat) (Some 0%nat) 0 (Some (F fn a))) (res s2).
Proof.
  intros F fn a [rh rf ra].
  assert (X : exists n1 s1, let s0 := init [[Rec rh rf ra]] true [Create (0%nat, 0%nat) fn a; Join (0%nat, 0%nat)] in
    exec F n1 s0 s1 /\ prog s1 = [] /\ pc s1 = P_idle /\ In (R_join (0%nat, 0%nat) (Some 0%nat) 0 (Some a)) (res s1) /\ ran s1 = [(0%nat, fn, a)]).
  { eexists _, _. cbv zeta. split.
    - eapply Exec_step; [eapply Exec_step; [eapply Exec_step; [eapply Exec_step; [eapply Exec_step; [eapply Exec_step; [eapply Exec_step; [eapply Exec_step; [eapply Exec_step; [apply Exec_nil|]|]|]|]|]|]|]|]|].
      + apply (Step_creator _ _ 0). cbn. reflexivity.
      + apply (Step_creator _ _ 0). cbn. reflexivity.
      + apply (Step_creator _ _ 0). cbn. reflexivity.
      + apply (Step_creator _ _ 0). cbn. reflexivity.
      + apply (Step_creator _ _ 0). cbn. reflexivity.
      + eapply (Step_thread _ _ 0%nat); [cbn; reflexivity|]; cbn; reflexivity.
      + eapply (Step_thread _ _ 0%nat); [cbn; reflexivity|]; cbn; reflexivity.
      + eapply (Step_thread _ _ 0%nat); [cbn; reflexivity|]; cbn; reflexivity.
      + apply (Step_creator _ _ 0). cbn. reflexivity.
    - cbn. tauto. }
  assert (Y : exists n1 s1, let s0 := init [[Rec rh rf ra]] true [Create (0%nat, 0%nat) fn a; Join (0%nat, 0%nat)] in
    exec F n1 s0 s1 /\ prog s1 = [] /\ pc s1 = P_idle /\ In (R_join (0%nat, 0%nat) (Some 0%nat) 0 (Some (F fn a))) (res s1)).
  { eexists _, _. cbv zeta. split.
    - eapply Exec_step; [eapply Exec_step; [eapply Exec_step; [eapply Exec_step; [eapply Exec_step; [eapply Exec_step; [eapply Exec_step; [eapply Exec_step; [eapply Exec_step; [apply Exec_nil|]|]|]|]|]|]|]|]|].
      + apply (Step_creator _ _ 0). cbn. reflexivity.
      + apply (Step_creator _ _ 0). cbn. reflexivity.
      + apply (Step_creator _ _ 0). cbn. reflexivity.
      + apply (Step_creator _ _ 0). cbn. reflexivity.
      + eapply (Step_thread _ _ 0%nat); [cbn; reflexivity|]; cbn; reflexivity.
      + eapply (Step_thread _ _ 0%nat); [cbn; reflexivity|]; cbn; reflexivity.
      + eapply (Step_thread _ _ 0%nat); [cbn; reflexivity|]; cbn; reflexivity.
      + apply (Step_creator _ _ 0). cbn. reflexivity.
      + apply (Step_creator _ _ 0). cbn. reflexivity.
    - cbn. tauto. }
  destruct X as (n1 & s1 & X), Y as (n2 & s2 & Y). exists n1, s1, n2, s2. cbv zeta in *. tauto.
Qed.
Print Assumptions C93_value_refuted.

(** ** C94: a pool that grows *)
(** "POOL_resize can be used on Windows" is false: for every size and every growth, a thread started before the growth writes its
    result into the array that POOL_resize_internal has freed *)
Theorem C94_grow_refuted : forall F n k junk b fn ctx, (0 < n)%nat -> length b = n -> length junk = k ->
  exists m s t v, exec F m (init [b] false (growing_pool_program n k junk fn ctx)) s /\ nth_error (ts s) 0 = Some t /\ t_pc t = T_store v /\ t_loc t = (0%nat, 0%nat) /\
    cell (hp s) (t_loc t) = None /\ bad F s.
Proof.
  intros F n k junk b fn ctx N LB LJ. unfold growing_pool_program.
  set (rest2 := Release :: map (fun i => Join (1%nat, i)) (seq 0 (n + k)) ++ [Free 1]). set (rest1 := Grow 0 junk :: map (fun i => Create (1%nat, i) fn ctx) (seq n k) ++ rest2).
  destruct (run_creates F 0%nat fn ctx n rest1 n 0%nat [Some b] [] false [] []) as (m1 & h1 & tl1 & rs1 & E1 & S1 & L1 & _ & Q1); [unfold block_size; cbn; congruence|lia|].
  cbn [app] in E1. assert (B0 : block_size h1 0 = Some n) by (rewrite S1; unfold block_size; cbn; congruence).
  destruct h1 as [|[x|] [|y h1]]; cbn in L1; try discriminate. assert (LX : length x = n) by (unfold block_size in B0; cbn in B0; congruence).
  destruct x as [|r x]; [cbn in LX; lia|]. destruct n as [|n]; [lia|]. cbn [seq map] in Q1. rewrite Q1 in E1. set (tl := map (fun i => T (0%nat, i) T_start fn ctx) (seq 1 n)) in *.
  (* thread 0 starts; the array is replaced; the other threads are created; the gate opens; thread 0 runs *)
  set (t1 := T (0%nat, 0%nat) (T_run (r_fn r) (r_arg r)) fn ctx).
  assert (E2 : exec F 2 (St [Some (r :: x)] (T (0%nat, 0%nat) T_start fn ctx :: tl) false [] rest1 P_idle rs1)
    (St [None; Some ((r :: x) ++ junk)] (t1 :: tl) false [] (map (fun i => Create (1%nat, i) fn ctx) (seq (S n) k) ++ rest2) P_idle rs1)).
  { eapply Exec_step; [eapply Exec_step; [apply Exec_nil|]|].
    - apply (Step_thread _ _ 0%nat (T (0%nat, 0%nat) T_start fn ctx)); reflexivity.
    - apply (Step_creator _ _ 0). reflexivity. }
  destruct (run_creates F 1%nat fn ctx (S n + k)%nat rest2 k (S n) [None; Some ((r :: x) ++ junk)] (t1 :: tl) false [] rs1) as (m3 & h3 & tl3 & rs3 & E3 & S3 & L3 & F3 & _);
    [unfold block_size; cbn [nth_error]; rewrite app_length; f_equal; lia|lia|].
  assert (FF : first_freed h3) by (apply F3; reflexivity).
  set (t2 := T (0%nat, 0%nat) (T_store (F (r_fn r) (r_arg r))) fn ctx). cbn [app] in E3.
  assert (E4 : exists s, exec F 2 (St h3 (t1 :: tl ++ tl3) false [] rest2 P_idle rs3) s /\ hp s = h3 /\ ts s = t2 :: tl ++ tl3).
  { eexists. split; [eapply Exec_step; [eapply Exec_step; [apply Exec_nil|]|]|].
    - apply (Step_creator _ _ 0). reflexivity.
    - apply (Step_thread _ _ 0%nat t1); reflexivity.
    - split; reflexivity. }
  destruct E4 as (s & E4 & Hs & Ts). destruct (exec_app _ _ _ _ _ _ E1 E2) as (p1 & X1). destruct (exec_app _ _ _ _ _ _ X1 E3) as (p2 & X2). destruct (exec_app _ _ _ _ _ _ X2 E4) as (p3 & X3).
  exists p3, s, t2, (F (r_fn r) (r_arg r)). split; [exact X3|]. rewrite Ts, Hs. split; [reflexivity|]. split; [reflexivity|]. split; [reflexivity|].
  assert (CN : cell h3 (0%nat, 0%nat) = None) by (apply freed_cell; [exact FF|reflexivity]). split; [exact CN|].
  left. exists 0%nat, t2. rewrite Ts. split; [reflexivity|]. unfold tstep, t2. cbn [t_pc t_loc]. rewrite Hs, CN. reflexivity.
Qed.
Print Assumptions C94_grow_refuted.
(** there is no execution in which such a thread ends without that write: none of the threads of the first array ever ends *)
Theorem C94_never_ends : forall F n k junk b fn ctx m s i t, exec F m (init [b] false (growing_pool_program n k junk fn ctx)) s ->
  nth_error (ts s) i = Some t -> fst (t_loc t) = 0%nat -> t_pc t <> T_end.
Proof.
  intros F n k junk b fn ctx m s i t E Et L Q.
  assert (P : phase junk s).
  { apply (phase_exec F junk m (init [b] false (growing_pool_program n k junk fn ctx))); [|exact E]. left. split; [reflexivity|]. split; [|split; [|exact I]].
    - eexists _, _. split; [reflexivity|]. apply Forall_forall. intros o H. apply in_map_iff in H. destruct H as (j & <- & _). exact I.
    - intros [|j] u H; discriminate. }
  destruct P as [(_ & _ & H & _)|(_ & H)]; [specialize (H i t Et); rewrite Q in H; exact H|exact (H i t Et L Q)].
Qed.
Print Assumptions C94_never_ends.

(** ** C95: the pool without threads *)
(** every job runs once, in the order given, before the call returns; POOL_tryAdd always succeeds *)
Definition job (o : Pool.op) : list Z := match o with Pool.Add j | Pool.TryAdd j => [j] | Pool.Resize _ => [] end.
Theorem C95_runs_all : forall p done, snd (Pool0.calls p done) = done ++ flat_map job p /\ map fst (fst (Pool0.calls p done)) = p /\
  (forall o r, In (o, r) (fst (Pool0.calls p done)) -> r = match o with Pool.TryAdd _ => 1 | _ => 0 end).
Proof.
  induction p as [|o p IH]; intros done; [cbn; rewrite app_nil_r; tauto|]. cbn [Pool0.calls flat_map].
  destruct (Pool0.call o done) as [r d] eqn:EC. specialize (IH d). destruct (Pool0.calls p d) as [rs d'] eqn:EQ. cbn [fst snd] in *. destruct IH as (-> & M & R).
  assert (D : d = done ++ job o /\ r = match o with Pool.TryAdd _ => 1 | _ => 0 end) by (destruct o; cbn in *; injection EC as <- <-; rewrite ?app_nil_r; auto).
  destruct D as [-> ->]. split; [rewrite <- app_assoc; reflexivity|]. split; [cbn; rewrite M; reflexivity|]. intros o' r' [Q|Q]; [injection Q as <- <-; reflexivity|exact (R o' r' Q)].
Qed.
Print Assumptions C95_runs_all.
Example C95_ex : Pool0.calls [Pool.Add 4; Pool.TryAdd 5; Pool.Resize 0] [3] = ([(Pool.Add 4, 0); (Pool.TryAdd 5, 1); (Pool.Resize 0, 0)], [3; 4; 5]).
Proof. reflexivity. Qed.
(** "both builds refuse what pool.h forbids" (at least one thread) is false: POOL_resize to 0 threads fails with threads and
    succeeds without *)
Theorem C95_resize_zero_refuted : (forall ok k g c, Pool.c_pc c = Pool.C_resize 0 -> 0 <= Pool.capacity g ->
    Pool.cstep ok k g c = Pool.Go g (Pool.Cl (Pool.c_prog c) (Pool.C_bcast 0 1) (Pool.c_res c)) Pool.E_none) /\
  (forall done, Pool0.call (Pool.Resize 0) done = (0, done)).
Proof.
  split; [|reflexivity]. intros ok k g c E C. unfold Pool.cstep. rewrite E. replace (0 <=? Pool.capacity g) with true by lia. reflexivity.
Qed.
Print Assumptions C95_resize_zero_refuted.
