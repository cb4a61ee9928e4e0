(** Properties C65-C68: the thread pool of the collision tester (tests/collisions/pool.c).
    [exec N n m s s'] is an execution of [n] steps and [m] spurious wake-ups: any interleaving of the workers, the
    clients (which call POOL_add, POOL_tryAdd and POOL_resize) and the owner (POOL_create, then POOL_free), any choice
    of the threads that a signal wakes, and any outcome of malloc in POOL_resize and of pthread_create. *)
From Coq Require Import Permutation.
From Verif Require Import Base Mem P_Base M_Pool P_Pool1 P_Pool2 P_Pool3 P_Pool4 P_Pool5 P_Pool6 P_Pool7.
Import Pool.

(** at least one thread (pool.c:124), a queue of [queueSize + 1] entries of any content, and calls with a size_t *)
Definition pool_ok (N queueSize : Z) (junk : list Z) (progs : list (list op)) : Prop :=
  1 <= N /\ 0 <= queueSize /\ zlen junk = queueSize + 1 /\ forall p n, In p progs -> In (Resize n) p -> 0 <= n.
(** [s] can be reached *)
Definition reached (N queueSize : Z) (junk : list Z) (progs : list (list op)) (s : st) : Prop :=
  exists n m, exec N n m (init queueSize junk progs) s.
(** a worker that holds the mutex, by the source lines: from line 84 or the return of the wait to line 92, 95 or 104,
    and from 109 to 114 *)
Definition in_lock (p : wpc) : bool :=
  match p with W_top | W_waiting | W_relock | W_run _ | W_lock2 | W_exited => false | _ => true end.
Definition client_in_lock (c : client) : bool := match c_pc c with C_idle | C_lock _ | C_waiting _ | C_relock _ => false | _ => true end.
(** a worker that has taken a job and not given its slot back *)
Definition has_slot (p : wpc) : bool := match p with W_signal _ | W_unlock _ | W_run _ | W_lock2 | W_dec => true | _ => false end.
(** the jobs a worker has taken and not finished *)
Definition taken (p : wpc) : list Z := match p with W_signal j | W_unlock j | W_run j => [j] | _ => [] end.
(** the jobs a finished call has given to the pool *)
Definition given (x : op * Z) : list Z := match x with (Add j, _) => [j] | (TryAdd j, 1) => [j] | _ => [] end.
Definition count {A} (f : A -> bool) (l : list A) : Z := zlen (filter f l).

(** * C65: no undefined behaviour, mutual exclusion, no use after free *)
Theorem C65_pool_defined N queueSize junk progs s : pool_ok N queueSize junk progs -> reached N queueSize junk progs s ->
  (forall i p, nth_error (ws s) i = Some p -> wstep i (sh s) p <> Bad) /\
  (forall ok k c, nth_error (cs s) k = Some c -> cstep ok k (sh s) c <> Bad) /\
  (forall ok idle, ostep N ok idle (ws s) (sh s) (ow s) <> Bad).
Proof.
  intros (N1 & Q0 & Jk & PO) (n & m & E). pose proof (exec_inv _ _ _ _ _ _ _ N1 Q0 Jk PO E) as I. split; [|split].
  - intros i p Hn. exact (worker_ok _ _ _ _ _ _ _ _ I Hn).
  - intros ok k c Hn. exact (client_ok _ _ _ _ _ _ ok _ _ I Hn).
  - intros ok idle. exact (owner_ok _ _ _ _ _ _ ok idle I).
Qed.
Print Assumptions C65_pool_defined.
(** a thread inside a critical section is the holder of the mutex, so there is at most one *)
Theorem C65_pool_mutual_exclusion N queueSize junk progs s : pool_ok N queueSize junk progs -> reached N queueSize junk progs s ->
  (forall i p, nth_error (ws s) i = Some p -> in_lock p = true -> mutex (sh s) = Some (TW i)) /\
  (forall k c, nth_error (cs s) k = Some c -> client_in_lock c = true -> mutex (sh s) = Some (TC k)) /\
  (ow s = O_shutdown \/ ow s = O_unlock -> mutex (sh s) = Some TO).
Proof.
  intros (N1 & Q0 & Jk & PO) (n & m & E). pose proof (exec_inv _ _ _ _ _ _ _ N1 Q0 Jk PO E) as I. split; [|split].
  - intros i p Hn HL. apply (i_m _ _ _ _ _ _ I). cbn. rewrite Hn. destruct p; trivial; discriminate.
  - intros k c Hn HL. apply (i_m _ _ _ _ _ _ I). cbn. rewrite Hn. unfold client_in_lock in HL. unfold holdsc. destruct (c_pc c); trivial; discriminate.
  - intros D. apply (i_m _ _ _ _ _ _ I). cbn. destruct D as [-> | ->]; reflexivity.
Qed.
Print Assumptions C65_pool_mutual_exclusion.
(** POOL_create stores threadCapacity and threadLimit without the mutex (pool.c:155-156) while workers already run: a
    worker that evaluates its loop condition then stops at [queueEmpty], so it does not read threadLimit *)
Theorem C65_pool_unlocked_stores N queueSize junk progs s : pool_ok N queueSize junk progs -> reached N queueSize junk progs s ->
  ow s = O_capacity \/ ow s = O_limit -> qEmpty (sh s) = true /\ forall k c, nth_error (cs s) k = Some c -> c_pc c = C_idle.
Proof.
  intros (N1 & Q0 & Jk & PO) (n & m & E) D. pose proof (exec_inv _ _ _ _ _ _ _ N1 Q0 Jk PO E) as I. split.
  - apply (i_early _ _ _ _ _ _ I). destruct D as [-> | ->]; reflexivity.
  - apply (i_quiet _ _ _ _ _ _ I). destruct D as [-> | ->]; reflexivity.
Qed.
Print Assumptions C65_pool_unlocked_stores.
(** when the context has been freed no thread uses it any more *)
Theorem C65_pool_no_use_after_free N queueSize junk progs s : pool_ok N queueSize junk progs -> reached N queueSize junk progs s ->
  freed (sh s) = true -> ow s = O_done /\ (forall i p, nth_error (ws s) i = Some p -> p = W_exited) /\ (forall s', ~ step N s s').
Proof.
  intros (N1 & Q0 & Jk & PO) (n & m & E) F. pose proof (exec_inv _ _ _ _ _ _ _ N1 Q0 Jk PO E) as I. apply (i_fr _ _ _ _ _ _ I) in F. split; [exact F|].
  assert (EX : forall i p, nth_error (ws s) i = Some p -> p = W_exited) by (pose proof (i_o _ _ _ _ _ _ I) as O; rewrite F in O; exact O).
  split; [exact EX|]. intros s' HS. revert F EX. destruct HS as [s i p g p' e ws' cs' Hn Es A|s ok k c g c' e ws' cs' R Hn Es A|s ok g p' e ws' cs' Es A]; intros F EX.
  - rewrite (EX i p Hn) in Es. discriminate.
  - rewrite F in R. discriminate.
  - rewrite F in Es. discriminate.
Qed.
Print Assumptions C65_pool_no_use_after_free.

(** * C66: first in, first out; every job once; the queue and the number of running jobs are bounded *)
Theorem C66_pool_fifo N queueSize junk progs s : pool_ok N queueSize junk progs -> reached N queueSize junk progs s ->
  exists waiting, added (sh s) = started (sh s) ++ waiting /\ zlen waiting <= Z.max 1 queueSize /\ (qEmpty (sh s) = true <-> waiting = []).
Proof.
  intros (N1 & Q0 & Jk & PO) (n & m & E). pose proof (exec_inv _ _ _ _ _ _ _ N1 Q0 Jk PO E) as I. destruct (i_ring _ _ _ _ _ _ I) as (q & AQ & R1 & R2 & R3 & R4 & R5 & R6 & R7). exists q. split; [exact AQ|].
  assert (SZ : qSize (sh s) = queueSize + 1).
  { clear - E. remember (init queueSize junk progs) as s0 eqn:E0. induction E as [s|n m s s' s'' E IH HS|n m s s' s'' E IH HS]; [subst s; reflexivity| |]; specialize (IH E0).
    - destruct HS as [s1 i p g p' e ws' cs' Hn Es A|s1 ok k c g c' e ws' cs' R Hn Es A|s1 ok g p' e ws' cs' Es A]; cbn [sh]; rewrite <- IH.
      + clear - Es. unfold wstep in Es. destruct p; unfold_step Es; reflexivity.
      + apply (cstep_frame _ _ _ _ _ _ _ Es).
      + clear - Es. unfold ostep in Es. destruct (ow s1); unfold_step Es; reflexivity.
    - destruct HS; exact IH. }
  split; [rewrite SZ in R5; lia|]. rewrite R6. destruct q as [|x q]; [split; reflexivity|]. rewrite zlen_cons. pose proof (zlen_nonneg q). split; [intros X; apply Z.eqb_eq in X; lia|discriminate].
Qed.
Print Assumptions C66_pool_fifo.
Lemma taken_held l : flat_map taken l = flat_map heldjob l.
Proof. induction l as [|p l IH]; cbn; [reflexivity|]. rewrite IH. destruct p; reflexivity. Qed.
Theorem C66_pool_each_job_once N queueSize junk progs s : pool_ok N queueSize junk progs -> reached N queueSize junk progs s ->
  Permutation (started (sh s)) (finished (sh s) ++ flat_map taken (ws s)).
Proof. intros (N1 & Q0 & Jk & PO) (n & m & E). rewrite taken_held. exact (i_fin _ _ _ _ _ _ (exec_inv _ _ _ _ _ _ _ N1 Q0 Jk PO E)). Qed.
Print Assumptions C66_pool_each_job_once.
Lemma count_busy l : count has_slot l = sumf isbusy l.
Proof. unfold count. induction l as [|p l IH]; cbn [filter sumf]; [reflexivity|]. rewrite <- IH. destruct p; cbn [has_slot isbusy]; rewrite ?zlen_cons; lia. Qed.
(** a job is only taken while fewer than threadLimit workers have one *)
Theorem C66_pool_limit N queueSize junk progs s i p g p' e : pool_ok N queueSize junk progs -> reached N queueSize junk progs s ->
  nth_error (ws s) i = Some p -> wstep i (sh s) p = Go g p' e -> started g <> started (sh s) -> count has_slot (ws s) < limit (sh s).
Proof.
  intros (N1 & Q0 & Jk & PO) (n & m & E) Hn Es NE. pose proof (exec_inv _ _ _ _ _ _ _ N1 Q0 Jk PO E) as I. rewrite count_busy, <- (i_busy _ _ _ _ _ _ I). pose proof (i_w _ _ _ _ _ _ I i p Hn) as WF.
  clear - Es NE WF. unfold wstep in Es. destruct p; unfold_step Es; cbn in *; try congruence. apply WF.
Qed.
Print Assumptions C66_pool_limit.

(** * C67: no deadlock, every execution ends, and then everything has been done *)
Theorem C67_pool_no_deadlock N queueSize junk progs s : pool_ok N queueSize junk progs -> reached N queueSize junk progs s -> ow s = O_done \/ exists s', step N s s'.
Proof. intros (N1 & Q0 & Jk & PO) (n & m & E). exact (no_deadlock _ _ _ (exec_inv _ _ _ _ _ _ _ N1 Q0 Jk PO E) (exec_J _ _ _ _ _ _ _ N1 Q0 Jk PO E)). Qed.
Print Assumptions C67_pool_no_deadlock.
(** the number of steps is bounded by the calls alone, whatever the schedule and the size of the queue; a spurious
    wake-up costs at most four steps *)
Theorem C67_pool_terminates N progs : exists bound, forall queueSize junk n m s, pool_ok N queueSize junk progs ->
  exec N n m (init queueSize junk progs) s -> Z.of_nat n <= bound + 4 * Z.of_nat m.
Proof. exists (phi0 N progs). intros queueSize junk n m s (N1 & Q0 & Jk & PO) E. exact (exec_bound _ _ _ _ _ _ _ N1 Q0 Jk PO E). Qed.
Print Assumptions C67_pool_terminates.
Theorem C67_pool_can_finish N queueSize junk progs n m s : pool_ok N queueSize junk progs -> exec N n m (init queueSize junk progs) s ->
  exists n' s', (n <= n')%nat /\ exec N n' m (init queueSize junk progs) s' /\ ow s' = O_done.
Proof. intros (N1 & Q0 & Jk & PO) E. exact (exec_end _ _ _ _ _ _ _ N1 Q0 Jk PO E). Qed.
Print Assumptions C67_pool_can_finish.
Lemma given_acc x : given x = acc x.
Proof. destruct x as [[j|j|n] r]; cbn; trivial. destruct (Z.eqb_spec r 1) as [->|NE]; [reflexivity|]. destruct r as [|[]|]; trivial. congruence. Qed.
(** when POOL_free returns: all workers are gone, the queue is empty, and either POOL_create could not start all its
    threads and no call was made, or every client has made all its calls and exactly the jobs that were given have run *)
Theorem C67_pool_done N queueSize junk progs s : pool_ok N queueSize junk progs -> reached N queueSize junk progs s -> ow s = O_done ->
  (forall i p, nth_error (ws s) i = Some p -> p = W_exited) /\ mutex (sh s) = None /\ started (sh s) = added (sh s) /\
  ((zlen (ws s) < N /\ finished (sh s) = [] /\ Forall2 (fun p c => c = Cl p C_idle []) progs (cs s)) \/
   (Forall2 (fun p c => c_pc c = C_idle /\ map fst (c_res c) = p) progs (cs s) /\
    Permutation (finished (sh s)) (flat_map (fun c => flat_map given (c_res c)) (cs s)))).
Proof.
  intros (N1 & Q0 & Jk & PO) (n & m & E) D. destruct (final_state _ _ _ _ _ _ _ N1 Q0 Jk PO E D) as (_ & F2 & F3 & F4 & F5 & F6). split; [exact F3|]. split; [exact F2|]. split; [exact F4|].
  destruct F6 as [(L & C & A)|(C & A)]; [left|right].
  - split; [exact L|]. split; [rewrite A in F5; apply Permutation_sym, Permutation_nil in F5; exact F5|]. rewrite C. clear. induction progs as [|p l IH]; cbn; constructor; auto.
  - split; [exact C|]. rewrite F5, A. replace (flat_map (fun c => flat_map given (c_res c)) (cs s)) with (flat_map (fun c => flat_map acc (c_res c)) (cs s)); [apply Permutation_refl|].
    apply flat_map_ext. intros c. apply flat_map_ext. intros x. symmetry. apply given_acc.
Qed.
Print Assumptions C67_pool_done.

(** * C68: a pool with an intended queue size of 0 takes a job only if a worker is free *)
(** true as long as the pool is not resized *)
Theorem C68_pool_worker_free N junk progs s k c o j : pool_ok N 0 junk progs -> (forall p n, In p progs -> ~ In (Resize n) p) -> reached N 0 junk progs s ->
  nth_error (cs s) k = Some c -> c_pc c = C_insert o j -> added (sh s) = started (sh s) /\ exists i p, nth_error (ws s) i = Some p /\ has_slot p = false.
Proof.
  intros PK NR RS Hn EP. destruct (C66_pool_fifo _ _ _ _ _ PK RS) as (q & AQ & _ & QE). destruct PK as (N1 & Q0 & Jk & PO), RS as (n & m & E).
  assert (NR' : no_resize progs) by (intros p o' Ip Io n' ->; exact (NR p n' Ip Io)).
  pose proof (exec_inv _ _ _ _ _ _ _ N1 Q0 Jk PO E) as I. pose proof (exec_limit _ _ _ _ _ _ _ N1 Q0 Jk NR' E) as L.
  assert (R : ready (ow s) = true) by (destruct (ready (ow s)) eqn:R; [reflexivity|]; pose proof (i_quiet _ _ _ _ _ _ I R k c Hn); congruence).
  assert (EA : early (ow s) = false) by (destruct (ow s); trivial; discriminate). destruct (L EA R) as [L1 L2].
  pose proof (i_c _ _ _ _ _ _ I k c Hn) as CF. unfold cfact in CF. rewrite EP in CF. destruct CF as [NF _].
  assert (SZ : qSize (sh s) = 1).
  { clear - E. change 1 with (0 + 1). generalize 0 E. clear E. intros z E. remember (init z junk progs) as s0 eqn:E0. induction E as [s|n m s s' s'' E IH HS|n m s s' s'' E IH HS]; [subst s; reflexivity| |]; specialize (IH E0).
    - destruct HS as [s1 i p g p' e ws' cs' Hn Es A|s1 ok k c g c' e ws' cs' R Hn Es A|s1 ok g p' e ws' cs' Es A]; cbn [sh]; rewrite <- IH.
      + clear - Es. unfold wstep in Es. destruct p; unfold_step Es; reflexivity.
      + apply (cstep_frame _ _ _ _ _ _ _ Es).
      + clear - Es. unfold ostep in Es. destruct (ow s1); unfold_step Es; reflexivity.
    - destruct HS; exact IH. }
  unfold isQueueFull in NF. rewrite SZ in NF. cbn in NF. apply orb_false_iff in NF. destruct NF as [NB NE]. apply negb_false_iff in NE. apply QE in NE. subst q. split; [rewrite AQ; apply app_nil_r|].
  apply Z.eqb_neq in NB. rewrite (i_busy _ _ _ _ _ _ I), L1, <- L2 in NB. pose proof (busy_le (ws s)) as BL. assert (LT : sumf isbusy (ws s) < Z.of_nat (length (ws s))) by lia. clear - LT.
  induction (ws s) as [|p l IH]; cbn [sumf length] in LT; [lia|]. destruct (has_slot p) eqn:HP.
  - destruct IH as (i & q & Ei & Q). { destruct p; cbn [isbusy] in LT; try discriminate; lia. } exists (S i), q. auto.
  - exists 0%nat, p. auto.
Qed.
Print Assumptions C68_pool_worker_free.
(** false after POOL_resize has shrunk the pool: isQueueFull compares with == (pool.c:253), and more workers than the
    new limit may be busy.  Two workers run jobs 1 and 2, the limit is 1, and POOL_tryAdd takes job 3 and returns 1. *)
Definition ex_shrink : list (list op) := [[Add 1; Add 2; Resize 1; TryAdd 3]].
Theorem C68_pool_worker_free_refuted : exists N junk progs s, pool_ok N 0 junk progs /\ reached N 0 junk progs s /\
  ws s = [W_run 1; W_run 2] /\ limit (sh s) = 1 /\ added (sh s) = [1; 2; 3] /\ cs s = [Cl [] C_idle [(Add 1, 0); (Add 2, 0); (Resize 1, 0); (TryAdd 3, 1)]].
Proof.
  assert (PK : pool_ok 2 0 [0] ex_shrink).
  { split; [lia|]. split; [lia|]. split; [reflexivity|]. intros p n [<-|[]] [Io|[Io|[Io|[Io|[]]]]]; try discriminate. injection Io as <-. lia. }
  set (sched := repeat (PO true) 5 ++ repeat (PC true 0) 6 ++ repeat (PW 0) 5 ++ repeat (PC true 0) 6 ++ repeat (PW 1) 5 ++ repeat (PC true 0) 11).
  destruct (run 2 sched (init 0 [0] ex_shrink)) as [[n s]|] eqn:R; [|exfalso; revert R; vm_compute; discriminate].
  exists 2, [0], ex_shrink, s. split; [exact PK|]. split; [exists n, 0%nat; exact (run_exec _ _ _ _ _ R)|]. vm_compute in R. injection R as _ <-. repeat split.
Qed.
Print Assumptions C68_pool_worker_free_refuted.

(** ** cases that meet the hypotheses *)
Definition ex_progs : list (list op) := [[Add 7; TryAdd 8]; [Resize 3; Add 9]].
Example ex_pool_ok : pool_ok 2 1 [0; 0] ex_progs.
Proof.
  split; [lia|]. split; [lia|]. split; [reflexivity|]. intros p n [<-|[<-|[]]] [Io|[Io|[]]]; try discriminate. injection Io as <-. lia.
Qed.
(** two clients; the pool is widened from two to three threads; all three jobs run and the pool is freed *)
Example ex_pool_run : exists s, reached 2 1 [0; 0] ex_progs s /\ ow s = O_done /\ ws s = [W_exited; W_exited; W_exited] /\ finished (sh s) = [9; 7; 8].
Proof.
  set (all := [PC true 1; PW 0; PC true 0; PW 2; PW 1; PO true]). set (sched := robin 2 200 all (init 1 [0; 0] ex_progs)).
  destruct (run 2 sched (init 1 [0; 0] ex_progs)) as [[n s]|] eqn:R; [|exfalso; revert R; vm_compute; discriminate].
  exists s. split; [exists n, 0%nat; exact (run_exec _ _ _ _ _ R)|]. vm_compute in R. injection R as _ <-. repeat split.
Qed.
(** the second pthread_create fails: POOL_create joins the first thread and frees everything *)
Example ex_pool_create_fails : exists s, reached 2 1 [0; 0] ex_progs s /\ ow s = O_done /\ ws s = [W_exited] /\ finished (sh s) = [].
Proof.
  set (sched := [PO true; PO false; PO true; PO true; PO true; PO true; PO true; PW 0; PW 0; PW 0; PW 0; PO true; PO true; PO true]).
  destruct (run 2 sched (init 1 [0; 0] ex_progs)) as [[n s]|] eqn:R; [|exfalso; revert R; vm_compute; discriminate].
  exists s. split; [exists n, 0%nat; exact (run_exec _ _ _ _ _ R)|]. vm_compute in R. injection R as _ <-. repeat split.
Qed.
(** a client about to insert into a pool without a queue *)
Example ex_pool_insert : exists s, reached 2 0 [0] [[TryAdd 5]] s /\ nth_error (cs s) 0 = Some (Cl [] (C_insert (TryAdd 5) 5) []).
Proof.
  set (sched := repeat (PO true) 5 ++ repeat (PC true 0) 3).
  destruct (run 2 sched (init 0 [0] [[TryAdd 5]])) as [[n s]|] eqn:R; [|exfalso; revert R; vm_compute; discriminate].
  exists s. split; [exists n, 0%nat; exact (run_exec _ _ _ _ _ R)|]. vm_compute in R. injection R as _ <-. reflexivity.
Qed.
