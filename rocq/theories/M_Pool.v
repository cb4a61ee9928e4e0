(** Model of the thread pool of the collision tester (tests/collisions/pool.c, POOL_MT = 1): a transition system of
    worker threads, client threads (POOL_add, POOL_tryAdd, POOL_resize) and the owner (POOL_create, POOL_free).
    One step is one operation on the mutex or a condition variable, one thread creation or join, or the plain code
    between two of them.  Plain code inside a critical section is a single step because the variables it touches are
    only touched by threads that hold the mutex; the two stores that are made without it (pool.c:155-156) are steps of
    their own.
    Simplifications: a job is a number and running it is one step outside the lock; numbers of threads and of queue
    entries are integers (the arrays of that size exist, so size_t does not overflow); the allocations of POOL_create
    succeed (their failure frees everything before any thread exists, pool.c:127, 146); pthread_join succeeds. *)
From Verif Require Import Base Mem.

Module Pool.
(** a thread: the owner (POOL_create, POOL_free: pool.c:122-190), a client (POOL_add, POOL_tryAdd, POOL_resize: 200-294), a worker (POOL_thread: 78-117) *)
Inductive tid := TO | TC (k : nat) | TW (i : nat).
(** struct POOL_ctx_s: pool.c:46-71; [mutex] is the thread that holds queueMutex.  [freed] is set by POOL_free.
    The last three fields are ghosts: the jobs in the order they were put into the queue, in the order they were taken
    out, and in the order they were finished.  The handles [threads] are left out: handle [i] is worker [i]. *)
Record ctx := Ctx { capacity : Z; limit : Z; queue : list Z; qHead : Z; qTail : Z; qSize : Z; busy : Z; qEmpty : bool;
  mutex : option tid; shutdown : bool; freed : bool; added : list Z; started : list Z; finished : list Z }.
Definition with_mutex (m : option tid) (g : ctx) := Ctx (capacity g) (limit g) (queue g) (qHead g) (qTail g) (qSize g) (busy g) (qEmpty g) m (shutdown g) (freed g) (added g) (started g) (finished g).
Definition with_capacity (n : Z) (g : ctx) := Ctx n (limit g) (queue g) (qHead g) (qTail g) (qSize g) (busy g) (qEmpty g) (mutex g) (shutdown g) (freed g) (added g) (started g) (finished g).
Definition with_limit (n : Z) (g : ctx) := Ctx (capacity g) n (queue g) (qHead g) (qTail g) (qSize g) (busy g) (qEmpty g) (mutex g) (shutdown g) (freed g) (added g) (started g) (finished g).
Definition with_shutdown (g : ctx) := Ctx (capacity g) (limit g) (queue g) (qHead g) (qTail g) (qSize g) (busy g) (qEmpty g) (mutex g) true (freed g) (added g) (started g) (finished g).
Definition with_freed (g : ctx) := Ctx (capacity g) (limit g) (queue g) (qHead g) (qTail g) (qSize g) (busy g) (qEmpty g) (mutex g) (shutdown g) true (added g) (started g) (finished g).
Definition with_busy (n : Z) (g : ctx) := Ctx (capacity g) (limit g) (queue g) (qHead g) (qTail g) (qSize g) n (qEmpty g) (mutex g) (shutdown g) (freed g) (added g) (started g) (finished g).
Definition with_finished (j : Z) (g : ctx) := Ctx (capacity g) (limit g) (queue g) (qHead g) (qTail g) (qSize g) (busy g) (qEmpty g) (mutex g) (shutdown g) (freed g) (added g) (started g) (finished g ++ [j]).

(** what a step does to the other threads: pthread_cond_signal, pthread_cond_broadcast and pthread_create (pool.c:103, 112, 150, 171-172, 220, 238, 268) *)
Inductive effect := E_none | E_signal_push | E_signal_pop | E_bcast_push | E_bcast_pop | E_spawn.
(** a thread's next step: it waits, it does something undefined, or it goes on; pthread_mutex_lock (pool.c:84, 109, 166, 236, 274, 287) *)
Inductive out (A : Type) := Blocked | Bad | Go (g : ctx) (a : A) (e : effect).
Arguments Blocked {A}. Arguments Bad {A}. Arguments Go {A} g a e.
Definition lock {A} (me : tid) (g : ctx) (a : A) : out A := match mutex g with None => Go (with_mutex (Some me) g) a E_none | Some _ => Blocked end.
Definition tid_dec (a b : tid) : {a = b} + {a <> b}. Proof. decide equality; apply Nat.eq_dec. Defined.
(** pthread_mutex_unlock (pool.c:92, 104, 114, 168, 239, 280, 289, 293): unlocking a mutex one does not hold is undefined *)
Definition unlock {A} (me : tid) (g : ctx) (a : A) : out A :=
  match mutex g with Some t => if tid_dec t me then Go (with_mutex None g) a E_none else Bad | None => Bad end.
Fixpoint set_nth {A} (l : list A) (i : nat) (v : A) : list A := match l, i with [], _ => [] | _ :: l, O => v :: l | x :: l, S i => x :: set_nth l i v end.
Definition in_queue (g : ctx) (i : Z) : bool := (0 <=? i) && (i <? qSize g) && (qSize g =? zlen (queue g)).

(** ** workers: POOL_thread, pool.c:78-118 *)
Inductive wpc :=
| W_top (* 84 *) | W_check (* 86-87 *) | W_test (* 88 *) | W_bye (* 92-93 *) | W_sleep (* 95, before the wait *) | W_waiting (* 95, in the wait *)
| W_relock (* 95, woken up *) | W_pop (* 98-101 *) | W_signal (j : Z) (* 103 *) | W_unlock (j : Z) (* 104 *) | W_run (j : Z) (* 106 *)
| W_lock2 (* 109 *) | W_dec (* 110-111 *) | W_signal2 (* 112 *) | W_unlock2 (* 114 *) | W_exited.
(** the step of worker [i] at each of these points: pool.c:84-114 *)
Definition wstep (i : nat) (g : ctx) (p : wpc) : out wpc :=
  match p with
  | W_top => lock (TW i) g W_check
  | W_check => if qEmpty g || (limit g <=? busy g) then Go g W_test E_none else Go g W_pop E_none
  | W_test => if shutdown g then Go g W_bye E_none else Go g W_sleep E_none
  | W_bye => unlock (TW i) g W_exited
  | W_sleep => unlock (TW i) g W_waiting
  | W_waiting => Blocked
  | W_relock => lock (TW i) g W_check
  | W_pop =>
      if in_queue g (qHead g) then
        let job := nth (Z.to_nat (qHead g)) (queue g) 0 in
        let head := (qHead g + 1) mod qSize g in
        Go (Ctx (capacity g) (limit g) (queue g) head (qTail g) (qSize g) (busy g + 1) (head =? qTail g) (mutex g) (shutdown g) (freed g)
              (added g) (started g ++ [job]) (finished g)) (W_signal job) E_none
      else Bad
  | W_signal j => Go g (W_unlock j) E_signal_push
  | W_unlock j => unlock (TW i) g (W_run j)
  | W_run j => Go (with_finished j g) W_lock2 E_none
  | W_lock2 => lock (TW i) g W_dec
  | W_dec => Go (with_busy (busy g - 1) g) (if qSize g =? 1 then W_signal2 else W_unlock2) E_none
  | W_signal2 => Go g W_unlock2 E_signal_push
  | W_unlock2 => unlock (TW i) g W_top
  | W_exited => Blocked
  end.

(** ** clients: POOL_resize, POOL_add, POOL_tryAdd (pool.c:202-294) *)
Inductive op := Add (j : Z) | TryAdd (j : Z) | Resize (n : Z).
(** isQueueFull: pool.c:249-256 *)
Definition isQueueFull (g : ctx) : bool :=
  if 1 <? qSize g then qHead g =? (qTail g + 1) mod qSize g else (busy g =? limit g) || negb (qEmpty g).
(** where a client is in POOL_add (pool.c:271-281), POOL_tryAdd (284-295), POOL_add_internal (259-269), POOL_resize
    (232-241) and POOL_resize_internal (203-229) *)
Inductive cpc :=
| C_idle | C_lock (o : op) (* 236, 274, 287 *) | C_full (j : Z) (* 276 *) | C_sleep (j : Z) (* 277, before the wait *) | C_waiting (j : Z) (* 277, in the wait *)
| C_relock (j : Z) (* 277, woken up *) | C_try (j : Z) (* 288 *) | C_insert (o : op) (j : Z) (* 263-267 *) | C_signal (o : op) (* 268 *)
| C_resize (n : Z) (* 205-216 *) | C_spawn (n i : Z) (* 219-227 *) | C_bcast (n r : Z) (* 238 *) | C_unlock (o : op) (r : Z) (* 239, 280, 289, 293 *).
(** a client of the functions of pool.c:234-294: the calls it still makes, where it is, and its finished calls with their results (0 for POOL_add) *)
Record client := Cl { c_prog : list op; c_pc : cpc; c_res : list (op * Z) }.
Definition result (o : op) : Z := match o with TryAdd _ => 1 | _ => 0 end.
Definition at_pc (p : cpc) (c : client) : client := Cl (c_prog c) p (c_res c).
(** the step of client [k]: pool.c:202-294; [ok]: whether the next malloc or pthread_create succeeds *)
Definition cstep (ok : bool) (k : nat) (g : ctx) (c : client) : out client :=
  match c_pc c with
  | C_idle => match c_prog c with [] => Blocked | o :: rest => Go g (Cl rest (C_lock o) (c_res c)) E_none end
  | C_lock o => lock (TC k) g (at_pc (match o with Add j => C_full j | TryAdd j => C_try j | Resize n => C_resize n end) c)
  | C_full j => if isQueueFull g && negb (shutdown g) then Go g (at_pc (C_sleep j) c) E_none else Go g (at_pc (C_insert (Add j) j) c) E_none
  | C_sleep j => unlock (TC k) g (at_pc (C_waiting j) c)
  | C_waiting _ => Blocked
  | C_relock j => lock (TC k) g (at_pc (C_full j) c)
  | C_try j => if isQueueFull g then Go g (at_pc (C_unlock (TryAdd j) 0) c) E_none else Go g (at_pc (C_insert (TryAdd j) j) c) E_none
  | C_insert o j =>
      if shutdown g then Go g (at_pc (C_unlock o (result o)) c) E_none
      else if in_queue g (qTail g) then
        Go (Ctx (capacity g) (limit g) (set_nth (queue g) (Z.to_nat (qTail g)) j) (qHead g) ((qTail g + 1) mod qSize g) (qSize g) (busy g) false (mutex g)
              (shutdown g) (freed g) (added g ++ [j]) (started g) (finished g)) (at_pc (C_signal o) c) E_none
      else Bad
  | C_signal o => Go g (at_pc (C_unlock o (result o)) c) E_signal_pop
  | C_resize n =>
      if n <=? capacity g then
        if n =? 0 then Go g (at_pc (C_bcast n 1) c) E_none else Go (with_limit n g) (at_pc (C_bcast n 0) c) E_none
      else if ok then Go g (at_pc (C_spawn n (capacity g)) c) E_none else Go g (at_pc (C_bcast n 1) c) E_none
  | C_spawn n i =>
      if i <? n then
        if ok then Go g (at_pc (C_spawn n (i + 1)) c) E_spawn else Go (with_capacity i g) (at_pc (C_bcast n 1) c) E_none
      else Go (with_limit n (with_capacity n g)) (at_pc (C_bcast n 0) c) E_none
  | C_bcast n r => Go g (at_pc (C_unlock (Resize n) r) c) E_bcast_pop
  | C_unlock o r => unlock (TC k) g (Cl (c_prog c) C_idle (c_res c ++ [(o, r)]))
  end.

(** ** the owner: POOL_create (pool.c:120-159) from line 148 on, POOL_join (164-179), POOL_free (181-190) *)
Inductive opc :=
| O_create (i : Z) (* 149-154 *) | O_capacity (* 155 *) | O_limit (* 156 *) | O_ready (* 158: the clients are running *)
| O_lock (* 166 *) | O_shutdown (* 167 *) | O_unlock (* 168 *) | O_bpush (* 171 *) | O_bpop (* 172 *) | O_join (i : Z) (* 176-177 *) | O_free (* 184-189 *) | O_done.
(** the step of the owner: pool.c:122-190; [N] is numThreads, [idle] tells whether all clients have made all their calls: POOL_free may only be called then *)
Definition ostep (N : Z) (ok idle : bool) (ws : list wpc) (g : ctx) (p : opc) : out opc :=
  match p with
  | O_create i => if i <? N then if ok then Go g (O_create (i + 1)) E_spawn else Go (with_capacity i g) O_lock E_none else Go g O_capacity E_none
  | O_capacity => Go (with_capacity N g) O_limit E_none
  | O_limit => Go (with_limit N g) O_ready E_none
  | O_ready => if idle then Go g O_lock E_none else Blocked
  | O_lock => lock TO g O_shutdown
  | O_shutdown => Go (with_shutdown g) O_unlock E_none
  | O_unlock => unlock TO g O_bpush
  | O_bpush => Go g O_bpop E_bcast_push
  | O_bpop => Go g (O_join 0) E_bcast_pop
  | O_join i => if i <? capacity g then match nth_error ws (Z.to_nat i) with Some W_exited => Go g (O_join (i + 1)) E_none | Some _ => Blocked | None => Bad end
                else Go g O_free E_none
  | O_free => Go (with_freed g) O_done E_none
  | O_done => Blocked
  end.

(** ** the whole system: the threads of pool.c:78-294 together *)
Record st := St { sh : ctx; ws : list wpc; cs : list client; ow : opc }.
(** the state in which POOL_create reaches line 148: no thread yet; [junk] is what malloc left in the queue *)
Definition init (queueSize : Z) (junk : list Z) (progs : list (list op)) : st :=
  St (Ctx 0 0 junk 0 0 (queueSize + 1) 0 true None false false [] [] []) [] (map (fun p => Cl p C_idle []) progs) (O_create 0).
Definition wwake (p : wpc) : wpc := match p with W_waiting => W_relock | _ => p end.
Definition cwake (c : client) : client := match c_pc c with C_waiting j => at_pc (C_relock j) c | _ => c end.
(** pthread_cond_signal (pool.c:103, 112, 268): some of the waiting threads are woken up, at least one if any waits *)
Definition some_woken {A} (wake : A -> A) (l l' : list A) : Prop :=
  Forall2 (fun p p' => p' = p \/ p' = wake p) l l' /\ ((exists i p, nth_error l i = Some p /\ wake p <> p) -> exists i p, nth_error l i = Some p /\ wake p <> p /\ nth_error l' i = Some (wake p)).
Definition affects (e : effect) (ws : list wpc) (cs : list client) (ws' : list wpc) (cs' : list client) : Prop :=
  match e with
  | E_none => ws' = ws /\ cs' = cs
  | E_signal_push => ws' = ws /\ some_woken cwake cs cs'
  | E_signal_pop => some_woken wwake ws ws' /\ cs' = cs
  | E_bcast_push => ws' = ws /\ cs' = map cwake cs
  | E_bcast_pop => ws' = map wwake ws /\ cs' = cs
  | E_spawn => ws' = ws ++ [W_top] /\ cs' = cs
  end.
Definition finished_client (c : client) : bool := match c_pc c, c_prog c with C_idle, [] => true | _, _ => false end.
(** clients run between the return of POOL_create (pool.c:158) and the call of POOL_free (pool.c:181) *)
Definition ready (p : opc) : bool := match p with O_ready => true | _ => false end.
Inductive step (N : Z) : st -> st -> Prop :=
| Step_worker s i p g p' e ws' cs' : nth_error (ws s) i = Some p -> wstep i (sh s) p = Go g p' e ->
    affects e (set_nth (ws s) i p') (cs s) ws' cs' -> step N s (St g ws' cs' (ow s))
| Step_client s ok k c g c' e ws' cs' : ready (ow s) = true -> nth_error (cs s) k = Some c -> cstep ok k (sh s) c = Go g c' e ->
    affects e (ws s) (set_nth (cs s) k c') ws' cs' -> step N s (St g ws' cs' (ow s))
| Step_owner s ok g p' e ws' cs' : ostep N ok (forallb finished_client (cs s)) (ws s) (sh s) (ow s) = Go g p' e ->
    affects e (ws s) (cs s) ws' cs' -> step N s (St g ws' cs' p').
(** a thread leaves the wait (pool.c:95, 277) without having been signalled *)
Inductive spurious : st -> st -> Prop :=
| Spurious_worker s i : nth_error (ws s) i = Some W_waiting -> spurious s (St (sh s) (set_nth (ws s) i W_relock) (cs s) (ow s))
| Spurious_client s k c : nth_error (cs s) k = Some c -> cwake c <> c -> spurious s (St (sh s) (ws s) (set_nth (cs s) k (cwake c)) (ow s)).
(** executions of the system of pool.c:78-294, with their numbers of steps and of spurious wake-ups *)
Inductive exec (N : Z) : nat -> nat -> st -> st -> Prop :=
| Exec_nil s : exec N 0 0 s s
| Exec_step n m s s' s'' : exec N n m s s' -> step N s' s'' -> exec N (S n) m s s''
| Exec_spurious n m s s' s'' : exec N n m s s' -> spurious s' s'' -> exec N n (S m) s s''.
End Pool.
