(** Model of the Windows emulation of pthread_create and pthread_join (tests/collisions/threading.c, threading.h) as a
    transition system: one creating thread and the threads it starts.  The records ZSTD_pthread_t live in arrays that
    can be moved and freed, as pool.c does with ctx->threads.
    Simplifications: one thread makes all calls (in pool.c they are made one at a time); a start routine is a
    function [F] of its code and its argument, run in one step, and may have to wait until a gate opens (POOL_thread
    returns only after the pool shuts down, pool.c:88-93); WaitForSingleObject succeeds once the thread has ended, or
    is given a handle that does not exist, which is undefined; EINVAL and GetLastError (threading.c:75-78) are left out. *)
From Verif Require Import Base Mem M_Pool.

Module Thr.
(** ZSTD_pthread_t: threading.h:63-67; a handle is the number of a thread, [None] is NULL *)
Record rec := Rec { r_handle : option nat; r_fn : Z; r_arg : Z }.
(** arrays of records, as ctx->threads (pool.c:48, 143, 211); [None]: freed *)
Definition heap := list (option (list rec)).
Definition loc := (nat * nat)%type.
(** an access through a ZSTD_pthread_t* (threading.c:45-46, 54-56): [None] is an access to freed memory or out of bounds *)
Definition cell (h : heap) (l : loc) : option rec := match nth_error h (fst l) with Some (Some b) => nth_error b (snd l) | _ => None end.
Definition put (h : heap) (l : loc) (r : rec) : heap :=
  match nth_error h (fst l) with Some (Some b) => Pool.set_nth h (fst l) (Some (Pool.set_nth b (snd l) r)) | _ => h end.

(** worker: threading.c:43-48 *)
Inductive tpc := T_start (* 46: reads start_routine and arg *) | T_run (fn a : Z) (* 46: the call *) | T_store (v : Z) (* 46: writes arg *) | T_end (* 47 *).
(** a started thread: the pointer it was given (threading.c:56) and where it is; [t_fn], [t_arg] are ghosts: what
    ZSTD_pthread_create was called with *)
Record thr := T { t_loc : loc; t_pc : tpc; t_fn : Z; t_arg : Z }.
Definition at_pc (p : tpc) (t : thr) : thr := T (t_loc t) p (t_fn t) (t_arg t).

(** what the creating thread does: ZSTD_pthread_create (threading.c:50), ZSTD_pthread_join (64), growing an array (pool.c:211-216),
    freeing it (pool.c:188), and opening the gate (pool.c:167) *)
Inductive op := Create (l : loc) (fn a : Z) | Join (l : loc) | Grow (b : nat) (junk : list rec) | Free (b : nat) | Release.
(** where it is: between calls, or at a line of threading.c *)
Inductive cpc := P_idle | P_fn (l : loc) (fn a : Z) (* 55 *) | P_begin (l : loc) (fn a : Z) (* 56, the call *)
| P_handle (l : loc) (h : option nat) (code : Z) (* 56, the store, and 58-61; [code] is what will be returned *) | P_join (l : loc) (copy : rec) (* 68-74, [copy] is the parameter *).
(** the results of the finished calls (threading.c:59, 61, 68, 73-74): code; for a join also the handle and *value_ptr if it was written *)
Inductive result := R_create (l : loc) (code : Z) | R_join (l : loc) (h : option nat) (code : Z) (v : option Z).
(** [ran] is a ghost: the calls of start routines: thread, code, argument (threading.c:46) *)
Record st := St { hp : heap; ts : list thr; gate : bool; ran : list (nat * Z * Z); prog : list op; pc : cpc; res : list result }.
Inductive out (A : Type) := Blocked | Bad | Go (a : A).
Arguments Blocked {A}. Arguments Bad {A}. Arguments Go {A} a.

(** a step of thread [i]: threading.c:43-48 *)
Definition tstep (F : Z -> Z -> Z) (i : nat) (t : thr) (s : st) : out st :=
  let next h p ran := Go (St h (Pool.set_nth (ts s) i (at_pc p t)) (gate s) ran (prog s) (pc s) (res s)) in
  match t_pc t with
  | T_start => match cell (hp s) (t_loc t) with Some r => next (hp s) (T_run (r_fn r) (r_arg r)) (ran s) | None => Bad end
  | T_run fn a => if gate s then next (hp s) (T_store (F fn a)) (ran s ++ [(i, fn, a)]) else Blocked
  | T_store v => match cell (hp s) (t_loc t) with Some r => next (put (hp s) (t_loc t) (Rec (r_handle r) (r_fn r) v)) T_end (ran s) | None => Bad end
  | T_end => Blocked
  end.
(** a step of the creating thread: threading.c:50-80, pool.c:167, 188, 211-216; [e] is errno after a failure of _beginthreadex, 0 if it succeeds *)
Definition cstep (e : Z) (s : st) : out st :=
  let next h ts g p c r := Go (St h ts g (ran s) p c r) in
  match pc s with
  | P_idle =>
      match prog s with
      | [] => Blocked
      | Create l fn a :: p => match cell (hp s) l with Some r => next (put (hp s) l (Rec (r_handle r) (r_fn r) a)) (ts s) (gate s) p (P_fn l fn a) (res s) | None => Bad end
      | Join l :: p => match cell (hp s) l with Some r => next (hp s) (ts s) (gate s) p (P_join l r) (res s) | None => Bad end
      | Grow b junk :: p => match nth_error (hp s) b with
          | Some (Some x) => next (Pool.set_nth (hp s) b None ++ [Some (x ++ junk)]) (ts s) (gate s) p P_idle (res s) | _ => Bad end
      | Free b :: p => match nth_error (hp s) b with Some (Some _) => next (Pool.set_nth (hp s) b None) (ts s) (gate s) p P_idle (res s) | _ => Bad end
      | Release :: p => next (hp s) (ts s) true p P_idle (res s)
      end
  | P_fn l fn a => match cell (hp s) l with Some r => next (put (hp s) l (Rec (r_handle r) fn (r_arg r))) (ts s) (gate s) (prog s) (P_begin l fn a) (res s) | None => Bad end
  | P_begin l fn a => if e =? 0 then next (hp s) (ts s ++ [T l T_start fn a]) (gate s) (prog s) (P_handle l (Some (length (ts s))) 0) (res s)
                      else next (hp s) (ts s) (gate s) (prog s) (P_handle l None e) (res s)
  | P_handle l h code => match cell (hp s) l with
      | Some r => next (put (hp s) l (Rec h (r_fn r) (r_arg r))) (ts s) (gate s) (prog s) P_idle (res s ++ [R_create l code])
      | None => Bad end
  | P_join l copy => match r_handle copy with
      | None => next (hp s) (ts s) (gate s) (prog s) P_idle (res s ++ [R_join l None 0 None])
      | Some i => match nth_error (ts s) i with
          | Some t => match t_pc t with T_end => next (hp s) (ts s) (gate s) (prog s) P_idle (res s ++ [R_join l (Some i) 0 (Some (r_arg copy))]) | _ => Blocked end
          | None => Bad end
      end
  end.
(** the interleavings of threading.c:43-80 *)
Inductive step (F : Z -> Z -> Z) : st -> st -> Prop :=
| Step_thread s i t s' : nth_error (ts s) i = Some t -> tstep F i t s = Go s' -> step F s s'
| Step_creator s e s' : cstep e s = Go s' -> step F s s'.
Inductive exec (F : Z -> Z -> Z) : nat -> st -> st -> Prop :=
| Exec_nil s : exec F 0 s s
| Exec_step n s s' s'' : exec F n s s' -> step F s' s'' -> exec F (S n) s s''.
(** some thread is about to do something undefined *)
Definition bad (F : Z -> Z -> Z) (s : st) : Prop := (exists i t, nth_error (ts s) i = Some t /\ tstep F i t s = Bad) \/ exists e, cstep e s = Bad.
(** arrays with any contents, no thread yet (pool.c:143) *)
Definition init (h : list (list rec)) (g : bool) (p : list op) : st := St (map Some h) [] g [] p P_idle [].
End Thr.

(** The pool without threads: pool.c:300-342 (POOL_MT = 0); POOL_create, POOL_free and POOL_sizeof, which do nothing there, are left out.  A job is a number; the list is the jobs that have run. *)
Module Pool0.
(** POOL_add: pool.c:327-330; POOL_tryAdd: 332-336; POOL_resize: 322-325 *)
Definition call (o : Pool.op) (done : list Z) : Z * list Z :=
  match o with Pool.Add j => (0, done ++ [j]) | Pool.TryAdd j => (1, done ++ [j]) | Pool.Resize _ => (0, done) end.
(** calls one after the other (pool.c:322-336), with their results (0 for POOL_add) *)
Fixpoint calls (p : list Pool.op) (done : list Z) : list (Pool.op * Z) * list Z :=
  match p with [] => ([], done) | o :: p => let '(r, done) := call o done in let '(rs, done) := calls p done in ((o, r) :: rs, done) end.
End Pool0.
