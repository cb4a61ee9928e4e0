(** What a careful client of the thread emulation does, written without looking at its functions: it creates a thread
    only in a record of an existing array that has no thread that was not joined, joins only created threads, and grows or
    frees an array only when all of its threads have been joined.  [blocks]: the sizes of the arrays, [None] if
    freed; [live]: the records with a thread that was not joined. *)
From Verif Require Import Base Mem M_Pool M_Threading.
Import Thr.

Definition loc_dec (a b : loc) : {a = b} + {a <> b}.
Proof. decide equality; apply Nat.eq_dec. Defined.
Fixpoint careful (blocks : list (option nat)) (live : list loc) (p : list op) : Prop :=
  match p with
  | [] => True
  | Create l _ _ :: p => (exists n, nth_error blocks (fst l) = Some (Some n) /\ (snd l < n)%nat) /\ ~ In l live /\ careful blocks (l :: live) p
  | Join l :: p => In l live /\ careful blocks (remove loc_dec l live) p
  | Grow b junk :: p => exists n, nth_error blocks b = Some (Some n) /\ (forall l, In l live -> fst l <> b) /\
      careful (firstn b blocks ++ None :: skipn (S b) blocks ++ [Some (n + length junk)%nat]) live p
  | Free b :: p => exists n : nat, nth_error blocks b = Some (Some n) /\ (forall l, In l live -> fst l <> b) /\
      careful (firstn b blocks ++ None :: skipn (S b) blocks) live p
  | Release :: p => careful blocks live p
  end.
(** a thread pool of [n] threads that does not grow: creates, shutdown, joins, free (pool.c:148-156, 167, 175-178, 188) *)
Definition pool_program (n : nat) (fn ctx : Z) : list op :=
  map (fun i => Create (0%nat, i) fn ctx) (seq 0 n) ++ Release :: map (fun i => Join (0%nat, i)) (seq 0 n) ++ [Free 0].
(** a thread pool of [n] threads that grows by [k] (pool.c:203-229) in between *)
Definition growing_pool_program (n k : nat) (junk : list rec) (fn ctx : Z) : list op :=
  map (fun i => Create (0%nat, i) fn ctx) (seq 0 n) ++ Grow 0 junk :: map (fun i => Create (1%nat, i) fn ctx) (seq n k) ++
  Release :: map (fun i => Join (1%nat, i)) (seq 0 (n + k)) ++ [Free 1].
