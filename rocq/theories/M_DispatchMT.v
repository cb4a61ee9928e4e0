(** Model of several threads calling the x86 dispatcher (xxh_x86dispatch.c) at the same time.  M_Dispatch models one
    thread.  Here the two tables are shared memory; every thread runs a program of dispatched calls, and the steps of
    all threads interleave in any order.
    Simplification: one step reads or writes one pointer-sized slot, and all threads see the steps in one order (in
    the terms of the C standard the accesses of xxh_x86dispatch.c:655-842 are not atomic objects, so that order is an
    assumption about the machine, which on x86 holds for aligned pointers). *)
From Coq Require Import Permutation.
From Verif Require Import Base Mem M_XXH32 M_XXH64 M_XXH3 M_Kernels M_Long M_Stream3 M_Dispatch.

(** the eight pointers of XXH_g_dispatch and XXH_g_dispatch128: xxh_x86dispatch.c:617-622, 655, 665-670, 703 *)
Inductive slot := S64_default | S64_seed | S64_secret | S64_update | S128_default | S128_seed | S128_secret | S128_update.
Definition all_slots : list slot := [S64_default; S64_seed; S64_secret; S64_update; S128_default; S128_seed; S128_secret; S128_update].

(** one pointer-sized store of the structure assignments [XXH_g_dispatch = XXH_kDispatch[vecID]] and
    [XXH_g_dispatch128 = XXH_kDispatch128[vecID]]: xxh_x86dispatch.c:723-724 *)
Definition store (s : slot) (r g : globals) : globals :=
  let a := g64 g in let b := g128 g in
  match s with
  | S64_default => Globals (Table (t_default (g64 r)) (t_seed a) (t_secret a) (t_update a)) b
  | S64_seed    => Globals (Table (t_default a) (t_seed (g64 r)) (t_secret a) (t_update a)) b
  | S64_secret  => Globals (Table (t_default a) (t_seed a) (t_secret (g64 r)) (t_update a)) b
  | S64_update  => Globals (Table (t_default a) (t_seed a) (t_secret a) (t_update (g64 r))) b
  | S128_default => Globals a (Table (t_default (g128 r)) (t_seed b) (t_secret b) (t_update b))
  | S128_seed    => Globals a (Table (t_default b) (t_seed (g128 r)) (t_secret b) (t_update b))
  | S128_secret  => Globals a (Table (t_default b) (t_seed b) (t_secret (g128 r)) (t_update b))
  | S128_update  => Globals a (Table (t_default b) (t_seed b) (t_secret b) (t_update (g128 r)))
  end.
(** the comparison of one pointer with NULL, e.g. xxh_x86dispatch.c:736 *)
Definition slot_null (s : slot) (g : globals) : bool :=
  match s with
  | S64_default => is_none (t_default (g64 g)) | S64_seed => is_none (t_seed (g64 g))
  | S64_secret => is_none (t_secret (g64 g)) | S64_update => is_none (t_update (g64 g))
  | S128_default => is_none (t_default (g128 g)) | S128_seed => is_none (t_seed (g128 g))
  | S128_secret => is_none (t_secret (g128 g)) | S128_update => is_none (t_update (g128 g))
  end.

(** a call of one of the eight public functions, with its arguments: xxh_x86dispatch.c:741, 756, 771, 777, 801, 816,
    831, 837 *)
Inductive call :=
| Call64 (input : ptr) (len : Z)
| Call64_seed (input : ptr) (len seed : Z)
| Call64_secret (input : ptr) (len : Z) (secret : ptr) (secretLen : Z)
| Call64_update (st : state3) (input : ptr) (len : Z)
| Call128 (input : ptr) (len : Z)
| Call128_seed (input : ptr) (len seed : Z)
| Call128_secret (input : ptr) (len : Z) (secret : ptr) (secretLen : Z)
| Call128_update (st : state3) (input : ptr) (len : Z).
(** what a call returns (xxh_x86dispatch.c:732-842); an update also leaves a state behind *)
Inductive answer := A64 (h : Z) | A128 (h : Z * Z) | A_update (e : errorcode) (st : state3).

(** the pointer the call compares with NULL: xxh_x86dispatch.c:736, 751, 766, 779, 796, 811, 826, 839 *)
Definition tested (j : call) : slot :=
  match j with
  | Call64 _ _ => S64_default | Call64_seed _ _ _ => S64_seed | Call64_secret _ _ _ _ => S64_secret | Call64_update _ _ _ => S64_update
  | Call128 _ _ => S128_default | Call128_seed _ _ _ => S128_seed | Call128_secret _ _ _ _ => S128_secret | Call128_update _ _ _ => S128_update
  end.
(** whether the call looks at the tables: the selection functions run for len > XXH3_MIDSIZE_MAX only
    (XXH3_64bits_internal and XXH3_128bits_internal, xxhash.h:6000-6020, 6811-6830), the update functions always *)
Definition looks (j : call) : bool :=
  match j with
  | Call64 _ len | Call64_seed _ len _ | Call64_secret _ len _ _ | Call128 _ len | Call128_seed _ len _ | Call128_secret _ len _ _ => negb (len <=? MIDSIZE_MAX)
  | Call64_update _ _ _ | Call128_update _ _ _ => true
  end.

(** the rest of the call, after the NULL test: it reads the pointer from the tables [g] and calls it, e.g.
    xxh_x86dispatch.c:738, 743.  The function called works on the memory of the caller only. *)
Definition rest (c : cfg) (g : globals) (j : call) : res answer :=
  match j with
  | Call64 input len =>
      let! h := XXH3_64bits_internal c input len 0 kSecret_ptr 192
        (fun input len seed64 secret secretLen => let! f := callp (t_default (g64 g)) in f input len) in OK (A64 h)
  | Call64_seed input len seed =>
      let! h := XXH3_64bits_internal c input len seed kSecret_ptr 192
        (fun input len seed64 secret secretLen => let! f := callp (t_seed (g64 g)) in f input len seed64) in OK (A64 h)
  | Call64_secret input len secret secretLen =>
      let! h := XXH3_64bits_internal c input len 0 secret secretLen
        (fun input len seed64 secret secretLen => let! f := callp (t_secret (g64 g)) in f input len secret secretLen) in OK (A64 h)
  | Call64_update st input len =>
      let! f := callp (t_update (g64 g)) in let! r := f st input len in OK (A_update (fst r) (snd r))
  | Call128 input len =>
      let! h := XXH3_128bits_internal c input len 0 kSecret_ptr 192
        (fun input len seed64 secret secretLen => let! f := callp (t_default (g128 g)) in f input len) in OK (A128 h)
  | Call128_seed input len seed =>
      let! h := XXH3_128bits_internal c input len seed kSecret_ptr 192
        (fun input len seed64 secret secretLen => let! f := callp (t_seed (g128 g)) in f input len seed64) in OK (A128 h)
  | Call128_secret input len secret secretLen =>
      let! h := XXH3_128bits_internal c input len 0 secret secretLen
        (fun input len seed64 secret secretLen => let! f := callp (t_secret (g128 g)) in f input len secret secretLen) in OK (A128 h)
  | Call128_update st input len =>
      let! f := callp (t_update (g128 g)) in let! r := f st input len in OK (A_update (fst r) (snd r))
  end.

(** where a thread is within the call it is making: before the NULL test; inside XXH_setDispatch with the selected
    row [r] and the stores still to be made; after the test, about to read the pointer again
    (e.g. xxh_x86dispatch.c:736, 723-724, 738) *)
Inductive phase := Before | Storing (r : globals) (todo : list slot) | After.
(** a thread of a program that calls the functions of xxh_x86dispatch.c:732-842: the calls it has completed with what they returned (the C code has no such record; it is how the
    property observes the run), and where it is in the next one *)
Record thread := Thread { done : list (call * res answer); at_ : phase }.
(** what a thread runs: the next call may depend on everything the earlier ones returned; [None] ends the thread *)
Definition program := list (call * res answer) -> option call.
Record world := World { shared : globals; threads : nat -> thread }.
Definition set_thread (w : world) (t : nat) (x : thread) : nat -> thread := fun t' => if Nat.eqb t' t then x else threads w t'.

Section Steps.
Variables (c : cfg) (d : dcfg) (p : cpu) (prog : nat -> program).
(** one step of thread [t]: the test of MAYBE_NULL and one store of XXH_setDispatch at a time (xxh_x86dispatch.c:709-725, 732-842) *)
Inductive step (t : nat) (w : world) : world -> Prop :=
(** a short input never reaches the selection function (xxhash.h:6013-6018, 6823-6828) *)
| Step_short h j : threads w t = Thread h Before -> prog t h = Some j -> looks j = false ->
    step t w (World (shared w) (set_thread w t (Thread (h ++ [(j, rest c (shared w) j)]) Before)))
(** [XXH_DISPATCH_MAYBE_NULL && slot == NULL] is false (xxh_x86dispatch.c:736) *)
| Step_found h j : threads w t = Thread h Before -> prog t h = Some j -> looks j = true ->
    maybe_null d && slot_null (tested j) (shared w) = false ->
    step t w (World (shared w) (set_thread w t (Thread h After)))
(** it is true: XXH_setDispatch tests the processor and picks the row (xxh_x86dispatch.c:711-724); the stores may be
    made in any order *)
| Step_null h j r todo : threads w t = Thread h Before -> prog t h = Some j -> looks j = true ->
    maybe_null d && slot_null (tested j) (shared w) = true -> setDispatch c d p (shared w) = OK r -> Permutation all_slots todo ->
    step t w (World (shared w) (set_thread w t (Thread h (Storing r todo))))
(** the processor test or the choice of the row is undefined *)
| Step_trap h j : threads w t = Thread h Before -> prog t h = Some j -> looks j = true ->
    maybe_null d && slot_null (tested j) (shared w) = true -> (forall r, setDispatch c d p (shared w) <> OK r) ->
    step t w (World (shared w) (set_thread w t (Thread (h ++ [(j, UB)]) Before)))
| Step_store h r s todo : threads w t = Thread h (Storing r (s :: todo)) ->
    step t w (World (store s r (shared w)) (set_thread w t (Thread h (Storing r todo))))
| Step_stored h r : threads w t = Thread h (Storing r []) ->
    step t w (World (shared w) (set_thread w t (Thread h After)))
(** the second read of the pointer, and the call (xxh_x86dispatch.c:738) *)
| Step_call h j : threads w t = Thread h After -> prog t h = Some j ->
    step t w (World (shared w) (set_thread w t (Thread (h ++ [(j, rest c (shared w) j)]) Before))).

(** a run of the functions of xxh_x86dispatch.c:732-842: the list gives the thread that makes each step *)
Inductive steps : list nat -> world -> world -> Prop :=
| Steps_nil w : steps [] w w
| Steps_cons t ts w w1 w2 : step t w w1 -> steps ts w1 w2 -> steps (t :: ts) w w2.
End Steps.

(** when main starts (xxh_x86dispatch.c:655, 703, 732-740) no thread has called anything; the tables are those of [g_start] (M_Dispatch) *)
Definition starts (c : cfg) (d : dcfg) (p : cpu) (w : world) : Prop :=
  g_start c d p = OK (shared w) /\ forall t, threads w t = Thread [] Before.
