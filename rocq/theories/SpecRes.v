(** How a program may use files and blocks, independently of xxhsum: only an open file may be read or closed, only a block that is held may be used,
    moved or freed.  The store also counts the most files open and the most blocks held at one time. *)
From Verif Require Import Base M_CliRes.

Record store := Store { opened : list handle; held : list handle; most_opened : nat; most_held : nat }.
(** when a program starts: stdin is open *)
Definition start : store := Store [Std] [] 1 0.
Definition same (a b : handle) : bool := match a, b with Std, Std => true | At i, At j => Nat.eqb i j | _, _ => false end.
Definition has (h : handle) (l : list handle) : bool := existsb (same h) l.
Fixpoint without (h : handle) (l : list handle) : list handle := match l with [] => [] | x :: l => if same h x then l else x :: without h l end.

(** the [n]-th call; [None]: it is not allowed *)
Definition step (n : nat) (e : event) (s : store) : option store :=
  let open_ l := Store l (held s) (Nat.max (most_opened s) (List.length l)) (most_held s) in
  let hold l := Store (opened s) l (most_opened s) (Nat.max (most_held s) (List.length l)) in
  match e with
  | Opened => Some (open_ (At n :: opened s))
  | Read f => if has f (opened s) then Some s else None
  | Closed f => if has f (opened s) then Some (open_ (without f (opened s))) else None
  | Allocated => Some (hold (At n :: held s))
  | Moved b => if has b (held s) then Some (hold (At n :: without b (held s))) else None
  | Used b => if has b (held s) then Some s else None
  | Freed b => if has b (held s) then Some (hold (without b (held s))) else None
  end.
Fixpoint replay (n : nat) (l : log) (s : store) : option store :=
  match l with [] => Some s | e :: l => match step n e s with Some s => replay (S n) l s | None => None end end.
(** the calls [l] of a whole run are allowed and end in the store [s] *)
Definition stands (l : log) (s : store) : Prop := replay 0 l start = Some s.
