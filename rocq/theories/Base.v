(** Fixed-width machine words and the outcome monad used by the whole model.

    A word is a [Z]; the reduction [mod 2^32] / [mod 2^64] is written where C performs it. *)
From Coq Require Export ZArith List Bool Lia.
Export ListNotations.
#[global] Open Scope Z_scope.

(* ------------------------------------------------------------------ *)
(** ** Outcomes.  [UB] is undefined behaviour (out-of-bounds access, NULL or misaligned typed
    dereference, false XXH_ASSERT, which is XXH_ASSUME in release builds, xxhash.h:2447-2456 and
    2726-2730).  [NoFuel] only marks a loop whose fuel was too small; no theorem accepts it. *)
Inductive res (A : Type) : Type :=
| OK (a : A)
| UB
| NoFuel.
Arguments OK {A} a.
Arguments UB {A}.
Arguments NoFuel {A}.

Definition bind {A B} (m : res A) (f : A -> res B) : res B :=
  match m with OK a => f a | UB => UB | NoFuel => NoFuel end.

Notation "'let!' x ':=' m 'in' k" := (bind m (fun x => k))
  (at level 200, x pattern, m at level 100, k at level 200, right associativity).

(** XXH_ASSERT(c): xxhash.h:2447-2456 *)
Definition assert_ (c : bool) : res unit := if c then OK tt else UB.

(** C loops.  [while_] tests first, [do_while] runs the body once before testing;
    [for_ n i body s] runs [body i], [body (i+1)], ... n times. *)
Fixpoint while_ {S} (fuel : nat) (cond : S -> bool) (body : S -> res S) (s : S) : res S :=
  if cond s then
    match fuel with
    | O => NoFuel
    | Datatypes.S f => let! s' := body s in while_ f cond body s'
    end
  else OK s.

Definition do_while {S} (fuel : nat) (body : S -> res S) (cond : S -> bool) (s : S) : res S :=
  let! s' := body s in while_ fuel cond body s'.

Fixpoint for_ {S} (n : nat) (i : Z) (body : Z -> S -> res S) (s : S) : res S :=
  match n with
  | O => OK s
  | Datatypes.S n' => let! s' := body i s in for_ n' (i + 1) body s'
  end.

(* ------------------------------------------------------------------ *)
(** ** Words *)
Notation M8  := 256 (only parsing).
Notation M32 := 4294967296 (only parsing).
Notation M64 := 18446744073709551616 (only parsing).

(** casts to xxh_u32 / xxh_u64 (unsigned conversion reduces modulo 2^w) *)
Definition u8 (x : Z) : Z := x mod M8.
Definition u32 (x : Z) : Z := x mod M32.
Definition u64 (x : Z) : Z := x mod M64.

Definition add32 (a b : Z) := u32 (a + b).
Definition sub32 (a b : Z) := u32 (a - b).
Definition mul32 (a b : Z) := u32 (a * b).
Definition shl32 (a n : Z) := u32 (Z.shiftl a n).
Definition add64 (a b : Z) := u64 (a + b).
Definition sub64 (a b : Z) := u64 (a - b).
Definition mul64 (a b : Z) := u64 (a * b).
Definition shl64 (a n : Z) := u64 (Z.shiftl a n).
(** right shift never overflows, xor/or/and never leave the width *)
Definition shr (a n : Z) := Z.shiftr a n.
Definition xor (a b : Z) := Z.lxor a b.

(** XXH_rotl32 / XXH_rotl64, portable form: xxhash.h:2754-2755.
    (The builtin and MSVC forms, 2747-2752, are rotations by definition.) *)
Definition rotl32 (x r : Z) := Z.lor (shl32 x r) (shr x (32 - r)).
Definition rotl64 (x r : Z) := Z.lor (shl64 x r) (shr x (64 - r)).

(** XXH_swap32, portable form: xxhash.h:2771-2777 *)
Definition swap32 (x : Z) : Z :=
  Z.lor (Z.lor (Z.lor
    (Z.land (shl32 x 24) 0xff000000)
    (Z.land (shl32 x 8)  0x00ff0000))
    (Z.land (shr x 8)    0x0000ff00))
    (Z.land (shr x 24)   0x000000ff).

(** XXH_swap64, portable form: xxhash.h:3306-3316 *)
Definition swap64 (x : Z) : Z :=
  Z.lor (Z.lor (Z.lor (Z.lor (Z.lor (Z.lor (Z.lor
    (Z.land (shl64 x 56) 0xff00000000000000)
    (Z.land (shl64 x 40) 0x00ff000000000000))
    (Z.land (shl64 x 24) 0x0000ff0000000000))
    (Z.land (shl64 x 8)  0x000000ff00000000))
    (Z.land (shr x 8)    0x00000000ff000000))
    (Z.land (shr x 24)   0x0000000000ff0000))
    (Z.land (shr x 40)   0x000000000000ff00))
    (Z.land (shr x 56)   0x00000000000000ff).

(** error codes of the API: XXH_errorcode, xxhash.h:572-575 *)
Inductive errorcode := XXH_OK | XXH_ERROR.
