(** Specification of the collision tester (tests/collisions/main.c): sets of bits, counts, numbers.  Nothing here refers
    to the model of the code. *)
From Verif Require Import Base Mem Spec64.

(** bit [i] of a sample is bit [i mod 8] of byte [i / 8] *)
Definition bit (i : Z) (b : list Z) : bool := Z.testbit (nth (Z.to_nat (i / 8)) b 0) (i mod 8).
(** byte [n] of the first sample of a seed: the top byte of the product of P1 and the avalanche of XXH64
    (doc/xxhash_spec.md) at [seed + n + 1] *)
Definition seeded (seed n : Z) : Z := (X64.avalanche ((seed + n + 1) mod 2 ^ 64) * X64.P1) mod 2 ^ 64 / 2 ^ 56.
(** a set of bit positions below [N], as a strictly decreasing list *)
Fixpoint below (N : Z) (c : list Z) : Prop := match c with [] => True | x :: t => 0 <= x < N /\ below x t end.
(** n choose k, and the number of sets of one to [k] bits out of [n] *)
Fixpoint binom (n k : nat) : Z :=
  match n, k with _, O => 1 | O, S _ => 0 | S n, S k => binom n k + binom n (S k) end.
Fixpoint sumb (n k : nat) : Z := match k with O => 0 | S k' => sumb n k' + binom n k end.
(** collisions in a list of hashes: hashes minus distinct hashes *)
Definition pair_dec (a b : Z * Z) : {a = b} + {a <> b}.
Proof. decide equality; apply Z.eq_dec. Defined.
Definition dups (l : list (Z * Z)) : Z := zlen l - zlen (nodup pair_dec l).
(** the value of decimal digits *)
Fixpoint decimal (acc : Z) (ds : list Z) : Z := match ds with [] => acc | d :: ds => decimal (10 * acc + d) ds end.
(** the suffixes: letters and the power of 1024 they stand for *)
Definition suffixes : list (list Z * Z) :=
  [([], 0); ([75], 1); ([75; 66], 1); ([75; 105], 1); ([75; 105; 66], 1); ([77], 2); ([77; 66], 2); ([77; 105], 2); ([77; 105; 66], 2);
   ([71], 3); ([71; 66], 3); ([71; 105], 3); ([71; 105; 66], 3)].
