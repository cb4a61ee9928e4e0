(** What the benchmark of xxhsum has to report, independently of its loop: a round is a number of calls and the ticks it took; [T] ticks are a second. *)
From Verif Require Import Base.

(** the rounds that count: those of half a second or more; all, in a quick evaluation (-i0) *)
Definition counts (T g : Z) (r : Z * Z) : bool := (g =? 0) || (T / 2 <=? snd r).
(** the time of a call is [p]/[q] seconds: the shortest in the rounds that count (or 10^8 seconds, if that is shorter) *)
Definition shortest (T g : Z) (l : list (Z * Z)) (p q : Z) : Prop :=
  0 < q /\
  (forall n t, In (n, t) l -> counts T g (n, t) = true -> 0 < n -> p * (T * n) <= t * q) /\
  ((p = 10 ^ 8 /\ q = 1) \/ exists n t, In (n, t) l /\ counts T g (n, t) = true /\ 0 < n /\ p = t /\ q = T * n).
