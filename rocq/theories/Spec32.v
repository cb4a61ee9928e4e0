(** Independent specification of XXH32, transcribed from doc/xxhash_spec.md:70-196.
    Mathematical style: a message is a list of byte values, words are integers reduced modulo 2^32,
    rotation is multiplication and division by powers of two.  Nothing of the model is used. *)
From Coq Require Export ZArith List.
Export ListNotations.
#[global] Open Scope Z_scope.

(** little-endian value of a byte sequence (doc/xxhash_spec.md:53) *)
Definition LE (l : list Z) : Z := fold_right (fun b acc => b + 2 ^ 8 * acc) 0 l.

(** message[a:b], the bytes at positions a (included) to b (excluded) *)
Definition seg (m : list Z) (a b : Z) : list Z := firstn (Z.to_nat (b - a)) (skipn (Z.to_nat a) m).

Definition len (m : list Z) : Z := Z.of_nat (length m).

(** 0, 1, ..., n-1 *)
Definition upto (n : Z) : list Z := map Z.of_nat (seq 0 (Z.to_nat n)).

(** operations modulo 2^w (doc/xxhash_spec.md:47-67) *)
Definition rol (w x s : Z) : Z := (x * 2 ^ s) mod 2 ^ w + x / 2 ^ (w - s).
Definition shift_right (x s : Z) : Z := x / 2 ^ s.
Definition xorshift (x s : Z) : Z := Z.lxor x (shift_right x s).

Module X32.
Definition W := 2 ^ 32.
Definition P1 := 0x9E3779B1.
Definition P2 := 0x85EBCA77.
Definition P3 := 0xC2B2AE3D.
Definition P4 := 0x27D4EB2F.
Definition P5 := 0x165667B1.

(** Step 2: one lane *)
Definition round (acc lane : Z) : Z := (rol 32 ((acc + lane * P2) mod W) 13 * P1) mod W.

(** Step 1: four accumulators *)
Definition init (seed : Z) : list Z :=
  [(seed + P1 + P2) mod W; (seed + P2) mod W; seed mod W; (seed - P1) mod W].

(** Step 2: one 16-byte stripe updates the four accumulators with its four lanes *)
Definition stripe (accs : list Z) (s : list Z) : list Z :=
  map (fun ai => round (fst ai) (LE (seg s (4 * snd ai) (4 * snd ai + 4)))) (combine accs (upto 4)).

Definition stripes (m : list Z) (accs : list Z) : list Z :=
  fold_left (fun a i => stripe a (seg m (16 * i) (16 * i + 16))) (upto (len m / 16)) accs.

(** Step 3 *)
Definition converge (accs : list Z) : Z :=
  match accs with
  | [a1; a2; a3; a4] => (rol 32 a1 1 + rol 32 a2 7 + rol 32 a3 12 + rol 32 a4 18) mod W
  | _ => 0
  end.

(** Step 5: remaining 4-byte lanes then bytes *)
Definition lane4 (acc : Z) (l : list Z) : Z := (rol 32 ((acc + LE l * P3) mod W) 17 * P4) mod W.
Definition lane1 (acc b : Z) : Z := (rol 32 ((acc + b * P5) mod W) 11 * P1) mod W.
Definition tail (acc : Z) (r : list Z) : Z :=
  let n4 := len r / 4 in
  let acc := fold_left (fun a i => lane4 a (seg r (4 * i) (4 * i + 4))) (upto n4) acc in
  fold_left lane1 (seg r (4 * n4) (len r)) acc.

(** Step 6 *)
Definition avalanche (acc : Z) : Z :=
  let acc := xorshift acc 15 in
  let acc := (acc * P2) mod W in
  let acc := xorshift acc 13 in
  let acc := (acc * P3) mod W in
  xorshift acc 16.

Definition hash (m : list Z) (seed : Z) : Z :=
  let L := len m in
  let acc := if L <? 16 then (seed + P5) mod W else converge (stripes m (init seed)) in
  let acc := (acc + L) mod W in
  avalanche (tail acc (seg m (L / 16 * 16) L)).
End X32.
