(** Independent specification of XXH64, transcribed from doc/xxhash_spec.md:199-347. *)
From Verif Require Export Spec32.

Module X64.
Definition W := 2 ^ 64.
Definition P1 := 0x9E3779B185EBCA87.
Definition P2 := 0xC2B2AE3D27D4EB4F.
Definition P3 := 0x165667B19E3779F9.
Definition P4 := 0x85EBCA77C2B2AE63.
Definition P5 := 0x27D4EB2F165667C5.

Definition round (acc lane : Z) : Z := (rol 64 ((acc + lane * P2) mod W) 31 * P1) mod W.

Definition init (seed : Z) : list Z :=
  [(seed + P1 + P2) mod W; (seed + P2) mod W; seed mod W; (seed - P1) mod W].

Definition stripe (accs : list Z) (s : list Z) : list Z :=
  map (fun ai => round (fst ai) (LE (seg s (8 * snd ai) (8 * snd ai + 8)))) (combine accs (upto 4)).

Definition stripes (m : list Z) (accs : list Z) : list Z :=
  fold_left (fun a i => stripe a (seg m (32 * i) (32 * i + 32))) (upto (len m / 32)) accs.

Definition mergeAccumulator (acc accN : Z) : Z := (Z.lxor acc (round 0 accN) * P1 + P4) mod W.

Definition converge (accs : list Z) : Z :=
  match accs with
  | [a1; a2; a3; a4] =>
      fold_left mergeAccumulator accs ((rol 64 a1 1 + rol 64 a2 7 + rol 64 a3 12 + rol 64 a4 18) mod W)
  | _ => 0
  end.

Definition lane8 (acc : Z) (l : list Z) : Z := (rol 64 (Z.lxor acc (round 0 (LE l))) 27 * P1 + P4) mod W.
Definition lane4 (acc : Z) (l : list Z) : Z := (rol 64 (Z.lxor acc ((LE l * P1) mod W)) 23 * P2 + P3) mod W.
Definition lane1 (acc b : Z) : Z := (rol 64 (Z.lxor acc ((b * P5) mod W)) 11 * P1) mod W.

Definition tail (acc : Z) (r : list Z) : Z :=
  let L := len r in
  let n8 := L / 8 in
  let acc := fold_left (fun a i => lane8 a (seg r (8 * i) (8 * i + 8))) (upto n8) acc in
  let r := seg r (8 * n8) L in
  let acc := if 4 <=? len r then lane4 acc (seg r 0 4) else acc in
  let r := if 4 <=? len r then seg r 4 (len r) else r in
  fold_left lane1 r acc.

Definition avalanche (acc : Z) : Z :=
  let acc := xorshift acc 33 in
  let acc := (acc * P2) mod W in
  let acc := xorshift acc 29 in
  let acc := (acc * P3) mod W in
  xorshift acc 32.

Definition hash (m : list Z) (seed : Z) : Z :=
  let L := len m in
  let acc := if L <? 32 then (seed + P5) mod W else converge (stripes m (init seed)) in
  let acc := (acc + L) mod W in
  avalanche (tail acc (seg m (L / 32 * 32) L)).
End X64.
