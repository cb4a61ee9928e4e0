(** Property theorems about the XXH3 hashes of inputs of different lengths: C113. *)
From Verif Require Import Base Mem M_XXH32 M_XXH64 M_XXH3 M_Kernels M_Long Spec32 Spec64 Spec3 P_Base P_Spec P_X3_Base P_X3_Long P_Inj P_Inj3 P_Inj128 P_Util
  Vectors Vectors3 Properties1 Properties2 Properties4 Properties5 Properties17.

(** ** C113 *)
(** Every input of any length has its 64-bit hash in common with exactly one input of 8 bytes, and its 128-bit hash with exactly one of 16 bytes. *)
Theorem C113_one_of_8_and_of_16 : forall m seed, bytes_ok m -> 0 <= seed < 2 ^ 64 ->
  (exists w, bytes_ok w /\ zlen w = 8 /\
     (forall c p c' p', cfg_ok c -> cfg_ok c' -> points_to p m -> points_to p' w -> XXH3_64bits_withSeed c p (zlen m) seed = XXH3_64bits_withSeed c' p' 8 seed) /\
     (forall c p c' p' w', cfg_ok c -> cfg_ok c' -> points_to p m -> bytes_ok w' -> zlen w' = 8 -> points_to p' w' ->
        XXH3_64bits_withSeed c p (zlen m) seed = XXH3_64bits_withSeed c' p' 8 seed -> w' = w)) /\
  (exists w, bytes_ok w /\ zlen w = 16 /\
     (forall c p c' p', cfg_ok c -> cfg_ok c' -> points_to p m -> points_to p' w -> XXH3_128bits_withSeed c p (zlen m) seed = XXH3_128bits_withSeed c' p' 16 seed) /\
     (forall c p c' p' w', cfg_ok c -> cfg_ok c' -> points_to p m -> bytes_ok w' -> zlen w' = 16 -> points_to p' w' ->
        XXH3_128bits_withSeed c p (zlen m) seed = XXH3_128bits_withSeed c' p' 16 seed -> w' = w)).
Proof.
  intros m seed B S. destruct (C72_xxh3_permutations seed S) as [F G]. split.
  - destruct (F (X3.XXH3_64_withSeed seed m)) as (w & Bw & Lw & E & U); [apply hash64_range|]. exists w. split; [exact Bw|]. split; [exact Lw|]. split.
    + intros c p c' p' C C' P P'. rewrite C03_xxh3_64_withSeed_equals_spec by trivial. symmetry. apply E; trivial.
    + intros c p c' p' w' C C' P Bw' Lw' P' Q. rewrite C03_xxh3_64_withSeed_equals_spec in Q by trivial. apply (U c' p' w'); trivial. symmetry. exact Q.
  - destruct (hash128_range X3.default_secret seed (X3.deriveSecret seed) m) as [R1 R2]. fold (X3.XXH3_128_withSeed seed m) in R1, R2. destruct (X3.XXH3_128_withSeed seed m) as [lo hi] eqn:D. cbn [fst snd] in R1, R2.
    destruct (G lo hi R1 R2) as (w & Bw & Lw & E & U). exists w. split; [exact Bw|]. split; [exact Lw|].
    assert (H : forall c p, cfg_ok c -> points_to p m -> XXH3_128bits_withSeed c p (zlen m) seed = OK (lo, hi)) by (intros c p C P; destruct (C04_xxh3_128_withSeed_equals_spec c p m seed C P B S) as [-> _]; rewrite D; reflexivity). split.
    + intros c p c' p' C C' P P'. rewrite H by trivial. symmetry. apply E; trivial.
    + intros c p c' p' w' C C' P Bw' Lw' P' Q. rewrite H in Q by trivial. apply (U c' p' w'); trivial. symmetry. exact Q.
Qed.
Print Assumptions C113_one_of_8_and_of_16.

(** One seed for which the 128-bit hash does not tell 4, 5, 6, 7 and 8 zero bytes apart: it is zero for all of them. *)
Definition flat_seed : Z := 0x6f64ea79b2366b54.
Theorem C113_zeros_refuted : exists seed, 0 <= seed < 2 ^ 64 /\
  forall n c p, 4 <= n <= 8 -> cfg_ok c -> points_to p (repeat 0 (Z.to_nat n)) -> XXH3_128bits_withSeed c p n seed = OK (0, 0).
Proof.
  exists flat_seed. split; [split; [discriminate|reflexivity]|]. intros n c p N C P.
  assert (L : zlen (repeat 0 (Z.to_nat n)) = n) by (unfold zlen; rewrite repeat_length; lia).
  assert (B : bytes_ok (repeat 0 (Z.to_nat n))) by (apply Forall_forall; intros x I; apply repeat_spec in I; subst x; split; [discriminate|reflexivity]).
  rewrite <- L at 1. destruct (C04_xxh3_128_withSeed_equals_spec c p _ flat_seed C P B) as [-> _]; [split; [discriminate|reflexivity]|]. f_equal.
  assert (J : n = 4 \/ n = 5 \/ n = 6 \/ n = 7 \/ n = 8) by lia. destruct J as [->|[->|[->|[->| ->]]]]; vm_compute; reflexivity.
Qed.
Print Assumptions C113_zeros_refuted.

(** the inputs of the second theorem are different, and at another seed their hashes are *)
Example C113_case : zlen (repeat 0 4) <> zlen (repeat 0 5) /\ X3.XXH3_128_withSeed 0 (repeat 0 4) <> X3.XXH3_128_withSeed 0 (repeat 0 5) /\
  X3.XXH3_128_withSeed flat_seed (repeat 0 4) = X3.XXH3_128_withSeed flat_seed (repeat 0 5) /\ bytes_ok (repeat 7 300).
Proof.
  split; [discriminate|]. split; [vm_compute; discriminate|]. split; [vm_compute; reflexivity|].
  apply Forall_forall. intros x I. apply repeat_spec in I. subst x. split; [discriminate|reflexivity].
Qed.
