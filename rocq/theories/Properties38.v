(** Property theorems about what the 128-bit hash of XXH3 tells of the length and the seed: C109. *)
From Verif Require Import Base Mem M_XXH32 M_XXH64 M_XXH3 M_Kernels M_Long Spec32 Spec64 Spec3 P_Base P_Spec P_X3_Base P_X3_Long P_Inj P_Inj3 P_Inj128 P_Told
  Vectors Vectors3 Properties1 Properties2 Properties4 Properties5.

(** ** C109 *)
(** From 17 to 240 bytes the hash alone gives the length minus the seed modulo 4, whatever the secret. *)
Theorem C109_told : exists f : Z * Z -> Z,
  (forall c p m seed, cfg_ok c -> points_to p m -> bytes_ok m -> 17 <= zlen m <= 240 -> 0 <= seed < 2 ^ 64 ->
     exists d, XXH3_128bits_withSeed c p (zlen m) seed = OK d /\ f d = (zlen m - seed) mod 4) /\
  (forall c p m ps s, cfg_ok c -> points_to p m -> bytes_ok m -> 17 <= zlen m <= 240 -> points_to ps s -> bytes_ok s -> 136 <= zlen s ->
     exists d, XXH3_128bits_withSecret c p (zlen m) ps (zlen s) = OK d /\ f d = zlen m mod 4).
Proof.
  exists told. split.
  - intros c p m seed C P B L S. eexists. split; [apply C04_xxh3_128_withSeed_equals_spec; trivial|]. unfold X3.XXH3_128_withSeed. rewrite hash128_short by lia. apply told_short128, L.
  - intros c p m ps s C P B L PS Bs Ls. eexists. split; [apply C04_xxh3_128_withSecret_equals_spec; trivial; lia|]. unfold X3.XXH3_128_withSecret. rewrite hash128_short by lia.
    rewrite told_short128 by exact L. f_equal. lia.
Qed.
Print Assumptions C109_told.

(** So two inputs of 17 to 240 bytes, the lengths of which differ modulo 4, never have the same hash, for one seed or under any two secrets. *)
Theorem C109_lengths : forall c c' p p' m m', cfg_ok c -> cfg_ok c' -> points_to p m -> points_to p' m' -> bytes_ok m -> bytes_ok m' ->
  17 <= zlen m <= 240 -> 17 <= zlen m' <= 240 -> zlen m mod 4 <> zlen m' mod 4 ->
  (forall seed, 0 <= seed < 2 ^ 64 -> differ (XXH3_128bits_withSeed c p (zlen m) seed) (XXH3_128bits_withSeed c' p' (zlen m') seed)) /\
  (forall ps ps' s s', points_to ps s -> points_to ps' s' -> bytes_ok s -> bytes_ok s' -> 136 <= zlen s -> 136 <= zlen s' ->
     differ (XXH3_128bits_withSecret c p (zlen m) ps (zlen s)) (XXH3_128bits_withSecret c' p' (zlen m') ps' (zlen s'))).
Proof.
  intros c c' p p' m m' C C' P P' B B' L L' N. destruct C109_told as (f & F1 & F2). split.
  - intros seed S. destruct (F1 c p m seed) as (d & E & D); trivial. destruct (F1 c' p' m' seed) as (d' & E' & D'); trivial. exists d, d'. split; [exact E|]. split; [exact E'|].
    intros ->. rewrite D' in D. apply N. clear - D. Z.div_mod_to_equations. lia.
  - intros ps ps' s s' S S' Bs Bs' Ls Ls'. destruct (F2 c p m ps s) as (d & E & D); trivial. destruct (F2 c' p' m' ps' s') as (d' & E' & D'); trivial.
    exists d, d'. split; [exact E|]. split; [exact E'|]. intros ->. rewrite D' in D. apply N. symmetry. exact D.
Qed.
Print Assumptions C109_lengths.

(** Not every digest is the hash of some input: for each length, each seed and each low half there are high halves that no input has (those for which the
    function of C109_told has one of the three other values). *)
Theorem C109_every_digest_refuted : forall L seed low, 17 <= L <= 240 -> 0 <= seed < 2 ^ 64 -> 0 <= low < 2 ^ 64 ->
  exists high, 0 <= high < 2 ^ 64 /\
  forall c p m, cfg_ok c -> points_to p m -> bytes_ok m -> zlen m = L -> XXH3_128bits_withSeed c p L seed <> OK (low, high).
Proof.
  intros L seed low HL S W. destruct (told_onto low ((L - seed + 1) mod 4)) as (high & H & T); [apply Z.mod_pos_bound; lia|]. exists high. split; [exact H|].
  intros c p m C P B <- E. destruct (C04_xxh3_128_withSeed_equals_spec c p m seed C P B S) as [Q _]. rewrite Q in E. injection E as E.
  unfold X3.XXH3_128_withSeed in E. rewrite hash128_short in E by lia. rewrite <- E, told_short128 in T by exact HL. clear - T. Z.div_mod_to_equations. lia.
Qed.
Print Assumptions C109_every_digest_refuted.

(** inputs of 17 and of 20 bytes, two seeds *)
Example C109_case : told (X3.XXH3_128_withSeed 0 (repeat 1 17)) = 1 /\ told (X3.XXH3_128_withSeed 0 (repeat 7 20)) = 0 /\ told (X3.XXH3_128_withSeed 3 (repeat 7 20)) = 1 /\
  told (X3.XXH3_128_withSeed 0 (repeat 7 240)) = 0 /\ told (X3.XXH3_128_withSeed 0 (repeat 7 239)) = 3.
Proof. vm_compute. repeat split. Qed.
