(** Properties C69 to C71: which changes of one word or one bit the hashes detect, and for how many seeds. *)
From Verif Require Import Base Mem M_XXH32 M_XXH64 M_XXH3 M_Kernels M_Long Spec32 Spec64 Spec3 P_Base P_Spec P_X3_Base P_X3_Long P_Inj P_Inj3 P_Inj128 P_Seeds
  Vectors Vectors3 Properties1 Properties2 Properties4 Properties5.

(** C69, 64 bits: for every seed there are 8 bytes [u] such that the top bit of the next 8 bytes, whatever they are,
    is lost.  [b] and [Z.lxor b 128] differ in one bit. *)
Theorem C69_xxh3_64_one_bit_refuted : forall seed, 0 <= seed < 2 ^ 64 ->
  exists u, zlen u = 8 /\ bytes_ok u /\
  forall c c' p p' y b, cfg_ok c -> cfg_ok c' -> zlen y = 7 -> bytes_ok (y ++ [b]) ->
    points_to p (u ++ y ++ [b]) -> points_to p' (u ++ y ++ [Z.lxor b 128]) ->
    b <> Z.lxor b 128 /\
    exists h, XXH3_64bits_withSeed c p 16 seed = OK h /\ XXH3_64bits_withSeed c' p' 16 seed = OK h.
Proof.
  intros seed S. exists (unit9to16 X3.default_secret seed). split; [reflexivity|]. split; [apply bytes8_ok|].
  intros c c' p p' y b C C' L B P P'. split.
  { intros E. rewrite <- (Z.lxor_0_r b) in E at 1. apply lxor_inj in E. discriminate. }
  set (u := unit9to16 X3.default_secret seed) in *.
  assert (LL : forall x, zlen (u ++ y ++ [x]) = 16) by (intros; rewrite !zlen_app, L; reflexivity).
  exists (X3.XXH3_64_withSeed seed (u ++ y ++ [b])). split.
  - rewrite <- (LL b). apply C03_xxh3_64_withSeed_equals_spec; trivial. apply bytes_ok_app; trivial. apply bytes8_ok.
  - rewrite <- (LL (Z.lxor b 128)). rewrite (C03_xxh3_64_withSeed_equals_spec c' p' (u ++ y ++ [Z.lxor b 128])); trivial.
    2: { apply bytes_ok_app; [apply bytes8_ok|apply bytes_top; trivial]. }
    apply f_equal. unfold X3.XXH3_64_withSeed. rewrite !hash64_short by (rewrite LL; lia). unfold X3.short64.
    change (len (u ++ y ++ [Z.lxor b 128])) with (zlen (u ++ y ++ [Z.lxor b 128])). change (len (u ++ y ++ [b])) with (zlen (u ++ y ++ [b])). rewrite !LL.
    cbn [Z.eqb Z.leb Z.compare Pos.compare Pos.compare_cont]. symmetry. apply h9to16_flip; trivial. apply default_bytes.
Qed.
Print Assumptions C69_xxh3_64_one_bit_refuted.
(** C69, 128 bits: the same for the top bit of the first 8 bytes, the last 16 bytes being free too *)
Theorem C69_xxh3_128_one_bit_refuted : forall seed, 0 <= seed < 2 ^ 64 ->
  exists u, zlen u = 8 /\ bytes_ok u /\
  forall c c' p p' y b z, cfg_ok c -> cfg_ok c' -> zlen y = 7 -> zlen z = 16 -> bytes_ok (y ++ [b]) -> bytes_ok z ->
    points_to p ((y ++ [b]) ++ u ++ z) -> points_to p' ((y ++ [Z.lxor b 128]) ++ u ++ z) ->
    b <> Z.lxor b 128 /\
    exists h, XXH3_128bits_withSeed c p 32 seed = OK h /\ XXH3_128bits_withSeed c' p' 32 seed = OK h.
Proof.
  intros seed S. exists (unit17to128 X3.default_secret seed). split; [reflexivity|]. split; [apply bytes8_ok|].
  intros c c' p p' y b z C C' L Lz B Bz P P'. split.
  { intros E. rewrite <- (Z.lxor_0_r b) in E at 1. apply lxor_inj in E. discriminate. }
  set (u := unit17to128 X3.default_secret seed) in *. assert (Bu : bytes_ok u) by apply bytes8_ok.
  assert (LL : forall x, zlen ((y ++ [x]) ++ u ++ z) = 32) by (intros; rewrite !zlen_app, L, Lz; reflexivity).
  exists (X3.XXH3_128_withSeed seed ((y ++ [b]) ++ u ++ z)). split.
  - rewrite <- (LL b). apply C04_xxh3_128_withSeed_equals_spec; trivial. repeat (apply bytes_ok_app; trivial); apply Forall_app in B; tauto.
  - rewrite <- (LL (Z.lxor b 128)).
    destruct (C04_xxh3_128_withSeed_equals_spec c' p' ((y ++ [Z.lxor b 128]) ++ u ++ z) seed) as [-> _]; trivial.
    { apply bytes_ok_app; [apply bytes_top; trivial|apply bytes_ok_app; trivial]. }
    apply f_equal. unfold X3.XXH3_128_withSeed. rewrite !hash128_short by (rewrite LL; lia). symmetry. apply h32_flip; trivial. apply default_bytes.
Qed.
Print Assumptions C69_xxh3_128_one_bit_refuted.

(** C70: the 8 bytes at [o] of an input of [L] bytes are exactly one 8-byte half of exactly one of the 16-byte windows
    that the function reads: windows at 0, 16, ... and at L-16, L-32, ..., r of each, for up to 128 bytes; windows at
    0, 16, ... and the two at L-16 and L-32 beyond, where the first 128 bytes are left out *)
Definition read_once (L o : Z) : Prop :=
  let r := (L - 1) / 32 + 1 in
  17 <= L <= 128 /\ (o mod 8 = 0 /\ o + 8 <= L - 16 * r \/ (L - o) mod 8 = 0 /\ 16 * r <= o) \/
  129 <= L <= 240 /\ (o mod 8 = 0 /\ 128 <= o /\ o + 8 <= L - 32 \/ (L - o) mod 8 = 0 /\ 32 * (L / 32) <= o).
Lemma word_neq s seed a w w' b : zlen w = 8 -> zlen w' = 8 -> LE w mod 2 ^ 62 <> LE w' mod 2 ^ 62 -> read_once (zlen (a ++ w ++ b)) (zlen a) ->
  X3.short128 s seed (a ++ w ++ b) <> X3.short128 s seed (a ++ w' ++ b).
Proof.
  intros L L' N [[H R]|[H R]].
  - apply short128_word; trivial.
  - apply short128_word_late; trivial.
Qed.
Theorem C70_xxh3_128_word_seeded : forall c c' p p' a w w' b seed, cfg_ok c -> cfg_ok c' ->
  points_to p (a ++ w ++ b) -> bytes_ok (a ++ w ++ b) -> points_to p' (a ++ w' ++ b) -> bytes_ok (a ++ w' ++ b) -> 0 <= seed < 2 ^ 64 ->
  zlen w = 8 -> zlen w' = 8 -> read_once (zlen (a ++ w ++ b)) (zlen a) -> LE w mod 2 ^ 62 <> LE w' mod 2 ^ 62 ->
  differ (XXH3_128bits c p (zlen (a ++ w ++ b))) (XXH3_128bits c' p' (zlen (a ++ w' ++ b))) /\
  differ (XXH3_128bits_withSeed c p (zlen (a ++ w ++ b)) seed) (XXH3_128bits_withSeed c' p' (zlen (a ++ w' ++ b)) seed).
Proof.
  intros c c' p p' a w w' b seed C C' P B P' B' S L L' R N.
  rewrite !C04_xxh3_128_equals_spec by trivial. destruct (C04_xxh3_128_withSeed_equals_spec c p _ seed C P B S) as [-> _].
  destruct (C04_xxh3_128_withSeed_equals_spec c' p' _ seed C' P' B' S) as [-> _].
  assert (H : zlen (a ++ w ++ b) <= 240 /\ zlen (a ++ w' ++ b) <= 240) by (destruct R as [[R _]|[R _]]; rewrite !zlen_app in *; lia).
  split; do 2 eexists; (split; [reflexivity|]; split; [reflexivity|]); unfold X3.XXH3_128, X3.XXH3_128_withSeed; rewrite !hash128_short by lia;
    apply word_neq; trivial.
Qed.
Print Assumptions C70_xxh3_128_word_seeded.
Theorem C70_xxh3_128_word_secret : forall c c' p p' a w w' b ps ps' s, cfg_ok c -> cfg_ok c' ->
  points_to p (a ++ w ++ b) -> bytes_ok (a ++ w ++ b) -> points_to p' (a ++ w' ++ b) -> bytes_ok (a ++ w' ++ b) ->
  points_to ps s -> points_to ps' s -> bytes_ok s -> 136 <= zlen s ->
  zlen w = 8 -> zlen w' = 8 -> read_once (zlen (a ++ w ++ b)) (zlen a) -> LE w mod 2 ^ 62 <> LE w' mod 2 ^ 62 ->
  differ (XXH3_128bits_withSecret c p (zlen (a ++ w ++ b)) ps (zlen s)) (XXH3_128bits_withSecret c' p' (zlen (a ++ w' ++ b)) ps' (zlen s)) /\
  forall seed, 0 <= seed < 2 ^ 64 ->
  differ (XXH3_128bits_withSecretandSeed c p (zlen (a ++ w ++ b)) ps (zlen s) seed)
         (XXH3_128bits_withSecretandSeed c' p' (zlen (a ++ w' ++ b)) ps' (zlen s) seed).
Proof.
  intros c c' p p' a w w' b ps ps' s C C' P B P' B' Ps Ps' Bs Ls L L' R N.
  assert (H : zlen (a ++ w ++ b) <= 240 /\ zlen (a ++ w' ++ b) <= 240) by (destruct R as [[R _]|[R _]]; rewrite !zlen_app in *; lia). split; [|intros seed Sd].
  - rewrite (C04_xxh3_128_withSecret_equals_spec c p (a ++ w ++ b) ps s), (C04_xxh3_128_withSecret_equals_spec c' p' (a ++ w' ++ b) ps' s) by (trivial; lia).
    do 2 eexists; (split; [reflexivity|]; split; [reflexivity|]); unfold X3.XXH3_128_withSecret; rewrite !hash128_short by lia; apply word_neq; trivial.
  - rewrite (C04_xxh3_128_withSecretandSeed_equals_spec c p (a ++ w ++ b) ps s seed), (C04_xxh3_128_withSecretandSeed_equals_spec c' p' (a ++ w' ++ b) ps' s seed) by (trivial; lia).
    do 2 eexists; (split; [reflexivity|]; split; [reflexivity|]); unfold X3.XXH3_128_withSecretandSeed; rewrite !hash128_short by lia; apply word_neq; trivial.
Qed.
Print Assumptions C70_xxh3_128_word_secret.
(** every 8-byte word of an input whose length is a multiple of 32 and at most 128 is read once *)
Theorem C70_every_word : forall k i, 1 <= k <= 4 -> 0 <= i < 4 * k -> read_once (32 * k) (8 * i).
Proof. intros k i Hk Hi. left. split; [lia|]. Z.div_mod_to_equations. lia. Qed.
Print Assumptions C70_every_word.

(** C71: two inputs of any length from 64 bytes on that XXH64 does not tell apart for any of the seeds below 2^63.
    [v] and [v'] are two words of 8 bytes; everything else is shared. *)
Theorem C71_xxh64_half_of_seeds_refuted :
  exists u u' v v', zlen u = 8 /\ zlen u' = 8 /\ zlen v = 8 /\ zlen v' = 8 /\ bytes_ok u /\ bytes_ok u' /\ bytes_ok v /\ bytes_ok v' /\ u <> u' /\
  forall c c' p p' r r' z seed, cfg_ok c -> cfg_ok c' -> zlen r = 24 -> zlen r' = 24 -> bytes_ok r -> bytes_ok r' -> bytes_ok z ->
    points_to p ((u ++ r) ++ (v ++ r') ++ z) -> points_to p' ((u' ++ r) ++ (v' ++ r') ++ z) ->
    64 + zlen z < 2 ^ szbits c -> 64 + zlen z < 2 ^ szbits c' -> 0 <= seed < 2 ^ 63 ->
    exists h, XXH64 c p (64 + zlen z) seed = OK h /\ XXH64 c' p' (64 + zlen z) seed = OK h.
Proof.
  exists (X3.bytes8 k64), (X3.bytes8 (Z.lxor k64 (2 ^ 63))), (X3.bytes8 d64), (X3.bytes8 ((d64 - d64) mod 2 ^ 64)).
  repeat (split; [first [reflexivity|apply bytes8_ok|vm_compute; discriminate]|]).
  intros c c' p p' r r' z seed C C' L L' B B' Bz P P' H H' S.
  assert (BB : forall x y, bytes_ok ((X3.bytes8 x ++ r) ++ (X3.bytes8 y ++ r') ++ z)) by (intros; repeat (apply bytes_ok_app; trivial); apply bytes8_ok).
  assert (LL : forall x y, zlen ((X3.bytes8 x ++ r) ++ (X3.bytes8 y ++ r') ++ z) = 64 + zlen z) by (intros; rewrite !zlen_app, !bytes8_len; lia).
  eexists. split.
  - rewrite <- (LL k64 d64). apply C02_xxh64_equals_spec; trivial. rewrite LL. trivial.
  - rewrite <- (LL (Z.lxor k64 (2 ^ 63)) ((d64 - d64) mod 2 ^ 64)). rewrite (C02_xxh64_equals_spec c' p' _ seed C' P') by (trivial; rewrite LL; trivial).
    apply f_equal. symmetry. apply hash64_half; trivial. split; [discriminate|reflexivity].
Qed.
Print Assumptions C71_xxh64_half_of_seeds_refuted.
(** XXH32: the pair collides for the seeds below 2^31 and for no other *)
Theorem C71_xxh32_half_of_seeds_refuted :
  exists u u' v v', zlen u = 4 /\ zlen u' = 4 /\ zlen v = 4 /\ zlen v' = 4 /\ bytes_ok u /\ bytes_ok u' /\ bytes_ok v /\ bytes_ok v' /\ u <> u' /\
  forall c c' p p' r r' z seed, cfg_ok c -> cfg_ok c' -> zlen r = 12 -> zlen r' = 12 -> bytes_ok r -> bytes_ok r' -> bytes_ok z ->
    points_to p ((u ++ r) ++ (v ++ r') ++ z) -> points_to p' ((u' ++ r) ++ (v' ++ r') ++ z) ->
    32 + zlen z < 2 ^ szbits c -> 32 + zlen z < 2 ^ szbits c' -> 0 <= seed < 2 ^ 32 ->
    exists h h', XXH32 c p (32 + zlen z) seed = OK h /\ XXH32 c' p' (32 + zlen z) seed = OK h' /\ (h = h' <-> seed < 2 ^ 31).
Proof.
  exists (bytes4 k32), (bytes4 (Z.lxor k32 (2 ^ 31))), (bytes4 d32), (bytes4 ((d32 - d32) mod 2 ^ 32)).
  repeat (split; [first [reflexivity|apply bytes4_ok|vm_compute; discriminate]|]).
  intros c c' p p' r r' z seed C C' L L' B B' Bz P P' H H' S.
  assert (BB : forall x y, bytes_ok ((bytes4 x ++ r) ++ (bytes4 y ++ r') ++ z)) by (intros; repeat (apply bytes_ok_app; trivial); apply bytes4_ok).
  assert (LL : forall x y, zlen ((bytes4 x ++ r) ++ (bytes4 y ++ r') ++ z) = 32 + zlen z) by (intros; rewrite !zlen_app, !bytes4_len; lia).
  eexists. eexists. split; [|split].
  - rewrite <- (LL k32 d32). apply C01_xxh32_equals_spec; trivial. rewrite LL. trivial.
  - rewrite <- (LL (Z.lxor k32 (2 ^ 31)) ((d32 - d32) mod 2 ^ 32)). apply C01_xxh32_equals_spec; trivial. rewrite LL. trivial.
  - apply hash32_half; trivial. split; [discriminate|reflexivity].
Qed.
Print Assumptions C71_xxh32_half_of_seeds_refuted.

(** the hypotheses are met by real values *)
Example hyps16_inhabited :
  let a := pre 24 in let w := [1; 2; 3; 4; 5; 6; 7; 8] in let w' := [1; 2; 3; 4; 5; 6; 7; 40] in let b := pre 64 in
  cfg_ok c1 /\ points_to (Ptr (a ++ w ++ b) 3 0) (a ++ w ++ b) /\ bytes_ok (a ++ w ++ b) /\ bytes_ok (a ++ w' ++ b) /\
  read_once (zlen (a ++ w ++ b)) (zlen a) /\ LE w mod 2 ^ 62 <> LE w' mod 2 ^ 62 /\
  read_once 100 24 /\ read_once 100 76 /\ ~ read_once 100 40 /\ ~ read_once 100 77 /\ read_once 200 160 /\ read_once 200 192 /\ ~ read_once 200 168 /\ ~ read_once 200 120.
Proof.
  cbv zeta. split; [constructor; cbn; auto; try lia; discriminate|]. split; [apply points_buf|].
  split; [vm_compute; repeat constructor; discriminate|]. split; [vm_compute; repeat constructor; discriminate|].
  assert (E : zlen (pre 24 ++ [1; 2; 3; 4; 5; 6; 7; 8] ++ pre 64) = 96) by reflexivity. rewrite E. change (zlen (pre 24)) with 24.
  split; [apply (C70_every_word 3 3); lia|]. split; [vm_compute; discriminate|].
  unfold read_once. change ((100 - 1) / 32 + 1) with 4. change ((200 - 1) / 32 + 1) with 7. change (200 / 32) with 6. change (100 / 32) with 3.
  repeat split; Z.div_mod_to_equations; lia.
Qed.
