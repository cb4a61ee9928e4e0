(** Property theorems about one input and two seeds: C108. *)
From Verif Require Import Base Mem M_XXH32 M_XXH64 M_XXH3 M_Kernels M_Long Spec32 Spec64 Spec3 P_Base P_Spec P_X3_Base P_X3_Long P_Inj P_Inj3 P_Inj128 P_SeedPairs
  Vectors Vectors3 Properties1 Properties2 Properties4 Properties5.

(** ** C108 *)
(** What does hold beyond the lengths of C29: XXH3 128-bit, 17 to 240 bytes, tells seeds apart that differ in one of their two lowest bits. *)
Theorem C108_xxh3_128_low_bits : forall c c' p p' m x y, cfg_ok c -> cfg_ok c' -> points_to p m -> points_to p' m -> bytes_ok m -> 17 <= zlen m <= 240 ->
  0 <= x < 2 ^ 64 -> 0 <= y < 2 ^ 64 -> x mod 4 <> y mod 4 ->
  differ (XXH3_128bits_withSeed c p (zlen m) x) (XXH3_128bits_withSeed c' p' (zlen m) y).
Proof.
  intros c c' p p' m x y C C' P P' B L X Y N. do 2 eexists. split; [apply C04_xxh3_128_withSeed_equals_spec; trivial|]. split; [apply C04_xxh3_128_withSeed_equals_spec; trivial|].
  unfold X3.XXH3_128_withSeed. rewrite !hash128_short by lia. intros E. apply short128_seeds in E; [|exact L]. exact (N E).
Qed.
Print Assumptions C108_xxh3_128_low_bits.

(** It does not hold of other seeds: every seed has a partner and an input of 32 bytes with the same 128 bits. *)
Theorem C108_xxh3_128_refuted : forall x, 0 <= x < 2 ^ 64 ->
  exists y m, 0 <= y < 2 ^ 64 /\ y <> x /\ zlen m = 32 /\ bytes_ok m /\
  forall c c' p p', cfg_ok c -> cfg_ok c' -> points_to p m -> points_to p' m ->
    exists h, XXH3_128bits_withSeed c p 32 x = OK h /\ XXH3_128bits_withSeed c' p' 32 y = OK h.
Proof.
  intros x X. exists (top x), (pair32 X3.default_secret x). assert (Y : 0 <= top x < 2 ^ 64) by (rewrite top_mod by exact X; apply Z.mod_pos_bound; reflexivity).
  assert (B : bytes_ok (pair32 X3.default_secret x)) by (unfold pair32, half; repeat apply bytes_ok_app; apply bytes8_ok).
  split; [exact Y|]. split. { unfold top. intros E. rewrite <- (Z.lxor_0_r x) in E at 2. apply lxor_inj in E. discriminate. }
  split; [reflexivity|]. split; [exact B|]. intros c c' p p' C C' P P'.
  exists (X3.XXH3_128_withSeed x (pair32 X3.default_secret x)). change 32 with (zlen (pair32 X3.default_secret x)). split; [apply C04_xxh3_128_withSeed_equals_spec; trivial|].
  destruct (C04_xxh3_128_withSeed_equals_spec c' p' (pair32 X3.default_secret x) (top x)) as [-> _]; trivial. f_equal. unfold X3.XXH3_128_withSeed.
  rewrite !hash128_short by (change (zlen (pair32 X3.default_secret x)) with 32; lia). symmetry. apply pair32_short128; [apply default_bytes|exact X|]. vm_compute. discriminate.
Qed.
Print Assumptions C108_xxh3_128_refuted.

(** XXH3 64-bit: any two seeds whatever collide on an input of 32, of 64, of 96 and of 128 bytes. *)
Theorem C108_xxh3_64_refuted : forall x y n, 0 <= x < 2 ^ 64 -> 0 <= y < 2 ^ 64 -> 1 <= n <= 4 ->
  exists m, zlen m = 32 * n /\ bytes_ok m /\
  forall c c' p p', cfg_ok c -> cfg_ok c' -> points_to p m -> points_to p' m ->
    exists h, XXH3_64bits_withSeed c p (32 * n) x = OK h /\ XXH3_64bits_withSeed c' p' (32 * n) y = OK h.
Proof.
  intros x y n X Y N. set (m := zinput X3.default_secret x y n). assert (L : zlen m = 32 * n) by (apply zinput_len; exact N). assert (B : bytes_ok m) by apply zinput_bytes.
  exists m. split; [exact L|]. split; [exact B|]. intros c c' p p' C C' P P'. exists (X3.XXH3_64_withSeed x m). rewrite <- L.
  split; [apply C03_xxh3_64_withSeed_equals_spec; trivial|]. rewrite (C03_xxh3_64_withSeed_equals_spec c' p' m y) by trivial. f_equal. unfold X3.XXH3_64_withSeed.
  rewrite !hash64_short by lia. symmetry. apply zinput_short64. exact N.
Qed.
Print Assumptions C108_xxh3_64_refuted.

(** XXH3 64-bit, 16 bytes: a partner for a quarter of all seeds, those for which two bits are as needed. *)
Theorem C108_xxh3_64_short_refuted : forall x, 0 <= x < 2 ^ 64 -> (185 + x) mod 256 < 128 -> 128 <= (58 - x) mod 256 ->
  exists y m, 0 <= y < 2 ^ 64 /\ y <> x /\ zlen m = 16 /\ bytes_ok m /\
  forall c c' p p', cfg_ok c -> cfg_ok c' -> points_to p m -> points_to p' m ->
    exists h, XXH3_64bits_withSeed c p 16 x = OK h /\ XXH3_64bits_withSeed c' p' 16 y = OK h.
Proof.
  intros x X H1 H2. set (s := X3.default_secret). set (a := Z.lxor (X3.rd8 s 24) (X3.rd8 s 32)). set (b := Z.lxor (X3.rd8 s 40) (X3.rd8 s 48)).
  set (y := (x + pal) mod 2 ^ 64). set (m := X3.bytes8 ((a + x) mod X3.W) ++ X3.bytes8 ((b - y) mod X3.W)).
  assert (Y : 0 <= y < 2 ^ 64) by (apply Z.mod_pos_bound; reflexivity). assert (B : bytes_ok m) by (apply bytes_ok_app; apply bytes8_ok).
  exists y, m. split; [exact Y|]. split.
  { unfold y. change pal with 9223372036854775936. change (2 ^ 64) with 18446744073709551616 in *. Z.div_mod_to_equations. lia. }
  split; [reflexivity|]. split; [exact B|]. intros c c' p p' C C' P P'. exists (X3.XXH3_64_withSeed x m). change 16 with (zlen m).
  split; [apply C03_xxh3_64_withSeed_equals_spec; trivial|]. rewrite (C03_xxh3_64_withSeed_equals_spec c' p' m y) by trivial. f_equal. unfold X3.XXH3_64_withSeed.
  rewrite !hash64_short by (change (zlen m) with 16; lia). symmetry.
  assert (A : a = 256 * (a / 256) + 185) by (vm_compute; reflexivity). assert (A' : b = 256 * (b / 256) + 58) by (vm_compute; reflexivity).
  assert (G : forall v k r, v = 256 * k + r -> (v mod 2 ^ 64 / 2 ^ 7) mod 2 = r mod 256 / 128).
  { intros v k r ->. change (2 ^ 64) with 18446744073709551616. change (2 ^ 7) with 128. clear. Z.div_mod_to_equations. lia. }
  apply pair16; [apply default_bytes|exact X|exact Y|reflexivity| |]; fold s a b.
  - rewrite (G _ (a / 256) (185 + x)) by lia. apply Z.div_small. split; [apply Z.mod_pos_bound; reflexivity|exact H1].
  - rewrite (G _ (b / 256) (58 - x)) by lia. pose proof (Z.mod_pos_bound (58 - x) 256 ltac:(lia)). symmetry. apply (Z.div_unique_pos _ _ 1 ((58 - x) mod 256 - 128)); lia.
Qed.
Print Assumptions C108_xxh3_64_short_refuted.

(** XXH32: 16 zero bytes. *)
Theorem C108_xxh32_refuted : exists x y m, 0 <= x < 2 ^ 32 /\ 0 <= y < 2 ^ 32 /\ x <> y /\ zlen m = 16 /\ bytes_ok m /\
  forall c c' p p', cfg_ok c -> cfg_ok c' -> points_to p m -> points_to p' m ->
    exists h, XXH32 c p 16 x = OK h /\ XXH32 c' p' 16 y = OK h.
Proof.
  exists 1403106738, 681303958, (repeat 0 16). split; [lia|]. split; [lia|]. split; [discriminate|]. split; [reflexivity|]. assert (B : bytes_ok (repeat 0 16)) by (repeat constructor; lia).
  split; [exact B|]. intros c c' p p' C C' P P'. pose proof (sz_small c C) as S. pose proof (sz_small c' C') as S'. exists (X32.hash (repeat 0 16) 1403106738). change 16 with (zlen (repeat 0 16)). split.
  - apply C01_xxh32_equals_spec; trivial; change (zlen (repeat 0 16)) with 16; lia.
  - rewrite (C01_xxh32_equals_spec c' p' (repeat 0 16) 681303958 C' P' B) by (change (zlen (repeat 0 16)) with 16; lia). vm_compute. reflexivity.
Qed.
Print Assumptions C108_xxh32_refuted.

(** a seed with the bits of C108_xxh3_64_short_refuted; the input on which the default (the seed 0) and the seed 2^63 give the same 128 bits *)
Example C108_case : (185 + 100) mod 256 < 128 <= (58 - 100) mod 256 /\
  X3.XXH3_128_withSeed 0 (X3.bytes8 0xfe4ba423396cfeb8 ++ X3.bytes8 0x9cad21f72c81017c ++ X3.bytes8 0x9b979083e96dd4de ++ X3.bytes8 0x9f67b3b7a4a44072) =
  X3.XXH3_128_withSeed (2 ^ 63) (X3.bytes8 0xfe4ba423396cfeb8 ++ X3.bytes8 0x9cad21f72c81017c ++ X3.bytes8 0x9b979083e96dd4de ++ X3.bytes8 0x9f67b3b7a4a44072).
Proof. split; vm_compute; split; trivial; discriminate || reflexivity. Qed.
