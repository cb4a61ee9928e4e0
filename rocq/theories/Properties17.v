(** Property C72: hashes can be forged.  Choosing one word of the input, or the seed, reaches every digest. *)
From Verif Require Import Base Mem M_XXH32 M_XXH64 M_XXH3 M_Kernels M_Long Spec32 Spec64 Spec3 P_Base P_Spec P_X3_Base P_X3_Long P_Inj P_Inj32 P_Inj64 P_Inj3 P_Perm
  Vectors Vectors3 Properties1 Properties2 Properties4 Properties5.

(** XXH32: any aligned 4-byte word of an input of any length can be chosen in exactly one way so that the digest is [h] *)
Theorem C72_xxh32_word : forall a b seed h, bytes_ok a -> bytes_ok b -> zlen a mod 4 = 0 -> 0 <= h < 2 ^ 32 ->
  exists w, bytes_ok w /\ zlen w = 4 /\
  (forall c p, cfg_ok c -> zlen a + 4 + zlen b < 2 ^ szbits c -> points_to p (a ++ w ++ b) -> XXH32 c p (zlen a + 4 + zlen b) seed = OK h) /\
  (forall c p w', cfg_ok c -> zlen a + 4 + zlen b < 2 ^ szbits c -> bytes_ok w' -> zlen w' = 4 -> points_to p (a ++ w' ++ b) ->
     XXH32 c p (zlen a + 4 + zlen b) seed = OK h -> w' = w).
Proof.
  intros a b seed h Ba Bb Ha Hh.
  assert (BB : forall w, bytes_ok w -> bytes_ok (a ++ w ++ b)) by (intros; repeat (apply bytes_ok_app; trivial)).
  assert (LL : forall w, zlen w = 4 -> zlen (a ++ w ++ b) = zlen a + 4 + zlen b) by (intros; rewrite !zlen_app; lia).
  assert (I : forall w w', bytes_ok w -> bytes_ok w' -> zlen w = 4 -> zlen w' = 4 -> X32.hash (a ++ w ++ b) seed = X32.hash (a ++ w' ++ b) seed -> w = w').
  { intros w w' B B' L L' E. apply (hash32_within a w w' b seed); trivial; lia. }
  destruct (word_surj 4 (fun w => X32.hash (a ++ w ++ b) seed)) with (h := h) as (w & B & L & E); trivial.
  { intros w B L. apply hash32_wd. auto. }
  exists w. split; [exact B|]. split; [exact L|]. split.
  - intros c p C S P. rewrite <- (LL w L), C01_xxh32_equals_spec by (auto; rewrite LL by trivial; trivial). rewrite E. reflexivity.
  - intros c p w' C S B' L' P Q. rewrite <- (LL w' L'), C01_xxh32_equals_spec in Q by (auto; rewrite LL by trivial; trivial).
    apply I; trivial. apply OK_inj in Q. rewrite Q, E. reflexivity.
Qed.
Print Assumptions C72_xxh32_word.
(** XXH64: the same for an 8-byte word after the last full 32-byte stripe, so for any 8-byte input *)
Theorem C72_xxh64_word : forall a b seed h, bytes_ok a -> bytes_ok b -> zlen a mod 8 = 0 -> (zlen a + 8 + zlen b) / 32 * 32 <= zlen a -> 0 <= h < 2 ^ 64 ->
  exists w, bytes_ok w /\ zlen w = 8 /\
  (forall c p, cfg_ok c -> zlen a + 8 + zlen b < 2 ^ szbits c -> points_to p (a ++ w ++ b) -> XXH64 c p (zlen a + 8 + zlen b) seed = OK h) /\
  (forall c p w', cfg_ok c -> zlen a + 8 + zlen b < 2 ^ szbits c -> bytes_ok w' -> zlen w' = 8 -> points_to p (a ++ w' ++ b) ->
     XXH64 c p (zlen a + 8 + zlen b) seed = OK h -> w' = w).
Proof.
  intros a b seed h Ba Bb Ha Hl Hh. pose proof (zlen_nonneg b).
  assert (BB : forall w, bytes_ok w -> bytes_ok (a ++ w ++ b)) by (intros; repeat (apply bytes_ok_app; trivial)).
  assert (LL : forall w, zlen w = 8 -> zlen (a ++ w ++ b) = zlen a + 8 + zlen b) by (intros; rewrite !zlen_app; lia).
  assert (I : forall w w', bytes_ok w -> bytes_ok w' -> zlen w = 8 -> zlen w' = 8 -> X64.hash (a ++ w ++ b) seed = X64.hash (a ++ w' ++ b) seed -> w = w').
  { intros w w' B B' L L' E. apply (hash64_within a w w' b seed); trivial; rewrite ?L; try lia; left; split; dlia. }
  destruct (word_surj 8 (fun w => X64.hash (a ++ w ++ b) seed)) with (h := h) as (w & B & L & E); trivial.
  { intros w B L. apply hash64_wd. auto. }
  exists w. split; [exact B|]. split; [exact L|]. split.
  - intros c p C S P. rewrite <- (LL w L), C02_xxh64_equals_spec by (auto; rewrite LL by trivial; trivial). rewrite E. reflexivity.
  - intros c p w' C S B' L' P Q. rewrite <- (LL w' L'), C02_xxh64_equals_spec in Q by (auto; rewrite LL by trivial; trivial).
    apply I; trivial. apply OK_inj in Q. rewrite Q, E. reflexivity.
Qed.
Print Assumptions C72_xxh64_word.
(** XXH3 64 bits over 8-byte inputs and XXH3 128 bits over 16-byte inputs are permutations, for every seed *)
Theorem C72_xxh3_permutations : forall seed, 0 <= seed < 2 ^ 64 ->
  (forall h, 0 <= h < 2 ^ 64 -> exists m, bytes_ok m /\ zlen m = 8 /\
     (forall c p, cfg_ok c -> points_to p m -> XXH3_64bits_withSeed c p 8 seed = OK h) /\
     (forall c p m', cfg_ok c -> bytes_ok m' -> zlen m' = 8 -> points_to p m' -> XXH3_64bits_withSeed c p 8 seed = OK h -> m' = m)) /\
  (forall lo hi, 0 <= lo < 2 ^ 64 -> 0 <= hi < 2 ^ 64 -> exists m, bytes_ok m /\ zlen m = 16 /\
     (forall c p, cfg_ok c -> points_to p m -> XXH3_128bits_withSeed c p 16 seed = OK (lo, hi)) /\
     (forall c p m', cfg_ok c -> bytes_ok m' -> zlen m' = 16 -> points_to p m' -> XXH3_128bits_withSeed c p 16 seed = OK (lo, hi) -> m' = m)).
Proof.
  intros seed S. split.
  - intros h Hh. destruct (word_surj 8 (fun m => X3.short64 X3.default_secret seed m)) with (h := h) as (m & B & L & E); trivial.
    { intros w B L. apply short64_wd. lia. }
    { intros w w' B B' L L' E. apply (short64_inj X3.default_secret seed); trivial; try lia. apply default_bytes. }
    change (Z.of_nat 8) with 8 in L.
    exists m. split; [exact B|]. split; [exact L|]. split.
    + intros c p C P. rewrite <- L, C03_xxh3_64_withSeed_equals_spec by trivial. unfold X3.XXH3_64_withSeed. rewrite hash64_short, E by lia. reflexivity.
    + intros c p m' C B' L' P Q. rewrite <- L' in Q at 1. rewrite C03_xxh3_64_withSeed_equals_spec in Q by trivial. unfold X3.XXH3_64_withSeed in Q.
      rewrite hash64_short in Q by lia. apply OK_inj in Q. apply (short64_inj X3.default_secret seed); trivial; try lia; first [apply default_bytes|congruence].
  - intros lo hi Hl Hh. destruct (short128_surj X3.default_secret seed (lo, hi)) as (m & B & L & E); trivial; try apply default_bytes.
    exists m. split; [exact B|]. split; [exact L|]. split.
    + intros c p C P. rewrite <- L. destruct (C04_xxh3_128_withSeed_equals_spec c p m seed C P B S) as [-> _]. unfold X3.XXH3_128_withSeed. rewrite hash128_short, E by lia. reflexivity.
    + intros c p m' C B' L' P Q. rewrite <- L' in Q at 1. destruct (C04_xxh3_128_withSeed_equals_spec c p m' seed C P B' S) as [R _]. rewrite R in Q. unfold X3.XXH3_128_withSeed in Q.
      rewrite hash128_short in Q by lia. apply OK_inj in Q. apply (short128_inj X3.default_secret seed); trivial; try lia; first [apply default_bytes|congruence].
Qed.
Print Assumptions C72_xxh3_permutations.
(** with a custom secret *)
Theorem C72_xxh3_secret_permutations : forall s, bytes_ok s -> 136 <= zlen s ->
  (forall h, 0 <= h < 2 ^ 64 -> exists m, bytes_ok m /\ zlen m = 8 /\
     (forall c p ps, cfg_ok c -> points_to ps s -> points_to p m -> XXH3_64bits_withSecret c p 8 ps (zlen s) = OK h) /\
     (forall c p ps m', cfg_ok c -> points_to ps s -> bytes_ok m' -> zlen m' = 8 -> points_to p m' ->
        XXH3_64bits_withSecret c p 8 ps (zlen s) = OK h -> m' = m)) /\
  (forall lo hi, 0 <= lo < 2 ^ 64 -> 0 <= hi < 2 ^ 64 -> exists m, bytes_ok m /\ zlen m = 16 /\
     (forall c p ps, cfg_ok c -> points_to ps s -> points_to p m -> XXH3_128bits_withSecret c p 16 ps (zlen s) = OK (lo, hi)) /\
     (forall c p ps m', cfg_ok c -> points_to ps s -> bytes_ok m' -> zlen m' = 16 -> points_to p m' ->
        XXH3_128bits_withSecret c p 16 ps (zlen s) = OK (lo, hi) -> m' = m)).
Proof.
  intros s Bs Ls. split.
  - intros h Hh. destruct (word_surj 8 (fun m => X3.short64 s 0 m)) with (h := h) as (m & B & L & E); trivial.
    { intros w B L. apply short64_wd. lia. }
    { intros w w' B B' L L' E. apply (short64_inj s 0); trivial; lia. }
    change (Z.of_nat 8) with 8 in L.
    exists m. split; [exact B|]. split; [exact L|]. split.
    + intros c p ps C Ps P. rewrite <- L at 1. rewrite (C03_xxh3_64_withSecret_equals_spec c p m ps s) by (trivial; lia). unfold X3.XXH3_64_withSecret. rewrite hash64_short, E by lia. reflexivity.
    + intros c p ps m' C Ps B' L' P Q. rewrite <- L' in Q at 1. rewrite (C03_xxh3_64_withSecret_equals_spec c p m' ps s) in Q by (trivial; lia). unfold X3.XXH3_64_withSecret in Q.
      rewrite hash64_short in Q by lia. apply OK_inj in Q. apply (short64_inj s 0); trivial; try lia; congruence.
  - intros lo hi Hl Hh. destruct (short128_surj s 0 (lo, hi)) as (m & B & L & E); trivial.
    exists m. split; [exact B|]. split; [exact L|]. split.
    + intros c p ps C Ps P. rewrite <- L at 1. rewrite (C04_xxh3_128_withSecret_equals_spec c p m ps s) by (trivial; lia). unfold X3.XXH3_128_withSecret. rewrite hash128_short, E by lia. reflexivity.
    + intros c p ps m' C Ps B' L' P Q. rewrite <- L' in Q at 1. rewrite (C04_xxh3_128_withSecret_equals_spec c p m' ps s) in Q by (trivial; lia). unfold X3.XXH3_128_withSecret in Q.
      rewrite hash128_short in Q by lia. apply OK_inj in Q. apply (short128_inj s 0); trivial; try lia; congruence.
Qed.
Print Assumptions C72_xxh3_secret_permutations.
(** for a short input every digest is reached by exactly one seed *)
Theorem C72_seed : forall m, bytes_ok m ->
  (zlen m < 16 -> forall h, 0 <= h < 2 ^ 32 -> exists s, 0 <= s < 2 ^ 32 /\
     (forall c p, cfg_ok c -> points_to p m -> XXH32 c p (zlen m) s = OK h) /\
     (forall c p s', cfg_ok c -> points_to p m -> 0 <= s' < 2 ^ 32 -> XXH32 c p (zlen m) s' = OK h -> s' = s)) /\
  (zlen m < 32 -> forall h, 0 <= h < 2 ^ 64 -> exists s, 0 <= s < 2 ^ 64 /\
     (forall c p, cfg_ok c -> points_to p m -> XXH64 c p (zlen m) s = OK h) /\
     (forall c p s', cfg_ok c -> points_to p m -> 0 <= s' < 2 ^ 64 -> XXH64 c p (zlen m) s' = OK h -> s' = s)) /\
  (zlen m <= 8 -> forall h, 0 <= h < 2 ^ 64 -> exists s, 0 <= s < 2 ^ 64 /\
     (forall c p, cfg_ok c -> points_to p m -> XXH3_64bits_withSeed c p (zlen m) s = OK h) /\
     (forall c p s', cfg_ok c -> points_to p m -> 0 <= s' < 2 ^ 64 -> XXH3_64bits_withSeed c p (zlen m) s' = OK h -> s' = s)).
Proof.
  intros m B. split; [|split]; intros L h Hh.
  - destruct (inj_surj (2 ^ 32) (fun s => X32.hash m s)) with (y := h) as (s & S & E); trivial.
    { intros x Hx. apply hash32_wd. exact B. } { intros x y Hx Hy E. apply (hash32_seed m); trivial. }
    exists s. split; [exact S|]. split.
    + intros c p C P. pose proof (sz_small c C). rewrite C01_xxh32_equals_spec by (trivial; lia). rewrite E. reflexivity.
    + intros c p s' C P S' Q. pose proof (sz_small c C). rewrite C01_xxh32_equals_spec in Q by (trivial; lia). apply OK_inj in Q. apply (hash32_seed m); trivial. congruence.
  - destruct (inj_surj (2 ^ 64) (fun s => X64.hash m s)) with (y := h) as (s & S & E); trivial.
    { intros x Hx. apply hash64_wd. exact B. } { intros x y Hx Hy E. apply (hash64_seed m); trivial. }
    exists s. split; [exact S|]. split.
    + intros c p C P. pose proof (sz_small c C). rewrite C02_xxh64_equals_spec by (trivial; lia). rewrite E. reflexivity.
    + intros c p s' C P S' Q. pose proof (sz_small c C). rewrite C02_xxh64_equals_spec in Q by (trivial; lia). apply OK_inj in Q. apply (hash64_seed m); trivial. congruence.
  - destruct (inj_surj (2 ^ 64) (fun s => X3.short64 X3.default_secret s m)) with (y := h) as (s & S & E); trivial.
    { intros x Hx. apply short64_wd. exact L. } { intros x y Hx Hy E. exact (short64_seed X3.default_secret x y m default_bytes B L Hx Hy E). }
    exists s. split; [exact S|]. split.
    + intros c p C P. rewrite C03_xxh3_64_withSeed_equals_spec by trivial. unfold X3.XXH3_64_withSeed. rewrite hash64_short, E by lia. reflexivity.
    + intros c p s' C P S' Q. rewrite C03_xxh3_64_withSeed_equals_spec in Q by trivial. unfold X3.XXH3_64_withSeed in Q. rewrite hash64_short in Q by lia.
      apply OK_inj in Q. exact (short64_seed X3.default_secret s' s m default_bytes B L S' S (eq_trans Q (eq_sym E))).
Qed.
Print Assumptions C72_seed.

(** the hypotheses are met by real values *)
Example hyps17_inhabited :
  let a := pre 36 in let b := pre 13 in
  cfg_ok c1 /\ bytes_ok a /\ bytes_ok b /\ zlen a mod 4 = 0 /\ zlen a + 4 + zlen b < 2 ^ szbits c1 /\
  (let a := pre 40 in zlen a mod 8 = 0 /\ (zlen a + 8 + zlen b) / 32 * 32 <= zlen a) /\
  bytes_ok X3.default_secret /\ 136 <= zlen X3.default_secret.
Proof.
  cbv zeta. split; [constructor; cbn; auto; try lia; discriminate|]. repeat split; try (vm_compute; repeat constructor; discriminate).
Qed.
