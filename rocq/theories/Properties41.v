(** Property theorems about inputs with a chosen XXH3 hash: C111. *)
From Verif Require Import Base Mem M_XXH32 M_XXH64 M_XXH3 M_Kernels M_Long Spec32 Spec64 Spec3 P_Base P_Spec P_X3_Base P_X3_Long P_Inj P_Inj3 P_Inj128 P_Told P_Forge3
  Vectors Vectors3 Properties1 Properties2 Properties4 Properties5 Properties38.

(** ** C111 *)
(** 64 bits: whatever the bytes from the 17th on, some first 16 bytes give any chosen hash, for any seed and under any secret. *)
Theorem C111_xxh3_64 : forall r h, bytes_ok r -> 24 <= 16 + zlen r <= 32 \/ 40 <= 16 + zlen r <= 240 -> 0 <= h < 2 ^ 64 ->
  (forall seed, 0 <= seed < 2 ^ 64 -> exists w, bytes_ok w /\ zlen w = 16 /\
     forall c p, cfg_ok c -> points_to p (w ++ r) -> XXH3_64bits_withSeed c p (16 + zlen r) seed = OK h) /\
  (forall s, bytes_ok s -> 136 <= zlen s -> exists w, bytes_ok w /\ zlen w = 16 /\
     forall c p ps, cfg_ok c -> points_to p (w ++ r) -> points_to ps s -> XXH3_64bits_withSecret c p (16 + zlen r) ps (zlen s) = OK h).
Proof.
  intros r h B R H. split.
  - intros seed S. destruct (forge64 X3.default_secret seed r h R H) as (w & Bw & Lw & E). exists w. split; [exact Bw|]. split; [exact Lw|]. intros c p C P.
    assert (LL : 16 + zlen r = zlen (w ++ r)) by (rewrite zlen_app; lia). rewrite LL, C03_xxh3_64_withSeed_equals_spec by (trivial; apply bytes_ok_app; trivial).
    unfold X3.XXH3_64_withSeed. rewrite hash64_short, E by lia. reflexivity.
  - intros s Bs Ls. destruct (forge64 s 0 r h R H) as (w & Bw & Lw & E). exists w. split; [exact Bw|]. split; [exact Lw|]. intros c p ps C P PS.
    assert (LL : 16 + zlen r = zlen (w ++ r)) by (rewrite zlen_app; lia). rewrite LL, C03_xxh3_64_withSecret_equals_spec by (trivial; try lia; apply bytes_ok_app; trivial).
    unfold X3.XXH3_64_withSecret. rewrite hash64_short, E by lia. reflexivity.
Qed.
Print Assumptions C111_xxh3_64.

(** 128 bits: one function [f] of the digest says exactly which digests are reached.  A digest of which [f] has the value that C109 tells is the hash of an
    input of which all bytes but 32 are chosen beforehand: the 16 at each end, or the first 32. *)
Theorem C111_xxh3_128 : exists f : Z * Z -> Z,
  (forall c p m seed, cfg_ok c -> points_to p m -> bytes_ok m -> 17 <= zlen m <= 240 -> 0 <= seed < 2 ^ 64 ->
     exists d, XXH3_128bits_withSeed c p (zlen m) seed = OK d /\ f d = (zlen m - seed) mod 4) /\
  (forall b seed lo hi, bytes_ok b -> zlen b = 0 \/ 8 <= zlen b <= 208 -> 0 <= seed < 2 ^ 64 -> 0 <= lo < 2 ^ 64 -> 0 <= hi < 2 ^ 64 ->
     f (lo, hi) = (32 + zlen b - seed) mod 4 ->
     exists w z, bytes_ok w /\ bytes_ok z /\ zlen w + zlen z = 32 /\
     forall c p, cfg_ok c -> points_to p (w ++ b ++ z) -> XXH3_128bits_withSeed c p (32 + zlen b) seed = OK (lo, hi)) /\
  (forall b s lo hi, bytes_ok b -> zlen b = 0 \/ 8 <= zlen b <= 208 -> bytes_ok s -> 136 <= zlen s -> 0 <= lo < 2 ^ 64 -> 0 <= hi < 2 ^ 64 ->
     f (lo, hi) = (32 + zlen b) mod 4 ->
     exists w z, bytes_ok w /\ bytes_ok z /\ zlen w + zlen z = 32 /\
     forall c p ps, cfg_ok c -> points_to p (w ++ b ++ z) -> points_to ps s -> XXH3_128bits_withSecret c p (32 + zlen b) ps (zlen s) = OK (lo, hi)).
Proof.
  assert (F : forall b s seed lo hi, bytes_ok b -> zlen b = 0 \/ 8 <= zlen b <= 208 -> 0 <= lo < 2 ^ 64 -> 0 <= hi < 2 ^ 64 -> told (lo, hi) = (32 + zlen b - seed) mod 4 ->
    exists w z, bytes_ok w /\ bytes_ok z /\ zlen w + zlen z = 32 /\ X3.short128 s seed (w ++ b ++ z) = (lo, hi)).
  { intros b s seed lo hi B R HL HH T. destruct (Z.leb_spec (zlen b) 96) as [M|M].
    - destruct (forge128 s seed b lo hi) as (w & z & Bw & Lw & Bz & Lz & E); trivial; [lia|]. exists w, z. repeat (split; [assumption|]). split; [lia|exact E].
    - destruct (forge128_long s seed b lo hi) as (w & Bw & Lw & E); trivial; [lia|]. exists w, []. rewrite app_nil_r. split; [exact Bw|]. split; [constructor|]. split; [rewrite Lw; reflexivity|exact E]. }
  exists told. split; [|split].
  - intros c p m seed C P B L S. eexists. split; [apply C04_xxh3_128_withSeed_equals_spec; trivial|]. unfold X3.XXH3_128_withSeed. rewrite hash128_short by lia. apply told_short128, L.
  - intros b seed lo hi B R S HL HH T. destruct (F b X3.default_secret seed lo hi) as (w & z & Bw & Bz & Lwz & E); trivial. exists w, z. repeat (split; [assumption|]). intros c p C P.
    assert (LL : 32 + zlen b = zlen (w ++ b ++ z)) by (rewrite !zlen_app; lia). assert (BB : bytes_ok (w ++ b ++ z)) by (repeat apply bytes_ok_app; trivial).
    rewrite LL. destruct (C04_xxh3_128_withSeed_equals_spec c p (w ++ b ++ z) seed C P BB S) as [-> _]. unfold X3.XXH3_128_withSeed. rewrite hash128_short, E by lia. reflexivity.
  - intros b s lo hi B R Bs Ls HL HH T. destruct (F b s 0 lo hi) as (w & z & Bw & Bz & Lwz & E); trivial; [rewrite Z.sub_0_r; exact T|]. exists w, z. repeat (split; [assumption|]). intros c p ps C P PS.
    assert (LL : 32 + zlen b = zlen (w ++ b ++ z)) by (rewrite !zlen_app; lia). assert (BB : bytes_ok (w ++ b ++ z)) by (repeat apply bytes_ok_app; trivial).
    rewrite LL, C04_xxh3_128_withSecret_equals_spec by (trivial; lia). unfold X3.XXH3_128_withSecret. rewrite hash128_short, E by lia. reflexivity.
Qed.
Print Assumptions C111_xxh3_128.

(** So C109 is sharp: an input of 17 to 240 bytes has the same 128-bit hash as some input of any other length and seed the difference of which is the same modulo 4. *)
Theorem C111_same_128 : forall m seed L seed', bytes_ok m -> 17 <= zlen m <= 240 -> 0 <= seed < 2 ^ 64 -> 0 <= seed' < 2 ^ 64 ->
  L = 32 \/ 40 <= L <= 240 -> (zlen m - seed) mod 4 = (L - seed') mod 4 ->
  exists m', bytes_ok m' /\ zlen m' = L /\
  forall c p c' p', cfg_ok c -> points_to p m -> cfg_ok c' -> points_to p' m' ->
  exists d, XXH3_128bits_withSeed c p (zlen m) seed = OK d /\ XXH3_128bits_withSeed c' p' L seed' = OK d.
Proof.
  intros m seed L seed' B Lm S S' HL E. destruct C111_xxh3_128 as (f & F1 & F2 & _).
  destruct (F1 c0 (Ptr m 0 0) m seed) as (d & D & T); trivial; [constructor; cbn; auto; discriminate|exists [], []; rewrite app_nil_r; split; reflexivity|].
  destruct (C04_xxh3_128_withSeed_equals_spec c0 (Ptr m 0 0) m seed) as [Q _]; trivial; [constructor; cbn; auto; discriminate|exists [], []; rewrite app_nil_r; split; reflexivity|]. rewrite Q in D. injection D as D.
  set (b := repeat 0 (Z.to_nat (L - 32))). assert (Lb : zlen b = L - 32) by (unfold b, zlen; rewrite repeat_length; lia).
  assert (Bb : bytes_ok b) by (unfold b; apply Forall_forall; intros x I; apply repeat_spec in I; subst x; split; reflexivity || discriminate).
  destruct d as [lo hi]. assert (W : wd 64 lo /\ wd 64 hi).
  { unfold X3.XXH3_128_withSeed in D. rewrite hash128_short in D by lia. unfold X3.short128 in D. change (len m) with (zlen m) in D. cbv zeta in D.
    replace (zlen m =? 0) with false in D by lia. replace (zlen m <=? 3) with false in D by lia. replace (zlen m <=? 8) with false in D by lia. replace (zlen m <=? 16) with false in D by lia.
    destruct (zlen m <=? 128).
    - destruct (X3.mid17to128_128 _ _ m). unfold X3.mid128 in D. injection D as <- <-. split; [apply mixed_wd|apply (mod_wd 64); lia].
    - destruct (X3.mid129to240_128 _ _ m). unfold X3.mid128 in D. injection D as <- <-. split; [apply mixed_wd|apply (mod_wd 64); lia]. }
  destruct W as [W1 W2]. destruct (F2 b seed' lo hi) as (w & z & Bw & Bz & Lwz & G); trivial; [lia|rewrite T, E, Lb; f_equal; lia|].
  exists (w ++ b ++ z). split; [repeat apply bytes_ok_app; trivial|]. split; [rewrite !zlen_app; lia|]. intros c p c' p' C P C' P'. exists (lo, hi). split.
  - destruct (C04_xxh3_128_withSeed_equals_spec c p m seed C P B S) as [-> _]. rewrite D. reflexivity.
  - replace L with (32 + zlen b) by lia. apply G; trivial.
Qed.
Print Assumptions C111_same_128.

(** 48 bytes, of which 16 are chosen, with the 64-bit hash 0 for seed 0, computed on the specification *)
Example C111_case : exists w : list Z, zlen w = 16 /\ X3.XXH3_64 (w ++ repeat 65 32) = 0.
Proof.
  exists (two (Z.lxor ((X3.rd8 X3.default_secret 0 + 0) mod X3.W)
    ((unmix 0 - X3.mid17to128_64 X3.default_secret 0 (two (X3.rd8 X3.default_secret 0) (Z.lxor (X3.rd8 X3.default_secret 8) 1) ++ repeat 65 32)) mod X3.W))
    (Z.lxor (X3.rd8 X3.default_secret 8) 1)).
  vm_compute. split; reflexivity.
Qed.
