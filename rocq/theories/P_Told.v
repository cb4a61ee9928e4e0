(** From 17 to 240 bytes the 128-bit hash of XXH3 tells the length minus the seed modulo 4 (proofs for C109). *)
From Verif Require Import Base Mem Spec32 Spec64 Spec3 P_Base P_Spec P_X3_Base P_Inj P_Inj64 P_Inj3 P_Inj128 P_Mid.

(** the inverse of the final mixing of 64 bits *)
Definition unmix (x : Z) : Z := xorshift ((xorshift x 32 * 0x8da8ee41d6df849) mod 2 ^ 64) 37.
Lemma xorshift_twice k x : 32 <= k -> wd 64 x -> xorshift (xorshift x k) k = x.
Proof.
  intros K W. unfold xorshift, shift_right. rewrite <- !Z.shiftr_div_pow2 by lia. rewrite Z.shiftr_lxor, Z.shiftr_shiftr by lia.
  replace (Z.shiftr x (k + k)) with 0; [rewrite Z.lxor_0_r, Z.lxor_assoc, Z.lxor_nilpotent; apply Z.lxor_0_r|].
  symmetry. rewrite Z.shiftr_div_pow2 by lia. apply Z.div_small. destruct W as [H0 H1]. split; [exact H0|]. apply (Z.lt_le_trans _ _ _ H1). apply Z.pow_le_mono_r; lia.
Qed.
Lemma unmix_avalanche x : wd 64 x -> unmix (X3.avalanche x) = x.
Proof.
  intros W. unfold unmix, X3.avalanche. cbv zeta. change X3.W with (2 ^ 64). rewrite (xorshift_twice 32) by (try lia; apply mod_wd; lia).
  rewrite Zmult_mod_idemp_l. rewrite <- Z.mul_assoc. set (y := xorshift x 37). assert (Y : wd 64 y) by (apply xorshift_wd; trivial; lia).
  replace ((y * (X3.MX1 * 0x8da8ee41d6df849)) mod 2 ^ 64) with y; [apply xorshift_twice; trivial; lia|].
  rewrite <- Zmult_mod_idemp_r. change ((X3.MX1 * 0x8da8ee41d6df849) mod 2 ^ 64) with 1. rewrite Z.mul_1_r. symmetry. apply Z.mod_small, Y.
Qed.
Lemma mixed_wd x : wd 64 (X3.avalanche x).
Proof. unfold X3.avalanche. cbv zeta. apply (xorshift_wd 64); try lia. apply (mod_wd 64). lia. Qed.
(** what the two halves tell *)
Definition told (d : Z * Z) : Z := (- (unmix (fst d) + unmix ((- snd d) mod 2 ^ 64))) mod 4.
Lemma neg_neg x : wd 64 x -> (- ((0 - x) mod 2 ^ 64)) mod 2 ^ 64 = x.
Proof. intros W. rewrite <- (Z.sub_0_l ((0 - x) mod 2 ^ 64)), Zminus_mod_idemp_r. replace (0 - (0 - x)) with x by lia. apply Z.mod_small, W. Qed.
Lemma told_mid128 l h L seed : told (X3.mid128 (l, h) L seed) = (L - seed) mod 4.
Proof.
  unfold told, X3.mid128. cbn [fst snd]. change X3.W with (2 ^ 64). rewrite neg_neg by (apply mixed_wd). rewrite !unmix_avalanche by (apply mod_wd; lia).
  assert (M : forall v, exists q, v mod 2 ^ 64 = v + q * 4).
  { intros v. exists (- (v / 2 ^ 64) * 2 ^ 62). rewrite Z.mod_eq by discriminate. set (u := v / 2 ^ 64). clearbody u. lia. }
  destruct (M (l + h)) as [p ->]. destruct (M (l * X3.P1 + h * X3.P4 + (L - seed) * X3.P2)) as [q ->].
  change X3.P1 with 0x9E3779B185EBCA87. change X3.P4 with 0x85EBCA77C2B2AE63. change X3.P2 with 0xC2B2AE3D27D4EB4F.
  assert (E : forall a b k, a = b + k * 4 -> a mod 4 = b mod 4) by (intros a b k ->; apply Z_mod_plus_full).
  apply (E _ _ (- p - q - (0x9E3779B185EBCA88 / 4) * l - (0x85EBCA77C2B2AE64 / 4) * h - (0xC2B2AE3D27D4EB50 / 4) * (L - seed))). change (0x9E3779B185EBCA88 / 4) with 2850178696268673698.
  change (0x85EBCA77C2B2AE64 / 4) with 2412507310571957145. change (0xC2B2AE3D27D4EB50 / 4) with 3507366841724254932. lia.
Qed.
Lemma told_short128 s m seed : 17 <= zlen m <= 240 -> told (X3.short128 s seed m) = (zlen m - seed) mod 4.
Proof.
  intros L. unfold X3.short128. change (len m) with (zlen m). cbv zeta.
  replace (zlen m =? 0) with false by lia. replace (zlen m <=? 3) with false by lia. replace (zlen m <=? 8) with false by lia. replace (zlen m <=? 16) with false by lia.
  destruct (zlen m <=? 128).
  - destruct (X3.mid17to128_128 s seed m). apply told_mid128.
  - destruct (X3.mid129to240_128 s seed m). apply told_mid128.
Qed.
Lemma told_onto low r : 0 <= r < 4 -> exists high, wd 64 high /\ told (low, high) = r.
Proof.
  intros R. set (t := (- r - unmix low) mod 4). assert (T : 0 <= t < 4) by (apply Z.mod_pos_bound; lia). exists ((0 - X3.avalanche t) mod 2 ^ 64). split; [apply mod_wd; lia|].
  unfold told. cbn [fst snd]. rewrite neg_neg by (apply mixed_wd). rewrite unmix_avalanche by (split; lia). unfold t. clear T t. set (u := unmix low). clearbody u. Z.div_mod_to_equations. lia.
Qed.
