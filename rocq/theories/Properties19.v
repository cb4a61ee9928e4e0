(** Properties C69 (inputs above 240 bytes), C81 and C82: what a change of one or two words does to the long hashes. *)
From Verif Require Import Base Mem M_XXH32 M_XXH64 M_XXH3 M_Kernels M_Long Spec32 Spec64 Spec3 P_Base P_Spec P_X3_Base P_X3_Long P_Inj P_Inj64 P_Inj3 P_Inj128 P_Perm P_Two
  Vectors Vectors3 Properties1 Properties2 Properties4 Properties5.

Lemma hash64_large s1 seed s2 m : 240 < zlen m -> X3.hash64 s1 seed s2 m = X3.large64 s2 m.
Proof. intros H. unfold X3.hash64. change (len m) with (zlen m). replace (zlen m <=? 240) with false by (symmetry; apply Z.leb_gt; exact H). reflexivity. Qed.
Lemma hash128_large s1 seed s2 m : 240 < zlen m -> X3.hash128 s1 seed s2 m = X3.large128 s2 m.
Proof. intros H. unfold X3.hash128. change (len m) with (zlen m). replace (zlen m <=? 240) with false by (symmetry; apply Z.leb_gt; exact H). reflexivity. Qed.

(** C69, inputs above 240 bytes: for every secret and every tail there are 4 bytes [x] and 8 bytes [v] such that the 4
    bytes between them are not read at all into the 64-bit digest: any change of one bit of them is lost. *)
Theorem C69_xxh3_64_one_bit_long_refuted : forall s z, bytes_ok s -> 136 <= zlen s -> bytes_ok z -> 225 <= zlen z ->
  exists x v, zlen x = 4 /\ bytes_ok x /\ zlen v = 8 /\ bytes_ok v /\
  forall c c' p p' y y', cfg_ok c -> cfg_ok c' -> zlen y = 4 -> zlen y' = 4 -> bytes_ok y -> bytes_ok y' ->
    points_to p (x ++ y ++ v ++ z) -> points_to p' (x ++ y' ++ v ++ z) ->
    (forall ps ps', points_to ps s -> points_to ps' s -> 8 * (zlen s - 64) < 2 ^ szbits c -> 8 * (zlen s - 64) < 2 ^ szbits c' ->
       exists h, XXH3_64bits_withSecret c p (16 + zlen z) ps (zlen s) = OK h /\ XXH3_64bits_withSecret c' p' (16 + zlen z) ps' (zlen s) = OK h) /\
    (forall seed, 0 <= seed < 2 ^ 64 -> s = X3.deriveSecret seed ->
       exists h, XXH3_64bits_withSeed c p (16 + zlen z) seed = OK h /\ XXH3_64bits_withSeed c' p' (16 + zlen z) seed = OK h).
Proof.
  intros s z Bs Ls Bz Lz. destruct (any_four_bytes s z (((16 + zlen z) * X3.P1) mod X3.W) Bs Ls Lz) as (v & Bv & Lv & E).
  exists (zslice s 0 4), v. assert (L4 : zlen (zslice s 0 4) = 4) by (apply zlen_zslice; lia).
  split; [exact L4|]. split; [apply bytes_ok_zslice, Bs|]. split; [exact Lv|]. split; [exact Bv|].
  intros c c' p p' y y' C C' Ly Ly' By By' P P'. specialize (E y y' Ly Ly').
  assert (LL : forall q, zlen q = 4 -> zlen (zslice s 0 4 ++ q ++ v ++ z) = 16 + zlen z) by (intros; rewrite !zlen_app; lia).
  assert (BB : forall q, bytes_ok q -> bytes_ok (zslice s 0 4 ++ q ++ v ++ z)) by (intros; repeat (apply bytes_ok_app; trivial); apply bytes_ok_zslice, Bs).
  rewrite <- !app_assoc in E.
  assert (F : X3.large64 s (zslice s 0 4 ++ y ++ v ++ z) = X3.large64 s (zslice s 0 4 ++ y' ++ v ++ z)).
  { unfold X3.large64. change len with (@zlen Z). rewrite !LL by trivial. exact E. }
  split.
  - intros ps ps' S S' H H'. eexists. rewrite <- (LL y Ly) at 1. rewrite <- (LL y' Ly').
    rewrite !(C03_xxh3_64_withSecret_equals_spec _ _ _ _ s) by (trivial; apply BB; trivial).
    unfold X3.XXH3_64_withSecret. rewrite !hash64_large by (rewrite LL; trivial; lia). rewrite F. split; reflexivity.
  - intros seed W ->. eexists. rewrite <- (LL y Ly) at 1. rewrite <- (LL y' Ly').
    rewrite !C03_xxh3_64_withSeed_equals_spec by (trivial; apply BB; trivial).
    unfold X3.XXH3_64_withSeed. rewrite !hash64_large by (rewrite LL; trivial; lia). rewrite F. split; reflexivity.
Qed.
Print Assumptions C69_xxh3_64_one_bit_long_refuted.

(** C81: two flipped bits.  The four words do not depend on the tail, the length, the build or the address. *)
Lemma LE_bytes8 x : wd 64 x -> LE (X3.bytes8 x) = x.
Proof. intros H. rewrite LE_le_val. apply bytes8_val, H. Qed.
Lemma two_bits_bytes s : bytes_ok s -> 136 <= zlen s -> (LE (zslice s 0 8) + LE (zslice s 8 8)) mod 2 ^ 32 <> 2 ^ 32 - 1 ->
  exists u v u' v' j, zlen u = 8 /\ zlen v = 8 /\ zlen u' = 8 /\ zlen v' = 8 /\ bytes_ok u /\ bytes_ok v /\ bytes_ok u' /\ bytes_ok v' /\
    0 <= j < 32 /\ LE u' = Z.lxor (LE u) (2 ^ j) /\ LE v' = Z.lxor (LE v) (2 ^ j) /\
    forall z, 225 <= zlen z -> X3.large_acc s (u ++ v ++ z) = X3.large_acc s (u' ++ v' ++ z).
Proof.
  intros B L N. destruct (common_bit (X3.rd8 s 0) (X3.rd8 s 8)) as (j & Hj & E).
  { rewrite !rd8_zslice, <- !LE_le_val. exact N. }
  destruct (two_bits_large s (pre 225) j B L ltac:(reflexivity || (vm_compute; discriminate)) Hj E) as (Wu & Wv & Wu' & Wv' & _).
  exists (X3.bytes8 (word_u (X3.rd8 s 0) j)), (X3.bytes8 (word_v (X3.rd8 s 8) j)).
  exists (X3.bytes8 (Z.lxor (word_u (X3.rd8 s 0) j) (2 ^ j))), (X3.bytes8 (Z.lxor (word_v (X3.rd8 s 8) j) (2 ^ j))), j.
  do 4 (split; [reflexivity|]). do 4 (split; [apply bytes8_ok|]). split; [exact Hj|]. rewrite !LE_bytes8 by assumption. do 2 (split; [reflexivity|]).
  intros z Lz. destruct (two_bits_large s z j B L Lz Hj E) as (_ & _ & _ & _ & Q). rewrite <- !app_assoc in Q. exact Q.
Qed.
Lemma derived_keys seed : (LE (zslice (X3.deriveSecret seed) 0 8) + LE (zslice (X3.deriveSecret seed) 8 8)) mod 2 ^ 32 <> 2 ^ 32 - 1.
Proof.
  change (zslice (X3.deriveSecret seed) 0 8) with (X3.bytes8 ((0xbe4ba423396cfeb8 + seed) mod X3.W)).
  change (zslice (X3.deriveSecret seed) 8 8) with (X3.bytes8 ((0x1cad21f72c81017c - seed) mod X3.W)).
  rewrite !LE_bytes8 by (apply mod_wd; lia). change X3.W with (2 ^ 64). Z.div_mod_to_equations. lia.
Qed.
Theorem C81_two_bits_secret_refuted : forall s, bytes_ok s -> 136 <= zlen s -> (LE (zslice s 0 8) + LE (zslice s 8 8)) mod 2 ^ 32 <> 2 ^ 32 - 1 ->
  exists u v u' v' j, zlen u = 8 /\ zlen v = 8 /\ zlen u' = 8 /\ zlen v' = 8 /\ bytes_ok u /\ bytes_ok v /\ bytes_ok u' /\ bytes_ok v' /\
  0 <= j < 32 /\ LE u' = Z.lxor (LE u) (2 ^ j) /\ LE v' = Z.lxor (LE v) (2 ^ j) /\
  forall c c' p p' ps ps' z seed, cfg_ok c -> cfg_ok c' -> bytes_ok z -> 225 <= zlen z -> 0 <= seed < 2 ^ 64 ->
    points_to p (u ++ v ++ z) -> points_to p' (u' ++ v' ++ z) -> points_to ps s -> points_to ps' s ->
    8 * (zlen s - 64) < 2 ^ szbits c -> 8 * (zlen s - 64) < 2 ^ szbits c' ->
    exists h H,
      XXH3_64bits_withSecret c p (16 + zlen z) ps (zlen s) = OK h /\ XXH3_64bits_withSecret c' p' (16 + zlen z) ps' (zlen s) = OK h /\
      XXH3_64bits_withSecretandSeed c p (16 + zlen z) ps (zlen s) seed = OK h /\ XXH3_64bits_withSecretandSeed c' p' (16 + zlen z) ps' (zlen s) seed = OK h /\
      XXH3_128bits_withSecret c p (16 + zlen z) ps (zlen s) = OK H /\ XXH3_128bits_withSecret c' p' (16 + zlen z) ps' (zlen s) = OK H /\
      XXH3_128bits_withSecretandSeed c p (16 + zlen z) ps (zlen s) seed = OK H /\ XXH3_128bits_withSecretandSeed c' p' (16 + zlen z) ps' (zlen s) seed = OK H.
Proof.
  intros s Bs Ls N. destruct (two_bits_bytes s Bs Ls N) as (u & v & u' & v' & j & Lu & Lv & Lu' & Lv' & Bu & Bv & Bu' & Bv' & Hj & Eu & Ev & E).
  exists u, v, u', v', j. repeat (split; [assumption|]). intros c c' p p' ps ps' z seed C C' Bz Lz W P P' S S' H H'.
  assert (L1 : zlen (u ++ v ++ z) = 16 + zlen z) by (rewrite !zlen_app; lia). assert (L2 : zlen (u' ++ v' ++ z) = 16 + zlen z) by (rewrite !zlen_app; lia).
  assert (B1 : bytes_ok (u ++ v ++ z)) by (repeat (apply bytes_ok_app; trivial)). assert (B2 : bytes_ok (u' ++ v' ++ z)) by (repeat (apply bytes_ok_app; trivial)).
  exists (X3.large64 s (u ++ v ++ z)), (X3.large128 s (u ++ v ++ z)).
  assert (F : X3.large64 s (u' ++ v' ++ z) = X3.large64 s (u ++ v ++ z)) by (unfold X3.large64; change len with (@zlen Z); rewrite L1, L2, E by exact Lz; reflexivity).
  assert (G : X3.large128 s (u' ++ v' ++ z) = X3.large128 s (u ++ v ++ z)) by (unfold X3.large128; change len with (@zlen Z); rewrite L1, L2, E by exact Lz; reflexivity).
  pose proof (C03_xxh3_64_withSecret_equals_spec c p _ ps s C P B1 S Bs Ls (fun _ => H)) as Q1. pose proof (C03_xxh3_64_withSecret_equals_spec c' p' _ ps' s C' P' B2 S' Bs Ls (fun _ => H')) as Q2.
  pose proof (C03_xxh3_64_withSecretandSeed_equals_spec c p _ ps s seed C P B1 S Bs Ls (fun _ => H) W) as Q3. pose proof (C03_xxh3_64_withSecretandSeed_equals_spec c' p' _ ps' s seed C' P' B2 S' Bs Ls (fun _ => H') W) as Q4.
  pose proof (C04_xxh3_128_withSecret_equals_spec c p _ ps s C P B1 S Bs Ls (fun _ => H)) as Q5. pose proof (C04_xxh3_128_withSecret_equals_spec c' p' _ ps' s C' P' B2 S' Bs Ls (fun _ => H')) as Q6.
  pose proof (C04_xxh3_128_withSecretandSeed_equals_spec c p _ ps s seed C P B1 S Bs Ls (fun _ => H) W) as Q7. pose proof (C04_xxh3_128_withSecretandSeed_equals_spec c' p' _ ps' s seed C' P' B2 S' Bs Ls (fun _ => H') W) as Q8.
  rewrite L1 in Q1, Q3, Q5, Q7. rewrite L2 in Q2, Q4, Q6, Q8.
  rewrite Q1, Q2, Q3, Q4, Q5, Q6, Q7, Q8. unfold X3.XXH3_64_withSecret, X3.XXH3_64_withSecretandSeed, X3.XXH3_128_withSecret, X3.XXH3_128_withSecretandSeed.
  rewrite !hash64_large, !hash128_large by lia. rewrite F, G. repeat split.
Qed.
Print Assumptions C81_two_bits_secret_refuted.
Theorem C81_two_bits_seed_refuted : forall seed, 0 <= seed < 2 ^ 64 ->
  exists u v u' v' j, zlen u = 8 /\ zlen v = 8 /\ zlen u' = 8 /\ zlen v' = 8 /\ bytes_ok u /\ bytes_ok v /\ bytes_ok u' /\ bytes_ok v' /\
  0 <= j < 32 /\ LE u' = Z.lxor (LE u) (2 ^ j) /\ LE v' = Z.lxor (LE v) (2 ^ j) /\
  forall c c' p p' z, cfg_ok c -> cfg_ok c' -> bytes_ok z -> 225 <= zlen z ->
    points_to p (u ++ v ++ z) -> points_to p' (u' ++ v' ++ z) ->
    exists h H,
      XXH3_64bits_withSeed c p (16 + zlen z) seed = OK h /\ XXH3_64bits_withSeed c' p' (16 + zlen z) seed = OK h /\
      XXH3_128bits_withSeed c p (16 + zlen z) seed = OK H /\ XXH3_128bits_withSeed c' p' (16 + zlen z) seed = OK H /\
      XXH128 c p (16 + zlen z) seed = OK H /\ XXH128 c' p' (16 + zlen z) seed = OK H.
Proof.
  intros seed W. set (s := X3.deriveSecret seed).
  destruct (two_bits_bytes s (derive_bytes seed) ltac:(unfold s; rewrite derive_len; lia) (derived_keys seed)) as (u & v & u' & v' & j & Lu & Lv & Lu' & Lv' & Bu & Bv & Bu' & Bv' & Hj & Eu & Ev & E).
  exists u, v, u', v', j. repeat (split; [assumption|]). intros c c' p p' z C C' Bz Lz P P'.
  assert (L1 : zlen (u ++ v ++ z) = 16 + zlen z) by (rewrite !zlen_app; lia). assert (L2 : zlen (u' ++ v' ++ z) = 16 + zlen z) by (rewrite !zlen_app; lia).
  assert (B1 : bytes_ok (u ++ v ++ z)) by (repeat (apply bytes_ok_app; trivial)). assert (B2 : bytes_ok (u' ++ v' ++ z)) by (repeat (apply bytes_ok_app; trivial)).
  exists (X3.large64 s (u ++ v ++ z)), (X3.large128 s (u ++ v ++ z)).
  assert (F : X3.large64 s (u' ++ v' ++ z) = X3.large64 s (u ++ v ++ z)) by (unfold X3.large64; change len with (@zlen Z); rewrite L1, L2, E by exact Lz; reflexivity).
  assert (G : X3.large128 s (u' ++ v' ++ z) = X3.large128 s (u ++ v ++ z)) by (unfold X3.large128; change len with (@zlen Z); rewrite L1, L2, E by exact Lz; reflexivity).
  pose proof (C03_xxh3_64_withSeed_equals_spec c p _ seed C P B1 W) as Q1. pose proof (C03_xxh3_64_withSeed_equals_spec c' p' _ seed C' P' B2 W) as Q2.
  destruct (C04_xxh3_128_withSeed_equals_spec c p _ seed C P B1 W) as [Q3 Q5]. destruct (C04_xxh3_128_withSeed_equals_spec c' p' _ seed C' P' B2 W) as [Q4 Q6].
  rewrite L1 in Q1, Q3, Q5. rewrite L2 in Q2, Q4, Q6. rewrite Q1, Q2, Q3, Q4, Q5, Q6.
  unfold X3.XXH3_64_withSeed, X3.XXH3_128_withSeed. rewrite !hash64_large, !hash128_large by lia. fold s. rewrite F, G. repeat split.
Qed.
Print Assumptions C81_two_bits_seed_refuted.

(** C82.  The 64-byte stripes a hash of [L] bytes reads, and a word that is lane [i] of exactly one of them. *)
Definition stripe_start (L q : Z) : Prop := (exists t, 0 <= t < (L - 1) / 64 /\ q = 64 * t) \/ q = L - 64.
Definition in_one_stripe (L o i : Z) : Prop := 0 <= i < 8 /\
  exists q, stripe_start L q /\ o = q + 8 * i /\ forall q', stripe_start L q' -> q' <> q -> q' + 64 <= o \/ o + 8 <= q'.
Lemma in_one_stripe_word L o i : 240 < L -> in_one_stripe L o i -> word_of L o i.
Proof.
  intros HL (Hi & q & S & -> & U). split; [exact Hi|]. destruct S as [(t & Ht & ->)| ->].
  - left. split; [Z.div_mod_to_equations; lia|]. split; [lia|].
    destruct (U (L - 64)) as [H|H]; [right; reflexivity|Z.div_mod_to_equations; lia|lia|lia].
  - right. split; [reflexivity|]. destruct (U (64 * ((L - 1) / 64 - 1))) as [H|H].
    + left. exists ((L - 1) / 64 - 1). split; [|reflexivity]. Z.div_mod_to_equations; lia.
    + Z.div_mod_to_equations; lia.
    + lia.
    + Z.div_mod_to_equations; lia.
Qed.
Lemma mate_lxor i : 0 <= i < 8 -> mate i = Z.lxor i 1.
Proof. intros H. assert (i = 0 \/ i = 1 \/ i = 2 \/ i = 3 \/ i = 4 \/ i = 5 \/ i = 6 \/ i = 7) as K by lia. repeat destruct K as [->|K]; try reflexivity. rewrite K. reflexivity. Qed.

(** the product that takes the pair of accumulators [2 j] and [2 j + 1] into the digest *)
Definition pair_product (s A : list Z) (off j : Z) : Z :=
  X3.fold128 (Z.lxor (X3.nth0 A (2 * j)) (LE (zslice s (off + 16 * j) 8)) * Z.lxor (X3.nth0 A (2 * j + 1)) (LE (zslice s (off + 16 * j + 8) 8))).
Lemma pair_product_term s A off j : pair_product s A off j = pair_term s A off j.
Proof. unfold pair_product, pair_term. rewrite !LE_le_val, !rd8_zslice. reflexivity. Qed.

Section Word.
Context (c c' : cfg) (p p' ps ps' : ptr) (s a w w' b : list Z) (i : Z).
Let L := zlen a + 8 + zlen b.
Hypothesis (C : cfg_ok c) (C' : cfg_ok c') (Bs : bytes_ok s) (Ls : 136 <= zlen s).
Hypothesis (H : 8 * (zlen s - 64) < 2 ^ szbits c) (H' : 8 * (zlen s - 64) < 2 ^ szbits c').
Hypothesis (S : points_to ps s) (S' : points_to ps' s) (P : points_to p (a ++ w ++ b)) (P' : points_to p' (a ++ w' ++ b)).
Hypothesis (B : bytes_ok (a ++ w ++ b)) (B' : bytes_ok (a ++ w' ++ b)) (Lw : zlen w = 8) (Lw' : zlen w' = 8) (NE : w <> w').
Hypothesis (Long : 240 < L) (I : in_one_stripe L (zlen a) i).

Lemma L_eq : zlen (a ++ w ++ b) = L. Proof. unfold L. rewrite !zlen_app. lia. Qed.
Lemma L_eq' : zlen (a ++ w' ++ b) = L. Proof. unfold L. rewrite !zlen_app. lia. Qed.
Lemma loops : hashLong_internal_loop c (local_acc c) INIT_ACC p L ps (zlen s) (accumulate c) (scrambleAcc c) = OK (X3.large_acc s (a ++ w ++ b)) /\
  hashLong_internal_loop c' (local_acc c') INIT_ACC p' L ps' (zlen s) (accumulate c') (scrambleAcc c') = OK (X3.large_acc s (a ++ w' ++ b)).
Proof.
  pose proof L_eq as E. pose proof L_eq' as E'. rewrite <- E at 1. rewrite <- E'.
  split; (apply loop_ok; trivial; [repeat split; trivial|lia|apply local_acc_aligned|apply accs; trivial|apply accs; trivial]).
Qed.
Lemma words_ok : bytes_ok w /\ bytes_ok w'.
Proof. unfold bytes_ok in *. rewrite !Forall_app in B, B'. tauto. Qed.
Lemma merges init off : 0 <= off -> off + 64 <= zlen s ->
  X3.finalMerge s (X3.large_acc s (a ++ w ++ b)) init off = X3.finalMerge s (X3.large_acc s (a ++ w' ++ b)) init off <->
  pair_product s (X3.large_acc s (a ++ w ++ b)) off (i / 2) = pair_product s (X3.large_acc s (a ++ w' ++ b)) off (i / 2).
Proof.
  intros O1 O2. destruct words_ok as [W W']. rewrite !pair_product_term.
  apply (word_merge s a w w' b i init off); trivial; try (rewrite L_eq; trivial). apply in_one_stripe_word; trivial.
Qed.

Lemma word_accumulators : exists A A',
  hashLong_internal_loop c (local_acc c) INIT_ACC p L ps (zlen s) (accumulate c) (scrambleAcc c) = OK A /\
  hashLong_internal_loop c' (local_acc c') INIT_ACC p' L ps' (zlen s) (accumulate c') (scrambleAcc c') = OK A' /\
  X3.nth0 A (Z.lxor i 1) <> X3.nth0 A' (Z.lxor i 1) /\ (forall k, 0 <= k < 8 -> k <> i -> k <> Z.lxor i 1 -> X3.nth0 A k = X3.nth0 A' k).
Proof.
  destruct loops as [E E']. do 2 eexists. split; [exact E|]. split; [exact E'|]. destruct words_ok as [W W'].
  destruct (large_split s Bs Ls a w w' b Lw Lw' ltac:(rewrite L_eq; exact Long) i W W' NE) as (X & _).
  { rewrite L_eq. apply in_one_stripe_word; trivial. }
  unfold split_at in X. rewrite mate_lxor in X by (destruct I; trivial). exact X.
Qed.
Lemma word_64 : X3.large64 s (a ++ w ++ b) = X3.large64 s (a ++ w' ++ b) <->
  pair_product s (X3.large_acc s (a ++ w ++ b)) 11 (i / 2) = pair_product s (X3.large_acc s (a ++ w' ++ b)) 11 (i / 2).
Proof. unfold X3.large64. change len with (@zlen Z). rewrite L_eq, L_eq'. apply merges; lia. Qed.
Lemma word_128 : X3.large128 s (a ++ w ++ b) = X3.large128 s (a ++ w' ++ b) <->
  (pair_product s (X3.large_acc s (a ++ w ++ b)) 11 (i / 2) = pair_product s (X3.large_acc s (a ++ w' ++ b)) 11 (i / 2) /\
   pair_product s (X3.large_acc s (a ++ w ++ b)) (zlen s - 75) (i / 2) = pair_product s (X3.large_acc s (a ++ w' ++ b)) (zlen s - 75) (i / 2)).
Proof.
  unfold X3.large128. change len with (@zlen Z). rewrite L_eq, L_eq'.
  rewrite <- (merges ((L * X3.P1) mod X3.W) 11) by lia. rewrite <- (merges (X3.W - 1 - (L * X3.P2) mod X3.W) (zlen s - 75)) by lia.
  split; [intros Q; apply pair_equal_spec in Q; exact Q|intros [-> ->]; reflexivity].
Qed.
End Word.

(** The change always reaches the accumulators: the lane next to the word's lane differs, the lanes of the other pairs do not. *)
Theorem C82_word_reaches_accumulators : forall c c' p p' ps ps' s a w w' b i, let L := zlen a + 8 + zlen b in
  cfg_ok c -> cfg_ok c' -> bytes_ok s -> 136 <= zlen s -> 8 * (zlen s - 64) < 2 ^ szbits c -> 8 * (zlen s - 64) < 2 ^ szbits c' ->
  points_to ps s -> points_to ps' s -> points_to p (a ++ w ++ b) -> points_to p' (a ++ w' ++ b) ->
  bytes_ok (a ++ w ++ b) -> bytes_ok (a ++ w' ++ b) -> zlen w = 8 -> zlen w' = 8 -> w <> w' -> 240 < L -> in_one_stripe L (zlen a) i ->
  exists A A',
    hashLong_internal_loop c (local_acc c) INIT_ACC p L ps (zlen s) (accumulate c) (scrambleAcc c) = OK A /\
    hashLong_internal_loop c' (local_acc c') INIT_ACC p' L ps' (zlen s) (accumulate c') (scrambleAcc c') = OK A' /\
    X3.nth0 A (Z.lxor i 1) <> X3.nth0 A' (Z.lxor i 1) /\ (forall k, 0 <= k < 8 -> k <> i -> k <> Z.lxor i 1 -> X3.nth0 A k = X3.nth0 A' k).
Proof. intros c c' p p' ps ps' s a w w' b i. intros. apply (word_accumulators c c' p p' ps ps' s a w w' b i); trivial. Qed.
Print Assumptions C82_word_reaches_accumulators.
(** So the digests coincide exactly when the one product of that pair does: once for 64 bits, with both keys for 128. *)
Theorem C82_word_lost_only_in_its_product : forall c c' p p' ps ps' s a w w' b i, let L := zlen a + 8 + zlen b in
  cfg_ok c -> cfg_ok c' -> bytes_ok s -> 136 <= zlen s -> 8 * (zlen s - 64) < 2 ^ szbits c -> 8 * (zlen s - 64) < 2 ^ szbits c' ->
  points_to ps s -> points_to ps' s -> points_to p (a ++ w ++ b) -> points_to p' (a ++ w' ++ b) ->
  bytes_ok (a ++ w ++ b) -> bytes_ok (a ++ w' ++ b) -> zlen w = 8 -> zlen w' = 8 -> w <> w' -> 240 < L -> in_one_stripe L (zlen a) i ->
  exists A A' h h' H H',
    hashLong_internal_loop c (local_acc c) INIT_ACC p L ps (zlen s) (accumulate c) (scrambleAcc c) = OK A /\
    hashLong_internal_loop c' (local_acc c') INIT_ACC p' L ps' (zlen s) (accumulate c') (scrambleAcc c') = OK A' /\
    (XXH3_64bits_withSecret c p L ps (zlen s) = OK h /\ XXH3_64bits_withSecret c' p' L ps' (zlen s) = OK h') /\
    (XXH3_128bits_withSecret c p L ps (zlen s) = OK H /\ XXH3_128bits_withSecret c' p' L ps' (zlen s) = OK H') /\
    (forall seed, 0 <= seed < 2 ^ 64 ->
       XXH3_64bits_withSecretandSeed c p L ps (zlen s) seed = OK h /\ XXH3_64bits_withSecretandSeed c' p' L ps' (zlen s) seed = OK h' /\
       XXH3_128bits_withSecretandSeed c p L ps (zlen s) seed = OK H /\ XXH3_128bits_withSecretandSeed c' p' L ps' (zlen s) seed = OK H') /\
    (forall seed, 0 <= seed < 2 ^ 64 -> s = X3.deriveSecret seed ->
       XXH3_64bits_withSeed c p L seed = OK h /\ XXH3_64bits_withSeed c' p' L seed = OK h' /\
       XXH3_128bits_withSeed c p L seed = OK H /\ XXH3_128bits_withSeed c' p' L seed = OK H') /\
    (h = h' <-> pair_product s A 11 (i / 2) = pair_product s A' 11 (i / 2)) /\
    (H = H' <-> pair_product s A 11 (i / 2) = pair_product s A' 11 (i / 2) /\ pair_product s A (zlen s - 75) (i / 2) = pair_product s A' (zlen s - 75) (i / 2)).
Proof.
  intros c c' p p' ps ps' s a w w' b i L C C' Bs Ls H H' S S' P P' B B' Lw Lw' NE Long I.
  destruct (loops c c' p p' ps ps' s a w w' b C C' Bs Ls H H' S S' P P' B B' Lw Lw' Long) as [E E'].
  do 6 eexists. split; [exact E|]. split; [exact E'|].
  assert (L1 : zlen (a ++ w ++ b) = L) by (apply L_eq; trivial). assert (L2 : zlen (a ++ w' ++ b) = L) by (apply L_eq; trivial).
  assert (D : X3.XXH3_64_withSecret s (a ++ w ++ b) = X3.large64 s (a ++ w ++ b) /\ X3.XXH3_64_withSecret s (a ++ w' ++ b) = X3.large64 s (a ++ w' ++ b))
    by (split; apply hash64_large; lia).
  assert (D' : X3.XXH3_128_withSecret s (a ++ w ++ b) = X3.large128 s (a ++ w ++ b) /\ X3.XXH3_128_withSecret s (a ++ w' ++ b) = X3.large128 s (a ++ w' ++ b))
    by (split; apply hash128_large; lia).
  split; [|split; [|split; [|split; [|split]]]].
  - rewrite <- L1 at 1. rewrite <- L2. rewrite !(C03_xxh3_64_withSecret_equals_spec _ _ _ _ s) by trivial. destruct D as [-> ->]. split; reflexivity.
  - rewrite <- L1 at 1. rewrite <- L2. rewrite !(C04_xxh3_128_withSecret_equals_spec _ _ _ _ s) by trivial. destruct D' as [-> ->]. split; reflexivity.
  - intros seed W.
    pose proof (C03_xxh3_64_withSecretandSeed_equals_spec c p _ ps s seed C P B S Bs Ls (fun _ => H) W) as Q3. pose proof (C03_xxh3_64_withSecretandSeed_equals_spec c' p' _ ps' s seed C' P' B' S' Bs Ls (fun _ => H') W) as Q4.
    pose proof (C04_xxh3_128_withSecretandSeed_equals_spec c p _ ps s seed C P B S Bs Ls (fun _ => H) W) as Q7. pose proof (C04_xxh3_128_withSecretandSeed_equals_spec c' p' _ ps' s seed C' P' B' S' Bs Ls (fun _ => H') W) as Q8.
    rewrite L1 in Q3, Q7. rewrite L2 in Q4, Q8. rewrite Q3, Q4, Q7, Q8. unfold X3.XXH3_64_withSecretandSeed, X3.XXH3_128_withSecretandSeed.
    rewrite !hash64_large, !hash128_large by lia. repeat split.
  - intros seed W K.
    pose proof (C03_xxh3_64_withSeed_equals_spec c p _ seed C P B W) as Q1. pose proof (C03_xxh3_64_withSeed_equals_spec c' p' _ seed C' P' B' W) as Q2.
    destruct (C04_xxh3_128_withSeed_equals_spec c p _ seed C P B W) as [Q3 _]. destruct (C04_xxh3_128_withSeed_equals_spec c' p' _ seed C' P' B' W) as [Q4 _].
    rewrite L1 in Q1, Q3. rewrite L2 in Q2, Q4. rewrite Q1, Q2, Q3, Q4. unfold X3.XXH3_64_withSeed, X3.XXH3_128_withSeed.
    rewrite !hash64_large, !hash128_large by lia. rewrite <- K. repeat split.
  - apply word_64; trivial.
  - apply word_128; trivial.
Qed.
Print Assumptions C82_word_lost_only_in_its_product.

(** the hypotheses are met by real values: every word of the first 192 bytes of a 256-byte input is in one stripe, at 270
    bytes the words that overlap the last stripe are in two, and the words after them in one *)
Example hyps19_inhabited :
  let a := pre 24 in let w := [1; 2; 3; 4; 5; 6; 7; 8] in let w' := [1; 2; 3; 4; 5; 6; 7; 40] in let b := pre 238 in
  cfg_ok c1 /\ points_to (Ptr (a ++ w ++ b) 3 0) (a ++ w ++ b) /\ bytes_ok (a ++ w ++ b) /\ bytes_ok (a ++ w' ++ b) /\ w <> w' /\
  zlen (a ++ w ++ b) = 270 /\ in_one_stripe 270 24 3 /\ in_one_stripe 270 262 7 /\ ~ in_one_stripe 270 248 7 /\ in_one_stripe 256 248 7 /\
  bytes_ok X3.default_secret /\ 136 <= zlen X3.default_secret /\ 8 * (zlen X3.default_secret - 64) < 2 ^ szbits c1 /\
  (LE (zslice X3.default_secret 0 8) + LE (zslice X3.default_secret 8 8)) mod 2 ^ 32 <> 2 ^ 32 - 1 /\ 225 <= zlen b /\ X3.deriveSecret 0 = X3.default_secret.
Proof.
  cbv zeta. split; [constructor; cbn; auto; try lia; discriminate|]. split; [apply points_buf|].
  do 2 (split; [vm_compute; repeat constructor; discriminate|]). split; [discriminate|]. split; [reflexivity|].
  assert (K : (270 - 1) / 64 = 4) by reflexivity. assert (K' : (256 - 1) / 64 = 3) by reflexivity.
  split; [|split; [|split; [|split]]].
  - split; [lia|]. exists 0. split; [left; exists 0; lia|]. split; [lia|]. intros q [(t & T & ->)| ->] N; lia.
  - split; [lia|]. exists 206. split; [right; lia|]. split; [lia|]. intros q [(t & T & ->)| ->] N; lia.
  - intros [_ (q & [(t & T & ->)| ->] & E & U)]; [|lia]. specialize (U 206 ltac:(right; lia)). lia.
  - split; [lia|]. exists 192. split; [right; lia|]. split; [lia|]. intros q [(t & T & ->)| ->] N; lia.
  - split; [exact default_bytes|]. repeat (split; [vm_compute; discriminate || reflexivity|]). reflexivity.
Qed.
