(** Collision freedom on structured pairs of inputs (C25 to C29), and where it fails (C26, C36, C46). *)
From Verif Require Import Base Mem M_XXH32 M_XXH64 M_XXH3 M_Kernels M_Long M_Stream3 Spec32 Spec64 Spec3 P_Base P_Spec P_XXH32 P_XXH64
  P_X3_Base P_X3_Short P_X3_Long P_Stream P_Inj P_Inj32 P_Inj64 P_Inj3 Vectors Vectors3 Properties1 Properties2 Properties3 Properties4.

(** both computations finish and their results differ *)
Definition differ {A} (r r' : res A) : Prop := exists h h', r = OK h /\ r' = OK h' /\ h <> h'.

(** C25: two inputs that differ only inside one aligned 4-byte word (the last one may be incomplete), hashed on possibly different builds. *)
Theorem C25_xxh32_word : forall c c' p p' a w w' b seed, cfg_ok c -> cfg_ok c' ->
  points_to p (a ++ w ++ b) -> bytes_ok (a ++ w ++ b) -> points_to p' (a ++ w' ++ b) -> bytes_ok (a ++ w' ++ b) ->
  zlen (a ++ w ++ b) < 2 ^ szbits c -> zlen (a ++ w' ++ b) < 2 ^ szbits c' ->
  zlen w = zlen w' -> zlen a mod 4 + zlen w <= 4 -> w <> w' ->
  differ (XXH32 c p (zlen (a ++ w ++ b)) seed) (XXH32 c' p' (zlen (a ++ w' ++ b)) seed).
Proof.
  intros c c' p p' a w w' b seed C C' P B P' B' S S' L H N. exists (X32.hash (a ++ w ++ b) seed), (X32.hash (a ++ w' ++ b) seed).
  split; [apply C01_xxh32_equals_spec; trivial|]. split; [apply C01_xxh32_equals_spec; trivial|]. intros E. apply N.
  pose proof B as Q. apply Forall_app in Q as [Ba Q]. apply Forall_app in Q as [Bw Bb]. apply Forall_app in B' as [_ Q]. apply Forall_app in Q as [Bw' _].
  apply (hash32_within a w w' b seed); trivial.
Qed.
Print Assumptions C25_xxh32_word.
(** the same for streamed data, cut into calls in two unrelated ways *)
Theorem C25_xxh32_word_streamed : forall c c' calls chunks calls' chunks' a w w' b seed, cfg_ok c -> cfg_ok c' ->
  chunks_ok c 16 calls chunks -> chunks_ok c' 16 calls' chunks' -> concat chunks = a ++ w ++ b -> concat chunks' = a ++ w' ++ b ->
  zlen w = zlen w' -> zlen a mod 4 + zlen w <= 4 -> w <> w' ->
  differ (let! st := feed (XXH32_update c) (XXH32_reset seed) calls in XXH32_digest c st)
         (let! st := feed (XXH32_update c') (XXH32_reset seed) calls' in XXH32_digest c' st).
Proof.
  intros c c' calls chunks calls' chunks' a w w' b seed C C' K K' E E' L H N.
  rewrite (proj1 (C05_xxh32_stream_equals_oneshot c seed calls chunks C K)), (proj1 (C05_xxh32_stream_equals_oneshot c' seed calls' chunks' C' K')).
  do 2 eexists. split; [reflexivity|]. split; [reflexivity|]. rewrite E, E'. intros Q. apply N.
  pose proof (chunks_bytes _ _ _ _ K) as B. pose proof (chunks_bytes _ _ _ _ K') as B'. rewrite E in B. rewrite E' in B'.
  apply Forall_app in B as [Ba B]. apply Forall_app in B as [Bw Bb]. apply Forall_app in B' as [_ B']. apply Forall_app in B' as [Bw' _].
  apply (hash32_within a w w' b seed); trivial.
Qed.
Print Assumptions C25_xxh32_word_streamed.

(** C26: the change lies after the last full 32-byte stripe, inside a complete aligned 8-byte word, or inside the
    4-byte word that follows the 8-byte words, or is one byte. *)
Theorem C26_xxh64_tail : forall c c' p p' a w w' b seed, cfg_ok c -> cfg_ok c' ->
  points_to p (a ++ w ++ b) -> bytes_ok (a ++ w ++ b) -> points_to p' (a ++ w' ++ b) -> bytes_ok (a ++ w' ++ b) ->
  zlen (a ++ w ++ b) < 2 ^ szbits c -> zlen (a ++ w' ++ b) < 2 ^ szbits c' ->
  zlen w = zlen w' -> w <> w' ->
  let L := zlen (a ++ w ++ b) in
  L / 32 * 32 <= zlen a ->
  (zlen a mod 8 + zlen w <= 8 /\ zlen a / 8 * 8 + 8 <= L) \/
  (L / 8 * 8 <= zlen a /\ zlen a + zlen w <= L / 8 * 8 + 4 <= L) \/
  zlen w <= 1 ->
  differ (XXH64 c p (zlen (a ++ w ++ b)) seed) (XXH64 c' p' (zlen (a ++ w' ++ b)) seed).
Proof.
  intros c c' p p' a w w' b seed C C' P B P' B' S S' L N LL H1 H2. exists (X64.hash (a ++ w ++ b) seed), (X64.hash (a ++ w' ++ b) seed).
  split; [apply C02_xxh64_equals_spec; trivial|]. split; [apply C02_xxh64_equals_spec; trivial|]. intros E. apply N.
  pose proof B as Q. apply Forall_app in Q as [Ba Q]. apply Forall_app in Q as [Bw Bb]. apply Forall_app in B' as [_ Q]. apply Forall_app in Q as [Bw' _].
  replace LL with (zlen a + zlen w + zlen b) in * by (unfold LL; rewrite !zlen_app; lia).
  apply (hash64_within a w w' b seed); trivial.
Qed.
Print Assumptions C26_xxh64_tail.
(** in particular: different keys of 8 bytes, of 4 bytes or of 1 byte never collide *)
Lemma sz_small c : cfg_ok c -> 64 <= 2 ^ szbits c.
Proof. intros C. destruct (ok_sz c C) as [-> | ->]; discriminate. Qed.
Theorem C26_xxh64_keys : forall c p p' m m' seed, cfg_ok c -> points_to p m -> bytes_ok m -> points_to p' m' -> bytes_ok m' ->
  zlen m = zlen m' -> In (zlen m) [1; 4; 8] -> m <> m' ->
  differ (XXH64 c p (zlen m) seed) (XXH64 c p' (zlen m') seed).
Proof.
  intros c p p' m m' seed C P B P' B' L H N. pose proof (sz_small c C) as S.
  pose proof (C26_xxh64_tail c c p p' [] m m' [] seed C C) as Q. cbn [app] in Q. rewrite !app_nil_r in Q. specialize (Q P B P' B').
  change (zlen []) with 0 in Q. assert (K : zlen m = 1 \/ zlen m = 4 \/ zlen m = 8) by (cbn [In] in H; lia).
  apply Q; trivial; destruct K as [->|[->| ->]] || idtac; try lia; try (cbn; lia).
Qed.
Print Assumptions C26_xxh64_keys.
(** the restriction is needed: two 2-byte inputs collide under one seed *)
Theorem C26_two_bytes_refuted : exists seed m m', 0 <= seed < 2 ^ 64 /\ bytes_ok m /\ bytes_ok m' /\ zlen m = 2 /\ zlen m' = 2 /\ m <> m' /\
  forall c adr adr', cfg_ok c -> exists h, XXH64 c (Ptr m adr 0) (zlen m) seed = OK h /\ XXH64 c (Ptr m' adr' 0) (zlen m') seed = OK h.
Proof.
  exists 0x1ead9a4b39eb2fde, [0; 2], [1; 32].
  assert (B : bytes_ok [0; 2]) by (repeat constructor; try lia). assert (B' : bytes_ok [1; 32]) by (repeat constructor; try lia).
  repeat split; trivial; try lia; try discriminate. intros c adr adr' C. pose proof (sz_small c C) as S. exists (X64.hash [0; 2] 0x1ead9a4b39eb2fde). split.
  - apply C02_xxh64_equals_spec; trivial; [apply points_buf|change (zlen [0; 2]) with 2; lia].
  - rewrite (C02_xxh64_equals_spec c (Ptr [1; 32] adr' 0) [1; 32] _ C (points_buf _ _) B' ltac:(change (zlen [1; 32]) with 2; lia)). apply (f_equal OK). vm_compute. reflexivity.
Qed.
Print Assumptions C26_two_bytes_refuted.
(** C46: XXH64 does not detect every change confined to one aligned 8-byte word of a full stripe (XXH32 does, C25) *)
Theorem C46_xxh64_stripe_word_refuted : exists a w w', bytes_ok a /\ bytes_ok w /\ bytes_ok w' /\ zlen a = 24 /\ zlen w = 8 /\ zlen w' = 8 /\ w <> w' /\
  forall c adr adr', cfg_ok c ->
    exists h, XXH64 c (Ptr (a ++ w) adr 0) 32 0 = OK h /\ XXH64 c (Ptr (a ++ w') adr' 0) 32 0 = OK h.
Proof.
  exists (repeat 0 24), (X3.bytes8 0x6743a7c6248a034e), (X3.bytes8 0x9e1959d6e22f52cb).
  assert (BB : forall x, bytes_ok (X3.bytes8 x)).
  { intros x. apply Forall_forall. intros y Hy. apply in_map_iff in Hy. destruct Hy as (i & <- & _). apply Z.mod_pos_bound. reflexivity. }
  assert (B0 : bytes_ok (repeat 0 24)) by (apply Forall_forall; intros x Hx; apply repeat_spec in Hx; subst x; split; lia).
  split; [exact B0|]. split; [apply BB|]. split; [apply BB|]. split; [reflexivity|]. split; [reflexivity|]. split; [reflexivity|].
  split; [vm_compute; discriminate|]. intros c adr adr' C. pose proof (sz_small c C) as S.
  set (m := repeat 0 24 ++ X3.bytes8 0x6743a7c6248a034e). set (m' := repeat 0 24 ++ X3.bytes8 0x9e1959d6e22f52cb).
  exists (X64.hash m 0). change 32 with (zlen m) at 1. change 32 with (zlen m') at 1. split.
  - apply (C02_xxh64_equals_spec c (Ptr m adr 0) m 0 C (points_buf _ _) (bytes_ok_app _ _ B0 (BB _)) ltac:(change (zlen m) with 32; lia)).
  - rewrite (C02_xxh64_equals_spec c (Ptr m' adr' 0) m' 0 C (points_buf _ _) (bytes_ok_app _ _ B0 (BB _)) ltac:(change (zlen m') with 32; lia)). apply (f_equal OK). vm_compute. reflexivity.
Qed.
Print Assumptions C46_xxh64_stripe_word_refuted.

(** C27 *)
Lemma hash64_short s1 seed s2 m : zlen m <= 240 -> X3.hash64 s1 seed s2 m = X3.short64 s1 seed m.
Proof. intros H. unfold X3.hash64. change (len m) with (zlen m). replace (zlen m <=? 240) with true by lia. reflexivity. Qed.
Lemma hash128_short s1 seed s2 m : zlen m <= 240 -> X3.hash128 s1 seed s2 m = X3.short128 s1 seed m.
Proof. intros H. unfold X3.hash128. change (len m) with (zlen m). replace (zlen m <=? 240) with true by lia. reflexivity. Qed.
Lemma default_bytes : bytes_ok X3.default_secret.
Proof. rewrite <- kSecret_default. exact kSecret_bytes. Qed.
(** inputs of the same length between 1 and 8, or any two inputs of 1 to 3 bytes *)
Definition tiny64 (m m' : list Z) : Prop :=
  m <> m' /\ ((zlen m = zlen m' /\ 1 <= zlen m <= 8) \/ (1 <= zlen m <= 3 /\ 1 <= zlen m' <= 3)).
Lemma tiny64_neq s seed m m' : bytes_ok s -> bytes_ok m -> bytes_ok m' -> tiny64 m m' -> X3.short64 s seed m <> X3.short64 s seed m'.
Proof.
  intros Bs B B' [N [[L H]|[H H']]] E; apply N; [exact (short64_inj s seed m m' Bs B B' L H E)|exact (short64_1to3 s seed m m' Bs B B' H H' E)].
Qed.
Theorem C27_xxh3_64_seeded : forall c c' p p' m m' seed, cfg_ok c -> cfg_ok c' -> points_to p m -> bytes_ok m -> points_to p' m' -> bytes_ok m' ->
  0 <= seed < 2 ^ 64 -> tiny64 m m' ->
  differ (XXH3_64bits c p (zlen m)) (XXH3_64bits c' p' (zlen m')) /\
  differ (XXH3_64bits_withSeed c p (zlen m) seed) (XXH3_64bits_withSeed c' p' (zlen m') seed).
Proof.
  intros c c' p p' m m' seed C C' P B P' B' S T.
  rewrite !C03_xxh3_64_equals_spec, !C03_xxh3_64_withSeed_equals_spec by trivial.
  assert (H : zlen m <= 8 /\ zlen m' <= 8) by (destruct T as [_ T]; lia).
  split; do 2 eexists; (split; [reflexivity|]; split; [reflexivity|]); unfold X3.XXH3_64, X3.XXH3_64_withSeed; rewrite !hash64_short by lia;
    apply tiny64_neq; trivial; apply default_bytes.
Qed.
Print Assumptions C27_xxh3_64_seeded.
Theorem C27_xxh3_64_secret : forall c c' p p' m m' ps ps' s, cfg_ok c -> cfg_ok c' -> points_to p m -> bytes_ok m -> points_to p' m' -> bytes_ok m' ->
  points_to ps s -> points_to ps' s -> bytes_ok s -> 136 <= zlen s -> tiny64 m m' ->
  differ (XXH3_64bits_withSecret c p (zlen m) ps (zlen s)) (XXH3_64bits_withSecret c' p' (zlen m') ps' (zlen s)) /\
  forall seed, 0 <= seed < 2 ^ 64 ->
  differ (XXH3_64bits_withSecretandSeed c p (zlen m) ps (zlen s) seed) (XXH3_64bits_withSecretandSeed c' p' (zlen m') ps' (zlen s) seed).
Proof.
  intros c c' p p' m m' ps ps' s C C' P B P' B' Ps Ps' Bs Ls T.
  assert (H : zlen m <= 8 /\ zlen m' <= 8) by (destruct T as [_ T]; lia). split; [|intros seed Sd].
  - rewrite (C03_xxh3_64_withSecret_equals_spec c p m ps s), (C03_xxh3_64_withSecret_equals_spec c' p' m' ps' s) by (trivial; lia).
    do 2 eexists; (split; [reflexivity|]; split; [reflexivity|]); unfold X3.XXH3_64_withSecret; rewrite !hash64_short by lia; apply tiny64_neq; trivial.
  - rewrite (C03_xxh3_64_withSecretandSeed_equals_spec c p m ps s seed), (C03_xxh3_64_withSecretandSeed_equals_spec c' p' m' ps' s seed) by (trivial; lia).
    do 2 eexists; (split; [reflexivity|]; split; [reflexivity|]); unfold X3.XXH3_64_withSecretandSeed; rewrite !hash64_short by lia; apply tiny64_neq; trivial. apply default_bytes.
Qed.
Print Assumptions C27_xxh3_64_secret.

(** C28 *)
Theorem C28_xxh3_128_seeded : forall c c' p p' m m' seed, cfg_ok c -> cfg_ok c' -> points_to p m -> bytes_ok m -> points_to p' m' -> bytes_ok m' ->
  0 <= seed < 2 ^ 64 -> m <> m' -> zlen m = zlen m' -> 1 <= zlen m <= 16 ->
  differ (XXH3_128bits c p (zlen m)) (XXH3_128bits c' p' (zlen m')) /\
  differ (XXH3_128bits_withSeed c p (zlen m) seed) (XXH3_128bits_withSeed c' p' (zlen m') seed).
Proof.
  intros c c' p p' m m' seed C C' P B P' B' S N L H.
  rewrite !C04_xxh3_128_equals_spec by trivial. destruct (C04_xxh3_128_withSeed_equals_spec c p m seed C P B S) as [-> _].
  destruct (C04_xxh3_128_withSeed_equals_spec c' p' m' seed C' P' B' S) as [-> _].
  split; do 2 eexists; (split; [reflexivity|]; split; [reflexivity|]); unfold X3.XXH3_128, X3.XXH3_128_withSeed; rewrite !hash128_short by lia;
    intros E; apply short128_inj in E; trivial; try lia; try (exact (N E)); apply default_bytes.
Qed.
Print Assumptions C28_xxh3_128_seeded.
Theorem C28_xxh3_128_secret : forall c c' p p' m m' ps ps' s, cfg_ok c -> cfg_ok c' -> points_to p m -> bytes_ok m -> points_to p' m' -> bytes_ok m' ->
  points_to ps s -> points_to ps' s -> bytes_ok s -> 136 <= zlen s ->
  m <> m' -> zlen m = zlen m' -> 1 <= zlen m <= 16 ->
  differ (XXH3_128bits_withSecret c p (zlen m) ps (zlen s)) (XXH3_128bits_withSecret c' p' (zlen m') ps' (zlen s)) /\
  forall seed, 0 <= seed < 2 ^ 64 ->
  differ (XXH3_128bits_withSecretandSeed c p (zlen m) ps (zlen s) seed) (XXH3_128bits_withSecretandSeed c' p' (zlen m') ps' (zlen s) seed).
Proof.
  intros c c' p p' m m' ps ps' s C C' P B P' B' Ps Ps' Bs Ls N L H. split; [|intros seed Sd].
  - rewrite (C04_xxh3_128_withSecret_equals_spec c p m ps s), (C04_xxh3_128_withSecret_equals_spec c' p' m' ps' s) by (trivial; lia).
    do 2 eexists; (split; [reflexivity|]; split; [reflexivity|]); unfold X3.XXH3_128_withSecret; rewrite !hash128_short by lia.
    intros E; apply short128_inj in E; trivial; exact (N E).
  - rewrite (C04_xxh3_128_withSecretandSeed_equals_spec c p m ps s seed), (C04_xxh3_128_withSecretandSeed_equals_spec c' p' m' ps' s seed) by (trivial; lia).
    do 2 eexists; (split; [reflexivity|]; split; [reflexivity|]); unfold X3.XXH3_128_withSecretandSeed; rewrite !hash128_short by lia.
    intros E; apply short128_inj in E; trivial; try (exact (N E)). apply default_bytes.
Qed.
Print Assumptions C28_xxh3_128_secret.

(** C29 *)
Theorem C29_seeds : forall c c' p p' m s s', cfg_ok c -> cfg_ok c' -> points_to p m -> points_to p' m -> bytes_ok m -> s <> s' ->
  (0 <= s < 2 ^ 32 -> 0 <= s' < 2 ^ 32 -> zlen m < 16 -> differ (XXH32 c p (zlen m) s) (XXH32 c' p' (zlen m) s')) /\
  (0 <= s < 2 ^ 64 -> 0 <= s' < 2 ^ 64 ->
    (zlen m < 32 -> differ (XXH64 c p (zlen m) s) (XXH64 c' p' (zlen m) s')) /\
    (zlen m <= 8 -> differ (XXH3_64bits_withSeed c p (zlen m) s) (XXH3_64bits_withSeed c' p' (zlen m) s')) /\
    (zlen m <= 16 -> differ (XXH3_128bits_withSeed c p (zlen m) s) (XXH3_128bits_withSeed c' p' (zlen m) s'))).
Proof.
  intros c c' p p' m s s' C C' P P' B N. pose proof (sz_small c C) as S. pose proof (sz_small c' C') as S'. split; [|split; [|split]]; intros; do 2 eexists.
  - split; [apply C01_xxh32_equals_spec; trivial; lia|]. split; [apply C01_xxh32_equals_spec; trivial; lia|]. intros E. apply hash32_seed in E; trivial. exact (N E).
  - split; [apply C02_xxh64_equals_spec; trivial; lia|]. split; [apply C02_xxh64_equals_spec; trivial; lia|]. intros E. apply hash64_seed in E; trivial. exact (N E).
  - split; [apply C03_xxh3_64_withSeed_equals_spec; trivial; lia|]. split; [apply C03_xxh3_64_withSeed_equals_spec; trivial; lia|].
    unfold X3.XXH3_64_withSeed. rewrite !hash64_short by lia. intros E. apply short64_seed in E; trivial; [exact (N E)|apply default_bytes].
  - split; [apply C04_xxh3_128_withSeed_equals_spec; trivial; lia|]. split; [apply C04_xxh3_128_withSeed_equals_spec; trivial; lia|].
    unfold X3.XXH3_128_withSeed. rewrite !hash128_short by lia. intros E. apply short128_seed in E; trivial; [exact (N E)|apply default_bytes].
Qed.
Print Assumptions C29_seeds.


(** C35, 128 bits, 17 to 128 bytes: the two functions agree for the seed 0 only *)
Theorem C35_HashFast128_seed : forall c pre old post adr seed p m,
  cfg_ok c -> zlen old = 192 -> 0 <= seed < 2 ^ 64 -> points_to p m -> bytes_ok m -> 17 <= zlen m <= 128 ->
  (HashFast128 c (pre ++ old ++ post) adr (zlen pre) seed p (zlen m) = XXH3_128bits_withSeed c p (zlen m) seed <-> seed = 0).
Proof.
  intros c pr old post adr seed p m C L W P B H. destruct (HashFast_ok c pr old post adr seed p m C L W P B) as [_ ->].
  destruct (C04_xxh3_128_withSeed_equals_spec c p m seed C P B W) as [-> _].
  unfold X3.XXH3_128_withSecret, X3.XXH3_128_withSeed, X3.hash128. change (len m) with (zlen m).
  replace (zlen m <=? 240) with true by lia. unfold X3.short128. change (len m) with (zlen m).
  replace (zlen m =? 0) with false by lia. replace (zlen m <=? 3) with false by lia. replace (zlen m <=? 8) with false by lia.
  replace (zlen m <=? 16) with false by lia. replace (zlen m <=? 128) with true by lia. rewrite mid_derive128 by lia.
  unfold X3.mid128. split; [|intros ->; reflexivity]. intros E. apply OK_inj in E. injection E as E. revert E.
  set (k := fst _ * X3.P1 + snd _ * X3.P4). change X3.W with (2 ^ 64). intros E.
  assert (Q : forall x, wd 64 (X3.avalanche (x mod 2 ^ 64))).
  { intros x. unfold X3.avalanche. change X3.W with (2 ^ 64). apply xorshift_wd; [lia|lia|apply mod_wd; lia]. }
  rewrite <- !Z.sub_0_l in E. apply (sub_inj 64 0) in E; try apply Q; try lia. apply aval3_inj in E; try (apply mod_wd; lia).
  symmetry. apply (mul_inj 64 X3.P2); [lia|reflexivity|split; reflexivity|exact W|].
  apply (mod_eq_div 64) in E; [|lia]. destruct E as [q E]. rewrite (Z.mod_eq (0 * X3.P2)), (Z.mod_eq (seed * X3.P2)) by lia.
  apply (wd_eq_mod 64); [lia| | |].
  1,2: rewrite <- Z.mod_eq by lia; apply mod_wd; lia.
  exists (- q - 0 * X3.P2 / 2 ^ 64 + seed * X3.P2 / 2 ^ 64). generalize (0 * X3.P2 / 2 ^ 64), (seed * X3.P2 / 2 ^ 64). intros a b. nia.
Qed.
Print Assumptions C35_HashFast128_seed.

(** C36: a family of 2^64 inputs with one hash.  When the first 8 bytes cancel the first 8 bytes of the secret, the
    next 8 bytes have no influence. *)
Theorem C36_word_change_refuted : forall c p p' x x' z, cfg_ok c ->
  bytes_ok x -> bytes_ok x' -> bytes_ok z -> zlen x = 8 -> zlen x' = 8 -> zlen z = 16 ->
  points_to p (zslice X3.default_secret 0 8 ++ x ++ z) -> points_to p' (zslice X3.default_secret 0 8 ++ x' ++ z) ->
  exists h, XXH3_64bits c p 32 = OK h /\ XXH3_64bits c p' 32 = OK h.
Proof.
  intros c p p' x x' z C Bx Bx' Bz Lx Lx' Lz P P'. set (k := zslice X3.default_secret 0 8) in *.
  assert (Lk : zlen k = 8) by reflexivity. assert (Bk : bytes_ok k) by (apply bytes_ok_zslice, default_bytes).
  assert (E : X3.XXH3_64 (k ++ x ++ z) = X3.XXH3_64 (k ++ x' ++ z)).
  { assert (G : forall y, zlen y = 8 -> bytes_ok y -> X3.XXH3_64 (k ++ y ++ z) = X3.mid64 (((32 * X3.P1) mod X3.W + 0 + X3.mixStep X3.default_secret z 16 0) mod X3.W)).
    { intros y Ly By. unfold X3.XXH3_64. assert (L : zlen (k ++ y ++ z) = 32) by (rewrite !zlen_app; lia). rewrite hash64_short by lia. unfold X3.short64.
      change (len (k ++ y ++ z)) with (zlen (k ++ y ++ z)). rewrite L. cbn [Z.eqb Z.leb Z.compare Pos.compare Pos.compare_cont].
      unfold X3.mid17to128_64. change (len (k ++ y ++ z)) with (zlen (k ++ y ++ z)). rewrite L.
      change (X3.down ((32 - 1) / 32 + 1)) with [0]. cbn [fold_left].
      assert (E1 : X3.mixStep X3.default_secret (X3.chunk (k ++ y ++ z) (16 * 0)) (32 * 0) 0 = 0).
      { unfold X3.mixStep, X3.chunk. rewrite !rd8_zslice, !seg_zslice. change (16 * 0) with 0. change (32 * 0) with 0. change (0 + 16 - 0) with 16.
        rewrite zslice_zslice by lia. rewrite (zslice_app_l k) by lia. rewrite (zslice_all k) by lia.
        assert (W : 0 <= le_val k < X3.W) by (apply (le_wd 8); [trivial|lia]).
        fold k. rewrite Z.add_0_r. rewrite Z.mod_small by exact W. rewrite Z.lxor_nilpotent, Z.mul_0_l. reflexivity. }
      assert (E2 : X3.chunk (k ++ y ++ z) (32 - 16 * 0 - 16) = z).
      { unfold X3.chunk. rewrite seg_zslice. change (32 - 16 * 0 - 16) with 16. change (16 + 16 - 16) with 16.
        rewrite (zslice_app_r k) by llia. rewrite (zslice_app_r y) by llia. rewrite Lk, Ly. apply zslice_all. lia. }
      rewrite E1, E2. reflexivity. }
    rewrite !G by trivial. reflexivity. }
  exists (X3.XXH3_64 (k ++ x ++ z)). assert (L : zlen (k ++ x ++ z) = 32) by (rewrite !zlen_app; lia). assert (L' : zlen (k ++ x' ++ z) = 32) by (rewrite !zlen_app; lia).
  split.
  - rewrite <- L. apply C03_xxh3_64_equals_spec; trivial. repeat (apply bytes_ok_app; trivial).
  - rewrite E, <- L'. apply C03_xxh3_64_equals_spec; trivial. repeat (apply bytes_ok_app; trivial).
Qed.
Print Assumptions C36_word_change_refuted.

(** the hypotheses are met by real values *)
Example hyps5_inhabited :
  let a := pre 36 in let w := [1; 2; 3] in let w' := [1; 7; 3] in let b := [9] in
  cfg_ok c1 /\ points_to (Ptr (a ++ w ++ b) 3 0) (a ++ w ++ b) /\ bytes_ok (a ++ w ++ b) /\ bytes_ok (a ++ w' ++ b) /\
  zlen (a ++ w ++ b) < 2 ^ szbits c1 /\ zlen a mod 4 + zlen w <= 4 /\ w <> w' /\
  (let L := zlen (a ++ w ++ b) in L / 32 * 32 <= zlen a /\ zlen a mod 8 + zlen w <= 8 /\ zlen a / 8 * 8 + 8 <= L) /\
  tiny64 [1; 2; 3; 4; 5] [1; 2; 3; 4; 6] /\ tiny64 [1] [1; 1] /\
  points_to (Ptr (zslice X3.default_secret 0 8 ++ pre 8 ++ pre 16) 3 0) (zslice X3.default_secret 0 8 ++ pre 8 ++ pre 16).
Proof.
  cbv zeta. split; [constructor; cbn; auto; try lia; discriminate|]. split; [apply points_buf|].
  repeat split; try apply points_buf; try (vm_compute; repeat constructor; discriminate); try (right; split; vm_compute; split; discriminate); try (left; split; vm_compute; repeat split; discriminate).
Qed.
