(** Property theorems about the one-shot XXH3 functions (C03, C04, C12, C14, C15, C24). *)
From Verif Require Import Base Mem M_XXH32 M_XXH64 M_XXH3 M_Kernels M_Long Spec32 Spec3 P_Base P_Spec P_X3_Base P_Kernels
  P_Kernels2 P_X3_Long Vectors Vectors3.

(** C03.  Inputs of at most 240 bytes can be hashed with every secret; longer ones only if 8 times the size of the secret fits a size_t,
    which C45 determines exactly. *)
Theorem C03_xxh3_64_equals_spec : forall c p m, cfg_ok c -> points_to p m -> bytes_ok m ->
  XXH3_64bits c p (zlen m) = OK (X3.XXH3_64 m).
Proof. exact XXH3_64bits_ok. Qed.
Print Assumptions C03_xxh3_64_equals_spec.
Theorem C03_xxh3_64_withSeed_equals_spec : forall c p m seed, cfg_ok c -> points_to p m -> bytes_ok m -> 0 <= seed < 2 ^ 64 ->
  XXH3_64bits_withSeed c p (zlen m) seed = OK (X3.XXH3_64_withSeed seed m).
Proof. intros c p m seed C P B. exact (XXH3_64bits_withSeed_ok c p m C P B seed). Qed.
Print Assumptions C03_xxh3_64_withSeed_equals_spec.
Theorem C03_xxh3_64_withSecret_equals_spec : forall c p m ps s, cfg_ok c -> points_to p m -> bytes_ok m ->
  points_to ps s -> bytes_ok s -> 136 <= zlen s -> (240 < zlen m -> 8 * (zlen s - 64) < 2 ^ szbits c) ->
  XXH3_64bits_withSecret c p (zlen m) ps (zlen s) = OK (X3.XXH3_64_withSecret s m).
Proof. intros. apply XXH3_64bits_withSecret_any; trivial. Qed.
Print Assumptions C03_xxh3_64_withSecret_equals_spec.
Theorem C03_xxh3_64_withSecretandSeed_equals_spec : forall c p m ps s seed, cfg_ok c -> points_to p m -> bytes_ok m ->
  points_to ps s -> bytes_ok s -> 136 <= zlen s -> (240 < zlen m -> 8 * (zlen s - 64) < 2 ^ szbits c) -> 0 <= seed < 2 ^ 64 ->
  XXH3_64bits_withSecretandSeed c p (zlen m) ps (zlen s) seed = OK (X3.XXH3_64_withSecretandSeed s seed m).
Proof. intros. apply XXH3_64bits_withSecretandSeed_any; trivial. Qed.
Print Assumptions C03_xxh3_64_withSecretandSeed_equals_spec.

(** C04 *)
Theorem C04_xxh3_128_equals_spec : forall c p m, cfg_ok c -> points_to p m -> bytes_ok m ->
  XXH3_128bits c p (zlen m) = OK (X3.XXH3_128 m).
Proof. exact XXH3_128bits_ok. Qed.
Print Assumptions C04_xxh3_128_equals_spec.
Theorem C04_xxh3_128_withSeed_equals_spec : forall c p m seed, cfg_ok c -> points_to p m -> bytes_ok m -> 0 <= seed < 2 ^ 64 ->
  XXH3_128bits_withSeed c p (zlen m) seed = OK (X3.XXH3_128_withSeed seed m) /\
  XXH128 c p (zlen m) seed = OK (X3.XXH3_128_withSeed seed m).
Proof. intros c p m seed C P B W. split; exact (XXH3_128bits_withSeed_ok c p m C P B seed W). Qed.
Print Assumptions C04_xxh3_128_withSeed_equals_spec.
Theorem C04_xxh3_128_withSecret_equals_spec : forall c p m ps s, cfg_ok c -> points_to p m -> bytes_ok m ->
  points_to ps s -> bytes_ok s -> 136 <= zlen s -> (240 < zlen m -> 8 * (zlen s - 64) < 2 ^ szbits c) ->
  XXH3_128bits_withSecret c p (zlen m) ps (zlen s) = OK (X3.XXH3_128_withSecret s m).
Proof. intros. apply XXH3_128bits_withSecret_any; trivial. Qed.
Print Assumptions C04_xxh3_128_withSecret_equals_spec.
Theorem C04_xxh3_128_withSecretandSeed_equals_spec : forall c p m ps s seed, cfg_ok c -> points_to p m -> bytes_ok m ->
  points_to ps s -> bytes_ok s -> 136 <= zlen s -> (240 < zlen m -> 8 * (zlen s - 64) < 2 ^ szbits c) -> 0 <= seed < 2 ^ 64 ->
  XXH3_128bits_withSecretandSeed c p (zlen m) ps (zlen s) seed = OK (X3.XXH3_128_withSecretandSeed s seed m).
Proof. intros. apply XXH3_128bits_withSecretandSeed_any; trivial. Qed.
Print Assumptions C04_xxh3_128_withSecretandSeed_equals_spec.

(** C12: [scalar_of c] is the same build with XXH_VECTOR = XXH_SCALAR.  [adr] is the address of the
    accumulators, aligned as the vector build declares it. *)
Definition scalar_of (c : cfg) : cfg :=
  Cfg (cpu_le c) (mem_access c) (hw_unaligned c) (align_check c) (endjmp c) (size_opt c) (szbits c) (mul128_hw c)
      (ptr_small c) V_SCALAR (stream_stack c) false.
Lemma scalar_of_ok c : cfg_ok c -> cfg_ok (scalar_of c).
Proof. intros [? ? ?]. constructor; cbn; auto. Qed.
Lemma scalar_of_align c adr : adr mod acc_align c = 0 ->
  aligned_adr adr (acc_align c) = true /\ aligned_adr adr (acc_align (scalar_of c)) = true.
Proof.
  intros H. assert (A : aligned_adr adr (acc_align c) = true).
  { unfold acc_align in *. destruct (x86dispatch c); [|destruct (vec c)];
    match goal with |- aligned_adr _ ?k = true => let e := eval vm_compute in (Z.log2 k) in
      change k with (2 ^ e) in *; rewrite aligned_adr_mod by lia; apply Z.eqb_eq; exact H end. }
  split; [exact A|]. change (acc_align (scalar_of c)) with (2 ^ 3).
  apply acc_align_need in A. apply aligned_weaken with (k := need (vec c)); [|exact A]. destruct (vec c); cbn; lia.
Qed.
Theorem C12_accumulate_equals_scalar : forall c adr acc p m ps s n,
  cfg_ok c -> adr mod acc_align c = 0 -> length acc = 8%nat -> Forall (fun x => 0 <= x < 2 ^ 64) acc ->
  points_to p m -> bytes_ok m -> points_to ps s -> bytes_ok s -> 0 <= n -> 64 * n <= zlen m -> 64 + 8 * (n - 1) <= zlen s ->
  exists acc', accumulate c adr acc p ps n = OK acc' /\ accumulate (scalar_of c) adr acc p ps n = OK acc'.
Proof.
  intros c adr acc p m ps s n C A L W P B PS BS Hn Hm Hs. destruct (scalar_of_align c adr A) as [A1 A2].
  pose proof (accumulate_ok c adr C A1 acc p m ps s 0 0 n) as E1.
  pose proof (accumulate_ok (scalar_of c) adr (scalar_of_ok c C) A2 acc p m ps s 0 0 n) as E2.
  rewrite !padd_0 in *. eexists. split; [apply E1|apply E2]; try lia; trivial; split; trivial.
Qed.
Print Assumptions C12_accumulate_equals_scalar.
Theorem C12_accumulate_512_equals_scalar : forall c adr acc p m ps s,
  cfg_ok c -> adr mod acc_align c = 0 -> length acc = 8%nat -> Forall (fun x => 0 <= x < 2 ^ 64) acc ->
  points_to p m -> bytes_ok m -> points_to ps s -> bytes_ok s -> 64 <= zlen m -> 64 <= zlen s ->
  exists acc', accumulate_512 c adr acc p ps = OK acc' /\ accumulate_512 (scalar_of c) adr acc p ps = OK acc'.
Proof.
  intros c adr acc p m ps s C A L W P B PS BS Hm Hs. destruct (scalar_of_align c adr A) as [A1 A2].
  pose proof (accumulate_512_ok c adr C A1 acc p m ps s 0 0) as E1.
  pose proof (accumulate_512_ok (scalar_of c) adr (scalar_of_ok c C) A2 acc p m ps s 0 0) as E2.
  rewrite !padd_0 in *. eexists. split; [apply E1|apply E2]; try lia; trivial; split; trivial.
Qed.
Print Assumptions C12_accumulate_512_equals_scalar.
Theorem C12_scramble_equals_scalar : forall c adr acc ps s,
  cfg_ok c -> adr mod acc_align c = 0 -> length acc = 8%nat -> Forall (fun x => 0 <= x < 2 ^ 64) acc ->
  points_to ps s -> bytes_ok s -> zlen s = 64 ->
  exists acc', scrambleAcc c adr acc ps = OK acc' /\ scrambleAcc (scalar_of c) adr acc ps = OK acc'.
Proof.
  intros c adr acc ps s C A L W PS BS Hs. destruct (scalar_of_align c adr A) as [A1 A2].
  pose proof (scrambleAcc_ok c adr C A1 acc ps s) as E1.
  pose proof (scrambleAcc_ok (scalar_of c) adr (scalar_of_ok c C) A2 acc ps s) as E2.
  rewrite Hs, !padd_0 in *. eexists. split; [apply E1|apply E2]; try lia; trivial; split; trivial.
Qed.
Print Assumptions C12_scramble_equals_scalar.
Theorem C12_initCustomSecret_equals_scalar : forall c adr dest seed,
  cfg_ok c -> aligned_adr adr (sec_align c) = true -> zlen dest = 192 -> 0 <= seed < 2 ^ 64 ->
  exists s', initCustomSecret c adr dest seed = OK s' /\ initCustomSecret_scalar c adr dest seed = OK s'.
Proof.
  intros c adr dest seed C A L W. eexists. split.
  - apply initCustomSecret_ok; trivial.
  - apply scalar_init; trivial.
Qed.
Print Assumptions C12_initCustomSecret_equals_scalar.

(** C14: both the native product and the one assembled from 32-bit products *)
Theorem C14_mult64to128_exact : forall c a b, 0 <= a < 2 ^ 64 -> 0 <= b < 2 ^ 64 ->
  mult64to128 c a b = ((a * b) mod 2 ^ 64, (a * b) / 2 ^ 64).
Proof. exact mult64to128_ok. Qed.
Print Assumptions C14_mult64to128_exact.
Theorem C14_mul128_fold64_exact : forall c a b, 0 <= a < 2 ^ 64 -> 0 <= b < 2 ^ 64 ->
  mul128_fold64 c a b = Z.lxor ((a * b) mod 2 ^ 64) ((a * b) / 2 ^ 64).
Proof. exact fold64_ok. Qed.
Print Assumptions C14_mul128_fold64_exact.

(** C15 *)
Theorem C15_read32 : forall c p b0 b1 b2 b3 r, cfg_ok c -> points_to p (b0 :: b1 :: b2 :: b3 :: r) -> bytes_ok (b0 :: b1 :: b2 :: b3 :: r) ->
  readLE32 c p = OK (b0 + 2 ^ 8 * b1 + 2 ^ 16 * b2 + 2 ^ 24 * b3) /\
  readBE32 c p = OK (b3 + 2 ^ 8 * b2 + 2 ^ 16 * b1 + 2 ^ 24 * b0) /\
  (forall al, (al = XXH_aligned -> paddr p mod 4 = 0) ->
     readLE32_align c p al = OK (b0 + 2 ^ 8 * b1 + 2 ^ 16 * b2 + 2 ^ 24 * b3)).
Proof.
  intros c p b0 b1 b2 b3 r C P B. assert (L : 0 + 4 <= zlen (b0 :: b1 :: b2 :: b3 :: r)).
  { rewrite !zlen_cons. pose proof (zlen_nonneg r). lia. }
  pose proof (readLE32_ok c p _ 0 C P B ltac:(lia) L) as E1. pose proof (readBE32_ok c p _ 0 C P B ltac:(lia) L) as E2.
  rewrite padd_0 in *. rewrite E1, E2. unfold zslice.
  split; [|split]; try (intros al Ha; pose proof (readLE32_align_ok c p _ 0 al C P B ltac:(lia) L) as E3; rewrite padd_0 in E3; rewrite E3 by exact Ha);
    f_equal; unfold zslice; repeat (match goal with |- context [Z.to_nat ?n] => let v := eval vm_compute in (Z.to_nat n) in change (Z.to_nat n) with v end);
    cbn [skipn firstn rev app le_val]; lia.
Qed.
Print Assumptions C15_read32.
Theorem C15_read64 : forall c p b0 b1 b2 b3 b4 b5 b6 b7 r, cfg_ok c ->
  points_to p (b0 :: b1 :: b2 :: b3 :: b4 :: b5 :: b6 :: b7 :: r) -> bytes_ok (b0 :: b1 :: b2 :: b3 :: b4 :: b5 :: b6 :: b7 :: r) ->
  let le := b0 + 2 ^ 8 * b1 + 2 ^ 16 * b2 + 2 ^ 24 * b3 + 2 ^ 32 * b4 + 2 ^ 40 * b5 + 2 ^ 48 * b6 + 2 ^ 56 * b7 in
  let be := b7 + 2 ^ 8 * b6 + 2 ^ 16 * b5 + 2 ^ 24 * b4 + 2 ^ 32 * b3 + 2 ^ 40 * b2 + 2 ^ 48 * b1 + 2 ^ 56 * b0 in
  readLE64 c p = OK le /\ readBE64 c p = OK be /\
  (forall al, (al = XXH_aligned -> paddr p mod 8 = 0) -> readLE64_align c p al = OK le).
Proof.
  intros c p b0 b1 b2 b3 b4 b5 b6 b7 r C P B. assert (L : 0 + 8 <= zlen (b0 :: b1 :: b2 :: b3 :: b4 :: b5 :: b6 :: b7 :: r)).
  { rewrite !zlen_cons. pose proof (zlen_nonneg r). lia. }
  pose proof (readLE64_ok c p _ 0 C P B ltac:(lia) L) as E1. pose proof (readBE64_ok c p _ 0 C P B ltac:(lia) L) as E2.
  rewrite padd_0 in *. rewrite E1, E2. unfold zslice.
  split; [|split]; try (intros al Ha; pose proof (readLE64_align_ok c p _ 0 al C P B ltac:(lia) L) as E3; rewrite padd_0 in E3; rewrite E3 by exact Ha);
    f_equal; unfold zslice; repeat (match goal with |- context [Z.to_nat ?n] => let v := eval vm_compute in (Z.to_nat n) in change (Z.to_nat n) with v end);
    cbn [skipn firstn rev app le_val]; lia.
Qed.
Print Assumptions C15_read64.

(** C24 *)
Theorem C24_low_half : forall c p m ps s seed, cfg_ok c -> points_to p m -> bytes_ok m ->
  points_to ps s -> bytes_ok s -> 136 <= zlen s -> (240 < zlen m -> 8 * (zlen s - 64) < 2 ^ szbits c) -> 0 <= seed < 2 ^ 64 ->
  1 <= zlen m <= 3 \/ 240 < zlen m ->
  (exists lo hi, XXH3_128bits c p (zlen m) = OK (lo, hi) /\ XXH3_64bits c p (zlen m) = OK lo) /\
  (exists lo hi, XXH3_128bits_withSeed c p (zlen m) seed = OK (lo, hi) /\ XXH3_64bits_withSeed c p (zlen m) seed = OK lo) /\
  (exists lo hi, XXH3_128bits_withSecret c p (zlen m) ps (zlen s) = OK (lo, hi) /\
                 XXH3_64bits_withSecret c p (zlen m) ps (zlen s) = OK lo) /\
  (exists lo hi, XXH3_128bits_withSecretandSeed c p (zlen m) ps (zlen s) seed = OK (lo, hi) /\
                 XXH3_64bits_withSecretandSeed c p (zlen m) ps (zlen s) seed = OK lo).
Proof.
  intros c p m ps s seed C P B PS BS H1 H2 W H.
  assert (G : forall s1 s2 sd, fst (X3.hash128 s1 sd s2 m) = X3.hash64 s1 sd s2 m).
  { intros. unfold X3.hash128, X3.hash64. change (len m) with (zlen m). destruct (Z.leb_spec (zlen m) 240); [|unfold X3.large128, X3.large64, fst; reflexivity].
    unfold X3.short128, X3.short64. change (len m) with (zlen m). replace (zlen m =? 0) with false by lia.
    replace (zlen m <=? 3) with true by lia. unfold X3.h1to3_128, X3.h1to3_64, fst. reflexivity. }
  rewrite C03_xxh3_64_equals_spec, C03_xxh3_64_withSeed_equals_spec, C03_xxh3_64_withSecret_equals_spec,
    C03_xxh3_64_withSecretandSeed_equals_spec, C04_xxh3_128_equals_spec, C04_xxh3_128_withSecret_equals_spec,
    C04_xxh3_128_withSecretandSeed_equals_spec by assumption.
  destruct (C04_xxh3_128_withSeed_equals_spec c p m seed C P B W) as [-> _].
  unfold X3.XXH3_128, X3.XXH3_64, X3.XXH3_128_withSeed, X3.XXH3_64_withSeed, X3.XXH3_128_withSecret, X3.XXH3_64_withSecret,
    X3.XXH3_128_withSecretandSeed, X3.XXH3_64_withSecretandSeed. rewrite <- !G.
  repeat split; eexists; eexists; (split; [rewrite <- surjective_pairing; reflexivity|reflexivity]).
Qed.
Print Assumptions C24_low_half.
(** ... and for the other classes of lengths it is not *)
Theorem C24_other_lengths_differ : forall n, In n [0; 4; 8; 9; 16; 17; 128; 129; 240] -> exists m, zlen m = n /\ bytes_ok m /\
  forall c p, cfg_ok c -> points_to p m -> exists lo hi h, XXH3_128bits c p n = OK (lo, hi) /\ XXH3_64bits c p n = OK h /\ lo <> h.
Proof.
  intros n Hn. exists (Vectors.pre n). assert (L : zlen (Vectors.pre n) = n) by (repeat (destruct Hn as [<-|Hn]; [vm_compute; reflexivity|]); destruct Hn).
  assert (B : bytes_ok (Vectors.pre n)).
  { repeat (destruct Hn as [<-|Hn]; [repeat constructor; vm_compute; discriminate|]); destruct Hn. }
  split; [exact L|]. split; [exact B|]. intros c p C P. exists (fst (X3.XXH3_128 (Vectors.pre n))), (snd (X3.XXH3_128 (Vectors.pre n))), (X3.XXH3_64 (Vectors.pre n)).
  pose proof (C04_xxh3_128_equals_spec c p _ C P B) as E1. pose proof (C03_xxh3_64_equals_spec c p _ C P B) as E2. rewrite L in E1, E2. split; [rewrite <- surjective_pairing; exact E1|]. split; [exact E2|].
  clear - Hn. repeat (destruct Hn as [<-|Hn]; [vm_compute; discriminate|]). destruct Hn.
Qed.
Print Assumptions C24_other_lengths_differ.

(** the hypotheses above hold of concrete data: a 147-byte secret inside a larger block, 403 bytes of input,
    an AVX512 and a 32-bit big-endian build *)
Example hyps2_inhabited :
  Forall cfg_ok cfgs /\ points_to tsecret_ptr tsecret /\ bytes_ok tsecret /\ 136 <= zlen tsecret /\
  (forall c, In c cfgs -> 8 * (zlen tsecret - 64) < 2 ^ szbits c) /\ points_to (Ptr sanity 1 0) sanity /\ bytes_ok sanity /\
  240 < zlen sanity /\ (forall c, In c cfgs -> 64 mod acc_align c = 0).
Proof.
  assert (B : bytes_ok sanity).
  { unfold bytes_ok. apply Forall_forall. intros x Hx.
    assert (F : forallb (fun b => (0 <=? b) && (b <? 256)) sanity = true) by (vm_compute; reflexivity).
    rewrite forallb_forall in F. apply F in Hx. cbv beta in *. apply andb_true_iff in Hx. unfold byte_ok. lia. }
  split. { unfold cfgs. repeat (apply Forall_cons || apply Forall_nil); split; cbn; try tauto; try lia; try discriminate. split; [reflexivity|]. exists 2%nat. lia. }
  split. { exists (firstn 7 sanity), (skipn 154 sanity). split; vm_compute; reflexivity. }
  split. { unfold tsecret, bytes_ok. apply Forall_forall. intros x Hx. unfold bytes_ok in B. rewrite Forall_forall in B. apply B.
           rewrite <- (firstn_skipn 7 sanity). apply in_or_app. right.
           rewrite <- (firstn_skipn 147 (skipn 7 sanity)). apply in_or_app. left. exact Hx. }
  split; [vm_compute; discriminate|].
  split. { intros c [<- | [<- | [<- | []]]]; vm_compute; reflexivity. }
  split. { exists [], []. rewrite app_nil_r. split; reflexivity. }
  split; [exact B|]. split; [vm_compute; reflexivity|].
  intros c [<- | [<- | [<- | []]]]; vm_compute; reflexivity.
Qed.
