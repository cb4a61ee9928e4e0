(** Pairs of inputs that XXH64 and XXH32 do not tell apart for half of all seeds (proofs for C72). *)
From Verif Require Import Base Mem Spec32 Spec64 Spec3 P_Base P_Spec P_X3_Base P_Inj P_Inj64 P_Inj3 P_Inj128.

(* ------------------------------------------------------------------ *)
(** ** XXH64 *)
(** after two stripes only the accumulators and the rest of the input matter *)
Lemma hash64_prefix s0 s1 s0' s1' z seed : zlen s0 = 32 -> zlen s1 = 32 -> zlen s0' = 32 -> zlen s1' = 32 ->
  X64.stripe (X64.stripe (X64.init seed) s0) s1 = X64.stripe (X64.stripe (X64.init seed) s0') s1' ->
  X64.hash (s0 ++ s1 ++ z) seed = X64.hash (s0' ++ s1' ++ z) seed.
Proof.
  intros L0 L1 L0' L1' E. pose proof (zlen_nonneg z) as Lz.
  assert (G : forall t0 t1, zlen t0 = 32 -> zlen t1 = 32 -> X64.hash (t0 ++ t1 ++ z) seed =
    X64.avalanche (X64.tail ((X64.converge (fold_left (fun a i => X64.stripe a (seg z (32 * i) (32 * i + 32))) (upto (zlen z / 32)) (X64.stripe (X64.stripe (X64.init seed) t0) t1))
                              + (64 + zlen z)) mod 2 ^ 64) (zslice z (zlen z / 32 * 32) (zlen z - zlen z / 32 * 32)))).
  { intros t0 t1 T0 T1. rewrite hash64_unfold. replace (zlen (t0 ++ t1 ++ z)) with (64 + zlen z) by (rewrite !zlen_app; lia).
    replace (64 + zlen z <? 32) with false by lia. assert (D : (64 + zlen z) / 32 = 2 + zlen z / 32) by dlia. rewrite D.
    assert (Hd : 0 <= zlen z / 32 /\ 32 * (zlen z / 32) <= zlen z) by dlia.
    replace (zslice (t0 ++ t1 ++ z) _ _) with (zslice z (zlen z / 32 * 32) (zlen z - zlen z / 32 * 32)).
    2: { symmetry. rewrite (zslice_app_r t0), (zslice_app_r t1) by llia. f_equal; lia. }
    do 5 f_equal. unfold X64.stripes. change (len (t0 ++ t1 ++ z)) with (zlen (t0 ++ t1 ++ z)).
    replace (zlen (t0 ++ t1 ++ z)) with (64 + zlen z) by (rewrite !zlen_app; lia). rewrite D, fold_upto_add by lia.
    change (upto 2) with [0; 1]. cbn [fold_left].
    replace (seg (t0 ++ t1 ++ z) (32 * 0) (32 * 0 + 32)) with t0.
    2: { rewrite seg_zslice, zslice_app_l by llia. symmetry. apply zslice_all. lia. }
    replace (seg (t0 ++ t1 ++ z) (32 * 1) (32 * 1 + 32)) with t1.
    2: { rewrite seg_zslice, (zslice_app_r t0) by llia. rewrite zslice_app_l by llia. symmetry. rewrite T0. apply zslice_all. lia. }
    apply fold_upto_ext. intros i a Hi. f_equal. rewrite !seg_zslice, (zslice_app_r t0), (zslice_app_r t1) by llia. f_equal; lia. }
  rewrite !G by trivial. rewrite E. reflexivity.
Qed.
(** the first lane of a stripe *)
Lemma stripe64_first a0 a1 a2 a3 u r : zlen u = 8 -> zlen r = 24 ->
  X64.stripe [a0; a1; a2; a3] (u ++ r) =
  [X64.round a0 (le_val u); X64.round a1 (le_val (zslice r 0 8)); X64.round a2 (le_val (zslice r 8 8)); X64.round a3 (le_val (zslice r 16 8))].
Proof.
  intros Lu Lr. unfold X64.stripe. change (upto 4) with [0; 1; 2; 3]. cbn [combine map fst snd]. rewrite !LE_le_val, !seg_zslice.
  rewrite (zslice_app_l u) by lia. rewrite !(zslice_app_r u) by llia. rewrite Lu. rewrite (zslice_all u) by lia. reflexivity.
Qed.
(** the word that leaves [seed] alone in the sum of the first round, the same with its top bit flipped, and the
    correction of the next word *)
Definition k64 : Z := 0xfb9fe7db392000b6.
Definition d64 : Z := 0x31b7ffd240000000.
Lemma round64_half seed v : 0 <= seed < 2 ^ 63 -> 0 <= v < 2 ^ 64 ->
  X64.round (X64.round ((seed + X64.P1 + X64.P2) mod X64.W) k64) v =
  X64.round (X64.round ((seed + X64.P1 + X64.P2) mod X64.W) (Z.lxor k64 (2 ^ 63))) ((v - d64) mod X64.W).
Proof.
  intros Hs Hv. change (Z.lxor k64 (2 ^ 63)) with 0x7b9fe7db392000b6. unfold X64.round. change X64.W with (2 ^ 64).
  assert (T1 : ((seed + X64.P1 + X64.P2) mod 2 ^ 64 + k64 * X64.P2) mod 2 ^ 64 = seed).
  { rewrite Zplus_mod_idemp_l. unfold k64, X64.P1, X64.P2.
    replace (seed + 0x9E3779B185EBCA87 + 0xC2B2AE3D27D4EB4F + 0xfb9fe7db392000b6 * 0xC2B2AE3D27D4EB4F)
      with (seed + ((0x9E3779B185EBCA87 + 0xC2B2AE3D27D4EB4F + 0xfb9fe7db392000b6 * 0xC2B2AE3D27D4EB4F) / 2 ^ 64) * 2 ^ 64) by lia.
    rewrite Z_mod_plus_full. apply Z.mod_small. lia. }
  assert (T2 : ((seed + X64.P1 + X64.P2) mod 2 ^ 64 + 0x7b9fe7db392000b6 * X64.P2) mod 2 ^ 64 = seed + 2 ^ 63).
  { rewrite Zplus_mod_idemp_l. unfold X64.P1, X64.P2.
    replace (seed + 0x9E3779B185EBCA87 + 0xC2B2AE3D27D4EB4F + 0x7b9fe7db392000b6 * 0xC2B2AE3D27D4EB4F)
      with (seed + 2 ^ 63 + ((0x9E3779B185EBCA87 + 0xC2B2AE3D27D4EB4F + 0x7b9fe7db392000b6 * 0xC2B2AE3D27D4EB4F) / 2 ^ 64) * 2 ^ 64) by lia.
    rewrite Z_mod_plus_full. apply Z.mod_small. lia. }
  rewrite T1, T2. assert (R : rol 64 (seed + 2 ^ 63) 31 = rol 64 seed 31 + 2 ^ 30).
  { rewrite !rol_eq by lia. change (64 - 31) with 33. replace (seed + 2 ^ 63) with (seed + 2 ^ 30 * 2 ^ 33) by lia.
    rewrite Z_mod_plus_full, Z_div_plus_full by lia. lia. }
  rewrite R. generalize (rol 64 seed 31) as q. intros q. do 3 f_equal.
  rewrite !Zplus_mod_idemp_l. rewrite Z.add_comm, (Z.add_comm ((q + 2 ^ 30) * X64.P1)).
  rewrite <- (Zplus_mod_idemp_l ((v - d64) mod 2 ^ 64 * X64.P2)), Zmult_mod_idemp_l, Zplus_mod_idemp_l. unfold d64, X64.P1, X64.P2.
  replace ((v - 0x31b7ffd240000000) * 0xC2B2AE3D27D4EB4F + (q + 2 ^ 30) * 0x9E3779B185EBCA87)
    with (v * 0xC2B2AE3D27D4EB4F + q * 0x9E3779B185EBCA87 + ((2 ^ 30 * 0x9E3779B185EBCA87 - 0x31b7ffd240000000 * 0xC2B2AE3D27D4EB4F) / 2 ^ 64) * 2 ^ 64) by lia.
  rewrite Z_mod_plus_full. reflexivity.
Qed.
Lemma hash64_half seed v r1 r2 z : 0 <= seed < 2 ^ 63 -> 0 <= v < 2 ^ 64 -> zlen r1 = 24 -> zlen r2 = 24 ->
  X64.hash ((X3.bytes8 k64 ++ r1) ++ (X3.bytes8 v ++ r2) ++ z) seed =
  X64.hash ((X3.bytes8 (Z.lxor k64 (2 ^ 63)) ++ r1) ++ (X3.bytes8 ((v - d64) mod 2 ^ 64) ++ r2) ++ z) seed.
Proof.
  intros Hs Hv L1 L2. assert (LL : forall x r, zlen r = 24 -> zlen (X3.bytes8 x ++ r) = 32) by (intros; rewrite zlen_app, bytes8_len; lia).
  apply hash64_prefix; auto. unfold X64.init. rewrite !stripe64_first by (trivial; apply bytes8_len).
  rewrite (bytes8_val k64), (bytes8_val (Z.lxor k64 (2 ^ 63))), (bytes8_val v), (bytes8_val ((v - d64) mod 2 ^ 64))
    by first [exact Hv|apply mod_wd; lia|split; [discriminate|reflexivity]].
  f_equal. apply round64_half; trivial.
Qed.

(* ------------------------------------------------------------------ *)
(** ** XXH32 *)
(** four little-endian bytes *)
Definition bytes4 (x : Z) : list Z := map (fun i => x / 2 ^ (8 * i) mod 2 ^ 8) (upto 4).
Lemma bytes4_ok x : bytes_ok (bytes4 x).
Proof. apply Forall_forall. intros y Hy. apply in_map_iff in Hy. destruct Hy as (i & <- & _). apply Z.mod_pos_bound. reflexivity. Qed.
Lemma bytes4_len x : zlen (bytes4 x) = 4. Proof. reflexivity. Qed.
Lemma bytes4_val x : wd 32 x -> le_val (bytes4 x) = x.
Proof.
  intros [H0 H1]. unfold bytes4. change (upto 4) with [0; 1; 2; 3]. cbn [map le_val]. change (2 ^ (8 * 0)) with 1. change (2 ^ (8 * 1)) with 256.
  change (2 ^ (8 * 2)) with 65536. change (2 ^ (8 * 3)) with 16777216. change (2 ^ 8) with 256. dlia.
Qed.
Lemma hash32_prefix s0 s1 s0' s1' z seed : zlen s0 = 16 -> zlen s1 = 16 -> zlen s0' = 16 -> zlen s1' = 16 ->
  X32.stripe (X32.stripe (X32.init seed) s0) s1 = X32.stripe (X32.stripe (X32.init seed) s0') s1' ->
  X32.hash (s0 ++ s1 ++ z) seed = X32.hash (s0' ++ s1' ++ z) seed.
Proof.
  intros L0 L1 L0' L1' E. pose proof (zlen_nonneg z) as Lz.
  assert (G : forall t0 t1, zlen t0 = 16 -> zlen t1 = 16 -> X32.hash (t0 ++ t1 ++ z) seed =
    X32.avalanche (X32.tail ((X32.converge (fold_left (fun a i => X32.stripe a (seg z (16 * i) (16 * i + 16))) (upto (zlen z / 16)) (X32.stripe (X32.stripe (X32.init seed) t0) t1))
                              + (32 + zlen z)) mod 2 ^ 32) (zslice z (zlen z / 16 * 16) (zlen z - zlen z / 16 * 16)))).
  { intros t0 t1 T0 T1. rewrite hash32_unfold. replace (zlen (t0 ++ t1 ++ z)) with (32 + zlen z) by (rewrite !zlen_app; lia).
    replace (32 + zlen z <? 16) with false by lia. assert (D : (32 + zlen z) / 16 = 2 + zlen z / 16) by dlia. rewrite D.
    assert (Hd : 0 <= zlen z / 16 /\ 16 * (zlen z / 16) <= zlen z) by dlia.
    replace (zslice (t0 ++ t1 ++ z) _ _) with (zslice z (zlen z / 16 * 16) (zlen z - zlen z / 16 * 16)).
    2: { symmetry. rewrite (zslice_app_r t0), (zslice_app_r t1) by llia. f_equal; lia. }
    do 5 f_equal. unfold stripes32_n. rewrite fold_upto_add by lia.
    change (upto 2) with [0; 1]. cbn [fold_left].
    replace (seg (t0 ++ t1 ++ z) (16 * 0) (16 * 0 + 16)) with t0.
    2: { rewrite seg_zslice, zslice_app_l by llia. symmetry. apply zslice_all. lia. }
    replace (seg (t0 ++ t1 ++ z) (16 * 1) (16 * 1 + 16)) with t1.
    2: { rewrite seg_zslice, (zslice_app_r t0) by llia. rewrite zslice_app_l by llia. symmetry. rewrite T0. apply zslice_all. lia. }
    apply fold_upto_ext. intros i a Hi. f_equal. rewrite !seg_zslice, (zslice_app_r t0), (zslice_app_r t1) by llia. f_equal; lia. }
  rewrite !G by trivial. rewrite E. reflexivity.
Qed.
Lemma stripe32_first a0 a1 a2 a3 u r : zlen u = 4 -> zlen r = 12 ->
  X32.stripe [a0; a1; a2; a3] (u ++ r) =
  [X32.round a0 (le_val u); X32.round a1 (le_val (zslice r 0 4)); X32.round a2 (le_val (zslice r 4 4)); X32.round a3 (le_val (zslice r 8 4))].
Proof.
  intros Lu Lr. unfold X32.stripe. change (upto 4) with [0; 1; 2; 3]. cbn [combine map fst snd]. rewrite !LE_le_val, !seg_zslice.
  rewrite (zslice_app_l u) by lia. rewrite !(zslice_app_r u) by llia. rewrite Lu. rewrite (zslice_all u) by lia. reflexivity.
Qed.
Definition k32 : Z := 0x8d4cc0e8.
Definition d32 : Z := 0x33f17000.
Lemma round32_half seed v : 0 <= seed < 2 ^ 32 ->
  X32.round (X32.round ((seed + X32.P1 + X32.P2) mod X32.W) (Z.lxor k32 (2 ^ 31))) ((v - d32) mod X32.W) =
  X32.round (X32.round ((seed + X32.P1 + X32.P2) mod X32.W) k32) (if seed <? 2 ^ 31 then v else (v - 2 * d32) mod X32.W).
Proof.
  intros Hs. change (Z.lxor k32 (2 ^ 31)) with 0xd4cc0e8. unfold X32.round. change X32.W with (2 ^ 32).
  assert (T1 : ((seed + X32.P1 + X32.P2) mod 2 ^ 32 + k32 * X32.P2) mod 2 ^ 32 = seed).
  { rewrite Zplus_mod_idemp_l. unfold k32, X32.P1, X32.P2.
    replace (seed + 0x9E3779B1 + 0x85EBCA77 + 0x8d4cc0e8 * 0x85EBCA77) with (seed + ((0x9E3779B1 + 0x85EBCA77 + 0x8d4cc0e8 * 0x85EBCA77) / 2 ^ 32) * 2 ^ 32) by lia.
    rewrite Z_mod_plus_full. apply Z.mod_small. lia. }
  assert (T2 : ((seed + X32.P1 + X32.P2) mod 2 ^ 32 + 0xd4cc0e8 * X32.P2) mod 2 ^ 32 = (seed + 2 ^ 31) mod 2 ^ 32).
  { rewrite Zplus_mod_idemp_l. unfold X32.P1, X32.P2.
    replace (seed + 0x9E3779B1 + 0x85EBCA77 + 0xd4cc0e8 * 0x85EBCA77) with (seed + 2 ^ 31 + ((0x9E3779B1 + 0x85EBCA77 + 0xd4cc0e8 * 0x85EBCA77) / 2 ^ 32) * 2 ^ 32) by lia.
    rewrite Z_mod_plus_full. reflexivity. }
  rewrite T1, T2.
  assert (C : forall q u, (q * X32.P1 mod 2 ^ 32 + (u mod 2 ^ 32) * X32.P2) mod 2 ^ 32 = (q * X32.P1 + u * X32.P2) mod 2 ^ 32).
  { intros q u. rewrite Zplus_mod_idemp_l, <- Zplus_mod_idemp_r, Zmult_mod_idemp_l, Zplus_mod_idemp_r. reflexivity. }
  destruct (Z.ltb_spec seed (2 ^ 31)).
  - rewrite (Z.mod_small (seed + 2 ^ 31)) by lia. assert (R : rol 32 (seed + 2 ^ 31) 13 = rol 32 seed 13 + 2 ^ 12).
    { rewrite !rol_eq by lia. change (32 - 13) with 19. replace (seed + 2 ^ 31) with (seed + 2 ^ 12 * 2 ^ 19) by lia.
      rewrite Z_mod_plus_full, Z_div_plus_full by lia. lia. }
    rewrite R. generalize (rol 32 seed 13) as q. intros q. do 3 f_equal. rewrite C, Zplus_mod_idemp_l. unfold d32, X32.P1, X32.P2.
    replace ((q + 2 ^ 12) * 0x9E3779B1 + (v - 0x33f17000) * 0x85EBCA77)
      with (q * 0x9E3779B1 + v * 0x85EBCA77 + ((2 ^ 12 * 0x9E3779B1 - 0x33f17000 * 0x85EBCA77) / 2 ^ 32) * 2 ^ 32) by lia.
    apply Z_mod_plus_full.
  - replace ((seed + 2 ^ 31) mod 2 ^ 32) with (seed - 2 ^ 31) by (apply (Z.mod_unique_pos _ _ 1); lia).
    assert (R : rol 32 (seed - 2 ^ 31) 13 = rol 32 seed 13 - 2 ^ 12).
    { rewrite !rol_eq by lia. change (32 - 13) with 19. replace (seed - 2 ^ 31) with (seed + (- 2 ^ 12) * 2 ^ 19) by lia.
      rewrite Z_mod_plus_full, Z_div_plus_full by lia. lia. }
    rewrite R. generalize (rol 32 seed 13) as q. intros q. do 3 f_equal. rewrite !C. unfold d32, X32.P1, X32.P2.
    replace ((q - 2 ^ 12) * 0x9E3779B1 + (v - 0x33f17000) * 0x85EBCA77)
      with (q * 0x9E3779B1 + (v - 2 * 0x33f17000) * 0x85EBCA77 + ((- 2 ^ 12 * 0x9E3779B1 + 0x33f17000 * 0x85EBCA77) / 2 ^ 32) * 2 ^ 32) by lia.
    apply Z_mod_plus_full.
Qed.
Lemma hash32_half seed v r1 r2 z : 0 <= seed < 2 ^ 32 -> 0 <= v < 2 ^ 32 -> zlen r1 = 12 -> zlen r2 = 12 -> bytes_ok r1 -> bytes_ok r2 -> bytes_ok z ->
  X32.hash ((bytes4 k32 ++ r1) ++ (bytes4 v ++ r2) ++ z) seed =
  X32.hash ((bytes4 (Z.lxor k32 (2 ^ 31)) ++ r1) ++ (bytes4 ((v - d32) mod 2 ^ 32) ++ r2) ++ z) seed <-> seed < 2 ^ 31.
Proof.
  intros Hs Hv L1 L2 B1 B2 Bz. assert (LL : forall x r, zlen r = 12 -> zlen (bytes4 x ++ r) = 16) by (intros; rewrite zlen_app, bytes4_len; lia).
  assert (K : X32.hash ((bytes4 (Z.lxor k32 (2 ^ 31)) ++ r1) ++ (bytes4 ((v - d32) mod 2 ^ 32) ++ r2) ++ z) seed =
              X32.hash ((bytes4 k32 ++ r1) ++ (bytes4 (if seed <? 2 ^ 31 then v else (v - 2 * d32) mod 2 ^ 32) ++ r2) ++ z) seed).
  { apply hash32_prefix; auto. unfold X32.init. rewrite !stripe32_first by (trivial; apply bytes4_len).
    rewrite (bytes4_val k32), (bytes4_val (Z.lxor k32 (2 ^ 31))), (bytes4_val ((v - d32) mod 2 ^ 32)), (bytes4_val (if seed <? 2 ^ 31 then _ else _))
      by first [destruct (seed <? 2 ^ 31); [exact Hv|apply mod_wd; lia]|apply mod_wd; lia|split; [discriminate|reflexivity]].
    f_equal. apply round32_half; trivial. }
  rewrite K. destruct (Z.ltb_spec seed (2 ^ 31)) as [H|H]; [split; [intros _; exact H|reflexivity]|]. split; [|lia]. intros E. exfalso.
  rewrite <- !(app_assoc _ r2 z) in E. apply (hash32_word (bytes4 k32 ++ r1) _ _ (r2 ++ z) seed 4) in E; try apply bytes4_ok; try apply bytes4_len; try (apply bytes_ok_app; trivial; apply bytes4_ok).
  2: { rewrite LL by trivial. reflexivity. }
  apply (f_equal le_val) in E. rewrite !bytes4_val in E by first [exact Hv|apply mod_wd; lia].
  unfold d32 in E. change (2 ^ 32) with 4294967296 in *. dlia.
Qed.
