(** XXH3 on long inputs and the one-shot entry points, for every configuration. *)
From Verif Require Import Base Mem M_XXH32 M_XXH64 M_XXH3 M_Kernels M_Long Spec3 P_Base P_Spec P_XXH64 P_X3_Base P_X3_Short
  P_Kernels P_Kernels2.

Lemma init_acc_eq : INIT_ACC = X3.init_acc. Proof. reflexivity. Qed.
Lemma init_wacc : wacc INIT_ACC.
Proof. split; [reflexivity|]. repeat constructor; cbv; try discriminate; reflexivity. Qed.
Lemma acc_n_stripes s m o n acc : acc_n s m o 0 n acc = X3.accumulate_stripes s m o n acc.
Proof. unfold acc_n, X3.accumulate_stripes. apply fold_upto_ext. intros. rewrite Z.add_0_l. reflexivity. Qed.
Lemma stripes_wacc s m o n acc : wacc acc -> wacc (X3.accumulate_stripes s m o n acc).
Proof. intros. rewrite <- acc_n_stripes. apply acc_n_wacc. assumption. Qed.

(** secrets a build can handle: at least 136 bytes, and 8 * size fits a size_t *)
Definition secret_ok (c : cfg) (s : list Z) : Prop := bytes_ok s /\ 136 <= zlen s /\ 8 * (zlen s - 64) < 2 ^ szbits c.
(** secrets a caller can have: at least 136 bytes, and the size is a size_t *)
Definition secret_fits (c : cfg) (s : list Z) : Prop := bytes_ok s /\ 136 <= zlen s /\ zlen s < 2 ^ szbits c.
Lemma secret_ok_fits c s : secret_ok c s -> secret_fits c s.
Proof. intros (B & S1 & S2). repeat split; trivial. lia. Qed.

Section Long.
Context (c : cfg) (adr : Z) (input secret : ptr) (m s : list Z).
Hypothesis C : cfg_ok c.
Hypothesis PI : points_to input m.
Hypothesis BM : bytes_ok m.
Hypothesis PS : points_to secret s.
Hypothesis SO : secret_ok c s.
Hypothesis HL : 64 < zlen m.

Lemma loop_ok fa fs : aligned_adr adr (acc_align c) = true -> okacc c adr fa -> okscr c adr fs ->
  hashLong_internal_loop c adr INIT_ACC input (zlen m) secret (zlen s) fa fs = OK (X3.large_acc s m).
Proof.
  intros A Ha Hs. destruct SO as (BS & S1 & S2).
  unfold hashLong_internal_loop, STRIPE_LEN, SECRET_CONSUME_RATE, SECRET_LASTACC_START, SECRET_SIZE_MIN, usz, X3.large_acc.
  change (- (64)) with (-64).
  change (len m) with (zlen m). change (len s) with (zlen s).
  assert (Z32 : 2 ^ 32 <= 2 ^ szbits c) by (destruct (ok_sz c C) as [-> | ->]; lia).
  rewrite (Z.mod_small (zlen s - 64)) by lia. fold (X3.stripesPerBlock s).
  assert (N1 : 9 <= X3.stripesPerBlock s /\ 8 * X3.stripesPerBlock s <= zlen s - 64) by (unfold X3.stripesPerBlock; change (len s) with (zlen s); dlia).
  change ((zlen s - 64) / 8) with (X3.stripesPerBlock s).
  remember (X3.stripesPerBlock s) as n eqn:En.
  rewrite (Z.mod_small (64 * n)) by lia. set (B := 64 * n) in *.
  assert (HB : 576 <= B) by lia.
  replace (B =? 0) with false by lia. cbn [negb assert_ bind]. replace (136 <=? zlen s) with true by lia. cbn [assert_ bind].
  assert (Hnb : 0 <= (zlen m - 1) / B /\ B * ((zlen m - 1) / B) <= zlen m - 1 < B * ((zlen m - 1) / B) + B).
  { pose proof (Z.div_mod (zlen m - 1) B ltac:(lia)) as D. pose proof (Z.mod_pos_bound (zlen m - 1) B ltac:(lia)) as R.
    split; [apply Z.div_pos; lia|lia]. }
  set (nb := (zlen m - 1) / B) in *. clearbody nb.
  set (blocks := fun k => fold_left (fun a b => X3.round s m (B * b) a) (upto k) X3.init_acc).
  assert (Wb : forall k, wacc (blocks k)).
  { intros k. unfold blocks. apply fold_upto_inv; [apply init_wacc|]. intros; apply scramble_wacc. }
  rewrite (for_count _ (fun i => blocks (Z.of_nat i))).
  2: reflexivity.
  2: { intros i Hi. rewrite Z.add_0_l. rewrite <- (padd_0 secret) at 1.
       rewrite (Ha _ input m secret s) by (trivial; nia). cbn [bind]. rewrite padd_padd.
       replace (zlen s + -64) with (zlen s - 64) by lia.
       rewrite (Hs _ secret s) by (try apply acc_n_wacc; trivial; lia).
       replace (Z.of_nat (S i)) with (Z.of_nat i + 1) by lia. unfold blocks. rewrite fold_upto_S by lia.
       rewrite acc_n_stripes, (Z.mul_comm B), En. reflexivity. }
  cbn [bind]. rewrite Z2Nat.id by lia. replace (64 <? zlen m) with true by lia. cbn [assert_ bind].
  replace (zlen m - 1 - B * nb) with (zlen m - B * nb - 1) by lia.
  assert (Hst : 0 <= (zlen m - B * nb - 1) / 64 /\ 64 * ((zlen m - B * nb - 1) / 64) <= zlen m - B * nb - 1 /\
                (zlen m - B * nb - 1) / 64 <= n).
  { assert (64 * ((zlen m - B * nb - 1) / 64) < 64 * n + 64) by (fold B; dlia). split; [|split]; dlia. }
  set (ns := (zlen m - B * nb - 1) / 64) in *. clearbody ns.
  replace (ns <=? zlen s / 8) with true by (symmetry; apply Z.leb_le; apply Z.le_trans with n; [lia|]; apply Z.div_le_lower_bound; lia).
  cbn [assert_ bind]. rewrite <- (padd_0 secret) at 1.
  rewrite (Ha _ input m secret s) by (trivial; nia). cbn [bind]. rewrite !padd_padd.
  replace (zlen m + -64) with (zlen m - 64) by lia. replace (zlen s + (-64 - 7)) with (zlen s - 71) by lia.
  rewrite (accumulate_512_ok c adr C A _ input m secret s) by (try apply acc_n_wacc; trivial; lia).
  rewrite acc_n_stripes. replace (zlen m - 64 + 64) with (zlen m) by lia. rewrite (Z.mul_comm nb). reflexivity.
Qed.
End Long.
Section Merge.
Context (c : cfg) (secret : ptr) (s : list Z).
Hypothesis C : cfg_ok c.
Hypothesis PS : points_to secret s.
Hypothesis BS : bytes_ok s.
Lemma mergeAccs_ok acc o start : wacc acc -> 0 <= o -> o + 64 <= zlen s ->
  mergeAccs c acc (padd secret o) start = OK (X3.finalMerge s acc start o).
Proof.
  intros [L W] Ho H.
  destruct (len8 acc L) as (a0 & a1 & a2 & a3 & a4 & a5 & a6 & a7 & ->).
  repeat match goal with H : Forall _ (_ :: _) |- _ => inv H end.
  unfold mergeAccs, X3.finalMerge. rewrite upto4. cbn [for_ Z.add Pos.add Pos.succ fold_left]. unfold mix2Accs. rewrite !padd_padd.
  repeat (rewrite (R8 c secret s) by (trivial; lia); cbn [bind]).
  rewrite !fold64_ok by (apply xor_w64; [assumption|apply rd8_w64; [assumption|lia|lia]]).
  rewrite <- avalanche3_eq. rewrite !modW.
  change (2 * 0) with 0. change (2 * 1) with 2. change (2 * 2) with 4. change (2 * 3) with 6.
  change (16 * 0) with 0. change (16 * 1) with 16. change (16 * 2) with 32. change (16 * 3) with 48.
  reflexivity.
Qed.
End Merge.

(** a local array *)
Lemma local_points l a : points_to (Ptr l a 0) l.
Proof. exists [], []. rewrite app_nil_r. split; reflexivity. Qed.
Lemma derive_len seed : zlen (X3.deriveSecret seed) = 192.
Proof. rewrite derive_eq. apply (pre_len seed 24). lia. Qed.
Lemma derive_bytes seed : bytes_ok (X3.deriveSecret seed).
Proof.
  rewrite derive_eq. apply Forall_forall. intros x Hx. apply in_flat_map in Hx. destruct Hx as (w & _ & Hx).
  pose proof (le_bytes_ok 8 w) as B. unfold bytes_ok in B. rewrite Forall_forall in B. apply B. assumption.
Qed.
Lemma derive_0 : X3.deriveSecret 0 = kSecret.
Proof. vm_compute. reflexivity. Qed.
Lemma kSecret_ok c : cfg_ok c -> secret_ok c kSecret.
Proof.
  intros C. split; [apply kSecret_bytes|]. rewrite kSecret_len. destruct (ok_sz c C) as [-> | ->]; lia.
Qed.
Lemma derive_ok c seed : cfg_ok c -> secret_ok c (X3.deriveSecret seed).
Proof.
  intros C. split; [apply derive_bytes|]. rewrite derive_len. destruct (ok_sz c C) as [-> | ->]; lia.
Qed.
Lemma local_acc_aligned c : aligned_adr (local_acc c) (acc_align c) = true.
Proof. unfold local_acc, acc_align. destruct (x86dispatch c); [reflexivity|]. destruct (vec c); reflexivity. Qed.
Lemma local_sec_aligned c : aligned_adr (local_sec c) (sec_align c) = true.
Proof. unfold local_sec, sec_align, acc_align. destruct (x86dispatch c); [reflexivity|]. destruct (vec c); reflexivity. Qed.

Section Oneshot.
Context (c : cfg) (input : ptr) (m : list Z).
Hypothesis C : cfg_ok c.
Hypothesis PI : points_to input m.
Hypothesis BM : bytes_ok m.

Lemma large_wacc s : wacc (X3.large_acc s m).
Proof. unfold X3.large_acc. apply accumulate_wacc. Qed.

(** any triple of correct kernels *)
Lemma long64_ok fa fs secret s : okacc c (local_acc c) fa -> okscr c (local_acc c) fs -> points_to secret s -> secret_ok c s ->
  64 < zlen m -> hashLong_64b_internal c input (zlen m) secret (zlen s) fa fs = OK (X3.large64 s m).
Proof.
  intros Ha Hs PS SO HL. pose proof SO as (BS & S1 & _). unfold hashLong_64b_internal.
  rewrite (loop_ok c (local_acc c) input secret m s) by (trivial; apply local_acc_aligned). cbn [bind].
  unfold SECRET_MERGEACCS_START. change (- (11)) with (-11). replace (64 + 11 <=? zlen s) with true by lia. cbn [assert_ bind].
  rewrite (mergeAccs_ok c secret s) by (trivial; try apply large_wacc; lia).
  unfold X3.large64. change (len m) with (zlen m). rewrite modW. unfold mul64. rewrite u64_mul_l. reflexivity.
Qed.
Lemma long128_ok fa fs secret s : okacc c (local_acc c) fa -> okscr c (local_acc c) fs -> points_to secret s -> secret_ok c s ->
  64 < zlen m -> hashLong_128b_internal c input (zlen m) secret (zlen s) fa fs = OK (X3.large128 s m).
Proof.
  intros Ha Hs PS SO HL. pose proof SO as (BS & S1 & _). unfold hashLong_128b_internal.
  rewrite (loop_ok c (local_acc c) input secret m s) by (trivial; apply local_acc_aligned). cbn [bind].
  unfold SECRET_MERGEACCS_START. change (- (11)) with (-11). replace (64 + 11 <=? zlen s) with true by lia. cbn [assert_ bind].
  rewrite !padd_padd. replace (zlen s + -64 + -11) with (zlen s - 75) by lia.
  rewrite (mergeAccs_ok c secret s) by (trivial; try apply large_wacc; lia). cbn [bind].
  rewrite (mergeAccs_ok c secret s) by (trivial; try apply large_wacc; lia). cbn [bind].
  unfold X3.large128. change (len m) with (zlen m). change (len s) with (zlen s). rewrite !modW. unfold mul64. rewrite !u64_mul_l. reflexivity.
Qed.
Lemma accs : okacc c (local_acc c) (accumulate c) /\ okscr c (local_acc c) (scrambleAcc c) /\ okinit c (local_sec c) (initCustomSecret c).
Proof.
  split; [|split]; [apply accumulate_ok | apply scrambleAcc_ok | apply initCustomSecret_ok]; trivial;
    try apply local_acc_aligned; apply local_sec_aligned.
Qed.
Lemma seed64_ok fa fs fi seed : okacc c (local_acc c) fa -> okscr c (local_acc c) fs -> okinit c (local_sec c) fi -> w64 seed ->
  64 < zlen m -> hashLong_64b_withSeed_internal c input (zlen m) seed fa fs fi = OK (X3.large64 (X3.deriveSecret seed) m).
Proof.
  intros Ha Hs Hi W HL. unfold hashLong_64b_withSeed_internal.
  destruct ((size_opt c <=? 0) && (seed =? 0)) eqn:E.
  - apply andb_true_iff in E. destruct E as [_ E]. apply Z.eqb_eq in E. subst seed. rewrite derive_0.
    change 192 with (zlen kSecret). apply long64_ok; trivial; [apply kSecret_points|apply kSecret_ok; assumption].
  - rewrite Hi by (trivial; reflexivity). cbn [bind]. rewrite <- (derive_len seed).
    apply long64_ok; trivial; [apply local_points|apply derive_ok; assumption].
Qed.
Lemma seed128_ok fa fs fi seed : okacc c (local_acc c) fa -> okscr c (local_acc c) fs -> okinit c (local_sec c) fi -> w64 seed ->
  64 < zlen m -> hashLong_128b_withSeed_internal c input (zlen m) seed fa fs fi = OK (X3.large128 (X3.deriveSecret seed) m).
Proof.
  intros Ha Hs Hi W HL. unfold hashLong_128b_withSeed_internal.
  destruct (seed =? 0) eqn:E.
  - apply Z.eqb_eq in E. subst seed. rewrite derive_0.
    change 192 with (zlen kSecret). apply long128_ok; trivial; [apply kSecret_points|apply kSecret_ok; assumption].
  - rewrite Hi by (trivial; reflexivity). cbn [bind]. rewrite <- (derive_len seed).
    apply long128_ok; trivial; [apply local_points|apply derive_ok; assumption].
Qed.

(** dispatch on the length *)
Lemma internal64 secret s seed f large : points_to secret s -> bytes_ok s -> 136 <= zlen s -> w64 seed ->
  (240 < zlen m -> f input (zlen m) seed secret (zlen s) = OK (X3.large64 large m)) ->
  XXH3_64bits_internal c input (zlen m) seed secret (zlen s) f = OK (X3.hash64 s seed large m).
Proof.
  intros PS BS S1 W Hf. unfold XXH3_64bits_internal, SECRET_SIZE_MIN, MIDSIZE_MAX, X3.hash64. change (len m) with (zlen m).
  replace (136 <=? zlen s) with true by lia. cbn [assert_ bind].
  pose proof (zlen_nonneg m) as Z0.
  destruct (Z.leb_spec (zlen m) 16). { replace (zlen m <=? 240) with true by lia. apply len_0to16_64; trivial. }
  destruct (Z.leb_spec (zlen m) 128). { replace (zlen m <=? 240) with true by lia. apply len_17to128_64; trivial; lia. }
  destruct (Z.leb_spec (zlen m) 240). { apply len_129to240_64; trivial; lia. }
  apply Hf. lia.
Qed.
Lemma internal128 secret s seed f large : points_to secret s -> bytes_ok s -> 136 <= zlen s -> w64 seed ->
  (240 < zlen m -> f input (zlen m) seed secret (zlen s) = OK (X3.large128 large m)) ->
  XXH3_128bits_internal c input (zlen m) seed secret (zlen s) f = OK (X3.hash128 s seed large m).
Proof.
  intros PS BS S1 W Hf. unfold XXH3_128bits_internal, SECRET_SIZE_MIN, MIDSIZE_MAX, X3.hash128. change (len m) with (zlen m).
  replace (136 <=? zlen s) with true by lia. cbn [assert_ bind].
  pose proof (zlen_nonneg m) as Z0.
  destruct (Z.leb_spec (zlen m) 16). { replace (zlen m <=? 240) with true by lia. apply len_0to16_128; trivial. }
  destruct (Z.leb_spec (zlen m) 128). { replace (zlen m <=? 240) with true by lia. apply len_17to128_128; trivial; lia. }
  destruct (Z.leb_spec (zlen m) 240). { apply len_129to240_128; trivial; lia. }
  apply Hf. lia.
Qed.
Ltac ks := try apply kSecret_points; try apply kSecret_bytes; try (apply kSecret_ok; assumption); try (rewrite kSecret_len; lia);
           try (unfold w64; lia).

Theorem XXH3_64bits_ok : XXH3_64bits c input (zlen m) = OK (X3.XXH3_64 m).
Proof.
  destruct accs as (Ha & Hs & Hi). unfold XXH3_64bits, X3.XXH3_64. rewrite <- kSecret_default.
  change 192 with (zlen kSecret). apply internal64; ks. intros H. unfold hashLong_64b_default. change 192 with (zlen kSecret). apply long64_ok; trivial; ks; lia.
Qed.
Theorem XXH3_64bits_withSecret_any secret s : points_to secret s -> bytes_ok s -> 136 <= zlen s -> (240 < zlen m -> 8 * (zlen s - 64) < 2 ^ szbits c) ->
  XXH3_64bits_withSecret c input (zlen m) secret (zlen s) = OK (X3.XXH3_64_withSecret s m).
Proof.
  intros PS BS S1 S2. destruct accs as (Ha & Hs & Hi). unfold XXH3_64bits_withSecret, X3.XXH3_64_withSecret.
  apply internal64; trivial; ks. intros H. apply long64_ok; trivial; [repeat split; auto|lia].
Qed.
Theorem XXH3_64bits_withSeed_ok seed : w64 seed ->
  XXH3_64bits_withSeed c input (zlen m) seed = OK (X3.XXH3_64_withSeed seed m).
Proof.
  intros W. destruct accs as (Ha & Hs & Hi). unfold XXH3_64bits_withSeed, X3.XXH3_64_withSeed. rewrite <- kSecret_default.
  change 192 with (zlen kSecret). apply internal64; trivial; ks. intros H. apply seed64_ok; trivial; lia.
Qed.
Theorem XXH3_64bits_withSecretandSeed_any secret s seed : points_to secret s -> bytes_ok s -> 136 <= zlen s -> (240 < zlen m -> 8 * (zlen s - 64) < 2 ^ szbits c) -> w64 seed ->
  XXH3_64bits_withSecretandSeed c input (zlen m) secret (zlen s) seed = OK (X3.XXH3_64_withSecretandSeed s seed m).
Proof.
  intros PS BS S1 S2 W. destruct accs as (Ha & Hs & Hi). unfold XXH3_64bits_withSecretandSeed, X3.XXH3_64_withSecretandSeed, MIDSIZE_MAX.
  rewrite <- kSecret_default. destruct (Z.leb_spec (zlen m) 240).
  - change 192 with (zlen kSecret). apply internal64; trivial; ks; intros; lia.
  - unfold X3.hash64. change (len m) with (zlen m). replace (zlen m <=? 240) with false by lia. apply long64_ok; trivial; [repeat split; auto|lia].
Qed.
Theorem XXH3_128bits_ok : XXH3_128bits c input (zlen m) = OK (X3.XXH3_128 m).
Proof.
  destruct accs as (Ha & Hs & Hi). unfold XXH3_128bits, X3.XXH3_128. rewrite <- kSecret_default.
  change 192 with (zlen kSecret). apply internal128; ks. intros H. unfold hashLong_128b_default. change 192 with (zlen kSecret). apply long128_ok; trivial; ks; lia.
Qed.
Theorem XXH3_128bits_withSecret_any secret s : points_to secret s -> bytes_ok s -> 136 <= zlen s -> (240 < zlen m -> 8 * (zlen s - 64) < 2 ^ szbits c) ->
  XXH3_128bits_withSecret c input (zlen m) secret (zlen s) = OK (X3.XXH3_128_withSecret s m).
Proof.
  intros PS BS S1 S2. destruct accs as (Ha & Hs & Hi). unfold XXH3_128bits_withSecret, X3.XXH3_128_withSecret.
  apply internal128; trivial; ks. intros H. apply long128_ok; trivial; [repeat split; auto|lia].
Qed.
Theorem XXH3_128bits_withSeed_ok seed : w64 seed ->
  XXH3_128bits_withSeed c input (zlen m) seed = OK (X3.XXH3_128_withSeed seed m).
Proof.
  intros W. destruct accs as (Ha & Hs & Hi). unfold XXH3_128bits_withSeed, X3.XXH3_128_withSeed. rewrite <- kSecret_default.
  change 192 with (zlen kSecret). apply internal128; trivial; ks. intros H. apply seed128_ok; trivial; lia.
Qed.
Theorem XXH3_128bits_withSecretandSeed_any secret s seed : points_to secret s -> bytes_ok s -> 136 <= zlen s -> (240 < zlen m -> 8 * (zlen s - 64) < 2 ^ szbits c) -> w64 seed ->
  XXH3_128bits_withSecretandSeed c input (zlen m) secret (zlen s) seed = OK (X3.XXH3_128_withSecretandSeed s seed m).
Proof.
  intros PS BS S1 S2 W. destruct accs as (Ha & Hs & Hi). unfold XXH3_128bits_withSecretandSeed, X3.XXH3_128_withSecretandSeed, MIDSIZE_MAX.
  rewrite <- kSecret_default. destruct (Z.leb_spec (zlen m) 240).
  - change 192 with (zlen kSecret). apply internal128; trivial; ks; intros; lia.
  - unfold X3.hash128. change (len m) with (zlen m). replace (zlen m <=? 240) with false by lia. apply long128_ok; trivial; [repeat split; auto|lia].
Qed.
End Oneshot.
