(** XXH3 streaming: digest, reset, whole sessions. *)
From Verif Require Import Base Mem M_XXH32 M_XXH64 M_XXH3 M_Kernels M_Long M_Stream3 Spec3 P_Base P_Spec P_XXH64 P_X3_Base P_X3_Short
  P_Kernels P_Kernels2 P_X3_Long P_Stream P_Stream3.

Section Digest.
Context (c : cfg) (s : list Z) (us : bool) (seed : Z) (m : list Z) (K : Z) (st : state3).
Hypothesis C : cfg_ok c.
Hypothesis R : rep3 c s us seed m K st.
Local Notation buf := (Ptr (s3_buffer st) (s3_adr st + 256) 0).

Lemma usz_id x : 0 <= x < 2 ^ 32 -> usz c x = x.
Proof. intros. unfold usz. apply Z.mod_small. destruct (ok_sz c C) as [-> | ->]; lia. Qed.

Lemma digest_long_ok : 240 < zlen m -> digest_long c st (state_secret st) = OK (X3.large_acc s m).
Proof.
  intros HL. destruct R as [RW RC RS RSO RL RN RSD RWS RU RT RK RLen RSZ RM RA RSF RB RTL].
  destruct RW as [WA WB WBB WC]. pose proof RSO as (BS & S136 & S8). pose proof (zlen_nonneg s) as Zs.
  assert (P32 : 2 ^ 32 <= 2 ^ szbits c) by (destruct (ok_sz c C) as [-> | ->]; lia).
  unfold digest_long, STRIPE_LEN, SECRET_LASTACC_START. rewrite RL, RN, RSF, RA, WB.
  change (- (64)) with (-64). change (- (7)) with (-7). remember (s3_bufferedSize st) as b eqn:Eb.
  rewrite (large_absorb s S136 m) by lia.
  assert (PB : points_to buf (s3_buffer st)) by apply local_points.
  assert (SP : padd (padd (state_secret st) (zlen s - 64)) (-7) = padd (state_secret st) (zlen s - 71)).
  { rewrite padd_padd. f_equal. lia. }
  rewrite SP. clear SP.
  destruct (Z.leb_spec 64 b) as [H|H].
  - assert (Hn : 0 <= (b - 1) / 64 <= 3 /\ 64 * ((b - 1) / 64) <= b - 1 < 64 * ((b - 1) / 64) + 64) by dlia.
    assert (EK : (zlen m - 1) / 64 = K + (b - 1) / 64).
    { rewrite RLen. replace (64 * K + b - 1) with (b - 1 + K * 64) by lia. rewrite Z.div_add by lia. lia. }
    rewrite EK. set (nn := (b - 1) / 64) in *. clearbody nn. rewrite <- (padd_0 buf).
    rewrite (consume_ok s S136 c (local_acc c) _ _ buf (s3_buffer st) (state_secret st) 0 K nn m); trivial; try lia.
    + cbn [bind]. rewrite !padd_padd. replace (0 + (b + -64)) with (b - 64) by lia.
      rewrite (accumulate_512_ok c (local_acc c) C (local_acc_aligned c) _ buf (s3_buffer st) (state_secret st) s);
        trivial; try lia; try apply absorb_wacc.
      f_equal. f_equal. rewrite !seg_zslice. replace (b - 64 + 64 - (b - 64)) with 64 by lia.
      replace (zlen m - (zlen m - 64)) with 64 by lia.
      pose proof (zslice_zslice (s3_buffer st) 0 b (b - 64) 64) as Z1. rewrite !Z.add_0_l in Z1. rewrite <- Z1 by lia.
      rewrite RB. rewrite zslice_zslice by lia. f_equal. lia.
    + apply accumulate_ok; trivial. apply local_acc_aligned.
    + apply scrambleAcc_ok; trivial. apply local_acc_aligned.
    + pose proof (zslice_zslice (s3_buffer st) 0 b 0 (64 * nn)) as Z1. rewrite !Z.add_0_l in Z1. rewrite <- Z1 by lia.
      rewrite RB. rewrite zslice_zslice by lia. f_equal. lia.
  - assert (HK : 4 <= K /\ 1 <= b) by lia. replace (0 <? b) with true by lia. cbn [assert_ bind].
    rewrite padd_padd. rewrite (load_at buf (s3_buffer st)) by (trivial; try discriminate; lia). cbn [bind].
    rewrite store_ok by llia. cbn [bind]. rewrite (load_at0 buf (s3_buffer st)) by (trivial; try discriminate; lia). cbn [bind].
    rewrite (zlen_zslice (s3_buffer st)) by lia. rewrite store_ok by llia. cbn [bind].
    rewrite zslice_0. rewrite (zlen_zslice (s3_buffer st)) by lia.
    assert (LR : zlen (repeat 0 64) = 64) by reflexivity. rewrite LR. set (zeros := repeat 0 64) in *. clearbody zeros.
    set (last := zslice _ 0 (64 - b) ++ _ ++ _).
    assert (EL : last = zslice m (zlen m - 64) 64).
    { subst last. replace (256 + - (64 - b)) with (192 + b) by lia.
      transitivity (zslice (s3_buffer st) (192 + b) (64 - b) ++ zslice (s3_buffer st) 0 b); [cbn [app]; list_eq|].
      rewrite RB. specialize (RTL ltac:(lia) ltac:(lia)).
      rewrite <- (zslice_zslice (s3_buffer st) 192 64 b (64 - b)) by lia. rewrite RTL. list_eq. }
    clearbody last. assert (LL : zlen last = 64) by (rewrite EL, zlen_zslice; lia).
    rewrite <- (padd_0 (Ptr last 1 0)).
    rewrite (accumulate_512_ok c (local_acc c) C (local_acc_aligned c) _ (Ptr last 1 0) last (state_secret st) s);
        trivial; try lia; try apply absorb_wacc; try apply local_points; [|subst last; apply bytes_ok_zslice; assumption].
    assert (EK : (zlen m - 1) / 64 = K) by dlia. rewrite EK.
    f_equal. f_equal. rewrite !seg_zslice. rewrite zslice_all by lia. rewrite EL. f_equal. lia.
Qed.

(** the parameters used on short inputs *)
Local Notation sec0 := (if us then X3.default_secret else s).
Local Notation seed0 := (if us then seed else 0).

Lemma short_points : zlen m <= 240 -> points_to buf m.
Proof.
  intros H. destruct R as [RW RC RS RSO RL RN RSD RWS RU RT RK RLen RSZ RM RA RSF RB RTL].
  destruct RW as [WA WB WBB WC]. assert (K = 0) by lia. subst K.
  assert (E : m = zslice (s3_buffer st) 0 (s3_bufferedSize st)).
  { rewrite RB. symmetry. apply zslice_all. lia. }
  rewrite E. rewrite <- (padd_0 buf). apply points_to_sub; try lia. apply local_points.
Qed.

Lemma digest64_ok' : zlen m < 2 ^ 64 -> XXH3_64bits_digest c st = OK (X3.hash64 sec0 seed0 s m).
Proof.
  intros L64. destruct R as [RW RC RS RSO RL RN RSD RWS RU RT RK RLen RSZ RM RA RSF RB RTL].
  pose proof (zlen_nonneg m) as Z0. pose proof RSO as (BS & S136 & S8). pose proof (zlen_nonneg s) as Zs.
  unfold XXH3_64bits_digest, MIDSIZE_MAX. rewrite RT, Z.mod_small by lia.
  unfold X3.hash64. change (len m) with (zlen m).
  destruct (Z.ltb_spec 240 (zlen m)) as [H|H].
  - replace (zlen m <=? 240) with false by lia. rewrite digest_long_ok by lia. cbn [bind]. unfold SECRET_MERGEACCS_START.
    rewrite (mergeAccs_ok c (state_secret st) s) by (trivial; try apply large_wacc; lia).
    unfold X3.large64. change (len m) with (zlen m). rewrite modW. unfold mul64. reflexivity.
  - replace (zlen m <=? 240) with true by lia. rewrite RU, RSD, RL. pose proof (short_points H) as PB.
    rewrite usz_id by lia. destruct us; cbn [Z.eqb negb].
    + rewrite XXH3_64bits_withSeed_ok by assumption. unfold X3.XXH3_64_withSeed, X3.hash64. change (len m) with (zlen m).
      replace (zlen m <=? 240) with true by lia. reflexivity.
    + unfold STRIPE_LEN. replace (usz c (zlen s - 64 + 64)) with (zlen s).
      2: { unfold usz. rewrite Z.mod_small; lia. }
      rewrite XXH3_64bits_withSecret_any by (trivial; lia). unfold X3.XXH3_64_withSecret, X3.hash64. change (len m) with (zlen m).
      replace (zlen m <=? 240) with true by lia. reflexivity.
Qed.
Lemma digest128_ok' : zlen m < 2 ^ 64 -> XXH3_128bits_digest c st = OK (X3.hash128 sec0 seed0 s m).
Proof.
  intros L64. destruct R as [RW RC RS RSO RL RN RSD RWS RU RT RK RLen RSZ RM RA RSF RB RTL].
  pose proof (zlen_nonneg m) as Z0. pose proof RSO as (BS & S136 & S8). pose proof (zlen_nonneg s) as Zs.
  unfold XXH3_128bits_digest, MIDSIZE_MAX. rewrite RT, Z.mod_small by lia.
  unfold X3.hash128. change (len m) with (zlen m).
  assert (US : usz c (zlen s - 64 + 64) = zlen s) by (unfold usz; rewrite Z.mod_small; lia).
  destruct (Z.ltb_spec 240 (zlen m)) as [H|H].
  - replace (zlen m <=? 240) with false by lia. rewrite digest_long_ok by lia. cbn [bind]. unfold SECRET_MERGEACCS_START, STRIPE_LEN.
    rewrite RL, US. replace (64 + 11 <=? zlen s) with true by lia. cbn [assert_ bind]. change (- (11)) with (-11).
    rewrite (mergeAccs_ok c (state_secret st) s) by (trivial; try apply large_wacc; lia). cbn [bind].
    rewrite !padd_padd. replace (zlen s - 64 + (64 + (-64 + -11))) with (zlen s - 75) by lia.
    replace (zlen s - 64 + 64 + -64 + -11) with (zlen s - 75) by lia.
    rewrite (mergeAccs_ok c (state_secret st) s) by (trivial; try apply large_wacc; lia). cbn [bind].
    unfold X3.large128. change (len m) with (zlen m). change (len s) with (zlen s). rewrite !modW. unfold mul64. reflexivity.
  - replace (zlen m <=? 240) with true by lia. rewrite RU, RSD, RL. pose proof (short_points H) as PB.
    rewrite usz_id by lia. destruct us; cbn [Z.eqb negb].
    + rewrite XXH3_128bits_withSeed_ok by assumption. unfold X3.XXH3_128_withSeed, X3.hash128. change (len m) with (zlen m).
      replace (zlen m <=? 240) with true by lia. reflexivity.
    + unfold STRIPE_LEN. rewrite US.
      rewrite XXH3_128bits_withSecret_any by (trivial; lia). unfold X3.XXH3_128_withSecret, X3.hash128. change (len m) with (zlen m).
      replace (zlen m <=? 240) with true by lia. reflexivity.
Qed.
End Digest.

(** ** reset *)
Lemma reset_internal_rep c st seed secret s (us : bool) custom : cfg_ok c -> raw3 st -> zlen custom = 192 ->
  secret_fits c s -> w64 seed ->
  (if is_null secret then s = custom /\ (seed <> 0 -> custom = X3.deriveSecret seed) else points_to secret s) ->
  forall st', st' = State3 (s3_adr st) INIT_ACC custom (s3_buffer st) 0 (if us then 1 else 0) 0 0
     (X3.stripesPerBlock s) (zlen s - 64) seed secret ->
  rep3 c s us seed [] 0 st'.
Proof.
  intros C [WA WB WBB WC] LC SO W H st' ->. constructor; cbn [s3_adr s3_acc s3_customSecret s3_buffer s3_bufferedSize s3_useSeed
      s3_nbStripesSoFar s3_totalLen s3_nbStripesPerBlock s3_secretLimit s3_seed s3_extSecret]; trivial; try reflexivity; try lia.
  - constructor; trivial.
  - intros E N. cbn in *. subst secret. cbn in H. apply H. assumption.
  - unfold state_secret. cbn. destruct (is_null secret) eqn:E; [|assumption]. destruct H as [-> _]. apply local_points.
  - constructor.
Qed.
Lemma limit_eq c s : cfg_ok c -> secret_fits c s -> usz c (zlen s - STRIPE_LEN) = zlen s - 64 /\ (zlen s - 64) / SECRET_CONSUME_RATE = X3.stripesPerBlock s.
Proof.
  intros C (_ & S1 & S2). split; [|reflexivity]. unfold usz, STRIPE_LEN. rewrite Z.mod_small; lia.
Qed.
Lemma reset_internal_eq c st seed secret s : cfg_ok c -> secret_fits c s ->
  XXH3_reset_internal c st seed secret (zlen s) =
  OK (State3 (s3_adr st) INIT_ACC (s3_customSecret st) (s3_buffer st) 0 (if seed =? 0 then 0 else 1) 0 0
     (X3.stripesPerBlock s) (zlen s - 64) seed secret).
Proof.
  intros C SO. pose proof (limit_eq c s C SO) as [E1 E2]. destruct SO as (_ & S1 & _). unfold XXH3_reset_internal, SECRET_SIZE_MIN.
  replace (136 <=? zlen s) with true by lia. cbn [assert_ bind]. rewrite E1, E2. reflexivity.
Qed.
Section Reset.
Context (c : cfg) (st : state3).
Hypothesis C : cfg_ok c.
Hypothesis RW : raw3 st.

Lemma reset_rep : exists st', XXH3_64bits_reset c (Some st) = OK (XXH_OK, Some st') /\
  rep3 c X3.default_secret false 0 [] 0 st' /\ s3_adr st' = s3_adr st.
Proof.
  unfold XXH3_64bits_reset. change 192 with (zlen kSecret). rewrite reset_internal_eq by (trivial; apply secret_ok_fits, kSecret_ok; trivial). cbn [bind].
  eexists. split; [reflexivity|]. split; [|reflexivity]. rewrite <- kSecret_default.
  eapply (reset_internal_rep c st 0 kSecret_ptr kSecret false (s3_customSecret st)); trivial.
  - apply RW.
  - apply secret_ok_fits, kSecret_ok; trivial.
  - unfold w64; lia.
  - cbn [is_null kSecret_ptr]. apply kSecret_points.
Qed.
Lemma reset_withSecret_rep secret s : points_to secret s -> secret_fits c s ->
  exists st', XXH3_64bits_reset_withSecret c (Some st) secret (zlen s) = OK (XXH_OK, Some st') /\
  rep3 c s false 0 [] 0 st' /\ s3_adr st' = s3_adr st.
Proof.
  intros PS SO. pose proof SO as (_ & S1 & _). unfold XXH3_64bits_reset_withSecret. rewrite reset_internal_eq by trivial. cbn [bind].
  assert (N : is_null secret = false) by (pose proof (points_to_nonnull secret s PS ltac:(lia)); destruct secret; [congruence|reflexivity]).
  rewrite N. unfold SECRET_SIZE_MIN. replace (zlen s <? 136) with false by lia.
  eexists. split; [reflexivity|]. split; [|reflexivity].
  eapply (reset_internal_rep c st 0 secret s false (s3_customSecret st)); trivial.
  - apply RW.
  - unfold w64; lia.
  - rewrite N. assumption.
Qed.
Lemma reset_withSecretandSeed_rep secret s seed : points_to secret s -> secret_fits c s -> w64 seed ->
  exists st', XXH3_64bits_reset_withSecretandSeed c (Some st) secret (zlen s) seed = OK (XXH_OK, Some st') /\
  rep3 c s true seed [] 0 st' /\ s3_adr st' = s3_adr st.
Proof.
  intros PS SO W. pose proof SO as (_ & S1 & _). unfold XXH3_64bits_reset_withSecretandSeed.
  assert (N : is_null secret = false) by (pose proof (points_to_nonnull secret s PS ltac:(lia)); destruct secret; [congruence|reflexivity]).
  rewrite N. unfold SECRET_SIZE_MIN. replace (zlen s <? 136) with false by lia. rewrite reset_internal_eq by trivial. cbn [bind].
  eexists. split; [reflexivity|]. split; [|reflexivity].
  eapply (reset_internal_rep c st seed secret s true (s3_customSecret st)); trivial.
  - apply RW.
  - rewrite N. assumption.
Qed.
Lemma reset_withSeed_rep seed : cache3 st -> w64 seed -> seed <> 0 ->
  exists st', XXH3_64bits_reset_withSeed c (Some st) seed = OK (XXH_OK, Some st') /\
  rep3 c (X3.deriveSecret seed) true seed [] 0 st' /\ s3_adr st' = s3_adr st.
Proof.
  intros CA W NZ. unfold XXH3_64bits_reset_withSeed. replace (seed =? 0) with false by lia.
  assert (E : (if negb (seed =? s3_seed st) || negb (is_null (s3_extSecret st))
      then initCustomSecret c (s3_adr st + 64) (s3_customSecret st) seed else OK (s3_customSecret st)) = OK (X3.deriveSecret seed)).
  { destruct (negb (seed =? s3_seed st) || negb (is_null (s3_extSecret st))) eqn:EB.
    - apply initCustomSecret_ok; trivial; [|apply RW]. apply align64. rewrite <- Zplus_mod_idemp_l, (w3_adr st RW). reflexivity.
    - apply orb_false_iff in EB. destruct EB as [E1 E2]. apply negb_false_iff, Z.eqb_eq in E1. apply negb_false_iff in E2.
      f_equal. subst seed. apply CA; trivial. destruct (s3_extSecret st); [reflexivity|discriminate]. }
  rewrite E. cbn [bind]. rewrite <- (derive_len seed). rewrite reset_internal_eq by (trivial; apply secret_ok_fits, derive_ok; trivial). cbn [bind].
  eexists. split; [reflexivity|]. split; [|reflexivity]. replace (seed =? 0) with false by lia.
  eapply (reset_internal_rep c st seed Null (X3.deriveSecret seed) true (X3.deriveSecret seed)); trivial.
  - apply secret_ok_fits, derive_ok; trivial.
  - cbn. tauto.
Qed.
End Reset.

(** ** feeding chunks *)
Lemma feed3_rep c s us seed calls chunks : cfg_ok c -> chunks_ok c 1 calls chunks ->
  forall m K st, rep3 c s us seed m K st ->
  exists K' st', feed (XXH3_64bits_update c) st calls = OK st' /\ rep3 c s us seed (m ++ concat chunks) K' st' /\ s3_adr st' = s3_adr st.
Proof.
  intros C H. induction H as [|[p n] d calls chunks (P & E & B & S) _ IH]; intros m K st R.
  - cbn [concat feed]. rewrite app_nil_r. eauto.
  - cbn [fst snd] in *. subst n. cbn [feed concat]. unfold XXH3_64bits_update at 1.
    pose proof (update_adr_aligned c st (r3_raw _ _ _ _ _ _ _ R)) as A.
    destruct (update3_ok c s us seed m K st p d (accumulate c) (scrambleAcc c)) as (K' & st' & -> & R' & Ad); trivial; try lia.
    + apply accumulate_ok; trivial.
    + apply scrambleAcc_ok; trivial.
    + cbn [bind]. rewrite app_assoc. destruct (IH _ _ _ R') as (K2 & st2 & -> & R2 & A2). do 2 eexists. split; [reflexivity|].
      split; [exact R2|congruence].
Qed.
