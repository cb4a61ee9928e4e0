(** Proofs about the x86 dispatcher (M_Dispatch). *)
From Verif Require Import Base Mem M_XXH32 M_XXH64 M_XXH3 M_Kernels M_Long M_Stream3 M_Dispatch SpecCpu Spec3 P_Base P_Spec
  P_X3_Base P_X3_Short P_Kernels P_Kernels2 P_X3_Long P_Stream P_Stream3 P_Stream4.

(** ** masks are conjunctions of bits *)
Lemma land_ones_iff x b n : 0 <= n -> Z.land x b = b <-> (forall i, 0 <= i -> Z.testbit b i = true -> Z.testbit x i = true).
Proof.
  intros _. split.
  - intros E i Hi Hb. rewrite <- E, Z.land_spec in Hb. apply andb_true_iff in Hb. apply Hb.
  - intros H. apply Z.bits_inj'. intros i Hi. rewrite Z.land_spec. destruct (Z.testbit b i) eqn:E.
    + rewrite H by trivial. reflexivity.
    + apply andb_false_r.
Qed.
Lemma testbit_shl1 k i : 0 <= k -> 0 <= i -> Z.testbit (Z.shiftl 1 k) i = (i =? k).
Proof.
  intros Hk Hi. rewrite Z.shiftl_1_l, Z.pow2_bits_eqb by trivial. apply Z.eqb_sym.
Qed.
Lemma lacks_bit x k : 0 <= k -> lacks x (Z.shiftl 1 k) = negb (Z.testbit x k).
Proof.
  intros Hk. unfold lacks. f_equal. apply eq_true_iff_eq. rewrite Z.eqb_eq, (land_ones_iff x _ 0) by lia. split.
  - intros H. apply H; trivial. rewrite testbit_shl1 by lia. apply Z.eqb_refl.
  - intros H i Hi Hb. rewrite testbit_shl1 in Hb by lia. apply Z.eqb_eq in Hb. subst. exact H.
Qed.
Lemma lacks_lor x a b : lacks x (Z.lor a b) = lacks x a || lacks x b.
Proof.
  unfold lacks. rewrite <- negb_andb. f_equal. apply eq_true_iff_eq. rewrite andb_true_iff, !Z.eqb_eq, !(land_ones_iff x _ 0) by lia. split.
  - intros H. split; intros i Hi Hb; apply H; trivial; rewrite Z.lor_spec, Hb; [reflexivity|apply orb_true_r].
  - intros [H1 H2] i Hi Hb. rewrite Z.lor_spec in Hb. apply orb_true_iff in Hb. destruct Hb; auto.
Qed.
Lemma lacks_sse2 x : lacks x SSE2_CPUID_MASK = negb (Z.testbit x 26).
Proof. apply lacks_bit; lia. Qed.
Lemma lacks_osxsave x : lacks x OSXSAVE_CPUID_MASK = negb (Z.testbit x 26 && Z.testbit x 27).
Proof. unfold OSXSAVE_CPUID_MASK. rewrite lacks_lor, !lacks_bit by lia. rewrite negb_andb. reflexivity. Qed.
Lemma lacks_avx2 x : lacks x AVX2_CPUID_MASK = negb (Z.testbit x 5).
Proof. apply lacks_bit; lia. Qed.
Lemma lacks_avx512 x : lacks x AVX512F_CPUID_MASK = negb (Z.testbit x 16).
Proof. apply lacks_bit; lia. Qed.
Lemma lacks_ymm x : lacks x AVX2_XGETBV_MASK = negb (Z.testbit x 2 && Z.testbit x 1).
Proof. unfold AVX2_XGETBV_MASK. rewrite lacks_lor, !lacks_bit by lia. rewrite negb_andb. reflexivity. Qed.
Lemma lacks_zmm x : lacks x AVX512F_XGETBV_MASK =
  negb (Z.testbit x 5 && Z.testbit x 6 && Z.testbit x 7 && Z.testbit x 2 && Z.testbit x 1).
Proof.
  unfold AVX512F_XGETBV_MASK. change (Z.shiftl 7 5) with (Z.lor (Z.lor (Z.shiftl 1 5) (Z.shiftl 1 6)) (Z.shiftl 1 7)).
  rewrite !lacks_lor, !lacks_bit by lia. rewrite !negb_andb. reflexivity.
Qed.

Ltac dconj := repeat match goal with H : _ /\ _ |- _ => destruct H end.
Lemma featureTest_ok d p : (d_gnu_i386 d = true \/ has_cpuid p = true) -> regs_ok p ->
  exists v, featureTest d p = OK v /\
    ( v = 0 \/
      v = 1 /\ has_cpuid p = true /\ sse2_ok p \/
      v = 2 /\ has_cpuid p = true /\ sse2_ok p /\ avx2_ok p /\ d_avx2 d = true \/
      v = 3 /\ has_cpuid p = true /\ sse2_ok p /\ avx512_ok p /\ d_avx512 d = true ) /\
    (has_cpuid p = true -> sse2_ok p -> 1 <= v) /\
    (has_cpuid p = true -> sse2_ok p -> Z.testbit (ecx_of (cpuid p 1 0)) 26 = true -> avx2_ok p -> d_avx2 d = true -> 2 <= v) /\
    (has_cpuid p = true -> sse2_ok p -> Z.testbit (ecx_of (cpuid p 1 0)) 26 = true -> avx512_ok p -> d_avx512 d = true ->
      (d_avx2 d = true -> Z.testbit (ebx_of (cpuid p 7 0)) 5 = true) -> v = 3).
Proof.
  intros HC RO. change ecx_of with r_ecx. change ebx_of with r_ebx. unfold featureTest, XXH_cpuid, XXH_xgetbv, regs_ok, avx512_ok, avx2_ok, zmm_ok, ymm_ok, sse2_ok,
    XXH_SCALAR, XXH_SSE2, XXH_AVX2, XXH_AVX512 in *.
  change eax_of with r_eax in *. change ebx_of with r_ebx. change ecx_of with r_ecx. change edx_of with r_edx.
  destruct (has_cpuid p).
  2:{ destruct HC as [->|]; [|discriminate]. cbn. eexists; split; [reflexivity|]. repeat split; intros; auto; discriminate. }
  rewrite andb_false_r. cbn [bind andb]. clear HC.
  rewrite lacks_sse2, lacks_osxsave, lacks_avx2, lacks_avx512.
  remember (r_eax (cpuid p 0 0)) as m eqn:Em. clear Em.
  remember (Z.testbit (r_edx (cpuid p 1 0)) 26) as b1 eqn:Eb1; clear Eb1.
  remember (Z.testbit (r_ecx (cpuid p 1 0)) 26) as b2 eqn:Eb2; clear Eb2.
  remember (Z.testbit (r_ecx (cpuid p 1 0)) 27) as b3 eqn:Eb3; clear Eb3.
  remember (Z.testbit (r_ebx (cpuid p 7 0)) 5) as b4 eqn:Eb4; clear Eb4.
  remember (Z.testbit (r_ebx (cpuid p 7 0)) 16) as b5 eqn:Eb5; clear Eb5.
  destruct (Z.eqb_spec m 0) as [E0|E0]. { subst m. exists 0; split; [reflexivity|]. split; [left; reflexivity|].
    split; [|split]; intros; exfalso; dconj; match goal with H : 1 <= 0 |- _ => exact (H eq_refl) end. }
  assert (M1 : 1 <= m) by lia. clear E0 RO.
  destruct b1; cbn [negb].
  2:{ exists 0; split; [reflexivity|]. split; [left; reflexivity|]. split; [|split]; intros; exfalso; dconj; discriminate. }
  destruct (Z.ltb_spec m 7) as [E7|E7].
  { destruct (d_avx2 d || d_avx512 d); (exists 1; split; [reflexivity|]; split; [right; left; auto|];
      split; [|split]; intros; dconj; first [apply Z.le_refl | match goal with H : 7 <= m |- _ => destruct (Z.lt_irrefl 7); apply (Z.le_lt_trans _ m); assumption end]). }
  destruct (d_avx2 d || d_avx512 d) eqn:ED.
  2:{ apply orb_false_iff in ED. destruct ED as [-> ->]. exists 1; split; [reflexivity|].
      split; [right; left; auto|]. split; [|split]; intros; try discriminate; lia. }
  destruct b2; cbn [negb andb].
  2:{ exists 1; split; [reflexivity|]. split; [right; left; auto|]. split; [|split]; intros; try discriminate; lia. }
  destruct b3; cbn [negb andb].
  2:{ exists 1; split; [reflexivity|]. split; [right; left; auto|]. split; [|split]; intros; dconj; first [discriminate|lia]. }
  cbn [bind]. rewrite lacks_ymm, lacks_zmm.
  remember (Z.testbit (xcr0 p) 1) as x1 eqn:Ex1; clear Ex1. remember (Z.testbit (xcr0 p) 2) as x2 eqn:Ex2; clear Ex2.
  remember (Z.testbit (xcr0 p) 5) as x5 eqn:Ex5; clear Ex5. remember (Z.testbit (xcr0 p) 6) as x6 eqn:Ex6; clear Ex6.
  remember (Z.testbit (xcr0 p) 7) as x7 eqn:Ex7; clear Ex7.
  assert (I1 : 1 <= 1) by lia. assert (I2 : 1 <= 2) by lia. assert (I3 : 1 <= 3) by lia. assert (I4 : 2 <= 2) by lia. assert (I5 : 2 <= 3) by lia.
  destruct (d_avx2 d), (d_avx512 d); try discriminate; clear ED;
  destruct b4, b5, x1, x2; cbn [negb andb];
    destruct x5, x6, x7; cbn [negb andb];
    (eexists; split; [reflexivity|]; split;
      [ first [ right; right; right; repeat split; trivial; fail | right; right; left; repeat split; trivial; fail | right; left; repeat split; trivial; fail ]
      | split; [|split]; intros; trivial; dconj; first [discriminate | match goal with H : true = true -> false = true |- _ => discriminate (H eq_refl) end] ]).
Qed.

(** ** the kernels of every suffix are correct in the dispatcher's translation unit *)
Record good (c : cfg) (k : kernels) : Prop := Good {
  gd_acc  : forall adr, adr mod 64 = 0 -> okacc c adr (k_acc k);
  gd_scr  : forall adr, adr mod 64 = 0 -> okscr c adr (k_scr k);
  gd_init : forall adr, adr mod 64 = 0 -> okinit c adr (k_init k) }.
Lemma al (adr k : Z) : adr mod 64 = 0 -> 0 <= k <= 6 -> aligned_adr adr (2 ^ k) = true.
Proof.
  intros H Hk. eapply (aligned_weaken adr k 6); [exact Hk|]. rewrite aligned_adr_mod by lia. apply Z.eqb_eq. exact H.
Qed.
Lemma good_scalar c : cfg_ok c -> good c (k_scalar c).
Proof.
  intros C. constructor; intros adr A; cbn [k_scalar k_acc k_scr k_init].
  - apply template_ok, scalar512; [assumption|apply align64; assumption].
  - apply scalar_scr; [assumption|apply align64; assumption].
  - apply scalar_init; assumption.
Qed.
Lemma good_sse2 c : cfg_ok c -> cpu_le c = true -> good c (k_sse2 c).
Proof.
  intros C LE. constructor; intros adr A; cbn [k_sse2 k_acc k_scr k_init]; pose proof (al adr 4 A ltac:(lia)) as A'; change (2 ^ 4) with 16 in A'.
  - apply template_ok, sse2_512; assumption.
  - apply sse2_scr; assumption.
  - apply sse2_init; assumption.
Qed.
Lemma good_avx2 c : cfg_ok c -> cpu_le c = true -> good c (k_avx2 c).
Proof.
  intros C LE. constructor; intros adr A; cbn [k_avx2 k_acc k_scr k_init]; pose proof (al adr 5 A ltac:(lia)) as A'; change (2 ^ 5) with 32 in A'.
  - apply template_ok, avx2_512; assumption.
  - apply avx2_scr; assumption.
  - apply avx2_init; assumption.
Qed.
Lemma good_avx512 c : cfg_ok c -> cpu_le c = true -> good c (k_avx512 c).
Proof.
  intros C LE. constructor; intros adr A; cbn [k_avx512 k_acc k_scr k_init]; pose proof (al adr 6 A ltac:(lia)) as A'; change (2 ^ 6) with 64 in A'.
  - apply template_ok, avx512_512; assumption.
  - apply avx512_scr; assumption.
  - apply avx512_init; assumption.
Qed.

Ltac ks := try apply kSecret_points; try apply kSecret_bytes; try (apply kSecret_ok; assumption); try (rewrite kSecret_len; lia);
           try (unfold w64; lia).

(** ** the globals *)
Section Globals.
Context (c : cfg) (d : dcfg) (p : cpu).
Hypothesis C : cfg_ok c.
Hypothesis X : x86dispatch c = true.
Hypothesis LE : cpu_le c = true.
(** the processor runs the test, and the row it selects exists *)
Definition runs : Prop := (d_gnu_i386 d = true \/ has_cpuid p = true) /\ regs_ok p.
Definition covered : Prop := d_scalar d = true \/ has_cpuid p = true /\ sse2_ok p.
Hypothesis R : runs.
Hypothesis V : covered.

Definition grow (g : globals) : Prop := exists k, good c k /\ g = Globals (row64 c k) (row128 c k).
Definition ginv (g : globals) : Prop := maybe_null d = true /\ g = g_zero \/ grow g.

Lemma setDispatch_ok g : exists g', setDispatch c d p g = OK g' /\ grow g'.
Proof.
  destruct R as [R1 R2]. destruct (featureTest_ok d p R1 R2) as (v & E & S & L1 & _).
  unfold setDispatch. rewrite E. cbn [bind]. unfold kDispatch, kDispatch128.
  destruct S as [->|[(-> & _)|[(-> & _ & _ & _ & ->)|(-> & _ & _ & _ & ->)]]]; cbn [tget Z.ltb Z.compare nth_error Z.to_nat Pos.to_nat bind];
    unfold tget; cbn [Z.ltb Z.compare].
  - destruct V as [->|[H1 H2]]; [|specialize (L1 H1 H2); lia]. cbn. eexists; split; [reflexivity|]. exists (k_scalar c).
    split; [apply good_scalar; assumption|reflexivity].
  - cbn. eexists; split; [reflexivity|]. exists (k_sse2 c). split; [apply good_sse2; assumption|reflexivity].
  - cbn. eexists; split; [reflexivity|]. exists (k_avx2 c). split; [apply good_avx2; assumption|reflexivity].
  - cbn. eexists; split; [reflexivity|]. exists (k_avx512 c). split; [apply good_avx512; assumption|reflexivity].
Qed.
Lemma start_ok : exists g, g_start c d p = OK g /\ ginv g.
Proof.
  unfold g_start. destruct (maybe_null d) eqn:E.
  - eexists; split; [reflexivity|left; auto].
  - destruct (setDispatch_ok g_zero) as (g & -> & G). exists g. split; [reflexivity|right; exact G].
Qed.
(** a slot present in every complete row *)
Lemma ensure_ok {A} (slot : globals -> option A) g : ginv g -> slot g_zero = None -> (forall k, slot (Globals (row64 c k) (row128 c k)) <> None) ->
  exists g', ensure c d p slot g = OK g' /\ grow g'.
Proof.
  intros G N S. unfold ensure. destruct G as [[M ->]|(k & Hk & ->)].
  - rewrite M, N. cbn [is_none andb]. apply setDispatch_ok.
  - specialize (S k). destruct (slot (Globals (row64 c k) (row128 c k))); [|congruence]. cbn [is_none]. rewrite andb_false_r. eexists; split; [reflexivity|].
    exists k; auto.
Qed.
Lemma ensure_inv {A} (slot : globals -> option A) g g' : ginv g -> ensure c d p slot g = OK g' -> ginv g'.
Proof.
  intros G. unfold ensure. destruct (_ && _).
  - destruct (setDispatch_ok g) as (g1 & -> & G1). intros E. injection E as <-. right; exact G1.
  - intros E. injection E as <-. exact G.
Qed.
Lemma with_globals_inv {A H} (slot : globals -> option A) g len (k : globals -> res H) h g' : ginv g ->
  with_globals c d p slot g len k = OK (h, g') -> ginv g'.
Proof.
  intros G. unfold with_globals. destruct (len <=? MIDSIZE_MAX).
  - cbn [bind]. destruct (k g); cbn [bind]; intros E; try discriminate. injection E as <- <-. exact G.
  - destruct (ensure c d p slot g) as [g1| |] eqn:E1; cbn [bind]; intros E; try discriminate.
    destruct (k g1); cbn [bind] in E; try discriminate. injection E as <- <-. eapply ensure_inv; eassumption.
Qed.
Lemma with_globals_ok {A H} (slot : globals -> option A) g len (k : globals -> res H) v :
  ginv g -> slot g_zero = None -> (forall k, slot (Globals (row64 c k) (row128 c k)) <> None) ->
  (forall g', (MIDSIZE_MAX < len -> grow g') -> k g' = OK v) -> exists g', with_globals c d p slot g len k = OK (v, g').
Proof.
  intros G N S K. unfold with_globals. destruct (Z.leb_spec len MIDSIZE_MAX) as [L|L].
  - cbn [bind]. rewrite K by (intros; lia). eexists; reflexivity.
  - destruct (ensure_ok slot g G N S) as (g1 & -> & G1). cbn [bind]. rewrite K by auto. eexists; reflexivity.
Qed.

Lemma acc64 : local_acc c mod 64 = 0 /\ local_sec c mod 64 = 0.
Proof. unfold local_acc, local_sec, sec_align, acc_align. rewrite X. split; reflexivity. Qed.
Lemma good_local k : good c k -> okacc c (local_acc c) (k_acc k) /\ okscr c (local_acc c) (k_scr k) /\ okinit c (local_sec c) (k_init k).
Proof. intros []. destruct acc64. auto. Qed.

Context (input : ptr) (m : list Z).
Hypothesis P : points_to input m.
Hypothesis B : bytes_ok m.

Lemma d64_ok g : ginv g -> exists g', XXH3_64bits_dispatch c d p g input (zlen m) = OK (X3.XXH3_64 m, g').
Proof.
  intros G. apply with_globals_ok; trivial; [discriminate|]. intros g' G'. unfold X3.XXH3_64. rewrite <- kSecret_default.
  change 192 with (zlen kSecret). apply internal64; ks; trivial. intros H. destruct (G' H) as (k & Hk & ->).
  destruct (good_local k Hk) as (Ha & Hs & Hi). cbn [g64 row64 t_default callp bind]. unfold XXHL64_default.
  change 192 with (zlen kSecret). apply long64_ok; trivial; ks; lia.
Qed.
Lemma d64_seed_ok g seed : ginv g -> w64 seed -> exists g', XXH3_64bits_withSeed_dispatch c d p g input (zlen m) seed = OK (X3.XXH3_64_withSeed seed m, g').
Proof.
  intros G W. apply with_globals_ok; trivial; [discriminate|]. intros g' G'. unfold X3.XXH3_64_withSeed. rewrite <- kSecret_default.
  change 192 with (zlen kSecret). apply internal64; ks; trivial. intros H. destruct (G' H) as (k & Hk & ->).
  destruct (good_local k Hk) as (Ha & Hs & Hi). cbn [g64 row64 t_seed callp bind]. unfold XXHL64_seed.
  apply seed64_ok; trivial; ks; lia.
Qed.
Lemma d64_secret_ok g secret s : ginv g -> points_to secret s -> bytes_ok s -> 136 <= zlen s -> (240 < zlen m -> 8 * (zlen s - 64) < 2 ^ szbits c) ->
  exists g', XXH3_64bits_withSecret_dispatch c d p g input (zlen m) secret (zlen s) = OK (X3.XXH3_64_withSecret s m, g').
Proof.
  intros G PS BS S1 S2. apply with_globals_ok; trivial; [discriminate|]. intros g' G'. unfold X3.XXH3_64_withSecret.
  apply internal64; ks; trivial. intros H. destruct (G' H) as (k & Hk & ->).
  destruct (good_local k Hk) as (Ha & Hs & Hi). cbn [g64 row64 t_secret callp bind]. unfold XXHL64_secret.
  apply long64_ok; trivial; [repeat split; auto|lia].
Qed.
Lemma d128_ok g : ginv g -> exists g', XXH3_128bits_dispatch c d p g input (zlen m) = OK (X3.XXH3_128 m, g').
Proof.
  intros G. apply with_globals_ok; trivial; [discriminate|]. intros g' G'. unfold X3.XXH3_128. rewrite <- kSecret_default.
  change 192 with (zlen kSecret). apply internal128; ks; trivial. intros H. destruct (G' H) as (k & Hk & ->).
  destruct (good_local k Hk) as (Ha & Hs & Hi). cbn [g128 row128 t_default callp bind]. unfold XXHL128_default.
  change 192 with (zlen kSecret). apply long128_ok; trivial; ks; lia.
Qed.
Lemma d128_seed_ok g seed : ginv g -> w64 seed -> exists g', XXH3_128bits_withSeed_dispatch c d p g input (zlen m) seed = OK (X3.XXH3_128_withSeed seed m, g').
Proof.
  intros G W. apply with_globals_ok; trivial; [discriminate|]. intros g' G'. unfold X3.XXH3_128_withSeed. rewrite <- kSecret_default.
  change 192 with (zlen kSecret). apply internal128; ks; trivial. intros H. destruct (G' H) as (k & Hk & ->).
  destruct (good_local k Hk) as (Ha & Hs & Hi). cbn [g128 row128 t_seed callp bind]. unfold XXHL128_seed.
  apply seed128_ok; trivial; ks; lia.
Qed.
Lemma d128_secret_ok g secret s : ginv g -> points_to secret s -> bytes_ok s -> 136 <= zlen s -> (240 < zlen m -> 8 * (zlen s - 64) < 2 ^ szbits c) ->
  exists g', XXH3_128bits_withSecret_dispatch c d p g input (zlen m) secret (zlen s) = OK (X3.XXH3_128_withSecret s m, g').
Proof.
  intros G PS BS S1 S2. apply with_globals_ok; trivial; [discriminate|]. intros g' G'. unfold X3.XXH3_128_withSecret.
  apply internal128; ks; trivial. intros H. destruct (G' H) as (k & Hk & ->).
  destruct (good_local k Hk) as (Ha & Hs & Hi). cbn [g128 row128 t_secret callp bind]. unfold XXHL128_secret.
  apply long128_ok; trivial; [repeat split; auto|lia].
Qed.

(** update; the state may have been reset by another translation unit, [rep3] only looks at the width of size_t *)
Lemma upd_adr st : raw3 st -> update_acc_adr c st mod 64 = 0.
Proof. intros W. unfold update_acc_adr. destruct (stream_stack c); [apply acc64|apply W]. Qed.
Lemma d64_update_ok g st s us seed m0 K : ginv g -> rep3 c s us seed m0 K st -> zlen m < 2 ^ szbits c ->
  exists K' st' g', XXH3_64bits_update_dispatch c d p g st input (zlen m) = OK ((XXH_OK, st'), g') /\ ginv g' /\ rep3 c s us seed (m0 ++ m) K' st' /\ s3_adr st' = s3_adr st.
Proof.
  intros G RP SZ. unfold XXH3_64bits_update_dispatch.
  destruct (ensure_ok (fun g => t_update (g64 g)) g G eq_refl ltac:(discriminate)) as (g1 & -> & G1). cbn [bind].
  pose proof G1 as (k & Hk & ->). cbn [g64 row64 t_update callp bind]. unfold XXH3_update_suffix.
  pose proof (upd_adr st (r3_raw _ _ _ _ _ _ _ RP)) as A.
  destruct (update3_ok c s us seed m0 K st input m (k_acc k) (k_scr k)) as (K' & st' & -> & R' & Ad); trivial; try lia.
  - apply Hk; exact A.
  - apply Hk; exact A.
  - cbn [bind]. do 3 eexists. split; [reflexivity|]. split; [right; exact G1|]. split; [exact R'|exact Ad].
Qed.
Lemma d128_update_ok g st s us seed m0 K : ginv g -> rep3 c s us seed m0 K st -> zlen m < 2 ^ szbits c ->
  exists K' st' g', XXH3_128bits_update_dispatch c d p g st input (zlen m) = OK ((XXH_OK, st'), g') /\ ginv g' /\ rep3 c s us seed (m0 ++ m) K' st' /\ s3_adr st' = s3_adr st.
Proof.
  intros G RP SZ. unfold XXH3_128bits_update_dispatch.
  destruct (ensure_ok (fun g => t_update (g128 g)) g G eq_refl ltac:(discriminate)) as (g1 & -> & G1). cbn [bind].
  pose proof G1 as (k & Hk & ->). cbn [g128 row128 t_update callp bind]. unfold XXH3_update_suffix.
  pose proof (upd_adr st (r3_raw _ _ _ _ _ _ _ RP)) as A.
  destruct (update3_ok c s us seed m0 K st input m (k_acc k) (k_scr k)) as (K' & st' & -> & R' & Ad); trivial; try lia.
  - apply Hk; exact A.
  - apply Hk; exact A.
  - cbn [bind]. do 3 eexists. split; [reflexivity|]. split; [right; exact G1|]. split; [exact R'|exact Ad].
Qed.
End Globals.
Lemma rep3_szbits c c' s us seed m K st : szbits c = szbits c' -> rep3 c s us seed m K st -> rep3 c' s us seed m K st.
Proof. intros E []. constructor; trivial. unfold secret_fits in *. rewrite <- E. assumption. Qed.
