(** Property theorems about the choice of the build: C96 (xxhash.h), C97 (xxh_x86dispatch.c). *)
From Coq Require Import String.
From Verif Require Import Base Mem M_XXH32 M_XXH64 M_XXH3 M_Kernels M_Long M_Stream3 M_Dispatch Spec32 Spec64 Spec3 P_Base P_X3_Base P_Dispatch M_Config SpecConfig P_Config
  Properties1 Properties2 Properties6.
Import Conf.
Open Scope string_scope.
Open Scope Z_scope.

(** ** environments of real compilers, used as examples: the macros that matter here, as the compilers predefine them *)
Definition of_list (l : list (string * Z)) : env := fun x => match find (fun p => String.eqb (fst p) x) l with Some p => Some (snd p) | None => None end.
Definition order (o : Z) : list (string * Z) := [("__ORDER_LITTLE_ENDIAN__", 1234); ("__ORDER_BIG_ENDIAN__", 4321); ("__BYTE_ORDER__", o)].
Definition gcc_x64 : list (string * Z) := [("__GNUC__", 13); ("__GNUC_MINOR__", 2); ("__x86_64__", 1); ("__SSE2__", 1); ("__SIZEOF_INT128__", 16); ("__STDC_VERSION__", 201710)] ++ order 1234.
Definition gcc_aarch64 (o : Z) : list (string * Z) := [("__GNUC__", 13); ("__aarch64__", 1); ("__ARM_ARCH", 8); ("__ARM_NEON", 1); ("__ARM_FEATURE_UNALIGNED", 1); ("__SIZEOF_INT128__", 16); ("__STDC_VERSION__", 201710)] ++ order o.
Definition gcc_s390x : list (string * Z) := [("__GNUC__", 13); ("__s390x__", 1); ("__VEC__", 10303); ("__SIZEOF_INT128__", 16); ("__STDC_VERSION__", 201710)] ++ order 4321.
Definition msvc_x86 : list (string * Z) := [("_MSC_VER", 1938); ("_WIN32", 1); ("_M_IX86", 600); ("_M_IX86_FP", 2)].
Definition lp64 (le : bool) : target := Target le true 64 8 8 2 0 true true true true.
Definition ilp32 (le : bool) : target := Target le true 32 4 8 2 0 false false false false.

Lemma of_list_untouched l : forallb (fun p => negb (prefix "XXH" (fst p))) l = true -> untouched (of_list l).
Proof.
  intros F x P. unfold of_list. destruct (find _ l) as [p|] eqn:E; [|reflexivity]. apply find_some in E. destruct E as (I & E).
  apply String.eqb_eq in E. rewrite forallb_forall in F. specialize (F p I). rewrite E, P in F. discriminate.
Qed.

(** ** C96 *)
(** Whatever the macros, if the compiler tells the truth and the settings are used as documented, a build that compiles is one of
    those all the other theorems are about ([cfg_ok]), with the byte order of the machine, unless it is for SVE on a big-endian target. *)
Theorem C96_builds_are_covered : forall e t b, honest e t -> settings_ok e t -> compile e t = Some b ->
  cpu_le (b_cfg b) = t_le t /\ szbits (b_cfg b) = t_szbits t /\ hw_unaligned (b_cfg b) = t_unaligned t /\
  (vec (b_cfg b) = V_VSX -> b_vsx_be b = negb (t_le t)) /\
  (cfg_ok (b_cfg b) <-> ~ exists d j, vec (b_cfg b) = V_SVE d j /\ t_le t = false).
Proof.
  intros e t b H S E. destruct (compile_cfg e t b H S E) as (A & B & C). destruct (compile_inv e t b E) as (D & _).
  split; [exact A|]. split; [rewrite D; reflexivity|]. split; [rewrite D; reflexivity|]. split; [exact B|exact C].
Qed.
Print Assumptions C96_builds_are_covered.
(** nothing set on the command line: the unit compiles, and the settings are in order *)
Theorem C96_default_compiles : forall e t, untouched e -> settings_ok e t /\ exists b, compile e t = Some b.
Proof. intros e t U. split; [exact (untouched_settings e t U)|exact (untouched_compiles e t U)]. Qed.
Print Assumptions C96_default_compiles.
(** so the default build for any honest compiler hashes as specified *)
Theorem C96_default_build_hashes : forall e t b, honest e t -> untouched e -> compile e t = Some b -> (e "__ARM_FEATURE_SVE" = None \/ t_le t = true) ->
  forall p m seed, points_to p m -> bytes_ok m -> zlen m < 2 ^ t_szbits t -> 0 <= seed < 2 ^ 64 ->
  XXH32 (b_cfg b) p (zlen m) seed = OK (X32.hash m seed) /\ XXH64 (b_cfg b) p (zlen m) seed = OK (X64.hash m seed) /\
  XXH3_64bits_withSeed (b_cfg b) p (zlen m) seed = OK (X3.XXH3_64_withSeed seed m) /\
  XXH3_128bits_withSeed (b_cfg b) p (zlen m) seed = OK (X3.XXH3_128_withSeed seed m).
Proof.
  intros e t b H U E NS p m seed P B L W. pose proof (untouched_settings e t U) as S.
  destruct (C96_builds_are_covered e t b H S E) as (_ & SZ & _ & _ & C). assert (K : cfg_ok (b_cfg b)).
  { apply C. intros (d & j & V & BE). destruct (compile_inv e t b E) as (D & _). rewrite D in V. cbn [vec] in V. apply kernels_sve in V.
    destruct (vector_cases e t H S) as (_ & _ & X). destruct NS as [NS|NS]; [apply (X (proj1 V)); exact NS|congruence]. }
  rewrite <- SZ in L. split; [exact (C01_xxh32_equals_spec _ _ _ _ K P B L)|]. split; [exact (C02_xxh64_equals_spec _ _ _ _ K P B L)|].
  split; [exact (C03_xxh3_64_withSeed_equals_spec _ _ _ _ K P B W)|exact (proj1 (C04_xxh3_128_withSeed_equals_spec _ _ _ _ K P B W))].
Qed.
Print Assumptions C96_default_build_hashes.
(** with SVE and big endian it does not: GCC's macros for aarch64_be with -march=armv8-a+sve *)
Theorem C96_sve_big_endian_refuted : exists e t b, honest e t /\ untouched e /\ compile e t = Some b /\
  exists m y, zlen m = 241 /\ bytes_ok m /\ XXH3_64bits (b_cfg b) (Ptr m 0 0) 241 = OK y /\ y <> X3.XXH3_64 m.
Proof.
  exists (of_list (("__ARM_FEATURE_SVE", 1) :: gcc_aarch64 4321)), (lp64 false). eexists. split; [|split; [|split]].
  - constructor; cbn -[of_list].
    + lia.
    + intros x I D. exfalso. apply D. cbn in I. decompose [or] I; subst; try reflexivity. contradiction.
    + trivial.
    + intros o [= <-]. auto.
    + intros _. exists 1%nat. lia.
    + intros [X|X]; exfalso; apply X; reflexivity.
  - apply of_list_untouched. reflexivity.
  - cbv -[kSecret_ptr]. reflexivity.
  - exists (map (fun i => Z.of_nat i) (seq 0 241)). eexists. assert (B : bytes_ok (map (fun i => Z.of_nat i) (seq 0 241))).
    { apply Forall_forall. intros x I. apply in_map_iff in I. destruct I as (i & <- & I). apply in_seq in I. unfold byte_ok. lia. }
    split; [reflexivity|]. split; [exact B|]. split; [vm_compute; reflexivity|].
    set (c := Cfg false 0 false false false 0 64 true false V_SCALAR false false). assert (C : cfg_ok c) by (constructor; cbn; try lia; discriminate).
    pose proof (C03_xxh3_64_equals_spec c (Ptr (map (fun i => Z.of_nat i) (seq 0 241)) 0 0) _ C (points_to_buf _) B) as X.
    intros N. rewrite <- N in X. vm_compute in X. discriminate X.
Qed.
Print Assumptions C96_sve_big_endian_refuted.

(** the kernels are ones whose instructions the compiler was told it may use, and no announced unit is passed over for the scalar
    code, but for NEON where the macros do not say little endian *)
Theorem C96_vector_available : forall e t b, untouched e -> compile e t = Some b ->
  match vec (b_cfg b) with
  | V_SVE _ _ => e "__ARM_FEATURE_SVE" <> None
  | V_NEON lanes w => (exists x, In x ["__ARM_NEON__"; "__ARM_NEON"; "_M_ARM"; "_M_ARM64"; "_M_ARM64EC"] /\ e x <> None) \/
                      (e "__wasm_simd128__" <> None /\ has_arm_neon_h t = true)
  | V_AVX512 => e "__AVX512F__" <> None
  | V_AVX2 => e "__AVX2__" <> None
  | V_SSE2 => (exists x, In x ["__SSE2__"; "_M_AMD64"; "_M_X64"] /\ e x <> None) \/ e "_M_IX86_FP" = Some 2
  | V_VSX => (e "__PPC64__" <> None /\ e "__POWER8_VECTOR__" <> None) \/ (e "__s390x__" <> None /\ e "__VEC__" <> None)
  | V_SCALAR => forall x, In x ["__ARM_FEATURE_SVE"; "__AVX512F__"; "__AVX2__"; "__SSE2__"; "_M_AMD64"; "_M_X64"] -> e x = None
  end.
Proof.
  intros e t b U E. destruct (compile_inv e t b E) as (D & _). rewrite D. cbn [vec]. unfold VECTOR. rewrite (untouched_defd e "XXH_VECTOR" U eq_refl).
  destruct (defd e "__ARM_FEATURE_SVE") eqn:V; [cbn; apply defd_true; exact V|].
  destruct (neon_macros e t && le_macros e) eqn:N.
  { cbn -[In]. apply andb_true_iff in N. destruct N as (N & _). unfold neon_macros in N. rewrite !orb_true_iff, andb_true_iff, !defd_true in N.
    destruct N as [[[[[N|N]|N]|N]|N]|N]; [..|right; exact N]; left; eexists; (split; [|exact N]); cbn; tauto. }
  destruct (defd e "__AVX512F__") eqn:A5; [cbn; apply defd_true; exact A5|].
  destruct (defd e "__AVX2__") eqn:A2; [cbn; apply defd_true; exact A2|].
  destruct (sse2_macros e) eqn:SS; unfold sse2_macros in SS.
  { cbn -[In]. rewrite !orb_true_iff, andb_true_iff, !defd_true in SS.
    destruct SS as [[[X|X]|X]|[X Y]]; try (left; eexists; split; [|exact X]; cbn; tauto).
    right. apply defd_true, defd_some in X. rewrite X. f_equal. lia. }
  destruct (vsx_macros e) eqn:VX.
  { cbn. unfold vsx_macros in VX. rewrite orb_true_iff, !andb_true_iff, !defd_true in VX. tauto. }
  cbn -[In]. rewrite !orb_false_iff in SS. destruct SS as (((S1 & S2) & S3) & _). rewrite defd_false in *.
  intros x I. cbn in I. decompose [or] I; subst; tauto.
Qed.
Print Assumptions C96_vector_available.
(** the choice is the widest unit announced: SVE always; NEON on a target that says it is little endian; of x86 the newest; VSX for
    a GNU compiler *)
Theorem C96_vector_widest : forall e t b, untouched e -> compile e t = Some b ->
  (e "__ARM_FEATURE_SVE" <> None -> vec (b_cfg b) = V_SVE (t_sve t) (t_junk t)) /\
  (e "__ARM_FEATURE_SVE" = None -> says_little e -> e "__ARM_NEON" <> None \/ e "__ARM_NEON__" <> None \/ e "_M_ARM64" <> None -> exists l w, vec (b_cfg b) = V_NEON l w) /\
  (no_arm e -> e "__AVX512F__" <> None -> vec (b_cfg b) = V_AVX512) /\
  (no_arm e -> e "__AVX512F__" = None -> e "__AVX2__" <> None -> vec (b_cfg b) = V_AVX2) /\
  (no_arm e -> e "__AVX512F__" = None -> e "__AVX2__" = None -> e "__SSE2__" <> None \/ e "_M_X64" <> None \/ e "_M_IX86_FP" = Some 2 -> vec (b_cfg b) = V_SSE2) /\
  (no_arm e -> no_x86 e -> e "__GNUC__" <> None -> (e "__PPC64__" <> None /\ e "__POWER8_VECTOR__" <> None) \/ (e "__s390x__" <> None /\ e "__VEC__" <> None) ->
     vec (b_cfg b) = V_VSX).
Proof.
  intros e t b U E. destruct (compile_inv e t b E) as (D & _). rewrite D. cbn [vec]. unfold VECTOR. rewrite (untouched_defd e "XXH_VECTOR" U eq_refl).
  assert (NA : no_arm e -> defd e "__ARM_FEATURE_SVE" = false /\ neon_macros e t = false).
  { intros N. unfold neon_macros. assert (Q : forall x, In x ["__ARM_FEATURE_SVE"; "__ARM_NEON__"; "__ARM_NEON"; "_M_ARM"; "_M_ARM64"; "_M_ARM64EC"; "__wasm_simd128__"] -> defd e x = false).
    { intros x I. apply defd_false. exact (N x I). }
    rewrite !Q by (cbn; tauto). split; reflexivity. }
  split; [|split; [|split; [|split; [|split]]]].
  - rewrite <- defd_true. intros V. rewrite V. reflexivity.
  - intros V L N. apply defd_false in V. rewrite V.
    assert (LM : le_macros e = true).
    { unfold le_macros. destruct L as [L|[L|(L1 & L2)]]; [apply defd_true in L; rewrite L; reflexivity|apply defd_true in L; rewrite L, orb_true_r; reflexivity|].
      unfold defd at 3, val. rewrite L1, L2. cbn. apply orb_true_r. }
    assert (NM : neon_macros e t = true). { unfold neon_macros. rewrite <- !defd_true in N. destruct N as [N|[N|N]]; rewrite N, ?orb_true_r; reflexivity. }
    rewrite LM, NM. cbn. eauto.
  - intros N. rewrite <- defd_true. intros A. destruct (NA N) as (-> & ->). rewrite A. reflexivity.
  - intros N. rewrite <- defd_true, <- defd_false. intros A B. destruct (NA N) as (-> & ->). rewrite A, B. reflexivity.
  - intros N. rewrite <- !defd_true, <- !defd_false. intros A B X. destruct (NA N) as (-> & ->). rewrite A, B. assert (SS : sse2_macros e = true).
    { unfold sse2_macros. destruct X as [X|[X|X]]; [rewrite X; reflexivity|rewrite X, ?orb_true_r; reflexivity|].
      unfold defd, val. rewrite X. cbn. rewrite ?orb_true_r. reflexivity. }
    rewrite SS. reflexivity.
  - intros N NX. rewrite <- !defd_true. intros G X. destruct (NA N) as (-> & ->). unfold sse2_macros.
    assert (Q : forall x, In x ["__AVX512F__"; "__AVX2__"; "__SSE2__"; "_M_AMD64"; "_M_X64"; "_M_IX86_FP"] -> defd e x = false) by (intros x I; apply defd_false; exact (NX x I)).
    rewrite !Q by (cbn; tauto). assert (VX : vsx_macros e = true).
    { unfold vsx_macros. rewrite G. destruct X as [(X & Y)|(X & Y)]; rewrite X, Y, ?orb_true_r; reflexivity. }
    rewrite VX. reflexivity.
Qed.
Print Assumptions C96_vector_widest.

(** the accumulators and the secrets on the stack have the alignment which the kernels of the build rely on, for compilers that have
    any way to ask for it *)
Theorem C96_alignment : forall e t b, e "XXH_ACC_ALIGN" = None -> compile e t = Some b ->
  (exists v, e "__STDC_VERSION__" = Some v /\ 201112 <= v) \/ (exists v, e "__cplusplus" = Some v /\ 201103 <= v) \/ e "__GNUC__" <> None \/ e "_MSC_VER" <> None ->
  b_acc b = local_acc (b_cfg b) /\ b_sec b = local_sec (b_cfg b).
Proof.
  intros e t b A E K. apply (compile_align e t b); [|exact A|exact E]. unfold can_align.
  destruct K as [(v & X & L)|[(v & X & L)|[X|X]]].
  - unfold defd at 1, val. rewrite X. replace (201112 <=? v) with true by lia. reflexivity.
  - unfold defd at 2, val at 2. rewrite X. replace (201103 <=? v) with true by lia. cbn. rewrite orb_true_r. reflexivity.
  - apply defd_true in X. rewrite X, orb_true_r. reflexivity.
  - apply defd_true in X. rewrite X, orb_true_r. reflexivity.
Qed.
Print Assumptions C96_alignment.
(** without one (XXH_ALIGN is empty, xxhash.h:1700), the accumulators may lie where the kernels must not be used *)
Theorem C96_no_alignment_refuted : exists e t b, honest e t /\ untouched e /\ compile e t = Some b /\ b_acc b = 8 /\
  forall acc input secret, accumulate_512 (b_cfg b) (b_acc b) acc input secret = UB.
Proof.
  exists (of_list [("__SSE2__", 1); ("__x86_64__", 1); ("__STDC_VERSION__", 199901)]), (lp64 true). eexists. split; [|split; [|split]].
  - constructor; cbn -[of_list].
    + lia.
    + trivial.
    + intros X. exfalso. apply X. reflexivity.
    + discriminate.
    + intros X. exfalso. apply X. reflexivity.
    + intros [X|X]; exfalso; apply X; reflexivity.
  - apply of_list_untouched. reflexivity.
  - cbv. reflexivity.
  - split; reflexivity.
Qed.
Print Assumptions C96_no_alignment_refuted.

(** ** C97 *)
(** the dispatcher: a unit that compiles, on a processor it is for, meets everything the theorems about the dispatcher (C13, C59) ask *)
Theorem C97_dispatch_build : forall e t p b d, honest e t -> settings_ok e t -> cpu_for e p -> compile_dispatch e t = Some (b, d) ->
  dispatch_ok (b_cfg b) d p /\ (e "__AVX__" <> None -> e "XXH_X86DISPATCH_ALLOW_AVX" <> None).
Proof.
  intros e t p b d H S P E. unfold compile_dispatch in E. destruct (dispatch_switches e t) as [d'|] eqn:DS; [|discriminate].
  destruct (compile _ t) as [b'|] eqn:CB; [|discriminate]. injection E as -> ->. destruct (switches_inv e t d DS) as ((x & I & X) & AV & ->).
  pose proof (x86_le e t x H I X) as LE. split; [|exact AV].
  pose proof (honest_define e t 1 H) as H'. pose proof (settings_define e t 1 S) as S'.
  destruct (C96_builds_are_covered _ t b H' S' CB) as (L & _ & _ & _ & K). destruct (compile_inv _ t b CB) as (D & _).
  split; [apply K; intros (? & ? & _ & B); congruence|]. split; [rewrite D; reflexivity|]. split; [congruence|]. cbn [d_gnu_i386 d_scalar].
  split; [|split; [exact (cpu_regs e p P)|exact (dispatch_scalar_needs e p P)]].
  destruct (defd e "__GNUC__") eqn:G; [|right; apply (cpu_id e p P); left; apply defd_false; exact G].
  destruct (defd e "__i386__") eqn:G3; [left; reflexivity|right; apply (cpu_id e p P); right; apply defd_false; exact G3].
Qed.
Print Assumptions C97_dispatch_build.
(** an untouched environment compiles exactly when none of the #error lines applies *)
Theorem C97_dispatch_compiles : forall e t, untouched e ->
  ((exists r, compile_dispatch e t = Some r) <->
   (exists x, In x ["__x86_64__"; "__i386__"; "_M_IX86"; "_M_X64"] /\ e x <> None) /\ e "__AVX__" = None /\ (e "__GNUC__" <> None \/ e "_MSC_VER" <> None)).
Proof.
  intros e t U. assert (CC : exists b, compile (define e "XXH_X86DISPATCH" 1) t = Some b).
  { apply almost_untouched_compiles. intros x P N. rewrite define_other by exact N. exact (U x P). }
  destruct CC as (b & CC). unfold compile_dispatch, dispatch_switches. rewrite CC, (untouched_defd e "XXH_X86DISPATCH_ALLOW_AVX" U eq_refl). cbn [negb]. rewrite andb_true_r.
  split.
  - intros (r & R). destruct (negb (defd e "__x86_64__" || _ || _ || _)) eqn:A; [discriminate|]. destruct (defd e "__AVX__") eqn:B; [discriminate|].
    destruct (negb (defd e "__GNUC__" || _ || _)) eqn:C; [discriminate|]. apply negb_false_iff in A, C. rewrite !orb_true_iff, ?andb_true_iff, !defd_true in *. apply defd_false in B.
    split; [|tauto]. cbn. destruct A as [[[A|A]|A]|A]; eexists; (split; [|exact A]); tauto.
  - intros ((x & I & X) & A & C). apply defd_false in A. rewrite A. rewrite <- !defd_true in *.
    assert (Q : defd e "__x86_64__" || defd e "__i386__" || defd e "_M_IX86" || defd e "_M_X64" = true).
    { cbn in I. destruct I as [<-|[<-|[<-|[<-|[]]]]]; rewrite X, ?orb_true_r; reflexivity. }
    rewrite Q. cbn [negb]. destruct C as [C|C]; rewrite C, ?orb_true_r; cbn [orb negb]; eauto.
Qed.
Print Assumptions C97_dispatch_compiles.
(** which levels are compiled in, by the version of the compiler: GCC 5 (and Clang that passes for it) or Visual Studio 2017 have both;
    GCC 4.9 has AVX512 without AVX2; the selection table is filled before main exactly when there are constructors *)
Theorem C97_levels : forall e t b d, untouched e -> compile_dispatch e t = Some (b, d) ->
  ((exists v, e "__GNUC__" = Some v /\ 5 <= v) \/ (exists v, e "_MSC_VER" = Some v /\ 1910 <= v) -> d_avx2 d = true /\ d_avx512 d = true) /\
  (e "__GNUC__" = Some 4 -> e "__GNUC_MINOR__" = Some 9 -> e "_MSC_VER" = None -> e "_MSC_FULL_VER" = None -> has_avx2intrin_h t = false -> d_avx2 d = false /\ d_avx512 d = true) /\
  maybe_null d = negb (has_constructor t).
Proof.
  intros e t b d U E. unfold compile_dispatch in E. destruct (dispatch_switches e t) as [d'|] eqn:DS; [|discriminate].
  destruct (compile _ t) as [b'|]; [|discriminate]. injection E as _ ->. destruct (switches_inv e t d DS) as (_ & _ & ->). cbn [d_avx2 d_avx512 maybe_null].
  unfold DISPATCH_AVX2, DISPATCH_AVX512. rewrite (untouched_defd e "XXH_DISPATCH_AVX2" U eq_refl), (untouched_defd e "XXH_DISPATCH_AVX512" U eq_refl).
  split; [|split; [|reflexivity]].
  - intros [(v & G & L)|(v & G & L)]; unfold defd, val; rewrite G.
    + replace (4 <? v) with true by lia. cbn. split; reflexivity.
    + replace (1900 <=? v) with true by lia. replace (1910 <=? v) with true by lia. cbn [andb]. rewrite !orb_true_r. split; reflexivity.
  - intros G M A B C. unfold defd, val. rewrite G, M, A, B, C. split; reflexivity.
Qed.
Print Assumptions C97_levels.
(** what Clang makes of it on x86-64: with the processor of C13_null_row_refuted, which does not report any CPUID leaf, that build crashes *)
Definition clang_x64 : env := of_list (("__clang__", 1) :: gcc_x64).
Lemma clang_x64_honest : honest clang_x64 (lp64 true).
Proof.
  constructor; cbn -[clang_x64].
  - lia.
  - trivial.
  - intros X. exfalso. apply X. reflexivity.
  - intros o [= <-]. auto.
  - intros X. exfalso. apply X. reflexivity.
  - intros [X|X]; exfalso; apply X; reflexivity.
Qed.
Theorem C97_no_leaves_refuted : exists e t b d p, honest e t /\ untouched e /\ compile_dispatch e t = Some (b, d) /\ has_cpuid p = true /\
  (exists g, reach (b_cfg b) d p g) /\
  forall g, reach (b_cfg b) d p g -> forall q m, points_to q m -> bytes_ok m ->
    (240 < zlen m -> XXH3_64bits_dispatch (b_cfg b) d p g q (zlen m) = UB /\ XXH3_64bits (b_cfg b) q (zlen m) = OK (X3.XXH3_64 m)) /\
    (forall st, XXH3_64bits_update_dispatch (b_cfg b) d p g st q (zlen m) = UB).
Proof.
  exists clang_x64, (lp64 true), (Build x64_cfg 64 64 false), default_x64, no_leaves. split; [exact clang_x64_honest|].
  split; [apply of_list_untouched; reflexivity|]. split; [reflexivity|]. split; [reflexivity|exact null_row].
Qed.
Print Assumptions C97_no_leaves_refuted.

(** ** concrete cases *)
(** five compilers: what they get *)
Example C96_cases :
  compile (of_list gcc_x64) (lp64 true) = Some (Build (Cfg true 1 true false false 0 64 true false V_SSE2 true false) 16 16 false) /\
  compile (of_list (("__AVX2__", 1) :: gcc_x64)) (lp64 true) = Some (Build (Cfg true 1 true false false 0 64 true false V_AVX2 true false) 32 32 false) /\
  compile (of_list (gcc_aarch64 1234)) (lp64 true) = Some (Build (Cfg true 1 true false false 0 64 true false (V_NEON 6 false) true false) 16 8 false) /\
  compile (of_list (gcc_aarch64 4321)) (lp64 false) = Some (Build (Cfg false 1 true false false 0 64 true false V_SCALAR true false) 8 8 true) /\
  compile (of_list gcc_s390x) (lp64 false) = Some (Build (Cfg false 1 true true false 0 64 true false V_VSX true false) 16 8 true) /\
  compile (of_list msvc_x86) (ilp32 true) = Some (Build (Cfg true 0 true false false 0 32 false true V_SSE2 true false) 16 16 false).
Proof. repeat split. Qed.
(** the hypotheses: GCC for s390x, whose VSX build needs the byte order *)
Example C96_hyps : honest (of_list gcc_s390x) (lp64 false) /\ untouched (of_list gcc_s390x) /\ settings_ok (of_list gcc_s390x) (lp64 false).
Proof.
  split; [|split; [|apply untouched_settings]; apply of_list_untouched; reflexivity]. constructor; cbn -[of_list].
  - lia.
  - intros x I D. exfalso. apply D. cbn in I. decompose [or] I; subst; try reflexivity. contradiction.
  - trivial.
  - intros o [= <-]. auto.
  - intros X. exfalso. apply X. reflexivity.
  - intros _. split; [right; discriminate|discriminate].
Qed.
(** settings which are not the default: Visual C++ for x86 with direct access and no SIMD *)
Definition msvc_set : env := of_list (("XXH_FORCE_MEMORY_ACCESS", 2) :: ("XXH_VECTOR", 0) :: ("XXH_SIZE_OPT", 7) :: msvc_x86).
Example C96_settings : settings_ok msvc_set (ilp32 true) /\
  compile msvc_set (ilp32 true) = Some (Build (Cfg true 2 true false false 7 32 false true V_SCALAR false false) 8 8 false).
Proof.
  split; [|reflexivity]. constructor; cbn -[msvc_set]; try reflexivity; try discriminate.
  intros v [= <-]. split; lia.
Qed.
(** lanes of which NEON can make nothing do not compile *)
Example C96_lanes : compile (of_list (("XXH3_NEON_LANES", 3) :: gcc_aarch64 1234)) (lp64 true) = None.
Proof. reflexivity. Qed.
Example C97_hyps : cpu_for clang_x64 big_cpu /\ compile_dispatch clang_x64 (lp64 true) = Some (Build x64_cfg 64 64 false, default_x64) /\
  compile_dispatch (of_list (("__AVX__", 1) :: gcc_x64)) (lp64 true) = None.
Proof.
  split; [|split; reflexivity]. constructor; cbn; try lia; try reflexivity. intros _. split; [reflexivity|]. split; [cbn; lia|reflexivity].
Qed.
(** GCC 4.9 for i386: AVX512 without AVX2, the scalar row, the test for CPUID *)
Example C97_gcc49 : exists b, compile_dispatch (of_list ([("__GNUC__", 4); ("__GNUC_MINOR__", 9); ("__i386__", 1); ("__STDC_VERSION__", 199901)] ++ order 1234)) (ilp32 true) =
  Some (b, Dcfg true false true true true).
Proof. eexists. reflexivity. Qed.
