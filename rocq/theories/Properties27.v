(** Property theorems about the banner of xxhsum: C98 (cli/xsum_arch.h). *)
From Coq Require Import String.
From Verif Require Import Base Mem M_Kernels M_Config SpecConfig P_Config M_Arch SpecArch P_Arch Properties26.
Import Conf Arch.
Open Scope string_scope.
Open Scope Z_scope.

(** ** C98 *)
(** For every ordinary compiler, with nothing set on the command line, the vector unit named by --version is the one whose code was
    compiled into xxhash.h's functions. *)
Theorem C98_banner_names_the_code : forall e t b, ordinary e t -> untouched e -> compile e t = Some b -> tells (XSUM_ARCH e) (vec (b_cfg b)).
Proof.
  intros e t b O U E. destruct (compile_inv e t b E) as (D & _). rewrite D. cbn [vec]. apply (banner e t O U). apply U. reflexivity.
Qed.
Print Assumptions C98_banner_names_the_code.
(** the words have one meaning: a text names at most one kind of code *)
Theorem C98_unambiguous : forall s v w, tells s v -> tells s w -> kind v = kind w.
Proof. exact tells_unique. Qed.
Print Assumptions C98_unambiguous.
(** the processor is the one the compiler says: 64-bit and 32-bit x86, 64-bit ARM, 32-bit ARM with its version, and the others *)
Theorem C98_processor : forall e t, ordinary e t ->
  let any l := exists x, In x l /\ e x <> None in let starts a := exists r, XSUM_ARCH e = a ++ r in
  (any ["__x86_64__"; "_M_AMD64"; "_M_X64"] -> starts "x86_64") /\
  (is_for e X86 -> ~ any ["__x86_64__"; "_M_AMD64"; "_M_X64"] -> starts "i386") /\
  (is_for e AArch64 -> starts "aarch64") /\
  (is_for e ARM32 -> forall v, e "__ARM_ARCH" = Some v -> starts ("ARMv" ++ dec v)) /\
  (any ["__powerpc64__"; "__ppc64__"; "__PPC64__"] -> starts "ppc64") /\
  (is_for e PPC -> ~ any ["__powerpc64__"; "__ppc64__"; "__PPC64__"] -> XSUM_ARCH e = "ppc") /\
  (e "__s390x__" <> None -> XSUM_ARCH e = "s390x") /\
  (is_for e S390 -> e "__s390x__" = None -> XSUM_ARCH e = "s390") /\
  (is_for e WASM -> starts "wasm/asmjs") /\
  (e "__AVR" <> None -> XSUM_ARCH e = "AVR") /\
  (e "__AVR" = None -> e "__mips64" <> None -> XSUM_ARCH e = "mips64") /\
  (e "__AVR" = None -> e "__mips64" = None -> e "__mips" <> None -> XSUM_ARCH e = "mips") /\
  ((forall f, ~ is_for e f) -> XSUM_ARCH e = "unknown").
Proof. intros e t O. exact (processor e t O). Qed.
Print Assumptions C98_processor.
(** the byte order and the size of pointers: the run-time test of xxhsum.c agrees with what the hash functions were compiled for *)
Theorem C98_byte_order : forall e t b, honest e t -> settings_ok e t -> compile e t = Some b ->
  compiled_as e t = "compiled as " ++ dec (8 * t_ptr t) ++ "-bit " ++ XSUM_ARCH e ++ " " ++ (if cpu_le (b_cfg b) then "little endian" else "big endian").
Proof.
  intros e t b H S E. destruct (C96_builds_are_covered e t b H S E) as (L & _). rewrite L. unfold compiled_as, nbBits. rewrite (Z.mul_comm (t_ptr t)). repeat f_equal.
  unfold ENDIAN_NAME, XSUM_isLittleEndian. destruct (t_le t); reflexivity.
Qed.
Print Assumptions C98_byte_order.
(** Windows' ARM64EC, where the macros of x64 are defined as well: the banner says NEON and NEON it is *)
Theorem C98_arm64ec : forall e t b, untouched e -> compile e t = Some b -> e "_M_ARM64EC" <> None -> e "_WIN32" <> None ->
  e "__i386__" = None -> e "_M_IX86" = None -> e "_M_IX86_FP" = None -> e "__ARM_FEATURE_SVE" = None -> e "__wasm_simd128__" = None ->
  XSUM_ARCH e = "aarch64 + NEON" /\ exists lanes, vec (b_cfg b) = V_NEON lanes false.
Proof.
  intros e t b U E EC W I1 I2 I3 SV WA. destruct (compile_inv e t b E) as (D & _). rewrite D. cbn [vec]. apply defd_true in EC, W. apply defd_false in I1, I2, I3, SV, WA.
  split.
  - unfold XSUM_ARCH, ARCH_X86. rewrite EC, I1, I2, I3, SV. cbn [negb]. rewrite andb_false_r, !orb_true_r. reflexivity.
  - unfold VECTOR. rewrite (untouched_defd e "XXH_VECTOR" U eq_refl), SV. unfold neon_macros, le_macros. rewrite EC, W, !orb_true_r. cbn -[defd]. rewrite WA. eexists. reflexivity.
Qed.
Print Assumptions C98_arm64ec.
(** with the dispatcher the banner of an x86 build names no unit: "autoVec" *)
Theorem C98_dispatch : forall e, e "XXHSUM_DISPATCH" <> None -> is_for e X86 -> e "_M_ARM64EC" = None ->
  XSUM_ARCH e = "x86_64 autoVec" \/ XSUM_ARCH e = "i386 autoVec".
Proof.
  intros e D (x & I & X) EC. apply defd_true in D, X. apply defd_false in EC. unfold XSUM_ARCH, ARCH_X86, ARCH_x86_unit. rewrite EC, D. cbn [negb]. rewrite andb_true_r.
  destruct (defd e "__x86_64__" || defd e "_M_AMD64" || defd e "_M_X64") eqn:X64; [left; reflexivity|]. right.
  assert (Y : defd e "__i386__" || defd e "_M_IX86" || defd e "_M_IX86_FP" = true).
  { rewrite !orb_false_iff in X64. destruct X64 as ((X1 & X2) & X3). cbn in I. decompose [or] I; subst; try contradiction; try congruence; rewrite X, ?orb_true_r; reflexivity. }
  rewrite Y. reflexivity.
Qed.
Print Assumptions C98_dispatch.
(** the numbers printed for a Microsoft compiler or tcc give back the macro they were taken from *)
Theorem C98_compiler_version : forall e, e "__clang_version__" = None -> e "__VERSION__" = None ->
  (forall v w, e "_MSC_FULL_VER" = Some v -> e "_MSC_BUILD" = Some w -> 0 <= v < 10 ^ 9 ->
     exists a b c, CC_VERSION e = Some [a; b; c; w] /\ v = a * 10 ^ 7 + b * 10 ^ 5 + c /\ 0 <= a < 100 /\ 0 <= b < 100 /\ 0 <= c < 10 ^ 5) /\
  (forall v, e "_MSC_FULL_VER" = None -> e "_MSC_VER" = Some v -> 0 <= v ->
     exists a b, CC_VERSION e = Some [a; b] /\ v = a * 100 + b /\ 0 <= b < 100) /\
  (forall v, e "_MSC_FULL_VER" = None -> e "_MSC_VER" = None -> e "__TINYC__" = Some v -> 0 <= v < 10 ^ 6 ->
     exists a b c, CC_VERSION e = Some [a; b; c] /\ v = a * 10 ^ 4 + b * 10 ^ 2 + c /\ 0 <= a < 100 /\ 0 <= b < 100 /\ 0 <= c < 100).
Proof.
  intros e C V. apply defd_false in C, V. unfold CC_VERSION. rewrite C, V. split; [|split].
  - intros v w F B R. unfold defd, val. rewrite F, B. cbn [andb]. do 3 eexists. split; [reflexivity|].
    rewrite !Z.quot_div_nonneg by lia. rewrite !Z.rem_mod_nonneg by (try apply Z.div_pos; lia). Z.div_mod_to_equations. lia.
  - intros v F M R. unfold defd, val. rewrite F, M. cbn [andb]. do 2 eexists. split; [reflexivity|].
    rewrite Z.quot_div_nonneg by lia. rewrite Z.rem_mod_nonneg by lia. Z.div_mod_to_equations. lia.
  - intros v F M T R. unfold defd, val. rewrite F, M, T. cbn [andb]. do 3 eexists. split; [reflexivity|].
    rewrite !Z.quot_div_nonneg by lia. rewrite !Z.rem_mod_nonneg by (try apply Z.div_pos; lia). Z.div_mod_to_equations. lia.
Qed.
Print Assumptions C98_compiler_version.

(** *** where the banner is wrong *)
(** aarch64_be: "aarch64 + NEON", but the code is scalar *)
Theorem C98_big_endian_refuted : exists e t b, honest e t /\ untouched e /\ compile e t = Some b /\
  XSUM_ARCH e = "aarch64 + NEON" /\ vec (b_cfg b) = V_SCALAR /\ ~ tells (XSUM_ARCH e) (vec (b_cfg b)).
Proof.
  exists (of_list (gcc_aarch64 4321)), (lp64 false). eexists. split; [|split; [|split; [|split; [|split]]]].
  - constructor; cbn -[of_list].
    + lia.
    + intros x I D. exfalso. apply D. cbn in I. decompose [or] I; subst; try reflexivity. contradiction.
    + trivial.
    + intros o [= <-]. auto.
    + intros X. exfalso. apply X. reflexivity.
    + intros [X|X]; exfalso; apply X; reflexivity.
  - apply of_list_untouched. reflexivity.
  - cbv. reflexivity.
  - reflexivity.
  - reflexivity.
  - intros T. assert (T' : tells "aarch64 + NEON" (V_NEON 6 false)) by (exists "aarch64", " + NEON", ""; cbn; repeat split; try discriminate; tauto).
    discriminate (C98_unambiguous _ _ _ T T').
Qed.
Print Assumptions C98_big_endian_refuted.
(** x86-64 with -mno-sse2 (as in kernels): "x86_64 + SSE2", but the code is scalar *)
Theorem C98_no_sse2_refuted : exists e t b, honest e t /\ untouched e /\ compile e t = Some b /\
  XSUM_ARCH e = "x86_64 + SSE2" /\ vec (b_cfg b) = V_SCALAR.
Proof.
  exists (of_list (("__GNUC__", 13) :: ("__x86_64__", 1) :: order 1234)), (lp64 true). eexists. split; [|split; [|split; [|split]]].
  - constructor; cbn -[of_list].
    + lia.
    + reflexivity.
    + intros X. exfalso. apply X. reflexivity.
    + intros o [= <-]. auto.
    + intros X. exfalso. apply X. reflexivity.
    + intros [X|X]; exfalso; apply X; reflexivity.
  - apply of_list_untouched. reflexivity.
  - cbv. reflexivity.
  - reflexivity.
  - reflexivity.
Qed.
Print Assumptions C98_no_sse2_refuted.
(** s390x with its vector facility: plain "s390x", but the code is vectorised *)
Theorem C98_s390x_refuted : exists e t b, honest e t /\ untouched e /\ compile e t = Some b /\ XSUM_ARCH e = "s390x" /\ vec (b_cfg b) = V_VSX.
Proof.
  exists (of_list gcc_s390x), (lp64 false). eexists. split; [|split; [|split; [|split]]].
  - constructor; cbn -[of_list].
    + lia.
    + intros x I D. exfalso. apply D. cbn in I. decompose [or] I; subst; try reflexivity. contradiction.
    + trivial.
    + intros o [= <-]. auto.
    + intros X. exfalso. apply X. reflexivity.
    + intros _. split; [|intros o X; discriminate]. intros _. right. discriminate.
  - apply of_list_untouched. reflexivity.
  - cbv. reflexivity.
  - reflexivity.
  - reflexivity.
Qed.
Print Assumptions C98_s390x_refuted.
(** the banner does not look at XXH_VECTOR: chosen by hand, the unit is not the one named *)
Theorem C98_chosen_refuted : exists e t b, honest e t /\ settings_ok e t /\ compile e t = Some b /\ XSUM_ARCH e = "x86_64 + SSE2" /\ vec (b_cfg b) = V_SCALAR.
Proof.
  exists (of_list (("XXH_VECTOR", 0) :: gcc_x64)), (lp64 true). eexists. split; [|split; [|split; [|split]]].
  - constructor; cbn -[of_list].
    + lia.
    + reflexivity.
    + intros X. exfalso. apply X. reflexivity.
    + intros o [= <-]. auto.
    + intros X. exfalso. apply X. reflexivity.
    + intros [X|X]; exfalso; apply X; reflexivity.
  - constructor; cbn -[of_list]; try discriminate; try reflexivity. intros v [= <-]. split; [lia|discriminate].
  - cbv. reflexivity.
  - reflexivity.
  - reflexivity.
Qed.
Print Assumptions C98_chosen_refuted.

(** *** the hypotheses are met *)
(** decides [ordinary] for a list of macros: the families announced are found by computation *)
Ltac no_macro := match goal with H : of_list _ _ <> None |- _ => exfalso; apply H; reflexivity | H : of_list _ _ = Some _ |- _ => discriminate H end.
Lemma is_for_dec l f : is_for (of_list l) f <-> existsb (defd (of_list l)) (names f) = true.
Proof. symmetry. apply fam_true. Qed.
Example C98_ordinary_gcc_x64 : ordinary (of_list (("__AVX__", 1) :: ("__AVX2__", 1) :: gcc_x64)) (lp64 true).
Proof.
  constructor.
  - intros f g. rewrite !is_for_dec. destruct f, g; cbn; congruence.
  - intros _. apply is_for_dec. reflexivity.
  - intros _. left. discriminate.
  - intros _. discriminate.
  - intros X. no_macro.
  - intros _. discriminate.
  - intros [X|[X|X]]; no_macro.
  - intros X. no_macro.
  - rewrite is_for_dec. discriminate.
  - intros X. no_macro.
  - intros X. no_macro.
  - intros X. no_macro.
  - intros X. no_macro.
Qed.
Example C98_ordinary_gcc_aarch64 : ordinary (of_list (gcc_aarch64 1234)) (lp64 true).
Proof.
  constructor.
  - intros f g. rewrite !is_for_dec. destruct f, g; cbn; congruence.
  - intros [X|[X|[X|X]]]; no_macro.
  - intros X. no_macro.
  - intros X. no_macro.
  - intros X. no_macro.
  - intros X. no_macro.
  - intros _. split; [right; right; auto|]. left. apply is_for_dec. reflexivity.
  - intros X. no_macro.
  - intros _. right. split; [right; right; auto|]. exists "__ARM_NEON". split; [left; reflexivity|discriminate].
  - intros X. no_macro.
  - intros X. no_macro.
  - intros X. no_macro.
  - intros X. no_macro.
Qed.
Example C98_banners : XSUM_ARCH (of_list gcc_x64) = "x86_64 + SSE2" /\ XSUM_ARCH (of_list msvc_x86) = "i386 + SSE2" /\
  XSUM_ARCH (of_list [("__arm__", 1); ("__thumb__", 1); ("__ARM_ARCH", 7); ("__ARM_NEON", 1)]) = "ARMv7 Thumb-2 + NEON + unaligned" /\
  compiled_as (of_list gcc_s390x) (lp64 false) = "compiled as 64-bit s390x big endian".
Proof. repeat split. Qed.
Example C98_msvc : CC_VERSION (of_list [("_MSC_FULL_VER", 150020706); ("_MSC_BUILD", 1)]) = Some [15; 0; 20706; 1].
Proof. reflexivity. Qed.
