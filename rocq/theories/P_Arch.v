(** Proofs about the banner. *)
From Coq Require Import String Ascii DecimalString Decimal DecimalFacts.
From Verif Require Import Base Mem M_Kernels M_Config SpecConfig P_Config M_Arch SpecArch.
Import Conf Arch.
Open Scope string_scope.
Open Scope Z_scope.

(** ** text *)
Lemma plain_app a b : plain a -> plain b -> plain (a ++ b).
Proof. induction a; cbn; [auto|]. intros (N & P) Q. split; [exact N|]. apply IHa; assumption. Qed.
Lemma plain_uint_nilzero d : plain (NilZero.string_of_uint d).
Proof.
  assert (H : forall d, plain (NilEmpty.string_of_uint d)) by (intros x; induction x; cbn; auto; split; auto; discriminate).
  destruct d; cbn -[NilEmpty.string_of_uint]; try (exact (H _)); split; auto; discriminate.
Qed.
Lemma plain_dec v : plain (dec v).
Proof. unfold dec. destruct (Z.to_int v) as [d|d]; cbn -[NilZero.string_of_uint]; [apply plain_uint_nilzero|]. split; [discriminate|apply plain_uint_nilzero]. Qed.
Lemma app_assoc_s (a b c : string) : (a ++ b) ++ c = a ++ (b ++ c).
Proof. induction a; cbn; [reflexivity|]. rewrite IHa. reflexivity. Qed.
Lemma app_nil_s (a : string) : a ++ "" = a.
Proof. induction a; cbn; [reflexivity|]. rewrite IHa. reflexivity. Qed.

(** what follows the first plus sign *)
Fixpoint after_plus (s : string) : option string := match s with EmptyString => None | String c r => if ascii_dec c "+" then Some r else after_plus r end.
Lemma after_plain a b : plain a -> after_plus (a ++ b) = after_plus b.
Proof. induction a as [|c a IH]; cbn; [reflexivity|]. intros (N & P). destruct (ascii_dec c "+"); [contradiction|]. exact (IH P). Qed.

Lemma tells_unique s v w : tells s v -> tells s w -> kind v = kind w.
Proof.
  intros (a & u & r & E & P & I & R) (a' & u' & r' & E' & P' & I' & R').
  assert (Q : after_plus (u ++ r) = after_plus (u' ++ r')) by (rewrite <- (after_plain a (u ++ r) P), <- (after_plain a' (u' ++ r') P'), <- E, <- E'; reflexivity).
  clear E E' P P'.
  destruct v as [| | | |? [] | | ], w as [| | | |? [] | | ]; cbn in I, I'; decompose [or] I; decompose [or] I'; subst; try contradiction; try reflexivity; exfalso;
    destruct R as [-> | ->]; destruct R' as [-> | ->]; cbn in Q; congruence.
Qed.

(** ** families *)
Section S.
Context (e : env) (t : target) (O : ordinary e t).
Definition fam (f : family) : bool := existsb (defd e) (names f).
Lemma fam_true f : fam f = true <-> is_for e f.
Proof.
  unfold fam, is_for. rewrite existsb_exists. split; intros (x & I & D); exists x; (split; [exact I|]); apply defd_true; exact D.
Qed.
Lemma fam_no f x : fam f = false -> In x (names f) -> defd e x = false.
Proof.
  intros F I. destruct (defd e x) eqn:D; [|reflexivity]. assert (X : fam f = true) by (apply existsb_exists; eauto). congruence.
Qed.
Lemma fam_other f g : fam f = true -> f <> g -> fam g = false.
Proof. intros F N. destruct (fam g) eqn:G; [|reflexivity]. apply fam_true in F, G. destruct (N (ord_one _ _ O _ _ F G)). Qed.
Lemma need x f : (e x <> None -> is_for e f) -> fam f = false -> defd e x = false.
Proof. intros H F. destruct (defd e x) eqn:D; [|reflexivity]. apply defd_true, H, fam_true in D. congruence. Qed.

Lemma little_macros : says_little e -> le_macros e = true.
Proof.
  intros L. unfold le_macros. destruct L as [L|[L|(L1 & L2)]]; [apply defd_true in L; rewrite L; reflexivity|apply defd_true in L; rewrite L, orb_true_r; reflexivity|].
  unfold defd at 3, val. rewrite L1, L2. cbn. apply orb_true_r.
Qed.

Lemma no_sve : fam AArch64 = false -> defd e "__ARM_FEATURE_SVE" = false.
Proof. apply need. apply (ord_sve _ _ O). Qed.
Lemma no_simd : fam WASM = false -> defd e "__wasm_simd128__" = false.
Proof. apply need. intros X. apply (ord_wasm _ _ O X). Qed.
Lemma no_neon : fam AArch64 = false -> fam ARM32 = false -> defd e "__ARM_NEON" = false /\ defd e "__ARM_NEON__" = false /\ defd e "_M_ARM" = false.
Proof.
  intros A B. repeat split; match goal with |- defd e ?x = false => destruct (defd e x) eqn:D; [exfalso|reflexivity]; apply defd_true in D end.
  all: assert (X : is_for e AArch64 \/ is_for e ARM32) by (apply (ord_neon _ _ O); tauto); rewrite <- !fam_true in X; destruct X; congruence.
Qed.
Lemma no_sse : fam X86 = false -> defd e "__AVX512F__" = false /\ defd e "__AVX2__" = false /\ defd e "__AVX__" = false /\ sse2_macros e = false.
Proof.
  intros F. assert (S : ~ has_sse2 e) by (intros H; apply (ord_sse _ _ O), fam_true in H; congruence).
  assert (A : defd e "__AVX__" = false). { apply not_true_iff_false. intros D. apply defd_true in D. exact (S (ord_avx _ _ O D)). }
  assert (A2 : defd e "__AVX2__" = false). { apply not_true_iff_false. intros D. apply defd_true in D. apply (ord_avx2 _ _ O), defd_true in D. congruence. }
  assert (A5 : defd e "__AVX512F__" = false). { apply not_true_iff_false. intros D. apply defd_true in D. apply (ord_avx512 _ _ O), defd_true in D. congruence. }
  repeat split; try assumption. unfold sse2_macros. apply not_true_iff_false. rewrite !orb_true_iff, andb_true_iff, !defd_true.
  intros X. apply S. unfold has_sse2. destruct X as [[[X|X]|X]|(X & Y)]; try tauto. apply defd_true, defd_some in X. rewrite X. do 3 right. f_equal. lia.
Qed.
Lemma no_vsx : fam PPC = false -> vsx_macros e = false.
Proof.
  intros F. unfold vsx_macros. rewrite (fam_no PPC "__PPC64__" F) by (cbn; tauto). cbn [andb orb].
  destruct (defd e "__s390x__") eqn:D; [|reflexivity]. apply defd_true, (ord_s390 _ _ O), defd_false in D. rewrite D. reflexivity.
Qed.
Lemma no_vsx_ppc : fam PPC = true -> vsx_macros e = defd e "__PPC64__" && defd e "__POWER8_VECTOR__".
Proof. intros F. unfold vsx_macros. rewrite (fam_no S390 "__s390x__" (fam_other PPC S390 F ltac:(discriminate))) by (cbn; tauto). apply orb_false_r. Qed.

Lemma tells_i a u v : plain a -> In u (unit_text v) -> tells (a ++ u) v.
Proof. intros P I. exists a, u, "". rewrite app_nil_s. auto. Qed.
Ltac nofam F := repeat match goal with |- context [defd e ?x] => rewrite (fam_no _ x F) by (cbn; tauto) end.
Ltac tell a u := apply (tells_i a u); [cbn; repeat split; discriminate|cbn; tauto].
Lemma tells_plain a : plain a -> tells a V_SCALAR.
Proof. intros P. exists a, "", "". rewrite !app_nil_s. cbn. auto. Qed.

Lemma banner (U : untouched e) : e "XXHSUM_DISPATCH" = None -> tells (XSUM_ARCH e) (kernels_of e t (VECTOR e t)).
Proof.
  intros ND. unfold VECTOR. rewrite (untouched_defd e "XXH_VECTOR" U eq_refl).
  destruct (fam X86) eqn:FX.
  { pose proof (fam_other _ AArch64 FX ltac:(discriminate)) as FA. pose proof (fam_other _ ARM32 FX ltac:(discriminate)) as FR.
    pose proof (fam_other _ WASM FX ltac:(discriminate)) as FW. pose proof (fam_other _ PPC FX ltac:(discriminate)) as FP.
    destruct (no_neon FA FR) as (N1 & N2 & N3). rewrite (no_sve FA). rewrite (no_vsx FP). unfold neon_macros. rewrite N1, N2, N3, (no_simd FW).
    rewrite (fam_no _ "_M_ARM64" FA), (fam_no _ "_M_ARM64EC" FA) by (cbn; tauto). cbn [orb andb].
    assert (X : exists a, plain a /\ XSUM_ARCH e = a ++ ARCH_x86_unit e).
    { unfold XSUM_ARCH, ARCH_X86. rewrite (fam_no _ "_M_ARM64EC" FA) by (cbn; tauto). cbn [negb]. rewrite andb_true_r.
      destruct (defd e "__x86_64__" || defd e "_M_AMD64" || defd e "_M_X64") eqn:X64.
      - exists "x86_64". split; [|reflexivity]. cbn. repeat split; discriminate.
      - unfold fam in FX. cbn -[defd] in FX. rewrite !orb_false_iff in X64. destruct X64 as ((X1 & X2) & X3). rewrite X1, X2, X3 in FX. cbn [orb] in FX.
        rewrite orb_false_r in FX. rewrite <- orb_assoc, FX. exists "i386". split; [|reflexivity]. cbn. repeat split; discriminate. }
    destruct X as (a & P & ->). unfold ARCH_x86_unit. apply defd_false in ND. rewrite ND.
    destruct (defd e "__AVX512F__") eqn:A5; [apply tells_i; [exact P|left; reflexivity]|].
    destruct (defd e "__AVX2__") eqn:A2; [apply tells_i; [exact P|left; reflexivity]|].
    assert (SS : sse2_macros e = true <-> has_sse2 e).
    { unfold sse2_macros, has_sse2. rewrite !orb_true_iff, andb_true_iff, !defd_true. split.
      - intros [[[X|X]|X]|(X & Y)]; try tauto. apply defd_true, defd_some in X. rewrite X. do 3 right. f_equal. lia.
      - intros [X|[X|[X|X]]]; try tauto. right. unfold val. rewrite X. split; [discriminate|reflexivity]. }
    destruct (defd e "__AVX__") eqn:AV.
    { apply defd_true, (ord_avx _ _ O), SS in AV. rewrite AV. apply tells_i; [exact P|]. right. left. reflexivity. }
    match goal with |- context [if ?b then " + SSE2" else _] => assert (B : b = sse2_macros e) end.
    { unfold sse2_macros. destruct (defd e "__x86_64__") eqn:X; [apply defd_true, (ord_x64 _ _ O), defd_true in X; rewrite X; rewrite !orb_true_r; reflexivity|].
      destruct (defd e "_M_X64"), (defd e "_M_AMD64"), (defd e "__SSE2__"); reflexivity. }
    rewrite B. destruct (sse2_macros e); apply tells_i; try exact P; left; reflexivity. }
  destruct (no_sse FX) as (A5 & A2 & AV & SS). rewrite A5, A2, SS.
  unfold XSUM_ARCH, ARCH_X86. nofam FX. cbn [orb andb].
  destruct (fam AArch64) eqn:FA.
  { assert (B : defd e "__aarch64__" || defd e "__arm64__" || defd e "_M_ARM64" || defd e "_M_ARM64EC" = true).
    { unfold fam in FA. cbn -[defd] in FA. rewrite orb_false_r in FA. rewrite <- !orb_assoc. exact FA. }
    rewrite B. destruct (defd e "__ARM_FEATURE_SVE") eqn:SV; [tell "aarch64" " + SVE"|].
    destruct (proj1 (fam_true _) FA) as (x0 & I0 & D0).
    destruct (ord_a64 _ _ O (proj1 (fam_true _) FA)) as [V|(L & x & I & D)]; [apply defd_true in V; congruence|].
    rewrite (little_macros L). assert (NM : neon_macros e t = true).
    { unfold neon_macros. apply defd_true in D. cbn in I. decompose [or] I; subst; try contradiction; rewrite D, ?orb_true_r; reflexivity. }
    rewrite NM. cbn -[defd]. rewrite (no_simd (fam_other _ WASM FA ltac:(discriminate))).
    tell "aarch64" " + NEON". }
  nofam FA. cbn [orb]. rewrite (no_sve FA). unfold neon_macros. nofam FA.
  destruct (fam ARM32) eqn:FR.
  { assert (B : defd e "__arm__" || defd e "__thumb__" || defd e "__thumb2__" || defd e "_M_ARM" = true).
    { unfold fam in FR. cbn -[defd] in FR. rewrite orb_false_r in FR. rewrite <- !orb_assoc. exact FR. }
    rewrite B. rewrite (no_vsx (fam_other _ PPC FR ltac:(discriminate))), (no_simd (fam_other _ WASM FR ltac:(discriminate))). cbn [andb]. rewrite !orb_false_r.
    assert (R : ARM_UNALIGNED e = "" \/ ARM_UNALIGNED e = " + unaligned") by (unfold ARM_UNALIGNED; match goal with |- context [if ?b then _ else _] => destruct b end; tauto).
    assert (P : plain ("ARMv" ++ ARM_VER e ++ ARM_THUMB e)).
    { apply plain_app; [cbn; repeat split; discriminate|]. apply plain_app.
      - unfold ARM_VER, quote. destruct (defd e "__ARM_ARCH") eqn:D; [apply defd_some in D; rewrite D; apply plain_dec|].
        destruct (e "_M_ARM"); [apply plain_dec|]. cbn. repeat split; discriminate.
      - unfold ARM_THUMB. repeat match goal with |- plain (if ?b then _ else _) => destruct b end; cbn; repeat split; discriminate. }
    exists ("ARMv" ++ ARM_VER e ++ ARM_THUMB e), (ARM_NEON e), (ARM_UNALIGNED e). rewrite !app_assoc_s. split; [reflexivity|]. split; [exact P|]. split; [|exact R].
    unfold ARM_NEON. destruct (defd e "__ARM_NEON" || defd e "__ARM_NEON__" || defd e "_M_ARM") eqn:NE.
    - rewrite (orb_comm (defd e "__ARM_NEON__")), NE. assert (L : says_little e). { apply (ord_neon _ _ O). rewrite !orb_true_iff, !defd_true in NE. tauto. }
      rewrite (little_macros L). cbn -[defd]. rewrite (no_simd (fam_other _ WASM FR ltac:(discriminate))). left. reflexivity.
    - rewrite (orb_comm (defd e "__ARM_NEON__")), NE. left. reflexivity. }
  nofam FR. cbn [orb]. destruct (no_neon FA FR) as (N1 & N2 & N3). rewrite N1, N2. cbn [orb].
  destruct (fam PPC) eqn:FP.
  { rewrite (no_simd (fam_other _ WASM FP ltac:(discriminate))), (no_vsx_ppc FP). cbn [andb].
    destruct (defd e "__POWER8_VECTOR__") eqn:P8.
    - pose proof P8 as Q. apply defd_true, (ord_power8 _ _ O) in Q. destruct Q as (Q1 & Q2). apply defd_true in Q1, Q2. rewrite Q1, Q2, !orb_true_r. cbn [andb].
      destruct (defd e "__POWER9_VECTOR__").
      + tell "ppc64" " + POWER9 vector".
      + tell "ppc64" " + POWER8 vector".
    - rewrite !andb_false_r. cbn [andb]. assert (P9 : defd e "__POWER9_VECTOR__" = false).
      { apply not_true_iff_false. intros D. apply defd_true, (ord_power9 _ _ O), defd_true in D. congruence. }
      rewrite P9, andb_false_r. apply tells_plain.
      repeat match goal with |- plain (if ?b then _ else _) => destruct b end; cbn; repeat split; discriminate. }
  rewrite (no_vsx FP). nofam FP. cbn [orb].
  destruct (fam WASM) eqn:FW.
  { pose proof (fam_other _ Small FW ltac:(discriminate)) as FS. pose proof (fam_other _ S390 FW ltac:(discriminate)) as FZ.
    nofam FS. nofam FZ.
    assert (B : defd e "__wasm__" || defd e "__asmjs__" || defd e "__EMSCRIPTEN__" = true).
    { unfold fam in FW. cbn -[defd] in FW. rewrite orb_false_r in FW. rewrite <- !orb_assoc. exact FW. }
    rewrite B. destruct (defd e "__wasm_simd128__") eqn:SI.
    - pose proof SI as Q. apply defd_true, (ord_wasm _ _ O) in Q. destruct Q as (_ & H & L). rewrite H, (little_macros L). cbn -[defd]. rewrite SI.
      tell "wasm/asmjs" " + simd128".
    - apply tells_plain. cbn. repeat split; discriminate. }
  rewrite (no_simd FW). cbn [andb]. apply tells_plain.
  repeat match goal with |- plain (if ?b then _ else _) => destruct b end; cbn; repeat split; discriminate.
Qed.

Let any l := exists x, In x l /\ e x <> None.
Lemma any_true l : any l <-> existsb (defd e) l = true.
Proof. unfold any. rewrite existsb_exists. split; intros (x & I & D); exists x; (split; [exact I|]); apply defd_true; exact D. Qed.
Lemma any_sub l f : incl l (names f) -> any l -> fam f = true.
Proof. intros S (x & I & D). apply fam_true. exists x. split; [exact (S x I)|exact D]. Qed.
Lemma any_false l : ~ any l -> forall x, In x l -> defd e x = false.
Proof. intros N x I. destruct (defd e x) eqn:D; [|reflexivity]. destruct N. exists x. split; [exact I|]. apply defd_true. exact D. Qed.
Lemma orb3 a b c : a || (b || (c || false)) = a || b || c.
Proof. destruct a, b, c; reflexivity. Qed.
Ltac others F := repeat match goal with |- context [defd e ?x] =>
  first [rewrite (fam_no X86 x (fam_other _ X86 F ltac:(discriminate))) by (cbn; tauto)
        |rewrite (fam_no AArch64 x (fam_other _ AArch64 F ltac:(discriminate))) by (cbn; tauto)
        |rewrite (fam_no ARM32 x (fam_other _ ARM32 F ltac:(discriminate))) by (cbn; tauto)
        |rewrite (fam_no PPC x (fam_other _ PPC F ltac:(discriminate))) by (cbn; tauto)
        |rewrite (fam_no S390 x (fam_other _ S390 F ltac:(discriminate))) by (cbn; tauto)
        |rewrite (fam_no WASM x (fam_other _ WASM F ltac:(discriminate))) by (cbn; tauto)
        |rewrite (fam_no Small x (fam_other _ Small F ltac:(discriminate))) by (cbn; tauto)] end; cbn [orb andb negb].
Lemma processor : let starts a := exists r, XSUM_ARCH e = a ++ r in
  (any ["__x86_64__"; "_M_AMD64"; "_M_X64"] -> starts "x86_64") /\
  (is_for e X86 -> ~ any ["__x86_64__"; "_M_AMD64"; "_M_X64"] -> starts "i386") /\
  (is_for e AArch64 -> starts "aarch64") /\
  (is_for e ARM32 -> forall v, e "__ARM_ARCH" = Some v -> starts ("ARMv" ++ dec v)) /\
  (any ["__powerpc64__"; "__ppc64__"; "__PPC64__"] -> starts "ppc64") /\
  (is_for e PPC -> ~ any ["__powerpc64__"; "__ppc64__"; "__PPC64__"] -> XSUM_ARCH e = "ppc") /\
  (e "__s390x__" <> None -> XSUM_ARCH e = "s390x") /\
  (is_for e S390 -> e "__s390x__" = None -> XSUM_ARCH e = "s390") /\
  (is_for e WASM -> starts "wasm/asmjs") /\
  (e "__AVR" <> None -> XSUM_ARCH e = "AVR") /\
  (e "__AVR" = None -> e "__mips64" <> None -> XSUM_ARCH e = "mips64") /\
  (e "__AVR" = None -> e "__mips64" = None -> e "__mips" <> None -> XSUM_ARCH e = "mips") /\
  ((forall f, ~ is_for e f) -> XSUM_ARCH e = "unknown").
Proof.
  cbv zeta. assert (ONE : forall f x, In x (names f) -> e x <> None -> fam f = true) by (intros f x I D; apply fam_true; exists x; auto).
  repeat split.
  - intros A. assert (F : fam X86 = true) by (refine (any_sub _ X86 _ A); intros x I; cbn in I |- *; tauto). unfold XSUM_ARCH, ARCH_X86. others F.
    apply any_true in A. cbn -[defd] in A. rewrite orb3 in A. rewrite A. eexists. reflexivity.
  - intros A N. apply fam_true in A. unfold XSUM_ARCH, ARCH_X86. rewrite !(any_false _ N) by (cbn; tauto). cbn [orb andb].
    assert (B : defd e "__i386__" || defd e "_M_IX86" || defd e "_M_IX86_FP" = true).
    { unfold fam in A. cbn -[defd] in A. rewrite !(any_false _ N) in A by (cbn; tauto). cbn [orb] in A. rewrite orb3 in A. exact A. }
    rewrite B. eexists. reflexivity.
  - intros A. apply fam_true in A. unfold XSUM_ARCH, ARCH_X86. others A.
    assert (B : defd e "__aarch64__" || defd e "__arm64__" || defd e "_M_ARM64" || defd e "_M_ARM64EC" = true).
    { unfold fam in A. cbn -[defd] in A. rewrite orb_false_r in A. rewrite <- !orb_assoc. exact A. }
    rewrite B. destruct (defd e "__ARM_FEATURE_SVE"); eexists; reflexivity.
  - intros A v V. apply fam_true in A. unfold XSUM_ARCH, ARCH_X86. others A.
    assert (B : defd e "__arm__" || defd e "__thumb__" || defd e "__thumb2__" || defd e "_M_ARM" = true).
    { unfold fam in A. cbn -[defd] in A. rewrite orb_false_r in A. rewrite <- !orb_assoc. exact A. }
    rewrite B. unfold ARM_VER, quote. unfold defd at 1. rewrite V. eexists. rewrite app_assoc_s. reflexivity.
  - intros A. assert (F : fam PPC = true) by (refine (any_sub _ PPC _ A); intros x I; cbn in I |- *; tauto). unfold XSUM_ARCH, ARCH_X86. others F.
    apply any_true in A. cbn -[defd] in A. rewrite orb3 in A. rewrite A.
    repeat match goal with |- context [if ?b then _ else _] => destruct b end; first [exists " + POWER9 vector"; reflexivity|exists " + POWER8 vector"; reflexivity|exists ""; reflexivity].
  - intros A N. apply fam_true in A. unfold XSUM_ARCH, ARCH_X86. others A. rewrite !(any_false _ N) by (cbn; tauto). cbn [orb].
    assert (B : defd e "__powerpc__" || defd e "__ppc__" || defd e "__PPC__" = true).
    { unfold fam in A. cbn -[defd] in A. rewrite !(any_false _ N) in A by (cbn; tauto). cbn [orb] in A. rewrite orb3 in A. exact A. }
    rewrite B. reflexivity.
  - intros D. pose proof (ONE S390 "__s390x__" ltac:(cbn; tauto) D) as A. unfold XSUM_ARCH, ARCH_X86. others A. apply defd_true in D. rewrite D. reflexivity.
  - intros A D. apply fam_true in A. apply defd_false in D. unfold XSUM_ARCH, ARCH_X86. others A. rewrite D.
    assert (B : defd e "__s390__" = true). { unfold fam in A. cbn -[defd] in A. rewrite D, orb_false_r in A. exact A. } rewrite B. reflexivity.
  - intros A. apply fam_true in A. unfold XSUM_ARCH, ARCH_X86. others A.
    assert (B : defd e "__wasm__" || defd e "__asmjs__" || defd e "__EMSCRIPTEN__" = true).
    { unfold fam in A. cbn -[defd] in A. rewrite orb3 in A. exact A. }
    rewrite B. destruct (defd e "__wasm_simd128__"); eexists; reflexivity.
  - intros D. pose proof (ONE Small "__AVR" ltac:(cbn; tauto) D) as A. unfold XSUM_ARCH, ARCH_X86. others A. apply defd_true in D. rewrite D. reflexivity.
  - intros N D. pose proof (ONE Small "__mips64" ltac:(cbn; tauto) D) as A. unfold XSUM_ARCH, ARCH_X86. others A. apply defd_true in D. apply defd_false in N. rewrite N, D. reflexivity.
  - intros N N2 D. pose proof (ONE Small "__mips" ltac:(cbn; tauto) D) as A. unfold XSUM_ARCH, ARCH_X86. others A. apply defd_true in D. apply defd_false in N, N2. rewrite N, N2, D. reflexivity.
  - intros N. assert (F : forall f, fam f = false) by (intros f; apply not_true_iff_false; rewrite fam_true; apply N). unfold XSUM_ARCH, ARCH_X86.
    nofam (F X86). nofam (F AArch64). nofam (F ARM32). nofam (F PPC). nofam (F S390). nofam (F WASM). nofam (F Small). reflexivity.
Qed.
End S.
