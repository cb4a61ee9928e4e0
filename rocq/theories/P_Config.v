(** Proofs about the selection of the build. *)
From Coq Require Import String.
From Verif Require Import Base Mem M_Kernels M_Dispatch SpecCpu P_Dispatch M_Config SpecConfig.
Import Conf.
Open Scope string_scope.
Open Scope Z_scope.

Lemma defd_true e x : defd e x = true <-> e x <> None.
Proof. unfold defd. destruct (e x); split; congruence. Qed.
Lemma defd_false e x : defd e x = false <-> e x = None.
Proof. unfold defd. destruct (e x); split; congruence. Qed.
Lemma defd_some e x : defd e x = true -> e x = Some (val e x).
Proof. unfold defd, val. destruct (e x); congruence. Qed.

Section S.
Context (e : env) (t : target) (H : honest e t).

Lemma hon_name x : In x little_endian_names -> defd e x = true -> t_le t = true.
Proof. intros I D. apply (hon_le e t H x I). apply defd_true. exact D. Qed.

Lemma order_le : defd e "__BYTE_ORDER__" && (val e "__BYTE_ORDER__" =? val e "__ORDER_LITTLE_ENDIAN__") = defd e "__BYTE_ORDER__" && t_le t.
Proof.
  destruct (defd e "__BYTE_ORDER__") eqn:D; [|reflexivity]. cbn [andb]. apply defd_some in D.
  destruct (hon_order e t H _ D) as (L & _ & O). rewrite O. unfold val. rewrite L. destruct (t_le t); reflexivity.
Qed.
Lemma order_be : defd e "__BYTE_ORDER__" && (val e "__BYTE_ORDER__" =? val e "__ORDER_BIG_ENDIAN__") = defd e "__BYTE_ORDER__" && negb (t_le t).
Proof.
  destruct (defd e "__BYTE_ORDER__") eqn:D; [|reflexivity]. cbn [andb]. apply defd_some in D.
  destruct (hon_order e t H _ D) as (_ & B & O). rewrite O. unfold val. rewrite B. destruct (t_le t); reflexivity.
Qed.

Lemma le_macros_true : le_macros e = true -> t_le t = true.
Proof.
  unfold le_macros. rewrite order_le. rewrite !orb_true_iff, andb_true_iff. intros [[A|A]|[_ A]]; [| |exact A]; eapply hon_name; try exact A; cbn; tauto.
Qed.
Lemma be_macros_true : be_macros e = true -> t_le t = false.
Proof.
  unfold be_macros. rewrite order_be. rewrite orb_true_iff, andb_true_iff, negb_true_iff. intros [A|[_ A]]; [|exact A].
  apply (hon_be e t H). apply defd_true. exact A.
Qed.

Lemma cpu_le_ok : settings_ok e t -> negb (CPU_LITTLE_ENDIAN e t =? 0) = t_le t.
Proof.
  intros S. unfold CPU_LITTLE_ENDIAN. destruct (defd e "XXH_CPU_LITTLE_ENDIAN") eqn:D.
  - apply defd_some in D. pose proof (set_le e t S _ D) as X. destruct (Z.eqb_spec (val e "XXH_CPU_LITTLE_ENDIAN") 0) as [Q|Q]; destruct (t_le t); cbn; intuition congruence.
  - destruct (le_macros e) eqn:L; [rewrite (le_macros_true L); reflexivity|].
    destruct (be_macros e) eqn:B; [rewrite (be_macros_true B); reflexivity|]. unfold isLittleEndian. destruct (t_le t); reflexivity.
Qed.

Lemma vector_cases : settings_ok e t ->
  (1 <= VECTOR e t <= 4 -> t_le t = true) /\ (VECTOR e t = 5 -> e "__POWER8_VECTOR__" <> None \/ e "__VEC__" <> None) /\
  (VECTOR e t = 6 -> e "__ARM_FEATURE_SVE" <> None).
Proof.
  intros S. unfold VECTOR. destruct (defd e "XXH_VECTOR") eqn:D.
  - apply defd_some in D. destruct (set_vec e t S _ D) as (A & B). destruct (Z.eqb_spec (val e "XXH_VECTOR") 6) as [Q|Q]; cbn [andb].
    + destruct (defd e "__ARM_FEATURE_SVE") eqn:V; cbn [negb]; [|lia]. split; [lia|]. split; [lia|]. intros _. apply defd_true. exact V.
    + tauto.
  - destruct (defd e "__ARM_FEATURE_SVE") eqn:V; [cbn; split; [lia|]; split; [lia|]; intros _; apply defd_true; exact V|].
    destruct (neon_macros e t && le_macros e) eqn:N.
    { cbn. split; [|lia]. intros _. apply andb_true_iff in N. apply le_macros_true. tauto. }
    destruct (defd e "__AVX512F__") eqn:A5. { cbn. split; [|lia]. intros _. apply (hon_name "__AVX512F__"); [cbn; tauto|exact A5]. }
    destruct (defd e "__AVX2__") eqn:A2. { cbn. split; [|lia]. intros _. apply (hon_name "__AVX2__"); [cbn; tauto|exact A2]. }
    destruct (sse2_macros e) eqn:SS.
    { cbn. split; [|lia]. intros _. unfold sse2_macros in SS. rewrite !orb_true_iff, andb_true_iff in SS.
      destruct SS as [[[X|X]|X]|[X _]]; eapply hon_name; try exact X; cbn; tauto. }
    destruct (vsx_macros e) eqn:VX; [|cbn; lia]. cbn. split; [lia|]. split; [|lia]. intros _.
    unfold vsx_macros in VX. rewrite orb_true_iff, !andb_true_iff in VX. rewrite <- !defd_true. tauto.
Qed.

Lemma vsx_be_ok : settings_ok e t -> VECTOR e t = 5 -> negb (VSX_BE e =? 0) = negb (t_le t).
Proof.
  intros S V. destruct (vector_cases S) as (_ & P & _). destruct (hon_vsx e t H (P V)) as (B & R). unfold VSX_BE.
  destruct (defd e "XXH_VSX_BE") eqn:D.
  { apply defd_some in D. pose proof (set_vsx e t S _ D) as X. destruct (Z.eqb_spec (val e "XXH_VSX_BE") 0) as [Q|Q]; destruct (t_le t); cbn; intuition congruence. }
  destruct (be_macros e) eqn:M; [rewrite (be_macros_true M); reflexivity|].
  assert (LE : t_le t = true).
  { destruct (t_le t) eqn:L; [reflexivity|exfalso]. unfold be_macros in M. rewrite order_be in M. rewrite L in M. cbn [negb] in M.
    rewrite andb_true_r in M. apply orb_false_iff in M. rewrite !defd_false in M. destruct (B eq_refl); tauto. }
  rewrite LE. destruct (defd e "__VEC_ELEMENT_REG_ORDER__") eqn:E; [|reflexivity]. apply defd_some in E.
  destruct (R _ E) as (G & O). rewrite LE in O. cbn [andb]. rewrite O. unfold val. rewrite G. reflexivity.
Qed.

Lemma mem_ok : settings_ok e t -> FORCE_MEMORY_ACCESS e = 2 -> t_unaligned t = true.
Proof.
  intros S. unfold FORCE_MEMORY_ACCESS. destruct (defd e "XXH_FORCE_MEMORY_ACCESS") eqn:D.
  - intros E. apply defd_some in D. rewrite E in D. exact (set_mem e t S D).
  - destruct (_ && _); discriminate.
Qed.
End S.

(** what a successful compilation yields *)
Lemma compile_inv e t b : compile e t = Some b ->
  b_cfg b = Cfg (negb (CPU_LITTLE_ENDIAN e t =? 0)) (FORCE_MEMORY_ACCESS e) (t_unaligned t) (negb (FORCE_ALIGN_CHECK e =? 0)) (negb (ENDJMP e =? 0)) (SIZE_OPT e)
               (t_szbits t) (MUL128 e) (t_ptr t <? 8) (kernels_of e t (VECTOR e t)) (STREAM_USE_STACK e) (defd e "XXH_X86DISPATCH") /\
  b_vsx_be b = negb (VSX_BE e =? 0) /\
  (exists acc sec, ACC_ALIGN e t = Some acc /\ SEC_ALIGN e t = Some sec /\ b_acc b = declared_u64 e t acc /\ b_sec b = declared_u8 e sec) /\
  (VECTOR e t = 4 -> 0 < NEON_LANES e <= 8 /\ Z.rem (NEON_LANES e) 2 = 0).
Proof.
  unfold compile. destruct (ACC_ALIGN e t) as [acc|] eqn:A; [|discriminate]. destruct (SEC_ALIGN e t) as [sec|] eqn:SC; [|discriminate].
  destruct (static_asserts e t sec) eqn:SA; [|discriminate]. intros [= <-]. cbn. split; [reflexivity|]. split; [reflexivity|].
  split; [exists acc, sec; tauto|]. intros V. unfold static_asserts in SA. rewrite V in SA. cbn in SA.
  rewrite !andb_true_iff in SA. lia.
Qed.

Lemma kernels_vsx e t v : kernels_of e t v = V_VSX -> v = 5.
Proof. unfold kernels_of. repeat (match goal with |- context [?a =? ?b] => destruct (Z.eqb_spec a b) end; try discriminate; trivial). Qed.
Lemma kernels_sve e t v d j : kernels_of e t v = V_SVE d j -> v = 6 /\ d = t_sve t.
Proof.
  unfold kernels_of. repeat (match goal with |- context [?a =? ?b] => destruct (Z.eqb_spec a b) end; try discriminate; trivial).
  intros [= <- _]. tauto.
Qed.

Lemma compile_cfg e t b : honest e t -> settings_ok e t -> compile e t = Some b ->
  cpu_le (b_cfg b) = t_le t /\ (vec (b_cfg b) = V_VSX -> b_vsx_be b = negb (t_le t)) /\
  (cfg_ok (b_cfg b) <-> ~ exists d j, vec (b_cfg b) = V_SVE d j /\ t_le t = false).
Proof.
  intros H S E. destruct (compile_inv e t b E) as (C & VB & _ & NL). destruct (vector_cases e t H S) as (V1 & V5 & V6).
  rewrite C, VB. cbn [cpu_le vec]. rewrite (cpu_le_ok e t H S). split; [reflexivity|]. split; [intros V; apply vsx_be_ok; [exact H|exact S|exact (kernels_vsx e t _ V)]|].
  split.
  - intros OK (d & j & V & L). pose proof (ok_vec _ OK) as K. cbn [vec cpu_le] in K. rewrite V, L in K. destruct K as (K & _). discriminate.
  - intros N. constructor; cbn [szbits mem_access hw_unaligned vec cpu_le].
    + exact (hon_size e t H).
    + exact (mem_ok e t S).
    + set (v := VECTOR e t) in *. unfold kernels_of in *. destruct (Z.eqb_spec v 3); [apply V1; lia|]. destruct (Z.eqb_spec v 2); [apply V1; lia|].
      destruct (Z.eqb_spec v 1); [apply V1; lia|]. destruct (Z.eqb_spec v 4) as [Q|Q].
      { split; [apply V1; lia|]. destruct (NL Q) as (R & P). pose proof (Z.quot_rem' (NEON_LANES e) 2). lia. }
      destruct (Z.eqb_spec v 5); [exact I|]. destruct (Z.eqb_spec v 6) as [Q6|Q6]; [|exact I].
      split; [|exact (hon_sve e t H (V6 Q6))]. destruct (t_le t) eqn:L; [reflexivity|]. exfalso. apply N. eauto.
Qed.

Lemma compile_align e t b : can_align e = true -> e "XXH_ACC_ALIGN" = None -> compile e t = Some b ->
  b_acc b = acc_align (b_cfg b) /\ b_sec b = sec_align (b_cfg b).
Proof.
  intros CA A E. destruct (compile_inv e t b E) as (C & _ & (acc & sec & EA & ES & -> & ->) & _). rewrite C.
  unfold declared_u64, declared_u8, sec_align, acc_align. rewrite CA. cbn [x86dispatch vec]. unfold SEC_ALIGN in ES. unfold ACC_ALIGN in *.
  apply defd_false in A. rewrite A in *. destruct (defd e "XXH_X86DISPATCH"); cbn [orb] in *; [split; congruence|].
  set (v := VECTOR e t) in *. unfold kernels_of. revert EA ES. clearbody v.
  destruct (Z.eqb_spec v 3); [subst; cbn; intros; split; congruence|]. destruct (Z.eqb_spec v 2); [subst; cbn; intros; split; congruence|].
  destruct (Z.eqb_spec v 1); [subst; cbn; intros; split; congruence|]. destruct (Z.eqb_spec v 4); [subst; cbn; intros; split; congruence|].
  destruct (Z.eqb_spec v 5); [subst; cbn; intros; split; congruence|]. destruct (Z.eqb_spec v 6); [subst; cbn; intros; split; congruence|].
  destruct (Z.eqb_spec v 0); [subst; cbn; intros; split; congruence|]. discriminate.
Qed.

Lemma untouched_settings e t : untouched e -> settings_ok e t.
Proof.
  intros U. constructor; intros.
  - rewrite (U "XXH_FORCE_MEMORY_ACCESS") in H by reflexivity. discriminate.
  - rewrite (U "XXH_CPU_LITTLE_ENDIAN") in H by reflexivity. discriminate.
  - rewrite (U "XXH_VECTOR") in H by reflexivity. discriminate.
  - rewrite (U "XXH_VSX_BE") in H by reflexivity. discriminate.
  - apply U. reflexivity.
Qed.

Lemma untouched_defd e x : untouched e -> prefix "XXH" x = true -> defd e x = false.
Proof. intros U P. apply defd_false. exact (U x P). Qed.

(** only XXH_X86DISPATCH may be defined *)
Lemma almost_untouched_compiles e t : (forall x, prefix "XXH" x = true -> x <> "XXH_X86DISPATCH" -> e x = None) -> exists b, compile e t = Some b.
Proof.
  intros U. assert (U' : forall x, prefix "XXH" x = true -> x <> "XXH_X86DISPATCH" -> defd e x = false) by (intros; apply defd_false; auto).
  unfold compile. assert (V : 0 <= VECTOR e t <= 6).
  { unfold VECTOR. rewrite (U' "XXH_VECTOR" eq_refl) by discriminate. destruct (defd e "__ARM_FEATURE_SVE"); cbn [negb andb]; [cbn; lia|].
    repeat match goal with |- context [if ?b then _ else _] => destruct b end; try lia. }
  assert (SA : forall sec, (VECTOR e t = 3 -> sec = 64) -> (VECTOR e t = 2 -> sec <= 64) -> static_asserts e t sec = true).
  { intros sec H3 H2. unfold static_asserts. assert (NL : NEON_LANES e = 6 \/ NEON_LANES e = 8).
    { unfold NEON_LANES. rewrite (U' "XXH3_NEON_LANES" eq_refl) by discriminate. destruct (_ && _ && _); tauto. }
    rewrite !andb_true_iff. split; [split|].
    - destruct (VECTOR e t =? 4); [|reflexivity]. destruct NL as [-> | ->]; reflexivity.
    - destruct (Z.eqb_spec (VECTOR e t) 3) as [Q|Q]; [|reflexivity]. rewrite (H3 Q). reflexivity.
    - destruct (Z.eqb_spec (VECTOR e t) 2) as [Q|Q]; [|reflexivity]. pose proof (H2 Q). cbn. lia. }
  unfold SEC_ALIGN, ACC_ALIGN. rewrite (U' "XXH_ACC_ALIGN" eq_refl) by discriminate.
  destruct (defd e "XXH_X86DISPATCH"); cbn [orb]; [rewrite SA by lia; eauto|].
  set (v := VECTOR e t) in *. clearbody v.
  assert (E : v = 0 \/ v = 1 \/ v = 2 \/ v = 3 \/ v = 4 \/ v = 5 \/ v = 6) by lia.
  destruct E as [->|[->|[->|[->|[->|[->| ->]]]]]]; cbn -[static_asserts]; rewrite SA by lia; eauto.
Qed.
Lemma untouched_compiles e t : untouched e -> exists b, compile e t = Some b.
Proof. intros U. apply almost_untouched_compiles. intros x P _. exact (U x P). Qed.

(** ** the dispatcher's unit *)
Lemma define_other e x v y : y <> x -> define e x v y = e y.
Proof. intros N. unfold define. destruct (String.eqb_spec y x); [contradiction|reflexivity]. Qed.

Lemma honest_define e t v : honest e t -> honest (define e "XXH_X86DISPATCH" v) t.
Proof.
  intros H. constructor.
  - exact (hon_size e t H).
  - intros x I. rewrite define_other. 2:{ intros ->. cbn in I. decompose [or] I; try discriminate; tauto. } exact (hon_le e t H x I).
  - rewrite define_other by discriminate. exact (hon_be e t H).
  - intros o. rewrite !define_other by discriminate. exact (hon_order e t H o).
  - rewrite define_other by discriminate. exact (hon_sve e t H).
  - rewrite !define_other by discriminate. intros X. destruct (hon_vsx e t H X) as (A & B). split; [exact A|]. exact B.
Qed.
Lemma settings_define e t v : settings_ok e t -> settings_ok (define e "XXH_X86DISPATCH" v) t.
Proof.
  intros S. constructor.
  - rewrite define_other by discriminate. exact (set_mem e t S).
  - intros w. rewrite define_other by discriminate. exact (set_le e t S w).
  - intros w. rewrite !define_other by discriminate. exact (set_vec e t S w).
  - intros w. rewrite define_other by discriminate. exact (set_vsx e t S w).
  - rewrite define_other by discriminate. exact (set_acc e t S).
Qed.

Lemma switches_inv e t d : dispatch_switches e t = Some d ->
  (exists x, In x ["__x86_64__"; "__i386__"; "_M_IX86"; "_M_X64"] /\ e x <> None) /\
  (e "__AVX__" <> None -> e "XXH_X86DISPATCH_ALLOW_AVX" <> None) /\
  d = Dcfg (negb (DISPATCH_SCALAR e =? 0)) (negb (DISPATCH_AVX2 e t =? 0)) (negb (DISPATCH_AVX512 e t =? 0)) (defd e "__GNUC__" && defd e "__i386__") (negb (has_constructor t)).
Proof.
  unfold dispatch_switches. destruct (negb (_ || _ || _ || _)) eqn:A; [discriminate|]. destruct (defd e "__AVX__" && _) eqn:B; [discriminate|].
  destruct (negb (defd e "__GNUC__" || _ || _)); [discriminate|]. intros E. injection E as E. split; [|split; [|exact (eq_sym E)]].
  - apply negb_false_iff in A. rewrite !orb_true_iff, !defd_true in A. cbn. destruct A as [[[A|A]|A]|A]; eexists; split; try exact A; tauto.
  - intros X. apply defd_true in X. rewrite X in B. cbn in B. apply negb_false_iff in B. apply defd_true. exact B.
Qed.

Lemma x86_le e t x : honest e t -> In x ["__x86_64__"; "__i386__"; "_M_IX86"; "_M_X64"] -> e x <> None -> t_le t = true.
Proof. intros H I D. apply (hon_le e t H x); [|exact D]. cbn in *. tauto. Qed.

Lemma dispatch_scalar_needs e p : cpu_for e p -> negb (DISPATCH_SCALAR e =? 0) = true \/ (has_cpuid p = true /\ sse2_ok p).
Proof.
  intros P. unfold DISPATCH_SCALAR. destruct (defd e "XXH_DISPATCH_SCALAR") eqn:D.
  - apply defd_some in D. destruct (Z.eqb_spec (val e "XXH_DISPATCH_SCALAR") 0) as [Q|Q]; [right|left; reflexivity].
    rewrite Q in D. apply (cpu_sse2 e p P). tauto.
  - destruct (_ || _) eqn:B; [right|left; reflexivity]. apply (cpu_sse2 e p P). rewrite !orb_true_iff, andb_true_iff, !defd_true in B.
    destruct B as [[[[[B|[B1 B2]]|B]|B]|B]|B]; try (left; eexists; split; [|exact B]; cbn; tauto).
    right; left. exists (val e "_M_IX86_FP"). split; [apply defd_some, defd_true; exact B1|lia].
Qed.
