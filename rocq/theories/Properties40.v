(** Property theorems about the functions the x86 dispatcher calls: C13 and C59, continued. *)
From Verif Require Import Base Mem M_XXH32 M_XXH64 M_XXH3 M_Kernels M_Long M_Stream3 M_Dispatch M_DispatchMT SpecCpu Spec3 P_Base P_Dispatch Properties6.

(** the kernels a processor and its operating system can run: each set of instructions with what CPUID and XGETBV must report for it *)
Inductive runs_on (c : cfg) (p : cpu) : f_accumulate -> f_scramble -> f_initSec -> Prop :=
| On_any : runs_on c p (accumulate_template (accumulate_512_scalar c)) (scrambleAcc_scalar c) (initCustomSecret_scalar c)
| On_sse2 : has_cpuid p = true -> sse2_ok p -> runs_on c p (accumulate_template (accumulate_512_sse2 c)) (scrambleAcc_sse2 c) (initCustomSecret_sse2 c)
| On_avx2 : has_cpuid p = true -> avx2_ok p -> runs_on c p (accumulate_template (accumulate_512_avx2 c)) (scrambleAcc_avx2 c) (initCustomSecret_avx2 c)
| On_avx512 : has_cpuid p = true -> avx512_ok p -> runs_on c p (accumulate_template (accumulate_512_avx512 c)) (scrambleAcc_avx512 c) (initCustomSecret_avx512 c).
(** every function in the tables is made of such kernels *)
Record tables_run_on (c : cfg) (p : cpu) (g : globals) : Prop := TablesRunOn {
  on64_default : forall f, t_default (g64 g) = Some f -> exists a s i, runs_on c p a s i /\ f = fun input len => hashLong_64b_internal c input len kSecret_ptr 192 a s;
  on64_seed : forall f, t_seed (g64 g) = Some f -> exists a s i, runs_on c p a s i /\ f = fun input len seed => hashLong_64b_withSeed_internal c input len seed a s i;
  on64_secret : forall f, t_secret (g64 g) = Some f -> exists a s i, runs_on c p a s i /\ f = fun input len secret n => hashLong_64b_internal c input len secret n a s;
  on64_update : forall f, t_update (g64 g) = Some f -> exists a s i, runs_on c p a s i /\ f = fun st input len => XXH3_update c st input len a s;
  on128_default : forall f, t_default (g128 g) = Some f -> exists a s i, runs_on c p a s i /\ f = fun input len => hashLong_128b_internal c input len kSecret_ptr 192 a s;
  on128_seed : forall f, t_seed (g128 g) = Some f -> exists a s i, runs_on c p a s i /\ f = fun input len seed => hashLong_128b_withSeed_internal c input len seed a s i;
  on128_secret : forall f, t_secret (g128 g) = Some f -> exists a s i, runs_on c p a s i /\ f = fun input len secret n => hashLong_128b_internal c input len secret n a s;
  on128_update : forall f, t_update (g128 g) = Some f -> exists a s i, runs_on c p a s i /\ f = fun st input len => XXH3_update c st input len a s }.

Lemma empty_runs c p : tables_run_on c p g_zero.
Proof. constructor; discriminate. Qed.
Lemma rows_run c p k : runs_on c p (k_acc k) (k_scr k) (k_init k) -> tables_run_on c p (Globals (row64 c k) (row128 c k)).
Proof. intros K. constructor; cbn; intros f [= <-]; (exists (k_acc k), (k_scr k), (k_init k)); (split; [exact K|reflexivity]). Qed.
Lemma set_runs c d p g g' : (d_gnu_i386 d = true \/ has_cpuid p = true) -> 0 <= eax_of (cpuid p 0 0) < 2 ^ 32 -> setDispatch c d p g = OK g' -> tables_run_on c p g'.
Proof.
  intros R1 R2. unfold setDispatch. destruct (featureTest_ok d p R1 R2) as (v & -> & V & _). cbn [bind].
  destruct V as [->|[(-> & K & S)|[(-> & K & S & A & D)|(-> & K & S & A & D)]]]; unfold tget, kDispatch, kDispatch128;
    change (Z.to_nat 0) with 0%nat; change (Z.to_nat 1) with 1%nat; change (Z.to_nat 2) with 2%nat; change (Z.to_nat 3) with 3%nat; cbn.
  - destruct (d_scalar d); intros [= <-]; [apply rows_run, On_any|apply empty_runs].
  - intros [= <-]. apply rows_run, On_sse2; assumption.
  - rewrite D. intros [= <-]. apply rows_run, On_avx2; assumption.
  - rewrite D. intros [= <-]. apply rows_run, On_avx512; assumption.
Qed.

(** C13: after any history of dispatched calls, every function the dispatcher may call consists of kernels that the processor and the operating system support
    (by their reports), of one level each. *)
Theorem C13_tables_supported : forall c d p g, (d_gnu_i386 d = true \/ has_cpuid p = true) -> 0 <= eax_of (cpuid p 0 0) < 2 ^ 32 -> reach c d p g -> tables_run_on c p g.
Proof.
  intros c d p g R1 R2 H.
  assert (N : forall A (slot : globals -> option A) g g', tables_run_on c p g -> ensure c d p slot g = OK g' -> tables_run_on c p g').
  { intros A slot g0 g' G. unfold ensure. destruct (maybe_null d && is_none (slot g0)); [apply set_runs; assumption|intros [= <-]; exact G]. }
  assert (W : forall A T (slot : globals -> option A) g l (k : globals -> res T) h g', tables_run_on c p g -> with_globals c d p slot g l k = OK (h, g') -> tables_run_on c p g').
  { intros A T slot g0 l k h g' G. unfold with_globals. destruct (l <=? MIDSIZE_MAX); cbn [bind].
    - destruct (k g0); cbn [bind]; intros E; try discriminate. injection E as <- <-. exact G.
    - destruct (ensure c d p slot g0) as [g1| |] eqn:E1; cbn [bind]; intros E; try discriminate.
      destruct (k g1); cbn [bind] in E; try discriminate. injection E as <- <-. exact (N _ _ _ _ G E1). }
  induction H as [g E|g g' i l h _ IH E|g g' i l s h _ IH E|g g' i l s z h _ IH E|g g' st i l h _ IH E
                 |g g' i l h _ IH E|g g' i l s h _ IH E|g g' i l s z h _ IH E|g g' st i l h _ IH E]; try (exact (W _ _ _ _ _ _ _ _ IH E)).
  - unfold g_start in E. destruct (maybe_null d); [injection E as <-; apply empty_runs|apply (set_runs c d p _ _ R1 R2 E)].
  - unfold XXH3_64bits_update_dispatch in E. destruct (ensure _ _ _ _ _) as [g1| |] eqn:E1; cbn [bind] in E; try discriminate.
    destruct (callp _) as [f| |]; cbn [bind] in E; try discriminate. destruct (f st i l); cbn [bind] in E; try discriminate. injection E as <- <-. exact (N _ _ _ _ IH E1).
  - unfold XXH3_128bits_update_dispatch in E. destruct (ensure _ _ _ _ _) as [g1| |] eqn:E1; cbn [bind] in E; try discriminate.
    destruct (callp _) as [f| |]; cbn [bind] in E; try discriminate. destruct (f st i l); cbn [bind] in E; try discriminate. injection E as <- <-. exact (N _ _ _ _ IH E1).
Qed.
Print Assumptions C13_tables_supported.

(** C59: the same at every moment of every run of racing threads, also while the tables are half written. *)
Theorem C59_tables_supported : forall c d p prog ts w w', (d_gnu_i386 d = true \/ has_cpuid p = true) -> 0 <= eax_of (cpuid p 0 0) < 2 ^ 32 ->
  starts c d p w -> steps c d p prog ts w w' -> tables_run_on c p (shared w').
Proof.
  intros c d p prog ts w w' R1 R2 [S0 T0] S.
  assert (I : tables_run_on c p (shared w) /\ forall t r todo, at_ (threads w t) = Storing r todo -> tables_run_on c p r).
  { split; [|intros t r todo; rewrite T0; discriminate]. unfold g_start in S0. destruct (maybe_null d); [injection S0 as <-; apply empty_runs|apply (set_runs c d p _ _ R1 R2 S0)]. }
  clear S0 T0. induction S as [w|t ts w w1 w2 S _ IH]; [apply I|]. apply IH. clear IH. destruct I as [I J].
  assert (K : forall x, (forall r todo, at_ x = Storing r todo -> tables_run_on c p r) -> forall t' r todo, at_ (set_thread w t x t') = Storing r todo -> tables_run_on c p r).
  { intros x X t' r todo. unfold set_thread. destruct (Nat.eqb t' t); [apply X|apply J]. }
  destruct S; cbn [shared threads]; (split; [try exact I|try (apply K; cbn; intros; discriminate)]).
  - apply K. cbn [at_]. intros r0 todo0 [= <- <-]. eapply set_runs; eassumption.
  - assert (R : tables_run_on c p r) by (eapply J; rewrite H; reflexivity). destruct I, R. destruct s; constructor; cbn; assumption.
  - apply K. cbn [at_]. intros r0 todo0 [= <- <-]. eapply J. rewrite H. reflexivity.
Qed.
Print Assumptions C59_tables_supported.

(** a processor with AVX2 but not AVX512: its table holds the AVX2 functions, and none of AVX512 would be allowed *)
Example C13_tables_case : let p := Cpu true (cpuid big_cpu) 7 in
  (exists g, reach x64_cfg default_x64 p g /\ t_default (g64 g) <> None) /\ has_cpuid p = true /\ 0 <= eax_of (cpuid p 0 0) < 2 ^ 32 /\ avx2_ok p /\ ~ avx512_ok p.
Proof.
  cbv zeta. split; [eexists; split; [apply R_start; reflexivity|discriminate]|]. split; [reflexivity|]. split; [cbn; lia|]. split; [cbv; repeat split; discriminate|].
  intros H. cbv in H. decompose [and] H. discriminate.
Qed.
