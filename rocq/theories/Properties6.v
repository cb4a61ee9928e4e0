(** Property theorems about the x86 run-time dispatcher (C13). *)
From Verif Require Import Base Mem M_XXH32 M_XXH64 M_XXH3 M_Kernels M_Long M_Stream3 M_Dispatch SpecCpu Spec3 P_Base P_Spec
  P_X3_Base P_X3_Short P_Kernels P_Kernels2 P_X3_Long P_Stream P_Stream3 P_Stream4 History P_History P_Dispatch Properties1 Properties2 Properties3.

(** C13, selection: for every report of the processor (registers are 32-bit), the test runs without executing CPUID
    or XGETBV where they trap, and the level it returns (0 scalar, 1 SSE2, 2 AVX2, 3 AVX512) is enabled in the build
    and supported by both processor and operating system.  Conversely it never settles for less than it could, with one
    exception spelled out in the last line: a build that also dispatches to AVX2 requires AVX2 before AVX512. *)
Theorem C13_selects_supported : forall d p, (d_gnu_i386 d = true \/ has_cpuid p = true) -> 0 <= eax_of (cpuid p 0 0) < 2 ^ 32 ->
  exists v, featureTest d p = OK v /\
    ( v = 0 \/
      v = 1 /\ has_cpuid p = true /\ sse2_ok p \/
      v = 2 /\ has_cpuid p = true /\ sse2_ok p /\ avx2_ok p /\ d_avx2 d = true \/
      v = 3 /\ has_cpuid p = true /\ sse2_ok p /\ avx512_ok p /\ d_avx512 d = true ) /\
    (has_cpuid p = true -> sse2_ok p -> 1 <= v) /\
    (has_cpuid p = true -> sse2_ok p -> Z.testbit (ecx_of (cpuid p 1 0)) 26 = true -> avx2_ok p -> d_avx2 d = true -> 2 <= v) /\
    (has_cpuid p = true -> sse2_ok p -> Z.testbit (ecx_of (cpuid p 1 0)) 26 = true -> avx512_ok p -> d_avx512 d = true ->
      (d_avx2 d = true -> Z.testbit (ebx_of (cpuid p 7 0)) 5 = true) -> v = 3).
Proof. exact featureTest_ok. Qed.
Print Assumptions C13_selects_supported.

(** the globals after any history of calls into the dispatcher, with any arguments *)
Inductive reach (c : cfg) (d : dcfg) (p : cpu) : globals -> Prop :=
| R_start g : g_start c d p = OK g -> reach c d p g
| R_64 g g' i l h : reach c d p g -> XXH3_64bits_dispatch c d p g i l = OK (h, g') -> reach c d p g'
| R_64_seed g g' i l s h : reach c d p g -> XXH3_64bits_withSeed_dispatch c d p g i l s = OK (h, g') -> reach c d p g'
| R_64_secret g g' i l s z h : reach c d p g -> XXH3_64bits_withSecret_dispatch c d p g i l s z = OK (h, g') -> reach c d p g'
| R_64_update g g' st i l h : reach c d p g -> XXH3_64bits_update_dispatch c d p g st i l = OK (h, g') -> reach c d p g'
| R_128 g g' i l h : reach c d p g -> XXH3_128bits_dispatch c d p g i l = OK (h, g') -> reach c d p g'
| R_128_seed g g' i l s h : reach c d p g -> XXH3_128bits_withSeed_dispatch c d p g i l s = OK (h, g') -> reach c d p g'
| R_128_secret g g' i l s z h : reach c d p g -> XXH3_128bits_withSecret_dispatch c d p g i l s z = OK (h, g') -> reach c d p g'
| R_128_update g g' st i l h : reach c d p g -> XXH3_128bits_update_dispatch c d p g st i l = OK (h, g') -> reach c d p g'.

(** a little-endian build of xxh_x86dispatch.c on a machine where the test can run and the selected row exists *)
Definition dispatch_ok (c : cfg) (d : dcfg) (p : cpu) : Prop :=
  cfg_ok c /\ x86dispatch c = true /\ cpu_le c = true /\
  (d_gnu_i386 d = true \/ has_cpuid p = true) /\ 0 <= eax_of (cpuid p 0 0) < 2 ^ 32 /\
  (d_scalar d = true \/ has_cpuid p = true /\ sse2_ok p).

Lemma reach_inv c d p g : dispatch_ok c d p -> reach c d p g -> ginv c d g.
Proof.
  intros (C & X & LE & R1 & R2 & V) H. assert (R : runs d p) by (split; assumption).
  induction H as [g E|g g' i l h _ IH E|g g' i l s h _ IH E|g g' i l s z h _ IH E|g g' st i l h _ IH E
                 |g g' i l h _ IH E|g g' i l s h _ IH E|g g' i l s z h _ IH E|g g' st i l h _ IH E].
  - destruct (start_ok c d p C X LE R V) as (g1 & E1 & G). rewrite E1 in E. injection E as <-. exact G.
  - exact (with_globals_inv c d p C X LE R V _ _ _ _ _ _ IH E).
  - exact (with_globals_inv c d p C X LE R V _ _ _ _ _ _ IH E).
  - exact (with_globals_inv c d p C X LE R V _ _ _ _ _ _ IH E).
  - unfold XXH3_64bits_update_dispatch in E. destruct (ensure _ _ _ _ _) as [g1| |] eqn:E1; cbn [bind] in E; try discriminate.
    destruct (callp _) as [f| |]; cbn [bind] in E; try discriminate. destruct (f st i l); cbn [bind] in E; try discriminate.
    injection E as <- <-. exact (ensure_inv c d p C X LE R V _ _ _ IH E1).
  - exact (with_globals_inv c d p C X LE R V _ _ _ _ _ _ IH E).
  - exact (with_globals_inv c d p C X LE R V _ _ _ _ _ _ IH E).
  - exact (with_globals_inv c d p C X LE R V _ _ _ _ _ _ IH E).
  - unfold XXH3_128bits_update_dispatch in E. destruct (ensure _ _ _ _ _) as [g1| |] eqn:E1; cbn [bind] in E; try discriminate.
    destruct (callp _) as [f| |]; cbn [bind] in E; try discriminate. destruct (f st i l); cbn [bind] in E; try discriminate.
    injection E as <- <-. exact (ensure_inv c d p C X LE R V _ _ _ IH E1).
Qed.

(** C13, one-shot: after any history, every dispatched function returns what the specification says, which is what
    the plain function of any build [c'] returns. *)
Theorem C13_oneshot64 : forall c d p g c' q m seed ps s, dispatch_ok c d p -> reach c d p g ->
  cfg_ok c' -> szbits c' = szbits c -> points_to q m -> bytes_ok m -> 0 <= seed < 2 ^ 64 ->
  points_to ps s -> bytes_ok s -> 136 <= zlen s -> (240 < zlen m -> 8 * (zlen s - 64) < 2 ^ szbits c) ->
  exists g1 g2 g3,
    XXH3_64bits_dispatch c d p g q (zlen m) = OK (X3.XXH3_64 m, g1) /\
    XXH3_64bits c' q (zlen m) = OK (X3.XXH3_64 m) /\
    XXH3_64bits_withSeed_dispatch c d p g q (zlen m) seed = OK (X3.XXH3_64_withSeed seed m, g2) /\
    XXH3_64bits_withSeed c' q (zlen m) seed = OK (X3.XXH3_64_withSeed seed m) /\
    XXH3_64bits_withSecret_dispatch c d p g q (zlen m) ps (zlen s) = OK (X3.XXH3_64_withSecret s m, g3) /\
    XXH3_64bits_withSecret c' q (zlen m) ps (zlen s) = OK (X3.XXH3_64_withSecret s m).
Proof.
  intros c d p g c' q m seed ps s D RG C' SZ P B W PS BS S1 S2. pose proof (reach_inv _ _ _ _ D RG) as G.
  destruct D as (C & X & LE & R1 & R2 & V). assert (R : runs d p) by (split; assumption).
  destruct (d64_ok c d p C X LE R V q m P B g G) as (g1 & E1).
  destruct (d64_seed_ok c d p C X LE R V q m P B g seed G W) as (g2 & E2).
  destruct (d64_secret_ok c d p C X LE R V q m P B g ps s G PS BS S1 S2) as (g3 & E3).
  exists g1, g2, g3. split; [exact E1|]. split; [exact (C03_xxh3_64_equals_spec c' q m C' P B)|].
  split; [exact E2|]. split; [exact (C03_xxh3_64_withSeed_equals_spec c' q m seed C' P B W)|].
  split; [exact E3|]. apply C03_xxh3_64_withSecret_equals_spec; trivial. rewrite SZ. exact S2.
Qed.
Print Assumptions C13_oneshot64.
Theorem C13_oneshot128 : forall c d p g c' q m seed ps s, dispatch_ok c d p -> reach c d p g ->
  cfg_ok c' -> szbits c' = szbits c -> points_to q m -> bytes_ok m -> 0 <= seed < 2 ^ 64 ->
  points_to ps s -> bytes_ok s -> 136 <= zlen s -> (240 < zlen m -> 8 * (zlen s - 64) < 2 ^ szbits c) ->
  exists g1 g2 g3,
    XXH3_128bits_dispatch c d p g q (zlen m) = OK (X3.XXH3_128 m, g1) /\
    XXH3_128bits c' q (zlen m) = OK (X3.XXH3_128 m) /\
    XXH3_128bits_withSeed_dispatch c d p g q (zlen m) seed = OK (X3.XXH3_128_withSeed seed m, g2) /\
    XXH3_128bits_withSeed c' q (zlen m) seed = OK (X3.XXH3_128_withSeed seed m) /\
    XXH3_128bits_withSecret_dispatch c d p g q (zlen m) ps (zlen s) = OK (X3.XXH3_128_withSecret s m, g3) /\
    XXH3_128bits_withSecret c' q (zlen m) ps (zlen s) = OK (X3.XXH3_128_withSecret s m).
Proof.
  intros c d p g c' q m seed ps s D RG C' SZ P B W PS BS S1 S2. pose proof (reach_inv _ _ _ _ D RG) as G.
  destruct D as (C & X & LE & R1 & R2 & V). assert (R : runs d p) by (split; assumption).
  destruct (d128_ok c d p C X LE R V q m P B g G) as (g1 & E1).
  destruct (d128_seed_ok c d p C X LE R V q m P B g seed G W) as (g2 & E2).
  destruct (d128_secret_ok c d p C X LE R V q m P B g ps s G PS BS S1 S2) as (g3 & E3).
  exists g1, g2, g3. split; [exact E1|]. split; [exact (C04_xxh3_128_equals_spec c' q m C' P B)|].
  split; [exact E2|]. split; [exact (proj1 (C04_xxh3_128_withSeed_equals_spec c' q m seed C' P B W))|].
  split; [exact E3|]. apply C04_xxh3_128_withSecret_equals_spec; trivial. rewrite SZ. exact S2.
Qed.
Print Assumptions C13_oneshot128.

(** streaming through the dispatcher: reset and digest are those of the caller's build [cu], updates are dispatched *)
Fixpoint feed_d (upd : globals -> state3 -> ptr -> Z -> res (errorcode * state3 * globals)) (g : globals) (st : state3) (calls : list (ptr * Z)) : res (state3 * globals) :=
  match calls with
  | [] => OK (st, g)
  | (q, n) :: calls => let! (r, g) := upd g st q n in
      match r with (XXH_OK, st) => feed_d upd g st calls | _ => UB end
  end.
Definition session_d {V} (r : res (errorcode * option state3)) (upd : globals -> state3 -> ptr -> Z -> res (errorcode * state3 * globals))
    (g : globals) (calls : list (ptr * Z)) (dig : state3 -> res V) : res V :=
  let! (e, o) := r in
  match e, o with XXH_OK, Some st => let! (st, _) := feed_d upd g st calls in dig st | _, _ => UB end.

Section StreamD.
Context (c cu : cfg) (d : dcfg) (p : cpu).
Hypothesis D : dispatch_ok c d p.
Hypothesis CU : cfg_ok cu.
Hypothesis SZ : szbits cu = szbits c.
Lemma feed_d_64 s us seed calls chunks : chunks_ok c 1 calls chunks -> forall g m K st, ginv c d g -> rep3 c s us seed m K st ->
  exists K' st' g', feed_d (XXH3_64bits_update_dispatch c d p) g st calls = OK (st', g') /\ rep3 c s us seed (m ++ concat chunks) K' st'.
Proof.
  destruct D as (C & X & LE & R1 & R2 & V). assert (R : runs d p) by (split; assumption).
  induction 1 as [|[q n] e calls chunks (P & E & B & S) _ IH]; intros g m K st G RP.
  - cbn [concat feed_d]. rewrite app_nil_r. eauto.
  - cbn [fst snd] in *. subst n. cbn [feed_d concat].
    destruct (d64_update_ok c d p C X LE R V q e P B g st s us seed m K G RP ltac:(lia)) as (K' & st' & g' & -> & G' & R' & _).
    cbn [bind]. destruct (IH g' _ _ _ G' R') as (K2 & st2 & g2 & -> & RR). rewrite app_assoc. eauto.
Qed.
Lemma feed_d_128 s us seed calls chunks : chunks_ok c 1 calls chunks -> forall g m K st, ginv c d g -> rep3 c s us seed m K st ->
  exists K' st' g', feed_d (XXH3_128bits_update_dispatch c d p) g st calls = OK (st', g') /\ rep3 c s us seed (m ++ concat chunks) K' st'.
Proof.
  destruct D as (C & X & LE & R1 & R2 & V). assert (R : runs d p) by (split; assumption).
  induction 1 as [|[q n] e calls chunks (P & E & B & S) _ IH]; intros g m K st G RP.
  - cbn [concat feed_d]. rewrite app_nil_r. eauto.
  - cbn [fst snd] in *. subst n. cbn [feed_d concat].
    destruct (d128_update_ok c d p C X LE R V q e P B g st s us seed m K G RP ltac:(lia)) as (K' & st' & g' & -> & G' & R' & _).
    cbn [bind]. destruct (IH g' _ _ _ G' R') as (K2 & st2 & g2 & -> & RR). rewrite app_assoc. eauto.
Qed.
Context (g : globals) (RG : reach c d p g) (st : state3) (calls : list (ptr * Z)) (chunks : list (list Z)) (HC : chunks_ok c 1 calls chunks)
  (T : zlen (concat chunks) < 2 ^ 64).
Let m := concat chunks.
Lemma sessiond64 r s us seed : (exists st', r = OK (XXH_OK, Some st') /\ rep3 cu s us seed [] 0 st' /\ s3_adr st' = s3_adr st) ->
  session_d r (XXH3_64bits_update_dispatch c d p) g calls (XXH3_64bits_digest cu) =
  OK (X3.hash64 (if us then X3.default_secret else s) (if us then seed else 0) s m).
Proof.
  intros (st' & -> & R & _). unfold session_d. cbn [bind].
  destruct (feed_d_64 s us seed calls chunks HC g [] 0 st' (reach_inv _ _ _ _ D RG) (rep3_szbits _ _ _ _ _ _ _ _ SZ R)) as (K & st2 & g2 & -> & R2). cbn [bind].
  apply (digest64_ok' cu s us seed m K st2 CU (rep3_szbits _ _ _ _ _ _ _ _ (eq_sym SZ) R2) T).
Qed.
Lemma sessiond128 r s us seed : (exists st', r = OK (XXH_OK, Some st') /\ rep3 cu s us seed [] 0 st' /\ s3_adr st' = s3_adr st) ->
  session_d r (XXH3_128bits_update_dispatch c d p) g calls (XXH3_128bits_digest cu) =
  OK (X3.hash128 (if us then X3.default_secret else s) (if us then seed else 0) s m).
Proof.
  intros (st' & -> & R & _). unfold session_d. cbn [bind].
  destruct (feed_d_128 s us seed calls chunks HC g [] 0 st' (reach_inv _ _ _ _ D RG) (rep3_szbits _ _ _ _ _ _ _ _ SZ R)) as (K & st2 & g2 & -> & R2). cbn [bind].
  apply (digest128_ok' cu s us seed m K st2 CU (rep3_szbits _ _ _ _ _ _ _ _ (eq_sym SZ) R2) T).
Qed.
End StreamD.

(** C13, streaming: any split of the input, every reset mode (a seeded reset of a state just created, see C11) *)
Theorem C13_stream64 : forall c cu d p g st calls chunks m seed ps s, dispatch_ok c d p -> reach c d p g ->
  cfg_ok cu -> szbits cu = szbits c -> created3 st -> chunks_ok c 1 calls chunks -> m = concat chunks -> zlen m < 2 ^ 64 ->
  0 <= seed < 2 ^ 64 -> points_to ps s -> bytes_ok s -> 136 <= zlen s -> zlen s < 2 ^ szbits c ->
  session_d (XXH3_64bits_reset cu (Some st)) (XXH3_64bits_update_dispatch c d p) g calls (XXH3_64bits_digest cu) = OK (X3.XXH3_64 m) /\
  session_d (XXH3_64bits_reset_withSeed cu (Some st) seed) (XXH3_64bits_update_dispatch c d p) g calls (XXH3_64bits_digest cu) =
    OK (X3.XXH3_64_withSeed seed m) /\
  session_d (XXH3_64bits_reset_withSecret cu (Some st) ps (zlen s)) (XXH3_64bits_update_dispatch c d p) g calls (XXH3_64bits_digest cu) =
    OK (X3.XXH3_64_withSecret s m) /\
  session_d (XXH3_64bits_reset_withSecretandSeed cu (Some st) ps (zlen s) seed) (XXH3_64bits_update_dispatch c d p) g calls (XXH3_64bits_digest cu) =
    OK (X3.XXH3_64_withSecretandSeed s seed m).
Proof.
  intros c cu d p g st calls chunks m seed ps s D RG CU SZ CR HC -> T W PS BS S1 S2. pose proof (created_raw st CR) as RW.
  assert (SO : secret_fits cu s) by (repeat split; trivial; rewrite SZ; trivial).
  split; [|split; [|split]].
  - exact (sessiond64 c cu d p D CU SZ g RG st calls chunks HC T _ _ _ _ (reset_rep cu st CU RW)).
  - destruct (Z.eq_dec seed 0) as [->|N].
    + change (XXH3_64bits_reset_withSeed cu (Some st) 0) with (XXH3_64bits_reset cu (Some st)).
      rewrite (sessiond64 c cu d p D CU SZ g RG st calls chunks HC T _ _ _ _ (reset_rep cu st CU RW)).
      unfold X3.XXH3_64_withSeed. rewrite derive_00. reflexivity.
    + exact (sessiond64 c cu d p D CU SZ g RG st calls chunks HC T _ _ _ _ (reset_withSeed_rep cu st CU RW seed (created_cache st CR) W N)).
  - exact (sessiond64 c cu d p D CU SZ g RG st calls chunks HC T _ _ _ _ (reset_withSecret_rep cu st CU RW ps s PS SO)).
  - exact (sessiond64 c cu d p D CU SZ g RG st calls chunks HC T _ _ _ _ (reset_withSecretandSeed_rep cu st CU RW ps s seed PS SO W)).
Qed.
Print Assumptions C13_stream64.
Theorem C13_stream128 : forall c cu d p g st calls chunks m seed ps s, dispatch_ok c d p -> reach c d p g ->
  cfg_ok cu -> szbits cu = szbits c -> created3 st -> chunks_ok c 1 calls chunks -> m = concat chunks -> zlen m < 2 ^ 64 ->
  0 <= seed < 2 ^ 64 -> points_to ps s -> bytes_ok s -> 136 <= zlen s -> zlen s < 2 ^ szbits c ->
  session_d (XXH3_128bits_reset cu (Some st)) (XXH3_128bits_update_dispatch c d p) g calls (XXH3_128bits_digest cu) = OK (X3.XXH3_128 m) /\
  session_d (XXH3_128bits_reset_withSeed cu (Some st) seed) (XXH3_128bits_update_dispatch c d p) g calls (XXH3_128bits_digest cu) =
    OK (X3.XXH3_128_withSeed seed m) /\
  session_d (XXH3_128bits_reset_withSecret cu (Some st) ps (zlen s)) (XXH3_128bits_update_dispatch c d p) g calls (XXH3_128bits_digest cu) =
    OK (X3.XXH3_128_withSecret s m) /\
  session_d (XXH3_128bits_reset_withSecretandSeed cu (Some st) ps (zlen s) seed) (XXH3_128bits_update_dispatch c d p) g calls (XXH3_128bits_digest cu) =
    OK (X3.XXH3_128_withSecretandSeed s seed m).
Proof.
  intros c cu d p g st calls chunks m seed ps s D RG CU SZ CR HC -> T W PS BS S1 S2. pose proof (created_raw st CR) as RW.
  assert (SO : secret_fits cu s) by (repeat split; trivial; rewrite SZ; trivial).
  split; [|split; [|split]].
  - exact (sessiond128 c cu d p D CU SZ g RG st calls chunks HC T _ _ _ _ (reset_rep cu st CU RW)).
  - destruct (Z.eq_dec seed 0) as [->|N].
    + change (XXH3_128bits_reset_withSeed cu (Some st) 0) with (XXH3_64bits_reset cu (Some st)).
      rewrite (sessiond128 c cu d p D CU SZ g RG st calls chunks HC T _ _ _ _ (reset_rep cu st CU RW)).
      unfold X3.XXH3_128_withSeed. rewrite derive_00. reflexivity.
    + exact (sessiond128 c cu d p D CU SZ g RG st calls chunks HC T _ _ _ _ (reset_withSeed_rep cu st CU RW seed (created_cache st CR) W N)).
  - exact (sessiond128 c cu d p D CU SZ g RG st calls chunks HC T _ _ _ _ (reset_withSecret_rep cu st CU RW ps s PS SO)).
  - exact (sessiond128 c cu d p D CU SZ g RG st calls chunks HC T _ _ _ _ (reset_withSecretandSeed_rep cu st CU RW ps s seed PS SO W)).
Qed.
Print Assumptions C13_stream128.

(** The remaining hypothesis of [dispatch_ok] is needed.  In a default x86-64 build (XXH_DISPATCH_SCALAR is 0) on a
    processor that reports no CPUID leaves ("happens on some QEMU configs", xxh_x86dispatch.c:423) the selected row is
    all NULL: every long hash, and every update whatever its length, calls a NULL function pointer, while the plain
    functions work. *)
Definition no_leaves : cpu := Cpu true (fun _ _ => (0, 0, 0, 0)) 0.
Definition default_x64 : dcfg := Dcfg false true true false false.
Definition x64_cfg : cfg := Cfg true 1 true false false 0 64 true false V_SSE2 false true.
Lemma null_row :
  (exists g, reach x64_cfg default_x64 no_leaves g) /\
  forall g, reach x64_cfg default_x64 no_leaves g -> forall q m, points_to q m -> bytes_ok m ->
    (240 < zlen m -> XXH3_64bits_dispatch x64_cfg default_x64 no_leaves g q (zlen m) = UB /\ XXH3_64bits x64_cfg q (zlen m) = OK (X3.XXH3_64 m)) /\
    (forall st, XXH3_64bits_update_dispatch x64_cfg default_x64 no_leaves g st q (zlen m) = UB).
Proof.
  assert (C : cfg_ok x64_cfg) by (constructor; cbn; auto; lia).
  split. { eexists. apply R_start. reflexivity. }
  intros g RG q m P B. assert (G : g = g_zero).
  { induction RG as [g E|g g' i l h _ IH E|g g' i l s h _ IH E|g g' i l s z h _ IH E|g g' st i l h _ IH E
                    |g g' i l h _ IH E|g g' i l s h _ IH E|g g' i l s z h _ IH E|g g' st i l h _ IH E];
      [injection E as <-; reflexivity|..]; subst g;
      try (unfold XXH3_64bits_update_dispatch, XXH3_128bits_update_dispatch in E; cbn in E; discriminate);
      match type of E with
      | XXH3_64bits_dispatch _ _ _ _ _ _ = _ => unfold XXH3_64bits_dispatch in E
      | XXH3_64bits_withSeed_dispatch _ _ _ _ _ _ _ = _ => unfold XXH3_64bits_withSeed_dispatch in E
      | XXH3_64bits_withSecret_dispatch _ _ _ _ _ _ _ _ = _ => unfold XXH3_64bits_withSecret_dispatch in E
      | XXH3_128bits_dispatch _ _ _ _ _ _ = _ => unfold XXH3_128bits_dispatch in E
      | XXH3_128bits_withSeed_dispatch _ _ _ _ _ _ _ = _ => unfold XXH3_128bits_withSeed_dispatch in E
      | XXH3_128bits_withSecret_dispatch _ _ _ _ _ _ _ _ = _ => unfold XXH3_128bits_withSecret_dispatch in E
      end; unfold with_globals, ensure in E; cbn [maybe_null default_x64 andb] in E;
      destruct (l <=? MIDSIZE_MAX); cbn [bind] in E;
      match type of E with bind ?a _ = _ => destruct a; cbn [bind] in E; try discriminate; injection E as _ <-; reflexivity end. }
  subst g. split.
  - intros L. split; [|exact (C03_xxh3_64_equals_spec _ q m C P B)].
    unfold XXH3_64bits_dispatch, with_globals, ensure, XXH3_64bits_internal, MIDSIZE_MAX, SECRET_SIZE_MIN.
    cbn [maybe_null default_x64 andb]. replace (zlen m <=? 240) with false by lia. cbn [bind].
    replace (zlen m <=? 16) with false by lia. replace (zlen m <=? 128) with false by lia. reflexivity.
  - intros st. reflexivity.
Qed.
Theorem C13_null_row_refuted : exists c d p, cfg_ok c /\ x86dispatch c = true /\ cpu_le c = true /\ has_cpuid p = true /\
  (exists g, reach c d p g) /\
  forall g, reach c d p g -> forall q m, points_to q m -> bytes_ok m ->
    (240 < zlen m -> XXH3_64bits_dispatch c d p g q (zlen m) = UB /\ XXH3_64bits c q (zlen m) = OK (X3.XXH3_64 m)) /\
    (forall st, XXH3_64bits_update_dispatch c d p g st q (zlen m) = UB).
Proof.
  exists x64_cfg, default_x64, no_leaves. split; [constructor; cbn; auto; lia|]. split; [reflexivity|]. split; [reflexivity|]. split; [reflexivity|exact null_row].
Qed.
Print Assumptions C13_null_row_refuted.

(** the hypotheses above hold of a real machine: a default x86-64 build on a processor with AVX512 *)
Definition big_cpu : cpu := Cpu true (fun l _ =>
  if l =? 0 then (13, 0, 0, 0) else if l =? 1 then (0, 0, Z.shiftl 3 26, Z.shiftl 1 26) else (0, Z.lor (Z.shiftl 1 5) (Z.shiftl 1 16), 0, 0)) 0xE7.
Example hyps6_inhabited :
  dispatch_ok x64_cfg default_x64 big_cpu /\ featureTest default_x64 big_cpu = OK 3 /\
  (exists g, reach x64_cfg default_x64 big_cpu g) /\
  featureTest (Dcfg false true true false true) (Cpu true (cpuid big_cpu) 7) = OK 2 /\
  featureTest default_x64 (Cpu true (cpuid big_cpu) 1) = OK 1 /\
  featureTest (Dcfg true true true true true) (Cpu false (cpuid big_cpu) 7) = OK 0.
Proof.
  split; [|split; [reflexivity|split; [|repeat split]]].
  - split; [constructor; cbn; auto; lia|]. split; [reflexivity|]. split; [reflexivity|]. split; [right; reflexivity|].
    split; [cbn; lia|]. right. split; [reflexivity|]. split; [cbn; lia|reflexivity].
  - eexists. apply R_start. reflexivity.
Qed.
