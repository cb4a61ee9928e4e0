(** Properties C73 to C80: the benchmark library and the program benchHash of tests/bench *)
From Coq Require Import String.
From Verif Require Import Base Mem P_Base M_Cli M_BenchFn M_BenchHash SpecColl P_BenchFn P_BenchFn2 P_BenchHash P_BenchHash2 Vectors.
From Verif Require Spec32 Spec64 Spec3 Properties1 Properties2.
Import BF BH.

(** ** C73: BMK_benchFunction *)
(** either every block of the first pass is accepted, or there is a first one that is not *)
Theorem C73_one_of_two_cases : forall {W} (p : params W) bl w, (forall b w, In b bl -> exists w' r, p_benchFn p (b_src b) (b_size b) (b_dst b) (b_cap b) w = OK (w', r)) ->
  (exists rs w', calls (p_benchFn p) bl w rs w' /\ Forall (accepted p) rs) \/
  (exists rs r w', calls (p_benchFn p) (firstn (S (length rs)) bl) w (rs ++ [r]) w' /\ Forall (accepted p) rs /\ ~ accepted p r).
Proof.
  intros W p bl. induction bl as [|b bl IH]; intros w H; [left; exists [], w; split; constructor|].
  destruct (H b w (or_introl eq_refl)) as (w1 & r & E).
  assert (D : accepted p r \/ ~ accepted p r) by (unfold accepted; destruct (p_errorFn p) as [f|]; [lia|auto]). destruct D as [A|NA].
  - destruct (IH w1 (fun b w I => H b w (or_intror I))) as [(rs & w' & CS & F)|(rs & r1 & w' & CS & F & NA)].
    + left. exists (r :: rs), w'. split; [econstructor; eassumption|constructor; assumption].
    + right. exists (r :: rs), r1, w'. split; [|split; [constructor; assumption|exact NA]]. cbn [length app]. change (firstn (S (S (length rs))) (b :: bl)) with (b :: firstn (S (length rs)) bl). econstructor; eassumption.
  - right. exists [], r, w1. split; [|split; [constructor|exact NA]]. cbn [length app firstn]. econstructor; [exact E|constructor].
Qed.
Print Assumptions C73_one_of_two_cases.
(** when the first pass is accepted: max(nbLoops, 1) passes over the blocks, in order, between the two readings of the clock; the
    results of the first pass are stored and summed *)
Theorem C73_benchFunction_success : forall {W} c (e : env W) p bl fuel n w br w0 rs w1 rs' w2,
  describes p bl -> zlen bl < 2 ^ 32 -> (length bl <= fuel)%nat -> 0 <= n < 2 ^ 32 -> fits br bl ->
  erased e bl w w0 ->
  calls (p_benchFn p) bl (started p (fst (e_getTime e w0))) rs w1 -> Forall (accepted p) rs ->
  calls (p_benchFn p) (concat (repeat bl (Z.to_nat (n - 1)))) w1 rs' w2 ->
  let start := snd (e_getTime e w0) in let stop := snd (e_getTime e w2) in
  reading start -> reading stop -> - 2 ^ 63 < fst stop -> - 2 ^ 63 < fst stop - fst start < 2 ^ 63 ->
  benchFunction c e fuel p n w br =
  OK (fst (e_getTime e w2), written br rs, Valid (RunTime (u64 (nanos stop - nanos start)) (Z.max 1 n) (usz c (zsum rs)))).
Proof.
  intros W c e p bl fuel n w br w0 rs w1 rs' w2 D B FU N F ER C1 A C2 start stop R1 R2 L1 L2.
  rewrite (benchFunction_ok c e p bl fuel n w br w0 rs w1 rs' w2 D B FU N F ER C1 A C2). fold start stop. rewrite (nano_ok start stop R1 R2 L1 L2). reflexivity.
Qed.
Print Assumptions C73_benchFunction_success.
(** when a block of the first pass is not accepted: nothing is called after it, its result is reported and stored *)
Theorem C73_benchFunction_failure : forall {W} c (e : env W) p bl fuel n w br w0 rs r w1,
  describes p bl -> zlen bl < 2 ^ 32 -> (length bl <= fuel)%nat -> 0 <= n < 2 ^ 32 -> fits br bl ->
  erased e bl w w0 ->
  calls (p_benchFn p) (firstn (S (length rs)) bl) (started p (fst (e_getTime e w0))) (rs ++ [r]) w1 -> Forall (accepted p) rs -> ~ accepted p r ->
  benchFunction c e fuel p n w br = OK (w1, written br (rs ++ [r]), Error r).
Proof. intros W c e p bl fuel n w br w0 rs r w1. apply benchFunction_err. Qed.
Print Assumptions C73_benchFunction_failure.

(** a small world: the time and the number of calls; call number k takes [dur k] nanoseconds and returns k *)
Definition w2 := (Z * Z)%type.
Definition e2 : env w2 := Env (fun w => (w, (fst w / 1000000000, fst w mod 1000000000))) (fun _ _ w => OK w).
Definition fn2 (dur : Z -> Z) : ptr -> Z -> ptr -> Z -> w2 -> res (w2 * Z) := fun _ _ _ _ w => OK ((fst w + dur (snd w), snd w + 1), snd w).
Definition p2 (dur : Z -> Z) (err : option (Z -> Z)) (k : nat) : params w2 :=
  Params (fn2 dur) None err (Z.of_nat k) (repeat Null k) (repeat 0 k) (repeat Null k) (repeat 0 k).
Lemma p2_describes dur err k : describes (p2 dur err k) (repeat (Block Null 0 Null 0) k).
Proof.
  split; [cbn [p_blockCount p2]; unfold zlen; rewrite repeat_length; reflexivity|]. intros i b E. cbn [p_srcBuffers p_srcSizes p_dstBuffers p_dstCapacities p2].
  assert (L : (i < k)%nat) by (assert (i < length (repeat (Block Null 0 Null 0) k))%nat by (apply nth_error_Some; congruence); rewrite repeat_length in *; assumption).
  rewrite nth_repeat in E by exact L. injection E as <-. cbn [b_src b_size b_dst b_cap]. rewrite !nth_repeat by exact L. repeat split; reflexivity.
Qed.
Lemma p2_erased l : forall w, erased e2 l w w.
Proof. induction l as [|b l IH]; intros w; [constructor|]. econstructor; [reflexivity|apply IH]. Qed.

(** three blocks, four passes *)
Example C73_ex : describes (p2 (fun k => 10 + k) None 3) (repeat (Block Null 0 Null 0) 3) /\ erased e2 (repeat (Block Null 0 Null 0) 3) (5, 0) (5, 0) /\
  benchFunction c0 e2 9 (p2 (fun k => 10 + k) None 3) 4 (5, 0) (Some [7; 7; 7; 7]) = OK ((191, 12), Some [0; 1; 2; 7], Valid (RunTime 186 4 3)) /\
  benchFunction c0 e2 9 (p2 (fun k => 10 + k) (Some (fun r => if r =? 1 then 1 else 0)) 3) 4 (5, 0) (Some [7; 7; 7; 7]) = OK ((26, 2), Some [0; 1; 7; 7], Error 1).
Proof. split; [apply p2_describes|]. split; [apply p2_erased|]. split; vm_compute; reflexivity. Qed.

(** ** C74: what its comments say about errors *)
(** "errorFn will check each return value of benchFn over each block. Execution is stopped as soon as an error is detected"
    (benchfn.h:73-77) is false: only the first pass is checked *)
Theorem C74_each_result_checked_refuted : exists (p : params w2) bl w rs w', describes p bl /\ calls (p_benchFn p) (bl ++ bl) w rs w' /\
  Exists (fun r => ~ accepted p r) rs /\ forall c fuel, (1 <= fuel)%nat -> exists rt, benchFunction c e2 fuel p 2 w None = OK (w', None, Valid rt).
Proof.
  exists (p2 (fun _ => 1) (Some (fun r => r)) 1), [Block Null 0 Null 0], (0, 0), [0; 1], (2, 2).
  split; [apply (p2_describes _ _ 1)|]. split; [econstructor; [reflexivity|]; econstructor; [reflexivity|]; constructor|].
  split; [right; left; cbn; lia|]. intros c [|fuel] F; [lia|]. destruct fuel; eexists; vm_compute; reflexivity.
Qed.
Print Assumptions C74_each_result_checked_refuted.
(** "this function will return 1 if BMK_benchFunctionTimed() has actually errored" (benchfn.c:196) is false: an error leaves the
    session as it was *)
Theorem C74_completed_after_error_refuted : exists (p : params w2) bl w w' t' r, describes p bl /\ forall c fuel, (1 <= fuel)%nat ->
  benchTimedFn c e2 fuel p (resetTimed c 10 1) w None = OK (w', None, t' c, Error r) /\ isCompleted (t' c) = false.
Proof.
  exists (p2 (fun _ => 1) (Some (fun r => r)) 1), [Block Null 0 Null 0], (0, 5), (1, 6), (fun c => resetTimed c 10 1), 5.
  split; [apply (p2_describes _ _ 1)|]. intros c [|fuel] F; [lia|]. split; [|vm_compute; reflexivity]. destruct fuel; vm_compute; reflexivity.
Qed.
Print Assumptions C74_completed_after_error_refuted.
(** blockCount is a size_t, the counter of the loop an unsigned: with 2^32 blocks or more the loop never ends *)
Theorem C74_number_of_blocks_refuted : forall k, 2 ^ 32 <= Z.of_nat k -> exists (p : params w2) bl, describes p bl /\ zlen bl = Z.of_nat k /\
  (forall b w, In b bl -> exists w' r, p_benchFn p (b_src b) (b_size b) (b_dst b) (b_cap b) w = OK (w', r)) /\
  forall c fuel n w, 0 <= n < 2 ^ 32 -> benchFunction c e2 fuel p n w None = NoFuel.
Proof.
  intros k K. exists (p2 (fun _ => 1) None k), (repeat (Block Null 0 Null 0) k). split; [apply p2_describes|]. split; [unfold zlen; rewrite repeat_length; reflexivity|].
  split; [intros; do 2 eexists; reflexivity|]. intros c fuel n w N. unfold benchFunction.
  replace (Z.to_nat (p_blockCount (p2 (fun _ => 1) None k))) with (length (repeat (Block Null 0 Null 0) k)) by (cbn [p_blockCount p2]; rewrite repeat_length; lia).
  pose proof (erase_ok e2 (p2 (fun _ => 1) None k) (repeat (Block Null 0 Null 0) k) [] w w (p2_describes _ _ k) (p2_erased _ w)) as E. change (zlen (@nil block)) with 0 in E. rewrite E. cbn [bind].
  destruct (e_getTime e2 w) as [wt t0]. rewrite (nbLoops_eq (p2 (fun _ => 1) None k)) by exact N. replace (Z.to_nat (Z.max 1 n)) with (S (Z.to_nat (n - 1))) by lia. cbn [for_].
  rewrite endless; [reflexivity| | | | |].
  - cbn [p_blockCount p2]. exact K.
  - intros i I. exists Null, 0, Null, 0. cbn [p_srcBuffers p_srcSizes p_dstBuffers p_dstCapacities p2].
    assert (L : (Z.to_nat i < k)%nat) by lia. rewrite <- (Z2Nat.id i) by lia.
    repeat split; apply at_ok; apply nth_repeat; exact L.
  - intros. do 2 eexists. reflexivity.
  - reflexivity.
  - exact I.
Qed.
Print Assumptions C74_number_of_blocks_refuted.

(** ** C75: time spans *)
(** the span of two readings of the clock is their difference, in nanoseconds and in microseconds rounded down, modulo 2^64; when the
    clock did not go back and the difference is below 584 years, exactly *)
Theorem C75_time_spans : forall b e, reading b -> reading e -> - 2 ^ 63 < fst e -> - 2 ^ 63 < fst e - fst b < 2 ^ 63 ->
  getSpanTimeNano b e = OK ((nanos e - nanos b) mod 2 ^ 64) /\ getSpanTimeMicro b e = OK ((nanos e - nanos b) / 1000 mod 2 ^ 64) /\
  (nanos b <= nanos e < nanos b + 2 ^ 64 -> getSpanTimeNano b e = OK (nanos e - nanos b) /\ getSpanTimeMicro b e = OK ((nanos e - nanos b) / 1000)).
Proof.
  intros b e B E F R. split; [apply nano_ok; trivial|]. split; [apply micro_ok; trivial|]. intros D.
  rewrite nano_ok, micro_ok by trivial. assert (Q : 0 <= (nanos e - nanos b) / 1000 < 2 ^ 64) by (split; [apply Z.div_pos; lia|apply Z.div_lt_upper_bound; lia]).
  rewrite !u64_small by lia. split; reflexivity.
Qed.
Print Assumptions C75_time_spans.
Example C75_ex : getSpanTimeNano (1700000000, 999999999) (1700000002, 5) = OK 1000000006 /\ getSpanTimeMicro (1700000000, 999999999) (1700000002, 5) = OK 1000000 /\
  reading (1700000000, 999999999) /\ getSpanTimeNano (10, 5) (10, 4) = OK (2 ^ 64 - 1).
Proof. repeat split; vm_compute; congruence. Qed.

(** ** C76: a timed session ends *)
(** for every function whose calls take at least one nanosecond and at most [D] and are accepted: the loop of the header ends, no
    assert fails, nothing overflows; its result comes from at least one pass and lasted at least half of the budget of a run *)
Theorem C76_session_ends : forall {W} c (e : env W) p bl Inv ns D I, timely e p bl Inv ns D I -> describes p bl -> 1 <= zlen bl < 2 ^ 32 ->
  forall total_ms run_ms w br o fuel, Inv w -> 0 <= total_ms < 2 ^ 32 -> 0 <= run_ms <= 4294 -> fits br bl -> 0 <= I ->
  let T := Z.max 1 total_ms in let R := Z.min T (Z.max 1 run_ms) in
  (R * 1000000 + 1) * (zlen bl * D) + 2 * I < 2 ^ 63 -> zlen bl * D + 2 * I < 2000000000000000000 ->
  zlen bl + 32 + 2 * (T / R + 1) <= Z.of_nat fuel ->
  exists w' br' rt t', session c e fuel p (resetTimed c total_ms run_ms) w br o = OK (w', br', t', Valid rt) /\
  isCompleted t' = true /\ T * 1000000 <= t_spent t' /\ 1 <= rt_loops rt /\ R * 500000 <= rt_ns rt.
Proof.
  intros W c e p bl Inv ns D I TM DS NB total_ms run_ms w br o fuel IW TB RB F I0 T R S1 S2 FU.
  destruct (reset_ok c total_ms run_ms TB ltac:(lia)) as (T0 & R0 & ER & ET & ERR). fold T in ET, ERR. subst T0. fold R in ERR. subst R0.
  assert (R1 : 1 <= R /\ 1 <= T) by lia.
  destruct (whole_session c e p bl Inv ns D I TM DS NB total_ms run_ms w br o fuel IW TB RB F I0) as (w' & br' & rt & t' & E & _ & CO & BU & L1 & L2).
  - rewrite ER. cbn [t_run]. exact S1.
  - exact S2.
  - rewrite ER. cbn [t_budget t_run]. rewrite Z.div_mul_cancel_r by lia. exact FU.
  - exists w', br', rt, t'. split; [exact E|]. split; [exact CO|]. rewrite ER in L2. cbn [t_run] in L2. replace (R * 1000000) with (R * 500000 * 2) in L2 by lia. rewrite Z.div_mul in L2 by lia. split; [|split; assumption].
    rewrite ER in BU. cbn [t_budget] in BU.
    unfold isCompleted in CO. lia.
Qed.
Print Assumptions C76_session_ends.

Lemma tests_timely dur k : (forall n, 1 <= dur n <= 1000000) -> timely e2 (p2 dur None k) (repeat (Block Null 0 Null 0) k) (fun w => 0 <= fst w) fst 1000000 0.
Proof.
  intros H. split.
  - intros w W. cbn [e_getTime e2]. unfold reading, nanos. cbn [fst snd]. pose proof (Z.div_mod (fst w) 1000000000 ltac:(lia)). pose proof (Z.mod_pos_bound (fst w) 1000000000 ltac:(lia)). repeat split; lia.
  - intros w b W _. exists w. split; [exact W|reflexivity].
  - intros w W. cbn. lia.
  - intros w b W _. do 2 eexists. split; [reflexivity|]. pose proof (H (snd w)). cbn [fst snd]. repeat split; cbn; lia.
Qed.
(** functions of any durations up to a millisecond *)
Example C76_ex : forall dur, (forall n, 1 <= dur n <= 1000000) -> exists w' br' rt t', session c0 e2 45 (p2 dur None 1) (resetTimed c0 10 2) (0, 0) None (Error 0) = OK (w', br', t', Valid rt).
Proof.
  intros dur H. destruct (C76_session_ends c0 e2 (p2 dur None 1) (repeat (Block Null 0 Null 0) 1) _ _ _ _ (tests_timely dur 1 H) (p2_describes _ _ 1) ltac:(cbn; lia) 10 2 (0, 0) None (Error 0) 45 ltac:(cbn; lia) ltac:(lia) ltac:(lia) I ltac:(lia)) as (w' & br' & rt & t' & E & _); cbn; try lia.
  exists w', br', rt, t'. exact E.
Qed.

(** ** C77: the best round *)
(** "If multiple rounds are run, bench_hash() will report the speed of best round" (benchHash.h:54-55) is false: a session of two
    rounds whose first one is the faster reports the second *)
Theorem C77_best_round_refuted : exists (p : params w2) bl w, describes p bl /\ forall c fuel, (3 <= fuel)%nat -> exists w1 t1 rt1 w' t' rt,
  benchTimedFn c e2 fuel p (resetTimed c 2 1) w None = OK (w1, None, t1, Valid rt1) /\
  session c e2 fuel p (resetTimed c 2 1) w None (Error 0) = OK (w', None, t', Valid rt) /\
  rt_ns rt1 * rt_loops rt < rt_ns rt * rt_loops rt1.
Proof.
  exists (p2 (fun k => if k =? 0 then 600000 else 700000) None 1), [Block Null 0 Null 0], (0, 0). split; [apply (p2_describes _ _ 1)|].
  intros c [|[|[|fuel]]] F; try lia. do 6 eexists. split; [vm_compute; reflexivity|]. split; [vm_compute; reflexivity|]. vm_compute. reflexivity.
Qed.
Print Assumptions C77_best_round_refuted.
(** what is reported is the last run of the last round *)
Theorem C77_last_run : forall {W} c (e : env W) fuel p t w br o w' br' t' rt, isCompleted t = false -> session c e fuel p t w br o = OK (w', br', t', Valid rt) ->
  exists n w1 br1 rt1, benchFunction c e fuel p n w1 br1 = OK (w', br', Valid rt1) /\ 
    rt = if rt_ns rt1 * rt_loops (t_fastest t) <? rt_ns (t_fastest t) * rt_loops rt1 then rt1 else t_fastest t.
Proof.
  intros W c e fuel p t w br o w' br' t' rt NC E. unfold session in E.
  assert (G : forall m w br t0 o, t_fastest t0 = t_fastest t -> (isCompleted t0 = false \/ forall rt, o = Valid rt -> exists n w1 br1 rt1, benchFunction c e fuel p n w1 br1 = OK (w, br, Valid rt1) /\ rt = if faster rt1 (t_fastest t) then rt1 else t_fastest t) ->
    while_ m (fun '(_, _, t, _) => negb (isCompleted t)) (fun '(w, br, t, _) => let! (w, br, t, result) := benchTimedFn c e fuel p t w br in let! _ := assert_ (isSuccessful result) in OK (w, br, t, result)) (w, br, t0, o) = OK (w', br', t', Valid rt) ->
    exists n w1 br1 rt1, benchFunction c e fuel p n w1 br1 = OK (w', br', Valid rt1) /\ rt = if faster rt1 (t_fastest t) then rt1 else t_fastest t).
  { clear - t'. induction m as [|m IH]; intros w br t0 o TF H E; cbn [while_] in E; destruct (isCompleted t0) eqn:CO; cbn [negb] in E; try discriminate.
    1, 2: injection E as -> -> _ ->; destruct H as [H|H]; [discriminate|exact (H rt eq_refl)].
    destruct (benchTimedFn c e fuel p t0 w br) as [[[[w2 br2] t2] o2]| |] eqn:EB; cbn [bind] in E; try discriminate.
    destruct o2 as [rt2|r2]; cbn [isSuccessful assert_ bind] in E; [|discriminate].
    destruct (timed_last _ _ _ _ _ _ _ _ _ _ _ EB) as (TF2 & n & w1 & br1 & rt1 & E1 & E2). rewrite TF in *.
    apply (IH w2 br2 t2 (Valid rt2)); trivial. right. intros rt0 Q. injection Q as <-. exists n, w1, br1, rt1. split; assumption. }
  apply (G fuel w br t o eq_refl (or_introl NC) E).
Qed.
Print Assumptions C77_last_run.
Example C77_ex : isCompleted (resetTimed c0 2 1) = false /\
  session c0 e2 9 (p2 (fun k => if k =? 0 then 600000 else 700000) None 1) (resetTimed c0 2 1) (0, 0) None (Error 0) =
  OK ((2000000, 3), None, Timed 2000000 2000000 1000000 (t_fastest (resetTimed c0 2 1)) 2, Valid (RunTime 1400000 2 1)).
Proof. split; vm_compute; reflexivity. Qed.

(** ** C78: numbers on the command line *)
(** a number and its suffix is read exactly, or the program stops by assert, and it stops only from 2147482624 on *)
Theorem C78_readInt : forall ds sfx k rest, Forall (fun d => 0 <= d <= 9) ds -> In (sfx, k) int_suffixes -> ~ 48 <= ch rest <= 57 -> ~ In (ch rest) [75; 77; 105; 66] ->
  readIntFromChar (map (fun d => 48 + d) ds ++ sfx ++ rest) = OK (Some (1024 ^ k * decimal 0 ds, rest)) /\ 0 <= 1024 ^ k * decimal 0 ds <= 2147483629 \/
  readIntFromChar (map (fun d => 48 + d) ds ++ sfx ++ rest) = OK None /\ 2147482624 <= 1024 ^ k * decimal 0 ds.
Proof. exact int_spec. Qed.
Print Assumptions C78_readInt.
(** on any string whatever: no overflow, the value fits an int *)
Theorem C78_readInt_any : forall s, exists r, readIntFromChar s = OK r /\ match r with Some (v, _) => 0 <= v <= 2147483629 | None => True end.
Proof. exact int_any. Qed.
Print Assumptions C78_readInt_any.
Example C78_ex : readIntFromChar (str "12KB,") = OK (Some (12288, str ",")) /\ readIntFromChar (str "2MiB") = OK (Some (2097152, [])) /\
  readIntFromChar (str "2147483629") = OK (Some (2147483629, [])) /\ readIntFromChar (str "2147483630") = OK None /\ readIntFromChar (str "2048M") = OK None.
Proof. repeat split; vm_compute; reflexivity. Qed.

(** ** C79: the program *)
Definition names (c : cfg) (a : ambient) : list (list Z) := map fst (hashCandidates c a).
(** the numeric options and the setting each one changes *)
Definition numeric : list (list Z * (Z -> settings -> settings)) :=
  [ (str "--n=", fun v s => Settings (s_hashNb s) v (s_log_min s) (s_log_max s) (s_size_min s) (s_size_max s));
    (str "--minl=", fun v s => Settings (s_hashNb s) (s_nb_h_test s) v (s_log_max s) (s_size_min s) (s_size_max s));
    (str "--maxl=", fun v s => Settings (s_hashNb s) (s_nb_h_test s) (s_log_min s) v (s_size_min s) (s_size_max s));
    (str "--mins=", fun v s => Settings (s_hashNb s) (s_nb_h_test s) (s_log_min s) (s_log_max s) v (s_size_max s));
    (str "--maxs=", fun v s => Settings (s_hashNb s) (s_nb_h_test s) (s_log_min s) (s_log_max s) (s_size_min s) v) ].
(** every option changes its setting and no other, to the number written *)
Theorem C79_numeric_option : forall c a opt upd ds sfx k s, In (opt, upd) numeric -> Forall (fun d => 0 <= d <= 9) ds -> In (sfx, k) int_suffixes -> 1024 ^ k * decimal 0 ds < 2147482624 ->
  one_arg (names c a) (opt ++ map (fun d => 48 + d) ds ++ sfx) s = OK (inl (upd (1024 ^ k * decimal 0 ds) s)).
Proof.
  intros c a opt upd ds sfx k s IN F SX B.
  assert (R : readIntFromChar (map (fun d => 48 + d) ds ++ sfx) = OK (Some (1024 ^ k * decimal 0 ds, []))).
  { destruct (int_spec ds sfx k [] F SX ltac:(cbn; lia) ltac:(cbn; lia)) as [(E & _)|(_ & Q)]; [rewrite app_nil_r in E; exact E|lia]. }
  set (x := map (fun d => 48 + d) ds ++ sfx) in *. clearbody x. set (v := 1024 ^ k * decimal 0 ds) in *. clearbody v.
  cbn [numeric In] in IN. repeat (destruct IN as [IN|IN]; [pose proof (f_equal fst IN) as E1; pose proof (f_equal snd IN) as E2; cbn [fst snd] in E1, E2; subst opt; clear IN|]); [..|destruct IN].
  all: transitivity (with_int x (fun v => upd v s)); [subst upd; reflexivity|unfold with_int; rewrite R; reflexivity].
Qed.
Print Assumptions C79_numeric_option.
(** the name of a hash selects it alone; an argument that is neither an option nor a name ends the program with code 1 *)
Theorem C79_hash_name : forall c a id nm s, nth_error (names c a) id = Some nm ->
  one_arg (names c a) nm s = OK (inl (Settings (Z.of_nat id) 1 (s_log_min s) (s_log_max s) (s_size_min s) (s_size_max s))).
Proof. intros c a id nm s E. do 4 (destruct id as [|id]; [injection E as <-; reflexivity|]). destruct id; discriminate. Qed.
Print Assumptions C79_hash_name.

(** the hashes by their names *)
Definition named : list (list Z * (list Z -> Z)) :=
  [ (str "xxh3", Spec3.X3.XXH3_64); (str "XXH32", fun m => Spec32.X32.hash m 0); (str "XXH64", fun m => Spec64.X64.hash m 0); (str "XXH128", fun m => fst (Spec3.X3.XXH3_128 m)) ].
(** every function of the table runs once the hash of its name and returns that hash (the low half of XXH128), cut to a size_t *)
Theorem C79_named_hashes : forall c a, cfg_ok c -> Forall2 (fun e n => fst e = fst n /\
    forall p m dst cap w, points_to p m -> bytes_ok m -> zlen m < 2 ^ szbits c -> exists w', snd e p (zlen m) dst cap w = OK (w', snd n m mod 2 ^ szbits c) /\
      w_clock w' = w_clock w + a_tick a (w_calls w) (zlen m) /\ w_calls w' = w_calls w + 1 /\ w_hash w' = w_hash w) (hashCandidates c a) named.
Proof.
  intros c a C. repeat constructor; cbn [fst snd]; intros p m dst cap w P B L; eexists;
    unfold xxh3_wrapper, XXH32_wrapper, XXH64_wrapper, XXH128_wrapper, timed_call.
  - rewrite Properties2.C03_xxh3_64_equals_spec by assumption. split; [reflexivity|]. repeat split.
  - rewrite Properties1.C01_xxh32_equals_spec by assumption. split; [reflexivity|]. repeat split.
  - rewrite Properties1.C02_xxh64_equals_spec by assumption. split; [reflexivity|]. repeat split.
  - rewrite Properties2.C04_xxh3_128_equals_spec by assumption. split; [reflexivity|]. repeat split.
Qed.
Print Assumptions C79_named_hashes.
(** in a measure of latency each call needs the result of the one before: it reads at the offset given by its ten low bits *)
Theorem C79_latency_chain : forall (f : benchFn) src size dst cap w w1 r1,
  f (padd src (w_hash w mod 1024)) size dst cap w = OK (w1, r1) ->
  exists w', benchLatency f src size dst cap w = OK (w', r1) /\ w_hash w' = r1 /\ w_clock w' = w_clock w1 /\ w_calls w' = w_calls w1.
Proof.
  intros f src size dst cap w w1 r1 E. unfold benchLatency, START_MASK, MARGIN_FOR_LATENCY. change (1024 - 1) with (Z.ones 10). rewrite Z.land_ones by lia.
  change (2 ^ 10) with 1024. rewrite E. cbn [bind]. eexists. split; [reflexivity|]. repeat split.
Qed.
Print Assumptions C79_latency_chain.
Theorem C79_unknown_argument : forall c a arg s, ~ In arg (names c a) -> ~ (exists t, arg = str "-h" ++ t) -> ~ (exists t, arg = str "--list" ++ t) ->
  (forall opt upd, In (opt, upd) numeric -> ~ exists t, arg = opt ++ t) -> one_arg (names c a) arg s = OK (inr 1).
Proof.
  intros c a arg s NI NH NL NN.
  assert (PF : forall p l, prefixb p l = true -> exists t, l = p ++ t).
  { clear. induction p as [|x p IH]; intros [|y l] H; cbn [prefixb] in H; try discriminate; [exists []; reflexivity|eexists; reflexivity|]. apply andb_prop in H. destruct H as (E & H). apply Z.eqb_eq in E. subst. destruct (IH l H) as (t & ->). exists t. reflexivity. }
  assert (NO : forall p, ~ (exists t, arg = p ++ t) -> isCommand arg p = false).
  { intros p N. unfold isCommand. destruct (prefixb p arg) eqn:E; [|reflexivity]. exfalso. apply N. apply PF. exact E. }
  unfold one_arg. rewrite (NO _ NH), (NO _ NL).
  rewrite (NO (str "--n=")) by (eapply NN; cbn; left; reflexivity). rewrite (NO (str "--minl=")) by (eapply NN; cbn; right; left; reflexivity). rewrite (NO (str "--maxl=")) by (eapply NN; cbn; do 2 right; left; reflexivity).
  rewrite (NO (str "--mins=")) by (eapply NN; cbn; do 3 right; left; reflexivity). rewrite (NO (str "--maxs=")) by (eapply NN; cbn; do 4 right; left; reflexivity).
  unfold hashID. destruct (hashID_from_spec (names c a) arg 0) as [(-> & _)|(i & _ & N & _)]; [reflexivity|]. exfalso. apply NI. eapply nth_error_In. exact N.
Qed.
Print Assumptions C79_unknown_argument.

(** every command line ends in one of these ways, whatever the durations of the calls (up to 1 ms plus 10 ns per byte), the numbers of
    rand() and the content of fresh memory: an exit by help, list, bad argument or failed assert on a number; "wrong hash selection";
    the assert on the logarithm of the size; or all the lines asked for, each cell a measurement that makes sense.  The last conjunct
    is the only other outcome: see C80 *)
Theorem C79_main : forall c a fuel args w, cfg_ok c -> ambient_ok a -> (1300 <= fuel)%nat -> 0 <= w_clock w ->
  exists r, all_args (names c a) args defaults = OK r /\
  match r with
  | inr code => main c a fuel args w = OK (w, code, []) /\ (code = 0 \/ code = 1 \/ code = ABORT)
  | inl s =>
      (4 < s_hashNb s + s_nb_h_test s -> main c a fuel args w = OK (w, 1, [])) /\
      (s_hashNb s + s_nb_h_test s <= 4 -> s_log_min s <= s_log_max s -> 31 <= s_log_max s -> main c a fuel args w = OK (w, ABORT, [])) /\
      (s_hashNb s + s_nb_h_test s <= 4 -> s_log_max s < s_log_min s \/ s_log_max s < 31 ->
        (s_nb_h_test s = 0 \/ s_size_max s < s_size_min s \/ 1 <= s_size_min s ->
          exists w' rows, main c a fuel args w = OK (w', 0, rows) /\ map shape rows = lines (names c a) s /\ Forall (fun r => Forall sound (r_cells r)) rows) /\
        (1 <= s_nb_h_test s -> s_size_min s = 0 -> main c a fuel args w = UB))
  end.
Proof.
  intros c a fuel args w C A FU W.
  assert (T0 : tame (zlen (names c a)) defaults) by (unfold tame, defaults, NB_HASHES, zlen; cbn; lia).
  destruct (all_args_ok (names c a) args defaults T0) as (r & E & B). exists r. split; [exact E|]. unfold main. fold (names c a). rewrite E. cbn [bind].
  destruct r as [s|code]; [|split; [reflexivity|exact B]]. change (zlen (names c a)) with 4 in B. unfold tame in B. destruct B as (H & N & L1 & L2 & S1 & S2).
  split; [|split].
  - intros G. unfold run_benchmarks. rewrite s32_ok by lia. cbn [bind]. replace (NB_HASHES <? s_hashNb s + s_nb_h_test s) with true by (unfold NB_HASHES; lia). reflexivity.
  - intros G LL L31. unfold run_benchmarks. rewrite s32_ok by lia. cbn [bind]. replace (NB_HASHES <? s_hashNb s + s_nb_h_test s) with false by (unfold NB_HASHES; lia).
    replace (s_log_min s <=? s_log_max s) with true by lia. unfold bench_largeInput. replace (s_log_max s <? 31) with false by lia. reflexivity.
  - intros G LL. split.
    + intros D. destruct (run_ok c C a A fuel FU s w) as (w' & rows & E1 & E2 & E3); [|exact W|exists w', rows; auto].
      unfold runnable, NB_HASHES. repeat split; lia.
    + intros N1 Z0. apply zero_run; trivial; unfold NB_HASHES; lia.
Qed.
Print Assumptions C79_main.

(** an outside world: calls take one nanosecond per byte and one more, rand() counts, fresh memory is zero *)
Definition calm : ambient := Ambient (fun _ n => Z.min (n + 1) (longest n)) (fun seed k => seed + k) (fun n => repeat 0 (Z.to_nat n)) (fun _ => 4096).
Lemma calm_ok : ambient_ok calm.
Proof. split; [intros k n N; unfold longest; cbn [a_tick calm]; unfold longest; lia|]. intros n N. cbn [a_fresh calm]. unfold zlen. rewrite repeat_length. lia. Qed.
Example C79_ex : exists w' rows, main c0 calm 1300 [str "XXH64"; str "--minl=10"; str "--maxl=12"; str "--mins=3"; str "--maxs=4"] (World 0 0 0 0 0) = OK (w', 0, rows) /\
  map shape rows = [ (LargeInput, str "XXH64", [1024; 2048; 4096]); (ThroughputSmall, str "XXH64", [3; 4]); (ThroughputRandom, str "XXH64", [3; 4]); (LatencySmall, str "XXH64", [3; 4]); (LatencyRandom, str "XXH64", [3; 4]) ].
Proof.
  assert (C0 : cfg_ok c0) by (constructor; cbn; auto; lia).
  destruct (C79_main c0 calm 1300 [str "XXH64"; str "--minl=10"; str "--maxl=12"; str "--mins=3"; str "--maxs=4"] (World 0 0 0 0 0) C0 calm_ok (le_n _) ltac:(cbn; lia)) as (r & E & M).
  assert (R : r = inl (Settings 2 1 10 12 3 4)) by (vm_compute in E; injection E as <-; reflexivity). subst r.
  destruct M as (_ & _ & M). destruct (M ltac:(cbn; lia) ltac:(cbn; lia)) as (M1 & _). destruct (M1 ltac:(cbn; lia)) as (w' & rows & E1 & E2 & _). exists w', rows. split; [exact E1|]. rewrite E2. vm_compute. reflexivity.
Qed.
Example C79_ex3 : XXH32_wrapper c0 calm (Ptr (str "abc") 4096 0) 3 Null 0 (World 0 0 0 0 5) = OK (World 4 1 0 0 5, 852579327) /\
  benchLatency (XXH32_wrapper c0 calm) (Ptr (str "?????abc") 4096 0) 3 Null 0 (World 0 0 0 0 1029) = OK (World 4 1 0 0 852579327, 852579327).
Proof. split; vm_compute; reflexivity. Qed.
Example C79_ex2 : all_args (names c0 calm) [str "--n=2"; str "XXH128"; str "--n=2"] defaults = OK (inl (Settings 3 2 9 27 1 127)) /\ all_args (names c0 calm) [str "XXH128"; str "xxh5"] defaults = OK (inr 1) /\
  all_args (names c0 calm) [str "--maxs=4000000K"] defaults = OK (inr ABORT).
Proof. repeat split; vm_compute; reflexivity. Qed.

(** ** C80: a smallest size of zero *)
(** the program accepts --mins=0 and divides by zero *)
Theorem C80_min_size_zero_refuted : exists args, forall c a fuel w, cfg_ok c -> ambient_ok a -> (1300 <= fuel)%nat -> 0 <= w_clock w -> main c a fuel args w = UB.
Proof.
  exists [str "--maxl=0"; str "--mins=0"]. intros c a fuel w C A FU W.
  destruct (C79_main c a fuel [str "--maxl=0"; str "--mins=0"] w C A FU W) as (r & E & M).
  assert (R : r = inl (Settings 0 4 9 0 0 127)) by (vm_compute in E; injection E as <-; reflexivity). subst r.
  destruct M as (_ & _ & M). destruct (M ltac:(cbn; lia) ltac:(cbn; lia)) as (_ & M2). apply M2; cbn; lia.
Qed.
Print Assumptions C80_min_size_zero_refuted.
(** with a smallest size of one or more, or no small sizes at all, no division by zero and no other undefined behaviour occurs *)
Theorem C80_min_size_partial : forall c a fuel args w, cfg_ok c -> ambient_ok a -> (1300 <= fuel)%nat -> 0 <= w_clock w ->
  (forall s, all_args (names c a) args defaults = OK (inl s) -> 1 <= s_size_min s \/ s_size_max s < s_size_min s) -> exists r, main c a fuel args w = OK r.
Proof.
  intros c a fuel args w C A FU W H. destruct (C79_main c a fuel args w C A FU W) as (r & E & M). destruct r as [s|code]; [|destruct M as (M & _); eexists; exact M].
  destruct M as (M1 & M2 & M3). destruct (Z.le_gt_cases (s_hashNb s + s_nb_h_test s) 4) as [G|G]; [|eexists; apply M1; lia].
  destruct (Z.le_gt_cases 31 (s_log_max s)) as [L|L].
  - destruct (Z.le_gt_cases (s_log_min s) (s_log_max s)) as [L'|L']; [eexists; apply M2; trivial|]. destruct (M3 G (or_introl L')) as (M4 & _). destruct (H s E) as [S|S]; destruct M4 as (w' & rows & E1 & _); try lia; eexists; exact E1.
  - destruct (M3 G (or_intror L)) as (M4 & _). destruct (H s E) as [S|S]; destruct M4 as (w' & rows & E1 & _); try lia; eexists; exact E1.
Qed.
Print Assumptions C80_min_size_partial.
Example C80_ex : all_args (names c0 calm) [str "--mins=1"; str "--maxs=16"] defaults = OK (inl (Settings 0 4 9 27 1 16)).
Proof. vm_compute. reflexivity. Qed.
