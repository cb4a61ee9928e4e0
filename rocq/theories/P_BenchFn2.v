(** Proofs about the clock and the timed sessions of tests/bench (M_BenchFn.v) *)
From Verif Require Import Base Mem P_Base M_BenchFn P_BenchFn.
Import BF.

(** ** The clock *)
(** a reading of the clock in nanoseconds; a valid reading has less than one second of nanoseconds *)
Definition nanos (t : timespec) : Z := fst t * 1000000000 + snd t.
Definition reading (t : timespec) : Prop := 0 <= snd t < 1000000000.

Lemma s64_ok x : - 2 ^ 63 <= x < 2 ^ 63 -> s64 x = OK x.
Proof. intros B. unfold s64. replace ((- 2 ^ 63 <=? x) && (x <? 2 ^ 63)) with true by lia. reflexivity. Qed.
Lemma u64_small x : 0 <= x < 2 ^ 64 -> u64 x = x.
Proof. intros B. unfold u64. apply Z.mod_small. exact B. Qed.

Lemma getSpanTime_ok b e : reading b -> reading e -> - 2 ^ 63 < fst e -> - 2 ^ 63 < fst e - fst b < 2 ^ 63 ->
  exists s n, getSpanTime b e = OK (s, n) /\ 0 <= n < 1000000000 /\ s * 1000000000 + n = nanos e - nanos b.
Proof.
  unfold reading, nanos, getSpanTime. intros B E FE R. destruct (Z.ltb_spec (snd e) (snd b)) as [LT|GE].
  - replace (- 2 ^ 63 <=? fst e - 1) with true by lia. cbn [assert_ bind]. rewrite s64_ok by lia. cbn [bind]. exists (fst e - 1 - fst b), (snd e + 1000000000 - snd b). split; [|lia].
    rewrite (u64_small (snd e + 1000000000)) by lia. rewrite u64_small by lia. reflexivity.
  - rewrite s64_ok by lia. cbn [bind]. eexists _, _. split; [reflexivity|]. lia.
Qed.
Lemma nano_ok b e : reading b -> reading e -> - 2 ^ 63 < fst e -> - 2 ^ 63 < fst e - fst b < 2 ^ 63 ->
  getSpanTimeNano b e = OK (u64 (nanos e - nanos b)).
Proof.
  intros B E FE R. destruct (getSpanTime_ok b e B E FE R) as (s & n & ES & N & Q). unfold getSpanTimeNano. rewrite ES. cbn [bind fst snd]. rewrite <- Q. unfold u64. rewrite Zplus_mod_idemp_l. do 2 f_equal. lia.
Qed.
Lemma micro_ok b e : reading b -> reading e -> - 2 ^ 63 < fst e -> - 2 ^ 63 < fst e - fst b < 2 ^ 63 ->
  getSpanTimeMicro b e = OK (u64 ((nanos e - nanos b) / 1000)).
Proof.
  intros B E FE R. destruct (getSpanTime_ok b e B E FE R) as (s & n & ES & N & Q). unfold getSpanTimeMicro. rewrite ES. cbn [bind fst snd]. rewrite <- Q. unfold u64. rewrite Zplus_mod_idemp_l.
  replace (s * 1000000000 + n) with (n + (s * 1000000) * 1000) by lia. rewrite Z.div_add by lia. do 2 f_equal. lia.
Qed.

(** ** Timed sessions *)
(** A world with a clock: [ns w] is the time in world [w], [Inv] holds of the worlds that occur.  A call of the function takes at
    least one and at most [D] nanoseconds and its result is accepted; initFn and a reading of the clock take at most [I] *)
Record timely {W} (e : env W) (p : params W) (bl : list block) (Inv : W -> Prop) (ns : W -> Z) (D I : Z) : Prop := {
  tm_get : forall w, Inv w -> let '(w', t) := e_getTime e w in Inv w' /\ ns w <= ns w' <= ns w + I /\ reading t /\ nanos t = ns w' /\ 0 <= ns w';
  tm_set : forall w b, Inv w -> In b bl -> exists w', Inv w' /\ e_memset e (b_dst b) (b_cap b) w = OK w';
  tm_init : forall w, Inv w -> Inv (started p w) /\ ns w <= ns (started p w) <= ns w + I;
  tm_fn : forall w b, Inv w -> In b bl -> exists w' r, p_benchFn p (b_src b) (b_size b) (b_dst b) (b_cap b) w = OK (w', r) /\ Inv w' /\ ns w + 1 <= ns w' <= ns w + D /\ accepted p r }.

Section Timed.
Context {W : Type} (c : cfg) (e : env W) (p : params W) (bl : list block) (Inv : W -> Prop) (ns : W -> Z) (D I : Z) (T : timely e p bl Inv ns D I) (DS : describes p bl) (NB : 1 <= zlen bl < 2 ^ 32).

Lemma calls_timely l : (forall b, In b l -> In b bl) -> forall w, Inv w -> exists rs w', calls (p_benchFn p) l w rs w' /\ Inv w' /\ Forall (accepted p) rs /\ ns w + zlen l <= ns w' <= ns w + zlen l * D.
Proof.
  induction l as [|b l IH]; intros IN w IW.
  - exists [], w. split; [constructor|]. split; [exact IW|]. split; [constructor|]. change (zlen (@nil block)) with 0. lia.
  - destruct (tm_fn _ _ _ _ _ _ _ T w b IW (IN b (or_introl eq_refl))) as (w1 & r & E & IW1 & B & A).
    destruct (IH (fun b H => IN b (or_intror H)) w1 IW1) as (rs & w2 & C & IW2 & F & B2). exists (r :: rs), w2.
    split; [econstructor; eassumption|]. split; [exact IW2|]. split; [constructor; assumption|].
    replace (zlen (b :: l)) with (zlen l + 1) by (unfold zlen; cbn [length]; lia). lia.
Qed.
Lemma erased_timely l : (forall b, In b l -> In b bl) -> forall w, Inv w -> exists w', Inv w' /\ erased e l w w'.
Proof.
  induction l as [|b l IH]; intros IN w IW; [exists w; split; [exact IW|constructor]|].
  destruct (tm_set _ _ _ _ _ _ _ T w b IW (IN b (or_introl eq_refl))) as (w1 & IW1 & E). destruct (IH (fun b H => IN b (or_intror H)) w1 IW1) as (w2 & IW2 & E2). exists w2. split; [exact IW2|]. econstructor; eassumption.
Qed.
Lemma fits_written br rs : fits br bl -> length rs = length bl -> fits (written br rs) bl.
Proof. destruct br as [l|]; [|trivial]. cbn [fits written option_map]. unfold zlen. rewrite app_length, skipn_length. lia. Qed.

(** one run: it succeeds, and a pass takes at least a nanosecond per block *)
Lemma run_ok fuel n w br : Inv w -> (length bl <= fuel)%nat -> 1 <= n < 2 ^ 32 -> fits br bl -> n * (zlen bl * D) + 2 * I < 2 ^ 63 ->
  exists w' br' rt, benchFunction c e fuel p n w br = OK (w', br', Valid rt) /\ Inv w' /\ fits br' bl /\ rt_loops rt = n /\ n * zlen bl <= rt_ns rt <= n * (zlen bl * D) + 2 * I.
Proof.
  intros IW FU N F B.
  destruct (erased_timely bl (fun b H => H) w IW) as (w0 & IW0 & ER).
  pose proof (tm_get _ _ _ _ _ _ _ T w0 IW0) as G0. destruct (e_getTime e w0) as [wt t0] eqn:E0. destruct G0 as (IWT & G0 & R0 & N0 & PT).
  pose proof (tm_init _ _ _ _ _ _ _ T wt IWT) as (IWS & GI).
  destruct (calls_timely bl (fun b H => H) (started p wt) IWS) as (rs & w1 & C1 & IW1 & A1 & B1).
  destruct (calls_timely (concat (repeat bl (Z.to_nat (n - 1)))) ltac:(intros b H; apply in_concat in H; destruct H as (x & X1 & X2); apply repeat_spec in X1; subst x; exact X2) w1 IW1) as (rs' & w2 & C2 & IW2 & _ & B2).
  assert (LEN : zlen (concat (repeat bl (Z.to_nat (n - 1)))) = (n - 1) * zlen bl).
  { replace (n - 1) with (Z.of_nat (Z.to_nat (n - 1))) at 2 by lia. generalize (Z.to_nat (n - 1)) as k. induction k as [|k IHk]; [reflexivity|]. cbn [repeat concat]. unfold zlen in *. rewrite app_length. lia. }
  rewrite LEN in B2. clear LEN.
  pose proof (tm_get _ _ _ _ _ _ _ T w2 IW2) as G2. destruct (e_getTime e w2) as [w3 t3] eqn:E3. destruct G2 as (IW3 & G2 & R3 & N3 & _).
  pose proof (benchFunction_ok c e p bl fuel n w br w0 rs w1 rs' w2 DS ltac:(lia) FU ltac:(lia) F ER) as Q. rewrite E0, E3 in Q. cbn [fst snd] in Q. specialize (Q C1 A1 C2).
  assert (SP : n * zlen bl <= ns w3 - ns wt <= n * (zlen bl * D) + 2 * I) by (clear - B1 B2 G2 GI N; nia).
  assert (DPOS : 0 <= n * zlen bl) by nia.
  unfold reading, nanos in *.
  rewrite nano_ok in Q; trivial; [|lia|lia]. cbn [bind] in Q. unfold nanos in Q. rewrite N3, N0 in Q. rewrite u64_small in Q by lia.
  replace (Z.max 1 n) with n in Q by lia. exists w3, (written br rs), (RunTime (ns w3 - ns wt) n (usz c (zsum rs))). split; [exact Q|]. split; [exact IW3|]. split; [apply fits_written; [exact F|apply (calls_len _ _ _ _ _ C1)]|].
  split; [reflexivity|]. cbn [rt_ns]. exact SP.
Qed.

Definition tcond : W * option (list Z) * timed * option outcome -> bool := fun '(_, _, _, o) => match o with None => true | Some _ => false end.
Definition tbody (fuel : nat) (runBudget : Z) (best : runTime) : W * option (list Z) * timed * option outcome -> res (W * option (list Z) * timed * option outcome) := fun '(w, br, t, _) =>
    let! (w, br, runResult) := benchFunction c e fuel p (t_nbLoops t) w br in
    match runResult with
    | Error r => OK (w, br, t, Some (Error r))
    | Valid new =>
        let dur := rt_ns new * t_nbLoops t in
        let! d := to_u64 dur (rt_loops new) in
        let spent := u64 (t_spent t + d) in
        let! nbLoops := if runBudget / 50 * rt_loops new <? dur then
                          let fastest := if faster best new then best else new in
                          let! q := to_unsigned (runBudget * rt_loops fastest) (rt_ns fastest) in
                          OK (u32 (q + 1))
                        else
                          let! _ := assert_ (t_nbLoops t <? (2 ^ 32 - 1) / 10) in
                          OK (u32 (t_nbLoops t * 10)) in
        let t := Timed spent (t_budget t) (t_run t) (t_fastest t) nbLoops in
        if dur <? runBudget / 2 * rt_loops new then OK (w, br, t, None)
        else OK (w, br, t, Some (Valid (if faster new best then new else best)))
    end.
Lemma benchTimedFn_eq fuel t w br : benchTimedFn c e fuel p t w br =
  let! (w, br, t, o) := while_ fuel tcond (tbody fuel (t_run t) (t_fastest t)) (w, br, t, None) in
  match o with Some o => OK (w, br, t, o) | None => UB end.
Proof. reflexivity. Qed.

Context (rb : Z) (best : runTime) (fuelB : nat)
  (RB : 2 <= rb < 2 ^ 32 - 1) (BEST : best = RunTime (1000000000 * 2000000000) 1 (usz c (-1))) (FB : (length bl <= fuelB)%nat)
  (I0 : 0 <= I) (SHORT : (rb + 1) * (zlen bl * D) + 2 * I < 2 ^ 63) (LAST : zlen bl * D + 2 * I < 1000000000 * 2000000000).

(** one round *)
Lemma round_ok w br t : Inv w -> t_run t = rb -> t_fastest t = best -> 1 <= t_nbLoops t <= rb + 1 -> fits br bl -> 0 <= t_spent t < 2 ^ 63 ->
  exists w' br' rt d n', tbody fuelB rb best (w, br, t, None) =
    OK (w', br', Timed (t_spent t + d) (t_budget t) rb best n', if d <? rb / 2 then None else Some (Valid rt)) /\
  Inv w' /\ fits br' bl /\ rt_ns rt = d /\ 1 <= rt_loops rt /\ 1 <= n' <= rb + 1 /\ t_nbLoops t <= d < 2 ^ 63 /\ (d < rb / 2 -> 2 * t_nbLoops t <= n').
Proof.
  intros IW TR TF TN F SP. set (n := t_nbLoops t) in *.
  assert (DP : 0 <= zlen bl * D). { destruct (Z.le_gt_cases 0 (zlen bl * D)) as [G|L]; [exact G|]. destruct bl as [|b l] eqn:EB; [unfold zlen in NB; cbn in NB; lia|]. destruct (tm_fn _ _ _ _ _ _ _ T w b IW (or_introl eq_refl)) as (? & ? & _ & _ & Q & _). nia. }
  assert (NBD : n * (zlen bl * D) + 2 * I < 2 ^ 63) by (clear - DP TN SHORT; nia).
  destruct (run_ok fuelB n w br IW FB ltac:(lia) F NBD) as (w' & br' & rt & E & IW' & F' & LP & TM). unfold tbody. fold n. rewrite E. cbn [bind]. rewrite LP, TR, TF.
  assert (N1 : n <= rt_ns rt) by (clear - TM NB TN; nia). set (d := rt_ns rt) in *.
  unfold to_u64. replace (n =? 0) with false by lia. rewrite Z.div_mul by lia. replace (2 ^ 64 <=? d) with false by lia. cbn [orb bind]. rewrite (u64_small (t_spent t + d)) by lia.
  assert (FA : faster best rt = false /\ faster rt best = true).
  { unfold faster. rewrite BEST. cbn [rt_ns rt_loops]. fold d. rewrite LP.
    assert (d * 1 < 1000000000 * 2000000000 * n) by (clear - LAST TM TN I0; fold d in TM; nia). lia. }
  destruct FA as (FA1 & FA2). rewrite FA1, FA2.
  assert (X : exists n', (if rb / 50 * n <? d * n then let! q := to_unsigned (rb * rt_loops rt) (rt_ns rt) in OK (u32 (q + 1)) else let! _ := assert_ (n <? (2 ^ 32 - 1) / 10) in OK (u32 (n * 10))) = OK n' /\ 1 <= n' <= rb + 1 /\ (d < rb / 2 -> 2 * n <= n')).
  { rewrite LP. fold d. destruct (Z.ltb_spec (rb / 50 * n) (d * n)) as [LT|GE].
    - assert (Q : 0 <= rb * n / d <= rb). { split; [apply Z.div_pos; [clear - RB TN; nia|lia]|]. apply Z.div_le_upper_bound; [lia|clear - RB TN N1; nia]. }
      unfold to_unsigned. replace (d =? 0) with false by lia. replace (2 ^ 32 <=? rb * n / d) with false by lia. cbn [orb bind]. rewrite u32_small by lia. exists (rb * n / d + 1). split; [reflexivity|]. split; [lia|].
      intros SM. assert (2 * n <= rb * n / d). { apply Z.div_le_lower_bound; [lia|]. pose proof (Z.div_mod rb 2 ltac:(lia)) as DM. pose proof (Z.mod_pos_bound rb 2 ltac:(lia)) as MB. assert (D2 : 2 * d <= rb) by lia. clear - D2 TN. nia. } lia.
    - assert (d <= rb / 50) by (clear - GE TN; nia). pose proof (Z.div_mod rb 50 ltac:(lia)). pose proof (Z.mod_pos_bound rb 50 ltac:(lia)).
      change ((2 ^ 32 - 1) / 10) with 429496729. replace (n <? 429496729) with true by lia. cbn [assert_ bind]. rewrite u32_small by lia. exists (n * 10). split; [reflexivity|]. lia. }
  destruct X as (n' & -> & N' & DB). cbn [bind].
  exists w', br', rt, d, n'. split.
  { replace (d * n <? rb / 2 * n) with (d <? rb / 2) by (clear - TN; destruct (Z.ltb_spec d (rb / 2)), (Z.ltb_spec (d * n) (rb / 2 * n)); nia). destruct (d <? rb / 2); reflexivity. }
  split; [exact IW'|]. split; [exact F'|]. split; [reflexivity|]. split; [lia|]. split; [exact N'|]. split; [lia|exact DB].
Qed.

Lemma while_more {S} (cond : S -> bool) body m : forall m' s r, (m <= m')%nat -> while_ m cond body s = OK r -> while_ m' cond body s = OK r.
Proof.
  induction m as [|m IH]; intros m' s r L E; destruct m' as [|m']; try lia; cbn [while_] in *; destruct (cond s); trivial; try discriminate.
  destruct (body s) as [s'| |]; cbn [bind] in *; try discriminate. apply IH; [lia|exact E].
Qed.
Lemma rounds_ok m : forall k w br t, Inv w -> t_run t = rb -> t_fastest t = best -> 1 <= t_nbLoops t <= rb + 1 -> fits br bl -> 2 ^ Z.of_nat k <= t_nbLoops t -> (32 <= k + m)%nat ->
  0 <= t_spent t -> t_spent t + Z.of_nat m * 2 ^ 31 < 2 ^ 63 ->
  exists w' br' rt n' s, while_ m tcond (tbody fuelB rb best) (w, br, t, None) = OK (w', br', Timed s (t_budget t) rb best n', Some (Valid rt)) /\
  Inv w' /\ fits br' bl /\ 1 <= rt_loops rt /\ rb / 2 <= rt_ns rt /\ 1 <= n' <= rb + 1 /\ t_spent t + rb / 2 <= s.
Proof.
  induction m as [|m IH]; intros k w br t IW TR TF TN F K KM SP SB.
  - exfalso. assert (2 ^ 32 <= 2 ^ Z.of_nat k) by (apply Z.pow_le_mono_r; lia). lia.
  - destruct (round_ok w br t IW TR TF TN F ltac:(lia)) as (w' & br' & rt & d & n' & E & IW' & F' & ED & RL & N' & DN & DB).
    cbn [while_ tcond]. rewrite E. cbn [bind]. destruct (Z.ltb_spec d (rb / 2)) as [LT|GE].
    + assert (RB2 : rb / 2 < 2 ^ 31) by (apply Z.div_lt_upper_bound; lia).
      destruct (IH (S k) w' br' (Timed (t_spent t + d) (t_budget t) rb best n')) as (w2 & br2 & rt2 & n2 & s & E2 & R); cbn [t_run t_fastest t_nbLoops t_spent t_budget] in *; trivial; try lia.
      { rewrite Nat2Z.inj_succ, Z.pow_succ_r by lia. lia. }
      exists w2, br2, rt2, n2, s. split; [exact E2|]. destruct R as (R0 & R1 & R2 & R3 & R4 & R5). repeat split; trivial; lia.
    + exists w', br', rt, n', (t_spent t + d). split; [destruct m; reflexivity|]. split; [exact IW'|]. split; [exact F'|]. split; [lia|]. split; [lia|]. split; lia.
Qed.

Lemma timed_ok w br t : Inv w -> (32 <= fuelB)%nat -> t_run t = rb -> t_fastest t = best -> 1 <= t_nbLoops t <= rb + 1 -> fits br bl -> 0 <= t_spent t < 2 ^ 62 ->
  exists w' br' rt n' s, benchTimedFn c e fuelB p t w br = OK (w', br', Timed s (t_budget t) rb best n', Valid rt) /\
  Inv w' /\ fits br' bl /\ 1 <= rt_loops rt /\ rb / 2 <= rt_ns rt /\ 1 <= n' <= rb + 1 /\ t_spent t + rb / 2 <= s.
Proof.
  intros IW FU TR TF TN F SP. rewrite benchTimedFn_eq, TR, TF.
  destruct (rounds_ok 32 0 w br t IW TR TF TN F ltac:(cbn; lia) ltac:(lia) ltac:(lia) ltac:(lia)) as (w' & br' & rt & n' & s & E & R). rewrite (while_more _ _ _ fuelB _ _ FU E). cbn [bind]. exists w', br', rt, n', s. split; [reflexivity|exact R].
Qed.

Lemma session_ok m : forall w br t o, Inv w -> (32 <= fuelB)%nat -> t_run t = rb -> t_fastest t = best -> 1 <= t_nbLoops t <= rb + 1 -> fits br bl -> 0 <= t_spent t -> t_budget t <= 2 ^ 62 ->
  t_budget t <= t_spent t + Z.of_nat m * (rb / 2) -> (isCompleted t = false \/ exists rt, o = Valid rt /\ 1 <= rt_loops rt /\ rb / 2 <= rt_ns rt) ->
  exists w' br' rt n' s, while_ m (fun '(_, _, t, _) => negb (isCompleted t)) (fun '(w, br, t, _) =>
    let! (w, br, t, result) := benchTimedFn c e fuelB p t w br in
    let! _ := assert_ (isSuccessful result) in
    OK (w, br, t, result)) (w, br, t, o) = OK (w', br', Timed s (t_budget t) rb best n', Valid rt) /\
  Inv w' /\ fits br' bl /\ 1 <= rt_loops rt /\ rb / 2 <= rt_ns rt /\ 1 <= n' <= rb + 1 /\ t_budget t <= s.
Proof.
  induction m as [|m IH]; intros w br t o IW FU TR TF TN F SP BU M G.
  - assert (C : isCompleted t = true) by (unfold isCompleted; lia). destruct G as [G|(rt & -> & R1 & R2)]; [congruence|].
    exists w, br, rt, (t_nbLoops t), (t_spent t). cbn [while_]. rewrite C. cbn [negb]. unfold isCompleted in C. split; [destruct t; cbn in TR, TF; subst; reflexivity|]. repeat split; trivial; lia.
  - cbn [while_]. destruct (isCompleted t) eqn:C; cbn [negb].
    + destruct G as [G|(rt & -> & R1 & R2)]; [discriminate|]. exists w, br, rt, (t_nbLoops t), (t_spent t). unfold isCompleted in C. split; [destruct t; cbn in TR, TF; subst; reflexivity|]. repeat split; trivial; lia.
    + assert (SPB : t_spent t < 2 ^ 62) by (unfold isCompleted in C; lia).
      destruct (timed_ok w br t IW FU TR TF TN F (conj SP SPB)) as (w' & br' & rt & n' & s & E & IW' & F' & R1 & R2 & N' & S'). rewrite E. cbn [bind isSuccessful assert_].
      destruct (IH w' br' (Timed s (t_budget t) rb best n') (Valid rt) IW' FU) as (w2 & br2 & rt2 & n2 & s2 & E2 & R); cbn [t_run t_fastest t_nbLoops t_spent t_budget] in *; trivial; try lia.
      { right. exists rt. tauto. }
      exists w2, br2, rt2, n2, s2. split; [exact E2|exact R].
Qed.
End Timed.

Lemma reset_ok c total_ms run_ms : 0 <= total_ms < 2 ^ 32 -> 0 <= run_ms < 2 ^ 32 ->
  exists T R, resetTimed c total_ms run_ms = Timed 0 (T * 1000000) (R * 1000000) (RunTime (1000000000 * 2000000000) 1 (usz c (-1))) 1 /\
  T = Z.max 1 total_ms /\ R = Z.min T (Z.max 1 run_ms).
Proof.
  intros A B. exists (Z.max 1 total_ms), (Z.min (Z.max 1 total_ms) (Z.max 1 run_ms)). split; [|split; reflexivity]. unfold resetTimed.
  set (t := if total_ms =? 0 then 1 else total_ms). assert (ET : t = Z.max 1 total_ms) by (unfold t; destruct (Z.eqb_spec total_ms 0); lia). set (r := if run_ms =? 0 then 1 else run_ms). assert (ER : r = Z.max 1 run_ms) by (unfold r; destruct (Z.eqb_spec run_ms 0); lia).
  set (r' := if t <? r then t else r). assert (ER' : r' = Z.min t r) by (unfold r'; destruct (Z.ltb_spec t r); lia). rewrite <- ET, <- ER, <- ER'.
  rewrite !u64_small by lia. replace (t * 1000000000) with (t * 1000000 * 1000) by lia. replace (r' * 1000000000) with (r' * 1000000 * 1000) by lia. rewrite !Z.div_mul by lia. reflexivity.
Qed.

(** the whole session: it ends, no assert fails, and the result is a run of at least half the interval asked for *)
Lemma whole_session {W} c (e : env W) p bl Inv ns D I : timely e p bl Inv ns D I -> describes p bl -> 1 <= zlen bl < 2 ^ 32 -> forall total_ms run_ms w br o fuel, Inv w ->
  0 <= total_ms < 2 ^ 32 -> 0 <= run_ms <= 4294 -> fits br bl -> 0 <= I ->
  let t := resetTimed c total_ms run_ms in
  (t_run t + 1) * (zlen bl * D) + 2 * I < 2 ^ 63 -> zlen bl * D + 2 * I < 2000000000000000000 ->
  zlen bl + 32 + 2 * (t_budget t / t_run t + 1) <= Z.of_nat fuel ->
  exists w' br' rt t', session c e fuel p t w br o = OK (w', br', t', Valid rt) /\ Inv w' /\ isCompleted t' = true /\ t_budget t' = t_budget t /\ 1 <= rt_loops rt /\ t_run t / 2 <= rt_ns rt.
Proof.
  intros T DS NB total_ms run_ms w br o fuel IW TB RB F I0. cbv zeta. destruct (reset_ok c total_ms run_ms TB ltac:(lia)) as (T0 & R0 & -> & ET & ER). cbn [t_run t_budget].
  assert (R1 : 1 <= R0 <= 4294 /\ R0 <= T0 /\ T0 < 2 ^ 32) by lia. clear ET ER. intros S1 S2 FU.
  assert (DV : T0 * 1000000 / (R0 * 1000000) = T0 / R0) by (rewrite Z.div_mul_cancel_r by lia; reflexivity). rewrite DV in FU.
  pose proof (Z.div_mod T0 R0 ltac:(lia)) as DM. pose proof (Z.mod_pos_bound T0 R0 ltac:(lia)) as MB.
  assert (H2 : R0 * 1000000 / 2 = R0 * 500000) by (replace (R0 * 1000000) with (R0 * 500000 * 2) by lia; apply Z.div_mul; lia).
  assert (DP : 0 <= T0 / R0) by (apply Z.div_pos; lia).
  destruct (session_ok c e p bl Inv ns D I T DS NB (R0 * 1000000) (RunTime (1000000000 * 2000000000) 1 (usz c (-1))) fuel ltac:(lia) eq_refl ltac:(unfold zlen in *; lia) I0 S1 ltac:(lia)
    fuel w br (Timed 0 (T0 * 1000000) (R0 * 1000000) (RunTime (1000000000 * 2000000000) 1 (usz c (-1))) 1) o IW) as (w' & br' & rt & n' & s & E & IW' & F' & L1 & L2 & _ & SB);
    cbn [t_run t_fastest t_nbLoops t_spent t_budget] in *; trivial; try lia.
  { rewrite H2. assert (2 * (T0 / R0 + 1) <= Z.of_nat fuel) by lia. clear - H DM MB R1. nia. }
  { left. unfold isCompleted. cbn [t_budget t_spent]. lia. }
  exists w', br', rt, (Timed s (T0 * 1000000) (R0 * 1000000) (RunTime (1000000000 * 2000000000) 1 (usz c (-1))) n'). split; [exact E|]. split; [exact IW'|]. split; [unfold isCompleted; cbn [t_budget t_spent]; lia|]. split; [reflexivity|]. split; [exact L1|]. exact L2.
Qed.

(** ** The result of a timed benchmark is its last run *)
Lemma timed_last {W} c (e : env W) fuel p t w br w' br' t' rt : benchTimedFn c e fuel p t w br = OK (w', br', t', Valid rt) ->
  t_fastest t' = t_fastest t /\ exists n w1 br1 rt1, benchFunction c e fuel p n w1 br1 = OK (w', br', Valid rt1) /\ rt = if faster rt1 (t_fastest t) then rt1 else t_fastest t.
Proof.
  rewrite benchTimedFn_eq. assert (G : forall m w br t0 w' br' t' o, t_fastest t0 = t_fastest t -> while_ m tcond (tbody c e p fuel (t_run t) (t_fastest t)) (w, br, t0, None) = OK (w', br', t', o) ->
    t_fastest t' = t_fastest t /\ forall rt, o = Some (Valid rt) -> exists n w1 br1 rt1, benchFunction c e fuel p n w1 br1 = OK (w', br', Valid rt1) /\ rt = if faster rt1 (t_fastest t) then rt1 else t_fastest t).
  { clear. induction m as [|m IH]; intros w br t0 w' br' t' o TF E; cbn [while_ tcond] in E; [discriminate|].
    unfold tbody in E at 1. destruct (benchFunction c e fuel p (t_nbLoops t0) w br) as [[[w1 br1] out]| |] eqn:EB; cbn [bind] in E; try discriminate.
    destruct out as [new|r].
    - destruct (to_u64 _ _) as [d| |]; cbn [bind] in E; try discriminate.
      destruct (if t_run t / 50 * rt_loops new <? rt_ns new * t_nbLoops t0 then _ else _) as [n'| |]; cbn [bind] in E; try discriminate.
      destruct (rt_ns new * t_nbLoops t0 <? t_run t / 2 * rt_loops new); cbn [bind] in E.
      + apply IH in E; [exact E|exact TF].
      + assert (Q : (w1, br1, Timed (u64 (t_spent t0 + d)) (t_budget t0) (t_run t0) (t_fastest t0) n', Some (Valid (if faster new (t_fastest t) then new else t_fastest t))) = (w', br', t', o)) by (destruct m; cbn [while_ tcond] in E; injection E as <- <- <- <-; reflexivity).
        injection Q as <- <- <- <-. split; [exact TF|]. intros rt Q. injection Q as <-. exists (t_nbLoops t0), w, br, new. split; [exact EB|reflexivity].
    - assert (Q : (w1, br1, t0, Some (Error r)) = (w', br', t', o)) by (destruct m; cbn [while_ tcond] in E; injection E as <- <- <- <-; reflexivity). injection Q as <- <- <- <-. split; [exact TF|]. intros rt Q. discriminate. }
  intros E. destruct (while_ _ _ _ _) as [[[[w2 br2] t2] o]| |] eqn:EW; cbn [bind] in E; try discriminate. destruct o as [o|]; [|discriminate]. injection E as <- <- <- ->.
  destruct (G _ _ _ _ _ _ _ _ eq_refl EW) as (G1 & G2). split; [exact G1|]. apply G2. reflexivity.
Qed.

(** ** More blocks than an unsigned can count *)
Lemma endless {W} c (p : params W) br : 2 ^ 32 <= p_blockCount p ->
  (forall i, 0 <= i < 2 ^ 32 -> exists s n d k, at_ (p_srcBuffers p) i = OK s /\ at_ (p_srcSizes p) i = OK n /\ at_ (p_dstBuffers p) i = OK d /\ at_ (p_dstCapacities p) i = OK k) ->
  (forall s n d k w, exists w' r, p_benchFn p s n d k w = OK (w', r)) -> p_errorFn p = None -> match br with None => True | Some l => 2 ^ 32 <= zlen l end ->
  forall fuel loopNb w ds, benchBlocks c fuel p loopNb (w, br, ds) = NoFuel.
Proof.
  intros BC AR FN EN BR fuel loopNb w ds. rewrite benchBlocks_eq.
  assert (G : forall fuel w br ds i, 0 <= i < 2 ^ 32 -> match br with None => True | Some l => 2 ^ 32 <= zlen l end -> while_ fuel (cond_ p) (body_ c p loopNb) (w, br, ds, i, None) = NoFuel).
  { clear - BC AR FN EN. induction fuel as [|fuel IH]; intros w br ds i B BR.
    - cbn [while_ cond_]. replace (i <? p_blockCount p) with true by lia. reflexivity.
    - cbn [while_]. replace (cond_ p _) with true by (cbn [cond_]; lia). destruct (AR i B) as (s & n & d & k & A1 & A2 & A3 & A4). destruct (FN s n d k w) as (w' & r & EF).
      unfold body_ at 1. rewrite A1, A2, A3, A4. cbn [bind]. rewrite EF. cbn [bind]. rewrite EN.
      assert (U : 0 <= u32 (i + 1) < 2 ^ 32) by (unfold u32; apply Z.mod_pos_bound; lia).
      destruct (loopNb =? 0).
      + destruct br as [l|]; cbn [bind]; [|apply IH; trivial]. unfold store. change (zlen [r]) with 1. replace ((0 <=? i) && (i + 1 <=? zlen l)) with true by lia. cbn [bind]. apply IH; [exact U|].
        unfold zlen in *. rewrite !app_length, firstn_length, skipn_length. cbn [length]. lia.
      + cbn [bind]. apply IH; assumption. }
  rewrite (G fuel w br ds 0) by (trivial; lia). reflexivity.
Qed.
