(** Property theorems about the clocks of the benchmark programs: C100 (tests/bench/timefn.c, cli/xsum_bench.c). *)
From Verif Require Import Base Mem M_BenchFn M_Time P_Base.
Import Time.

(** ** C100 *)
Lemma wrapped_quotient p f : 0 <= p -> 0 < f < 2 ^ 64 -> (p mod 2 ^ 64 / f = p / f <-> p < 2 ^ 64).
Proof.
  intros P F. split; [|intros L; rewrite Z.mod_small by lia; reflexivity].
  intros E. destruct (Z.lt_ge_cases p (2 ^ 64)) as [L|G]; [exact L|exfalso].
  assert (K : 1 <= p / 2 ^ 64) by (apply Z.div_le_lower_bound; lia).
  assert (M : p mod 2 ^ 64 + f <= p).
  { pose proof (Z.div_mod p (2 ^ 64) ltac:(lia)). nia. }
  assert (p mod 2 ^ 64 / f + 1 <= p / f); [|lia].
  replace (p mod 2 ^ 64 / f + 1) with ((p mod 2 ^ 64 + 1 * f) / f) by (apply Z.div_add; lia). apply Z.div_le_mono; lia.
Qed.
Lemma signed_ok bits x : - 2 ^ (bits - 1) <= x < 2 ^ (bits - 1) -> signed bits x = OK x.
Proof. intros R. unfold signed. rewrite (proj2 (Z.leb_le _ _) (proj1 R)), (proj2 (Z.ltb_lt _ _) (proj2 R)). reflexivity. Qed.
Lemma u64_small x : 0 <= x < 2 ^ 64 -> u64 x = x.
Proof. apply u64_id. Qed.
Lemma udiv_ok x y : y <> 0 -> udiv x y = OK (x / y).
Proof. intros N. unfold udiv. apply Z.eqb_neq in N. rewrite N. reflexivity. Qed.

(** Windows: for a clock that did not go back the span is exact, rounded down, if and only if the number of ticks times the unit fits
    in 64 bits.  The frequency is the one of the first call *)
Theorem C100_windows : forall unit freq freq' f b e, 0 < unit < 2 ^ 64 -> 0 < f < 2 ^ 63 -> 0 <= e - b < 2 ^ 63 ->
  (forall cached, filled cached freq = Some f -> exists v, win_span unit cached freq b e = OK (Some v, Some f) /\
     v = unit * (e - b) mod 2 ^ 64 / f /\ (v = unit * (e - b) / f <-> unit * (e - b) < 2 ^ 64)) /\
  win_span unit (Some f) freq' b e = win_span unit (Some f) freq b e.
Proof.
  intros unit freq freq' f b e U F D. split; [|reflexivity]. intros cached C. unfold win_span. rewrite C, signed_ok by lia. cbn [bind].
  rewrite udiv_ok by (rewrite u64_small by lia; lia). cbn [bind]. eexists. split; [reflexivity|]. rewrite (u64_small (e - b)), (u64_small f) by lia.
  split; [reflexivity|]. apply wrapped_quotient; nia.
Qed.
Print Assumptions C100_windows.
(** so, with the usual frequency of 10 MHz, half an hour and 45 seconds are measured as 29 nanoseconds *)
Theorem C100_windows_half_hour_refuted : exists f b e, f = 10000000 /\ e - b = 18446744074 /\ 1844 <= (e - b) / f < 1845 /\
  win_span 1000000000 None (Some f) b e = OK (Some 29, Some f).
Proof. exists 10000000, 0, 18446744074. repeat split; vm_compute; congruence. Qed.
Print Assumptions C100_windows_half_hour_refuted.
(** without a performance counter the program is aborted; nothing is undefined *)
Theorem C100_windows_abort : forall unit b e, win_span unit None None b e = OK (None, None).
Proof. reflexivity. Qed.
Print Assumptions C100_windows_abort.

(** macOS: exact if and only if the ticks times the numerator fit in 64 bits; microseconds are the nanoseconds divided by 1000 *)
Theorem C100_mach : forall cached rate n d b e, match cached with Some r => r | None => rate end = (n, d) -> 0 < n < 2 ^ 32 -> 0 < d < 2 ^ 32 -> 0 <= e - b < 2 ^ 64 ->
  exists v, mach_nano cached rate b e = OK (v, Some (n, d)) /\ v = (e - b) * n mod 2 ^ 64 / d /\ (v = (e - b) * n / d <-> (e - b) * n < 2 ^ 64) /\
    exists w, mach_micro cached rate b e = OK (w, Some (n, d)) /\ w = v / 1000.
Proof.
  intros cached rate n d b e C N D R. unfold mach_nano, mach_micro. rewrite C. cbn [fst snd]. rewrite udiv_ok by lia. cbn [bind].
  eexists. split; [reflexivity|]. rewrite (u64_small (e - b)) by lia. split; [reflexivity|]. split; [apply wrapped_quotient; nia|]. eexists. split; reflexivity.
Qed.
Print Assumptions C100_mach.
(** mach_timebase_info's result is not looked at: if it fails in the first call the program divides by zero *)
Theorem C100_mach_unchecked_refuted : exists b e, mach_nano None (0, 0) b e = UB.
Proof. exists 0, 1. reflexivity. Qed.
Print Assumptions C100_mach_unchecked_refuted.

(** C90: the same for clock() *)
Theorem C100_c90 : forall unit bits cps b e, 0 < unit < 2 ^ 64 -> 1 <= bits <= 64 -> 0 < cps < 2 ^ 64 -> 0 <= e - b < 2 ^ (bits - 1) ->
  exists v, c90_span unit bits cps b e = OK v /\ v = unit * (e - b) mod 2 ^ 64 / cps /\ (v = unit * (e - b) / cps <-> unit * (e - b) < 2 ^ 64).
Proof.
  intros unit bits cps b e U B C R. assert (P : 2 ^ (bits - 1) <= 2 ^ 63) by (apply Z.pow_le_mono_r; lia). unfold c90_span. rewrite signed_ok by lia. cbn [bind].
  rewrite udiv_ok by lia. eexists. split; [reflexivity|]. rewrite (u64_small (e - b)) by lia. split; [reflexivity|]. apply wrapped_quotient; nia.
Qed.
Print Assumptions C100_c90.
(** a million ticks per second: exact up to five hours of processor time; so is the time since a start *)
Theorem C100_c90_five_hours : forall b e, 0 <= e - b <= 18000 * 1000000 -> c90_span 1000000000 64 1000000 b e = OK ((e - b) * 1000) /\
  clockSpan (c90_span 1000000000 64 1000000) e b = OK ((e - b) * 1000).
Proof.
  intros b e R. cut (c90_span 1000000000 64 1000000 b e = OK ((e - b) * 1000)); [intros H; split; exact H|].
  destruct (C100_c90 1000000000 64 1000000 b e) as (v & E & _ & X); try lia. rewrite E. f_equal. rewrite (proj2 X) by lia.
  replace (1000000000 * (e - b)) with ((e - b) * 1000 * 1000000) by lia. apply Z.div_mul. lia.
Qed.
Print Assumptions C100_c90_five_hours.

(** cli/xsum_bench.c: the comment "works even if overflow" is wrong, as clock_t is signed: the span is right or undefined *)
Theorem C100_clockSpan : forall bits start now v, XSUM_clockSpan bits start now = OK v <-> v = now - start /\ - 2 ^ (bits - 1) <= v < 2 ^ (bits - 1).
Proof.
  intros bits start now v. unfold XSUM_clockSpan. split.
  - unfold signed. destruct (_ && _) eqn:E; intros H; inversion H; subst. apply andb_prop in E. destruct E as [A B]. apply Z.leb_le in A. apply Z.ltb_lt in B. lia.
  - intros (-> & R). apply signed_ok, R.
Qed.
Print Assumptions C100_clockSpan.
Theorem C100_clockSpan_overflow_refuted : exists start now, 0 <= start < 2 ^ 31 /\ - 2 ^ 31 <= now < 0 /\ (now - start) mod 2 ^ 32 = 10 /\ XSUM_clockSpan 32 start now = UB.
Proof. exists (2 ^ 31 - 5), (5 - 2 ^ 31). repeat split; vm_compute; congruence. Qed.
Print Assumptions C100_clockSpan_overflow_refuted.

(** UTIL_waitForNextTick returns at the first reading that differs, and it does not return while there is none; for every clock *)
Theorem C100_wait : forall T (span : T -> T -> res Z) (clock : nat -> T) k v fuel,
  (forall j, (1 <= j < k)%nat -> span (clock 0%nat) (clock j) = OK 0) -> (1 <= k)%nat -> span (clock 0%nat) (clock k) = OK v -> v <> 0 -> (k <= fuel)%nat ->
  waitForNextTick fuel span clock = OK k.
Proof.
  intros T span clock k v fuel Z K E N L. unfold waitForNextTick, do_while. cbv zeta.
  set (body := fun '(k, _) => let! d := span (clock 0%nat) (clock (S k)) in OK (S k, d)). set (cond := fun '(_, d) => d =? 0).
  assert (W : forall n j d, (j + n = k)%nat -> (1 <= j)%nat -> d = (if n then v else 0) -> forall fuel, (n < fuel)%nat -> while_ fuel cond body (j, d) = OK (k, v)).
  { induction n as [|n IH]; intros j d J J1 -> fu FU; (destruct fu as [|fu]; [lia|]); cbn [while_].
    - unfold cond at 1. apply Z.eqb_neq in N. rewrite N. do 2 f_equal. lia.
    - unfold cond at 1. cbn [Z.eqb]. unfold body at 1. destruct n as [|n].
      + replace (S j) with k by lia. rewrite E. cbn [bind]. apply IH; lia.
      + rewrite Z by lia. cbn [bind]. apply IH; lia. }
  unfold body at 1. destruct k as [|[|k]]; [lia| |].
  - rewrite E. cbn [bind]. rewrite (W 0%nat 1%nat v) by lia. reflexivity.
  - rewrite Z by lia. cbn [bind]. rewrite (W (S k) 1%nat 0) by lia. reflexivity.
Qed.
Print Assumptions C100_wait.
Theorem C100_wait_stopped_clock : forall T (span : T -> T -> res Z) (clock : nat -> T) fuel,
  (forall j, span (clock 0%nat) (clock j) = OK 0) -> waitForNextTick fuel span clock = NoFuel.
Proof.
  intros T span clock fuel Z. unfold waitForNextTick, do_while. cbv zeta.
  set (body := fun '(k, _) => let! d := span (clock 0%nat) (clock (S k)) in OK (S k, d)). set (cond := fun '(_, d) => d =? 0).
  assert (W : forall fu j, while_ fu cond body (j, 0) = NoFuel).
  { induction fu as [|fu IH]; intros j; cbn [while_]; [reflexivity|]. unfold cond at 1. cbn [Z.eqb]. unfold body at 1. rewrite Z. cbn [bind]. apply IH. }
  unfold body at 1. rewrite Z. cbn [bind]. rewrite W. reflexivity.
Qed.
Print Assumptions C100_wait_stopped_clock.
(** a Windows clock of 10 MHz that is read twice per tick *)
Example C100_wait_case : waitForNextTick 10 (fun b e => let! r := win_span 1000000000 None (Some 10000000) b e in OK match fst r with Some v => v | None => 0 end)
  (fun k => Z.of_nat (k / 2)%nat) = OK 2%nat.
Proof. reflexivity. Qed.
Example C100_cases : win_span 1000000 (Some 3000000) (Some 5) 100 1000 = OK (Some 300, Some 3000000) /\ mach_nano None (125, 3) 10 34 = OK (1000, Some (125, 3)) /\
  mach_micro None (125, 3) 0 24000 = OK (1000, Some (125, 3)) /\ c90_span 1000000 32 1000 7 10 = OK 3000.
Proof. repeat split. Qed.
