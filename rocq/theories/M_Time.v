(** Model of the clocks of tests/bench/timefn.c other than C11's (which is in M_BenchFn.v), of the functions built on them, and of
    XSUM_clockSpan (cli/xsum_bench.c). *)
From Verif Require Import Base Mem M_BenchFn.
Module Time.

(** signed arithmetic of [bits] bits: overflow is undefined (used at timefn.c:39, 53, 140, 141; cli/xsum_bench.c:64) *)
Definition signed (bits x : Z) : res Z := if (- 2 ^ (bits - 1) <=? x) && (x <? 2 ^ (bits - 1)) then OK x else UB.
(** a static variable that is filled by the first call: [cached] is its content, [ask] what the system answers now; [None] on both
    sides: the program is aborted (timefn.c:30-38, 44-52; 64-69, 75-80) *)
Definition filled {A} (cached : option A) (ask : option A) : option A := match cached with Some x => Some x | None => ask end.
(** unsigned long long division (timefn.c:39, 53, 70, 81, 140, 141) *)
Definition udiv (x y : Z) : res Z := if y =? 0 then UB else OK (x / y).

(** UTIL_getSpanTimeMicro, UTIL_getSpanTimeNano on Windows: timefn.c:28-40, 42-54, with [unit] = 1000000 and 1000000000.  [freq]: the
    answer of QueryPerformanceFrequency, [None] if it fails.  The result: the span ([None]: abort) and the static variable *)
Definition win_span (unit : Z) (cached freq : option Z) (clockStart clockEnd : Z) : res (option Z * option Z) :=
  match filled cached freq with
  | None => OK (None, None)
  | Some ticksPerSecond =>
      let! d := signed 64 (clockEnd - clockStart) in
      let! v := udiv (u64 (unit * u64 d)) (u64 ticksPerSecond) in
      OK (Some v, Some ticksPerSecond)
  end.
(** UTIL_getSpanTimeNano on macOS: timefn.c:73-82.  [rate]: what mach_timebase_info leaves in the static variable (numer, denom);
    the code does not look at its result, so that a failure is rate = (0, 0) *)
Definition mach_nano (cached : option (Z * Z)) (rate : Z * Z) (clockStart clockEnd : Z) : res (Z * option (Z * Z)) :=
  let r := match cached with Some r => r | None => rate end in
  let! v := udiv (u64 (u64 (clockEnd - clockStart) * fst r)) (snd r) in
  OK (v, Some r).
(** UTIL_getSpanTimeMicro on macOS: timefn.c:62-71 *)
Definition mach_micro (cached : option (Z * Z)) (rate : Z * Z) (clockStart clockEnd : Z) : res (Z * option (Z * Z)) :=
  let r := match cached with Some r => r | None => rate end in
  let! v := udiv (u64 (u64 (clockEnd - clockStart) * fst r)) (snd r) in
  OK (v / 1000, Some r).
(** UTIL_getSpanTimeMicro, UTIL_getSpanTimeNano of C90: timefn.c:140, 141; clock_t is a signed integer of [bits] bits, at most those of
    unsigned long long *)
Definition c90_span (unit bits CLOCKS_PER_SEC : Z) (clockStart clockEnd : Z) : res Z :=
  let! d := signed bits (clockEnd - clockStart) in
  udiv (u64 (unit * u64 d)) CLOCKS_PER_SEC.
(** XSUM_clockSpan: cli/xsum_bench.c:62-65; [now] is what clock() returns *)
Definition XSUM_clockSpan (bits start now : Z) : res Z := signed bits (now - start).

(** UTIL_clockSpanMicro, UTIL_clockSpanNano: timefn.c:148-159; [getTime] reads the clock, [span] is UTIL_getSpanTimeMicro or
    UTIL_getSpanTimeNano *)
Definition clockSpan {T} (span : T -> T -> res Z) (getTime : T) (clockStart : T) : res Z := span clockStart getTime.
(** UTIL_waitForNextTick: timefn.c:161-168; [clock] k: the k-th reading.  The result: how many readings were made after the first *)
Definition waitForNextTick {T} (fuel : nat) (span : T -> T -> res Z) (clock : nat -> T) : res nat :=
  let clockStart := clock 0%nat in
  let! (k, _) := do_while fuel
    (fun '(k, _) => let! d := span clockStart (clock (S k)) in OK (S k, d))
    (fun '(_, d) => d =? 0) (0%nat, 0) in
  OK k.
End Time.
