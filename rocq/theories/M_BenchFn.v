(** Model of the benchmark library of tests/bench (timefn.c, benchfn.c).

    What the outside world does (the clock, the functions benchmarked, memset on their buffers) is a state of an arbitrary
    type [W] with arbitrary functions on it; the theorems quantify over all of them.  A failed assert stops the program
    (benchfn.c:18 keeps them active); it is the outcome [UB] here, so that a theorem concluding [OK] excludes it.  Times
    of type double are exact fractions, without rounding.  The clock is C11's (timefn.c:86-133; the others are in M_Time.v), with 64-bit
    time_t. *)
From Verif Require Import Base Mem.

Module BF.

(** ** tests/bench/timefn.c *)
(** struct timespec: seconds and nanoseconds (timefn.h:63) *)
Definition timespec := (Z * Z)%type.
(** signed 64-bit arithmetic: overflow is undefined (used at timefn.c:108, 111) *)
Definition s64 (x : Z) : res Z := if (- 2 ^ 63 <=? x) && (x <? 2 ^ 63) then OK x else UB.
(** UTIL_getSpanTime: timefn.c:104-115.  The nanoseconds are computed as unsigned long long in the first branch.  The
    seconds are taken to be values of time_t, so that tv_sec - 1 can overflow at the lower end only *)
Definition getSpanTime (b e : timespec) : res timespec :=
  if snd e <? snd b then
    let! _ := assert_ (- 2 ^ 63 <=? fst e - 1) in
    let! s := s64 (fst e - 1 - fst b) in
    OK (s, u64 (u64 (snd e + 1000000000) - snd b))
  else
    let! s := s64 (fst e - fst b) in
    OK (s, snd e - snd b).
(** UTIL_getSpanTimeMicro: timefn.c:117-124 *)
Definition getSpanTimeMicro (b e : timespec) : res Z :=
  let! d := getSpanTime b e in
  OK (u64 (u64 (1000000 * fst d) + snd d / 1000)).
(** UTIL_getSpanTimeNano: timefn.c:126-133 *)
Definition getSpanTimeNano (b e : timespec) : res Z :=
  let! d := getSpanTime b e in
  OK (u64 (u64 (1000000000 * fst d) + snd d)).

(** ** tests/bench/benchfn.c *)
(** array subscript, used throughout BMK_benchFunction: benchfn.c:113, 124-125 *)
Definition at_ {A} (l : list A) (i : Z) : res A :=
  if i <? 0 then UB else match nth_error l (Z.to_nat i) with Some a => OK a | None => UB end.

(** BMK_runTime_t: benchfn.h:33-36; nanoSecPerRun is the fraction [rt_ns / rt_loops] *)
Record runTime := RunTime { rt_ns : Z; rt_loops : Z; rt_sum : Z }.
(** comparison of two nanoSecPerRun (benchfn.c:230, 245), by cross multiplication *)
Definition faster (a b : runTime) : bool := rt_ns a * rt_loops b <? rt_ns b * rt_loops a.
(** BMK_runOutcome_t: benchfn.h:48-52, benchfn.c:81-97; the tag is the constructor *)
Inductive outcome := Valid (rt : runTime) | Error (r : Z).
(** BMK_isSuccessful_runOutcome: benchfn.c:62-65 *)
Definition isSuccessful (o : outcome) : bool := match o with Valid _ => true | Error _ => false end.
(** BMK_extract_runTime, BMK_extract_errorResult: benchfn.c:69-79 *)
Definition extract_runTime (o : outcome) : res runTime := match o with Valid rt => OK rt | Error _ => UB end.
Definition extract_errorResult (o : outcome) : res Z := match o with Error r => OK r | Valid _ => UB end.

(** the outside world: UTIL_getTime (timefn.c:92-102) and memset of a destination buffer (benchfn.c:113) *)
Record env (W : Type) := Env { e_getTime : W -> W * timespec; e_memset : ptr -> Z -> W -> res W }.
Arguments e_getTime {W}. Arguments e_memset {W}. Arguments Env {W}.
(** BMK_benchParams_t: benchfn.h:67-86.  The payloads belong to the functions.  blockResults is threaded separately *)
Record params (W : Type) := Params {
  p_benchFn : ptr -> Z -> ptr -> Z -> W -> res (W * Z);
  p_initFn : option (W -> W);
  p_errorFn : option (Z -> Z);
  p_blockCount : Z;
  p_srcBuffers : list ptr; p_srcSizes : list Z; p_dstBuffers : list ptr; p_dstCapacities : list Z }.
Arguments p_benchFn {W}. Arguments p_initFn {W}. Arguments p_errorFn {W}. Arguments p_blockCount {W}.
Arguments p_srcBuffers {W}. Arguments p_srcSizes {W}. Arguments p_dstBuffers {W}. Arguments p_dstCapacities {W}. Arguments Params {W}.

(** the loop over the blocks: benchfn.c:123-135.  [blockNb] is unsigned, blockCount is size_t; the last component is
    the result that stopped the benchmark *)
Definition benchBlocks {W} (c : cfg) (fuel : nat) (p : params W) (loopNb : Z) (s : W * option (list Z) * Z)
  : res (W * option (list Z) * Z * option Z) :=
  let '(w, br, dstSize) := s in
  let! (w, br, dstSize, _, err) := while_ fuel (fun '(_, _, _, blockNb, err) => match err with Some _ => false | None => blockNb <? p_blockCount p end)
    (fun '(w, br, dstSize, blockNb, _) =>
      let! src := at_ (p_srcBuffers p) blockNb in
      let! srcSize := at_ (p_srcSizes p) blockNb in
      let! dst := at_ (p_dstBuffers p) blockNb in
      let! cap := at_ (p_dstCapacities p) blockNb in
      let! (w, r) := p_benchFn p src srcSize dst cap w in
      if loopNb =? 0 then
        let! br := match br with None => OK None | Some l => let! l := store l blockNb [r] in OK (Some l) end in
        if match p_errorFn p with None => false | Some f => negb (f r =? 0) end then OK (w, br, dstSize, blockNb, Some r)
        else OK (w, br, usz c (dstSize + r), u32 (blockNb + 1), None)
      else OK (w, br, dstSize, u32 (blockNb + 1), None)) (w, br, dstSize, 0, None) in
  OK (w, br, dstSize, err).
(** BMK_benchFunction: benchfn.c:107-144 *)
Definition benchFunction {W} (c : cfg) (e : env W) (fuel : nat) (p : params W) (nbLoops : Z) (w : W) (br : option (list Z))
  : res (W * option (list Z) * outcome) :=
  let! w := for_ (Z.to_nat (p_blockCount p)) 0 (fun i w =>
    let! dst := at_ (p_dstBuffers p) i in
    let! cap := at_ (p_dstCapacities p) i in
    e_memset e dst cap w) w in
  let '(w, clockStart) := e_getTime e w in
  let nbLoops := u32 (nbLoops + (if nbLoops =? 0 then 1 else 0)) in
  let w := match p_initFn p with None => w | Some f => f w end in
  let! (w, br, dstSize, err) := for_ (Z.to_nat nbLoops) 0 (fun loopNb '(w, br, dstSize, err) =>
    match err with Some _ => OK (w, br, dstSize, err) | None => benchBlocks c fuel p loopNb (w, br, dstSize) end) (w, br, 0, None) in
  match err with
  | Some r => OK (w, br, Error r)
  | None =>
      let '(w, clockEnd) := e_getTime e w in
      let! totalTime := getSpanTimeNano clockStart clockEnd in
      OK (w, br, Valid (RunTime totalTime nbLoops dstSize))
  end.

(** struct BMK_timedFnState_s: benchfn.c:149-156, without coolTime, which is never read *)
Record timed := Timed { t_spent : Z; t_budget : Z; t_run : Z; t_fastest : runTime; t_nbLoops : Z }.
(** BMK_resetTimedFnState: benchfn.c:182-194, without the reading of the clock for coolTime.  (double)1e9 * 2e9 is a fraction over 1 *)
Definition resetTimed (c : cfg) (total_ms run_ms : Z) : timed :=
  let total_ms := if total_ms =? 0 then 1 else total_ms in
  let run_ms := if run_ms =? 0 then 1 else run_ms in
  let run_ms := if total_ms <? run_ms then total_ms else run_ms in
  Timed 0 (u64 (total_ms * 1000000000) / 1000) (u64 (run_ms * 1000000000) / 1000)
        (RunTime (1000000000 * 2000000000) 1 (usz c (-1))) 1.
(** BMK_isCompleted_TimedFn: benchfn.c:198-201 *)
Definition isCompleted (t : timed) : bool := t_budget t <=? t_spent t.
(** conversion of the fraction [a / b] to unsigned, undefined when its integral part does not fit (used at benchfn.c:231);
    dividing by zero gives an infinity, which does not fit either *)
Definition to_unsigned (a b : Z) : res Z := if (b =? 0) || (2 ^ 32 <=? a / b) then UB else OK (a / b).
(** conversion of the fraction [a / b] to unsigned long long (used at benchfn.c:226) *)
Definition to_u64 (a b : Z) : res Z := if (b =? 0) || (2 ^ 64 <=? a / b) then UB else OK (a / b).
(** BMK_benchTimedFn: benchfn.c:209-253.  The loop carries the outcome to return, if any *)
Definition benchTimedFn {W} (c : cfg) (e : env W) (fuel : nat) (p : params W) (t : timed) (w : W) (br : option (list Z))
  : res (W * option (list Z) * timed * outcome) :=
  let runBudget := t_run t in
  let runTimeMin := runBudget / 2 in
  let best := t_fastest t in
  let! (w, br, t, o) := while_ fuel (fun '(_, _, _, o) => match o with None => true | Some _ => false end) (fun '(w, br, t, _) =>
    let! (w, br, runResult) := benchFunction c e fuel p (t_nbLoops t) w br in
    match runResult with
    | Error r => OK (w, br, t, Some (Error r))
    | Valid new =>
        (* loopDuration_ns = dur / rt_loops new *)
        let dur := rt_ns new * t_nbLoops t in
        let! d := to_u64 dur (rt_loops new) in
        let spent := u64 (t_spent t + d) in
        let! nbLoops := if runBudget / 50 * rt_loops new <? dur then
                          let fastest := if faster best new then best else new in
                          let! q := to_unsigned (runBudget * rt_loops fastest) (rt_ns fastest) in
                          OK (u32 (q + 1))
                        else
                          let! _ := assert_ (t_nbLoops t <? (2 ^ 32 - 1) / 10) in
                          OK (u32 (t_nbLoops t * 10)) in
        let t := Timed spent (t_budget t) (t_run t) (t_fastest t) nbLoops in
        if dur <? runTimeMin * rt_loops new then OK (w, br, t, None)
        else OK (w, br, t, Some (Valid (if faster new best then new else best)))
    end) (w, br, t, None) in
  match o with Some o => OK (w, br, t, o) | None => UB end.

(** the loop of the user guide of the header (benchfn.h:142-144) as bench_hash_internal writes it: benchHash.c:107-112;
    the assert on the outcome is part of it *)
Definition session {W} (c : cfg) (e : env W) (fuel : nat) (p : params W) (t : timed) (w : W) (br : option (list Z)) (result : outcome)
  : res (W * option (list Z) * timed * outcome) :=
  while_ fuel (fun '(_, _, t, _) => negb (isCompleted t)) (fun '(w, br, t, _) =>
    let! (w, br, t, result) := benchTimedFn c e fuel p t w br in
    let! _ := assert_ (isSuccessful result) in
    OK (w, br, t, result)) (w, br, t, result).
End BF.
