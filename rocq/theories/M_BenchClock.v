(** Model of the timing in the benchmark of xxhsum (XSUM_benchHash: cli/xsum_bench.c:228-316): how many rounds are made, of how many calls each, and
    which speed is reported.  M_Bench.v takes the numbers of calls of the rounds after the first as arguments; here they are computed from the clock.

    Simplifications: values of type double are exact fractions, infinities or NaN, without rounding; the wait for the next tick of the clock
    (cli/xsum_bench.c:246-247) ends; the texts printed are not modelled. *)
From Verif Require Import Base Mem M_Bench.

(** a double: [Fin n d] is n/d with d > 0 (used at cli/xsum_bench.c:233, 256, 284-302) *)
Inductive dbl := Fin (n d : Z) | Inf | NegInf | NaN.
(** [((double)nbTicks / TIMELOOP) / nbh_perIteration]: cli/xsum_bench.c:256; [T]: CLOCKS_PER_SEC, which is TIMELOOP (44) *)
Definition ticksPerHash (T nbTicks nbh : Z) : dbl :=
  if 0 <? nbh then Fin nbTicks (T * nbh) else if 0 <? nbTicks then Inf else if nbTicks <? 0 then NegInf else NaN.
(** [1 / x]: cli/xsum_bench.c:284, 303, 312, 315 *)
Definition inverse (x : dbl) : dbl :=
  match x with
  | Fin n d => if 0 <? n then Fin d n else if n <? 0 then Fin (- d) (- n) else Inf
  | Inf | NegInf => Fin 0 1
  | NaN => NaN
  end.
(** [x + 1]: cli/xsum_bench.c:284, 303 *)
Definition plus1 (x : dbl) : dbl := match x with Fin n d => Fin (n + d) d | x => x end.
(** [a < b]: cli/xsum_bench.c:294 *)
Definition lt (a b : dbl) : bool :=
  match a, b with
  | NaN, _ | _, NaN => false
  | NegInf, NegInf => false
  | NegInf, _ => true
  | _, NegInf => false
  | Inf, _ => false
  | Fin _ _, Inf => true
  | Fin n d, Fin n' d' => n * d' <? n' * d
  end.
(** [(XSUM_U32)x], [(unsigned)x]: undefined when the integral part does not fit (cli/xsum_bench.c:286, 305, 315) *)
Definition to_unsigned (x : dbl) : res Z :=
  match x with Fin n d => let q := Z.quot n d in if (0 <=? q) && (q <? 2 ^ 32) then OK q else UB | _ => UB end.
(** [if (nbh_perSecond > (double)(4000U<<20)) nbh_perSecond = (double)(4000U<<20); nbh_perIteration = (XSUM_U32)nbh_perSecond]: cli/xsum_bench.c:284-286, 303-305 *)
Definition LIMIT : Z := 4000 * 2 ^ 20.
Definition perSecond (x : dbl) : res Z :=
  let nbh_perSecond := plus1 (inverse x) in
  to_unsigned (if lt (Fin LIMIT 1) nbh_perSecond then Fin LIMIT 1 else nbh_perSecond).

(** the variables of the loop, with the numbers of calls and of ticks of the rounds made so far (cli/xsum_bench.c:231-233) *)
Record timing := Timing { iterationNb : Z; nbh_perIteration : Z; fastestH : dbl; made : list (Z * Z) }.
(** one round: cli/xsum_bench.c:238-306.  [ticks j n]: the ticks that the [j]-th round takes, with [n] calls of the hash.  The increment of iterationNb
    (238) is the last step here; [iterationNb--] and [continue] (290-291) leave the variable as it was. *)
Definition round (T g_nbIterations : Z) (ticks : nat -> Z -> Z) (s : timing) : res timing :=
  let nbh := nbh_perIteration s in
  let nbTicks := ticks (List.length (made s)) nbh in
  let made := made s ++ [(nbh, nbTicks)] in
  let t := ticksPerHash T nbTicks nbh in
  let TIMELOOP_MIN := T / 2 in                                 (* cli/xsum_bench.c:45 *)
  let! nbh := if nbTicks <? TIMELOOP_MIN then if nbTicks =? 0 then OK (u32 (nbh * 100)) else perSecond t else OK nbh in
  if (nbTicks <? TIMELOOP_MIN) && (0 <? g_nbIterations) then OK (Timing (iterationNb s) nbh (fastestH s) made)
  else
    let fastestH := if lt t (fastestH s) then t else fastestH s in
    let! nbh := perSecond fastestH in
    let! _ := assert_ (iterationNb s <? 2 ^ 31 - 1) in         (* int overflow: 238 *)
    OK (Timing (iterationNb s + 1) nbh fastestH made).
(** XSUM_benchHash: cli/xsum_bench.c:228-316; the rounds, the shortest time of a call, and the number printed when XSUM_logLevel<1 (314-315) *)
Definition benchRounds (fuel : nat) (T g_nbIterations logLevel : Z) (ticks : nat -> Z -> Z) (first : Z) : res (list (Z * Z) * dbl * option Z) :=
  let nbIterations := g_nbIterations + (if g_nbIterations =? 0 then 1 else 0) in
  let! s := while_ fuel (fun s => iterationNb s <=? nbIterations) (round T g_nbIterations ticks) (Timing 1 first (Fin 100000000 1) []) in
  let! shown := if logLevel <? 1 then let! n := to_unsigned (inverse (fastestH s)) in OK (Some n) else OK None in
  OK (made s, fastestH s, shown).
(** nbh_perIteration before the loop: cli/xsum_bench.c:231 *)
Definition firstRound (c : cfg) (bufferSize : Z) : res Z :=
  if usz c (bufferSize + 1) =? 0 then UB else OK (u32 (u32 (SPEED_TARGET * MB / usz c (bufferSize + 1)) + 1)).
