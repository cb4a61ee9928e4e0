(** Proofs about the program benchHash (M_BenchHash.v) *)
From Verif Require Import Base Mem P_Base Spec32 Spec64 Spec3 M_XXH32 M_XXH64 M_XXH3 M_Long M_Util M_Cli M_BenchFn M_BenchHash P_BenchFn P_BenchFn2 Properties1 Properties2.
Import BF BH.

(** ** Specification *)
(** a call on [n] bytes takes at least one nanosecond and at most one millisecond plus ten nanoseconds per byte *)
Definition longest (n : Z) : Z := 1000000 + 10 * n.
Record ambient_ok (a : ambient) : Prop := {
  ao_tick : forall k n, 0 <= n -> 1 <= a_tick a k n <= longest n;
  ao_fresh : forall n, 0 <= n -> zlen (a_fresh a n) = n }.
(** what a function of the table does on readable bytes *)
Definition measured (c : cfg) (f : benchFn) : Prop := forall p m dst cap w, points_to p m -> bytes_ok m -> 1 <= zlen m < 2 ^ 31 ->
  exists w' r, f p (zlen m) dst cap w = OK (w', r) /\ w_clock w + 1 <= w_clock w' <= w_clock w + longest (zlen m).

(** the buffer: byte [s] is the top byte of k2 * k1^(s+1) *)
Definition bench_byte (s : nat) : Z := (14029467366897019727 * 11400714785074694791 ^ (Z.of_nat s + 1)) mod 2 ^ 64 / 2 ^ 56.
Definition bench_buffer (n : Z) : list Z := map bench_byte (seq 0 (Z.to_nat n)).

Lemma bench_buffer_len n : 0 <= n -> zlen (bench_buffer n) = n.
Proof. intros N. unfold bench_buffer, zlen. rewrite map_length, seq_length. lia. Qed.
Lemma bench_buffer_bytes n : bytes_ok (bench_buffer n).
Proof.
  apply Forall_forall. intros x I. apply in_map_iff in I. destruct I as (s & <- & _). unfold bench_byte, byte_ok.
  pose proof (Z.mod_pos_bound (14029467366897019727 * 11400714785074694791 ^ (Z.of_nat s + 1)) (2 ^ 64) ltac:(lia)) as B. split; [apply Z.div_pos; lia|]. apply Z.div_lt_upper_bound; lia.
Qed.

Lemma init_loop m : forall k b, (m + k = length b)%nat ->
  for_ m (Z.of_nat k) (fun s '(p, acc) => let acc := mul64 acc 11400714785074694791 in let! p := store p s [shr acc 56] in OK (p, acc))
    (map bench_byte (seq 0 k) ++ skipn k b, (14029467366897019727 * 11400714785074694791 ^ Z.of_nat k) mod 2 ^ 64) =
  OK (map bench_byte (seq 0 (k + m)), (14029467366897019727 * 11400714785074694791 ^ Z.of_nat (k + m)) mod 2 ^ 64).
Proof.
  induction m as [|m IH]; intros k b L.
  - cbn [for_]. rewrite Nat.add_0_r, skipn_all2 by lia. rewrite app_nil_r. reflexivity.
  - cbn [for_]. set (d := map bench_byte (seq 0 k)). assert (LD : length d = k) by (unfold d; rewrite map_length, seq_length; reflexivity).
    assert (EA : mul64 ((14029467366897019727 * 11400714785074694791 ^ Z.of_nat k) mod 2 ^ 64) 11400714785074694791 = (14029467366897019727 * 11400714785074694791 ^ Z.of_nat (S k)) mod 2 ^ 64).
    { unfold mul64, u64. rewrite Z.mul_mod_idemp_l by lia. rewrite Nat2Z.inj_succ, Z.pow_succ_r by lia. f_equal. ring. }
    cbv zeta. rewrite EA.
    assert (EB : shr ((14029467366897019727 * 11400714785074694791 ^ Z.of_nat (S k)) mod 2 ^ 64) 56 = bench_byte k).
    { unfold shr, bench_byte. rewrite Z.shiftr_div_pow2 by lia. do 4 f_equal. lia. }
    rewrite EB. pose proof (written_store b d (bench_byte k) ltac:(lia)) as WS. unfold zlen in WS. rewrite LD in WS. rewrite WS. cbn [bind]. assert (ED : d ++ [bench_byte k] = map bench_byte (seq 0 (S k))) by (rewrite seq_S, map_app; reflexivity). rewrite ED, map_length, seq_length.
    replace (Z.of_nat k + 1) with (Z.of_nat (S k)) by lia. rewrite IH by lia. replace (S k + m)%nat with (k + S m)%nat by lia. reflexivity.
Qed.
Lemma initBuffer_ok b n : zlen b = n -> 0 <= n -> initBuffer b n = OK (bench_buffer n).
Proof.
  intros L N. unfold initBuffer. pose proof (init_loop (Z.to_nat n) 0 b) as E. unfold zlen in L. specialize (E ltac:(lia)).
  change (Z.of_nat 0) with 0 in E. cbn [seq map app skipn] in E. change (11400714785074694791 ^ 0) with 1 in E. rewrite Z.mul_1_r in E.
  change (14029467366897019727 mod 2 ^ 64) with 14029467366897019727 in E. rewrite E. reflexivity.
Qed.

Section BH.
Context (c : cfg) (C : cfg_ok c) (a : ambient) (A : ambient_ok a).

Lemma sz32 x : x < 2 ^ 32 -> x < 2 ^ szbits c.
Proof. intros L. destruct (ok_sz c C) as [-> | ->]; lia. Qed.
Lemma usz_id x : 0 <= x < 2 ^ 32 -> usz c x = x.
Proof. intros B. unfold usz. apply Z.mod_small. split; [lia|]. apply sz32. lia. Qed.

(** the functions of the table *)
Lemma timed_measured h : (forall p m, points_to p m -> bytes_ok m -> zlen m < 2 ^ 31 -> exists r, h p (zlen m) = OK r) -> measured c (timed_call c a h).
Proof.
  intros H p m dst cap w P B L. destruct (H p m P B ltac:(lia)) as (r & E). unfold timed_call. rewrite E. cbn [bind]. do 2 eexists. split; [reflexivity|]. cbn [w_clock].
  pose proof (ao_tick a A (w_calls w) (zlen m) ltac:(lia)). lia.
Qed.
Lemma table_measured name f : In (name, f) (hashCandidates c a) -> measured c f.
Proof.
  unfold hashCandidates. cbn [In]. intros [E|[E|[E|[E|[]]]]]; injection E as _ <-; apply timed_measured; intros p m P B L.
  - eexists. apply C03_xxh3_64_equals_spec; assumption.
  - eexists. apply C01_xxh32_equals_spec; trivial. apply sz32. lia.
  - eexists. apply C02_xxh64_equals_spec; trivial. apply sz32. lia.
  - rewrite C04_xxh3_128_equals_spec by assumption. cbn [bind]. eexists. reflexivity.
Qed.

(** the sizes selected *)
Definition in_range (size : Z) (random : bool) (s : Z) : Prop := if random then 1 <= s <= size else s = size.
Lemma sizes_ok (random : bool) size : 1 <= size < 2 ^ 31 -> forall n i (w : world) (l : list Z), exists w' l', for_ n i (fun (_ : Z) '((w, l) : world * list Z) => let! (w, s) := (if random then rand_1_N c a else identity) size (w : world) in OK (w, l ++ [s])) (w, l) = OK (w', l ++ l') /\
  length l' = n /\ Forall (in_range size random) l' /\ w_clock w' = w_clock w.
Proof.
  intros S. induction n as [|n IH]; intros i w l.
  - exists w, []. rewrite app_nil_r. repeat split. constructor.
  - cbn [for_].
    assert (X : exists w1 s, (if random then rand_1_N c a else identity) size w = OK (w1, s) /\ in_range size random s /\ w_clock w1 = w_clock w).
    { destruct random.
      - unfold rand_1_N. replace (size =? 0) with false by lia. do 2 eexists. split; [reflexivity|]. split; [|reflexivity].
        pose proof (Z.mod_pos_bound (usz c (a_rand a (w_seed w) (w_rands w))) size ltac:(lia)). cbn [in_range]. rewrite usz_id by lia. lia.
      - exists w, size. repeat split. }
    destruct X as (w1 & s & E & R & CL). rewrite E. cbn [bind]. destruct (IH (i + 1) w1 (l ++ [s])) as (w2 & l2 & E2 & L2 & F2 & C2).
    exists w2, (s :: l2). rewrite E2, <- app_assoc. repeat split; [cbn; lia|constructor; assumption|lia].
Qed.

Lemma nth_repeat {X} (x : X) n i : (i < n)%nat -> nth_error (repeat x n) i = Some x.
Proof. revert i. induction n as [|n IH]; intros [|i] L; try lia; [reflexivity|]. cbn. apply IH. lia. Qed.

(** a region of the buffer *)
Lemma latency_measured f p m size w dst cap s : measured c f -> points_to p m -> bytes_ok m -> zlen m = size + 1024 -> 1 <= s <= size -> size < 2 ^ 31 ->
  exists w' r, benchLatency f p s dst cap w = OK (w', r) /\ w_clock w + 1 <= w_clock w' <= w_clock w + longest size.
Proof.
  intros H P B L S SZ. unfold benchLatency. set (k := Z.land (w_hash w) START_MASK).
  assert (K : 0 <= k <= 1023). { unfold k, START_MASK, MARGIN_FOR_LATENCY. change (1024 - 1) with (Z.ones 10). rewrite Z.land_ones by lia. pose proof (Z.mod_pos_bound (w_hash w) (2 ^ 10) ltac:(lia)). lia. }
  clearbody k. pose proof (points_to_sub p m k s P ltac:(lia) ltac:(lia) ltac:(lia)) as PS.
  assert (LS : zlen (zslice m k s) = s) by (apply zlen_zslice; lia).
  destruct (H _ _ dst cap w PS (bytes_ok_zslice m k s B) ltac:(lia)) as (w' & r & E & CL). rewrite LS in E, CL. rewrite E. cbn [bind]. do 2 eexists. split; [reflexivity|]. cbn [w_clock]. unfold longest in *. lia.
Qed.
Lemma throughput_measured f p m size w dst cap s : measured c f -> points_to p m -> bytes_ok m -> zlen m = size + 1024 -> 1 <= s <= size -> size < 2 ^ 31 ->
  exists w' r, f p s dst cap w = OK (w', r) /\ w_clock w + 1 <= w_clock w' <= w_clock w + longest size.
Proof.
  intros H P B L S SZ. pose proof (points_to_sub p m 0 s P ltac:(lia) ltac:(lia) ltac:(lia)) as PS. replace (padd p 0) with p in PS by (destruct p; cbn; [reflexivity|f_equal; lia]).
  assert (LS : zlen (zslice m 0 s) = s) by (apply zlen_zslice; lia).
  destruct (H _ _ dst cap w PS (bytes_ok_zslice m 0 s B) ltac:(lia)) as (w' & r & E & CL). rewrite LS in E, CL. exists w', r. split; [exact E|]. unfold longest in *. lia.
Qed.

Definition blocks_per_round (size : Z) : Z := Z.min 1000 (200000 / size + 1).
Lemma blocks_bound size : 1 <= size -> 1 <= blocks_per_round size <= 1000 /\ blocks_per_round size * longest size <= 1002000000 + 10 * size.
Proof.
  intros S. unfold blocks_per_round, longest. assert (Q : 0 <= 200000 / size) by (apply Z.div_pos; lia). pose proof (Z.mul_div_le 200000 size ltac:(lia)) as M. set (q := 200000 / size) in *. clearbody q.
  assert (N : 1 <= Z.min 1000 (q + 1) <= 1000) by lia. split; [exact N|]. assert (N2 : Z.min 1000 (q + 1) <= q + 1) by lia. set (n := Z.min 1000 (q + 1)) in *. clearbody n. nia.
Qed.

(** bench_hash ends, reads inside its buffer and reports a run of at least half the interval *)
Lemma bench_hash_ok f (latency : bool) size (random : bool) total iter w fuel : measured c f -> 1 <= size < 2 ^ 31 -> 1 <= iter <= total -> total < 2 ^ 32 -> iter <= 4294 -> total <= 100 * iter -> 0 <= w_clock w ->
  (iter * 1000000 + 1) * (1002000000 + 10 * size) < 2 ^ 63 -> (1300 <= fuel)%nat ->
  exists w' rt, bench_hash c a fuel f latency size random total iter w = OK (w', (rt, blocks_per_round size)) /\ 0 <= w_clock w' /\ 1 <= rt_loops rt /\ iter * 500000 <= rt_ns rt.
Proof.
  intros H S IT TT I4 RT W0 SH FU. unfold bench_hash. replace (size =? 0) with false by lia. destruct (blocks_bound size ltac:(lia)) as (NB & NL).
  assert (Q : 0 <= 200000 / size <= 200000) by (split; [apply Z.div_pos; lia|apply Z.div_le_upper_bound; lia]).
  rewrite (usz_id (200000 / size + 1)) by lia. replace (if 1000 <? 200000 / size + 1 then 1000 else 200000 / size + 1) with (blocks_per_round size) by (unfold blocks_per_round; destruct (Z.ltb_spec 1000 (200000 / size + 1)); lia).
  set (nb := blocks_per_round size) in *. clearbody nb. unfold bench_hash_internal.
  rewrite (usz_id (size + MARGIN_FOR_LATENCY)) by (unfold MARGIN_FOR_LATENCY; lia). unfold MARGIN_FOR_LATENCY.
  rewrite initBuffer_ok by (try apply (ao_fresh a A); lia). cbn [bind]. set (src := Ptr (bench_buffer (size + 1024)) (a_addr a (size + 1024)) 0).
  replace (nb <? 1024) with true by lia. replace (0 <? size) with true by lia. cbn [assert_ bind].
  destruct (sizes_ok random size ltac:(lia) (Z.to_nat nb) 0 w []) as (w1 & l & E & L & F & CL). cbn [app] in E. rewrite E. cbn [bind].
  set (dst := Ptr (repeat 0 32) 0 0). set (hf := if latency then benchLatency f else f).
  set (p := Params hf None None nb (repeat src (Z.to_nat nb)) l (repeat dst (Z.to_nat nb)) (repeat 32 (Z.to_nat nb))).
  set (bl := map (fun s => Block src s dst 32) l).
  assert (P : points_to src (bench_buffer (size + 1024))).
  { unfold src. pose proof (points_to_intro [] (bench_buffer (size + 1024)) [] (a_addr a (size + 1024))) as Q1. cbn [app] in Q1. rewrite app_nil_r in Q1. exact Q1. }
  assert (D : describes p bl).
  { split; [cbn [p_blockCount p]; unfold bl, zlen; rewrite map_length; lia|]. intros i b N. unfold bl in N. rewrite nth_error_map in N. destruct (nth_error l i) as [s|] eqn:EN; [|discriminate]. injection N as <-.
    assert (LI : (i < Z.to_nat nb)%nat) by (rewrite <- L; apply nth_error_Some; congruence). cbn [p_srcBuffers p_srcSizes p_dstBuffers p_dstCapacities p b_src b_size b_dst b_cap].
    rewrite !nth_repeat by exact LI. repeat split; trivial. }
  assert (ZB : zlen bl = nb) by (unfold bl, zlen; rewrite map_length; lia).
  assert (T : timely benv p bl (fun w => 0 <= w_clock w) w_clock (longest size) 0).
  { constructor.
    - intros w' W'. cbn [e_getTime benv]. split; [exact W'|]. split; [lia|]. unfold reading, nanos. cbn [fst snd]. pose proof (Z.div_mod (w_clock w') 1000000000 ltac:(lia)). pose proof (Z.mod_pos_bound (w_clock w') 1000000000 ltac:(lia)). lia.
    - intros w' b W' IB. unfold bl in IB. apply in_map_iff in IB. destruct IB as (s & <- & _). exists w'. split; [exact W'|reflexivity].
    - intros w' W'. cbn [started p p_initFn]. split; [exact W'|lia].
    - intros w' b W' IB. unfold bl in IB. apply in_map_iff in IB. destruct IB as (s & <- & IS). cbn [p_benchFn p b_src b_size b_dst b_cap].
      assert (SR : 1 <= s <= size). { rewrite Forall_forall in F. specialize (F s IS). unfold in_range in F. destruct random; lia. }
      assert (X : exists w2 r, hf src s dst 32 w' = OK (w2, r) /\ w_clock w' + 1 <= w_clock w2 <= w_clock w' + longest size).
      { unfold hf. destruct latency; [apply (latency_measured f src (bench_buffer (size + 1024)))|apply (throughput_measured f src (bench_buffer (size + 1024)))]; trivial; try apply bench_buffer_bytes; try (apply bench_buffer_len; lia); lia. }
      destruct X as (w2 & r & E2 & C2). exists w2, r. split; [exact E2|]. split; [lia|]. split; [exact C2|]. exact Logic.I. }
  destruct (whole_session c benv p bl _ w_clock (longest size) 0 T D ltac:(lia) total iter w1 None (Valid (RunTime 0 1 0)) fuel) as (w2 & br & rt & t & ES & W2 & _ & _ & R1 & R2); try lia; try exact Logic.I.
  - destruct (reset_ok c total iter ltac:(lia) ltac:(lia)) as (T0 & R0 & -> & ET & ER). cbn [t_run]. replace R0 with iter by lia. rewrite ZB. clear - SH NL IT. nia.
  - destruct (reset_ok c total iter ltac:(lia) ltac:(lia)) as (T0 & R0 & -> & ET & ER). cbn [t_run t_budget]. replace R0 with iter by lia. replace T0 with total by lia. rewrite Z.div_mul_cancel_r by lia. rewrite ZB.
    assert (total / iter <= 100) by (apply Z.div_le_upper_bound; lia). lia.
  - rewrite ES. cbn [bind extract_runTime].
    destruct (reset_ok c total iter ltac:(lia) ltac:(lia)) as (T0 & R0 & ERS & ET & ER). rewrite ERS in R2. cbn [t_run] in R2. replace R0 with iter in R2 by lia.
    replace (iter * 1000000) with (iter * 500000 * 2) in R2 by lia. rewrite Z.div_mul in R2 by lia.
    replace (rt_ns rt =? 0) with false by lia. cbn [negb assert_ bind]. exists w2, rt. repeat split; trivial.
Qed.
End BH.
