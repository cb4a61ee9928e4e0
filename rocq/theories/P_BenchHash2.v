(** The tables of benchHash and its command line (M_BenchHash.v) *)
From Coq Require Import String.
From Verif Require Import Base Mem P_Base M_Cli M_BenchFn M_BenchHash SpecColl P_BenchFn P_BenchFn2 P_BenchHash.
Import BF BH.

(** ** Specification *)
Definition zrange (lo hi : Z) : list Z := map (fun i => lo + Z.of_nat i) (seq 0 (Z.to_nat (hi - lo + 1))).
(** what a line shows, without the measurements *)
Definition shape (r : row) : table * list Z * list Z := (r_table r, r_name r, map fst (r_cells r)).
(** a measurement that makes sense: a positive time, over at least one pass, with the number of blocks its size asks for *)
Definition sound (cell : Z * (runTime * Z)) : Prop := 1 <= rt_loops (fst (snd cell)) /\ 0 < rt_ns (fst (snd cell)) /\ snd (snd cell) = blocks_per_round (fst cell).
(** the lines the settings ask for, in the order of the program: the table of large inputs, then the four of small ones, each with
    one line for every hash selected *)
Definition selected (names : list (list Z)) (s : settings) : list (list Z) := firstn (Z.to_nat (s_nb_h_test s)) (skipn (Z.to_nat (s_hashNb s)) names).
Definition lines (names : list (list Z)) (s : settings) : list (table * list Z * list Z) :=
  (if s_log_min s <=? s_log_max s then map (fun n => (LargeInput, n, map (fun k => 2 ^ k) (zrange (s_log_min s) (s_log_max s)))) (selected names s) else []) ++
  (if s_size_min s <=? s_size_max s then flat_map (fun t => map (fun n => (t, n, zrange (s_size_min s) (s_size_max s))) (selected names s)) [ThroughputSmall; ThroughputRandom; LatencySmall; LatencyRandom] else []).
(** the letters after a number and the power of 1024 they stand for *)
Definition int_suffixes : list (list Z * Z) := [([], 0); ([75], 1); ([75; 66], 1); ([75; 105], 1); ([75; 105; 66], 1); ([77], 2); ([77; 66], 2); ([77; 105], 2); ([77; 105; 66], 2)].

Lemma In_firstn' {T} (x : T) n : forall l, In x (firstn n l) -> In x l.
Proof. induction n as [|n IH]; intros [|y l] H; cbn in *; try tauto. destruct H as [H|H]; [left; exact H|right; apply IH; exact H]. Qed.
Lemma In_skipn' {T} (x : T) n : forall l, In x (skipn n l) -> In x l.
Proof. induction n as [|n IH]; intros [|y l] H; cbn in *; try tauto. right; apply IH; exact H. Qed.

Section Rows.
Context (c : cfg) (C : cfg_ok c) (a : ambient) (A : ambient_ok a) (fuel : nat) (FU : (1300 <= fuel)%nat).

Lemma cells_ok body (good : Z -> Prop) (sz : Z -> Z) :
  (forall s w cells, good s -> 0 <= w_clock w -> exists w' x, body s (w, cells) = OK (w', cells ++ [(sz s, x)]) /\ 0 <= w_clock w' /\ sound (sz s, x)) ->
  forall n lo (w : world) (cells : list (Z * (runTime * Z))), (forall i, (i < n)%nat -> good (lo + Z.of_nat i)) -> 0 <= w_clock w ->
  exists w' l, for_ n lo body (w, cells) = OK (w', cells ++ l) /\ 0 <= w_clock w' /\ map fst l = map sz (map (fun i => lo + Z.of_nat i) (seq 0 n)) /\ Forall sound l.
Proof.
  intros H. induction n as [|n IH]; intros lo w cells G W.
  - exists w, []. rewrite app_nil_r. repeat split; [exact W|constructor].
  - cbn [for_]. assert (G0 : good lo) by (specialize (G O ltac:(lia)); rewrite Z.add_0_r in G; exact G).
    destruct (H lo w cells G0 W) as (w1 & x & E & W1 & S1). rewrite E. cbn [bind].
    destruct (IH (lo + 1) w1 (cells ++ [(sz lo, x)])) as (w2 & l & E2 & W2 & M & F); trivial.
    { intros i L. replace (lo + 1 + Z.of_nat i) with (lo + Z.of_nat (S i)) by lia. apply G. lia. }
    exists w2, ((sz lo, x) :: l). rewrite E2, <- app_assoc. split; [reflexivity|]. split; [exact W2|]. split; [|constructor; assumption].
    cbn [map fst seq]. rewrite Z.add_0_r. f_equal. rewrite M. rewrite <- seq_shift, !map_map. apply map_ext. intros i. f_equal. lia.
Qed.

Lemma small_ok t latency random h lo hi w : measured c (snd h) -> 1 <= lo <= hi -> hi < 2 ^ 31 -> 0 <= w_clock w ->
  exists w' r, oneHash_small c a fuel t latency random h lo hi w = OK (w', r) /\ 0 <= w_clock w' /\ shape r = (t, fst h, zrange lo hi) /\ Forall sound (r_cells r).
Proof.
  intros H L HI W. unfold oneHash_small. rewrite (usz_id c C) by lia.
  destruct (cells_ok (fun s '(w, cells) => let w := if random then srand s w else w in let! (w, nbhps) := bench_hash c a fuel (snd h) latency s random 490 170 w in OK (w, cells ++ [(s, nbhps)]))
    (fun s => 1 <= s < 2 ^ 31) (fun s => s)) with (n := Z.to_nat (hi + 1 - lo)) (lo := lo) (w := w) (cells := @nil (Z * (runTime * Z))) as (w' & l & E & W' & M & F).
  - intros s w0 cells S W0. set (w1 := if random then srand s w0 else w0). assert (W1 : 0 <= w_clock w1) by (unfold w1; destruct random; exact W0).
    destruct (bench_hash_ok c C a A (snd h) latency s random 490 170 w1 fuel H ltac:(lia) ltac:(lia) ltac:(lia) ltac:(lia) ltac:(lia) W1 ltac:(lia) FU) as (w2 & rt & E & W2 & R1 & R2).
    cbv zeta. rewrite E. cbn [bind]. exists w2, (rt, blocks_per_round s). split; [reflexivity|]. split; [exact W2|]. unfold sound. cbn [fst snd]. lia.
  - intros i LI. lia.
  - exact W.
  - cbn [app] in E. rewrite E. cbn [bind]. do 2 eexists. split; [reflexivity|]. split; [exact W'|]. split; [|exact F]. unfold shape. cbn [r_table r_name r_cells]. rewrite M. rewrite map_id. unfold zrange. replace (hi - lo + 1) with (hi + 1 - lo) by lia. reflexivity.
Qed.
Lemma large_ok h lo hi w : measured c (snd h) -> 0 <= lo <= hi -> hi < 31 -> 0 <= w_clock w ->
  exists w' r, oneHash_largeInput c a fuel h lo hi w = OK (w', r) /\ 0 <= w_clock w' /\ shape r = (LargeInput, fst h, map (fun k => 2 ^ k) (zrange lo hi)) /\ Forall sound (r_cells r).
Proof.
  intros H L HI W. unfold oneHash_largeInput.
  destruct (cells_ok (fun sizelog '(w, cells) => let inputSize := usz c (Z.shiftl 1 sizelog) in let! (w, nbhps) := bench_hash c a fuel (snd h) false inputSize false 1010 490 w in OK (w, cells ++ [(inputSize, nbhps)]))
    (fun s => 0 <= s <= 30) (fun s => 2 ^ s)) with (n := Z.to_nat (hi + 1 - lo)) (lo := lo) (w := w) (cells := @nil (Z * (runTime * Z))) as (w' & l & E & W' & M & F).
  - intros s w0 cells S W0. cbv zeta. assert (P : 1 <= 2 ^ s <= 2 ^ 30) by (split; [apply (Z.pow_le_mono_r 2 0 s); lia|apply Z.pow_le_mono_r; lia]).
    rewrite Z.shiftl_mul_pow2, Z.mul_1_l by lia. rewrite (usz_id c C) by lia.
    destruct (bench_hash_ok c C a A (snd h) false (2 ^ s) false 1010 490 w0 fuel H ltac:(lia) ltac:(lia) ltac:(lia) ltac:(lia) ltac:(lia) W0 ltac:(lia) FU) as (w2 & rt & E & W2 & R1 & R2).
    rewrite E. cbn [bind]. exists w2, (rt, blocks_per_round (2 ^ s)). split; [reflexivity|]. split; [exact W2|]. unfold sound. cbn [fst snd]. lia.
  - intros i LI. lia.
  - exact W.
  - cbn [app] in E. rewrite E. cbn [bind]. do 2 eexists. split; [reflexivity|]. split; [exact W'|]. split; [|exact F]. unfold shape. cbn [r_table r_name r_cells]. rewrite M. unfold zrange. replace (hi - lo + 1) with (hi + 1 - lo) by lia. reflexivity.
Qed.

Lemma hashes_ok (f : list Z * benchFn -> world -> res (world * row)) (sh : list Z -> table * list Z * list Z) n : forall k (tab : list (list Z * benchFn)) w rows,
  (forall h w, In h (firstn n (skipn k tab)) -> 0 <= w_clock w -> exists w' r, f h w = OK (w', r) /\ 0 <= w_clock w' /\ shape r = sh (fst h) /\ Forall sound (r_cells r)) ->
  (k + n <= length tab)%nat -> 0 <= w_clock w ->
  exists w' l, for_ n (Z.of_nat k) (fun i '(w, rows) => let! h := at_ tab i in let! (w, r) := f h w in OK (w, rows ++ [r])) (w, rows) = OK (w', rows ++ l) /\ 0 <= w_clock w' /\
  map shape l = map sh (map fst (firstn n (skipn k tab))) /\ Forall (fun r => Forall sound (r_cells r)) l.
Proof.
  induction n as [|n IH]; intros k tab w rows H L W.
  - exists w, []. rewrite app_nil_r. repeat split; [exact W|constructor].
  - cbn [for_]. destruct (nth_error tab k) as [h|] eqn:EN; [|apply nth_error_None in EN; lia]. rewrite (at_ok _ _ _ EN). cbn [bind].
    assert (SK : skipn k tab = h :: skipn (S k) tab) by (revert EN; clear; revert k; induction tab as [|x tab IHt]; intros [|k] EN; try discriminate; [injection EN as ->; reflexivity|]; cbn [nth_error] in EN; cbn [skipn]; apply IHt; exact EN).
    rewrite SK in *. cbn [firstn] in H |- *. destruct (H h w (or_introl eq_refl) W) as (w1 & r & E & W1 & SH & SO). rewrite E. cbn [bind].
    destruct (IH (S k) tab w1 (rows ++ [r])) as (w2 & l & E2 & W2 & M & F); trivial; [|lia|].
    { intros h' w' IN W'. apply H; [right; exact IN|exact W']. }
    exists w2, (r :: l). replace (Z.of_nat k + 1) with (Z.of_nat (S k)) by lia. rewrite E2, <- app_assoc. split; [reflexivity|]. split; [exact W2|]. split; [|constructor; assumption]. cbn [map]. rewrite M, SH. reflexivity.
Qed.

Lemma all_hashes_ok f sh tab n w rows :
  (forall h w, In h (firstn (Z.to_nat n) tab) -> 0 <= w_clock w -> exists w' r, f h w = OK (w', r) /\ 0 <= w_clock w' /\ shape r = sh (fst h) /\ Forall sound (r_cells r)) ->
  0 <= n <= zlen tab -> 0 <= w_clock w ->
  exists w' l, all_hashes tab n f (w, rows) = OK (w', rows ++ l) /\ 0 <= w_clock w' /\ map shape l = map sh (firstn (Z.to_nat n) (map fst tab)) /\ Forall (fun r => Forall sound (r_cells r)) l.
Proof.
  intros H N W. unfold zlen in N. destruct (hashes_ok f sh (Z.to_nat n) 0 tab w rows H ltac:(lia) W) as (w' & l & E & W' & M & F). exists w', l. unfold all_hashes. cbn [skipn] in M. rewrite firstn_map. split; [exact E|]. split; [exact W'|]. split; [exact M|exact F].
Qed.

(** ** The settings that can be benchmarked *)
Definition runnable (s : settings) : Prop :=
  0 <= s_hashNb s /\ 0 <= s_nb_h_test s /\ s_hashNb s + s_nb_h_test s <= NB_HASHES /\
  (s_log_min s <= s_log_max s -> 0 <= s_log_min s /\ s_log_max s < 31) /\
  (1 <= s_nb_h_test s -> s_size_min s <= s_size_max s -> 1 <= s_size_min s /\ s_size_max s < 2 ^ 31).

Lemma run_ok s w : runnable s -> 0 <= w_clock w ->
  exists w' rows, run_benchmarks c a fuel s w = OK (w', 0, rows) /\ map shape rows = lines (map fst (hashCandidates c a)) s /\ Forall (fun r => Forall sound (r_cells r)) rows.
Proof.
  intros (H0 & N0 & HN & LG & SM) W. unfold run_benchmarks, NB_HASHES in *. unfold s32. replace ((- 2 ^ 31 <=? s_hashNb s + s_nb_h_test s) && (s_hashNb s + s_nb_h_test s <? 2 ^ 31)) with true by lia. cbn [bind].
  replace (4 <? s_hashNb s + s_nb_h_test s) with false by lia. set (tab := skipn (Z.to_nat (s_hashNb s)) (hashCandidates c a)).
  assert (TL : zlen tab = 4 - s_hashNb s) by (unfold tab, zlen; rewrite skipn_length; cbn [length hashCandidates]; lia).
  assert (TN : map fst tab = skipn (Z.to_nat (s_hashNb s)) (map fst (hashCandidates c a))) by (unfold tab; rewrite skipn_map; reflexivity).
  assert (ME : forall h, In h (firstn (Z.to_nat (s_nb_h_test s)) tab) -> measured c (snd h)).
  { intros [nm f] IN. apply (table_measured c C a A nm f). apply In_firstn' in IN. unfold tab in IN. apply In_skipn' in IN. exact IN. }
  assert (LA : exists w1 l1, (if s_log_min s <=? s_log_max s then bench_largeInput c a fuel tab (s_nb_h_test s) (s_log_min s) (s_log_max s) (w, []) else OK (Some (w, []))) = OK (Some (w1, l1)) /\ 0 <= w_clock w1 /\
    map shape l1 = (if s_log_min s <=? s_log_max s then map (fun n => (LargeInput, n, map (fun k => 2 ^ k) (zrange (s_log_min s) (s_log_max s)))) (selected (map fst (hashCandidates c a)) s) else []) /\ Forall (fun r => Forall sound (r_cells r)) l1).
  { destruct (Z.leb_spec (s_log_min s) (s_log_max s)) as [LL|LL]; [|exists w, []; repeat split; [exact W|constructor]].
    destruct (LG LL) as (L0 & L1). unfold bench_largeInput. replace (s_log_max s <? 31) with true by lia. replace (0 <=? s_log_min s) with true by lia. cbn [negb].
    destruct (all_hashes_ok (fun h w => oneHash_largeInput c a fuel h (s_log_min s) (s_log_max s) w) (fun n => (LargeInput, n, map (fun k => 2 ^ k) (zrange (s_log_min s) (s_log_max s)))) tab (s_nb_h_test s) w []) as (w1 & l1 & E & W1 & M & F); [|lia|exact W|].
    - intros h w' IN W'. apply large_ok; trivial; [apply ME; exact IN|lia].
    - cbn [app] in E. rewrite E. cbn [bind]. exists w1, l1. split; [reflexivity|]. split; [exact W1|]. split; [|exact F]. rewrite M. unfold selected. rewrite <- TN. reflexivity. }
  destruct LA as (w1 & l1 & -> & W1 & M1 & F1). cbn [bind].
  assert (SA : exists w2 l2, (if s_size_min s <=? s_size_max s then
      let! st := all_hashes tab (s_nb_h_test s) (fun h => oneHash_small c a fuel ThroughputSmall false false h (s_size_min s) (s_size_max s)) (w1, l1) in
      let! st := all_hashes tab (s_nb_h_test s) (fun h => oneHash_small c a fuel ThroughputRandom false true h (s_size_min s) (s_size_max s)) st in
      let! st := all_hashes tab (s_nb_h_test s) (fun h => oneHash_small c a fuel LatencySmall true false h (s_size_min s) (s_size_max s)) st in
      all_hashes tab (s_nb_h_test s) (fun h => oneHash_small c a fuel LatencyRandom true true h (s_size_min s) (s_size_max s)) st
    else OK (w1, l1)) = OK (w2, l1 ++ l2) /\
    map shape l2 = (if s_size_min s <=? s_size_max s then flat_map (fun t => map (fun n => (t, n, zrange (s_size_min s) (s_size_max s))) (selected (map fst (hashCandidates c a)) s)) [ThroughputSmall; ThroughputRandom; LatencySmall; LatencyRandom] else []) /\
    Forall (fun r => Forall sound (r_cells r)) l2).
  { destruct (Z.leb_spec (s_size_min s) (s_size_max s)) as [LL|LL]; [|exists w1, []; rewrite app_nil_r; repeat split; constructor].
    assert (ONE : forall t latency random w rows, 0 <= w_clock w -> exists w' l, all_hashes tab (s_nb_h_test s) (fun h => oneHash_small c a fuel t latency random h (s_size_min s) (s_size_max s)) (w, rows) = OK (w', rows ++ l) /\ 0 <= w_clock w' /\
      map shape l = map (fun n => (t, n, zrange (s_size_min s) (s_size_max s))) (selected (map fst (hashCandidates c a)) s) /\ Forall (fun r => Forall sound (r_cells r)) l).
    { intros t latency random w0 rows W0.
      destruct (all_hashes_ok (fun h => oneHash_small c a fuel t latency random h (s_size_min s) (s_size_max s)) (fun n => (t, n, zrange (s_size_min s) (s_size_max s))) tab (s_nb_h_test s) w0 rows) as (w' & l & E & W' & M & F); [|lia|exact W0|].
      - intros h w' IN W'. assert (N1 : 1 <= s_nb_h_test s) by (destruct (Z.le_gt_cases 1 (s_nb_h_test s)); [assumption|]; replace (s_nb_h_test s) with 0 in IN by lia; destruct IN).
        destruct (SM N1 LL) as (L0 & L1). apply small_ok; trivial; [apply ME; exact IN|lia].
      - exists w', l. split; [exact E|]. split; [exact W'|]. split; [|exact F]. rewrite M. unfold selected. rewrite <- TN. reflexivity. }
    destruct (ONE ThroughputSmall false false w1 l1 W1) as (w2 & l2 & -> & W2 & M2 & F2). cbn [bind].
    destruct (ONE ThroughputRandom false true w2 (l1 ++ l2) W2) as (w3 & l3 & -> & W3 & M3 & F3). cbn [bind].
    destruct (ONE LatencySmall true false w3 ((l1 ++ l2) ++ l3) W3) as (w4 & l4 & -> & W4 & M4 & F4). cbn [bind].
    destruct (ONE LatencyRandom true true w4 (((l1 ++ l2) ++ l3) ++ l4) W4) as (w5 & l5 & -> & W5 & M5 & F5).
    exists w5, (l2 ++ l3 ++ l4 ++ l5). rewrite <- !app_assoc. split; [reflexivity|]. split; [|repeat (apply Forall_app; split; trivial)].
    rewrite !map_app, M2, M3, M4, M5. cbn [flat_map]. rewrite app_nil_r. reflexivity. }
  destruct SA as (w2 & l2 & -> & M2 & F2). cbn [bind]. exists w2, (l1 ++ l2). split; [reflexivity|]. split; [|apply Forall_app; split; trivial]. rewrite map_app, M1, M2. reflexivity.
Qed.
End Rows.

(** ** a size of zero *)
Lemma zero_size c a fuel t latency random h hi w : cfg_ok c -> 0 <= hi < 2 ^ 31 -> oneHash_small c a fuel t latency random h 0 hi w = UB.
Proof.
  intros C H. unfold oneHash_small. rewrite (usz_id c C) by lia. replace (Z.to_nat (hi + 1 - 0)) with (S (Z.to_nat hi)) by lia. cbn [for_].
  destruct random; cbn [bench_hash]; reflexivity.
Qed.
Lemma zero_run c (C : cfg_ok c) a (A : ambient_ok a) fuel s w : (1300 <= fuel)%nat -> 0 <= w_clock w ->
  0 <= s_hashNb s -> 1 <= s_nb_h_test s -> s_hashNb s + s_nb_h_test s <= NB_HASHES -> (s_log_min s <= s_log_max s -> 0 <= s_log_min s /\ s_log_max s < 31) ->
  s_size_min s = 0 -> 0 <= s_size_max s < 2 ^ 31 -> run_benchmarks c a fuel s w = UB.
Proof.
  intros FU W H0 N0 HN LG S0 SM. destruct s as [hn nb lmin lmax smin smax]. cbn [s_hashNb s_nb_h_test s_log_min s_log_max s_size_min s_size_max] in *.
  destruct (run_ok c C a A fuel FU (Settings hn nb lmin lmax 1 0) w) as (w1 & l1 & E & _).
  { unfold runnable. cbn. repeat split; try assumption; lia. }
  { exact W. }
  subst smin. revert E. unfold run_benchmarks. cbn [s_hashNb s_nb_h_test s_log_min s_log_max s_size_min s_size_max].
  destruct (s32 (hn + nb)) as [sum| |] eqn:ES; cbn [bind]; try discriminate. assert (sum = hn + nb) by (revert ES; unfold s32; destruct ((- 2 ^ 31 <=? hn + nb) && (hn + nb <? 2 ^ 31)); [intros E; injection E; auto|discriminate]). subst sum.
  replace (NB_HASHES <? hn + nb) with false by (unfold NB_HASHES in *; lia).
  set (L := if lmin <=? lmax then _ else _). destruct L as [[[w2 l2]|]| |]; cbn [bind]; try discriminate.
  intros _. replace (0 <=? smax) with true by lia. unfold all_hashes at 1. destruct (Z.to_nat nb) as [|n] eqn:EN; [lia|]. cbn [for_].
  assert (T : exists h, at_ (skipn (Z.to_nat hn) (hashCandidates c a)) 0 = OK h).
  { unfold NB_HASHES in HN. assert (hn = 0 \/ hn = 1 \/ hn = 2 \/ hn = 3) as [-> |[-> |[-> | ->]]] by lia; eexists; reflexivity. }
  destruct T as (h & ->). cbn [bind]. rewrite (zero_size c a fuel _ _ _ h smax w2 C SM). reflexivity.
Qed.

(** ** the number reader *)
Lemma decimal_ge ds : forall acc, 0 <= acc -> Forall (fun d => 0 <= d <= 9) ds -> acc <= decimal acc ds.
Proof. induction ds as [|d ds IH]; intros acc A F; [cbn; lia|]. inversion F; subst. cbn [decimal]. specialize (IH (10 * acc + d) ltac:(lia) H2). lia. Qed.
Lemma s32_ok x : 0 <= x < 2 ^ 31 -> s32 x = OK x.
Proof. intros H. unfold s32. replace ((- 2 ^ 31 <=? x) && (x <? 2 ^ 31)) with true by lia. reflexivity. Qed.
Lemma digits_spec ds : forall acc rest, 0 <= acc <= 2147483629 -> Forall (fun d => 0 <= d <= 9) ds -> ~ 48 <= ch rest <= 57 ->
  readDigits (map (fun d => 48 + d) ds ++ rest) acc = OK (Some (decimal acc ds, rest)) /\ 0 <= decimal acc ds <= 2147483629 \/
  readDigits (map (fun d => 48 + d) ds ++ rest) acc = OK None /\ 2147483630 <= decimal acc ds.
Proof.
  induction ds as [|d ds IH]; intros acc rest A F R.
  - left. cbn [map app decimal]. split; [|exact A]. destruct rest as [|x rest]; [reflexivity|]. cbn [readDigits ch] in *. replace ((48 <=? x) && (x <=? 57)) with false by lia. reflexivity.
  - inversion F as [|? ? D F']; subst. cbn [map app readDigits decimal]. replace ((48 <=? 48 + d) && (48 + d <=? 57)) with true by lia.
    change ((2 ^ 31 - 1) / 10 - 1) with 214748363.
    destruct (Z.ltb_spec acc 214748363) as [LT|GE]; cbn [negb].
    + rewrite s32_ok by lia. cbn [bind]. rewrite s32_ok by lia. cbn [bind]. replace (acc * 10 + (48 + d - 48)) with (10 * acc + d) by lia. apply IH; trivial. lia.
    + right. split; [reflexivity|]. pose proof (decimal_ge ds (10 * acc + d) ltac:(lia) F'). lia.
Qed.
Lemma int_spec ds sfx k rest : Forall (fun d => 0 <= d <= 9) ds -> In (sfx, k) int_suffixes -> ~ 48 <= ch rest <= 57 -> ~ In (ch rest) [75; 77; 105; 66] ->
  readIntFromChar (map (fun d => 48 + d) ds ++ sfx ++ rest) = OK (Some (1024 ^ k * decimal 0 ds, rest)) /\ 0 <= 1024 ^ k * decimal 0 ds <= 2147483629 \/
  readIntFromChar (map (fun d => 48 + d) ds ++ sfx ++ rest) = OK None /\ 2147482624 <= 1024 ^ k * decimal 0 ds.
Proof.
  intros F I R NR.
  assert (N75 : (ch rest =? 75) = false) by (apply Z.eqb_neq; intros E; apply NR; rewrite E; cbn; tauto).
  assert (N77 : (ch rest =? 77) = false) by (apply Z.eqb_neq; intros E; apply NR; rewrite E; cbn; tauto).
  assert (N105 : (ch rest =? 105) = false) by (apply Z.eqb_neq; intros E; apply NR; rewrite E; cbn; tauto).
  assert (N66 : (ch rest =? 66) = false) by (apply Z.eqb_neq; intros E; apply NR; rewrite E; cbn; tauto).
  assert (R' : ~ 48 <= ch (sfx ++ rest) <= 57).
  { cbn in I. repeat (destruct I as [I|I]; [injection I as <- <-; first [exact R|cbn; lia]|]). contradiction. }
  unfold readIntFromChar. destruct (digits_spec ds 0 (sfx ++ rest) ltac:(lia) F R') as [(-> & B)|(-> & B)]; cbn [bind].
  2:{ right. split; [reflexivity|]. assert (1 <= 1024 ^ k) by (cbn in I; repeat (destruct I as [I|I]; [injection I as <- <-; cbn; lia|]); contradiction). nia. }
  set (v := decimal 0 ds) in *. clearbody v. cbv zeta. change (shr (2 ^ 31 - 1) 10) with 2097151. change (2 ^ 10) with 1024.
  cbn in I. repeat (destruct I as [I|I]; [injection I as <- <-; cbn [app ch tl Z.eqb Pos.eqb orb andb]; rewrite ?N75, ?N77, ?N105, ?N66; cbn [orb andb]|]); [..|contradiction].
  all: try (left; split; [do 3 f_equal; lia|lia]).
  all: destruct (Z.ltb_spec v 2097151) as [L1|G1]; cbn [negb]; [|right; split; [reflexivity|lia]].
  all: rewrite s32_ok by lia; cbn [bind].
  all: try (rewrite ?N105, ?N66; left; split; [do 3 f_equal; lia|lia]).
  all: destruct (Z.ltb_spec (v * 1024) 2097151) as [L2|G2]; cbn [negb]; [|right; split; [reflexivity|lia]].
  all: rewrite s32_ok by lia; cbn [bind]; rewrite ?N105, ?N66; left; split; [do 3 f_equal; lia|lia].
Qed.
Lemma digits_any s : forall acc, 0 <= acc <= 2147483629 -> exists r, readDigits s acc = OK r /\ match r with Some (v, _) => 0 <= v <= 2147483629 | None => True end.
Proof.
  induction s as [|x s IH]; intros acc A; [eexists; split; [reflexivity|exact A]|]. cbn [readDigits]. destruct ((48 <=? x) && (x <=? 57)) eqn:EX; [|eexists; split; [reflexivity|exact A]].
  change ((2 ^ 31 - 1) / 10 - 1) with 214748363. destruct (Z.ltb_spec acc 214748363) as [LT|GE]; cbn [negb]; [|exists None; auto].
  rewrite s32_ok by lia. cbn [bind]. rewrite s32_ok by lia. cbn [bind]. apply IH. lia.
Qed.
Lemma int_any s : exists r, readIntFromChar s = OK r /\ match r with Some (v, _) => 0 <= v <= 2147483629 | None => True end.
Proof.
  unfold readIntFromChar. destruct (digits_any s 0 ltac:(lia)) as (r & -> & B). cbn [bind]. destruct r as [(v, s1)|]; [|exists None; auto].
  change (shr (2 ^ 31 - 1) 10) with 2097151. change (2 ^ 10) with 1024. cbv zeta. destruct ((ch s1 =? 75) || (ch s1 =? 77)); [|eexists; split; [reflexivity|exact B]].
  destruct (Z.ltb_spec v 2097151) as [L1|G1]; cbn [negb]; [|exists None; auto]. rewrite s32_ok by lia. cbn [bind].
  destruct (ch s1 =? 77); cbn [andb bind].
  - destruct (Z.ltb_spec (v * 1024) 2097151) as [L2|G2]; cbn [negb]; [|exists None; auto]. rewrite s32_ok by lia. cbn [bind]. eexists; split; [reflexivity|]. cbv beta iota. lia.
  - eexists; split; [reflexivity|]. cbv beta iota. lia.
Qed.

(** ** the name of a hash *)
Lemma prefix_same p : forall l, prefixb p l = true -> zlen p = zlen l -> p = l.
Proof.
  induction p as [|x p IH]; intros [|y l] H L; unfold zlen in *; cbn [length prefixb] in *; try lia; [reflexivity|].
  apply andb_prop in H. destruct H as [E H]. apply Z.eqb_eq in E. subst. f_equal. apply IH; [exact H|lia].
Qed.
Lemma prefix_self p : prefixb p p = true.
Proof. induction p as [|x p IH]; [reflexivity|]. cbn. rewrite Z.eqb_refl. exact IH. Qed.
(** the name asked for is compared in full: the first name of the table equal to it, -1 when there is none *)
Lemma hashID_from_spec names h : forall k,
  hashID_from k names h = -1 /\ ~ In h names \/
  exists i, hashID_from k names h = k + Z.of_nat i /\ nth_error names i = Some h /\ forall j, (j < i)%nat -> nth_error names j <> Some h.
Proof.
  induction names as [|n names IH]; intros k; [left; split; [reflexivity|intros []]|]. cbn [hashID_from]. unfold isCommand.
  assert (STEP : h <> n -> hashID_from (k + 1) names h = -1 /\ ~ In h (n :: names) \/
    exists i, hashID_from (k + 1) names h = k + Z.of_nat i /\ nth_error (n :: names) i = Some h /\ forall j, (j < i)%nat -> nth_error (n :: names) j <> Some h).
  { intros NE. destruct (IH (k + 1)) as [(-> & NI)|(i & -> & N & FI)].
    - left. split; [reflexivity|]. intros [H|H]; [apply NE; symmetry; exact H|exact (NI H)].
    - right. exists (S i). split; [lia|]. split; [exact N|]. intros [|j] L E; [injection E as E; apply NE; symmetry; exact E|]. apply (FI j ltac:(lia) E). }
  destruct (Z.eqb_spec (zlen h) (zlen n)) as [EL|NL]; cbn [negb].
  - destruct (prefixb n h) eqn:PF.
    + right. exists O. rewrite (prefix_same n h PF (eq_sym EL)). split; [lia|]. split; [reflexivity|]. intros j L. lia.
    + apply STEP. intros ->. rewrite prefix_self in PF. discriminate.
  - apply STEP. intros ->. apply NL. reflexivity.
Qed.

(** ** the command line *)
Definition tame (n : Z) (s : settings) : Prop :=
  0 <= s_hashNb s < n /\ 0 <= s_nb_h_test s <= 2147483629 /\ 0 <= s_log_min s <= 2147483629 /\ 0 <= s_log_max s <= 2147483629 /\ 0 <= s_size_min s <= 2147483629 /\ 0 <= s_size_max s <= 2147483629.
Lemma with_int_ok arg f : exists r, with_int arg f = OK r /\ (r = inr ABORT \/ exists v, 0 <= v <= 2147483629 /\ r = inl (f v)).
Proof. unfold with_int. destruct (int_any arg) as (r & -> & B). cbn [bind]. destruct r as [(v, s1)|]; eexists; (split; [reflexivity|]); [right; exists v; auto|left; reflexivity]. Qed.
Lemma one_arg_ok names arg s : tame (zlen names) s -> exists r, one_arg names arg s = OK r /\
  match r with inl s' => tame (zlen names) s' | inr code => code = 0 \/ code = 1 \/ code = ABORT end.
Proof.
  intros T. unfold one_arg.
  destruct (isCommand arg (str "-h")); [eexists; split; [reflexivity|]; cbn; tauto|].
  destruct (isCommand arg (str "--list")); [eexists; split; [reflexivity|]; cbn; tauto|].
  Ltac int_case := match goal with |- exists r, with_int ?arg ?f = _ /\ _ =>
    let E := fresh in let v := fresh in destruct (with_int_ok arg f) as (r & E & [->|(v & ? & ->)]); rewrite E; eexists; (split; [reflexivity|]); [cbn; tauto|unfold tame in *; cbn in *; lia] end.
  destruct (isCommand arg (str "--n=")); [int_case|].
  destruct (isCommand arg (str "--minl=")); [int_case|].
  destruct (isCommand arg (str "--maxl=")); [int_case|].
  destruct (isCommand arg (str "--mins=")); [int_case|].
  destruct (isCommand arg (str "--maxs=")); [int_case|].
  unfold hashID. destruct (hashID_from_spec names arg 0) as [(-> & _)|(i & -> & N & _)].
  - eexists; split; [reflexivity|]. cbn; tauto.
  - cbv zeta. replace (0 <=? 0 + Z.of_nat i) with true by lia. eexists; split; [reflexivity|]. assert ((i < length names)%nat) by (apply nth_error_Some; congruence). unfold tame, zlen in *. cbn [s_hashNb s_nb_h_test s_log_min s_log_max s_size_min s_size_max]. lia.
Qed.
Lemma all_args_ok names args : forall s, tame (zlen names) s -> exists r, all_args names args s = OK r /\
  match r with inl s' => tame (zlen names) s' | inr code => code = 0 \/ code = 1 \/ code = ABORT end.
Proof.
  induction args as [|arg args IH]; intros s T; [eexists; split; [reflexivity|exact T]|]. cbn [all_args].
  destruct (one_arg_ok names arg s T) as (r & -> & B). cbn [bind]. destruct r as [s'|code]; [apply IH; exact B|eexists; split; [reflexivity|exact B]].
Qed.
