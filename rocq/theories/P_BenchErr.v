(** What the benchmark of xxhsum writes to stderr. *)
From Coq Require Import String List.
From Verif Require Import Base Mem M_XXH3 M_Stream3 M_Util M_Sanity M_Cli M_Cli2 M_Bench M_BenchErr SpecCli2 SpecBench SpecBenchErr P_Base P_Sanity P_Cli3 P_Bench.

Lemma select_text c fuel malloc name size :
  (let! (n, _) := BErr.selectBenchedSize c fuel malloc name size in OK n) = selectBenchedSize c fuel malloc size.
Proof. unfold BErr.selectBenchedSize, selectBenchedSize. destruct (findMaxMem _ _ _ _); reflexivity. Qed.
Lemma erase_internal c a get said ids n : (let! (b, _) := BErr.benchInternal c a get said ids n in OK b) = benchInternal c a get ids n.
Proof. unfold BErr.benchInternal, benchInternal. destruct (get _); [|reflexivity]. destruct (benchMem _ _ _ _ _ _); reflexivity. Qed.
Lemma erase_files c a fuel malloc get strerr said ids fs : forall k acc,
  (let! (b, _) := BErr.benchFiles c a fuel malloc get strerr said ids fs k acc in OK b) = benchFiles c a fuel malloc get ids (map snd fs) k acc.
Proof.
  induction fs as [|[name f] fs IH]; intros k acc; cbn [BErr.benchFiles benchFiles map snd]; [reflexivity|].
  rewrite <- (select_text c fuel (malloc k) name (bf_size f)). destruct (BErr.selectBenchedSize _ _ _ _ _) as [[n t]| |]; [|reflexivity..]. cbn [bind].
  destruct (bf_open f) as [d|]; [|reflexivity]. destruct (get k _) as [base|]; [|reflexivity]. destruct (Mem.store _ _ _) as [blk| |]; [|reflexivity..]. cbn [bind].
  destruct (negb _); [reflexivity|]. destruct (benchMem _ _ _ _ _ _) as [r| |]; [|reflexivity..]. cbn [bind]. rewrite <- (IH (k + 1) (acc ++ [r])).
  destruct (BErr.benchFiles _ _ _ _ _ _ _ _ _ _ _) as [[b t2]| |]; reflexivity.
Qed.

Lemma files_text c (C : cfg_ok c) a fuel malloc get strerr said ids (fails : Z -> nat) : forall fs k acc b t,
  Forall (fun f => 0 <= bf_size (snd f) < 2 ^ 63) fs ->
  (forall i f, nth_error fs i = Some f -> granted (malloc (k + Z.of_nat i)) (bf_size (snd f)) (fails (k + Z.of_nat i))) ->
  (forall k, (fails k < fuel)%nat) ->
  BErr.benchFiles c a fuel malloc get strerr said ids fs k acc = OK (b, t) ->
  t = about_bench (fun k => Z.of_nat (fails k)) (fun k n => match get k n with Some _ => true | None => false end) strerr said (map (fun f => (fst f, bf_size (snd f), bf_open (snd f))) fs) k.
Proof.
  induction fs as [|[name f] fs IH]; intros k acc b t FO MA FU E; cbn [BErr.benchFiles map about_bench fst snd] in *; [injection E as _ <-; reflexivity|].
  inversion FO as [|? ? S0 FO']; subst. cbn [snd] in S0. pose proof (MA O (name, f) eq_refl) as [NO YES]. rewrite Z.add_0_r in NO, YES.
  assert (MA' : forall i g, nth_error fs i = Some g -> granted (malloc (k + 1 + Z.of_nat i)) (bf_size (snd g)) (fails (k + 1 + Z.of_nat i))).
  { intros i g I. specialize (MA (S i) g I). replace (k + 1 + Z.of_nat i) with (k + Z.of_nat (S i)) by lia. exact MA. }
  pose proof (select_ok c C (malloc k) (bf_size f) (fails k) fuel S0 NO YES (FU k)) as SE.
  pose proof (bench_size_bound (bf_size f) (Z.of_nat (fails k)) ltac:(lia) ltac:(lia)) as BB.
  assert (BL : bench_size (bf_size f) (Z.of_nat (fails k)) <= bf_size f) by (unfold bench_size; lia).
  set (n := bench_size (bf_size f) (Z.of_nat (fails k))) in *.
  assert (ST : BErr.selectBenchedSize c fuel (malloc k) name (bf_size f) = OK (n, notice name (bf_size f) n)).
  { unfold BErr.selectBenchedSize. unfold selectBenchedSize in SE. destruct (findMaxMem c fuel (malloc k) (bf_size f)) as [z| |]; [|discriminate..]. cbn [bind] in *.
    injection SE as SE. rewrite SE. unfold notice. destruct (Z.ltb_spec n (bf_size f)) as [L|L].
    - rewrite (proj2 (Z.eqb_neq _ _)) by lia. rewrite Z.shiftr_div_pow2 by lia. rewrite numeral_ok; [reflexivity|]. split; [apply Z.div_pos; lia|]. apply Z.div_lt_upper_bound; lia.
    - rewrite (proj2 (Z.eqb_eq _ _)) by lia. reflexivity. }
  rewrite ST in E. cbn [bind] in E. pose proof (small32 c C).
  assert (U : usz c (usz c (n + 16) + 3) = n + 19) by (unfold usz; rewrite Zplus_mod_idemp_l, Z.mod_small by lia; lia). rewrite U in E.
  destruct (bf_open f) as [d|]; [|injection E as _ <-; reflexivity].
  destruct (get k (n + 19)) as [base|]; cbn [negb]; [|injection E as _ <-; reflexivity].
  destruct (Mem.store _ _ _) as [blk| |]; [|discriminate..]. cbn [bind] in E.
  assert (LM : zlen (firstn (Z.to_nat n) d) = Z.min n (zlen d)) by (unfold zlen; rewrite firstn_length; lia). rewrite LM in E.
  change (Z.of_nat (List.length d)) with (zlen d). destruct (Z.ltb_spec (zlen d) n) as [L|L].
  - rewrite (proj2 (Z.eqb_neq _ _)) in E by lia. cbn [negb] in E. injection E as _ <-. reflexivity.
  - rewrite (proj2 (Z.eqb_eq _ _)) in E by lia. cbn [negb] in E. destruct (benchMem _ _ _ _ _ _) as [r| |]; [|discriminate..]. cbn [bind] in E.
    destruct (BErr.benchFiles _ _ _ _ _ _ _ _ fs _ _) as [[b2 t2]| |] eqn:E2; [|discriminate..]. cbn [bind] in E. injection E as _ <-. f_equal. f_equal.
    exact (IH (k + 1) _ b2 t2 FO' MA' FU E2).
Qed.

Lemma files_reason c a fuel malloc get strerr said ids : forall fs k acc code t, BErr.benchFiles c a fuel malloc get strerr said ids fs k acc = OK (BExit code, t) ->
  (code = 11 \/ code = 12 \/ code = 13) /\ exists before name, In name (map fst fs) /\ t = before ++ reason code name strerr.
Proof.
  induction fs as [|[name f] fs IH]; intros k acc code t E; cbn [BErr.benchFiles map fst] in *; [discriminate|].
  destruct (BErr.selectBenchedSize _ _ _ _ _) as [[n t0]| |]; [|discriminate..]. cbn [bind] in E.
  destruct (bf_open f) as [d|]; [|injection E as <- <-; split; [auto|]; exists t0, name; split; [now left|reflexivity]].
  destruct (get k _) as [base|]; [|injection E as <- <-; split; [auto|]; exists t0, name; split; [now left|reflexivity]].
  destruct (Mem.store _ _ _) as [blk| |]; [|discriminate..]. cbn [bind] in E.
  destruct (negb _); [injection E as <- <-; split; [auto|]; exists t0, name; split; [now left|reflexivity]|].
  destruct (benchMem _ _ _ _ _ _) as [r| |]; [|discriminate..]. cbn [bind] in E. destruct (BErr.benchFiles _ _ _ _ _ _ _ _ fs _ _) as [[b t2]| |] eqn:E2; [|discriminate..].
  cbn [bind] in E. injection E as -> <-. destruct (IH _ _ _ _ E2) as (CO & before & nm & I & ->). split; [exact CO|]. exists (t0 ++ said k ++ before), nm.
  split; [right; exact I|]. rewrite <- !app_assoc. reflexivity.
Qed.
