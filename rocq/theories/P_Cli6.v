(** Proofs about the command line of xxhsum, continued: the name of the program and what is done. *)
From Coq Require Import String Ascii List.
From Verif Require Import Base Mem P_Base M_Cli SpecCli P_Cli M_Cli2 SpecCli2 P_Cli2 P_Cli3 P_Cli4 M_Cli3 SpecCli3 P_Cli5.

Lemma strrchr_none pre v w i ch : i = zlen pre -> nul_free v -> ~ In ch v -> strrchr (pre ++ v ++ 0 :: w) i ch = OK None.
Proof.
  intros -> N U. unfold strrchr. assert (0 <= zlen pre) by apply zlen_nonneg. rewrite (proj2 (Z.ltb_ge _ _)) by lia. rewrite skipn_pre. apply strrchr_l_last; assumption.
Qed.
Lemma Basename_total p : exists n, Basename p n.
Proof.
  assert (H : forall ch (p : list Z), exists q, ~ In ch q /\ (p = q \/ exists d, p = d ++ ch :: q)).
  { intros ch p0. destruct (split_last ch p0) as [N|(u & v & -> & N)]; [exists p0; auto|exists v; eauto]. }
  destruct (H 47 p) as (q & N & E). destruct (H BSL q) as (n & N' & E'). exists n. econstructor; eassumption.
Qed.
Lemma lastName_ok p n : Basename p n -> nul_free p -> lastNameFromPath p = OK n.
Proof.
  intros [p' q NQ EQ n' NN EN] NF. unfold lastNameFromPath.
  assert (S : forall ch pre (x y : list Z), ch <> 0 -> nul_free x -> ~ In ch y -> x = y \/ (exists d, x = d ++ ch :: y) ->
    exists d, x = d ++ y /\ exists k, strrchr (pre ++ x ++ [0]) (zlen pre) ch = OK k /\ (match k with Some k => k + 1 | None => zlen pre end) = zlen pre + zlen d).
  { intros ch pre x y C NX NY [->|(d & ->)].
    - exists []. split; [reflexivity|]. exists None. split; [apply strrchr_none; auto|rewrite zlen_nil; lia].
    - exists (d ++ [ch]). split; [rewrite <- app_assoc; reflexivity|]. apply nul_split in NX as [ND NY']. exists (Some (zlen pre + zlen d)). split.
      + rewrite <- app_assoc. cbn [app]. apply strrchr_found; auto. intros I. apply NY'. right. exact I.
      + rewrite zlen_app, zlen_cons, zlen_nil. lia. }
  destruct (S 47 [] p' q ltac:(lia) NF NQ EQ) as (d & -> & k & E & K). change (zlen []) with 0 in *. cbn [app] in E. rewrite E. cbn [bind]. rewrite K. cbn [Z.add].
  apply nul_split in NF as [ND NF].
  destruct (S BSL d q n' ltac:(unfold BSL; lia) NF NN EN) as (d' & -> & k' & E' & K').
  rewrite <- app_assoc. rewrite <- (app_assoc d' n' [0]). rewrite <- (app_assoc d' n' [0]) in E'. rewrite E'. cbn [bind]. rewrite K'.
  replace (d ++ d' ++ n' ++ [0]) with ((d ++ d') ++ n' ++ [0]) by (rewrite <- app_assoc; reflexivity).
  apply cstr_ok; [rewrite zlen_app; reflexivity|]. apply nul_split in NF. tauto.
Qed.
Definition mask_of (l : list algo) : Z := fold_right (fun a m => Z.lor (Z.shiftl 1 (algo_num a)) m) 0 l.
Lemma mask_of_bit l a : Z.testbit (mask_of l) (algo_num a) = true <-> In a l.
Proof.
  induction l as [|b l IH]; cbn [mask_of fold_right].
  - rewrite Z.testbit_0_l. split; [discriminate|intros []].
  - fold (mask_of l). rewrite Z.lor_spec, orb_true_iff, IH. cbn [In].
    assert (E : Z.testbit (Z.shiftl 1 (algo_num b)) (algo_num a) = true <-> b = a) by (destruct a, b; cbn; split; congruence). rewrite E. tauto.
Qed.
Lemma named_ok n a acc : Personality n a acc -> named n opts0 = opts_of (mask_of acc) (default a).
Proof.
  assert (T : forall p, holds n p -> containsb p n = true) by (intros p H; apply containsb_occurs; exact H).
  assert (F : forall p, ~ holds n p -> containsb p n = false) by (intros p H; apply not_true_is_false; intros E; apply containsb_occurs in E; exact (H E)).
  intros H. unfold named. destruct H; repeat match goal with H : holds _ _ |- _ => rewrite (T _ H); clear H | H : ~ holds _ _ |- _ => rewrite (F _ H); clear H end;
  repeat match goal with |- context [if containsb ?p n then _ else _] => destruct (containsb p n) end; reflexivity.
Qed.
Lemma Personality_total n : exists a acc, Personality n a acc.
Proof.
  assert (D : forall p, holds n p \/ ~ holds n p).
  { intros p. destruct (containsb p n) eqn:E; [left; apply containsb_occurs in E; exact E|right; intros H; apply containsb_occurs in H; congruence]. }
  destruct (D (str "xxh3sum")); [exists algo_xxh3, [algo_xxh3]; constructor; assumption|].
  destruct (D (str "xxh128sum")); [exists algo_xxh128, [algo_xxh128]; constructor; assumption|].
  destruct (D (str "xxh64sum")); [exists algo_xxh64, [algo_xxh64]; constructor; assumption|].
  destruct (D (str "xxh32sum")); [exists algo_xxh32, [algo_xxh32]; constructor; assumption|].
  do 2 eexists. apply p_xxhsum; assumption.
Qed.

(** the model's action does what is to be done *)
Inductive Does : todo -> action -> Prop :=
  | d_stop st : Does (TStop st) (Stop st)
  | d_bench which ids it size names : zlen ids = 29 -> (forall k, 1 <= k <= 28 -> (In k which <-> nth (Z.to_nat k) ids 0 <> 0)) -> Forall (fun k => 1 <= k <= 28) which ->
      Does (TBench which it size names) (Bench ids it size names)
  | d_check names s acc mask : (forall a, Z.testbit mask (algo_num a) = true <-> In a acc) ->
      Does (TCheck names s acc) (Check names (g_order s) (g_strict s) (g_status s) (g_ignore s) (g_warn s) (0 <? g_quiet s) mask)
  | d_hash names a de st : Does (THash names a de st) (Hash names a de st).
Lemma nth_ids ids k : (k < 29)%nat -> nth k (ids_list ids) 0 = if existsb (Z.eqb (Z.of_nat k)) ids then 1 else 0.
Proof.
  intros K. unfold ids_list. set (f := fun k : nat => if existsb (Z.eqb (Z.of_nat k)) ids then 1 else 0).
  rewrite (nth_indep _ 0 (f 0%nat)) by (rewrite map_length, seq_length; exact K). rewrite map_nth, seq_nth by exact K. reflexivity.
Qed.
Lemma in_28 k : In k (map Z.of_nat (seq 1 28)) <-> 1 <= k <= 28.
Proof.
  rewrite in_map_iff. split; [intros (x & <- & I); apply in_seq in I; lia|]. intros K. exists (Z.to_nat k). split; [lia|]. apply in_seq. lia.
Qed.
Lemma choose_ok console acc s names : Does (todo_of console acc s names) (choose console (opts_of (mask_of acc) s) names).
Proof.
  unfold todo_of, choose. cbn [opts_of benchmarkMode selectBenchIDs testIDs nbIterations keySize explicitStdin fileCheckMode displayEndianness strictMode statusOnly ignoreMissing M_Cli3.warn logLevel algoBitmask o_algo o_convention].
  assert (Q : (2 - g_quiet s <? 2) = (0 <? g_quiet s)) by (destruct (Z.ltb_spec 0 (g_quiet s)); [apply Z.ltb_lt|apply Z.ltb_ge]; lia). rewrite Q.
  destruct (g_ids s) as [|i l] eqn:EI.
  - destruct names as [|n names]; cbn [andb].
    + destruct (console && negb (g_stdin s)); [constructor|]. destruct (g_check s); constructor. apply mask_of_bit.
    + destruct (g_check s); constructor. apply mask_of_bit.
  - set (ids := i :: l) in *. unfold variants, sel_of, kBenchAll. destruct (last ids 0 =? 0) eqn:Z0.
    + apply Z.eqb_eq in Z0. rewrite Z0. cbn [Z.leb Z.compare Z.eqb Pos.eqb]. constructor; [reflexivity| |repeat constructor; discriminate].
      intros k K. rewrite <- in_28 in K. cbn in K. decompose [or] K; try contradiction; subst k; cbn; split; intros H; (lia || tauto || (decompose [or] H; try contradiction; discriminate)).
    + destruct (28 <? last ids 0) eqn:L28.
      * destruct (29 <=? last ids 0) eqn:L29; [|lia]. cbn [Z.eqb Pos.eqb]. constructor; [reflexivity| |apply Forall_forall; intros k K; apply in_28; exact K].
        intros k K. rewrite in_28. split; [|tauto]. intros _. rewrite (nth_indep _ 0 1) by (cbn; lia). rewrite nth_repeat. discriminate.
      * destruct (29 <=? last ids 0) eqn:L29; [lia|]. rewrite Z0. destruct (last ids 0 =? 99) eqn:L99; [lia|]. constructor; [unfold zlen, ids_list; rewrite map_length; reflexivity| |].
        -- intros k K. rewrite filter_In, in_28, nth_ids by lia. rewrite Z2Nat.id by lia. destruct (existsb (Z.eqb k) ids); split; try tauto; try discriminate; intros; intuition; try discriminate.
        -- apply Forall_forall. intros k K. apply filter_In in K as [K _]. apply in_28, K.
Qed.
Theorem command_ok console exe args name a acc out : nul_free exe -> Forall nul_free args -> total args < 2 ^ 31 -> Basename exe name -> Personality name a acc -> Options (default a) args out ->
  match out with
  | Run s names => exists act, command console (exe :: args) = OK act /\ Does (todo_of console acc s names) act
  | Finish st => command console (exe :: args) = OK (Stop st)
  | Runaway => command console (exe :: args) = UB
  end.
Proof.
  intros NE NA T B P O. assert (E : command console (exe :: args) = let! r := options (opts_of (mask_of acc) (default a)) args in match r with inl st => OK (Stop st) | inr (o, names) => OK (choose console o names) end).
  { unfold command. rewrite (lastName_ok exe name B NE). cbn [bind]. rewrite (named_ok name a acc P). reflexivity. }
  rewrite E, (options_ok (mask_of acc) (default a) args out O NA ltac:(cbn [g_quiet default]; lia)).
  destruct out as [s names|st|]; cbn [bind]; [|reflexivity|reflexivity]. eexists. split; [reflexivity|]. apply choose_ok.
Qed.
