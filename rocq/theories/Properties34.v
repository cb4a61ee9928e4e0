(** Property theorems about the files and the memory of the benchmark of xxhsum: C105. *)
From Coq Require Import String.
From Verif Require Import Base Mem M_Util M_Sanity M_Cli M_Cli3 M_Bench M_CliRes M_BenchRes SpecRes P_Base P_CliRes P_Bench P_BenchRes Properties11.

(** ** C105 *)
(** The model with the calls is the model without them, plus the list of the calls. *)
Theorem C105_same_program : forall c a fuel malloc get1 get ids fs keySize l,
  (let! (r, _) := BRes.benchInternal c a get1 ids keySize l in OK r) = benchInternal c a get1 ids keySize /\
  forall k acc, (let! (r, _) := BRes.benchFiles c a fuel malloc get ids fs k acc l in OK r) = benchFiles c a fuel malloc get ids fs k acc.
Proof.
  assert (E : forall (A B : Type) (r : res A) (R : res (A * B)) P, sim r R P -> (let! (x, _) := R in OK x) = r).
  { intros A B r R P S. unfold sim in S. destruct r; [destruct S as (b & -> & _)|rewrite S..]; reflexivity. }
  assert (M : forall c a k ids kp buf n l, (let! (x, _) := BRes.benchMem c a k ids kp buf n l in OK x) = benchMem c a k ids buf n).
  { intros c a k ids kp buf n l. unfold BRes.benchMem, benchMem. destruct (assert_ _); [|reflexivity..]. cbn [bind]. destruct (fillTestBuffer _ _) as [sb| |]; [|reflexivity..]. cbn [bind].
    apply (E _ _ _ _ (fun _ _ => True)). apply (sim_for _ _ (fun _ => True)); [|exact I]. clear l. intros i acc l _. destruct (cget ids i) as [t| |]; [|reflexivity..]. cbn [bind].
    destruct (nth_error _ _) as [[name func]|]; [|reflexivity]. destruct (t =? 0); [eexists; split; [reflexivity|exact I]|]. destruct (i mod 2 =? 1).
    - destruct (benchHash _ _ _ _ _ _ _) as [r| |]; [|reflexivity..]. cbn [bind]. eexists. split; [reflexivity|exact I].
    - destruct (strcatDup _ _ _ _) as [b| |]; [|reflexivity..]. cbn [bind]. destruct (cstr b 0) as [nm| |]; [|reflexivity..]. cbn [bind].
      destruct (benchHash _ _ _ _ _ _ _) as [r| |]; [|reflexivity..]. cbn [bind]. eexists. split; [reflexivity|exact I]. }
  intros c a fuel malloc get1 get ids fs keySize l. split.
  - unfold BRes.benchInternal, benchInternal. destruct (get1 _) as [base|]; [|reflexivity]. rewrite <- (M c a 0 ids (fresh l) _ keySize (l ++ [Allocated])).
    destruct (BRes.benchMem _ _ _ _ _ _ _ _) as [[r l']| |]; reflexivity.
  - revert l. induction fs as [|f fs IH]; intros l k acc; cbn [BRes.benchFiles benchFiles]; [reflexivity|]. unfold BRes.selectBenchedSize, selectBenchedSize, BRes.findMaxMem.
    destruct (findMaxMem c fuel (malloc k) (bf_size f)) as [size| |]; [|reflexivity..]. cbn [bind].
    destruct (bf_open f) as [bytes|]; destruct (get k _) as [base|]; try reflexivity.
    destruct (Mem.store _ _ _) as [blk| |]; [|reflexivity..]. cbn [bind]. destruct (negb _); [reflexivity|].
    match goal with |- context [BRes.benchMem c a k ids ?h ?b ?n ?l] => rewrite <- (M c a k ids h b n l); destruct (BRes.benchMem c a k ids h b n l) as [[r l']| |] end; [|reflexivity..]. cbn [bind]. apply IH.
Qed.
Print Assumptions C105_same_program.

(** Whatever the system does: only open files are read or closed, only blocks that are held are used or freed; besides stdin one file is open at a time,
    and at most two blocks are held (the sample and a name); at the end, and also when the benchmark gives up with exit(11), exit(12) or exit(13),
    all is given back. *)
Theorem C105_internal : forall c a get ids keySize r l, BRes.benchInternal c a get ids keySize [] = OK (r, l) ->
  exists s, stands l s /\ opened s = [Std] /\ held s = [] /\ (most_opened s <= 1)%nat /\ (most_held s <= 2)%nat.
Proof.
  intros c a get ids keySize r l E. pose proof (benchInternal_res [Std] [] 1 2 ltac:(cbn; lia) c a get ids keySize []) as S1.
  pose proof (S1 ltac:(exists start; cbn; repeat split; auto; lia)) as S2. unfold sim in S2.
  destruct (benchInternal c a get ids keySize); [|congruence..]. destruct S2 as (l' & E' & s & H). rewrite E in E'. injection E' as _ <-. exists s. exact H.
Qed.
Print Assumptions C105_internal.
Theorem C105_files : forall c a fuel malloc get ids fs k acc r l, BRes.benchFiles c a fuel malloc get ids fs k acc [] = OK (r, l) ->
  exists s, stands l s /\ opened s = [Std] /\ held s = [] /\ (most_opened s <= 2)%nat /\ (most_held s <= 2)%nat.
Proof.
  intros c a fuel malloc get ids fs k acc r l E. pose proof (benchFiles_res [Std] [] 2 2 ltac:(cbn; lia) ltac:(cbn; lia) c a fuel malloc get ids fs k acc []) as S1.
  pose proof (S1 ltac:(exists start; cbn; repeat split; auto; lia)) as S2. unfold sim in S2.
  destruct (benchFiles c a fuel malloc get ids fs k acc); [|congruence..]. destruct S2 as (l' & E' & s & H). rewrite E in E'. injection E' as _ <-. exists s. exact H.
Qed.
Print Assumptions C105_files.

(** runs that end: whenever the benchmark has memory (C56); for instance the default tests on the default sample *)
Lemma C105_runs : forall c a get ids n, cfg_ok c -> calm a -> zlen ids = 29 -> 0 <= n -> n + 19 < 2 ^ szbits c -> get (n + 19) <> None ->
  exists r l, BRes.benchInternal c a get ids n [] = OK (BDone r, l).
Proof.
  intros c a get ids n C A I N S G. destruct (C105_same_program c a 0 (fun _ _ _ => true) get (fun _ => get) ids [] n []) as [E _].
  rewrite C56_internal in E by assumption. destruct (get (n + 19)); [|congruence].
  destruct (BRes.benchInternal _ _ _ _ _ _) as [[r' l]| |]; [|discriminate..]. cbn [bind] in E. inversion E. eexists _, _. reflexivity.
Qed.
Example C105_case : cfg_ok b32 /\ calm quiet /\ zlen k_testIDs_default = 29 /\ 102400 + 19 < 2 ^ szbits b32.
Proof. split; [exact b32_ok|]. split; [exact quiet_calm|]. split; reflexivity. Qed.
(** and the three ways to give up *)
Example C105_exits : let run f got := BRes.benchFiles b32 quiet 40 (fun _ _ n => n <? 1000) (fun _ _ => got) (0 :: 1 :: repeat 0 27) [f] 0 [] [] in
  run (BFile 5 None) (Some 64) = OK (BExit 11, [Allocated; Freed (At 0); Allocated; Freed (At 2)]) /\
  run (BFile 5 (Some [1])) None = OK (BExit 12, [Opened; Allocated; Freed (At 1); Closed (At 0)]) /\
  run (BFile 5 (Some [1])) (Some 64) = OK (BExit 13, [Opened; Allocated; Freed (At 1); Allocated; Read (At 0); Used (At 3); Closed (At 0); Freed (At 3)]).
Proof. vm_compute. repeat split. Qed.
