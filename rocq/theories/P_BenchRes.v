(** Proofs about the files and the memory of the benchmark of xxhsum. *)
From Coq Require Import String List.
From Verif Require Import Base Mem M_XXH3 M_Util M_Sanity M_Cli M_Bench M_CliRes M_BenchRes SpecRes P_Base P_CliRes.
#[local] Open Scope list_scope.

Lemma sim_for {A B} (f : Z -> A -> res A) (F : Z -> A * B -> res (A * B)) (I : B -> Prop) :
  (forall i a b, I b -> sim (f i a) (F i (a, b)) (fun _ b => I b)) ->
  forall n i a b, I b -> sim (for_ n i f a) (for_ n i F (a, b)) (fun _ b => I b).
Proof.
  intros H. induction n as [|n IH]; intros i a b HI; cbn [for_]; [eexists; split; [reflexivity|exact HI]|].
  specialize (H i a b HI). unfold sim in H. destruct (f i a) as [a'| |]; cbn [bind]; [|rewrite H; reflexivity..]. destruct H as (b' & -> & HI'). cbn [bind]. apply IH, HI'.
Qed.
Section Bench.
Context (fs hs : list handle) (MO MH : nat).
(** the files and the blocks that are held *)
Definition Now (f h : list handle) (l : log) : Prop := exists s, stands l s /\ opened s = f /\ held s = h /\ (most_opened s <= MO)%nat /\ (most_held s <= MH)%nat.
Lemma Now_open f h l : (length f < MO)%nat -> Now f h l -> Now (fresh l :: f) h (l ++ [Opened]).
Proof. intros L (s & H & <- & <- & A & B). destruct (open_one l s H) as (s' & H' & O & E & A' & B'). exists s'. rewrite O, E, A', B'. repeat split; auto; lia. Qed.
Lemma Now_alloc f h l : (length h < MH)%nat -> Now f h l -> Now f (fresh l :: h) (l ++ [Allocated]).
Proof. intros L (s & H & <- & <- & A & B). destruct (alloc_one l s H) as (s' & H' & O & E & A' & B'). exists s'. rewrite O, E, A', B'. repeat split; auto; lia. Qed.
Lemma Now_read f h l x : In x f -> Now f h l -> Now f h (l ++ [Read x]).
Proof. intros I (s & H & <- & <- & A & B). exists s. split; [apply read_one; assumption|auto]. Qed.
Lemma Now_use f h l x : In x h -> Now f h l -> Now f h (l ++ [Used x]).
Proof. intros I (s & H & <- & <- & A & B). exists s. split; [apply use_one; assumption|auto]. Qed.
Lemma Now_close f h l x : (length f < MO)%nat -> Now (x :: f) h l -> Now f h (l ++ [Closed x]).
Proof.
  intros L (s & H & O & <- & A & B). destruct (close_one l s x H) as (s' & H' & O' & E' & A' & B'); [rewrite O; now left|]. rewrite O in A', O'. cbn [length] in A'. rewrite without_head in O'.
  exists s'. rewrite O', E', B'. repeat split; auto; lia.
Qed.
Lemma Now_free f h l x : (length h < MH)%nat -> Now f (x :: h) l -> Now f h (l ++ [Freed x]).
Proof.
  intros L (s & H & <- & E & A & B). destruct (free_one l s x H) as (s' & H' & O' & E' & A' & B'); [rewrite E; now left|]. rewrite E in B', E'. cbn [length] in B'. rewrite without_head in E'.
  exists s'. rewrite O', E', A'. repeat split; auto; lia.
Qed.
Context (RH : (length hs + 1 < MH)%nat).
Lemma select_res c fuel malloc size f l : Now f hs l -> sim (selectBenchedSize c fuel malloc size) (BRes.selectBenchedSize c fuel malloc size l) (fun _ => Now f hs).
Proof.
  intros H. unfold selectBenchedSize, BRes.selectBenchedSize, BRes.findMaxMem. destruct (findMaxMem c fuel malloc size) as [r| |]; [|reflexivity..]. cbn [bind].
  eexists. split; [reflexivity|]. apply Now_free; [lia|]. apply Now_alloc; [lia|exact H].
Qed.
Lemma benchMem_res c a k ids kp buf n l : Now fs (kp :: hs) l -> sim (benchMem c a k ids buf n) (BRes.benchMem c a k ids kp buf n l) (fun _ => Now fs (kp :: hs)).
Proof.
  intros H. unfold benchMem, BRes.benchMem. destruct (assert_ _); [|reflexivity..]. cbn [bind]. destruct (fillTestBuffer _ _) as [sb| |]; [|reflexivity..]. cbn [bind].
  apply (sim_for _ _ (Now fs (kp :: hs))); [|exact H]. clear l H. intros i acc l H. destruct (cget ids i) as [t| |]; [|reflexivity..]. cbn [bind].
  destruct (nth_error _ _) as [[name func]|]; [|reflexivity]. destruct (t =? 0); [eexists; split; [reflexivity|exact H]|]. destruct (i mod 2 =? 1).
  - destruct (benchHash _ _ _ _ _ _ _) as [r| |]; [|reflexivity..]. cbn [bind]. eexists. split; [reflexivity|]. apply Now_use; [now left|exact H].
  - destruct (strcatDup _ _ _ _) as [b| |]; [|reflexivity..]. cbn [bind]. destruct (cstr b 0) as [nm| |]; [|reflexivity..]. cbn [bind].
    destruct (benchHash _ _ _ _ _ _ _) as [r| |]; [|reflexivity..]. cbn [bind]. eexists. split; [reflexivity|].
    apply Now_free; [cbn; lia|]. apply Now_use; [right; now left|]. apply Now_use; [now left|]. apply Now_alloc; [cbn; lia|exact H].
Qed.
Lemma benchInternal_res c a get ids n l : Now fs hs l -> sim (benchInternal c a get ids n) (BRes.benchInternal c a get ids n l) (fun _ => Now fs hs).
Proof.
  intros H. unfold benchInternal, BRes.benchInternal. destruct (get _) as [base|]; [|eexists; split; [reflexivity|exact H]].
  pose proof (benchMem_res c a 0 ids (fresh l) (Ptr (repeat 0 (Z.to_nat (usz c (usz c (n + 16) + 3)))) base (aligned16 base)) n _ (Now_alloc fs hs l ltac:(lia) H)) as S1. unfold sim in S1.
  destruct (benchMem _ _ _ _ _ _) as [r| |]; [|rewrite S1; reflexivity..]. destruct S1 as (l1 & -> & H1). cbn [bind]. eexists. split; [reflexivity|]. apply Now_free; [lia|exact H1].
Qed.
Context (RF : (length fs < MO)%nat).
Lemma benchFiles_res c a fuel malloc get ids files : forall k acc l, Now fs hs l ->
  sim (benchFiles c a fuel malloc get ids files k acc) (BRes.benchFiles c a fuel malloc get ids files k acc l) (fun _ => Now fs hs).
Proof.
  induction files as [|f files IH]; intros k acc l H; cbn [benchFiles BRes.benchFiles]; [eexists; split; [reflexivity|exact H]|].
  destruct (bf_open f) as [bytes|].
  - apply Now_open in H; [|lia]. pose proof (select_res c fuel (malloc k) (bf_size f) _ _ H) as S1. unfold sim in S1.
    destruct (selectBenchedSize _ _ _ _) as [size| |]; [|cbn [bind]; rewrite S1; reflexivity..]. destruct S1 as (l1 & -> & H1). cbn [bind].
    destruct (get k _) as [base|]; [|eexists; split; [reflexivity|]; apply Now_close; [lia|exact H1]].
    destruct (Mem.store _ _ _) as [blk| |]; [|reflexivity..]. cbn [bind]. apply Now_alloc in H1; [|lia].
    apply (Now_read _ _ _ (fresh l)) in H1; [|now left]. apply (Now_use _ _ _ (fresh l1)) in H1; [|now left]. apply Now_close in H1; [|exact RF].
    destruct (negb _); [eexists; split; [reflexivity|]; apply Now_free; [lia|exact H1]|].
    match goal with |- context [benchMem c a k ids ?b size] => pose proof (benchMem_res c a k ids (fresh l1) b size _ H1) as S2 end. unfold sim in S2.
    destruct (benchMem _ _ _ _ _ _) as [r| |]; [|rewrite S2; reflexivity..]. destruct S2 as (l2 & -> & H2). cbn [bind]. apply IH. apply Now_free; [lia|exact H2].
  - pose proof (select_res c fuel (malloc k) (bf_size f) _ _ H) as S1. unfold sim in S1.
    destruct (selectBenchedSize _ _ _ _) as [size| |]; [|cbn [bind]; rewrite S1; reflexivity..]. destruct S1 as (l1 & -> & H1). cbn [bind].
    destruct (get k _) as [base|]; eexists; (split; [reflexivity|]); [|exact H1]. apply Now_free; [lia|]. apply Now_alloc; [lia|exact H1].
Qed.
End Bench.
