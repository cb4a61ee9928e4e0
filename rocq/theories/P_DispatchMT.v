(** Proofs about several threads calling the x86 dispatcher (M_DispatchMT). *)
From Coq Require Import Permutation.
From Verif Require Import Base Mem M_XXH32 M_XXH64 M_XXH3 M_Kernels M_Long M_Stream3 M_Dispatch M_DispatchMT Spec3 P_Base P_Spec
  P_X3_Base P_X3_Short P_Kernels P_Kernels2 P_X3_Long P_Stream P_Stream3 P_Stream4 P_Dispatch.

(** ** what a caller must provide, and what it is owed *)
Definition input_ok (q : ptr) (len : Z) : Prop := exists m, points_to q m /\ bytes_ok m /\ len = zlen m.
Definition secret_arg (c : cfg) (input_len : Z) (q : ptr) (len : Z) : Prop :=
  exists s, points_to q s /\ bytes_ok s /\ 136 <= zlen s /\ (240 < input_len -> 8 * (zlen s - 64) < 2 ^ szbits c) /\ len = zlen s.
Definition state_arg (c : cfg) (st : state3) (q : ptr) (len : Z) : Prop :=
  input_ok q len /\ len < 2 ^ szbits c /\ exists s us seed m0 K, rep3 c s us seed m0 K st.
Definition proper (c : cfg) (j : call) : Prop :=
  match j with
  | Call64 q len | Call128 q len => input_ok q len
  | Call64_seed q len seed | Call128_seed q len seed => input_ok q len /\ 0 <= seed < 2 ^ 64
  | Call64_secret q len ps n | Call128_secret q len ps n => input_ok q len /\ secret_arg c len ps n
  | Call64_update st q len | Call128_update st q len => state_arg c st q len
  end.
Definition right_update (c : cfg) (st : state3) (q : ptr) (len : Z) (a : res answer) : Prop :=
  forall s us seed m0 K m, rep3 c s us seed m0 K st -> points_to q m -> len = zlen m ->
  exists K' st', a = OK (A_update XXH_OK st') /\ rep3 c s us seed (m0 ++ m) K' st' /\ s3_adr st' = s3_adr st.
Definition right (c : cfg) (j : call) (a : res answer) : Prop :=
  match j with
  | Call64 q len => forall m, points_to q m -> len = zlen m -> a = OK (A64 (X3.XXH3_64 m))
  | Call64_seed q len seed => forall m, points_to q m -> len = zlen m -> a = OK (A64 (X3.XXH3_64_withSeed seed m))
  | Call64_secret q len ps n => forall m s, points_to q m -> len = zlen m -> points_to ps s -> n = zlen s -> a = OK (A64 (X3.XXH3_64_withSecret s m))
  | Call128 q len => forall m, points_to q m -> len = zlen m -> a = OK (A128 (X3.XXH3_128 m))
  | Call128_seed q len seed => forall m, points_to q m -> len = zlen m -> a = OK (A128 (X3.XXH3_128_withSeed seed m))
  | Call128_secret q len ps n => forall m s, points_to q m -> len = zlen m -> points_to ps s -> n = zlen s -> a = OK (A128 (X3.XXH3_128_withSecret s m))
  | Call64_update st q len | Call128_update st q len => right_update c st q len a
  end.

Lemma app_split {A} (a b x y : list A) : a ++ x = b ++ y -> length a = length b -> a = b /\ x = y.
Proof.
  revert b. induction a as [|h a IH]; intros [|h' b]; cbn; try discriminate; auto. intros E L. injection E as -> E. injection L as L.
  destruct (IH b E L) as [-> ->]. auto.
Qed.
Lemma points_to_fun q a b : points_to q a -> points_to q b -> zlen a = zlen b -> a = b.
Proof.
  destruct q as [|blk adr o]; cbn.
  - intros -> ->. reflexivity.
  - intros (p1 & q1 & E1 & O1) (p2 & q2 & E2 & O2) L. subst blk o.
    assert (LP : length p1 = length p2) by (unfold zlen in O2; lia). assert (LA : length a = length b) by (unfold zlen in L; lia).
    destruct (app_split p1 p2 _ _ E2 LP) as [_ F]. apply (app_split a b _ _ F LA).
Qed.
Lemma slot_dec (a b : slot) : {a = b} + {a <> b}.
Proof. decide equality. Qed.

(** ** the tables *)
Section MT.
Context (c : cfg) (d : dcfg) (p : cpu) (prog : nat -> program).
Hypothesis C : cfg_ok c.
Hypothesis X : x86dispatch c = true.
Hypothesis LE : cpu_le c = true.
Hypothesis R : runs d p.
Hypothesis V : covered d p.

(** slot [s] of [g] holds the function of a kernel set that computes the right values *)
Definition filled (s : slot) (g : globals) : Prop := exists k, good c k /\
  match s with
  | S64_default => t_default (g64 g) = Some (XXHL64_default c k) | S64_seed => t_seed (g64 g) = Some (XXHL64_seed c k)
  | S64_secret => t_secret (g64 g) = Some (XXHL64_secret c k) | S64_update => t_update (g64 g) = Some (XXH3_update_suffix c k)
  | S128_default => t_default (g128 g) = Some (XXHL128_default c k) | S128_seed => t_seed (g128 g) = Some (XXHL128_seed c k)
  | S128_secret => t_secret (g128 g) = Some (XXHL128_secret c k) | S128_update => t_update (g128 g) = Some (XXH3_update_suffix c k)
  end.
Lemma grow_filled s g : grow c g -> filled s g.
Proof. intros (k & G & ->). exists k. split; [exact G|]. destruct s; reflexivity. Qed.
Lemma filled_not_null s g : filled s g -> slot_null s g = false.
Proof. intros (k & _ & E). destruct s; cbn [slot_null]; rewrite E; reflexivity. Qed.
Lemma store_filled s s' r g : grow c r -> filled s g \/ s = s' -> filled s (store s' r g).
Proof.
  intros G [(k & Hk & E)|<-].
  - destruct (grow_filled s r G) as (k' & Hk' & E').
    destruct s, s'; cbn [store g64 g128 t_default t_seed t_secret t_update filled] in *;
      first [exists k; split; [exact Hk|exact E] | exists k'; split; [exact Hk'|exact E']].
  - destruct (grow_filled s r G) as (k' & Hk' & E'). exists k'. split; [exact Hk'|]. destruct s; exact E'.
Qed.
Lemma store_other s s' r g : s <> s' -> slot_null s (store s' r g) = slot_null s g.
Proof. intros N. destruct s, s'; try reflexivity; congruence. Qed.

(** ** one call *)
Lemma rest_ok g j : proper c j -> (looks j = true -> filled (tested j) g) -> right c j (rest c g j).
Proof.
  intros PJ F.
  assert (MID : forall n, MIDSIZE_MAX < n -> negb (n <=? MIDSIZE_MAX) = true) by (intros; replace (n <=? MIDSIZE_MAX) with false by lia; reflexivity).
  destruct j as [q len|q len seed|q len ps n|st q len|q len|q len seed|q len ps n|st q len]; cbn [proper right rest looks tested] in *.
  - destruct PJ as (m & P & B & ->). intros m' P' L. rewrite (points_to_fun q m' m P' P) by congruence.
    unfold X3.XXH3_64. rewrite <- kSecret_default. change 192 with (zlen kSecret). erewrite internal64; ks; trivial; [reflexivity|].
    intros H. destruct (F (MID _ H)) as (k & Hk & ->). destruct (good_local c X k Hk) as (Ha & Hs & Hi). cbn [callp bind]. unfold XXHL64_default.
    change 192 with (zlen kSecret). apply long64_ok; trivial; ks; lia.
  - destruct PJ as ((m & P & B & ->) & W). intros m' P' L. rewrite (points_to_fun q m' m P' P) by congruence.
    unfold X3.XXH3_64_withSeed. rewrite <- kSecret_default. change 192 with (zlen kSecret). erewrite internal64; ks; trivial; [reflexivity|].
    intros H. destruct (F (MID _ H)) as (k & Hk & ->). destruct (good_local c X k Hk) as (Ha & Hs & Hi). cbn [callp bind]. unfold XXHL64_seed.
    apply seed64_ok; trivial; ks; lia.
  - destruct PJ as ((m & P & B & ->) & (s & PS & BS & S1 & S2 & ->)). intros m' s' P' L PS' LS. rewrite (points_to_fun q m' m P' P), (points_to_fun ps s' s PS' PS) by congruence.
    unfold X3.XXH3_64_withSecret. erewrite internal64; ks; trivial; [reflexivity|].
    intros H. destruct (F (MID _ H)) as (k & Hk & ->). destruct (good_local c X k Hk) as (Ha & Hs & Hi). cbn [callp bind]. unfold XXHL64_secret.
    apply long64_ok; trivial; [repeat split; auto|lia].
  - destruct PJ as ((m & P & B & ->) & SZ & _). intros s us seed m0 K m' RP P' L. rewrite (points_to_fun q m' m P' P) by congruence.
    destruct (F eq_refl) as (k & Hk & ->). cbn [callp bind]. unfold XXH3_update_suffix.
    pose proof (upd_adr c X st (r3_raw _ _ _ _ _ _ _ RP)) as A.
    destruct (update3_ok c s us seed m0 K st q m (k_acc k) (k_scr k)) as (K' & st' & -> & R' & Ad); trivial; try lia; [apply Hk; exact A|apply Hk; exact A|].
    cbn [bind fst snd]. exists K', st'. auto.
  - destruct PJ as (m & P & B & ->). intros m' P' L. rewrite (points_to_fun q m' m P' P) by congruence.
    unfold X3.XXH3_128. rewrite <- kSecret_default. change 192 with (zlen kSecret). erewrite internal128; ks; trivial; [reflexivity|].
    intros H. destruct (F (MID _ H)) as (k & Hk & ->). destruct (good_local c X k Hk) as (Ha & Hs & Hi). cbn [callp bind]. unfold XXHL128_default.
    change 192 with (zlen kSecret). apply long128_ok; trivial; ks; lia.
  - destruct PJ as ((m & P & B & ->) & W). intros m' P' L. rewrite (points_to_fun q m' m P' P) by congruence.
    unfold X3.XXH3_128_withSeed. rewrite <- kSecret_default. change 192 with (zlen kSecret). erewrite internal128; ks; trivial; [reflexivity|].
    intros H. destruct (F (MID _ H)) as (k & Hk & ->). destruct (good_local c X k Hk) as (Ha & Hs & Hi). cbn [callp bind]. unfold XXHL128_seed.
    apply seed128_ok; trivial; ks; lia.
  - destruct PJ as ((m & P & B & ->) & (s & PS & BS & S1 & S2 & ->)). intros m' s' P' L PS' LS. rewrite (points_to_fun q m' m P' P), (points_to_fun ps s' s PS' PS) by congruence.
    unfold X3.XXH3_128_withSecret. erewrite internal128; ks; trivial; [reflexivity|].
    intros H. destruct (F (MID _ H)) as (k & Hk & ->). destruct (good_local c X k Hk) as (Ha & Hs & Hi). cbn [callp bind]. unfold XXHL128_secret.
    apply long128_ok; trivial; [repeat split; auto|lia].
  - destruct PJ as ((m & P & B & ->) & SZ & _). intros s us seed m0 K m' RP P' L. rewrite (points_to_fun q m' m P' P) by congruence.
    destruct (F eq_refl) as (k & Hk & ->). cbn [callp bind]. unfold XXH3_update_suffix.
    pose proof (upd_adr c X st (r3_raw _ _ _ _ _ _ _ RP)) as A.
    destruct (update3_ok c s us seed m0 K st q m (k_acc k) (k_scr k)) as (K' & st' & -> & R' & Ad); trivial; try lia; [apply Hk; exact A|apply Hk; exact A|].
    cbn [bind fst snd]. exists K', st'. auto.
Qed.

(** ** the invariant *)
Definition ok_history (h : list (call * res answer)) : Prop := Forall (fun x => proper c (fst x) /\ right c (fst x) (snd x)) h.
(** every program makes proper calls as long as it is answered correctly *)
Hypothesis PROG : forall t h j, ok_history h -> prog t h = Some j -> proper c j.

Definition ok_table (g : globals) : Prop := forall s, maybe_null d = true /\ slot_null s g = true \/ filled s g.
Definition ok_thread (g : globals) (t : nat) (x : thread) : Prop :=
  ok_history (done x) /\
  match at_ x with
  | Before => True
  | Storing r todo => (exists j, prog t (done x) = Some j) /\ grow c r /\ (forall s, In s todo \/ filled s g) /\ (length todo <= 8)%nat
  | After => exists j, prog t (done x) = Some j /\ filled (tested j) g
  end.
Definition ok_world (w : world) : Prop := ok_table (shared w) /\ forall t, ok_thread (shared w) t (threads w t).

Lemma start_world w : starts c d p w -> ok_world w.
Proof.
  intros [E T]. destruct (start_ok c d p C X LE R V) as (g & E' & G). rewrite E in E'. injection E' as <-. split.
  - intros s. destruct G as [[M ->]|G]; [left; split; [exact M|destruct s; reflexivity]|right; apply grow_filled; exact G].
  - intros t. rewrite T. split; [constructor|exact I].
Qed.
Lemma all_slots_in s : In s all_slots.
Proof. destruct s; cbn; tauto. Qed.
(** a thread that did not move keeps its part of the invariant: slots are only ever filled *)
Lemma thread_mono g g' t x : (forall s, filled s g -> filled s g') -> ok_thread g t x -> ok_thread g' t x.
Proof.
  intros M (H & O). split; [exact H|]. destruct (at_ x); [exact I| |].
  - destruct O as (J & G & A & L). repeat split; trivial. intros s. destruct (A s); auto.
  - destruct O as (j & E & F). exists j. auto.
Qed.
Lemma world_set w t x g' : ok_world w -> ok_table g' -> (forall s, filled s (shared w) -> filled s g') -> ok_thread g' t x ->
  ok_world (World g' (set_thread w t x)).
Proof.
  intros [_ T] G' M O. split; [exact G'|]. intros t'. cbn [shared threads]. unfold set_thread. destruct (Nat.eqb_spec t' t) as [->|N]; [exact O|].
  apply (thread_mono (shared w)); auto.
Qed.
Lemma snoc_ok h j a : ok_history h -> proper c j -> right c j a -> ok_history (h ++ [(j, a)]).
Proof. intros H P A. apply Forall_app. split; [exact H|]. constructor; [|constructor]. split; assumption. Qed.
Lemma step_ok t w w' : ok_world w -> step c d p prog t w w' -> ok_world w'.
Proof.
  intros W S. pose proof W as [G T]. specialize (T t).
  destruct S as [h j E EP L|h j E EP L N|h j r todo E EP L N SD PM|h j E EP L N SD|h r s todo E|h r E|h j E EP]; rewrite E in T; destruct T as [H O]; cbn [done at_] in H, O.
  - apply world_set; auto. split; [|exact I]. cbn [done]. apply snoc_ok; eauto. apply rest_ok; eauto. congruence.
  - apply world_set; auto. split; [exact H|]. cbn [at_ done]. exists j. split; [exact EP|].
    destruct (G (tested j)) as [[M Z]|F]; [|exact F]. rewrite M, Z in N. discriminate.
  - apply world_set; auto. split; [exact H|]. cbn [at_ done]. split; [eauto|].
    destruct (setDispatch_ok c d p C X LE R V (shared w)) as (r' & E' & G'). rewrite SD in E'. injection E' as <-. split; [exact G'|].
    split; [|rewrite <- (Permutation_length PM); cbn; lia]. intros s. left. apply (Permutation_in _ PM), all_slots_in.
  - destruct (setDispatch_ok c d p C X LE R V (shared w)) as (r' & E' & G'). destruct (SD _ E').
  - destruct O as (J & Hr & A & L). apply world_set; auto.
    + intros s'. destruct (slot_dec s' s) as [->|N].
      * right. apply store_filled; auto.
      * destruct (G s') as [[M Z]|F]; [left; rewrite store_other by trivial; auto|right; apply store_filled; auto].
    + intros s' F. apply store_filled; auto.
    + split; [exact H|]. cbn [at_ done]. split; [exact J|]. split; [exact Hr|]. split; [|cbn in L; lia].
      intros s'. destruct (A s') as [[->|I']|F]; [right; apply store_filled; auto|left; exact I'|right; apply store_filled; auto].
  - destruct O as (J & Hr & A & _). apply world_set; auto. split; [exact H|]. cbn [at_ done]. destruct J as (j & J). exists j. split; [exact J|].
    destruct (A (tested j)) as [[]|F]. exact F.
  - destruct O as (j' & E' & F). assert (j' = j) by congruence. subst j'. apply world_set; auto. split; [|exact I]. cbn [done].
    apply snoc_ok; eauto. apply rest_ok; eauto.
Qed.
Lemma steps_ok ts w w' : ok_world w -> steps c d p prog ts w w' -> ok_world w'.
Proof. intros W S. induction S; eauto using step_ok. Qed.

(** ** nobody waits *)
Lemma can_step t w : ok_world w -> prog t (done (threads w t)) <> None -> exists w', step c d p prog t w w'.
Proof.
  intros [G T] N. specialize (T t). destruct (threads w t) as [h ph] eqn:E. cbn [done] in N. destruct (prog t h) as [j|] eqn:EP; [|congruence].
  destruct T as [_ O]. cbn [at_ done] in O. destruct ph as [|r todo|].
  - destruct (looks j) eqn:L; [|eexists; eapply Step_short; eassumption].
    destruct (maybe_null d && slot_null (tested j) (shared w)) eqn:Z; [|eexists; eapply Step_found; eassumption].
    destruct (setDispatch_ok c d p C X LE R V (shared w)) as (r & SD & _). eexists. eapply (Step_null _ _ _ _ _ _ h j r all_slots); trivial.
  - destruct todo as [|s todo]; eexists; [eapply Step_stored; exact E|eapply Step_store; exact E].
  - eexists. eapply Step_call; eassumption.
Qed.
(** steps a thread still needs, at most, to complete the call it is in *)
Definition left_ (x : thread) : nat := match at_ x with Before => 11 | Storing _ todo => 2 + length todo | After => 1 end.
Lemma step_measure t w w' : ok_world w -> step c d p prog t w w' ->
  (length (done (threads w' t)) = S (length (done (threads w t))) \/
   length (done (threads w' t)) = length (done (threads w t)) /\ left_ (threads w' t) < left_ (threads w t))%nat.
Proof.
  intros W S. destruct S as [h j E EP L|h j E EP L N|h j r todo E EP L N SD PM|h j E EP L N SD|h r s todo E|h r E|h j E EP];
    cbn [threads]; unfold set_thread; rewrite Nat.eqb_refl, E; unfold left_; cbn [done at_ length]; rewrite ?app_length; cbn [length]; try lia.
  rewrite <- (Permutation_length PM). cbn. lia.
Qed.
Lemma step_other t t' w w' : t <> t' -> step c d p prog t w w' -> threads w' t' = threads w t'.
Proof.
  intros N S. destruct S; cbn [threads]; unfold set_thread; destruct (Nat.eqb_spec t' t); congruence.
Qed.
Lemma wait_free t ts w w' : ok_world w -> steps c d p prog ts w w' ->
  (length (done (threads w t)) <= length (done (threads w' t)))%nat /\
  (left_ (threads w t) <= count_occ Nat.eq_dec ts t -> length (done (threads w t)) < length (done (threads w' t)))%nat.
Proof.
  intros W S. induction S as [w|t0 ts w w1 w2 S1 S2 IH].
  - split; [lia|]. cbn. unfold left_. destruct (at_ _); lia.
  - pose proof (step_ok _ _ _ W S1) as W1. specialize (IH W1). destruct IH as [IH1 IH2]. cbn [count_occ]. destruct (Nat.eq_dec t0 t) as [->|N].
    + destruct (step_measure _ _ _ W S1) as [M|[M1 M2]]; [lia|]. split; [lia|]. intros L. rewrite <- M1. apply IH2. lia.
    + rewrite (step_other _ _ _ _ N S1) in IH1, IH2. auto.
Qed.
End MT.
