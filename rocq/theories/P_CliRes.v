(** Proofs about the files and the memory of xxhsum. *)
From Coq Require Import String List.
From Verif Require Import Base Mem M_Cli M_Cli2 M_Cli3 M_CliRes SpecRes P_Base.
#[local] Open Scope list_scope.

(** ** Stores *)
Lemma same_refl h : same h h = true.
Proof. destruct h; [reflexivity|apply Nat.eqb_refl]. Qed.
Lemma same_eq a b : same a b = true -> a = b.
Proof. destruct a, b; cbn; try discriminate; [reflexivity|]. intros H. apply Nat.eqb_eq in H. congruence. Qed.
Lemma has_in h l : has h l = true <-> In h l.
Proof.
  unfold has. rewrite existsb_exists. split; [intros (x & I & E); apply same_eq in E; congruence|]. intros I. exists h. split; [exact I|apply same_refl].
Qed.
Lemma without_head h l : without h (h :: l) = l.
Proof. cbn. rewrite same_refl. reflexivity. Qed.
Lemma without_second h x l : h <> x -> without h (x :: h :: l) = x :: l.
Proof. intros N. cbn. rewrite same_refl. destruct (same h x) eqn:E; [apply same_eq in E; congruence|reflexivity]. Qed.
Lemma without_in x h l : In x (without h l) -> In x l.
Proof. induction l as [|y l IH]; [trivial|]. cbn. destruct (same h y); [tauto|]. intros [->|I]; [now left|right; auto]. Qed.
Lemma without_len h l : In h l -> S (length (without h l)) = length l.
Proof.
  induction l as [|y l IH]; intros I; [destruct I|]. cbn. destruct (same h y) eqn:E; [reflexivity|]. cbn. f_equal. apply IH. destruct I as [->|I]; [|exact I]. rewrite same_refl in E. discriminate.
Qed.

Lemma replay_app l l' : forall n s, replay n (l ++ l') s = match replay n l s with Some s' => replay (n + length l) l' s' | None => None end.
Proof.
  induction l as [|e l IH]; intros n s; cbn [app replay length]; [rewrite Nat.add_0_r; reflexivity|]. destruct (step n e s) as [s'|]; [|reflexivity].
  rewrite IH. replace (S n + length l)%nat with (n + S (length l))%nat by lia. reflexivity.
Qed.
Lemma snoc l s e s' : stands l s -> step (length l) e s = Some s' -> stands (l ++ [e]) s'.
Proof. unfold stands. intros H E. rewrite replay_app, H. cbn [replay Nat.add]. rewrite E. reflexivity. Qed.
(** names in the store are names of calls made *)
Definition old (n : nat) (h : handle) : Prop := match h with Std => True | At k => (k < n)%nat end.
Lemma old_S n h : old n h -> old (S n) h.
Proof. destruct h; cbn; lia. Qed.
Lemma step_old n e s s' : (forall h, In h (opened s) \/ In h (held s) -> old n h) -> step n e s = Some s' -> forall h, In h (opened s') \/ In h (held s') -> old (S n) h.
Proof.
  intros H E h I. destruct e as [|f|f| |b|b|b]; cbn [step] in E; try (destruct (has _ _); [|discriminate]); injection E as <-; cbn [opened held] in I;
    try (apply old_S, H; tauto); destruct I as [I|I];
    try (destruct I as [<-|I]; [cbn; lia|]); try apply without_in in I; apply old_S, H; tauto.
Qed.
Lemma replay_old l : forall n s s', (forall h, In h (opened s) \/ In h (held s) -> old n h) -> replay n l s = Some s' -> forall h, In h (opened s') \/ In h (held s') -> old (n + length l) h.
Proof.
  induction l as [|e l IH]; intros n s s' H E; cbn [replay length] in *; [injection E as <-; rewrite Nat.add_0_r; exact H|].
  destruct (step n e s) as [s1|] eqn:E1; [|discriminate]. replace (n + S (length l))%nat with (S n + length l)%nat by lia. apply (IH (S n) s1 s'); [|exact E]. exact (step_old n e s s1 H E1).
Qed.
Lemma fresh_new l s : stands l s -> ~ In (fresh l) (opened s) /\ ~ In (fresh l) (held s).
Proof.
  intros H. assert (O : forall h, In h (opened s) \/ In h (held s) -> old (length l) h).
  { apply (replay_old l 0 start s); [|exact H]. intros h [I|I]; cbn in I; [destruct I as [<-|[]]; exact I|destruct I]. }
  split; intros I; [specialize (O (fresh l) (or_introl I))|specialize (O (fresh l) (or_intror I))]; cbn in O; lia.
Qed.

(** single calls *)
Definition room (k j : nat) (s s' : store) : Prop :=
  (most_opened s' <= Nat.max (most_opened s) (length (opened s) + k))%nat /\ (most_held s' <= Nat.max (most_held s) (length (held s) + j))%nat.
Lemma open_one l s : stands l s -> exists s', stands (l ++ [Opened]) s' /\ opened s' = fresh l :: opened s /\ held s' = held s /\
  most_opened s' = Nat.max (most_opened s) (S (length (opened s))) /\ most_held s' = most_held s.
Proof. intros H. eexists. split; [exact (snoc l s Opened _ H eq_refl)|]. repeat split. Qed.
Lemma alloc_one l s : stands l s -> exists s', stands (l ++ [Allocated]) s' /\ opened s' = opened s /\ held s' = fresh l :: held s /\
  most_opened s' = most_opened s /\ most_held s' = Nat.max (most_held s) (S (length (held s))).
Proof. intros H. eexists. split; [exact (snoc l s Allocated _ H eq_refl)|]. repeat split. Qed.
Lemma read_one l s f : stands l s -> In f (opened s) -> stands (l ++ [Read f]) s.
Proof. intros H I. apply (snoc l s _ s H). cbn. apply has_in in I. rewrite I. reflexivity. Qed.
Lemma use_one l s b : stands l s -> In b (held s) -> stands (l ++ [Used b]) s.
Proof. intros H I. apply (snoc l s _ s H). cbn. apply has_in in I. rewrite I. reflexivity. Qed.
Lemma close_one l s f : stands l s -> In f (opened s) -> exists s', stands (l ++ [Closed f]) s' /\ opened s' = without f (opened s) /\ held s' = held s /\
  (most_opened s' <= Nat.max (most_opened s) (length (opened s)))%nat /\ most_held s' = most_held s.
Proof.
  intros H I. eexists. split; [apply (snoc l s _ _ H); cbn; pose proof I as J; apply has_in in J; rewrite J; reflexivity|]. cbn. repeat split.
  pose proof (without_len f (opened s) I). lia.
Qed.
Lemma free_one l s b : stands l s -> In b (held s) -> exists s', stands (l ++ [Freed b]) s' /\ opened s' = opened s /\ held s' = without b (held s) /\
  most_opened s' = most_opened s /\ (most_held s' <= Nat.max (most_held s) (length (held s)))%nat.
Proof.
  intros H I. eexists. split; [apply (snoc l s _ _ H); cbn; pose proof I as J; apply has_in in J; rewrite J; reflexivity|]. cbn. repeat split.
  pose proof (without_len b (held s) I). lia.
Qed.
Lemma move_one l s b : stands l s -> In b (held s) -> exists s', stands (l ++ [Moved b]) s' /\ opened s' = opened s /\ held s' = fresh l :: without b (held s) /\
  most_opened s' = most_opened s /\ (most_held s' <= Nat.max (most_held s) (length (held s)))%nat.
Proof.
  intros H I. eexists. split; [apply (snoc l s _ _ H); cbn; pose proof I as J; apply has_in in J; rewrite J; reflexivity|]. cbn. repeat split.
  pose proof (without_len b (held s) I). lia.
Qed.

(** ** The same program, with the calls *)
Definition sim {A B} (r : res A) (R : res (A * B)) (P : A -> B -> Prop) : Prop :=
  match r with OK a => exists b, R = OK (a, b) /\ P a b | UB => R = UB | NoFuel => R = NoFuel end.
Lemma sim_while {A B} (c : A -> bool) (f : A -> res A) (F : A * B -> res (A * B)) (I : A -> B -> Prop) :
  (forall a b, c a = true -> I a b -> sim (f a) (F (a, b)) I) ->
  forall k a b, I a b -> sim (while_ k c f a) (while_ k (fun s => c (fst s)) F (a, b)) I.
Proof.
  intros H. induction k as [|k IH]; intros a b HI; cbn [while_ fst]; destruct (c a) eqn:E; cbn [sim]; eauto.
  specialize (H a b E HI). unfold sim in H. destruct (f a) as [a'| |]; cbn [bind]; [|rewrite H; reflexivity..].
  destruct H as (b' & -> & HI'). cbn [bind]. apply IH, HI'.
Qed.
Lemma sim_imp {A B} (r : res A) (R : res (A * B)) (P Q : A -> B -> Prop) : sim r R P -> (forall a b, P a b -> Q a b) -> sim r R Q.
Proof. unfold sim. destruct r; [|trivial..]. intros (b & E & H) K. eauto. Qed.

(** one file *)
Definition gives_back (s : store) (fs : list handle) (k j : nat) (r : option Z * mach) (l : log) : Prop :=
  exists s', stands l s' /\ room k j s s' /\ (fst r = None \/ opened s' = fs /\ held s' = held s).
Lemma hashFile_res e m l n a de conv s : stands l s -> (n = Stdin -> In Std (opened s)) ->
  sim (M_Cli2.hashFile e m n a de conv) (Res.hashFile e m l n a de conv) (gives_back s (match n with Stdin => without Std (opened s) | Named _ => opened s end) 1 1).
Proof.
  intros H HS. unfold M_Cli2.hashFile, Res.hashFile.
  assert (T : forall f name fp l s1, stands l s1 -> In fp (opened s1) -> held s1 = held s -> without fp (opened s1) = match n with Stdin => without Std (opened s) | Named _ => opened s end ->
    (length (opened s1) <= S (length (opened s)))%nat -> (most_opened s1 <= Nat.max (most_opened s) (S (length (opened s))))%nat -> most_held s1 = most_held s ->
    sim (let '(buffer, m) := malloc e m 65536 in
      match buffer with
      | None => OK (Some 1, m)
      | Some buffer =>
          let! (h, _, f) := hashStream e (m_tick m) f a buffer 65536 in
          let m := tick match n with Stdin => Mach f (m_out m) (m_tick m) | _ => m end in
          match h with
          | None => OK (None, m)
          | Some h => let! canon := canonicalOf (e_cfg e) h (repeat 0 4) (repeat 0 8) (repeat 0 16) in let! line := displayLine conv de name canon a in OK (Some 0, output m line)
          end
      end)
     (let '(buffer, m) := malloc e m 65536 in
      match buffer with
      | None => OK (Some 1, m, l ++ [Closed fp])
      | Some buffer =>
          let bp := fresh l in
          let l := l ++ [Allocated] in
          let! (h, _, f, l) := Res.hashStream e (m_tick m) fp f a bp buffer 65536 l in
          let m := tick match n with Stdin => Mach f (m_out m) (m_tick m) | _ => m end in
          match h with
          | None => OK (None, m, l)
          | Some h =>
              let l := l ++ [Closed fp] in
              let l := l ++ [Freed bp] in
              let! canon := canonicalOf (e_cfg e) h (repeat 0 4) (repeat 0 8) (repeat 0 16) in
              let! line := displayLine conv de name canon a in
              OK (Some 0, output m line, l)
          end
      end) (gives_back s (match n with Stdin => without Std (opened s) | Named _ => opened s end) 1 1)).
  { clear l H. intros f name fp l s1 H1 I1 E1 W L1 M1 M2. unfold malloc. destruct (e_malloc e (m_tick m) 65536) as [buf|].
    2:{ destruct (close_one l s1 fp H1 I1) as (s2 & H2 & O2 & E2 & A2 & B2). eexists. split; [reflexivity|]. exists s2. split; [exact H2|]. unfold room. rewrite E2, O2, W. repeat split; try lia. right. split; congruence. }
    unfold Res.hashStream. destruct (hashStream e _ f a buf 65536) as [[[h bl] f']| |]; [|reflexivity..]. cbn [bind].
    destruct (alloc_one l s1 H1) as (s2 & H2 & O2 & E2 & A2 & B2). rewrite <- O2 in I1.
    assert (U2 : In (fresh l) (held s2)) by (rewrite E2; now left).
    change ((l ++ [Allocated]) ++ [Read fp; Used (fresh l)]) with ((l ++ [Allocated]) ++ [Read fp] ++ [Used (fresh l)]).
    rewrite (app_assoc (l ++ [Allocated])). pose proof (use_one _ s2 (fresh l) (read_one _ s2 fp H2 I1) U2) as H3. set (l3 := ((l ++ [Allocated]) ++ [Read fp]) ++ [Used (fresh l)]) in *.
    destruct h as [h|].
    2:{ eexists. split; [reflexivity|]. exists s2. split; [exact H3|]. unfold room. rewrite A2, B2, E1, M2. cbn [fst]. repeat split; try lia. left. reflexivity. }
    destruct (canonicalOf _ _ _ _ _) as [cn| |]; [|reflexivity..]. cbn [bind]. destruct (displayLine _ _ _ _ _) as [ln| |]; [|reflexivity..]. cbn [bind].
    eexists. split; [reflexivity|].
    destruct (close_one l3 s2 fp H3 I1) as (s4 & H4 & O4 & E4 & A4 & B4). rewrite <- E4 in U2.
    destruct (free_one _ s4 (fresh l) H4 U2) as (s5 & H5 & O5 & E5 & A5 & B5).
    exists s5. split; [exact H5|]. unfold room. cbn [fst]. rewrite E5, O5, E4, E2, without_head, O4, O2, W, E1. rewrite E4, E2 in B5. cbn [length] in B5. rewrite E1 in *. rewrite O2 in A4.
    repeat split; try lia. right. auto. }
  destruct n as [|n]; [apply T with (s1 := s); auto; lia|]. destruct (e_dir e n).
  { eexists. split; [reflexivity|]. exists s. unfold room. cbn [fst]. repeat split; try lia; auto. }
  destruct (e_fs e n) as [f|].
  2:{ eexists. split; [reflexivity|]. exists s. unfold room. cbn [fst]. repeat split; try lia; auto. }
  destruct (open_one l s H) as (s1 & H1 & O1 & E1 & A1 & B1). apply T with (s1 := s1); auto; rewrite ?O1; try (now left); try apply without_head; cbn [length]; lia.
Qed.
Lemma hashFiles_loop_res e a de conv s ns : forall m l s0 r, stands l s0 -> opened s0 = opened s -> held s0 = held s -> room 1 1 s s0 ->
  sim (M_Cli2.hashFiles_loop e m ns a de conv r) (Res.hashFiles_loop e m l ns a de conv r) (gives_back s (opened s) 1 1).
Proof.
  induction ns as [|n ns IH]; intros m l s0 r H O E R; cbn [M_Cli2.hashFiles_loop Res.hashFiles_loop].
  { eexists. split; [reflexivity|]. exists s0. auto. }
  pose proof (hashFile_res e m l (Named n) a de conv s0 H ltac:(discriminate)) as S1. unfold sim in S1.
  destruct (M_Cli2.hashFile e m (Named n) a de conv) as [[c m']| |]; [|rewrite S1; reflexivity..]. destruct S1 as (l1 & -> & s1 & H1 & R1 & D1). cbn [bind].
  assert (R2 : room 1 1 s s1) by (unfold room in *; rewrite O, E in R1; lia).
  cbn [fst] in D1. destruct c as [c|]; [|eexists; split; [reflexivity|]; exists s1; cbn [fst]; auto].
  destruct D1 as [D1|[D1 D2]]; [discriminate|]. apply (IH m' l1 s1); first [assumption|congruence].
Qed.
Theorem hashFiles_res e m l ns a de conv s : stands l s -> In Std (opened s) ->
  sim (M_Cli2.hashFiles e m ns a de conv) (Res.hashFiles e m l ns a de conv) (gives_back s (match ns with [] => without Std (opened s) | _ => opened s end) 1 1).
Proof.
  intros H I. destruct ns as [|n ns]; [exact (hashFile_res e m l Stdin a de conv s H (fun _ => I))|].
  apply (hashFiles_loop_res e a de conv s (n :: ns) m l s 0 H eq_refl eq_refl). unfold room. lia.
Qed.

(** ** Checking a list: the stream of the list is open, the line buffer and the block are held *)
Section Check.
Context (fs hs : list handle) (kp : handle) (MO MH : nat).
Definition Ended (l : log) : Prop := exists s, stands l s /\ (most_opened s <= MO)%nat /\ (most_held s <= MH)%nat.
Definition Inv (bp : option handle) (l : log) : Prop := exists s, stands l s /\ opened s = fs /\ (most_opened s <= MO)%nat /\ (most_held s <= MH)%nat /\
  match bp with Some b => b <> kp /\ (held s = b :: kp :: hs \/ held s = kp :: b :: hs) | None => held s = kp :: hs end.
Lemma Inv_ended bp l : Inv bp l -> Ended l.
Proof. intros (s & H & _ & A & B & _). exists s. auto. Qed.
Lemma Inv_read bp l f : Inv bp l -> In f fs -> Inv bp (l ++ [Read f]).
Proof. intros (s & H & O & R) I. exists s. split; [apply read_one; [exact H|rewrite O; exact I]|]. split; assumption. Qed.
Lemma Inv_use b l : Inv (Some b) l -> Inv (Some b) (l ++ [Used b]).
Proof.
  intros (s & H & O & A & B & N & D). exists s. split; [apply use_one; [exact H|]|auto]. destruct D as [-> | ->]; cbn; auto.
Qed.
Lemma Inv_block bp l : Inv bp l -> Inv bp (l ++ [Used kp]).
Proof.
  intros (s & H & O & A & B & D). exists s. split; [apply use_one; [exact H|]|auto]. destruct bp; [destruct D as [_ [-> | ->]]|rewrite D]; cbn; auto.
Qed.
Context (ROOM : (length hs + 2 <= MH)%nat) (ROOMF : (length fs + 1 <= MO)%nat).
Lemma Inv_move b l : Inv (Some b) l -> Inv (Some (fresh l)) (l ++ [Moved b]).
Proof.
  intros (s & H & O & A & B & N & D). destruct (fresh_new l s H) as [_ F].
  destruct (move_one l s b H) as (s' & H' & O' & E' & A' & B'); [destruct D as [-> | ->]; cbn; auto|].
  assert (FK : fresh l <> kp) by (intros QF; apply F; rewrite QF; destruct D as [-> | ->]; cbn; auto).
  assert (W : without b (held s) = kp :: hs) by (destruct D as [-> | ->]; [apply without_head|apply without_second; exact N]).
  assert (L : length (held s) = S (S (length hs))) by (destruct D as [-> | ->]; reflexivity).
  exists s'. rewrite E', W, O', A'. repeat split; auto; lia.
Qed.
Lemma Inv_alloc l : Inv None l -> Inv (Some (fresh l)) (l ++ [Allocated]).
Proof.
  intros (s & H & O & A & B & D). destruct (fresh_new l s H) as [_ F]. destruct (alloc_one l s H) as (s' & H' & O' & E' & A' & B').
  exists s'. rewrite E', D, O', A'. assert (FK : fresh l <> kp) by (intros QF; apply F; rewrite QF, D; now left). rewrite D in B'. cbn [length] in B'. repeat split; auto; lia.
Qed.
Lemma Inv_free b l : Inv (Some b) l -> Inv None (l ++ [Freed b]).
Proof.
  intros (s & H & O & A & B & N & D). destruct (free_one l s b H) as (s' & H' & O' & E' & A' & B'); [destruct D as [-> | ->]; cbn; auto|].
  assert (W : without b (held s) = kp :: hs) by (destruct D as [-> | ->]; [apply without_head|apply without_second; exact N]).
  assert (L : length (held s) = S (S (length hs))) by (destruct D as [-> | ->]; reflexivity).
  exists s'. rewrite E', W, O', A'. repeat split; auto; lia.
Qed.
Context (fp : handle) (FP : In fp fs) (ST : In Std fs).
Lemma getLine_body_res e st bp l : Inv (Some bp) l -> sim (getLine_body e st) (Res.getLine_body e fp (st, (bp, l))) (fun _ bl => Inv (Some (fst bl)) (snd bl)).
Proof.
  intros H. destruct st as [[[[[b lm] len] f] m] sp]. unfold getLine_body, Res.getLine_body. destruct (fgetc f) as [[ch|] f']; (apply (Inv_read _ _ fp) in H; [|exact FP]).
  2:{ eexists. split; [reflexivity|exact H]. }
  set (l1 := l ++ [Read fp]) in *. clearbody l1. clear l.
  assert (K : forall (b : list Z) (lm : Z) (m : mach) (bp : handle) (l : log), Inv (Some bp) l ->
    sim (A := list Z * Z * Z * file * mach * option left) (B := handle * log) (if ch =? LF then OK (b, lm, len, f', m, Some (Break GetLine_ok)) else let! b := cset b len ch in OK (b, lm, len + 1, f', m, None))
        (if ch =? LF then OK ((b, lm, len, f', m, Some (Break GetLine_ok)), (bp, l)) else let! b := cset b len ch in OK ((b, lm, len + 1, f', m, None), (bp, l ++ [Used bp])))
        (fun _ bl => Inv (Some (fst bl)) (snd bl))).
  { clear. intros b lm m bp l H. destruct (ch =? LF); [eexists; split; [reflexivity|exact H]|]. destruct (cset b len ch); [|reflexivity..]. eexists. split; [reflexivity|apply Inv_use; exact H]. }
  destruct (lm <=? len + 1); [|apply K; exact H]. cbv zeta. set (n := if MAX_LINE_LENGTH <? lm + (lm / 2 + 1) then MAX_LINE_LENGTH else lm + (lm / 2 + 1)).
  destruct (n <=? len + 1); [eexists; split; [reflexivity|exact H]|]. destruct (realloc e m b n) as [[b'|] m'].
  - apply K, Inv_move, H.
  - eexists. split; [reflexivity|exact H].
Qed.
Lemma getLine_res e m l lb bp lm f : Inv bp l -> (lb = None <-> bp = None) ->
  sim (getLine e m lb lm f) (Res.getLine e m l lb bp lm fp f) (fun r bl => Inv (fst bl) (snd bl) /\ (snd (fst (fst (fst r))) = None <-> fst bl = None)).
Proof.
  intros H Q. unfold getLine, Res.getLine.
  assert (K : forall b lm m bp l, Inv (Some bp) l -> sim
    (let! (b, lineMax, len, f, m, stop) :=
        while_ (S (List.length (f_content f))) (fun s => match snd s with None => true | Some _ => false end) (getLine_body e) (b, lm, 0, f, m, None) in
      match stop with
      | None => UB
      | Some (Return r) => OK (r, Some b, lineMax, f, m)
      | Some (Break r) =>
          let! b := cset b len 0 in
          let! ch := cget b 0 in
          let r := match r with GetLine_ok => if (0 <? len) && (ch =? 35) then GetLine_comment else GetLine_ok | r => r end in
          OK (r, Some b, lineMax, f, m)
      end)
    (let! (b, lineMax, len, f, m, stop, (bp, l)) :=
        while_ (S (List.length (f_content f))) (fun s => match snd (fst s) with None => true | Some _ => false end) (Res.getLine_body e fp) (b, lm, 0, f, m, None, (bp, l)) in
      match stop with
      | None => UB
      | Some (Return r) => OK (r, Some b, lineMax, f, m, (Some bp, l))
      | Some (Break r) =>
          let! b := cset b len 0 in
          let! ch := cget b 0 in
          let r := match r with GetLine_ok => if (0 <? len) && (ch =? 35) then GetLine_comment else GetLine_ok | r => r end in
          OK (r, Some b, lineMax, f, m, (Some bp, l ++ [Used bp]))
      end) (fun r bl => Inv (fst bl) (snd bl) /\ (snd (fst (fst (fst r))) = None <-> fst bl = None))).
  { clear H Q l m bp lm lb. intros b lm m bp l H.
    pose proof (sim_while (fun s => match snd s with None => true | Some _ => false end) (getLine_body e) (Res.getLine_body e fp) (fun _ bl => Inv (Some (fst bl)) (snd bl))
      ltac:(intros a [b0 l0] _ HI; apply getLine_body_res; exact HI) (S (List.length (f_content f))) (b, lm, 0, f, m, None) (bp, l) H) as S1.
    unfold sim in S1. destruct (while_ _ _ (getLine_body e) _) as [[[[[[b1 lm1] len1] f1] m1] stop]| |]; [|rewrite S1; reflexivity..]. destruct S1 as ([bp1 l1] & -> & H1). cbn [bind fst snd] in *.
    destruct stop as [[r|r]|]; [|eexists; split; [reflexivity|]; cbn; split; [exact H1|split; discriminate]|reflexivity].
    destruct (cset b1 len1 0) as [b2| |]; [|reflexivity..]. cbn [bind]. destruct (cget b2 0) as [ch| |]; [|reflexivity..]. cbn [bind]. eexists. split; [reflexivity|]. cbn [fst snd].
    split; [apply Inv_use; exact H1|split; discriminate]. }
  unfold malloc. destruct lb as [b|].
  - destruct bp as [bp|]; [|destruct Q as [_ Q]; discriminate (Q eq_refl)]. destruct (lm <? 1); [|apply K, H]. apply Inv_free in H.
    destruct (e_malloc e (m_tick m) DEFAULT_LINE_LENGTH) as [b'|]; [apply K, Inv_alloc, H|]. eexists. split; [reflexivity|]. cbn [fst snd]. split; [exact H|tauto].
  - destruct bp as [bp|]; [destruct Q as [Q _]; discriminate (Q eq_refl)|].
    destruct (e_malloc e (m_tick m) DEFAULT_LINE_LENGTH) as [b'|]; [apply K, Inv_alloc, H|]. eexists. split; [reflexivity|]. cbn [fst snd]. split; [exact H|tauto].
Qed.
Lemma verifyLine_res e m l bp block name a canon : Inv bp l ->
  sim (M_Cli2.verifyLine e m block name a canon) (Res.verifyLine e m l kp block name a canon) (fun r l' => match fst (fst r) with None => Ended l' | Some _ => Inv bp l' end).
Proof.
  intros H. unfold M_Cli2.verifyLine, Res.verifyLine. cbv zeta. destruct (eqb_list name stdinFileName) eqn:EN; [|destruct (e_fs e name) as [f|]].
  - unfold Res.hashStream. destruct (hashStream _ _ _ _ _ _) as [[[h b'] f']| |]; [|reflexivity..]. cbn [bind].
    apply (Inv_read _ _ Std) in H; [|exact ST]. apply Inv_block in H. rewrite <- app_assoc in H. cbn [app] in H.
    destruct h as [h|]; [|eexists; split; [reflexivity|exact (Inv_ended _ _ H)]]. destruct (compare_hash _ _ _ _); [|reflexivity..]. cbn [bind]. eexists. split; [reflexivity|exact H].
  - unfold Res.hashStream. destruct (hashStream _ _ _ _ _ _) as [[[h b'] f']| |]; [|reflexivity..]. cbn [bind].
    destruct H as (s & H & O & A & B & D). destruct (open_one l s H) as (s1 & H1 & O1 & E1 & A1 & B1).
    assert (I1 : In (fresh l) (opened s1)) by (rewrite O1; now left).
    assert (K1 : In kp (held s1)) by (rewrite E1; destruct bp; [destruct D as [_ [-> | ->]]|rewrite D]; cbn; auto).
    pose proof (use_one _ s1 kp (read_one _ s1 _ H1 I1) K1) as H2. rewrite <- (app_assoc (l ++ [Opened])) in H2. cbn [app] in H2.
    assert (L : (most_opened s1 <= MO)%nat /\ (most_held s1 <= MH)%nat) by (rewrite A1, B1, O; lia).
    destruct h as [h|]; [|eexists; split; [reflexivity|exists s1; tauto]]. destruct (compare_hash _ _ _ _); [|reflexivity..]. cbn [bind]. eexists. split; [reflexivity|]. cbn [fst].
    destruct (close_one _ s1 (fresh l) H2 I1) as (s3 & H3 & O3 & E3 & A3 & B3). exists s3. rewrite O1 in A3. cbn [length] in A3. rewrite O in A3. rewrite O3, O1, without_head, E3, E1, B3. repeat split; auto; lia.
  - eexists. split; [reflexivity|exact H].
Qed.
Definition J (s : pstate) (bl : option handle * log) : Prop :=
  if p_exit s then p_break s = true /\ Ended (snd bl) else Inv (fst bl) (snd bl) /\ (p_lineBuf s = None <-> fst bl = None).
Lemma body_res e a rev s bl : negb (quit (p_rep s)) && negb (p_break s) = true -> J s bl -> sim (parseFile1_body e a rev s) (Res.parseFile1_body e a rev fp kp (s, bl)) J.
Proof.
  intros C HJ. destruct bl as [bp l]. destruct s as [own lb lm block rep line m br ex]. unfold J in HJ. cbn [p_exit p_break p_rep p_lineBuf fst snd] in *.
  destruct ex; [destruct HJ as [-> _]; rewrite andb_false_r in C; discriminate|]. destruct HJ as [H Q]. clear C.
  unfold parseFile1_body, Res.parseFile1_body. destruct (incr e line =? 0); [eexists; split; [reflexivity|split; assumption]|].
  set (fin := match own with Some f => f | None => m_stdin m end).
  pose proof (getLine_res e m l lb bp lm fin H Q) as S1. unfold sim in S1. destruct (getLine e m lb lm fin) as [[[[[g lb1] lm1] f1] m1]| |]; [|rewrite S1; reflexivity..].
  destruct S1 as ([bp1 l1] & -> & H1 & Q1). cbn [bind fst snd] in *. clear H Q.
  assert (K : forall own m, sim
    match g with
    | GetLine_comment => OK (PState own lb1 lm1 block rep (incr e line) m false false)
    | GetLine_eof => OK (PState own lb1 lm1 block rep (incr e line) m true false)
    | GetLine_exceedMaxLineLength | GetLine_outOfMemory => OK (PState own lb1 lm1 block (set_quit rep) (incr e line) m true false)
    | GetLine_ok =>
        match lb1 with
        | None => UB
        | Some b =>
            let! (r, b) := parseLine b rev (a_mask a) in
            match r with
            | None => OK (PState own (Some b) lm1 block (add_improper e rep) (incr e line) m false false)
            | Some (al, canonical, fidx) =>
                let! filename := cstr b fidx in
                let! (st, block, m) := verifyLine e m block filename al canonical in
                match st with
                | None => OK (PState own (Some b) lm1 block (add_proper e rep) (incr e line) m true true)
                | Some st => let '(rep, m) := lineReport e a m (add_proper e rep) (incr e line) filename st in OK (PState own (Some b) lm1 block rep (incr e line) m false false)
                end
            end
        end
    end
    match g with
    | GetLine_comment => OK (PState own lb1 lm1 block rep (incr e line) m false false, (bp1, l1))
    | GetLine_eof => OK (PState own lb1 lm1 block rep (incr e line) m true false, (bp1, l1))
    | GetLine_exceedMaxLineLength | GetLine_outOfMemory => OK (PState own lb1 lm1 block (set_quit rep) (incr e line) m true false, (bp1, l1))
    | GetLine_ok =>
        match lb1, bp1 with
        | Some b, Some p =>
            let! (r, b) := parseLine b rev (a_mask a) in
            match r with
            | None => OK (PState own (Some b) lm1 block (add_improper e rep) (incr e line) m false false, (bp1, l1 ++ [Used p]))
            | Some (al, canonical, fidx) =>
                let! filename := cstr b fidx in
                let! (st, block, m, l) := Res.verifyLine e m ((l1 ++ [Used p]) ++ [Used p]) kp block filename al canonical in
                match st with
                | None => OK (PState own (Some b) lm1 block (add_proper e rep) (incr e line) m true true, (bp1, l))
                | Some st => let '(rep, m) := lineReport e a m (add_proper e rep) (incr e line) filename st in OK (PState own (Some b) lm1 block rep (incr e line) m false false, (bp1, l ++ [Used p]))
                end
            end
        | _, _ => UB
        end
    end J).
  { clear own m fin m1 f1. intros own m. destruct g; try (eexists; split; [reflexivity|]; split; cbn [p_lineBuf fst snd]; assumption).
    destruct lb1 as [b|]; [|reflexivity]. destruct bp1 as [p|]; [|destruct Q1 as [_ Q1]; discriminate (Q1 eq_refl)].
    destruct (parseLine b rev (a_mask a)) as [[r b']| |]; [|reflexivity..]. cbn [bind]. apply Inv_use in H1.
    destruct r as [[[al cn] i]|]; [|eexists; split; [reflexivity|]; split; [exact H1|split; discriminate]].
    destruct (cstr b' i) as [nm| |]; [|reflexivity..]. cbn [bind]. apply Inv_use in H1.
    pose proof (verifyLine_res e m _ _ block nm al cn H1) as S2. unfold sim in S2. destruct (verifyLine e m block nm al cn) as [[[st bk] m2]| |]; [|rewrite S2; reflexivity..].
    destruct S2 as (l2 & -> & H2). cbn [bind fst] in *. destruct st as [st|]; [|eexists; split; [reflexivity|]; split; [reflexivity|exact H2]].
    destruct (lineReport _ _ _ _ _ _ _) as [rep' m3]. eexists. split; [reflexivity|]. split; [apply Inv_use; exact H2|split; discriminate]. }
  destruct own; apply K.
Qed.
End Check.
Lemma checkFile_res e m l n de st su im w q mask s : stands l s -> In Std (opened s) ->
  sim (M_Cli2.checkFile e m n de st su im w q mask) (Res.checkFile e m l n de st su im w q mask) (gives_back s (opened s) 2 2).
Proof.
  intros H HS. unfold M_Cli2.checkFile, Res.checkFile.
  set (MO := Nat.max (most_opened s) (length (opened s) + 2)). set (MH := Nat.max (most_held s) (length (held s) + 2)).
  assert (T : forall own name fp l fs s1, stands l s1 -> opened s1 = fs -> In fp fs -> In Std fs -> held s1 = held s -> (most_opened s1 <= MO)%nat -> (most_held s1 <= MH)%nat ->
    (length fs + 1 <= MO)%nat -> (match n with Stdin => fs | Named _ => without fp fs end) = opened s ->
    sim (let '(lineBuf, m) := malloc e m DEFAULT_LINE_LENGTH in
      let '(blockBuf, m) := malloc e m 65536 in
      match lineBuf, blockBuf with
      | Some lineBuf, Some blockBuf =>
          let a := PArgs name st su im w q mask in
          let! s := parseFile1 e a (match de with big_endian => false | little_endian => true end)
                      (PState own (Some lineBuf) DEFAULT_LINE_LENGTH blockBuf (Report 0 0 0 0 0 0 false) 0 m false false) in
          if p_exit s then OK (None, p_m s)
          else
            let r := p_rep s in
            let m := output (p_m s) (summary a r) in
            let result := negb (nProperlyFormattedLines r =? 0) && (nMismatchedChecksums r =? 0) && (nOpenOrReadFailures r =? 0)
                          && (negb st || (nImproperlyFormattedLines r =? 0)) && negb (quit r) in
            if im && (nMatchedChecksums r =? 0)
            then OK (Some 0, output m (name ++ str ": no file was verified" ++ [LF]))
            else OK (Some (if result then 1 else 0), m)
      | _, _ => OK (None, m)
      end)
     (let '(lineBuf, m) := malloc e m DEFAULT_LINE_LENGTH in
      let bp := fresh l in
      let l := match lineBuf with Some _ => l ++ [Allocated] | None => l end in
      let '(blockBuf, m) := malloc e m 65536 in
      let kp := fresh l in
      let l := match blockBuf with Some _ => l ++ [Allocated] | None => l end in
      match lineBuf, blockBuf with
      | Some lineBuf, Some blockBuf =>
          let a := PArgs name st su im w q mask in
          let! (s, (bp, l)) := Res.parseFile1 e a (match de with big_endian => false | little_endian => true end) fp kp
                      (PState own (Some lineBuf) DEFAULT_LINE_LENGTH blockBuf (Report 0 0 0 0 0 0 false) 0 m false false) (Some bp, l) in
          if p_exit s then OK (None, p_m s, l)
          else
            let l := l ++ [Freed kp] in
            let l := match bp with Some bp => l ++ [Freed bp] | None => l end in
            let l := match n with Stdin => l | Named _ => l ++ [Closed fp] end in
            let r := p_rep s in
            let m := output (p_m s) (summary a r) in
            let result := negb (nProperlyFormattedLines r =? 0) && (nMismatchedChecksums r =? 0) && (nOpenOrReadFailures r =? 0)
                          && (negb st || (nImproperlyFormattedLines r =? 0)) && negb (quit r) in
            if im && (nMatchedChecksums r =? 0)
            then OK (Some 0, output m (name ++ str ": no file was verified" ++ [LF]), l)
            else OK (Some (if result then 1 else 0), m, l)
      | _, _ => OK (None, m, l)
      end) (gives_back s (opened s) 2 2)).
  { clear l H HS. intros own name fp l fs s1 H1 O1 FP SF E1 A1 B1 L1 W. unfold malloc.
    assert (X : forall (m : mach) l s2, stands l s2 -> opened s2 = fs -> (length (held s2) <= length (held s) + 2)%nat -> (most_opened s2 <= MO)%nat -> (most_held s2 <= MH)%nat ->
      gives_back s (opened s) 2 2 (None, m) l).
    { intros m0 l0 s2 H2 _ _ A2 B2. exists s2. split; [exact H2|]. split; [split; assumption|left; reflexivity]. }
    destruct (e_malloc e (m_tick m) DEFAULT_LINE_LENGTH) as [b|]; cbn zeta.
    2:{ destruct (e_malloc e (m_tick (tick m)) 65536) as [bk|]; (eexists; split; [reflexivity|]).
        - destruct (alloc_one l s1 H1) as (s2 & H2 & O2 & E2 & A2 & B2). apply (X _ _ s2); try assumption; rewrite ?E2, ?A2, ?B2, ?E1; cbn [length]; try lia. congruence.
        - apply (X _ _ s1); try assumption. rewrite E1. lia. }
    destruct (alloc_one l s1 H1) as (s2 & H2 & O2 & E2 & A2 & B2). destruct (e_malloc e (m_tick (tick m)) 65536) as [bk|].
    2:{ eexists. split; [reflexivity|]. apply (X _ _ s2); try assumption; rewrite ?E2, ?A2, ?B2, ?E1; cbn [length]; try lia. congruence. }
    destruct (alloc_one _ s2 H2) as (s3 & H3 & O3 & E3 & A3 & B3). set (kp := fresh (l ++ [Allocated])) in *. set (l3 := (l ++ [Allocated]) ++ [Allocated]) in *.
    assert (NK : fresh l <> kp).
    { unfold fresh, kp. unfold fresh. intros Q. injection Q. rewrite app_length. cbn. lia. }
    assert (I3 : Inv fs (held s) kp MO MH (Some (fresh l)) l3).
    { exists s3. split; [exact H3|]. split; [congruence|]. rewrite A3, B3, E3, E2, A2, B2, E1. cbn [length]. split; [assumption|]. split; [lia|]. split; [exact NK|]. right. reflexivity. }
    clearbody l3 kp. unfold parseFile1, Res.parseFile1. cbn [p_own p_m p_lineBuf p_lineMax p_block].
    match goal with |- context [while_ ?k _ (parseFile1_body e ?a ?rev) ?s0] =>
      pose proof (sim_while (fun s => negb (quit (p_rep s)) && negb (p_break s)) (parseFile1_body e a rev) (Res.parseFile1_body e a rev fp kp) (J fs (held s) kp MO MH)
        ltac:(intros ? ? C HJ; apply body_res; [unfold MH; lia|assumption..]) k s0 (Some (fresh l), l3)) as S1 end.
    match type of S1 with ?P -> _ => assert (J0 : P) by (split; [exact I3|split; discriminate]) end. specialize (S1 J0). unfold sim in S1.
    destruct (while_ _ _ (parseFile1_body e _ _) _) as [ps| |]; [|cbn [bind]; rewrite S1; reflexivity..]. destruct S1 as ([bp l4] & -> & HJ). cbn [bind]. unfold J in HJ.
    destruct (p_exit ps).
    { destruct HJ as (_ & s4 & H4 & A4 & B4). eexists. split; [reflexivity|]. exists s4. split; [exact H4|]. split; [split; assumption|left; reflexivity]. }
    destruct HJ as [(s4 & H4 & O4 & A4 & B4 & D4) _]. cbn [fst snd] in *.
    assert (F : exists s6, stands (match bp with Some bp => (l4 ++ [Freed kp]) ++ [Freed bp] | None => l4 ++ [Freed kp] end) s6 /\ opened s6 = fs /\ held s6 = held s /\ (most_opened s6 <= MO)%nat /\ (most_held s6 <= MH)%nat).
    { assert (LH : (length (held s4) <= length (held s) + 2)%nat) by (destruct bp; [destruct D4 as [_ [-> | ->]]|rewrite D4]; cbn; lia).
      destruct (free_one l4 s4 kp H4) as (s5 & H5 & O5 & E5 & A5 & B5); [destruct bp; [destruct D4 as [_ [-> | ->]]|rewrite D4]; cbn; auto|].
      assert (B5' : (most_held s5 <= MH)%nat) by (unfold MH in *; lia). destruct bp as [bp|].
      - destruct D4 as [N4 D4]. assert (E5' : held s5 = bp :: held s) by (rewrite E5; destruct D4 as [-> | ->]; [apply without_second; congruence|apply without_head]).
        destruct (free_one _ s5 bp H5) as (s6 & H6 & O6 & E6 & A6 & B6); [rewrite E5'; now left|]. exists s6. rewrite E5' in E6, B6. cbn [length] in B6. rewrite without_head in E6.
        split; [exact H6|]. split; [congruence|]. split; [exact E6|]. split; [lia|]. unfold MH in *. lia.
      - exists s5. split; [exact H5|]. split; [congruence|]. split; [rewrite E5, D4; apply without_head|]. split; [lia|exact B5']. }
    destruct F as (s6 & H6 & O6 & E6 & A6 & B6).
    set (l6 := match bp with Some bp => (l4 ++ [Freed kp]) ++ [Freed bp] | None => l4 ++ [Freed kp] end) in *.
    assert (G : exists s7, stands (match n with Stdin => l6 | Named _ => l6 ++ [Closed fp] end) s7 /\ opened s7 = opened s /\ held s7 = held s /\ (most_opened s7 <= MO)%nat /\ (most_held s7 <= MH)%nat).
    { destruct n as [|n]; [exists s6; split; [exact H6|]; split; [congruence|]; auto|].
      destruct (close_one l6 s6 fp H6) as (s7 & H7 & O7 & E7 & A7 & B7); [rewrite O6; exact FP|]. exists s7. split; [exact H7|]. rewrite O7, O6, E7, B7. rewrite O6 in A7. repeat split; auto. lia. }
    destruct G as (s7 & H7 & O7 & E7 & A7 & B7). cbv zeta.
    destruct (im && (nMatchedChecksums (p_rep ps) =? 0)); (eexists; split; [reflexivity|]; exists s7; split; [exact H7|]; split; [split; assumption|right; split; assumption]). }
  destruct n as [|n].
  - apply T with (fs := opened s) (s1 := s); try assumption; try reflexivity; unfold MO, MH; lia.
  - destruct (e_fs e n) as [f|].
    + destruct (open_one l s H) as (s1 & H1 & O1 & E1 & A1 & B1). apply T with (fs := fresh l :: opened s) (s1 := s1); try assumption; rewrite ?A1, ?B1; try (now left); try (now right); try apply without_head; unfold MO, MH; cbn [length]; lia.
    + eexists. split; [reflexivity|]. exists s. unfold room. cbn [fst]. repeat split; try lia; auto.
Qed.
Lemma checkFiles_loop_res e de st su im w q mask s ns : In Std (opened s) -> forall m l s0 r, stands l s0 -> opened s0 = opened s -> held s0 = held s -> room 2 2 s s0 ->
  sim (M_Cli2.checkFiles_loop e m ns de st su im w q mask r) (Res.checkFiles_loop e m l ns de st su im w q mask r) (gives_back s (opened s) 2 2).
Proof.
  intros SI. induction ns as [|n ns IH]; intros m l s0 r H O E R; cbn [M_Cli2.checkFiles_loop Res.checkFiles_loop].
  { eexists. split; [reflexivity|]. exists s0. auto. }
  pose proof (checkFile_res e m l (Named n) de st su im w q mask s0 H ltac:(rewrite O; exact SI)) as S1. unfold sim in S1.
  destruct (M_Cli2.checkFile e m (Named n) de st su im w q mask) as [[c m']| |]; [|rewrite S1; reflexivity..]. destruct S1 as (l1 & -> & s1 & H1 & R1 & D1). cbn [bind].
  assert (R2 : room 2 2 s s1) by (unfold room in *; rewrite O, E in R1; lia).
  cbn [fst] in D1. destruct c as [c|]; [|eexists; split; [reflexivity|]; exists s1; cbn [fst]; auto].
  destruct D1 as [D1|[D1 D2]]; [discriminate|]. apply (IH m' l1 s1); first [assumption|congruence].
Qed.
Theorem checkFiles_res e m l ns de st su im w q mask s : stands l s -> In Std (opened s) ->
  sim (M_Cli2.checkFiles e m ns de st su im w q mask) (Res.checkFiles e m l ns de st su im w q mask) (gives_back s (opened s) 2 2).
Proof.
  intros H I. unfold M_Cli2.checkFiles, Res.checkFiles. destruct ns as [|n ns].
  - pose proof (checkFile_res e m l Stdin de st su im w q mask s H I) as S1. unfold sim in S1. destruct (M_Cli2.checkFile e m Stdin de st su im w q mask) as [[c m']| |]; [|rewrite S1; reflexivity..].
    destruct S1 as (l1 & -> & s1 & H1 & R1 & D1). cbn [bind fst]. eexists. split; [reflexivity|]. exists s1. split; [exact H1|]. split; [exact R1|]. destruct c; cbn [fst] in *; [|auto]. destruct D1; [discriminate|auto].
  - pose proof (checkFiles_loop_res e de st su im w q mask s (n :: ns) I m l s 1 H eq_refl eq_refl ltac:(unfold room; lia)) as S1. unfold sim in S1.
    destruct (M_Cli2.checkFiles_loop e m (n :: ns) de st su im w q mask 1) as [[c m']| |]; [|rewrite S1; reflexivity..].
    destruct S1 as (l1 & -> & s1 & H1 & R1 & D1). cbn [bind fst]. eexists. split; [reflexivity|]. exists s1. split; [exact H1|]. split; [exact R1|]. destruct c; cbn [fst] in *; [|auto]. destruct D1; [discriminate|auto].
Qed.
Theorem main_res e console m argv : sim (M_Cli3.XSUM_main e console m argv) (Res.XSUM_main e console m argv)
  (fun o l => exists s, stands l s /\ (most_opened s <= 3)%nat /\ (most_held s <= 2)%nat /\
     match o with Exits 0 _ => held s = [] /\ (opened s = [Std] \/ opened s = [] /\ exists a de conv, command console argv = OK (Hash [] a de conv)) | Exits _ _ => True | Benchmark _ _ _ _ => l = [] end).
Proof.
  unfold M_Cli3.XSUM_main, Res.XSUM_main. assert (H0 : stands [] start) by reflexivity. assert (I0 : In Std (opened start)) by (now left).
  destruct (command console argv) as [a| |] eqn:EC; [|reflexivity..]. cbn [bind].
  destruct a as [[]|ids it size ns|ns de st su im w q mask|ns a de conv]; try (eexists; split; [reflexivity|]; exists start; cbn; repeat split; auto; lia).
  - pose proof (checkFiles_res e m [] ns de st su im w q mask start H0 I0) as S1. unfold sim in S1. destruct (M_Cli2.checkFiles e m ns de st su im w q mask) as [[r m']| |]; [|cbn [bind]; rewrite S1; reflexivity..].
    destruct S1 as (l & -> & s & H & R & D). cbn [bind fst snd]. eexists. split; [reflexivity|]. exists s. unfold room in R. cbn in R. split; [exact H|]. split; [lia|]. split; [lia|].
    destruct r as [c|]; [|exact I]. cbn [fst] in D. destruct D as [D|[D1 D2]]; [discriminate|]. destruct c; auto.
  - pose proof (hashFiles_res e m [] ns a de conv start H0 I0) as S1. unfold sim in S1. destruct (M_Cli2.hashFiles e m ns a de conv) as [[r m']| |]; [|cbn [bind]; rewrite S1; reflexivity..].
    destruct S1 as (l & -> & s & H & R & D). cbn [bind fst snd]. eexists. split; [reflexivity|]. exists s. unfold room in R. cbn in R. split; [exact H|]. split; [lia|]. split; [lia|].
    destruct r as [c|]; [|exact I]. cbn [fst] in D. destruct D as [D|[D1 D2]]; [discriminate|]. destruct c; auto. split; [exact D2|]. destruct ns; [right; split; [exact D1|eauto]|left; exact D1].
Qed.
