(** Facts about the two encodings of Unicode text, and decoders to show that a system as C90 assumes it exists. *)
From Coq Require Import Lia.
From Verif Require Import Base Mem SpecUni.
Import Uni.

Lemma utf16_1_units x : scalar x -> Forall (fun u => 0 < u < 65536) (utf16_1 x).
Proof.
  unfold scalar, utf16_1. intros S. destruct (Z.ltb_spec x 0x10000); [repeat constructor; lia|].
  assert (0 <= (x - 0x10000) / 1024 < 1024) by (split; [apply Z.div_pos; lia|apply Z.div_lt_upper_bound; lia]).
  pose proof (Z.mod_pos_bound (x - 0x10000) 1024). repeat constructor; lia.
Qed.
Lemma utf8_1_bytes x : scalar x -> Forall (fun u => 0 < u < 256) (utf8_1 x).
Proof.
  unfold scalar, utf8_1. intros S. pose proof (Z.mod_pos_bound x 64). pose proof (Z.mod_pos_bound (x / 64) 64). pose proof (Z.mod_pos_bound (x / 4096) 64).
  destruct (Z.ltb_spec x 0x80); [repeat constructor; lia|]. destruct (Z.ltb_spec x 0x800).
  { assert (0 <= x / 64 < 32) by (split; [apply Z.div_pos; lia|apply Z.div_lt_upper_bound; lia]). repeat constructor; lia. }
  destruct (Z.ltb_spec x 0x10000).
  { assert (0 <= x / 4096 < 16) by (split; [apply Z.div_pos; lia|apply Z.div_lt_upper_bound; lia]). repeat constructor; lia. }
  assert (0 <= x / 262144 < 5) by (split; [apply Z.div_pos; lia|apply Z.div_lt_upper_bound; lia]). repeat constructor; lia.
Qed.
Lemma flat_map_Forall {X} (P : Z -> Prop) (f : X -> list Z) l : (forall x, In x l -> Forall P (f x)) -> Forall P (flat_map f l).
Proof. intros H. apply Forall_flat_map. rewrite Forall_forall. exact H. Qed.
Lemma utf16_units t : text t -> Forall (fun u => 0 < u < 65536) (utf16 t).
Proof. intros T. unfold text in T. rewrite Forall_forall in T. apply flat_map_Forall. intros x I. apply utf16_1_units, T, I. Qed.
Lemma utf8_bytes t : text t -> Forall (fun u => 0 < u < 256) (utf8 t).
Proof. intros T. unfold text in T. rewrite Forall_forall in T. apply flat_map_Forall. intros x I. apply utf8_1_bytes, T, I. Qed.
Lemma pos_no_nul b l : Forall (fun u => 0 < u < b) l -> ~ In 0 l.
Proof. intros F I. rewrite Forall_forall in F. specialize (F 0 I). lia. Qed.
Lemma utf16_no_nul t : text t -> ~ In 0 (utf16 t).
Proof. intros T. exact (pos_no_nul _ _ (utf16_units t T)). Qed.
Lemma utf8_no_nul t : text t -> ~ In 0 (utf8 t).
Proof. intros T. exact (pos_no_nul _ _ (utf8_bytes t T)). Qed.
(** plain ASCII is its own encoding *)
Lemma ascii_same s : Forall (fun x => 0 < x < 128) s -> utf8 s = s /\ utf16 s = s /\ text s.
Proof.
  unfold text. induction 1 as [|x s X F (E8 & E16 & T)]; [split; [reflexivity|]; split; [reflexivity|constructor]|].
  unfold utf8, utf16 in *. cbn [flat_map]. rewrite E8, E16. unfold utf8_1, utf16_1.
  replace (x <? 0x80) with true by lia. replace (x <? 0x10000) with true by lia. split; [reflexivity|]. split; [reflexivity|]. constructor; [unfold scalar; lia|exact T].
Qed.

(** no text has a lone surrogate *)
Lemma text_not_lone t : text t -> ~ lone (utf16 t).
Proof.
  intros T (p & u & b & E & H). revert p E H. induction T as [|x t S T IH]; intros p E H.
  - destruct p; discriminate E.
  - unfold utf16 in E. cbn [flat_map] in E. fold (utf16 t) in E. unfold utf16_1 in E. destruct (Z.ltb_spec x 0x10000).
    + destruct p as [|y p]; cbn [app] in E; injection E as E1 E2.
      * unfold scalar, high, low in *. subst u. destruct H as [[H _]|[H _]]; lia.
      * apply (IH p E2). destruct H as [H|[L H]]; [left; exact H|]. right. split; [exact L|]. intros v r Q. apply (H v (y :: r)). subst p. reflexivity.
    + assert (D : 0 <= (x - 0x10000) / 1024 < 1024) by (unfold scalar in S; split; [apply Z.div_pos; lia|apply Z.div_lt_upper_bound; lia]).
      pose proof (Z.mod_pos_bound (x - 0x10000) 1024 ltac:(lia)) as M.
      set (hi := 0xD800 + (x - 0x10000) / 1024) in *. set (lo := 0xDC00 + (x - 0x10000) mod 1024) in *.
      assert (HH : high hi) by (unfold high; lia). assert (LL : low lo) by (unfold low; lia). clearbody hi lo.
      destruct p as [|y p]; cbn [app] in E; injection E as E1 E2.
      * subst u. destruct H as [[_ H]|[H _]]; [|unfold high, low in *; lia]. symmetry in E2. exact (H _ _ E2 LL).
      * destruct p as [|z p]; cbn [app] in E2; injection E2 as E2 E3.
        -- subst u y. destruct H as [[H _]|[_ H]]; [unfold high, low in *; lia|]. exact (H hi [] eq_refl HH).
        -- apply (IH p E3). destruct H as [H|[L H]]; [left; exact H|]. right. split; [exact L|]. intros v r Q. apply (H v (y :: z :: r)). subst p. reflexivity.
Qed.

(** ** Decoders that put U+FFFD where the input is malformed, as the two functions of Windows do *)
Definition cont (b : Z) : bool := (0x80 <=? b) && (b <? 0xC0).
Fixpoint dec16 (s : list Z) : list Z :=
  match s with
  | [] => []
  | u :: r =>
      if (0xD800 <=? u) && (u <? 0xDC00) then
        match r with
        | v :: r' => if (0xDC00 <=? v) && (v <? 0xE000) then 0x10000 + (u - 0xD800) * 1024 + (v - 0xDC00) :: dec16 r' else 0xFFFD :: dec16 r
        | [] => [0xFFFD]
        end
      else if (0xDC00 <=? u) && (u <? 0xE000) then 0xFFFD :: dec16 r
      else u :: dec16 r
  end.
Fixpoint dec8 (s : list Z) : list Z :=
  match s with
  | [] => []
  | x :: r =>
      if x <? 0x80 then x :: dec8 r
      else if x <? 0xE0 then
        match r with
        | y :: r' => let v := (x - 0xC0) * 64 + (y - 0x80) in if cont y && (0x80 <=? v) then v :: dec8 r' else 0xFFFD :: dec8 r
        | _ => 0xFFFD :: dec8 r
        end
      else if x <? 0xF0 then
        match r with
        | y :: z :: r' =>
            let v := (x - 0xE0) * 4096 + (y - 0x80) * 64 + (z - 0x80) in
            if cont y && cont z && (0x800 <=? v) && ((v <? 0xD800) || (0xE000 <=? v)) then v :: dec8 r' else 0xFFFD :: dec8 r
        | _ => 0xFFFD :: dec8 r
        end
      else
        match r with
        | y :: z :: w :: r' =>
            let v := (x - 0xF0) * 262144 + (y - 0x80) * 4096 + (z - 0x80) * 64 + (w - 0x80) in
            if cont y && cont z && cont w && (0x10000 <=? v) && (v <=? 0x10FFFF) then v :: dec8 r' else 0xFFFD :: dec8 r
        | _ => 0xFFFD :: dec8 r
        end
  end.
Lemma dec16_utf16 t : text t -> dec16 (utf16 t) = t.
Proof.
  induction 1 as [|x t S T IH]; [reflexivity|]. unfold utf16 in *. cbn [flat_map]. unfold utf16_1 at 1. destruct (Z.ltb_spec x 0x10000).
  - cbn [app dec16]. unfold scalar in S. replace ((0xD800 <=? x) && (x <? 0xDC00)) with false by lia. replace ((0xDC00 <=? x) && (x <? 0xE000)) with false by lia. rewrite IH. reflexivity.
  - assert (D : 0 <= (x - 0x10000) / 1024 < 1024) by (unfold scalar in S; split; [apply Z.div_pos; lia|apply Z.div_lt_upper_bound; lia]).
    pose proof (Z.mod_pos_bound (x - 0x10000) 1024 ltac:(lia)) as M. pose proof (Z.div_mod (x - 0x10000) 1024 ltac:(lia)) as E.
    set (d := (x - 0x10000) / 1024) in *. set (m := (x - 0x10000) mod 1024) in *. clearbody d m. cbn [app dec16].
    replace ((0xD800 <=? 0xD800 + d) && (0xD800 + d <? 0xDC00)) with true by lia. replace ((0xDC00 <=? 0xDC00 + m) && (0xDC00 + m <? 0xE000)) with true by lia.
    rewrite IH. f_equal. lia.
Qed.
Lemma dec8_utf8 t : text t -> dec8 (utf8 t) = t.
Proof.
  induction 1 as [|x t S T IH]; [reflexivity|]. unfold utf8 in *. cbn [flat_map]. unfold utf8_1 at 1. unfold scalar in S.
  pose proof (Z.div_mod x 64 ltac:(lia)) as E1. pose proof (Z.div_mod (x / 64) 64 ltac:(lia)) as E2. pose proof (Z.div_mod (x / 4096) 64 ltac:(lia)) as E3.
  pose proof (Z.mod_pos_bound x 64 ltac:(lia)) as M1. pose proof (Z.mod_pos_bound (x / 64) 64 ltac:(lia)) as M2. pose proof (Z.mod_pos_bound (x / 4096) 64 ltac:(lia)) as M3.
  assert (Q2 : x / 64 / 64 = x / 4096) by (rewrite Z.div_div by lia; reflexivity). assert (Q3 : x / 4096 / 64 = x / 262144) by (rewrite Z.div_div by lia; reflexivity).
  rewrite Q2 in E2. rewrite Q3 in E3. clear Q2 Q3.
  set (m1 := x mod 64) in *. set (m2 := (x / 64) mod 64) in *. set (m3 := (x / 4096) mod 64) in *. set (q1 := x / 64) in *. set (q2 := x / 4096) in *. set (q3 := x / 262144) in *.
  clearbody m1 m2 m3 q1 q2 q3.
  destruct (Z.ltb_spec x 0x80); [cbn [app dec8]; replace (x <? 0x80) with true by lia; rewrite IH; reflexivity|].
  destruct (Z.ltb_spec x 0x800).
  { cbn [app dec8]. replace (0xC0 + q1 <? 0x80) with false by lia. replace (0xC0 + q1 <? 0xE0) with true by lia. cbv zeta.
    replace (cont (0x80 + m1) && (0x80 <=? (0xC0 + q1 - 0xC0) * 64 + (0x80 + m1 - 0x80))) with true by (unfold cont; lia). rewrite IH. f_equal. lia. }
  destruct (Z.ltb_spec x 0x10000).
  { cbn [app dec8]. replace (0xE0 + q2 <? 0x80) with false by lia. replace (0xE0 + q2 <? 0xE0) with false by lia. replace (0xE0 + q2 <? 0xF0) with true by lia. cbv zeta.
    replace (cont (0x80 + m2) && cont (0x80 + m1) && _ && _) with true by (unfold cont; lia). rewrite IH. f_equal. lia. }
  cbn [app dec8]. replace (0xF0 + q3 <? 0x80) with false by lia. replace (0xF0 + q3 <? 0xE0) with false by lia. replace (0xF0 + q3 <? 0xF0) with false by lia. cbv zeta.
  replace (cont (0x80 + m3) && cont (0x80 + m2) && cont (0x80 + m1) && _ && _) with true by (unfold cont; lia). rewrite IH. f_equal. lia.
Qed.
(** what they make of any units is text *)
Lemma dec16_text n : forall s, (List.length s <= n)%nat -> Forall (fun u => 0 < u < 65536) s -> text (dec16 s).
Proof.
  unfold text. induction n as [|n IH]; intros s L F.
  - destruct s; [constructor|cbn [List.length] in L; lia].
  - destruct s as [|u r]; [constructor|]. cbn [dec16]. cbn [List.length] in L. inversion F as [|? ? U R]; subst.
    assert (FF : scalar 0xFFFD) by (unfold scalar; lia).
    destruct ((0xD800 <=? u) && (u <? 0xDC00)) eqn:H.
    + destruct r as [|v r']; [constructor; [exact FF|constructor]|]. destruct ((0xDC00 <=? v) && (v <? 0xE000)) eqn:K.
      * constructor; [unfold scalar; lia|]. inversion R; subst. apply IH; [cbn [List.length] in L; lia|assumption].
      * constructor; [exact FF|]. apply IH; [lia|assumption].
    + destruct ((0xDC00 <=? u) && (u <? 0xE000)) eqn:K; (constructor; [first [exact FF|unfold scalar; lia]|apply IH; [lia|assumption]]).
Qed.
(** and they make no NUL, of whatever *)
Lemma nonzero_in (l : list Z) : Forall (fun x => x <> 0) l -> ~ In 0 l.
Proof. intros F I. rewrite Forall_forall in F. exact (F 0 I eq_refl). Qed.
Lemma in_nonzero (l : list Z) : ~ In 0 l -> Forall (fun x => x <> 0) l.
Proof. intros N. apply Forall_forall. intros x I ->. exact (N I). Qed.
Lemma dec16_nonzero n : forall s, (List.length s <= n)%nat -> Forall (fun u => u <> 0) s -> Forall (fun u => u <> 0) (dec16 s).
Proof.
  induction n as [|n IH]; intros s L F.
  - destruct s; [constructor|cbn [List.length] in L; lia].
  - destruct s as [|u r]; [constructor|]. cbn [dec16]. cbn [List.length] in L. inversion F as [|? ? U R]; subst.
    destruct ((0xD800 <=? u) && (u <? 0xDC00)) eqn:H.
    + destruct r as [|v r']; [constructor; [lia|constructor]|]. destruct ((0xDC00 <=? v) && (v <? 0xE000)) eqn:K.
      * constructor; [lia|]. inversion R; subst. apply IH; [cbn [List.length] in L; lia|assumption].
      * constructor; [lia|]. apply IH; [lia|assumption].
    + destruct ((0xDC00 <=? u) && (u <? 0xE000)) eqn:K; (constructor; [lia|apply IH; [lia|assumption]]).
Qed.
Lemma dec8_nonzero n : forall s, (List.length s <= n)%nat -> Forall (fun u => u <> 0) s -> Forall (fun u => u <> 0) (dec8 s).
Proof.
  induction n as [|n IH]; intros s L F.
  - destruct s; [constructor|cbn [List.length] in L; lia].
  - destruct s as [|x r]; [constructor|]. cbn [dec8]. cbn [List.length] in L. inversion F as [|? ? U R]; subst. cbv zeta.
    assert (D : Forall (fun u => u <> 0) (0xFFFD :: dec8 r)) by (constructor; [lia|apply IH; [lia|assumption]]).
    destruct (x <? 0x80); [constructor; [exact U|apply IH; [lia|assumption]]|].
    destruct (x <? 0xE0).
    { destruct r as [|y r']; [exact D|]. match goal with |- context [if ?b then _ else _] => destruct b eqn:K end; [|exact D].
      inversion R; subst. cbn [List.length] in L. constructor; [lia|apply IH; [lia|assumption]]. }
    destruct (x <? 0xF0).
    { destruct r as [|y [|z r']]; try exact D. match goal with |- context [if ?b then _ else _] => destruct b eqn:K end; [|exact D].
      inversion R as [|? ? _ R2]; subst. inversion R2; subst. cbn [List.length] in L. constructor; [lia|apply IH; [lia|assumption]]. }
    destruct r as [|y [|z [|w r']]]; try exact D. match goal with |- context [if ?b then _ else _] => destruct b eqn:K end; [|exact D].
    inversion R as [|? ? _ R2]; subst. inversion R2 as [|? ? _ R3]; subst. inversion R3; subst. cbn [List.length] in L. constructor; [lia|apply IH; [lia|assumption]].
Qed.
Lemma utf16_nonzero t : Forall (fun u => u <> 0) t -> Forall (fun u => u <> 0) (utf16 t).
Proof.
  intros F. rewrite Forall_forall in F. apply flat_map_Forall. intros x I. specialize (F x I). unfold utf16_1.
  destruct (Z.ltb_spec x 0x10000); [repeat constructor; lia|]. pose proof (Z.div_pos (x - 0x10000) 1024). pose proof (Z.mod_pos_bound (x - 0x10000) 1024). repeat constructor; lia.
Qed.
Lemma utf8_nonzero t : Forall (fun u => u <> 0) t -> Forall (fun u => u <> 0) (utf8 t).
Proof.
  intros F. rewrite Forall_forall in F. apply flat_map_Forall. intros x I. specialize (F x I). unfold utf8_1.
  pose proof (Z.mod_pos_bound x 64). pose proof (Z.mod_pos_bound (x / 64) 64). pose proof (Z.mod_pos_bound (x / 4096) 64).
  pose proof (Z.div_pos x 64). pose proof (Z.div_pos x 4096). pose proof (Z.div_pos x 262144).
  destruct (Z.ltb_spec x 0x80); [repeat constructor; lia|]. destruct (Z.ltb_spec x 0x800); [repeat constructor; lia|]. destruct (Z.ltb_spec x 0x10000); repeat constructor; lia.
Qed.
Lemma dec16_no_nul s : ~ In 0 s -> ~ In 0 (utf8 (dec16 s)).
Proof. intros N. apply nonzero_in, utf8_nonzero, (dec16_nonzero (List.length s)); [lia|apply in_nonzero, N]. Qed.
Lemma dec8_no_nul s : ~ In 0 s -> ~ In 0 (utf16 (dec8 s)).
Proof. intros N. apply nonzero_in, utf16_nonzero, (dec8_nonzero (List.length s)); [lia|apply in_nonzero, N]. Qed.
