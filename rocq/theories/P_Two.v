(** Inputs of more than 240 bytes: what a change of one word, of two bits or of one bit does to XXH3
    (proofs for C69, C81 and C82). *)
From Verif Require Import Base Mem Spec32 Spec64 Spec3 P_Base P_Spec P_X3_Base P_Inj P_Inj64 P_Inj3 P_Inj128 P_Perm.
From Coq Require Import Znumtheory.

(* ------------------------------------------------------------------ *)
(** ** Functions of the accumulators that treat every lane on its own *)
(** eight words *)
Definition acc8 (a : list Z) : Prop := length a = 8%nat /\ forall i, 0 <= i < 8 -> wd 64 (X3.nth0 a i).
Definition lane_perm (g : Z -> Z -> Z) : Prop := forall i, 0 <= i < 8 ->
  (forall x, wd 64 x -> wd 64 (g i x)) /\ (forall x y, wd 64 x -> wd 64 y -> g i x = g i y -> x = y).
Definition lanewise (f : list Z -> list Z) (g : Z -> Z -> Z) : Prop := lane_perm g /\
  forall a, acc8 a -> acc8 (f a) /\ forall i, 0 <= i < 8 -> X3.nth0 (f a) i = g i (X3.nth0 a i).

Lemma nth0_map8 (f : Z -> Z) i : 0 <= i < 8 -> X3.nth0 (map f (upto 8)) i = f i.
Proof.
  intros H. unfold X3.nth0. change (upto 8) with [0; 1; 2; 3; 4; 5; 6; 7].
  assert (i = 0 \/ i = 1 \/ i = 2 \/ i = 3 \/ i = 4 \/ i = 5 \/ i = 6 \/ i = 7) as D by lia.
  repeat (destruct D as [->|D]; [reflexivity|]). subst. reflexivity.
Qed.
Lemma acc8_map (f : Z -> Z) : (forall i, 0 <= i < 8 -> wd 64 (f i)) -> acc8 (map f (upto 8)).
Proof. intros H. split; [reflexivity|]. intros i Hi. rewrite nth0_map8 by trivial. auto. Qed.
Lemma acc8_ext a b : acc8 a -> acc8 b -> (forall i, 0 <= i < 8 -> X3.nth0 a i = X3.nth0 b i) -> a = b.
Proof.
  intros [La _] [Lb _] H. apply (nth_ext a b 0 0); [lia|]. intros n Hn. specialize (H (Z.of_nat n) ltac:(lia)).
  unfold X3.nth0 in H. rewrite Nat2Z.id in H. exact H.
Qed.
Lemma init_acc8 : acc8 X3.init_acc.
Proof.
  split; [reflexivity|]. intros i H. unfold X3.nth0, X3.init_acc.
  assert (i = 0 \/ i = 1 \/ i = 2 \/ i = 3 \/ i = 4 \/ i = 5 \/ i = 6 \/ i = 7) as D by lia.
  repeat (destruct D as [->|D]; [split; [discriminate|reflexivity]|]). subst. split; [discriminate|reflexivity].
Qed.
Lemma lanewise_id : lanewise (fun a => a) (fun _ x => x).
Proof. split; [intros i Hi; split; auto|]. intros a Ha. split; auto. Qed.
Lemma lanewise_comp f g f' g' : lanewise f g -> lanewise f' g' -> lanewise (fun a => f' (f a)) (fun i x => g' i (g i x)).
Proof.
  intros [P F] [P' F']. split.
  - intros i Hi. destruct (P i Hi) as [R I]. destruct (P' i Hi) as [R' I']. split; [auto|]. intros x y Hx Hy E. apply I' in E; auto.
  - intros a Ha. destruct (F a Ha) as [A L]. destruct (F' _ A) as [A' L']. split; [trivial|]. intros i Hi. rewrite L', L; trivial.
Qed.
Lemma lanewise_fold {T} (f : T -> list Z -> list Z) (l : list T) : (forall t, In t l -> exists g, lanewise (f t) g) ->
  exists g, lanewise (fun a => fold_left (fun a t => f t a) l a) g.
Proof.
  induction l as [|t l IH]; intros H.
  - eexists. apply lanewise_id.
  - destruct (H t) as [g Hg]; [left; reflexivity|]. destruct IH as [g' Hg']; [intros; apply H; right; trivial|].
    eexists. cbn [fold_left]. exact (lanewise_comp _ _ _ _ Hg Hg').
Qed.
(** the other lane of the pair *)
Definition mate (i : Z) : Z := if Z.even i then i + 1 else i - 1.
Lemma mate_range i : 0 <= i < 8 -> 0 <= mate i < 8 /\ mate (mate i) = i /\ mate i <> i.
Proof.
  intros H. assert (i = 0 \/ i = 1 \/ i = 2 \/ i = 3 \/ i = 4 \/ i = 5 \/ i = 6 \/ i = 7) as D by lia.
  repeat (destruct D as [->|D]; [cbv; intuition congruence|]). subst. cbv; intuition congruence.
Qed.
(** what a stripe adds to lane [i] *)
Definition mul32 (v : Z) : Z := X3.lo32 v * X3.hi32 v.
Definition addend (secret stripe : list Z) (off i : Z) : Z :=
  X3.rd8 stripe (8 * mate i) + mul32 (Z.lxor (X3.rd8 stripe (8 * i)) (X3.rd8 secret (off + 8 * i))).
Lemma accumulate_nth secret a stripe off i : 0 <= i < 8 ->
  X3.nth0 (X3.accumulate secret a stripe off) i = (X3.nth0 a i + addend secret stripe off i) mod 2 ^ 64.
Proof. intros H. unfold X3.accumulate. rewrite nth0_map8 by trivial. unfold addend, mul32, mate. rewrite Z.add_assoc. reflexivity. Qed.
Lemma accumulate_acc8 secret a stripe off : acc8 (X3.accumulate secret a stripe off).
Proof. apply acc8_map. intros. apply (mod_wd 64). lia. Qed.
Lemma accumulate_lanewise secret stripe off : lanewise (fun a => X3.accumulate secret a stripe off) (fun i x => (x + addend secret stripe off i) mod 2 ^ 64).
Proof.
  split.
  - intros i Hi. split; [intros; apply mod_wd; lia|]. intros x y Hx Hy E. apply (add_inj 64) in E; trivial; lia.
  - intros a Ha. split; [apply accumulate_acc8|]. intros. apply accumulate_nth; trivial.
Qed.
Lemma scramble_lanewise secret : bytes_ok secret -> 64 <= zlen secret ->
  lanewise (X3.scramble secret) (fun i x => (Z.lxor (xorshift x 47) (X3.rd8 secret (len secret - 64 + 8 * i)) * X3.P32_1) mod 2 ^ 64).
Proof.
  intros B L. assert (K : forall i, 0 <= i < 8 -> wd 64 (X3.rd8 secret (len secret - 64 + 8 * i))).
  { intros i Hi. rewrite rd8_zslice. change (len secret) with (zlen secret). apply (le_wd 8); [apply bytes_ok_zslice, B|].
    rewrite zlen_zslice; lia. }
  split.
  - intros i Hi. split; [intros; apply mod_wd; lia|]. intros x y Hx Hy E.
    assert (Q : forall z, wd 64 z -> wd 64 (Z.lxor (xorshift z 47) (X3.rd8 secret (len secret - 64 + 8 * i)))).
    { intros z Hz. apply lxor_bound; [lia|apply xorshift_wd; trivial; lia|exact (K i Hi)]. }
    assert (E' := mul_inj 64 X3.P32_1 _ _ ltac:(lia) eq_refl (Q x Hx) (Q y Hy) E).
    apply lxor_inj_r in E'. apply xorshift_inj in E'; trivial; try lia; [apply Hx|apply Hy].
  - intros a Ha. assert (A : acc8 (X3.scramble secret a)) by (apply acc8_map; intros; apply (mod_wd 64); lia).
    split; [trivial|]. intros i Hi. unfold X3.scramble. rewrite nth0_map8 by trivial. reflexivity.
Qed.

(* ------------------------------------------------------------------ *)
(** ** The accumulators of a long input as one loop over the stripes *)
Section long. Context (secret : list Z) (Bs : bytes_ok secret) (Ls : 136 <= zlen secret).
#[local] Notation n := (X3.stripesPerBlock secret).
Lemma n_pos : 9 <= n.
Proof. unfold X3.stripesPerBlock. change (len secret) with (zlen secret). apply Z.div_le_lower_bound; lia. Qed.
(** stripe number [t] of the message [m] *)
Definition turn (m : list Z) (a : list Z) (t : Z) : list Z :=
  let a := X3.accumulate secret a (seg m (64 * t) (64 * t + 64)) (8 * (t mod n)) in
  if t mod n =? n - 1 then X3.scramble secret a else a.
Definition last_turn (m : list Z) (a : list Z) : list Z := X3.accumulate secret a (seg m (len m - 64) (len m)) (len secret - 71).

Lemma fold_upto_S {A} (f : A -> Z -> A) k a : 0 <= k -> fold_left f (upto (k + 1)) a = f (fold_left f (upto k) a) k.
Proof. intros H. rewrite upto_add by lia. rewrite fold_left_app. change (upto 1) with [0]. cbn [map fold_left]. rewrite Z.add_0_r. reflexivity. Qed.
Lemma stripes_S m o k a : 0 <= k -> X3.accumulate_stripes secret m o (k + 1) a =
  X3.accumulate secret (X3.accumulate_stripes secret m o k a) (seg m (o + 64 * k) (o + 64 * k + 64)) (8 * k).
Proof. intros. unfold X3.accumulate_stripes. rewrite fold_upto_S by trivial. reflexivity. Qed.
Lemma part_block m b r a : 0 <= b -> 0 <= r -> r < n ->
  fold_left (turn m) (map (Z.add (b * n)) (upto r)) a = X3.accumulate_stripes secret m (64 * n * b) r a.
Proof.
  intros Hb Hr. revert a. pattern r. apply natlike_ind; [reflexivity| |trivial].
  intros k Hk IH a Hk'. unfold Z.succ in *. unfold X3.accumulate_stripes. rewrite fold_upto_S by trivial. rewrite upto_add by lia.
  rewrite map_app, fold_left_app. rewrite IH by lia. change (upto 1) with [0]. cbn [map fold_left]. rewrite Z.add_0_r.
  unfold turn at 1. rewrite Z.add_comm, Z.mod_add by lia. rewrite Z.mod_small by lia. replace (k =? n - 1) with false by lia.
  unfold X3.accumulate_stripes. f_equal; f_equal; lia.
Qed.
Lemma full_block m b a : 0 <= b -> fold_left (turn m) (map (Z.add (b * n)) (upto n)) a = X3.round secret m (64 * n * b) a.
Proof.
  intros Hb. pose proof n_pos. replace n with (n - 1 + 1) at 2 by lia. rewrite upto_add by lia. rewrite map_app, fold_left_app, part_block by lia.
  change (upto 1) with [0]. cbn [map fold_left]. rewrite Z.add_0_r. unfold turn. rewrite (Z.add_comm (b * n)), Z.mod_add by lia.
  rewrite Z.mod_small by lia. rewrite Z.eqb_refl. unfold X3.round.
  replace (X3.accumulate_stripes secret m (64 * n * b) n a) with (X3.accumulate_stripes secret m (64 * n * b) (n - 1 + 1) a) by (f_equal; lia).
  rewrite stripes_S by lia. f_equal. f_equal; f_equal; lia.
Qed.
Lemma blocks m k a : 0 <= k -> fold_left (turn m) (upto (k * n)) a = fold_left (fun a b => X3.round secret m (64 * n * b) a) (upto k) a.
Proof.
  pose proof n_pos as N. intros H. pattern k. apply natlike_ind; [reflexivity| |trivial]. clear k H. intros k Hk IH. unfold Z.succ.
  rewrite fold_upto_S by trivial. replace ((k + 1) * n) with (k * n + n) by lia. rewrite upto_add by nia. rewrite fold_left_app, IH.
  apply full_block. trivial.
Qed.
Lemma large_acc_turns m : 64 < zlen m ->
  X3.large_acc secret m = last_turn m (fold_left (turn m) (upto ((zlen m - 1) / 64)) X3.init_acc).
Proof.
  intros L. pose proof n_pos. unfold X3.large_acc, last_turn. change (len m) with (zlen m). set (T := (zlen m - 1) / 64).
  assert (E : (zlen m - 1) / (64 * n) = T / n) by (unfold T; rewrite Z.div_div by lia; reflexivity). rewrite E.
  assert (HT : 0 <= T) by (apply Z.div_pos; lia). assert (Hb : 0 <= T / n) by (apply Z.div_pos; lia).
  replace (upto T) with (upto (T / n * n + T mod n)) by (f_equal; pose proof (Z.div_mod T n); lia).
  pose proof (Z.mod_pos_bound T n). rewrite upto_add by nia. rewrite fold_left_app. rewrite part_block by lia. rewrite blocks by trivial.
  replace ((zlen m - 64 * n * (T / n) - 1) / 64) with (T mod n); [reflexivity|].
  replace (zlen m - 64 * n * (T / n) - 1) with (zlen m - 1 + (- (n * (T / n))) * 64) by lia. rewrite Z.div_add by lia. fold T.
  rewrite Z.mod_eq by lia. lia.
Qed.
Lemma turn_lanewise m t : exists g, lanewise (fun a => turn m a t) g.
Proof.
  unfold turn. destruct (t mod n =? n - 1).
  - eexists. exact (lanewise_comp _ _ _ _ (accumulate_lanewise _ _ _) (scramble_lanewise _ Bs ltac:(lia))).
  - eexists. apply accumulate_lanewise.
Qed.
Lemma turns_acc8 m l a : acc8 a -> acc8 (fold_left (turn m) l a).
Proof.
  intros A. destruct (lanewise_fold (fun t a => turn m a t) l) as [g [_ G]]; [intros; apply turn_lanewise|]. apply (G a A).
Qed.

(* ------------------------------------------------------------------ *)
(** ** One word of a stripe *)
(** two stripes that differ in the word of lane [i] only *)
Definition same_but (i : Z) (x y : list Z) : Prop := forall k, 0 <= k < 8 -> k <> i -> X3.rd8 x (8 * k) = X3.rd8 y (8 * k).
Lemma addend_far i x y off k : same_but i x y -> 0 <= i < 8 -> 0 <= k < 8 -> k <> i -> k <> mate i -> addend secret x off k = addend secret y off k.
Proof.
  intros S Hi Hk N N'. unfold addend. destruct (mate_range k Hk) as (R & E & _). rewrite (S k), (S (mate k)); trivial. congruence.
Qed.
Lemma addend_mate i x y off : same_but i x y -> 0 <= i < 8 ->
  addend secret x off (mate i) - addend secret y off (mate i) = X3.rd8 x (8 * i) - X3.rd8 y (8 * i).
Proof.
  intros S Hi. destruct (mate_range i Hi) as (R & E & N). unfold addend. rewrite E, (S (mate i)) by trivial. lia.
Qed.
(** the lanes of two accumulators that a change of the word of lane [i] leaves equal, and the one it changes *)
Definition split_at (i : Z) (a b : list Z) : Prop :=
  X3.nth0 a (mate i) <> X3.nth0 b (mate i) /\ forall k, 0 <= k < 8 -> k <> i -> k <> mate i -> X3.nth0 a k = X3.nth0 b k.
Lemma split_accumulate i x y off a : same_but i x y -> 0 <= i < 8 -> acc8 a -> wd 64 (X3.rd8 x (8 * i)) -> wd 64 (X3.rd8 y (8 * i)) ->
  X3.rd8 x (8 * i) <> X3.rd8 y (8 * i) -> split_at i (X3.accumulate secret a x off) (X3.accumulate secret a y off).
Proof.
  intros S Hi A Wx Wy N. destruct (mate_range i Hi) as (R & E & M). split.
  - rewrite !accumulate_nth by trivial. intros H. apply N. apply (wd_eq_mod 64); trivial; [lia|].
    apply mod_eq_div in H; [|lia]. rewrite <- (addend_mate i x y off S Hi).
    replace (addend secret x off (mate i) - addend secret y off (mate i)) with
      (X3.nth0 a (mate i) + addend secret x off (mate i) - (X3.nth0 a (mate i) + addend secret y off (mate i))) by lia. exact H.
  - intros k Hk N1 N2. rewrite !accumulate_nth by trivial. rewrite (addend_far i x y) by trivial. reflexivity.
Qed.
Lemma split_lanewise i f g a b : lanewise f g -> 0 <= i < 8 -> acc8 a -> acc8 b -> split_at i a b -> split_at i (f a) (f b).
Proof.
  intros [P F] Hi A B [D S]. destruct (F a A) as [_ Fa]. destruct (F b B) as [_ Fb]. destruct (mate_range i Hi) as (R & E & M). split.
  - rewrite Fa, Fb by trivial. intros H. apply D. destruct A as [_ A]. destruct B as [_ B]. eapply (P (mate i)); eauto.
  - intros k Hk N N'. rewrite Fa, Fb, S by trivial. reflexivity.
Qed.

(* ------------------------------------------------------------------ *)
(** ** One word of a long input *)
(** the 8 bytes at [o] of an input of [L] bytes are the word of lane [i] of exactly one stripe *)
Definition word_of (L o i : Z) : Prop := 0 <= i < 8 /\
  ((o mod 64 = 8 * i /\ 0 <= o /\ o + 8 <= L - 64) \/ (o = L - 64 + 8 * i /\ 64 * ((L - 1) / 64) <= o)).
Context (a w w' b : list Z) (Lw : zlen w = 8) (Lw' : zlen w' = 8) (Long : 240 < zlen (a ++ w ++ b)).
#[local] Notation m := (a ++ w ++ b).
#[local] Notation m' := (a ++ w' ++ b).
Lemma len_eq : zlen m' = zlen m. Proof. rewrite !zlen_app. lia. Qed.
Lemma seg_out o : 0 <= o -> o + 64 <= zlen m -> o + 64 <= zlen a \/ zlen a + 8 <= o -> seg m o (o + 64) = seg m' o (o + 64).
Proof. intros. rewrite !seg_zslice. replace (o + 64 - o) with 64 by lia. apply zslice_outside; lia. Qed.
Lemma seg_word o i k : 0 <= o -> o + 64 <= zlen m -> zlen a = o + 8 * i -> 0 <= i < 8 -> 0 <= k < 8 ->
  X3.rd8 (seg m o (o + 64)) (8 * k) = if k =? i then le_val w else X3.rd8 (seg m' o (o + 64)) (8 * k).
Proof.
  intros Ho Hl Ha Hi Hk. pose proof len_eq as Q. rewrite !rd8_zslice, !seg_zslice. replace (o + 64 - o) with 64 by lia. rewrite !zslice_zslice by lia.
  destruct (Z.eqb_spec k i) as [->|N].
  - rewrite <- Ha. rewrite <- Lw, zslice_inside. reflexivity.
  - f_equal. apply zslice_outside; lia.
Qed.
Lemma seg_word' o i k : 0 <= o -> o + 64 <= zlen m -> zlen a = o + 8 * i -> 0 <= i < 8 -> 0 <= k < 8 -> k = i ->
  X3.rd8 (seg m' o (o + 64)) (8 * k) = le_val w'.
Proof.
  intros Ho Hl Ha Hi Hk ->. pose proof len_eq as Q. rewrite rd8_zslice, seg_zslice. replace (o + 64 - o) with 64 by lia.
  rewrite zslice_zslice by lia. rewrite <- Ha, <- Lw', zslice_inside. reflexivity.
Qed.
Lemma stripe_split o i off acc : 0 <= o -> o + 64 <= zlen m -> zlen a = o + 8 * i -> 0 <= i < 8 -> bytes_ok w -> bytes_ok w' -> w <> w' -> acc8 acc ->
  split_at i (X3.accumulate secret acc (seg m o (o + 64)) off) (X3.accumulate secret acc (seg m' o (o + 64)) off).
Proof.
  intros Ho Hl Ha Hi B B' N A.
  assert (E : X3.rd8 (seg m o (o + 64)) (8 * i) = le_val w) by (rewrite (seg_word o i i) by trivial; rewrite Z.eqb_refl; reflexivity).
  assert (E' : X3.rd8 (seg m' o (o + 64)) (8 * i) = le_val w') by (apply (seg_word' o i i); trivial).
  apply split_accumulate; trivial; rewrite ?E, ?E'; try (apply (le_wd 8); trivial; lia).
  - intros k Hk K. rewrite (seg_word o i k) by trivial. replace (k =? i) with false by lia. reflexivity.
  - intros Q. apply N. apply le_val_inj; trivial. lia.
Qed.
Lemma turn_out acc t : 0 <= t -> 64 * t + 64 <= zlen m -> 64 * t + 64 <= zlen a \/ zlen a + 8 <= 64 * t -> turn m acc t = turn m' acc t.
Proof. intros. unfold turn. rewrite seg_out by lia. reflexivity. Qed.
Lemma turns_out l acc : (forall t, In t l -> 0 <= t /\ 64 * t + 64 <= zlen m /\ (64 * t + 64 <= zlen a \/ zlen a + 8 <= 64 * t)) ->
  fold_left (turn m) l acc = fold_left (turn m') l acc.
Proof.
  revert acc. induction l as [|t l IH]; intros acc H; [reflexivity|]. cbn [fold_left]. rewrite turn_out by (apply H; left; reflexivity).
  apply IH. intros; apply H; right; trivial.
Qed.
Lemma large_split i : bytes_ok w -> bytes_ok w' -> w <> w' -> word_of (zlen m) (zlen a) i ->
  split_at i (X3.large_acc secret m) (X3.large_acc secret m') /\ acc8 (X3.large_acc secret m) /\ acc8 (X3.large_acc secret m').
Proof.
  intros B B' N [Hi C]. pose proof len_eq as Q. rewrite !large_acc_turns by (rewrite ?Q; lia). rewrite Q.
  split; [|split; apply accumulate_acc8]. set (T := (zlen m - 1) / 64) in *.
  assert (HT : 64 * T <= zlen m - 1) by (apply Z.mul_div_le; lia). assert (HT' : zlen m - 1 < 64 * T + 64) by (pose proof (Z.mul_succ_div_gt (zlen m - 1) 64); lia).
  pose proof (zlen_nonneg b). pose proof (zlen_nonneg a) as Ha0. assert (La : zlen m = zlen a + 8 + zlen b) by (rewrite !zlen_app; lia).
  destruct C as [(E & H1 & H2)|(E & H1)].
  - set (t := zlen a / 64). assert (Ht : zlen a = 64 * t + 8 * i) by (pose proof (Z.div_mod (zlen a) 64); lia).
    assert (Rt : 0 <= t < T) by lia.
    replace T with (t + (1 + (T - t - 1))) by lia. rewrite (upto_add t), (upto_add 1) by lia. change (upto 1) with [0]. rewrite map_app, map_map.
    rewrite !fold_left_app. cbn [map fold_left]. rewrite Z.add_0_r.
    set (l := map (fun x => t + (1 + x)) (upto (T - t - 1))).
    assert (Hl : forall x, In x l -> 0 <= x /\ 64 * x + 64 <= zlen m /\ (64 * x + 64 <= zlen a \/ zlen a + 8 <= 64 * x)).
    { intros x I. apply in_map_iff in I. destruct I as (y & <- & I). apply in_upto in I. lia. }
    rewrite <- (turns_out (upto t)) by (intros x I; apply in_upto in I; lia).
    rewrite <- (turns_out l) by exact Hl. unfold last_turn at 2. change (len m') with (zlen m'). rewrite Q.
    replace (seg m' (zlen m - 64) (zlen m)) with (seg m (zlen m - 64) (zlen m)).
    2: { replace (zlen m) with (zlen m - 64 + 64) at 2 4 by lia. apply seg_out; lia. }
    set (acc := fold_left (turn m) (upto t) X3.init_acc). assert (A : acc8 acc) by (apply turns_acc8, init_acc8).
    assert (S1 : split_at i (turn m acc t) (turn m' acc t)).
    { unfold turn. pose proof (stripe_split (64 * t) i (8 * (t mod n)) acc ltac:(lia) ltac:(lia) Ht Hi B B' N A) as S.
      destruct (t mod n =? n - 1); [|exact S]. eapply split_lanewise; [apply (scramble_lanewise secret); [trivial|lia]|trivial|apply accumulate_acc8..|exact S]. }
    assert (A1 : acc8 (turn m acc t)) by (apply (turns_acc8 m [t] acc A)). assert (A1' : acc8 (turn m' acc t)) by (apply (turns_acc8 m' [t] acc A)).
    destruct (lanewise_fold (fun t a => turn m a t) l) as [g G]; [intros; apply turn_lanewise|].
    unfold last_turn. change (len m) with (zlen m).
    eapply (split_lanewise i _ _ _ _ (accumulate_lanewise secret (seg m (zlen m - 64) (zlen m)) (len secret - 71))); [trivial|apply turns_acc8; trivial..|].
    exact (split_lanewise i _ g _ _ G Hi A1 A1' S1).
  - rewrite <- (turns_out (upto T)) by (intros x I; apply in_upto in I; lia). unfold last_turn.
    change (len m') with (zlen m'). change (len m) with (zlen m). rewrite Q.
    replace (zlen m) with (zlen m - 64 + 64) at 2 4 by lia. apply stripe_split; trivial; try lia. apply turns_acc8, init_acc8.
Qed.
End long.

(* ------------------------------------------------------------------ *)
(** ** The first 16 bytes of a long input *)
Section prefix. Context (secret : list Z) (Bs : bytes_ok secret) (Ls : 136 <= zlen secret) (z : list Z) (Lz : 225 <= zlen z).
#[local] Notation k0 := (X3.rd8 secret 0).
#[local] Notation k1 := (X3.rd8 secret 8).
(** what is left to do after the first stripe does not depend on the first 16 bytes *)
Lemma after_first : exists f g, lanewise f g /\
  forall q, zlen q = 16 -> X3.large_acc secret (q ++ z) = f (X3.accumulate secret X3.init_acc (seg (q ++ z) 0 64) 0).
Proof.
  set (q0 := repeat 0 16). set (m0 := q0 ++ z). set (T := (zlen m0 - 1) / 64).
  assert (L0 : zlen m0 = 16 + zlen z) by (unfold m0; rewrite zlen_app; reflexivity).
  assert (HT : 64 * T <= zlen m0 - 1) by (apply Z.mul_div_le; lia). assert (HT' : zlen m0 - 1 < 64 * T + 64) by (pose proof (Z.mul_succ_div_gt (zlen m0 - 1) 64); lia).
  set (l := map (Z.add 1) (upto (T - 1))).
  destruct (lanewise_fold (fun t a => turn secret m0 a t) l) as [g G]; [intros t _; exact (turn_lanewise secret Bs Ls m0 t)|].
  exists (fun a => last_turn secret m0 (fold_left (turn secret m0) l a)). eexists. split.
  { unfold last_turn. exact (lanewise_comp _ _ _ _ G (accumulate_lanewise secret (seg m0 (len m0 - 64) (len m0)) (len secret - 71))). }
  intros q Lq. assert (L : zlen (q ++ z) = zlen m0) by (rewrite L0, zlen_app; lia).
  pose proof (n_pos secret Ls) as Hn. rewrite large_acc_turns by (trivial; rewrite L; lia). rewrite L. fold T.
  replace T with (1 + (T - 1)) by lia. rewrite upto_add by lia. fold l. rewrite fold_left_app. change (upto 1) with [0]. cbn [fold_left].
  assert (E : forall o, 16 <= o -> o + 64 <= zlen m0 -> seg (q ++ z) o (o + 64) = seg m0 o (o + 64)).
  { intros o Ho Hl. rewrite !seg_zslice. unfold m0. rewrite !zslice_app_r by (rewrite ?Lq; change (zlen q0) with 16; lia).
    rewrite Lq. reflexivity. }
  assert (T0 : turn secret (q ++ z) X3.init_acc 0 = X3.accumulate secret X3.init_acc (seg (q ++ z) 0 64) 0).
  { unfold turn. rewrite Z.mod_0_l by lia. replace (0 =? X3.stripesPerBlock secret - 1) with false by lia. reflexivity. }
  rewrite T0. set (a := X3.accumulate secret X3.init_acc (seg (q ++ z) 0 64) 0). unfold last_turn. change (len (q ++ z)) with (zlen (q ++ z)).
  change (len m0) with (zlen m0). rewrite L. replace (zlen m0) with (zlen m0 - 64 + 64) at 2 4 by lia. rewrite E by lia. f_equal.
  clearbody a. assert (Hl : forall t, In t l -> 1 <= t < T) by (intros t I; apply in_map_iff in I; destruct I as (y & <- & I); apply in_upto in I; lia).
  clear G. clearbody l. revert a. induction l as [|t l IH]; intros a; [reflexivity|]. cbn [fold_left].
  assert (Ht : 1 <= t < T) by (apply Hl; left; reflexivity). unfold turn at 2 4. rewrite E by lia. apply IH. intros; apply Hl; right; trivial.
Qed.
Lemma lane_0 u v : zlen u = 8 -> zlen v = 8 -> addend secret (seg ((u ++ v) ++ z) 0 64) 0 0 = le_val v + mul32 (Z.lxor (le_val u) k0).
Proof.
  intros Lu Lv. unfold addend. change (mate 0) with 1. rewrite <- app_assoc.
  assert (L : zlen (u ++ v ++ z) = 16 + zlen z) by (rewrite !zlen_app; lia).
  f_equal; [|do 2 f_equal]; rewrite rd8_zslice, seg_zslice, zslice_zslice by lia; cbn [Z.mul Z.add Z.sub Pos.mul Pos.add].
  - rewrite <- Lu at 1. replace (zslice (u ++ v ++ z) (zlen u) 8) with (zslice (u ++ v ++ z) (zlen u) (zlen v)) by (f_equal; lia). rewrite zslice_inside. reflexivity.
  - rewrite zslice_app_l by lia. rewrite zslice_all by lia. reflexivity.
Qed.
Lemma lane_1 u v : zlen u = 8 -> zlen v = 8 -> addend secret (seg ((u ++ v) ++ z) 0 64) 0 1 = le_val u + mul32 (Z.lxor (le_val v) k1).
Proof.
  intros Lu Lv. unfold addend. change (mate 1) with 0. rewrite <- app_assoc.
  assert (L : zlen (u ++ v ++ z) = 16 + zlen z) by (rewrite !zlen_app; lia).
  f_equal; [|do 2 f_equal]; rewrite rd8_zslice, seg_zslice, zslice_zslice by lia; cbn [Z.mul Z.add Z.sub Pos.mul Pos.add].
  - rewrite zslice_app_l by lia. rewrite zslice_all by lia. reflexivity.
  - rewrite <- Lu at 1. replace (zslice (u ++ v ++ z) (zlen u) 8) with (zslice (u ++ v ++ z) (zlen u) (zlen v)) by (f_equal; lia). rewrite zslice_inside. reflexivity.
Qed.
Lemma lane_far u v u' v' k : zlen u = 8 -> zlen v = 8 -> zlen u' = 8 -> zlen v' = 8 -> 2 <= k < 8 ->
  addend secret (seg ((u ++ v) ++ z) 0 64) 0 k = addend secret (seg ((u' ++ v') ++ z) 0 64) 0 k.
Proof.
  intros Lu Lv Lu' Lv' Hk. assert (E : forall j, 2 <= j < 8 -> X3.rd8 (seg ((u ++ v) ++ z) 0 64) (8 * j) = X3.rd8 (seg ((u' ++ v') ++ z) 0 64) (8 * j)).
  { intros j Hj. rewrite !rd8_zslice, !seg_zslice, !zslice_zslice by (rewrite ?zlen_app; lia). f_equal.
    rewrite !zslice_app_r by (rewrite ?zlen_app; lia). rewrite !zlen_app, Lu, Lv, Lu', Lv'. reflexivity. }
  assert (M : 2 <= mate k < 8).
  { assert (k = 2 \/ k = 3 \/ k = 4 \/ k = 5 \/ k = 6 \/ k = 7) as D by lia. repeat (destruct D as [->|D]; [cbv; intuition congruence|]). subst. cbv; intuition congruence. }
  unfold addend. rewrite !E by trivial. reflexivity.
Qed.
(** equal contributions to the first two lanes *)
Lemma prefix_collision u v u' v' : zlen u = 8 -> zlen v = 8 -> zlen u' = 8 -> zlen v' = 8 ->
  le_val v + mul32 (Z.lxor (le_val u) k0) = le_val v' + mul32 (Z.lxor (le_val u') k0) ->
  le_val u + mul32 (Z.lxor (le_val v) k1) = le_val u' + mul32 (Z.lxor (le_val v') k1) ->
  X3.large_acc secret ((u ++ v) ++ z) = X3.large_acc secret ((u' ++ v') ++ z).
Proof.
  intros Lu Lv Lu' Lv' E0 E1. destruct after_first as (f & g & [_ F] & H). rewrite !H by (rewrite zlen_app; lia). f_equal.
  apply acc8_ext; try apply accumulate_acc8. intros i Hi. rewrite !accumulate_nth by trivial.
  destruct (Z.eq_dec i 0) as [->|N0]; [rewrite !lane_0 by trivial; rewrite E0; reflexivity|].
  destruct (Z.eq_dec i 1) as [->|N1]; [rewrite !lane_1 by trivial; rewrite E1; reflexivity|].
  rewrite (lane_far u v u' v') by (trivial; lia). reflexivity.
Qed.
End prefix.

(* ------------------------------------------------------------------ *)
(** ** Two flipped bits *)
Lemma flip_bit x j : 0 <= j -> Z.lxor x (2 ^ j) = if Z.testbit x j then x - 2 ^ j else x + 2 ^ j.
Proof.
  intros Hj. assert (K : forall u, Z.testbit u j = false -> Z.lxor u (2 ^ j) = u + 2 ^ j).
  { intros u Hu. symmetry. apply Z.add_nocarry_lxor. apply Z.bits_inj'. intros n Hn. rewrite Z.land_spec, Z.bits_0, Z.pow2_bits_eqb by lia.
    destruct (Z.eqb_spec j n) as [<-|]; [|apply andb_false_r]. rewrite Hu. reflexivity. }
  destruct (Z.testbit x j) eqn:E; [|auto].
  assert (Q : Z.lxor (Z.lxor x (2 ^ j)) (2 ^ j) = x) by (rewrite Z.lxor_assoc, Z.lxor_nilpotent, Z.lxor_0_r; reflexivity).
  rewrite K in Q; [lia|]. rewrite Z.lxor_spec, E, Z.pow2_bits_true by lia. reflexivity.
Qed.
(** numbers whose low halves are not complements of each other agree in a low bit *)
Lemma common_bit x y : (x + y) mod 2 ^ 32 <> 2 ^ 32 - 1 -> exists j, 0 <= j < 32 /\ Z.testbit x j = Z.testbit y j.
Proof.
  intros N. destruct (existsb (fun j => Bool.eqb (Z.testbit x j) (Z.testbit y j)) (upto 32)) eqn:E.
  - apply existsb_exists in E. destruct E as (j & I & E). exists j. split; [apply in_upto, I|]. apply Bool.eqb_prop, E.
  - exfalso. apply N. assert (F : forall j, 0 <= j < 32 -> Z.testbit y j = negb (Z.testbit x j)).
    { intros j Hj. destruct (Bool.eqb (Z.testbit x j) (Z.testbit y j)) eqn:Q.
      - assert (H : existsb (fun j => Bool.eqb (Z.testbit x j) (Z.testbit y j)) (upto 32) = true); [|congruence].
        apply existsb_exists. exists j. split; [|exact Q]. apply in_map_iff. exists (Z.to_nat j). split; [lia|]. apply in_seq. lia.
      - destruct (Z.testbit x j), (Z.testbit y j); try reflexivity; discriminate Q. }
    rewrite Z.add_mod by lia. rewrite <- !Z.land_ones by lia.
    assert (A : Z.land (Z.land x (Z.ones 32)) (Z.land y (Z.ones 32)) = 0).
    { apply Z.bits_inj'. intros j Hj. rewrite !Z.land_spec, Z.bits_0. destruct (Z.ltb_spec j 32).
      - rewrite Z.ones_spec_low, F by lia. destruct (Z.testbit x j); reflexivity.
      - rewrite Z.ones_spec_high by lia. rewrite !andb_false_r. reflexivity. }
    rewrite Z.add_nocarry_lxor by exact A. change (2 ^ 32 - 1) with (Z.ones 32). apply Z.bits_inj'. intros j Hj.
    rewrite !Z.land_spec, Z.lxor_spec, !Z.land_spec. destruct (Z.ltb_spec j 32).
    + rewrite Z.ones_spec_low, F by lia. destruct (Z.testbit x j); reflexivity.
    + rewrite Z.ones_spec_high by lia. rewrite !andb_false_r. reflexivity.
Qed.
Lemma mul32_parts x y : 0 <= x < 2 ^ 32 -> 0 <= y -> mul32 (y * 2 ^ 32 + x) = x * y.
Proof.
  intros Hx Hy. unfold mul32, X3.lo32, X3.hi32. rewrite (Z.add_comm (y * 2 ^ 32)). rewrite Z.mod_add, Z.div_add by lia.
  rewrite Z.mod_small, Z.div_small by lia. lia.
Qed.
(** the two words for keys that agree in bit [j]: both products have the factor 1, so that flipping bit [j] of a word
    changes its product by 2^j and takes 2^j from the other lane, or the other way round *)
Definition word_u (k0 j : Z) : Z := Z.lxor (2 ^ 32 + (if Z.testbit k0 j then 2 ^ j else 0)) k0.
Definition word_v (k1 j : Z) : Z := Z.lxor (2 ^ 32 + 2 ^ j) k1.
Lemma two_bits k0 k1 j : 0 <= j < 32 -> Z.testbit k0 j = Z.testbit k1 j ->
  let u := word_u k0 j in let v := word_v k1 j in let u' := Z.lxor u (2 ^ j) in let v' := Z.lxor v (2 ^ j) in
  v + mul32 (Z.lxor u k0) = v' + mul32 (Z.lxor u' k0) /\ u + mul32 (Z.lxor v k1) = u' + mul32 (Z.lxor v' k1).
Proof.
  intros Hj E u v u' v'. assert (P : 0 < 2 ^ j < 2 ^ 32) by (split; [apply Z.pow_pos_nonneg; lia|apply Z.pow_lt_mono_r; lia]).
  assert (X : forall a k, Z.lxor (Z.lxor a k) k = a) by (intros; rewrite Z.lxor_assoc, Z.lxor_nilpotent, Z.lxor_0_r; reflexivity).
  assert (X' : forall a k, Z.lxor (Z.lxor (Z.lxor a k) (2 ^ j)) k = Z.lxor a (2 ^ j)).
  { intros. rewrite Z.lxor_assoc, (Z.lxor_comm (2 ^ j)), <- Z.lxor_assoc, X. reflexivity. }
  unfold u', v', u, v, word_u, word_v. rewrite !X, !X'.
  assert (T0 : Z.testbit (2 ^ 32) j = false) by (rewrite Z.pow2_bits_eqb by lia; lia).
  assert (T1 : Z.testbit (2 ^ 32 + 2 ^ j) j = true).
  { pose proof (flip_bit (2 ^ 32) j ltac:(lia)) as F. rewrite T0 in F. rewrite <- F, Z.lxor_spec, T0, Z.pow2_bits_true by lia. reflexivity. }
  assert (S : forall x k, Z.testbit (Z.lxor x k) j = xorb (Z.testbit x j) (Z.testbit k j)) by (intros; apply Z.lxor_spec).
  rewrite !flip_bit by lia. rewrite !S, T1. rewrite <- E. pose proof (mul32_parts (2 ^ j) 1 ltac:(lia) ltac:(lia)) as M1. pose proof (mul32_parts 0 1 ltac:(lia) ltac:(lia)) as M0.
  rewrite Z.mul_1_l in M1, M0. rewrite Z.add_0_r in M0.
  destruct (Z.testbit k0 j) eqn:K.
  - rewrite T1. cbn [xorb negb]. rewrite M1. replace (2 ^ 32 + 2 ^ j - 2 ^ j) with (2 ^ 32) by lia. rewrite M0. lia.
  - rewrite !Z.add_0_r, T0. cbn [xorb negb]. replace (2 ^ 32 + 2 ^ j - 2 ^ j) with (2 ^ 32) by lia. rewrite M1, !M0. lia.
Qed.
Lemma word_wd x k j : wd 64 k -> 0 <= j < 32 -> wd 64 x -> wd 64 (Z.lxor x k) /\ wd 64 (Z.lxor (Z.lxor x k) (2 ^ j)).
Proof.
  intros K Hj Hx. assert (P : 0 < 2 ^ j < 2 ^ 32) by (split; [apply Z.pow_pos_nonneg; lia|apply Z.pow_lt_mono_r; lia]).
  assert (A : wd 64 (Z.lxor x k)) by (apply lxor_bound; [lia|trivial..]). split; [trivial|]. apply lxor_bound; [lia|trivial|]. lia.
Qed.
Lemma rd8_wd s o : bytes_ok s -> 0 <= o -> o + 8 <= zlen s -> wd 64 (X3.rd8 s o).
Proof. intros B Ho Hl. rewrite rd8_zslice. apply (le_wd 8); [apply bytes_ok_zslice, B|]. rewrite zlen_zslice; lia. Qed.
Lemma two_bits_large s z j : bytes_ok s -> 136 <= zlen s -> 225 <= zlen z -> 0 <= j < 32 -> Z.testbit (X3.rd8 s 0) j = Z.testbit (X3.rd8 s 8) j ->
  let u := word_u (X3.rd8 s 0) j in let v := word_v (X3.rd8 s 8) j in
  wd 64 u /\ wd 64 v /\ wd 64 (Z.lxor u (2 ^ j)) /\ wd 64 (Z.lxor v (2 ^ j)) /\
  X3.large_acc s ((X3.bytes8 u ++ X3.bytes8 v) ++ z) = X3.large_acc s ((X3.bytes8 (Z.lxor u (2 ^ j)) ++ X3.bytes8 (Z.lxor v (2 ^ j))) ++ z).
Proof.
  intros Bs Ls Lz Hj E u v. destruct (two_bits _ _ j Hj E) as [E0 E1].
  assert (P : 0 < 2 ^ j < 2 ^ 32) by (split; [apply Z.pow_pos_nonneg; lia|apply Z.pow_lt_mono_r; lia]).
  destruct (word_wd (2 ^ 32 + (if Z.testbit (X3.rd8 s 0) j then 2 ^ j else 0)) (X3.rd8 s 0) j) as [Wu Wu'];
    [apply rd8_wd; trivial; lia|trivial|unfold wd; destruct (Z.testbit (X3.rd8 s 0) j); lia|].
  destruct (word_wd (2 ^ 32 + 2 ^ j) (X3.rd8 s 8) j) as [Wv Wv']; [apply rd8_wd; trivial; lia|trivial|unfold wd; lia|].
  repeat (split; [assumption|]). apply prefix_collision; trivial; rewrite !bytes8_val by assumption; assumption.
Qed.

(* ------------------------------------------------------------------ *)
(** ** The final merge *)
Definition pair_term (s A : list Z) (off j : Z) : Z :=
  X3.fold128 (Z.lxor (X3.nth0 A (2 * j)) (X3.rd8 s (off + 16 * j)) * Z.lxor (X3.nth0 A (2 * j + 1)) (X3.rd8 s (off + 16 * j + 8))).
Lemma merge_eq s A init off : X3.finalMerge s A init off =
  X3.avalanche ((((((((init + pair_term s A off 0) mod X3.W) + pair_term s A off 1) mod X3.W) + pair_term s A off 2) mod X3.W) + pair_term s A off 3) mod X3.W).
Proof. reflexivity. Qed.
Lemma merge_sum s A init off : X3.finalMerge s A init off =
  X3.avalanche ((init + pair_term s A off 0 + pair_term s A off 1 + pair_term s A off 2 + pair_term s A off 3) mod 2 ^ 64).
Proof. rewrite merge_eq. f_equal. change X3.W with (2 ^ 64). do 3 (rewrite Zplus_mod_idemp_l, <- ?Z.add_assoc). reflexivity. Qed.
Lemma merge_ext s A A' init off : (forall j, 0 <= j < 4 -> pair_term s A off j = pair_term s A' off j) -> X3.finalMerge s A init off = X3.finalMerge s A' init off.
Proof. intros H. rewrite !merge_sum, !H by lia. reflexivity. Qed.
Lemma merge_iff s A A' init off j : bytes_ok s -> 0 <= off -> off + 64 <= zlen s -> acc8 A -> acc8 A' -> 0 <= j < 4 ->
  (forall k, 0 <= k < 4 -> k <> j -> pair_term s A off k = pair_term s A' off k) ->
  (X3.finalMerge s A init off = X3.finalMerge s A' init off <-> pair_term s A off j = pair_term s A' off j).
Proof.
  intros B Ho Hl HA HA' Hj H. assert (W : forall A k, acc8 A -> 0 <= k < 4 -> wd 64 (pair_term s A off k)).
  { intros X k [_ HX] Hk. apply fold128_w64; (apply lxor_bound; [lia|apply HX; lia|apply rd8_wd; trivial; lia]). }
  split.
  - intros E. rewrite !merge_sum in E. apply aval3_inj in E; try (apply mod_wd; lia). apply mod_eq_div in E; [|lia].
    apply (wd_eq_mod 64); auto; [lia|].
    pose proof (H 0) as H0. pose proof (H 1) as H1. pose proof (H 2) as H2. pose proof (H 3) as H3. clear H W.
    assert (j = 0 \/ j = 1 \/ j = 2 \/ j = 3) as D by lia.
    match type of E with (_ | ?x) => replace (pair_term s A off j - pair_term s A' off j) with x; [exact E|] end.
    destruct D as [->|[->|[->|D]]]; [lia..|]. subst j. lia.
  - intros E. apply merge_ext. intros k Hk. destruct (Z.eq_dec k j) as [->|]; auto.
Qed.

(* ------------------------------------------------------------------ *)
(** ** A change of one word, seen by the final merge *)
Lemma word_merge s a w w' b i init off : bytes_ok s -> 136 <= zlen s -> zlen w = 8 -> zlen w' = 8 -> 240 < zlen (a ++ w ++ b) ->
  bytes_ok w -> bytes_ok w' -> w <> w' -> word_of (zlen (a ++ w ++ b)) (zlen a) i -> 0 <= off -> off + 64 <= zlen s ->
  let A := X3.large_acc s (a ++ w ++ b) in let A' := X3.large_acc s (a ++ w' ++ b) in
  X3.nth0 A (mate i) <> X3.nth0 A' (mate i) /\ (X3.finalMerge s A init off = X3.finalMerge s A' init off <-> pair_term s A off (i / 2) = pair_term s A' off (i / 2)).
Proof.
  intros Bs Ls Lw Lw' Long B B' N C Ho Hl A A'. destruct (large_split s Bs Ls a w w' b Lw Lw' Long i B B' N C) as ([D S] & HA & HA').
  split; [exact D|]. destruct C as [Hi _]. assert (Q : 0 <= i / 2 < 4) by (split; [apply Z.div_pos; lia|apply Z.div_lt_upper_bound; lia]).
  apply merge_iff; trivial. intros k Hk K. unfold pair_term.
  assert (E : forall x, x = 2 * k \/ x = 2 * k + 1 -> X3.nth0 A x = X3.nth0 A' x).
  { intros x Hx. assert (M : x / 2 = k) by (destruct Hx as [->| ->]; [rewrite Z.mul_comm, Z.div_mul by lia; lia|rewrite Z.add_comm, Z.mul_comm, Z.div_add by lia; cbn; lia]).
    apply S; [lia|congruence|]. intros ->. apply K. rewrite <- M. clear - Hi.
    assert (i = 0 \/ i = 1 \/ i = 2 \/ i = 3 \/ i = 4 \/ i = 5 \/ i = 6 \/ i = 7) as D by lia. repeat (destruct D as [->|D]; [reflexivity|]). subst. reflexivity. }
  rewrite !E by lia. reflexivity.
Qed.

(* ------------------------------------------------------------------ *)
(** ** One flipped bit, 64 bits *)
Lemma lxor_mod x y k : 0 <= k -> Z.lxor x y mod 2 ^ k = Z.lxor (x mod 2 ^ k) (y mod 2 ^ k).
Proof.
  intros Hk. rewrite <- !Z.land_ones by lia. apply Z.bits_inj'. intros j Hj. rewrite !Z.land_spec, !Z.lxor_spec, !Z.land_spec.
  destruct (Z.testbit x j), (Z.testbit y j), (Z.testbit (Z.ones k) j); reflexivity.
Qed.
Lemma zero_product s y : bytes_ok s -> 8 <= zlen s -> zlen y = 4 -> mul32 (Z.lxor (le_val (zslice s 0 4 ++ y)) (X3.rd8 s 0)) = 0.
Proof.
  intros B L Ly. unfold mul32. replace (X3.lo32 _) with 0; [lia|]. unfold X3.lo32. rewrite lxor_mod by lia.
  assert (L4 : zlen (zslice s 0 4) = 4) by (apply zlen_zslice; lia).
  assert (W : 0 <= le_val (zslice s 0 4) < 2 ^ 32) by (apply (le_wd 4); [apply bytes_ok_zslice, B|lia]).
  assert (E : forall t, zlen t = 4 -> le_val (zslice s 0 4 ++ t) mod 2 ^ 32 = le_val (zslice s 0 4)).
  { intros t Lt. rewrite le_val_app, L4. change (8 * 4) with 32. rewrite (Z.mul_comm (2 ^ 32)), Z.mod_add by lia. apply Z.mod_small. exact W. }
  rewrite E by trivial. rewrite rd8_zslice. replace (zslice s 0 8) with (zslice s 0 4 ++ zslice s 4 4).
  - rewrite E by (apply zlen_zslice; lia). symmetry. apply Z.lxor_nilpotent.
  - symmetry. apply (zslice_split s 0 8 4); lia.
Qed.
Lemma any_four_bytes s z init : bytes_ok s -> 136 <= zlen s -> 225 <= zlen z ->
  exists v, bytes_ok v /\ zlen v = 8 /\ forall y y', zlen y = 4 -> zlen y' = 4 ->
    X3.finalMerge s (X3.large_acc s (((zslice s 0 4 ++ y) ++ v) ++ z)) init 11 = X3.finalMerge s (X3.large_acc s (((zslice s 0 4 ++ y') ++ v) ++ z)) init 11.
Proof.
  intros B L Lz. destruct (after_first s B L z Lz) as (f & g & [P F] & H). destruct (P 0 ltac:(lia)) as [R I].
  destruct (inj_surj (2 ^ 64) (g 0) R I (X3.rd8 s 11)) as (x & Hx & Ex); [apply rd8_wd; trivial; lia|].
  set (v := (x - X3.P32_3) mod 2 ^ 64). assert (Wv : wd 64 v) by (apply mod_wd; lia). exists (X3.bytes8 v). split; [apply bytes8_ok|]. split; [reflexivity|].
  intros y y' Ly Ly'. apply merge_ext. assert (L4 : zlen (zslice s 0 4) = 4) by (apply zlen_zslice; lia).
  assert (Z0 : forall y, zlen y = 4 -> X3.nth0 (X3.large_acc s (((zslice s 0 4 ++ y) ++ X3.bytes8 v) ++ z)) 0 = X3.rd8 s 11).
  { intros t Lt. rewrite H by (rewrite !zlen_app, bytes8_len; lia). destruct (F (X3.accumulate s X3.init_acc (seg (((zslice s 0 4 ++ t) ++ X3.bytes8 v) ++ z) 0 64) 0)) as [_ Fl]; [apply accumulate_acc8|].
    rewrite Fl by lia. rewrite accumulate_nth by lia. rewrite lane_0 by (trivial; rewrite zlen_app; lia). rewrite zero_product by (trivial; lia).
    rewrite bytes8_val by trivial. change (X3.nth0 X3.init_acc 0) with X3.P32_3. rewrite <- Ex. f_equal. unfold v. rewrite Z.add_0_r, Zplus_mod_idemp_r.
    replace (X3.P32_3 + (x - X3.P32_3)) with x by lia. apply Z.mod_small. exact Hx. }
  intros j Hj. unfold pair_term. destruct (Z.eq_dec j 0) as [->|N].
  - change (2 * 0) with 0. change (11 + 16 * 0) with 11. rewrite !Z0, !Z.lxor_nilpotent by trivial. rewrite !Z.mul_0_l. reflexivity.
  - assert (E : forall k, 2 <= k < 8 -> X3.nth0 (X3.large_acc s (((zslice s 0 4 ++ y) ++ X3.bytes8 v) ++ z)) k = X3.nth0 (X3.large_acc s (((zslice s 0 4 ++ y') ++ X3.bytes8 v) ++ z)) k).
    { intros k Hk. rewrite !H by (rewrite !zlen_app, bytes8_len; lia).
      destruct (F (X3.accumulate s X3.init_acc (seg (((zslice s 0 4 ++ y) ++ X3.bytes8 v) ++ z) 0 64) 0)) as [_ F1]; [apply accumulate_acc8|].
      destruct (F (X3.accumulate s X3.init_acc (seg (((zslice s 0 4 ++ y') ++ X3.bytes8 v) ++ z) 0 64) 0)) as [_ F2]; [apply accumulate_acc8|].
      rewrite F1, F2 by lia. f_equal. rewrite !accumulate_nth by lia. do 2 f_equal. apply lane_far; trivial; rewrite zlen_app; lia. }
    rewrite !E by lia. reflexivity.
Qed.
