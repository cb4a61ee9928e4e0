(** doc/xxhash.cry computes what doc/xxhash_spec.md describes. *)
From Verif Require Import Base Mem Spec32 Spec64 P_Base P_Spec M_Cry.
Import Cry.

(** ** Bit sequences and numbers *)
Lemma val_acc l : forall a, fold_left (fun acc b => 2 * acc + Z.b2z b) l a = a * 2 ^ zlen l + val l.
Proof.
  unfold val. induction l as [|b l IH]; intros a; cbn [fold_left].
  - change (2 ^ zlen []) with 1. lia.
  - rewrite IH, (IH (2 * 0 + Z.b2z b)). replace (zlen (b :: l)) with (1 + zlen l) by (unfold zlen; cbn [length]; lia).
    rewrite Z.pow_add_r by (unfold zlen; lia). lia.
Qed.
Lemma val_app a b : val (a ++ b) = val a * 2 ^ zlen b + val b.
Proof. unfold val at 1. rewrite fold_left_app. apply val_acc. Qed.
Lemma val_range a : 0 <= val a < 2 ^ zlen a.
Proof.
  induction a as [|x a IH] using rev_ind; [cbn; lia|]. rewrite val_app, zlen_app, Z.pow_add_r by (apply zlen_nonneg).
  change (zlen [x]) with 1. change (val [x]) with (2 * 0 + Z.b2z x). destruct x; cbn [Z.b2z]; lia.
Qed.
Lemma word_S w x : word (S w) x = Z.testbit x (Z.of_nat w) :: word w x.
Proof. unfold word. rewrite seq_S, rev_app_distr. reflexivity. Qed.
Lemma word_len w x : length (word w x) = w.
Proof. unfold word. rewrite map_length, rev_length, seq_length. reflexivity. Qed.
Lemma val_word w x : val (word w x) = x mod 2 ^ Z.of_nat w.
Proof.
  induction w as [|w IH]; [symmetry; apply Z.mod_1_r|]. rewrite word_S. change (?b :: ?l) with ([b] ++ l). rewrite val_app, IH.
  unfold zlen. rewrite word_len. change (val [?b]) with (2 * 0 + Z.b2z b). rewrite Z.testbit_spec' by lia.
  rewrite Nat2Z.inj_succ, Z.pow_succ_r by lia. rewrite (Z.mul_comm 2 (2 ^ _)), Z.rem_mul_r by lia. ring.
Qed.

(** [a] is the word of width [w] for the number [x] *)
Definition Is (w : nat) (a : bits) (x : Z) : Prop := length a = w /\ val a = x.
Lemma Is_range w a x : Is w a x -> 0 <= x < 2 ^ Z.of_nat w.
Proof. intros [<- <-]. apply val_range. Qed.
Lemma Is_word w x : Is w (word w x) (x mod 2 ^ Z.of_nat w).
Proof. split; [apply word_len|apply val_word]. Qed.
Lemma val_inj a b : length a = length b -> val a = val b -> a = b.
Proof.
  revert b. induction a as [|x a IH] using rev_ind; intros b L E.
  - destruct b; [reflexivity|discriminate].
  - destruct b as [|y b] using rev_ind; [rewrite app_length in L; cbn in L; lia|]. clear IHb. rewrite !app_length in L. cbn [length] in L.
    rewrite !val_app in E. change (zlen [_]) with 1 in E. change (val [x]) with (2 * 0 + Z.b2z x) in E. change (val [y]) with (2 * 0 + Z.b2z y) in E.
    assert (val a = val b /\ x = y) as [E1 ->]; [destruct x, y; cbn [Z.b2z] in E; (split; [lia|try reflexivity; lia])|].
    rewrite (IH b); trivial; lia.
Qed.
Lemma Is_eq w a x : Is w a x -> a = word w x.
Proof.
  intros H. pose proof (Is_range w a x H) as R. destruct H as [L V]. apply val_inj; [rewrite word_len; exact L|].
  rewrite val_word, Z.mod_small by exact R. exact V.
Qed.
Lemma Is_add w a x b y : Is w a x -> Is w b y -> Is w (add a b) ((x + y) mod 2 ^ Z.of_nat w).
Proof. intros [L V] [L' V']. unfold add. rewrite L, V, V'. apply Is_word. Qed.
Lemma Is_sub w a x b y : Is w a x -> Is w b y -> Is w (sub a b) ((x - y) mod 2 ^ Z.of_nat w).
Proof. intros [L V] [L' V']. unfold sub. rewrite L, V, V'. apply Is_word. Qed.
Lemma Is_mul w a x b y : Is w a x -> Is w b y -> Is w (mul a b) ((x * y) mod 2 ^ Z.of_nat w).
Proof. intros [L V] [L' V']. unfold mul. rewrite L, V, V'. apply Is_word. Qed.
Lemma xor_word w x y : xor (word w x) (word w y) = word w (Z.lxor x y).
Proof. unfold xor. induction w as [|w IH]; [reflexivity|]. rewrite !word_S. cbn [combine map fst snd]. rewrite IH, Z.lxor_spec. reflexivity. Qed.
Lemma Is_xor w a x b y : Is w a x -> Is w b y -> Is w (xor a b) (Z.lxor x y).
Proof.
  intros HA HB. pose proof (Is_range _ _ _ HA) as RA. pose proof (Is_range _ _ _ HB) as RB.
  rewrite (Is_eq _ _ _ HA), (Is_eq _ _ _ HB), xor_word. destruct (Is_word w (Z.lxor x y)) as [L V]. split; [exact L|]. rewrite V.
  apply Z.mod_small. split; [apply Z.lxor_nonneg; lia|].
  destruct (Z.eq_dec (Z.lxor x y) 0) as [->|N]; [apply Z.pow_pos_nonneg; lia|].
  assert (LL : forall t, 0 <= t < 2 ^ Z.of_nat w -> t = 0 \/ Z.log2 t < Z.of_nat w).
  { intros t T. destruct (Z.eq_dec t 0) as [->|N']; [left; reflexivity|right; apply Z.log2_lt_pow2; lia]. }
  assert (0 < Z.lxor x y) by (assert (0 <= Z.lxor x y) by (apply Z.lxor_nonneg; lia); lia).
  apply Z.log2_lt_pow2; [assumption|]. eapply Z.le_lt_trans; [apply Z.log2_lxor; lia|].
  destruct (LL x RA) as [->|A], (LL y RB) as [->|B]; change (Z.log2 0) with 0; try lia.
  - rewrite Z.lxor_0_l in N. congruence.
  - pose proof (Z.log2_nonneg y). lia.
  - pose proof (Z.log2_nonneg x). lia.
Qed.
Lemma firstn_zlen {A} n (l : list A) : (n <= length l)%nat -> zlen (firstn n l) = Z.of_nat n.
Proof. intros H. unfold zlen. rewrite firstn_length. lia. Qed.
Lemma skipn_zlen {A} n (l : list A) : zlen (skipn n l) = Z.of_nat (length l - n).
Proof. unfold zlen. rewrite skipn_length. reflexivity. Qed.
Lemma Is_rotl w a x s : Is w a x -> (s <= w)%nat -> Is w (rotl a s) (rol (Z.of_nat w) x (Z.of_nat s)).
Proof.
  intros [L V] S. split; [unfold rotl; rewrite app_length, skipn_length, firstn_length; lia|]. unfold rotl, rol.
  rewrite val_app, firstn_zlen by lia. pose proof (val_range (firstn s a)) as R1. pose proof (val_range (skipn s a)) as R2.
  rewrite firstn_zlen in R1 by lia. rewrite skipn_zlen, L in R2.
  assert (E : x = val (firstn s a) * 2 ^ Z.of_nat (w - s) + val (skipn s a)).
  { rewrite <- V, <- (firstn_skipn s a) at 1. rewrite val_app, skipn_zlen, L. reflexivity. }
  replace (Z.of_nat w - Z.of_nat s) with (Z.of_nat (w - s)) by lia.
  replace (2 ^ Z.of_nat w) with (2 ^ Z.of_nat (w - s) * 2 ^ Z.of_nat s) by (rewrite <- Z.pow_add_r by lia; f_equal; lia).
  rewrite E. set (h := val (firstn s a)) in *. set (l := val (skipn s a)) in *.
  set (p := 2 ^ Z.of_nat (w - s)) in *. set (q := 2 ^ Z.of_nat s) in *.
  assert (0 < p) by (apply Z.pow_pos_nonneg; lia). assert (0 < q) by (apply Z.pow_pos_nonneg; lia).
  replace ((h * p + l) * q) with (l * q + h * (p * q)) by lia. rewrite Z.mod_add by nia. rewrite (Z.mod_small (l * q)) by nia.
  rewrite Z.div_add_l by lia. rewrite (Z.div_small l) by lia. lia.
Qed.
Lemma val_zeros n : val (repeat false n) = 0.
Proof. induction n as [|n IH]; [reflexivity|]. cbn [repeat]. change (val (false :: repeat false n)) with (val (repeat false n)). exact IH. Qed.
Lemma Is_shr w a x s : Is w a x -> (s <= w)%nat -> Is w (shr a s) (shift_right x (Z.of_nat s)).
Proof.
  intros [L V] S. unfold shr, shift_right. split; [rewrite app_length, repeat_length, firstn_length; lia|].
  assert (E : x = val (firstn (w - s) a) * 2 ^ Z.of_nat s + val (skipn (w - s) a)).
  { rewrite <- V. rewrite <- (firstn_skipn (w - s) a) at 1. rewrite val_app, skipn_zlen, L. replace (w - (w - s))%nat with s by lia. reflexivity. }
  pose proof (val_range (skipn (w - s) a)) as R. rewrite skipn_zlen, L in R. replace (w - (w - s))%nat with s in R by lia.
  rewrite val_app, val_zeros, L, E, Z.div_add_l by (apply Z.pow_nonzero; lia). rewrite (Z.div_small _ _ R). lia.
Qed.
Lemma Is_zext w k a x : Is k a x -> (k <= w)%nat -> Is w (zext w a) x.
Proof.
  intros [L V] K. unfold zext. split; [rewrite app_length, repeat_length; lia|]. rewrite val_app, val_zeros. exact V.
Qed.
(** bytes *)
Lemma Is_toLE bs l : Forall2 (Is 8) bs l -> Is (8 * length l) (toLE bs) (LE l).
Proof.
  unfold toLE. induction 1 as [|b x bs l [L V] F [IHL IHV]]; [split; reflexivity|]. cbn [rev length]. rewrite concat_app. cbn [concat]. rewrite app_nil_r.
  split; [rewrite app_length; lia|]. rewrite val_app. unfold zlen. rewrite L, V, IHV. unfold LE. cbn [fold_right]. fold (LE l). change (Z.of_nat 8) with 8. lia.
Qed.

(** ** The steps *)
Lemma Is_is w a x y : Is w a x -> x = y -> Is w a y.
Proof. intros H <-. exact H. Qed.
Lemma Is_lit w x : 0 <= x < 2 ^ Z.of_nat w -> Is w (word w x) x.
Proof. intros H. eapply Is_is; [apply Is_word|apply Z.mod_small, H]. Qed.
(** compute the number of a word expression, then compare with the specification *)
#[local] Opaque add sub mul xor rotl shr zext word.
Ltac build := first
  [ eassumption
  | apply Is_add; build | apply Is_sub; build | apply Is_mul; build | apply Is_xor; build
  | apply Is_rotl; [build|repeat constructor] | apply Is_shr; [build|repeat constructor]
  | eapply Is_zext; [build|repeat constructor] | apply Is_lit; split; [discriminate|reflexivity]].
Ltac same := change (2 ^ Z.of_nat 32) with (2 ^ 32); change (2 ^ Z.of_nat 64) with (2 ^ 64); unfold X32.W, X64.W in *;
  repeat first [rewrite Zplus_mod_idemp_r | rewrite Zplus_mod_idemp_l | rewrite Zmult_mod_idemp_l | rewrite Zmult_mod_idemp_r].

Lemma round32 a x l y : Is 32 a x -> Is 32 l y -> Is 32 (XXH32_round a l) (X32.round x y).
Proof. intros A L. unfold XXH32_round. eapply Is_is; [build|]. unfold X32.round. same. reflexivity. Qed.
Lemma digest4_32 a x bs l : Is 32 a x -> Forall2 (Is 8) bs l -> length l = 4%nat -> Is 32 (XXH32_digest4 a bs) (X32.lane4 x l).
Proof.
  intros A F L. pose proof (Is_toLE bs l F) as T. rewrite L in T. change (8 * 4)%nat with 32%nat in T.
  unfold XXH32_digest4. eapply Is_is; [build|]. unfold X32.lane4. same. reflexivity.
Qed.
Lemma digest1_32 a x b y : Is 32 a x -> Is 8 b y -> Is 32 (XXH32_digest1 a b) (X32.lane1 x y).
Proof. intros A B. unfold XXH32_digest1. eapply Is_is; [build|]. unfold X32.lane1. same. reflexivity. Qed.
Lemma avalanche_32 a x : Is 32 a x -> Is 32 (XXH32_avalanche a) (X32.avalanche x).
Proof. intros A. unfold XXH32_avalanche. cbv zeta. eapply Is_is; [build|]. unfold X32.avalanche, xorshift. cbv zeta. same. reflexivity. Qed.
Lemma init_32 a x : Is 32 a x -> Forall2 (Is 32) (XXH32_init a) (X32.init x).
Proof.
  intros A. unfold XXH32_init, X32.init. repeat (apply Forall2_cons; [eapply Is_is; [build|]|]); [..|constructor]; same; try reflexivity.
  rewrite Z.add_0_r. reflexivity.
Qed.
Lemma converge_32 accs l : Forall2 (Is 32) accs l -> length l = 4%nat -> Is 32 (XXH32_converge accs) (X32.converge l).
Proof.
  intros F L. do 4 (destruct F as [|? ? ? ? ? F]; [discriminate|]). destruct F; [|discriminate]. unfold XXH32_converge, X32.converge.
  eapply Is_is; [build|]. same. rewrite <- !Z.add_assoc. same. rewrite <- !Z.add_assoc. reflexivity.
Qed.
Lemma round64 a x l y : Is 64 a x -> Is 64 l y -> Is 64 (XXH64_round a l) (X64.round x y).
Proof. intros A L. unfold XXH64_round. eapply Is_is; [build|]. unfold X64.round. same. reflexivity. Qed.
Lemma zero_64 : Is 64 (word 64 0) 0.
Proof. apply Is_lit; split; [discriminate|reflexivity]. Qed.
Lemma merge_64 a x b y : Is 64 a x -> Is 64 b y -> Is 64 (mergeAccumulator a b) (X64.mergeAccumulator x y).
Proof.
  intros A B. pose proof (round64 _ _ _ _ zero_64 B) as R. unfold mergeAccumulator. eapply Is_is; [build|]. unfold X64.mergeAccumulator. same. reflexivity.
Qed.
Lemma digest8_64 a x bs l : Is 64 a x -> Forall2 (Is 8) bs l -> length l = 8%nat -> Is 64 (XXH64_digest8 a bs) (X64.lane8 x l).
Proof.
  intros A F L. pose proof (Is_toLE bs l F) as T. rewrite L in T. change (8 * 8)%nat with 64%nat in T. pose proof (round64 _ _ _ _ zero_64 T) as R.
  unfold XXH64_digest8. eapply Is_is; [build|]. unfold X64.lane8. same. reflexivity.
Qed.
Lemma digest4_64 a x bs l : Is 64 a x -> Forall2 (Is 8) bs l -> length l = 4%nat -> Is 64 (XXH64_digest4 a bs) (X64.lane4 x l).
Proof.
  intros A F L. pose proof (Is_toLE bs l F) as T. rewrite L in T. change (8 * 4)%nat with 32%nat in T.
  unfold XXH64_digest4. eapply Is_is; [build|]. unfold X64.lane4. same. reflexivity.
Qed.
Lemma digest1_64 a x b y : Is 64 a x -> Is 8 b y -> Is 64 (XXH64_digest1 a b) (X64.lane1 x y).
Proof. intros A B. unfold XXH64_digest1. eapply Is_is; [build|]. unfold X64.lane1. same. reflexivity. Qed.
Lemma avalanche_64 a x : Is 64 a x -> Is 64 (XXH64_avalanche a) (X64.avalanche x).
Proof. intros A. unfold XXH64_avalanche. cbv zeta. eapply Is_is; [build|]. unfold X64.avalanche, xorshift. cbv zeta. same. reflexivity. Qed.
Lemma init_64 a x : Is 64 a x -> Forall2 (Is 64) (XXH64_init a) (X64.init x).
Proof.
  intros A. unfold XXH64_init, X64.init. repeat (apply Forall2_cons; [eapply Is_is; [build|]|]); [..|constructor]; same; try reflexivity.
  rewrite Z.add_0_r. reflexivity.
Qed.
Lemma converge_64 accs l : Forall2 (Is 64) accs l -> length l = 4%nat -> Is 64 (XXH64_converge accs) (X64.converge l).
Proof.
  intros F L. do 4 (destruct F as [|? ? ? ? ? F]; [discriminate|]). destruct F; [|discriminate]. unfold XXH64_converge, X64.converge.
  cbn [fold_left]. repeat (apply merge_64; trivial). eapply Is_is; [build|]. same. rewrite <- !Z.add_assoc. same. rewrite <- !Z.add_assoc. reflexivity.
Qed.

(** ** Cutting the input *)
Lemma Forall2_firstn {A B} (R : A -> B -> Prop) n l l' : Forall2 R l l' -> Forall2 R (firstn n l) (firstn n l').
Proof. intros F. revert n. induction F; intros [|n]; cbn; auto. Qed.
Lemma Forall2_skipn {A B} (R : A -> B -> Prop) n l l' : Forall2 R l l' -> Forall2 R (skipn n l) (skipn n l').
Proof. intros F. revert n. induction F; intros [|n]; cbn; auto. Qed.
Lemma Forall2_length' {A B} (R : A -> B -> Prop) l l' : Forall2 R l l' -> length l = length l'.
Proof. induction 1; cbn; congruence. Qed.
Lemma split_Forall2 {A B} (R : A -> B -> Prop) n k : forall l l', Forall2 R l l' -> Forall2 (Forall2 R) (split n k l) (split n k l').
Proof. induction n as [|n IH]; intros l l' F; cbn [split]; constructor; [apply Forall2_firstn, F|apply IH, Forall2_skipn, F]. Qed.
Lemma split_len {A} n k : forall l : list A, (n * k <= length l)%nat -> Forall (fun x => length x = k) (split n k l).
Proof.
  induction n as [|n IH]; intros l H; cbn [split]; constructor; [rewrite firstn_length; lia|apply IH; rewrite skipn_length; lia].
Qed.
Lemma skipn_plus {A} a : forall b (l : list A), skipn b (skipn a l) = skipn (a + b) l.
Proof. induction a as [|a IH]; intros b l; [reflexivity|]. destruct l; [destruct b; reflexivity|apply IH]. Qed.
(** cutting is taking the segments one after the other *)
Lemma split_seg n k : forall l : list Z, (0 < k)%nat -> split n k l = map (fun i => seg l (Z.of_nat k * i) (Z.of_nat k * i + Z.of_nat k)) (upto (Z.of_nat n)).
Proof.
  induction n as [|n IH]; intros l K; [reflexivity|]. cbn [split]. rewrite (IH _ K), upto_nat, (upto_nat (S n)). cbn [seq map]. f_equal.
  - unfold seg. rewrite Z.mul_0_r. cbn [Z.to_nat skipn]. f_equal. lia.
  - rewrite <- seq_shift, !map_map. apply map_ext. intros i. unfold seg. rewrite skipn_plus. f_equal; [lia|]. f_equal. nia.
Qed.
Lemma foldl_ok {A B X Y} (R : A -> B -> Prop) (Q : X -> Y -> Prop) f g : forall xs ys a b, Forall2 Q xs ys -> R a b ->
  (forall a b x y, R a b -> In y ys -> Q x y -> R (f a x) (g b y)) -> R (fold_left f xs a) (fold_left g ys b).
Proof.
  intros xs ys a b F. revert a b. induction F as [|x y xs ys Q1 F IH]; intros a b H S; [exact H|]. cbn [fold_left]. apply IH; [apply S; [exact H|left; reflexivity|exact Q1]|].
  intros. apply S; trivial. right; assumption.
Qed.
Lemma fold_map {A B C} (f : A -> C -> A) (g : B -> C) l : forall a, fold_left f (map g l) a = fold_left (fun a x => f a (g x)) l a.
Proof. induction l as [|x l IH]; intros a; [reflexivity|apply IH]. Qed.
Lemma split_firstn {A} n k : forall l : list A, split n k (firstn (n * k) l) = split n k l.
Proof.
  induction n as [|n IH]; intros l; [reflexivity|]. cbn [split]. f_equal.
  - rewrite firstn_firstn. f_equal. lia.
  - cbn [Nat.mul]. rewrite skipn_firstn_comm. replace (k + n * k - k)%nat with (n * k)%nat by lia. apply IH.
Qed.
Lemma rounds_ok w k f g accs l : (forall a x bs s, Is w a x -> Forall2 (Is 8) bs s -> length s = k -> Is w (f a bs) (g x s)) ->
  Forall2 (Is w) accs l -> forall xs (h : Z -> list Z) ys, Forall2 (Forall2 (Is 8)) xs (map h ys) -> Forall (fun s => length s = k) (map h ys) ->
  Forall2 (Is w) (map (fun p => f (fst p) (snd p)) (combine accs xs)) (map (fun ai => g (fst ai) (h (snd ai))) (combine l ys)).
Proof.
  intros H F. induction F as [|a x accs l R F IH]; intros xs h ys FX LN; [constructor|]. destruct ys as [|y ys]; cbn [map] in *.
  - inversion FX; subst. constructor.
  - inversion FX as [|bs ? xs' ? F1 F2]; subst. inversion LN; subst. cbn [combine map fst snd]. constructor; [apply H; trivial|apply IH; trivial].
Qed.
Lemma stripe_32 accs l bs s : Forall2 (Is 32) accs l -> Forall2 (Is 8) bs s -> length s = 16%nat -> Forall2 (Is 32) (XXH32_rounds accs bs) (X32.stripe l s).
Proof.
  intros F B L. unfold XXH32_rounds, X32.stripe.
  apply (rounds_ok 32 4 (fun a b => XXH32_round a (toLE b)) (fun x y => X32.round x (LE y)) accs l) with (h := fun i => seg s (4 * i) (4 * i + 4)); [|exact F|..].
  - intros a x bs' s' A B' L'. apply round32; [exact A|]. apply Is_toLE in B'. rewrite L' in B'. exact B'.
  - pose proof (split_Forall2 _ 4 4 _ _ B) as Q. rewrite (split_seg 4 4 s) in Q by lia. exact Q.
  - pose proof (split_len 4 4 s ltac:(lia)) as Q. rewrite (split_seg 4 4 s) in Q by lia. exact Q.
Qed.
Lemma stripe_64 accs l bs s : Forall2 (Is 64) accs l -> Forall2 (Is 8) bs s -> length s = 32%nat -> Forall2 (Is 64) (XXH64_rounds accs bs) (X64.stripe l s).
Proof.
  intros F B L. unfold XXH64_rounds, X64.stripe.
  apply (rounds_ok 64 8 (fun a b => XXH64_round a (toLE b)) (fun x y => X64.round x (LE y)) accs l) with (h := fun i => seg s (8 * i) (8 * i + 8)); [|exact F|..].
  - intros a x bs' s' A B' L'. apply round64; [exact A|]. apply Is_toLE in B'. rewrite L' in B'. exact B'.
  - pose proof (split_Forall2 _ 4 8 _ _ B) as Q. rewrite (split_seg 4 8 s) in Q by lia. exact Q.
  - pose proof (split_len 4 8 s ltac:(lia)) as Q. rewrite (split_seg 4 8 s) in Q by lia. exact Q.
Qed.
(** a fold over the pieces of length [k] of the front of [m] *)
Lemma foldl_split {A B} (R : A -> B -> Prop) k f g n input m a b : (0 < k)%nat -> Forall2 (Is 8) input m -> (n * k <= length m)%nat -> R a b ->
  (forall a b bs s, R a b -> Forall2 (Is 8) bs s -> length s = k -> R (f a bs) (g b s)) ->
  R (fold_left f (split n k (firstn (n * k) input)) a)
    (fold_left (fun b i => g b (seg m (Z.of_nat k * i) (Z.of_nat k * i + Z.of_nat k))) (upto (Z.of_nat n)) b).
Proof.
  intros K F L H S. rewrite split_firstn. rewrite <- (fold_map g (fun i => seg m (Z.of_nat k * i) (Z.of_nat k * i + Z.of_nat k))), <- (split_seg n k m K).
  pose proof (split_len n k m L) as LN. rewrite Forall_forall in LN.
  apply (foldl_ok R (Forall2 (Is 8))); [apply split_Forall2, F|exact H|]. intros x y bs s Q I FS. apply S; trivial. apply LN, I.
Qed.
Lemma seg_skipn (m : list Z) a : seg m (Z.of_nat a) (zlen m) = skipn a m.
Proof.
  unfold seg. rewrite Nat2Z.id. apply firstn_all2. rewrite skipn_length. unfold zlen. lia.
Qed.
Lemma div_nat a b : Z.of_nat a / Z.of_nat b = Z.of_nat (a / b).
Proof. symmetry. apply Nat2Z.inj_div. Qed.
Lemma mod_nat a b : Z.of_nat a mod Z.of_nat b = Z.of_nat (a mod b).
Proof. symmetry. apply Nat2Z.inj_mod. Qed.
Lemma len_nat (m : list Z) : len m = Z.of_nat (length m). Proof. reflexivity. Qed.
Lemma tail_32 a x bs r : Is 32 a x -> Forall2 (Is 8) bs r ->
  Is 32 (fold_left XXH32_digest1 (skipn (length r / 4 * 4) bs) (fold_left XXH32_digest4 (split (length r / 4) 4 (firstn (length r / 4 * 4) bs)) a)) (X32.tail x r).
Proof.
  intros A F. unfold X32.tail. cbv zeta. rewrite len_nat. change 4 with (Z.of_nat 4). rewrite div_nat, <- Nat2Z.inj_mul, (Nat.mul_comm 4).
  change (Z.of_nat (length r)) with (zlen r). rewrite seg_skipn. apply (foldl_ok (Is 32) (Is 8)).
  - apply Forall2_skipn, F.
  - apply (foldl_split (Is 32) 4 XXH32_digest4 X32.lane4); trivial; [lia| |].
    + pose proof (Nat.mul_div_le (length r) 4). lia.
    + intros. apply digest4_32; trivial.
  - intros. apply digest1_32; trivial.
Qed.
Lemma init_len32 s : length (X32.init s) = 4%nat. Proof. reflexivity. Qed.
Lemma stripe_len32 l s : length l = 4%nat -> length (X32.stripe l s) = 4%nat.
Proof. intros H. unfold X32.stripe. rewrite map_length, combine_length, H. reflexivity. Qed.
Lemma stripe_len64 l s : length l = 4%nat -> length (X64.stripe l s) = 4%nat.
Proof. intros H. unfold X64.stripe. rewrite map_length, combine_length, H. reflexivity. Qed.
Theorem cry32_ok input m seed s : Forall2 (Is 8) input m -> Is 32 seed s -> Is 32 (XXH32 input seed) (X32.hash m s).
Proof.
  intros F S. unfold XXH32, X32.hash. cbv zeta. rewrite (Forall2_length' _ _ _ F), len_nat. set (L := length m).
  apply avalanche_32. replace (Z.of_nat L / 16 * 16) with (Z.of_nat (L / 16 * 16)) by (rewrite Nat2Z.inj_mul, Nat2Z.inj_div; reflexivity).
  replace (seg m (Z.of_nat (L / 16 * 16)) (Z.of_nat L)) with (skipn (L / 16 * 16) m) by (symmetry; apply seg_skipn).
  assert (LR : length (skipn (L / 16 * 16) m) = (L mod 16)%nat).
  { rewrite skipn_length. fold L. rewrite Nat.mod_eq by lia. lia. }
  rewrite <- LR. apply tail_32; [|apply Forall2_skipn, F].
  eapply Is_is; [apply Is_add; [apply Is_word|]|].
  - instantiate (1 := if Z.of_nat L <? 16 then (s + X32.P5) mod X32.W else X32.converge (X32.stripes m (X32.init s))).
    destruct (Z.of_nat L <? 16); [eapply Is_is; [build|same; reflexivity]|].
    assert (Q : (fun accs l => Forall2 (Is 32) accs l /\ length l = 4%nat)
      (fold_left XXH32_rounds (split (L / 16) 16 (firstn (L / 16 * 16) input)) (XXH32_init seed)) (X32.stripes m (X32.init s))).
    { unfold X32.stripes. rewrite len_nat. fold L. replace (Z.of_nat L / 16) with (Z.of_nat (L / 16)) by (rewrite Nat2Z.inj_div; reflexivity).
      apply (foldl_split (fun accs l => Forall2 (Is 32) accs l /\ length l = 4%nat) 16 XXH32_rounds X32.stripe); trivial; [lia| | |].
      - fold L. pose proof (Nat.mul_div_le L 16). lia.
      - split; [apply init_32, S|reflexivity].
      - intros a b bs s' [H1 H2] B LS. split; [apply stripe_32; trivial|apply stripe_len32, H2]. }
    destruct Q as [Q1 Q2]. apply converge_32; trivial.
  - same. rewrite Z.add_comm. same. reflexivity.
Qed.
Lemma tail_64 a x bs r : Is 64 a x -> Forall2 (Is 8) bs r ->
  Is 64 (fold_left XXH64_digest1 (skipn (length r mod 8 / 4 * 4) (skipn (length r / 8 * 8) bs))
          (fold_left XXH64_digest4 (split (length r mod 8 / 4) 4 (firstn (length r mod 8 / 4 * 4) (skipn (length r / 8 * 8) bs)))
            (fold_left XXH64_digest8 (split (length r / 8) 8 (firstn (length r / 8 * 8) bs)) a))) (X64.tail x r).
Proof.
  intros A F. unfold X64.tail. cbv zeta. rewrite !len_nat. set (L := length r).
  replace (Z.of_nat L / 8) with (Z.of_nat (L / 8)) by (rewrite Nat2Z.inj_div; reflexivity).
  replace (8 * Z.of_nat (L / 8)) with (Z.of_nat (L / 8 * 8)) by lia. replace (seg r (Z.of_nat (L / 8 * 8)) (Z.of_nat L)) with (skipn (L / 8 * 8) r) by (symmetry; apply seg_skipn).
  set (r2 := skipn (L / 8 * 8) r). pose proof (Forall2_skipn (Is 8) (L / 8 * 8) _ _ F) as F2. fold r2 in F2.
  assert (L2 : length r2 = (L mod 8)%nat) by (unfold r2; rewrite skipn_length; fold L; rewrite Nat.mod_eq by lia; lia).
  rewrite <- !L2.
  assert (A8 : Is 64 (fold_left XXH64_digest8 (split (L / 8) 8 (firstn (L / 8 * 8) bs)) a)
    (fold_left (fun b i => X64.lane8 b (seg r (8 * i) (8 * i + 8))) (upto (Z.of_nat (L / 8))) x)).
  { apply (foldl_split (Is 64) 8 XXH64_digest8 X64.lane8); trivial; [lia| |].
    + fold L. pose proof (Nat.mul_div_le L 8). lia.
    + intros. apply digest8_64; trivial. }
  destruct (Z.leb_spec 4 (Z.of_nat (length r2))) as [G|G].
  - assert (L2' : (length r2 / 4 = 1)%nat).
    { assert (length r2 < 8)%nat by (rewrite L2; apply Nat.mod_upper_bound; lia). symmetry. apply (Nat.div_unique _ _ _ (length r2 - 4)); lia. }
    rewrite L2'. change (1 * 4)%nat with 4%nat. replace (seg r2 4 (Z.of_nat (length r2))) with (skipn 4 r2) by (symmetry; apply (seg_skipn r2 4)).
    apply (foldl_ok (Is 64) (Is 8)); [apply Forall2_skipn, F2| |intros; apply digest1_64; trivial].
    cbn [split fold_left]. apply digest4_64; [exact A8| |].
    + change (seg r2 0 4) with (firstn 4 r2). rewrite firstn_firstn. apply Forall2_firstn, F2.
    + change (seg r2 0 4) with (firstn 4 r2). rewrite firstn_length. lia.
  - rewrite (Nat.div_small (length r2) 4) by lia. cbn [Nat.mul split firstn skipn fold_left].
    apply (foldl_ok (Is 64) (Is 8)); [exact F2|exact A8|]. intros; apply digest1_64; trivial.
Qed.
Theorem cry64_ok input m seed s : Forall2 (Is 8) input m -> Is 64 seed s -> Is 64 (XXH64 input seed) (X64.hash m s).
Proof.
  intros F S. unfold XXH64, X64.hash. cbv zeta. rewrite (Forall2_length' _ _ _ F), len_nat. set (L := length m).
  apply avalanche_64. replace (Z.of_nat L / 32 * 32) with (Z.of_nat (L / 32 * 32)) by (rewrite Nat2Z.inj_mul, Nat2Z.inj_div; reflexivity).
  replace (seg m (Z.of_nat (L / 32 * 32)) (Z.of_nat L)) with (skipn (L / 32 * 32) m) by (symmetry; apply seg_skipn).
  assert (LR : length (skipn (L / 32 * 32) m) = (L mod 32)%nat).
  { rewrite skipn_length. fold L. rewrite Nat.mod_eq by lia. lia. }
  assert (LR8 : (L mod 8 = length (skipn (L / 32 * 32) m) mod 8)%nat).
  { rewrite LR. rewrite (Nat.mod_eq L 32) by lia. pose proof (Nat.mul_div_le L 32 ltac:(lia)).
    replace L with (L - 32 * (L / 32) + (4 * (L / 32)) * 8)%nat at 1 by lia. rewrite Nat.mod_add by lia. reflexivity. }
  rewrite LR8, <- LR. apply tail_64; [|apply Forall2_skipn, F].
  eapply Is_is; [apply Is_add; [apply Is_word|]|].
  - instantiate (1 := if Z.of_nat L <? 32 then (s + X64.P5) mod X64.W else X64.converge (X64.stripes m (X64.init s))).
    destruct (Z.of_nat L <? 32); [eapply Is_is; [build|same; reflexivity]|].
    assert (Q : (fun accs l => Forall2 (Is 64) accs l /\ length l = 4%nat)
      (fold_left XXH64_rounds (split (L / 32) 32 (firstn (L / 32 * 32) input)) (XXH64_init seed)) (X64.stripes m (X64.init s))).
    { unfold X64.stripes. rewrite len_nat. fold L. replace (Z.of_nat L / 32) with (Z.of_nat (L / 32)) by (rewrite Nat2Z.inj_div; reflexivity).
      apply (foldl_split (fun accs l => Forall2 (Is 64) accs l /\ length l = 4%nat) 32 XXH64_rounds X64.stripe); trivial; [lia| | |].
      - fold L. pose proof (Nat.mul_div_le L 32). lia.
      - split; [apply init_64, S|reflexivity].
      - intros a b bs s' [H1 H2] B LS. split; [apply stripe_64; trivial|apply stripe_len64, H2]. }
    destruct Q as [Q1 Q2]. apply converge_64; trivial.
  - same. rewrite Z.add_comm. same. reflexivity.
Qed.
