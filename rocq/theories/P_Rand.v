(** The random lengths of the self-tests: the generator comes around to a draw of 1, so that cutting any number of bytes
    into random pieces comes to an end. *)
From Coq Require Import Znumtheory Zpow_facts.
From Verif Require Import Base Mem M_Sanity P_Base.

(** the generator after one call of randomUpdate on [len] bytes: the loop without the hashing *)
Fixpoint drawn (fuel : nat) (len p rnd : Z) : option Z :=
  if p <? len then
    match fuel with
    | O => None
    | S f => let '(v, rnd) := rand rnd in
             let l := v mod (if 2 <? len then len else 2) in drawn f len (p + (if len <? p + l then len - p else l)) rnd
    end
  else Some rnd.

(** ** The orbit *)
Notation W := (2 ^ 64).
Fixpoint squares (n : nat) (x : Z) : Z := match n with O => x | S n => squares n (x * x mod W) end.
Lemma squares_ok n : forall x, squares n x mod W = x ^ (2 ^ Z.of_nat n) mod W.
Proof.
  induction n as [|n IH]; intros x; [change (2 ^ Z.of_nat 0) with 1; rewrite Z.pow_1_r; reflexivity|].
  cbn [squares]. rewrite IH, Nat2Z.inj_succ, Z.pow_succ_r by lia. rewrite Z.pow_mul_r by lia.
  rewrite (Zpower_mod (x * x mod W)), Z.mod_mod, <- Zpower_mod by lia. f_equal. f_equal. rewrite Z.pow_2_r. reflexivity.
Qed.
(** 2^38 steps add a multiple of 2^40 *)
Definition unit_ := 7561617.
Lemma jump : TPRIME64 ^ (2 ^ 38) mod W = (1 + unit_ * 2 ^ 40) mod W.
Proof. change 38 with (Z.of_nat 38). rewrite <- squares_ok. vm_compute. reflexivity. Qed.
Lemma jumps t : 0 <= t -> TPRIME64 ^ (2 ^ 38 * t) mod W = (1 + t * unit_ * 2 ^ 40) mod W.
Proof.
  intros T. rewrite Z.pow_mul_r by lia. rewrite Zpower_mod, jump, <- Zpower_mod by lia. generalize unit_. intros u. revert t T.
  apply natlike_ind; [reflexivity|]. intros t T IH.
  rewrite Z.pow_succ_r, <- Z.mul_mod_idemp_r, IH, Z.mul_mod_idemp_r by lia.
  replace ((1 + u * 2 ^ 40) * (1 + t * u * 2 ^ 40)) with (1 + Z.succ t * u * 2 ^ 40 + (t * u * u * 2 ^ 16) * W) by (change W with (2 ^ 40 * 2 ^ 24); change (2 ^ 40) with (2 ^ 16 * 2 ^ 24); ring).
  apply Z_mod_plus_full.
Qed.
(** the generator after [k] steps *)
Definition after (k s : Z) : Z := s * TPRIME64 ^ k mod W.
Definition good (s : Z) : Prop := 0 <= s < W /\ Z.odd s = true.
Lemma odd_mod x : Z.odd (x mod W) = Z.odd x.
Proof. rewrite <- !Z.bit0_odd, Z.mod_pow2_bits_low by lia. reflexivity. Qed.
Lemma good_next s : good s -> good (s * TPRIME64 mod W).
Proof. intros [R O]. split; [apply Z.mod_pos_bound; lia|]. rewrite odd_mod, Z.odd_mul, O. reflexivity. Qed.
Lemma after_next k s : 0 <= k -> after k (s * TPRIME64 mod W) = after (k + 1) s.
Proof.
  intros K. unfold after. rewrite Z.mul_mod_idemp_l by lia. rewrite Z.pow_add_r, Z.pow_1_r by lia. f_equal. ring.
Qed.
(** some draw is 1 *)
Lemma comes_around s : good s -> exists k, 1 <= k /\ after k s / 2 ^ 40 = 1.
Proof.
  intros [R O]. set (a := s * unit_). assert (RP : rel_prime a (2 ^ 24)).
  { apply Zpow_facts.rel_prime_Zpower_r; [lia|]. apply rel_prime_sym. apply prime_rel_prime; [exact prime_2|].
    intros D. apply Zdivide_mod in D. assert (Z.odd a = true) by (unfold a; rewrite Z.odd_mul, O; reflexivity). rewrite Zodd_mod in H. apply Zeq_bool_eq in H. lia. }
  destruct (rel_prime_bezout _ _ RP) as [x y B].
  set (t := (x * (1 - s / 2 ^ 40)) mod 2 ^ 24 + 2 ^ 24).
  assert (T : 2 ^ 24 <= t) by (pose proof (Z.mod_pos_bound (x * (1 - s / 2 ^ 40)) (2 ^ 24)); unfold t; lia).
  exists (2 ^ 38 * t). split; [lia|]. unfold after. rewrite <- Z.mul_mod_idemp_r, jumps, Z.mul_mod_idemp_r by lia.
  replace (s * (1 + t * unit_ * 2 ^ 40)) with (s mod 2 ^ 40 + (s / 2 ^ 40 + a * t) * 2 ^ 40) by (unfold a; pose proof (Z.div_mod s (2 ^ 40)); lia).
  assert (E : (s / 2 ^ 40 + a * t) mod 2 ^ 24 = 1).
  { unfold t. rewrite Z.mul_add_distr_l, Z.add_assoc, Z_mod_plus_full. rewrite Z.add_mod, Z.mul_mod_idemp_r, <- Z.add_mod by lia.
    replace (s / 2 ^ 40 + a * (x * (1 - s / 2 ^ 40))) with (1 + (- y * (1 - s / 2 ^ 40)) * 2 ^ 24) by (assert (a * x = 1 - y * 2 ^ 24) by lia; nia).
    rewrite Z_mod_plus_full. reflexivity. }
  set (q := s / 2 ^ 40 + a * t) in *. clearbody q. pose proof (Z.mod_pos_bound s (2 ^ 40)).
  rewrite (Z.div_mod q (2 ^ 24)) by lia. rewrite E.
  replace (s mod 2 ^ 40 + (2 ^ 24 * (q / 2 ^ 24) + 1) * 2 ^ 40) with (s mod 2 ^ 40 + 2 ^ 40 + q / 2 ^ 24 * W) by lia.
  rewrite Z_mod_plus_full, Z.mod_small by lia.
  replace (s mod 2 ^ 40 + 2 ^ 40) with (s mod 2 ^ 40 + 1 * 2 ^ 40) by lia. rewrite Z.div_add, Z.div_small by lia. reflexivity.
Qed.

(** ** The loop *)
Lemma rand_next s : good s -> exists v, rand s = (v, s * TPRIME64 mod W) /\ v = after 1 s / 2 ^ 40.
Proof.
  intros G. eexists. split; [reflexivity|]. unfold after. rewrite Z.pow_1_r. pose proof (proj1 (good_next s G)).
  apply Z.mod_small. split; [apply Z.div_pos; lia|apply Z.div_lt_upper_bound; lia].
Qed.
Lemma progress len k : forall p s, good s -> 0 <= p < len -> after (Z.of_nat (S k)) s / 2 ^ 40 = 1 ->
  exists n p' s', good s' /\ p < p' <= len /\ forall fuel, drawn (n + fuel) len p s = drawn fuel len p' s'.
Proof.
  induction k as [|k IH]; intros p s G P A.
  - destruct (rand_next s G) as (v & E & V). change (Z.of_nat 1) with 1 in A. rewrite A in V. subst v.
    exists 1%nat, (p + 1), (s * TPRIME64 mod W). split; [apply good_next, G|]. split; [lia|]. intros fuel. cbn [Nat.add drawn].
    replace (p <? len) with true by lia. rewrite E. rewrite Z.mod_small by (destruct (2 <? len) eqn:L; lia).
    destruct (len <? p + 1) eqn:L; [lia|reflexivity].
  - destruct (rand_next s G) as (v & E & V). set (l := v mod (if 2 <? len then len else 2)).
    assert (L : 0 <= l) by (apply Z.mod_pos_bound; destruct (2 <? len) eqn:L2; lia).
    destruct (Z.eq_dec l 0) as [L0|L0].
    + destruct (IH p (s * TPRIME64 mod W) (good_next s G) P) as (n & p' & s' & G' & P' & D).
      { rewrite after_next by lia. rewrite <- A. f_equal. f_equal. lia. }
      exists (S n), p', s'. split; [exact G'|]. split; [exact P'|]. intros fuel. cbn [Nat.add drawn]. replace (p <? len) with true by lia.
      rewrite E. fold l. rewrite L0, Z.add_0_r. replace (len <? p) with false by lia. rewrite Z.add_0_r. apply D.
    + exists 1%nat, (p + (if len <? p + l then len - p else l)), (s * TPRIME64 mod W). split; [apply good_next, G|].
      split; [destruct (len <? p + l) eqn:Q; lia|]. intros fuel. cbn [Nat.add drawn]. replace (p <? len) with true by lia. rewrite E. reflexivity.
Qed.
Lemma drawn_ends len : forall m p s, (Z.to_nat (len - p) <= m)%nat -> good s -> 0 <= p <= len ->
  exists n s', good s' /\ forall fuel, (n <= fuel)%nat -> drawn fuel len p s = Some s'.
Proof.
  induction m as [|m IH]; intros p s M G P.
  - exists 0%nat, s. split; [exact G|]. intros fuel _. destruct fuel; cbn [drawn]; replace (p <? len) with false by lia; reflexivity.
  - destruct (Z.eq_dec p len) as [->|N].
    { exists 0%nat, s. split; [exact G|]. intros fuel _. destruct fuel; cbn [drawn]; replace (len <? len) with false by lia; reflexivity. }
    destruct (comes_around s G) as (k & K & A).
    destruct (progress len (Z.to_nat (k - 1)) p s G ltac:(lia)) as (n & p' & s' & G' & P' & D).
    { replace (Z.of_nat (S (Z.to_nat (k - 1)))) with k by lia. exact A. }
    destruct (IH p' s' ltac:(lia) G' ltac:(lia)) as (n2 & s2 & G2 & D2). exists (n + n2)%nat, s2. split; [exact G2|].
    intros fuel F. replace fuel with (n + (fuel - n))%nat by lia. rewrite D. apply D2. lia.
Qed.
Theorem random_cut_ends len s : 0 <= len -> good s -> exists n s', good s' /\ forall fuel, (n <= fuel)%nat -> drawn fuel len 0 s = Some s'.
Proof. intros L G. exact (drawn_ends len _ 0 s (le_n _) G ltac:(lia)). Qed.
