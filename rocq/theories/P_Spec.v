(** Lemmas about the specification helpers, and their link with the byte-sequence helpers. *)
From Verif Require Import Base Mem Spec32 P_Base.

Lemma LE_le_val l : LE l = le_val l.
Proof. induction l as [|b l IH]; [reflexivity|]. cbn [LE fold_right le_val]. unfold LE in IH. rewrite IH. reflexivity. Qed.
Lemma seg_zslice m a b : seg m a b = zslice m a (b - a).
Proof. reflexivity. Qed.
Lemma len_zlen (m : list Z) : len m = zlen m.
Proof. reflexivity. Qed.

Lemma upto_0 n : n <= 0 -> upto n = [].
Proof. intros; unfold upto. replace (Z.to_nat n) with O by lia. reflexivity. Qed.
Lemma upto_S n : 0 <= n -> upto (n + 1) = upto n ++ [n].
Proof.
  intros; unfold upto. replace (Z.to_nat (n + 1)) with (Z.to_nat n + 1)%nat by lia.
  rewrite seq_app, map_app. cbn [map seq Nat.add]. f_equal. f_equal. lia.
Qed.
Lemma upto_nat n : upto (Z.of_nat n) = map Z.of_nat (seq 0 n).
Proof. unfold upto; rewrite Nat2Z.id; reflexivity. Qed.
Lemma fold_upto_S {A} (f : A -> Z -> A) a n : 0 <= n ->
  fold_left f (upto (n + 1)) a = f (fold_left f (upto n) a) n.
Proof. intros; rewrite upto_S by lia. rewrite fold_left_app. reflexivity. Qed.
Lemma fold_upto_add {A} (f : A -> Z -> A) a k n : 0 <= k -> 0 <= n ->
  fold_left f (upto (k + n)) a = fold_left (fun a i => f a (k + i)) (upto n) (fold_left f (upto k) a).
Proof.
  intros Hk Hn. revert n Hn. apply natlike_ind.
  - rewrite Z.add_0_r. reflexivity.
  - intros n Hn IH. replace (k + Z.succ n) with (k + n + 1) by lia. rewrite fold_upto_S by lia.
    change (Z.succ n) with (n + 1). rewrite fold_upto_S by lia. rewrite IH. reflexivity.
Qed.
Lemma fold_upto_ext {A} (f g : A -> Z -> A) a n :
  (forall i a, 0 <= i < n -> f a i = g a i) -> fold_left f (upto n) a = fold_left g (upto n) a.
Proof.
  intros H. destruct (Z.leb_spec n 0); [rewrite upto_0 by lia; reflexivity|].
  assert (Hn : 0 <= n) by lia. clear H0. revert H. pattern n. revert n Hn. apply natlike_ind.
  - reflexivity.
  - intros n Hn IH H. change (Z.succ n) with (n + 1) in *.
    rewrite !fold_upto_S by lia. rewrite IH, H; [reflexivity|lia|]. intros; apply H; lia.
Qed.

Lemma fold_upto_inv {A} (P : A -> Prop) (f : A -> Z -> A) a n :
  P a -> (forall i a, 0 <= i < n -> P a -> P (f a i)) -> P (fold_left f (upto n) a).
Proof.
  intros H0 H. destruct (Z.leb_spec n 0); [rewrite upto_0 by lia; exact H0|].
  assert (Hn : 0 <= n) by lia. clear H1. revert H. pattern n. revert n Hn. apply natlike_ind.
  - intros _; exact H0.
  - intros n Hn IH H. change (Z.succ n) with (n + 1) in *. rewrite fold_upto_S by lia.
    apply H; [lia|]. apply IH. intros; apply H; [lia|assumption].
Qed.

Lemma rotl32_rol x s : 0 < s < 32 -> w32 x -> rotl32 x s = rol 32 x s.
Proof. unfold w32; intros; unfold rotl32, shl32, shr, rol. rewrite u32_eq. apply rot_eq; lia. Qed.
Lemma rotl64_rol x s : 0 < s < 64 -> w64 x -> rotl64 x s = rol 64 x s.
Proof. unfold w64; intros; unfold rotl64, shl64, shr, rol. rewrite u64_eq. apply rot_eq; lia. Qed.
Lemma xorshift_eq x s : 0 <= s -> xor x (shr x s) = xorshift x s.
Proof. intros; unfold xorshift, shift_right, xor. rewrite shr_eq by lia. reflexivity. Qed.
Lemma rol32_w32 x s : 0 < s < 32 -> w32 x -> w32 (rol 32 x s).
Proof. intros. rewrite <- rotl32_rol by assumption. apply rotl32_w32; assumption. Qed.
Lemma rol64_w64 x s : 0 < s < 64 -> w64 x -> w64 (rol 64 x s).
Proof. intros. rewrite <- rotl64_rol by assumption. apply rotl64_w64; assumption. Qed.

Lemma zslice_snoc m o n : 0 <= o -> 0 <= n -> o + n < zlen m ->
  zslice m o (n + 1) = zslice m o n ++ [byte_at m (o + n)].
Proof. intros. rewrite (zslice_split m o (n + 1) n) by lia. rewrite <- zslice_1 by lia. do 2 f_equal; lia. Qed.

(** lowest bits as a remainder *)
Lemma land15 n : 0 <= n -> Z.land n 15 = n mod 16.
Proof. intros; change 15 with (Z.ones 4); apply Z.land_ones; lia. Qed.
Lemma land31 n : 0 <= n -> Z.land n 31 = n mod 32.
Proof. intros; change 31 with (Z.ones 5); apply Z.land_ones; lia. Qed.
Lemma land3 n : Z.land n 3 = n mod 4.
Proof. intros; change 3 with (Z.ones 2); apply Z.land_ones; lia. Qed.
Lemma land7 n : Z.land n 7 = n mod 8.
Proof. intros; change 7 with (Z.ones 3); apply Z.land_ones; lia. Qed.
