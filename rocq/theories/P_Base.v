(** Proof library: lists indexed by [Z], words, loops, memory reads. *)
From Verif Require Import Base Mem.
From Coq Require Export ZifyBool ZifyNat ZifyN.

Ltac dlia := Z.div_mod_to_equations; lia.
Ltac zlen_nil :=
  repeat match goal with
  | |- context [zlen (@nil ?T)] => change (zlen (@nil T)) with 0
  | H : context [zlen (@nil ?T)] |- _ => change (zlen (@nil T)) with 0 in H
  end.
Ltac inv H := inversion H; subst; clear H.

(* ------------------------------------------------------------------ *)
(** ** Lists *)
Section Lists.
Context {A : Type}.
Implicit Types l : list A.

Lemma zlen_cons a l : zlen (a :: l) = 1 + zlen l.
Proof. unfold zlen; cbn [length]; lia. Qed.
Lemma zlen_app l1 l2 : zlen (l1 ++ l2) = zlen l1 + zlen l2.
Proof. unfold zlen; rewrite app_length; lia. Qed.
Lemma zlen_nonneg l : 0 <= zlen l.
Proof. unfold zlen; lia. Qed.
Lemma zlen_repeat (a : A) n : zlen (repeat a n) = Z.of_nat n.
Proof. unfold zlen; rewrite repeat_length; reflexivity. Qed.
Lemma zlen_rev l : zlen (rev l) = zlen l.
Proof. unfold zlen; rewrite rev_length; reflexivity. Qed.
Lemma zlen_zslice l o n :
  0 <= o -> 0 <= n -> o + n <= zlen l -> zlen (zslice l o n) = n.
Proof.
  unfold zlen, zslice; intros; rewrite firstn_length, skipn_length; lia.
Qed.
Lemma zlen_0 l : zlen l = 0 -> l = [].
Proof. destruct l; [reflexivity|rewrite zlen_cons; pose proof (zlen_nonneg l); lia]. Qed.

Lemma zslice_all l n : n = zlen l -> zslice l 0 n = l.
Proof. intros ->; unfold zslice, zlen; cbn [skipn Z.to_nat]; rewrite Nat2Z.id; apply firstn_all. Qed.
Lemma zslice_0 l o : zslice l o 0 = [].
Proof. reflexivity. Qed.

Lemma nth_error_firstn l n i : (i < n)%nat -> nth_error (firstn n l) i = nth_error l i.
Proof.
  revert l i; induction n as [|n IH]; intros l i H; [lia|].
  destruct l as [|a l]; [reflexivity|]. destruct i as [|i]; [reflexivity|].
  cbn [firstn nth_error]; apply IH; lia.
Qed.
Lemma nth_error_skipn l n i : nth_error (skipn n l) i = nth_error l (n + i).
Proof.
  revert l i; induction n as [|n IH]; intros l i; [reflexivity|].
  destruct l as [|a l]; cbn [skipn Nat.add nth_error]; [destruct i; reflexivity|apply IH].
Qed.

(** element at a [Z] index *)
Definition zn l (i : Z) : option A := if i <? 0 then None else nth_error l (Z.to_nat i).

Lemma zn_app l1 l2 i :
  zn (l1 ++ l2) i = if i <? zlen l1 then zn l1 i else zn l2 (i - zlen l1).
Proof.
  unfold zn, zlen.
  destruct (Z.ltb_spec i 0), (Z.ltb_spec i (Z.of_nat (length l1))); try lia; try reflexivity.
  - rewrite nth_error_app1 by lia; reflexivity.
  - destruct (Z.ltb_spec (i - Z.of_nat (length l1)) 0); [lia|].
    rewrite nth_error_app2 by lia. f_equal; lia.
Qed.
Lemma zn_zslice l o n i :
  0 <= o -> zn (zslice l o n) i = if (0 <=? i) && (i <? n) then zn l (o + i) else None.
Proof.
  intros Ho; unfold zn, zslice.
  destruct (Z.ltb_spec i 0), (Z.leb_spec 0 i); try lia; cbn [andb]; [reflexivity|].
  destruct (Z.ltb_spec (o + i) 0); [lia|].
  destruct (Z.ltb_spec i n) as [H2|H2].
  - rewrite nth_error_firstn by lia. rewrite nth_error_skipn. f_equal; lia.
  - apply nth_error_None; rewrite firstn_length; lia.
Qed.
Lemma zn_out l i : zlen l <= i -> zn l i = None.
Proof. unfold zn, zlen; intros; destruct (Z.ltb_spec i 0); [reflexivity|]. apply nth_error_None; lia. Qed.
Lemma zn_neg l i : i < 0 -> zn l i = None.
Proof. unfold zn; intros; destruct (Z.ltb_spec i 0); [reflexivity|lia]. Qed.

Lemma zn_ext l1 l2 : zlen l1 = zlen l2 ->
  (forall i, 0 <= i < zlen l1 -> zn l1 i = zn l2 i) -> l1 = l2.
Proof.
  unfold zlen; revert l2; induction l1 as [|a l1 IH]; intros [|b l2] Hl H; cbn [length] in *; try lia.
  - reflexivity.
  - f_equal.
    + specialize (H 0 ltac:(lia)). cbn in H. congruence.
    + apply IH; [lia|]. intros i Hi. specialize (H (i + 1) ltac:(lia)).
      unfold zn in *. destruct (Z.ltb_spec (i+1) 0), (Z.ltb_spec i 0); try lia.
      replace (Z.to_nat (i + 1)) with (S (Z.to_nat i)) in H by lia. exact H.
Qed.
End Lists.

(** [zlen] simplification with side conditions by lia *)
Ltac zlen_pose :=
  repeat match goal with
  | |- context [zlen ?l] => lazymatch goal with H : 0 <= zlen l |- _ => fail | _ => let ZL := fresh "ZL" in pose proof (zlen_nonneg l) as ZL end
  | _ : context [zlen ?l] |- _ => lazymatch goal with H : 0 <= zlen l |- _ => fail | _ => let ZL := fresh "ZL" in pose proof (zlen_nonneg l) as ZL end
  end.
Ltac zlen_nil_goal :=
  match goal with |- context [zlen (@nil ?T)] => change (zlen (@nil T)) with 0 end.
Ltac zlen_pose_goal :=
  repeat match goal with
  | |- context [zlen ?l] => lazymatch goal with H : 0 <= zlen l |- _ => fail | _ => let ZL := fresh "ZL" in pose proof (zlen_nonneg l) as ZL end
  end.
Ltac llia := repeat (first
  [ rewrite zlen_app | rewrite zlen_cons | zlen_nil_goal | rewrite zlen_rev
  | rewrite zlen_repeat | rewrite zlen_zslice by llia]); zlen_pose; lia.

(** decide equality of lists built from app / zslice *)
Ltac zcase := match goal with
  | |- context [if ?b then _ else _] => let E := fresh "E" in destruct b eqn:E
  end.
Ltac list_eq :=
  apply zn_ext; [llia |];
  let i := fresh "i" in let Hi := fresh "Hi" in intros i Hi;
  repeat first [ rewrite zlen_app in Hi | rewrite zlen_zslice in Hi by llia | rewrite zlen_cons in Hi | progress zlen_nil];
  repeat first
    [ rewrite zn_app
    | rewrite zn_zslice by llia ];
  repeat first [ rewrite zlen_app | rewrite zlen_zslice by llia | rewrite zlen_cons | zlen_nil_goal];
  zlen_pose;
  repeat (zcase; try (exfalso; lia)); try reflexivity; try (f_equal; lia).

Section Lists2.
Context {A : Type}.
Implicit Types l : list A.
Lemma zslice_app_l l1 l2 o n : 0 <= o -> 0 <= n -> o + n <= zlen l1 ->
  zslice (l1 ++ l2) o n = zslice l1 o n.
Proof. intros; list_eq. Qed.
Lemma zslice_app_r l1 l2 o n : zlen l1 <= o -> 0 <= n -> o + n <= zlen l1 + zlen l2 ->
  zslice (l1 ++ l2) o n = zslice l2 (o - zlen l1) n.
Proof. intros; list_eq. Qed.
Lemma zslice_app_mid l1 l2 o n : 0 <= o <= zlen l1 -> zlen l1 <= o + n -> o + n <= zlen l1 + zlen l2 ->
  zslice (l1 ++ l2) o n = zslice l1 o (zlen l1 - o) ++ zslice l2 0 (o + n - zlen l1).
Proof. intros; list_eq. Qed.
Lemma zslice_zslice l o n o' n' : 0 <= o -> 0 <= o' -> 0 <= n' -> o' + n' <= n -> o + n <= zlen l ->
  zslice (zslice l o n) o' n' = zslice l (o + o') n'.
Proof. intros; list_eq. Qed.
Lemma zslice_split l o n k : 0 <= o -> 0 <= k <= n -> o + n <= zlen l ->
  zslice l o n = zslice l o k ++ zslice l (o + k) (n - k).
Proof. intros; list_eq. Qed.
Lemma zslice_split0 l k : 0 <= k <= zlen l -> l = zslice l 0 k ++ zslice l k (zlen l - k).
Proof. intros; list_eq. Qed.
Lemma Forall_zslice (P : A -> Prop) l o n : Forall P l -> Forall P (zslice l o n).
Proof.
  intros H; unfold zslice. apply Forall_forall; intros x Hx.
  rewrite Forall_forall in H; apply H.
  rewrite <- (firstn_skipn (Z.to_nat o) l). apply in_or_app; right.
  rewrite <- (firstn_skipn (Z.to_nat n) (skipn (Z.to_nat o) l)). apply in_or_app; left; exact Hx.
Qed.
End Lists2.

(** destruct a list of known length *)
Lemma list4 {A} (l : list A) : zlen l = 4 -> exists a b c d, l = [a; b; c; d].
Proof. destruct l as [|a [|b [|c [|d [|]]]]]; unfold zlen; cbn [length]; try lia. intros; eauto 10. Qed.
Lemma list8 {A} (l : list A) : zlen l = 8 ->
  exists a0 a1 a2 a3 a4 a5 a6 a7, l = [a0; a1; a2; a3; a4; a5; a6; a7].
Proof.
  destruct l as [|a0 [|a1 [|a2 [|a3 [|a4 [|a5 [|a6 [|a7 [|]]]]]]]]]; unfold zlen; cbn [length]; try lia.
  intros; do 8 eexists; reflexivity.
Qed.

(* ------------------------------------------------------------------ *)
(** ** Loops *)
Section Loops.
Context {S : Type}.
Lemma while_count (cond : S -> bool) body (f : nat -> S) n fuel s :
  s = f O -> (n <= fuel)%nat ->
  (forall i, (i < n)%nat -> cond (f i) = true /\ body (f i) = OK (f (Datatypes.S i))) ->
  cond (f n) = false ->
  while_ fuel cond body s = OK (f n).
Proof.
  intros -> Hf Hs Hn.
  revert f fuel Hf Hs Hn; induction n as [|n IH]; intros f fuel Hf Hs Hn.
  - destruct fuel; cbn [while_]; rewrite Hn; reflexivity.
  - destruct fuel as [|fuel]; [lia|]. cbn [while_].
    destruct (Hs O ltac:(lia)) as [-> ->]. cbn [bind].
    apply (IH (fun i => f (Datatypes.S i))); [lia| |exact Hn].
    intros i Hi; apply Hs; lia.
Qed.
Lemma do_while_count (cond : S -> bool) body (f : nat -> S) n fuel s :
  s = f O -> (1 <= n)%nat -> (n <= fuel + 1)%nat ->
  (forall i, (i < n)%nat -> body (f i) = OK (f (Datatypes.S i))) ->
  (forall i, (1 <= i < n)%nat -> cond (f i) = true) ->
  cond (f n) = false ->
  do_while fuel body cond s = OK (f n).
Proof.
  intros -> H1 Hf Hb Hc Hn; unfold do_while. rewrite Hb by lia; cbn [bind].
  destruct n as [|n]; [lia|].
  apply (while_count cond body (fun i => f (Datatypes.S i))); [reflexivity|lia| |exact Hn].
  intros i Hi; split; [apply Hc; lia|apply Hb; lia].
Qed.
Lemma for_count (body : Z -> S -> res S) (f : nat -> S) n i0 s :
  s = f O ->
  (forall i, (i < n)%nat -> body (i0 + Z.of_nat i) (f i) = OK (f (Datatypes.S i))) ->
  for_ n i0 body s = OK (f n).
Proof.
  intros -> Hb; revert f i0 Hb; induction n as [|n IH]; intros f i0 Hb; [reflexivity|].
  cbn [for_]. specialize (Hb O) as H0. rewrite Z.add_0_r in H0. rewrite H0 by lia. cbn [bind].
  apply (IH (fun i => f (Datatypes.S i))). intros i Hi.
  rewrite <- (Hb (Datatypes.S i)) by lia. f_equal; lia.
Qed.
End Loops.

(* ------------------------------------------------------------------ *)
(** ** Words *)
Definition w32 (x : Z) : Prop := 0 <= x < 2 ^ 32.
Definition w64 (x : Z) : Prop := 0 <= x < 2 ^ 64.

Lemma M32_pow : M32 = 2 ^ 32. Proof. reflexivity. Qed.
Lemma M64_pow : M64 = 2 ^ 64. Proof. reflexivity. Qed.
Lemma u32_eq x : u32 x = x mod 2 ^ 32. Proof. reflexivity. Qed.
Lemma u64_eq x : u64 x = x mod 2 ^ 64. Proof. reflexivity. Qed.
Lemma u32_range x : w32 (u32 x). Proof. unfold w32, u32; apply Z.mod_pos_bound; lia. Qed.
Lemma u64_range x : w64 (u64 x). Proof. unfold w64, u64; apply Z.mod_pos_bound; lia. Qed.
Lemma u32_id x : w32 x -> u32 x = x. Proof. unfold w32, u32; intros; apply Z.mod_small; lia. Qed.
Lemma u64_id x : w64 x -> u64 x = x. Proof. unfold w64, u64; intros; apply Z.mod_small; lia. Qed.
Lemma u32_add_r a b : u32 (a + u32 b) = u32 (a + b). Proof. apply Zplus_mod_idemp_r. Qed.
Lemma u32_add_l a b : u32 (u32 a + b) = u32 (a + b). Proof. apply Zplus_mod_idemp_l. Qed.
Lemma u32_mul_r a b : u32 (a * u32 b) = u32 (a * b). Proof. apply Zmult_mod_idemp_r. Qed.
Lemma u32_mul_l a b : u32 (u32 a * b) = u32 (a * b). Proof. apply Zmult_mod_idemp_l. Qed.
Lemma u64_add_r a b : u64 (a + u64 b) = u64 (a + b). Proof. apply Zplus_mod_idemp_r. Qed.
Lemma u64_add_l a b : u64 (u64 a + b) = u64 (a + b). Proof. apply Zplus_mod_idemp_l. Qed.
Lemma u64_mul_r a b : u64 (a * u64 b) = u64 (a * b). Proof. apply Zmult_mod_idemp_r. Qed.
Lemma u64_mul_l a b : u64 (u64 a * b) = u64 (a * b). Proof. apply Zmult_mod_idemp_l. Qed.
Lemma w32_w64 x : w32 x -> w64 x. Proof. unfold w32, w64; lia. Qed.
Lemma byte_w32 x : byte_ok x -> w32 x. Proof. unfold w32, byte_ok; lia. Qed.
Lemma byte_w64 x : byte_ok x -> w64 x. Proof. unfold w64, byte_ok; lia. Qed.

Lemma lxor_bound n a b : 0 <= n -> 0 <= a < 2 ^ n -> 0 <= b < 2 ^ n -> 0 <= Z.lxor a b < 2 ^ n.
Proof.
  intros Hn Ha Hb; split; [apply Z.lxor_nonneg; lia|].
  destruct (Z.eq_dec (Z.lxor a b) 0) as [->|Hne]; [lia|].
  assert (0 <= Z.lxor a b) by (apply Z.lxor_nonneg; lia).
  apply Z.log2_lt_pow2; [lia|].
  pose proof (Z.log2_lxor a b ltac:(lia) ltac:(lia)).
  destruct (Z.eq_dec a 0) as [->|], (Z.eq_dec b 0) as [->|];
    rewrite ?Z.lxor_0_l, ?Z.lxor_0_r in *; try lia.
  - assert (Z.log2 b < n) by (apply Z.log2_lt_pow2; lia); lia.
  - assert (Z.log2 a < n) by (apply Z.log2_lt_pow2; lia); lia.
  - assert (Z.log2 b < n) by (apply Z.log2_lt_pow2; lia).
    assert (Z.log2 a < n) by (apply Z.log2_lt_pow2; lia). lia.
Qed.
Lemma xor_w32 a b : w32 a -> w32 b -> w32 (xor a b).
Proof. apply lxor_bound; lia. Qed.
Lemma xor_w64 a b : w64 a -> w64 b -> w64 (xor a b).
Proof. apply lxor_bound; lia. Qed.
Lemma shr_eq a n : 0 <= n -> shr a n = a / 2 ^ n.
Proof. intros; unfold shr; apply Z.shiftr_div_pow2; lia. Qed.
Lemma shr_le a n : 0 <= n -> 0 <= a -> 0 <= shr a n <= a.
Proof.
  intros; rewrite shr_eq by lia. assert (0 < 2 ^ n) by (apply Z.pow_pos_nonneg; lia).
  split; [apply Z.div_pos; lia|]. apply Z.div_le_upper_bound; [lia|]. nia.
Qed.
Lemma shr_w32 a n : 0 <= n -> w32 a -> w32 (shr a n).
Proof. unfold w32; intros; pose proof (@shr_le a n); lia. Qed.
Lemma shr_w64 a n : 0 <= n -> w64 a -> w64 (shr a n).
Proof. unfold w64; intros; pose proof (@shr_le a n); lia. Qed.
Lemma shl64_eq a n : 0 <= n -> shl64 a n = (a * 2 ^ n) mod 2 ^ 64.
Proof. intros; unfold shl64; rewrite Z.shiftl_mul_pow2 by lia; reflexivity. Qed.
Lemma shl32_eq a n : 0 <= n -> shl32 a n = (a * 2 ^ n) mod 2 ^ 32.
Proof. intros; unfold shl32; rewrite Z.shiftl_mul_pow2 by lia; reflexivity. Qed.

(** disjoint [lor] and [lxor] are additions *)
Lemma land_disj a b k : 0 <= k -> 0 <= a < 2 ^ k -> Z.land a (b * 2 ^ k) = 0.
Proof.
  intros Hk Ha. apply Z.bits_inj'; intros i Hi. rewrite Z.land_spec, Z.bits_0.
  destruct (Z.ltb_spec i k).
  - rewrite Z.mul_pow2_bits_low by lia. apply andb_false_r.
  - destruct (Z.eq_dec a 0) as [->|]; [rewrite Z.bits_0; reflexivity|].
    assert (Z.log2 a < i).
    { apply Z.log2_lt_pow2; [lia|]. apply Z.lt_le_trans with (2 ^ k); [lia|apply Z.pow_le_mono_r; lia]. }
    rewrite (Z.bits_above_log2 a i) by lia. reflexivity.
Qed.
Lemma lor_disj a b k : 0 <= k -> 0 <= a < 2 ^ k -> Z.lor a (b * 2 ^ k) = a + b * 2 ^ k.
Proof.
  intros Hk Ha. rewrite <- Z.lxor_lor by (apply land_disj; assumption).
  symmetry; apply Z.add_nocarry_lxor, land_disj; assumption.
Qed.
Lemma lor_down a b k : 0 <= k -> 0 <= a < 2 ^ k -> Z.lor (b * 2 ^ k) a = a + b * 2 ^ k.
Proof. intros; rewrite Z.lor_comm; apply lor_disj; lia. Qed.
Lemma lxor_disj a b k : 0 <= k -> 0 <= a < 2 ^ k -> Z.lxor a (b * 2 ^ k) = a + b * 2 ^ k.
Proof. intros Hk Ha. symmetry; apply Z.add_nocarry_lxor, land_disj; assumption. Qed.

(** rotation *)
Lemma rot_eq w x s : 0 < s < w -> 0 <= x < 2 ^ w ->
  Z.lor ((Z.shiftl x s) mod 2 ^ w) (Z.shiftr x (w - s)) = (x * 2 ^ s) mod 2 ^ w + x / 2 ^ (w - s).
Proof.
  intros Hs Hx. rewrite Z.shiftl_mul_pow2, Z.shiftr_div_pow2 by lia.
  assert (E : (x * 2 ^ s) mod 2 ^ w = (x mod 2 ^ (w - s)) * 2 ^ s).
  { replace (2 ^ w) with (2 ^ (w - s) * 2 ^ s) by (rewrite <- Z.pow_add_r by lia; f_equal; lia).
    rewrite Z.mul_mod_distr_r; [reflexivity| |]; apply Z.pow_nonzero; lia. }
  rewrite E, Z.lor_comm, lor_disj; [lia|lia|].
  split; [apply Z.div_pos; [lia|apply Z.pow_pos_nonneg; lia]|].
  apply Z.div_lt_upper_bound; [apply Z.pow_pos_nonneg; lia|].
  rewrite <- Z.pow_add_r by lia. replace (w - s + s) with w by lia. lia.
Qed.
Lemma rot_range w x s : 0 < s < w -> 0 <= x < 2 ^ w ->
  0 <= (x * 2 ^ s) mod 2 ^ w + x / 2 ^ (w - s) < 2 ^ w.
Proof.
  intros Hs Hx.
  assert (E : (x * 2 ^ s) mod 2 ^ w = (x mod 2 ^ (w - s)) * 2 ^ s).
  { replace (2 ^ w) with (2 ^ (w - s) * 2 ^ s) by (rewrite <- Z.pow_add_r by lia; f_equal; lia).
    rewrite Z.mul_mod_distr_r; [reflexivity| |]; apply Z.pow_nonzero; lia. }
  rewrite E.
  assert (P : 2 ^ w = 2 ^ (w - s) * 2 ^ s) by (rewrite <- Z.pow_add_r by lia; f_equal; lia).
  assert (0 < 2 ^ (w - s)) by (apply Z.pow_pos_nonneg; lia).
  assert (0 < 2 ^ s) by (apply Z.pow_pos_nonneg; lia).
  pose proof (Z.mod_pos_bound x (2 ^ (w - s)) ltac:(lia)).
  assert (0 <= x / 2 ^ (w - s) < 2 ^ s).
  { split; [apply Z.div_pos; lia|]. apply Z.div_lt_upper_bound; lia. }
  rewrite P. nia.
Qed.
Lemma rotl32_w32 x s : 0 < s < 32 -> w32 x -> w32 (rotl32 x s).
Proof.
  unfold rotl32, shl32, shr, w32; intros. rewrite u32_eq, rot_eq by lia. apply rot_range; lia.
Qed.
Lemma rotl64_w64 x s : 0 < s < 64 -> w64 x -> w64 (rotl64 x s).
Proof.
  unfold rotl64, shl64, shr, w64; intros. rewrite u64_eq, rot_eq by lia. apply rot_range; lia.
Qed.

(** extraction of one byte *)
Lemma land_mask y k : 0 <= k -> Z.land y (Z.ones 8 * 2 ^ k) = ((y / 2 ^ k) mod 256) * 2 ^ k.
Proof.
  intros Hk. rewrite <- (Z.shiftl_mul_pow2 (Z.ones 8)), <- (Z.shiftl_mul_pow2 ((y / 2^k) mod 256)) by lia.
  change 256 with (2 ^ 8). rewrite <- Z.land_ones by lia. rewrite <- Z.shiftr_div_pow2 by lia.
  apply Z.bits_inj'; intros i Hi.
  rewrite Z.land_spec, !Z.shiftl_spec by lia.
  destruct (Z.ltb_spec i k).
  - rewrite !(Z.testbit_neg_r _ (i - k)) by lia. apply andb_false_r.
  - rewrite Z.land_spec, Z.shiftr_spec by lia. f_equal; f_equal; lia.
Qed.

Lemma swap32_bytes b0 b1 b2 b3 : byte_ok b0 -> byte_ok b1 -> byte_ok b2 -> byte_ok b3 ->
  swap32 (b0 + 256 * (b1 + 256 * (b2 + 256 * (b3 + 256 * 0)))) =
  b3 + 256 * (b2 + 256 * (b1 + 256 * (b0 + 256 * 0))).
Proof.
  unfold byte_ok; intros H0 H1 H2 H3. unfold swap32.
  rewrite !shl32_eq, !shr_eq by lia.
  change 0xff000000 with (Z.ones 8 * 2 ^ 24). change 0x00ff0000 with (Z.ones 8 * 2 ^ 16).
  change 0x0000ff00 with (Z.ones 8 * 2 ^ 8). change 0x000000ff with (Z.ones 8 * 2 ^ 0).
  rewrite !land_mask by lia.
  set (x := b0 + 256 * (b1 + 256 * (b2 + 256 * (b3 + 256 * 0)))).
  replace ((((x * 2 ^ 24) mod 2 ^ 32) / 2 ^ 24) mod 256) with b0 by (subst x; dlia).
  replace ((((x * 2 ^ 8) mod 2 ^ 32) / 2 ^ 16) mod 256) with b1 by (subst x; dlia).
  replace (((x / 2 ^ 8) / 2 ^ 8) mod 256) with b2 by (subst x; dlia).
  replace (((x / 2 ^ 24) / 2 ^ 0) mod 256) with b3 by (subst x; dlia).
  rewrite (lor_down (b1 * 2 ^ 16) b0 24) by lia.
  replace (b1 * 2 ^ 16 + b0 * 2 ^ 24) with ((b1 + 256 * b0) * 2 ^ 16) by lia.
  rewrite lor_down by lia.
  replace (b2 * 2 ^ 8 + (b1 + 256 * b0) * 2 ^ 16) with ((b2 + 256 * (b1 + 256 * b0)) * 2 ^ 8) by lia.
  rewrite lor_down by lia. lia.
Qed.

(** joining bytes with shifts, the word so far on the left *)
Lemma lor_join32 a b k : 0 <= k <= 24 -> 0 <= a < 2 ^ k -> byte_ok b ->
  Z.lor a (shl32 b k) = a + b * 2 ^ k.
Proof.
  unfold byte_ok; intros Hk Ha Hb. rewrite shl32_eq by lia.
  rewrite Z.mod_small; [apply lor_disj; lia|].
  assert (0 < 2 ^ k) by (apply Z.pow_pos_nonneg; lia).
  assert (2 ^ k <= 2 ^ 24) by (apply Z.pow_le_mono_r; lia). nia.
Qed.
Lemma lor_join64 a b k : 0 <= k <= 56 -> 0 <= a < 2 ^ k -> byte_ok b ->
  Z.lor a (shl64 b k) = a + b * 2 ^ k.
Proof.
  unfold byte_ok; intros Hk Ha Hb. rewrite shl64_eq by lia.
  rewrite Z.mod_small; [apply lor_disj; lia|].
  assert (0 < 2 ^ k) by (apply Z.pow_pos_nonneg; lia).
  assert (2 ^ k <= 2 ^ 56) by (apply Z.pow_le_mono_r; lia). nia.
Qed.


Lemma swap64_bytes b0 b1 b2 b3 b4 b5 b6 b7 :
  byte_ok b0 -> byte_ok b1 -> byte_ok b2 -> byte_ok b3 ->
  byte_ok b4 -> byte_ok b5 -> byte_ok b6 -> byte_ok b7 ->
  swap64 (le_val [b0; b1; b2; b3; b4; b5; b6; b7]) = le_val [b7; b6; b5; b4; b3; b2; b1; b0].
Proof.
  unfold byte_ok; intros. cbn [le_val]. unfold swap64.
  rewrite !shl64_eq, !shr_eq by lia.
  change 0xff00000000000000 with (Z.ones 8 * 2 ^ 56). change 0x00ff000000000000 with (Z.ones 8 * 2 ^ 48).
  change 0x0000ff0000000000 with (Z.ones 8 * 2 ^ 40). change 0x000000ff00000000 with (Z.ones 8 * 2 ^ 32).
  change 0x00000000ff000000 with (Z.ones 8 * 2 ^ 24). change 0x0000000000ff0000 with (Z.ones 8 * 2 ^ 16).
  change 0x000000000000ff00 with (Z.ones 8 * 2 ^ 8). change 0x00000000000000ff with (Z.ones 8 * 2 ^ 0).
  rewrite !land_mask by lia.
  match goal with |- context [(?y * 2 ^ 56) mod 2 ^ 64] => set (x := y) end.
  replace ((((x * 2 ^ 56) mod 2 ^ 64) / 2 ^ 56) mod 256) with b0 by (subst x; dlia).
  replace ((((x * 2 ^ 40) mod 2 ^ 64) / 2 ^ 48) mod 256) with b1 by (subst x; dlia).
  replace ((((x * 2 ^ 24) mod 2 ^ 64) / 2 ^ 40) mod 256) with b2 by (subst x; dlia).
  replace ((((x * 2 ^ 8) mod 2 ^ 64) / 2 ^ 32) mod 256) with b3 by (subst x; dlia).
  replace (((x / 2 ^ 8) / 2 ^ 24) mod 256) with b4 by (subst x; dlia).
  replace (((x / 2 ^ 24) / 2 ^ 16) mod 256) with b5 by (subst x; dlia).
  replace (((x / 2 ^ 40) / 2 ^ 8) mod 256) with b6 by (subst x; dlia).
  replace (((x / 2 ^ 56) / 2 ^ 0) mod 256) with b7 by (subst x; dlia).
  rewrite (lor_down (b1 * 2 ^ 48) b0 56) by lia.
  replace (b1 * 2 ^ 48 + b0 * 2 ^ 56) with ((b1 + 256 * b0) * 2 ^ 48) by lia.
  rewrite lor_down by lia.
  replace (b2 * 2 ^ 40 + (b1 + 256 * b0) * 2 ^ 48) with ((b2 + 256 * (b1 + 256 * b0)) * 2 ^ 40) by lia.
  rewrite lor_down by lia.
  match goal with |- context [b3 * 2 ^ 32 + ?y * 2 ^ 40] =>
    replace (b3 * 2 ^ 32 + y * 2 ^ 40) with ((b3 + 256 * y) * 2 ^ 32) by lia end.
  rewrite lor_down by lia.
  match goal with |- context [b4 * 2 ^ 24 + ?y * 2 ^ 32] =>
    replace (b4 * 2 ^ 24 + y * 2 ^ 32) with ((b4 + 256 * y) * 2 ^ 24) by lia end.
  rewrite lor_down by lia.
  match goal with |- context [b5 * 2 ^ 16 + ?y * 2 ^ 24] =>
    replace (b5 * 2 ^ 16 + y * 2 ^ 24) with ((b5 + 256 * y) * 2 ^ 16) by lia end.
  rewrite lor_down by lia.
  match goal with |- context [b6 * 2 ^ 8 + ?y * 2 ^ 16] =>
    replace (b6 * 2 ^ 8 + y * 2 ^ 16) with ((b6 + 256 * y) * 2 ^ 8) by lia end.
  rewrite lor_down by lia. lia.
Qed.

(* ------------------------------------------------------------------ *)
(** ** Bytes and little-endian values *)
Lemma le_val_app l1 l2 : le_val (l1 ++ l2) = le_val l1 + 2 ^ (8 * zlen l1) * le_val l2.
Proof.
  induction l1 as [|b l1 IH]; [cbn [app le_val]; change (2 ^ (8 * zlen (@nil Z))) with 1; lia|].
  cbn [app le_val]. rewrite IH, zlen_cons.
  replace (8 * (1 + zlen l1)) with (8 + 8 * zlen l1) by lia.
  rewrite Z.pow_add_r by (pose proof (zlen_nonneg l1); lia). lia.
Qed.
Lemma le_val_bound l : bytes_ok l -> 0 <= le_val l < 2 ^ (8 * zlen l).
Proof.
  induction l as [|b l IH]; intros H; [cbn; lia|].
  inv H. specialize (IH H3). unfold byte_ok in H2. cbn [le_val]. rewrite zlen_cons.
  replace (8 * (1 + zlen l)) with (8 + 8 * zlen l) by lia.
  rewrite Z.pow_add_r by (pose proof (zlen_nonneg l); lia). lia.
Qed.
Lemma le_bytes_len n x : zlen (le_bytes n x) = Z.of_nat n.
Proof. revert x; induction n as [|n IH]; intros x; [reflexivity|]. cbn [le_bytes]. rewrite zlen_cons, IH; lia. Qed.
Lemma le_bytes_ok n x : bytes_ok (le_bytes n x).
Proof.
  revert x; induction n as [|n IH]; intros x; constructor; [|apply IH].
  unfold byte_ok; apply Z.mod_pos_bound; lia.
Qed.
Lemma le_bytes_val n x : 0 <= x -> le_val (le_bytes n x) = x mod 2 ^ (8 * Z.of_nat n).
Proof.
  revert x; induction n as [|n IH]; intros x Hx; [change (2 ^ (8 * Z.of_nat 0)) with 1; rewrite Z.mod_1_r; reflexivity|].
  cbn [le_bytes le_val]. rewrite IH by (apply Z.div_pos; lia).
  replace (8 * Z.of_nat (S n)) with (8 + 8 * Z.of_nat n) by lia.
  rewrite Z.pow_add_r by lia. rewrite Z.rem_mul_r by (try (apply Z.pow_pos_nonneg); lia).
  reflexivity.
Qed.
Lemma le_val_bytes l : bytes_ok l -> le_bytes (length l) (le_val l) = l.
Proof.
  induction l as [|b l IH]; intros H; [reflexivity|]. inv H. cbn [length le_bytes le_val].
  unfold byte_ok in H2. f_equal; [dlia|]. replace ((b + 256 * le_val l) / 256) with (le_val l) by dlia. apply IH, H3.
Qed.
Lemma le_val_inj l1 l2 : bytes_ok l1 -> bytes_ok l2 -> zlen l1 = zlen l2 -> le_val l1 = le_val l2 -> l1 = l2.
Proof.
  intros H1 H2 Hl Hv. rewrite <- (le_val_bytes l1), <- (le_val_bytes l2), Hv by assumption.
  f_equal. unfold zlen in Hl; lia.
Qed.
Lemma bytes_ok_zslice l o n : bytes_ok l -> bytes_ok (zslice l o n).
Proof. apply Forall_zslice. Qed.
Lemma bytes_ok_app l1 l2 : bytes_ok l1 -> bytes_ok l2 -> bytes_ok (l1 ++ l2).
Proof. intros; apply Forall_app; split; assumption. Qed.
Lemma bytes_ok_rev l : bytes_ok l -> bytes_ok (rev l).
Proof. apply Forall_rev. Qed.
Lemma le_val_w32 l : bytes_ok l -> zlen l = 4 -> w32 (le_val l).
Proof. intros H L; pose proof (le_val_bound l H); rewrite L in *; exact H0. Qed.
Lemma le_val_w64 l : bytes_ok l -> zlen l = 8 -> w64 (le_val l).
Proof. intros H L; pose proof (le_val_bound l H); rewrite L in *; exact H0. Qed.

Lemma swap32_val l : bytes_ok l -> zlen l = 4 -> swap32 (le_val l) = le_val (rev l).
Proof.
  intros H L. destruct (list4 l L) as (a & b & c & d & ->).
  repeat match goal with H : bytes_ok (_ :: _) |- _ => inv H | H : Forall _ (_ :: _) |- _ => inv H end.
  apply swap32_bytes; assumption.
Qed.
Lemma swap64_val l : bytes_ok l -> zlen l = 8 -> swap64 (le_val l) = le_val (rev l).
Proof.
  intros H L. destruct (list8 l L) as (a0 & a1 & a2 & a3 & a4 & a5 & a6 & a7 & ->).
  repeat match goal with H : bytes_ok (_ :: _) |- _ => inv H | H : Forall _ (_ :: _) |- _ => inv H end.
  apply swap64_bytes; assumption.
Qed.

(* ------------------------------------------------------------------ *)
(** ** Memory.  [points_to p m]: the bytes [m] are readable at [p]; what surrounds them is arbitrary. *)
Definition points_to (p : ptr) (m : list Z) : Prop :=
  match p with
  | Null => m = []
  | Ptr b _ o => exists pre post, b = pre ++ m ++ post /\ o = zlen pre
  end.

Lemma points_to_intro pre m post adr : points_to (Ptr (pre ++ m ++ post) adr (zlen pre)) m.
Proof. exists pre, post; split; reflexivity. Qed.
Lemma points_to_buf b : points_to (Ptr b 0 0) b.
Proof. exists [], []; rewrite app_nil_r; split; reflexivity. Qed.
Lemma points_to_null p m : points_to p m -> is_null p = true -> m = [].
Proof. destruct p; cbn; congruence. Qed.
Lemma points_to_sub p m k n : points_to p m -> 0 <= k -> 0 <= n -> k + n <= zlen m ->
  points_to (padd p k) (zslice m k n).
Proof.
  destruct p as [|b a o]; cbn [points_to padd].
  - intros -> ? ? H. zlen_nil. replace n with 0 by lia. reflexivity.
  - intros (pre & post & -> & ->) Hk Hn H.
    exists (pre ++ zslice m 0 k), (zslice m (k + n) (zlen m - k - n) ++ post). split.
    + list_eq.
    + llia.
Qed.
Lemma padd_padd p a b : padd (padd p a) b = padd p (a + b).
Proof. destruct p; cbn [padd]; [reflexivity|]; f_equal; lia. Qed.
Lemma padd_0 p : padd p 0 = p.
Proof. destruct p; cbn [padd]; [reflexivity|]; f_equal; lia. Qed.
Lemma paddr_padd p k : p <> Null -> paddr (padd p k) = paddr p + k.
Proof. destruct p; cbn; [congruence|lia]. Qed.
Lemma poff_padd p k : p <> Null -> poff (padd p k) = poff p + k.
Proof. destruct p; cbn; [congruence|lia]. Qed.
Lemma padd_nonnull p k : p <> Null -> padd p k <> Null.
Proof. destruct p; cbn; congruence. Qed.
Lemma points_to_nonnull p m : points_to p m -> 0 < zlen m -> p <> Null.
Proof. destruct p; cbn; [intros ->; zlen_nil; lia|congruence]. Qed.

Lemma load_at p m k n : points_to p m -> p <> Null -> 0 <= k -> 0 <= n -> k + n <= zlen m ->
  load (padd p k) n = OK (zslice m k n).
Proof.
  destruct p as [|b a o]; [congruence|]. intros (pre & post & -> & ->) _ Hk Hn H.
  cbn [load padd]. rewrite !zlen_app. zlen_pose.
  replace ((0 <=? zlen pre + k) && (0 <=? n) && (zlen pre + k + n <=? zlen pre + (zlen m + zlen post)))
    with true by lia.
  f_equal. list_eq.
Qed.
Lemma load_at0 p m n : points_to p m -> p <> Null -> 0 <= n <= zlen m ->
  load p n = OK (zslice m 0 n).
Proof. intros H Hp Hn. rewrite <- (padd_0 p) at 1. apply load_at; trivial; lia. Qed.

Lemma zslice_cons {A} (l : list A) o n a : 0 <= o -> 0 < n -> zn l o = Some a ->
  zslice l o n = a :: zslice l (o + 1) (n - 1).
Proof.
  intros Ho Hn H. unfold zn in H. destruct (Z.ltb_spec o 0); [lia|].
  unfold zslice. replace (Z.to_nat n) with (S (Z.to_nat (n - 1))) by lia.
  replace (Z.to_nat (o + 1)) with (S (Z.to_nat o)) by lia.
  revert l H; induction (Z.to_nat o) as [|k IH]; intros l H.
  - destruct l; cbn in H; [discriminate|]. inv H. reflexivity.
  - destruct l as [|x l]; [discriminate|]. cbn [nth_error] in H. cbn [skipn] in *. apply IH, H.
Qed.
(** byte at an index, with a default that is never used in range *)
Definition byte_at (m : list Z) (i : Z) : Z := hd 0 (zslice m i 1).
Lemma zslice_1 m k : 0 <= k < zlen m -> zslice m k 1 = [byte_at m k].
Proof.
  intros. assert (L : zlen (zslice m k 1) = 1) by llia.
  unfold byte_at. destruct (zslice m k 1) as [|x [|y l]]; [zlen_nil; lia|reflexivity|].
  rewrite !zlen_cons in L; zlen_pose; lia.
Qed.
Lemma load8_at p m k : points_to p m -> p <> Null -> 0 <= k < zlen m ->
  load8 (padd p k) = OK (byte_at m k).
Proof. intros; unfold load8. rewrite (load_at _ m) by (trivial; lia). reflexivity. Qed.
Lemma byte_at_ok m k : bytes_ok m -> 0 <= k < zlen m -> byte_ok (byte_at m k).
Proof.
  intros H Hk. pose proof (bytes_ok_zslice m k 1 H) as P. rewrite zslice_1 in P by lia.
  inv P; assumption.
Qed.
Lemma zslice_bytes m k n : 0 <= k -> 0 < n -> k + n <= zlen m ->
  zslice m k n = byte_at m k :: zslice m (k + 1) (n - 1).
Proof.
  intros. rewrite (zslice_split m k n 1) by lia. rewrite zslice_1 by lia. reflexivity.
Qed.

(** ** Typed reads at a pointer (property C15 rests on these) *)
Lemma readLE32_ok c p m k : cfg_ok c -> points_to p m -> bytes_ok m -> 0 <= k -> k + 4 <= zlen m ->
  readLE32 c (padd p k) = OK (le_val (zslice m k 4)).
Proof.
  intros C P B Hk H. assert (N : p <> Null) by (eapply points_to_nonnull; [exact P|lia]).
  unfold readLE32. destruct (Z.eqb_spec (mem_access c) 3) as [E|E].
  - rewrite !padd_padd. rewrite !(load8_at _ m) by (trivial; lia). cbn [bind]. f_equal.
    rewrite (zslice_bytes m k 4), (zslice_bytes m (k + 1) (4 - 1)), (zslice_bytes m (k + 1 + 1) (4 - 1 - 1)),
      (zslice_bytes m (k + 1 + 1 + 1) (4 - 1 - 1 - 1)) by lia.
    replace (4 - 1 - 1 - 1 - 1) with 0 by lia. rewrite zslice_0. cbn [le_val].
    replace (k + 1 + 1 + 1) with (k + 3) by lia. replace (k + 1 + 1) with (k + 2) by lia.
    pose proof (byte_at_ok m k B ltac:(lia)) as B0. pose proof (byte_at_ok m (k+1) B ltac:(lia)) as B1.
    pose proof (byte_at_ok m (k+2) B ltac:(lia)) as B2. pose proof (byte_at_ok m (k+3) B ltac:(lia)) as B3.
    unfold byte_ok in *.
    rewrite (lor_join32 _ _ 8), (lor_join32 _ _ 16), (lor_join32 _ _ 24) by (unfold byte_ok; lia). lia.
  - unfold read32. replace (negb (mem_access c =? 2) || hw_unaligned c || aligned_to (padd p k) 4) with true.
    2:{ destruct C. destruct (Z.eqb_spec (mem_access c) 2); [rewrite ok_una by assumption|]; reflexivity. }
    cbn [assert_ bind]. rewrite (load_at _ m) by (trivial; lia). cbn [bind]. unfold native_val.
    destruct (cpu_le c); [reflexivity|].
    rewrite swap32_val; [rewrite rev_involutive; reflexivity| |llia].
    apply bytes_ok_rev, bytes_ok_zslice, B.
Qed.

Lemma readBE32_ok c p m k : cfg_ok c -> points_to p m -> bytes_ok m -> 0 <= k -> k + 4 <= zlen m ->
  readBE32 c (padd p k) = OK (le_val (rev (zslice m k 4))).
Proof.
  intros C P B Hk H. assert (N : p <> Null) by (eapply points_to_nonnull; [exact P|lia]).
  unfold readBE32. destruct (Z.eqb_spec (mem_access c) 3) as [E|E].
  - rewrite !padd_padd. rewrite !(load8_at _ m) by (trivial; lia). cbn [bind]. f_equal.
    rewrite (zslice_bytes m k 4), (zslice_bytes m (k + 1) (4 - 1)), (zslice_bytes m (k + 1 + 1) (4 - 1 - 1)),
      (zslice_bytes m (k + 1 + 1 + 1) (4 - 1 - 1 - 1)) by lia.
    replace (4 - 1 - 1 - 1 - 1) with 0 by lia. rewrite zslice_0. cbn [rev app le_val].
    replace (k + 1 + 1 + 1) with (k + 3) by lia. replace (k + 1 + 1) with (k + 2) by lia.
    pose proof (byte_at_ok m k B ltac:(lia)) as B0. pose proof (byte_at_ok m (k+1) B ltac:(lia)) as B1.
    pose proof (byte_at_ok m (k+2) B ltac:(lia)) as B2. pose proof (byte_at_ok m (k+3) B ltac:(lia)) as B3.
    unfold byte_ok in *.
    rewrite (lor_join32 _ _ 8), (lor_join32 _ _ 16), (lor_join32 _ _ 24) by (unfold byte_ok; lia). lia.
  - unfold read32. replace (negb (mem_access c =? 2) || hw_unaligned c || aligned_to (padd p k) 4) with true.
    2:{ destruct C. destruct (Z.eqb_spec (mem_access c) 2); [rewrite ok_una by assumption|]; reflexivity. }
    cbn [assert_ bind]. rewrite (load_at _ m) by (trivial; lia). cbn [bind]. unfold native_val.
    destruct (cpu_le c); [|reflexivity].
    rewrite swap32_val; [reflexivity| |llia].
    apply bytes_ok_zslice, B.
Qed.

Ltac bytes8 m k B :=
  rewrite (zslice_bytes m k 8), (zslice_bytes m (k + 1) (8 - 1)), (zslice_bytes m (k + 1 + 1) (8 - 1 - 1)),
    (zslice_bytes m (k + 1 + 1 + 1) (8 - 1 - 1 - 1)),
    (zslice_bytes m (k + 1 + 1 + 1 + 1) (8 - 1 - 1 - 1 - 1)),
    (zslice_bytes m (k + 1 + 1 + 1 + 1 + 1) (8 - 1 - 1 - 1 - 1 - 1)),
    (zslice_bytes m (k + 1 + 1 + 1 + 1 + 1 + 1) (8 - 1 - 1 - 1 - 1 - 1 - 1)),
    (zslice_bytes m (k + 1 + 1 + 1 + 1 + 1 + 1 + 1) (8 - 1 - 1 - 1 - 1 - 1 - 1 - 1)) by lia;
  replace (8 - 1 - 1 - 1 - 1 - 1 - 1 - 1 - 1) with 0 by lia; rewrite zslice_0;
  replace (k + 1 + 1 + 1 + 1 + 1 + 1 + 1) with (k + 7) by lia;
  replace (k + 1 + 1 + 1 + 1 + 1 + 1) with (k + 6) by lia;
  replace (k + 1 + 1 + 1 + 1 + 1) with (k + 5) by lia;
  replace (k + 1 + 1 + 1 + 1) with (k + 4) by lia;
  replace (k + 1 + 1 + 1) with (k + 3) by lia; replace (k + 1 + 1) with (k + 2) by lia;
  pose proof (byte_at_ok m k B ltac:(lia)); pose proof (byte_at_ok m (k+1) B ltac:(lia));
  pose proof (byte_at_ok m (k+2) B ltac:(lia)); pose proof (byte_at_ok m (k+3) B ltac:(lia));
  pose proof (byte_at_ok m (k+4) B ltac:(lia)); pose proof (byte_at_ok m (k+5) B ltac:(lia));
  pose proof (byte_at_ok m (k+6) B ltac:(lia)); pose proof (byte_at_ok m (k+7) B ltac:(lia));
  unfold byte_ok in *.

Lemma readLE64_ok c p m k : cfg_ok c -> points_to p m -> bytes_ok m -> 0 <= k -> k + 8 <= zlen m ->
  readLE64 c (padd p k) = OK (le_val (zslice m k 8)).
Proof.
  intros C P B Hk H. assert (N : p <> Null) by (eapply points_to_nonnull; [exact P|lia]).
  unfold readLE64. destruct (Z.eqb_spec (mem_access c) 3) as [E|E].
  - rewrite !padd_padd. rewrite !(load8_at _ m) by (trivial; lia). cbn [bind]. f_equal.
    bytes8 m k B. cbn [le_val].
    rewrite (lor_join64 _ _ 8), (lor_join64 _ _ 16), (lor_join64 _ _ 24), (lor_join64 _ _ 32),
      (lor_join64 _ _ 40), (lor_join64 _ _ 48), (lor_join64 _ _ 56) by (unfold byte_ok; lia). lia.
  - unfold read64. replace (negb (mem_access c =? 2) || hw_unaligned c || aligned_to (padd p k) 8) with true.
    2:{ destruct C. destruct (Z.eqb_spec (mem_access c) 2); [rewrite ok_una by assumption|]; reflexivity. }
    cbn [assert_ bind]. rewrite (load_at _ m) by (trivial; lia). cbn [bind]. unfold native_val.
    destruct (cpu_le c); [reflexivity|].
    rewrite swap64_val; [rewrite rev_involutive; reflexivity| |llia].
    apply bytes_ok_rev, bytes_ok_zslice, B.
Qed.
Lemma readBE64_ok c p m k : cfg_ok c -> points_to p m -> bytes_ok m -> 0 <= k -> k + 8 <= zlen m ->
  readBE64 c (padd p k) = OK (le_val (rev (zslice m k 8))).
Proof.
  intros C P B Hk H. assert (N : p <> Null) by (eapply points_to_nonnull; [exact P|lia]).
  unfold readBE64. destruct (Z.eqb_spec (mem_access c) 3) as [E|E].
  - rewrite !padd_padd. rewrite !(load8_at _ m) by (trivial; lia). cbn [bind]. f_equal.
    bytes8 m k B. cbn [rev app le_val].
    rewrite (lor_join64 _ _ 8), (lor_join64 _ _ 16), (lor_join64 _ _ 24), (lor_join64 _ _ 32),
      (lor_join64 _ _ 40), (lor_join64 _ _ 48), (lor_join64 _ _ 56) by (unfold byte_ok; lia). lia.
  - unfold read64. replace (negb (mem_access c =? 2) || hw_unaligned c || aligned_to (padd p k) 8) with true.
    2:{ destruct C. destruct (Z.eqb_spec (mem_access c) 2); [rewrite ok_una by assumption|]; reflexivity. }
    cbn [assert_ bind]. rewrite (load_at _ m) by (trivial; lia). cbn [bind]. unfold native_val.
    destruct (cpu_le c); [|reflexivity].
    rewrite swap64_val; [reflexivity| |llia].
    apply bytes_ok_zslice, B.
Qed.

Lemma readLE32_align_ok c p m k al : cfg_ok c -> points_to p m -> bytes_ok m -> 0 <= k -> k + 4 <= zlen m ->
  (al = XXH_aligned -> paddr (padd p k) mod 4 = 0) ->
  readLE32_align c (padd p k) al = OK (le_val (zslice m k 4)).
Proof.
  intros C P B Hk H A. assert (N : p <> Null) by (eapply points_to_nonnull; [exact P|lia]).
  destruct al; cbn [readLE32_align]; [|apply readLE32_ok; assumption].
  unfold aligned_to. rewrite A by reflexivity. cbn [Z.eqb assert_ bind].
  rewrite (load_at _ m) by (trivial; lia). cbn [bind]. unfold native_val.
  destruct (cpu_le c); [reflexivity|].
  rewrite swap32_val; [rewrite rev_involutive; reflexivity| |llia].
  apply bytes_ok_rev, bytes_ok_zslice, B.
Qed.
Lemma readLE64_align_ok c p m k al : cfg_ok c -> points_to p m -> bytes_ok m -> 0 <= k -> k + 8 <= zlen m ->
  (al = XXH_aligned -> paddr (padd p k) mod 8 = 0) ->
  readLE64_align c (padd p k) al = OK (le_val (zslice m k 8)).
Proof.
  intros C P B Hk H A. assert (N : p <> Null) by (eapply points_to_nonnull; [exact P|lia]).
  destruct al; cbn [readLE64_align]; [|apply readLE64_ok; assumption].
  unfold aligned_to. rewrite A by reflexivity. cbn [Z.eqb assert_ bind].
  rewrite (load_at _ m) by (trivial; lia). cbn [bind]. unfold native_val.
  destruct (cpu_le c); [reflexivity|].
  rewrite swap64_val; [rewrite rev_involutive; reflexivity| |llia].
  apply bytes_ok_rev, bytes_ok_zslice, B.
Qed.

(** ** Stores *)
Lemma store_ok b o d : 0 <= o -> o + zlen d <= zlen b ->
  store b o d = OK (zslice b 0 o ++ d ++ zslice b (o + zlen d) (zlen b - o - zlen d)).
Proof.
  intros Ho H. unfold store. zlen_pose.
  replace ((0 <=? o) && (o + zlen d <=? zlen b)) with true by lia. f_equal. f_equal. f_equal.
  unfold zslice. symmetry. apply firstn_all2. rewrite skipn_length. unfold zlen in *. lia.
Qed.
