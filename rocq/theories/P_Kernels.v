(** The scalar and vector kernels of XXH3 all compute the specification's stripe operations. *)
From Verif Require Import Base Mem M_XXH32 M_XXH64 M_XXH3 M_Kernels Spec3 P_Base P_Spec P_XXH64 P_X3_Base.

(** one lane of the accumulation and of the scrambling *)
Definition lane (a dj d k : Z) : Z := u64 (a + dj + u32 (xor d k) * shr (xor d k) 32).
Definition scr (a k : Z) : Z := u64 (xor (xor a (shr a 47)) k * PRIME32_1).

Lemma map_upto8 {A} (f : Z -> A) : map f (upto 8) = [f 0; f 1; f 2; f 3; f 4; f 5; f 6; f 7].
Proof. reflexivity. Qed.
Lemma len8 {A} (l : list A) : length l = 8%nat -> exists a0 a1 a2 a3 a4 a5 a6 a7, l = [a0; a1; a2; a3; a4; a5; a6; a7].
Proof. intros H. apply list8. unfold zlen. rewrite H. reflexivity. Qed.

Lemma rd8_seg m o n k : 0 <= o -> 0 <= k -> k + 8 <= n -> o + n <= zlen m ->
  X3.rd8 (seg m o (o + n)) k = X3.rd8 m (o + k).
Proof.
  intros. rewrite !rd8_zslice, seg_zslice. replace (o + n - o) with n by lia. rewrite zslice_zslice by lia. reflexivity.
Qed.

Lemma spec_acc8 m s ki ko a0 a1 a2 a3 a4 a5 a6 a7 : bytes_ok m -> bytes_ok s ->
  0 <= ki -> ki + 64 <= zlen m -> 0 <= ko -> ko + 64 <= zlen s ->
  X3.accumulate s [a0; a1; a2; a3; a4; a5; a6; a7] (seg m ki (ki + 64)) ko =
  let D i := X3.rd8 m (ki + 8 * i) in let K i := X3.rd8 s (ko + 8 * i) in
  [lane a0 (D 1) (D 0) (K 0); lane a1 (D 0) (D 1) (K 1); lane a2 (D 3) (D 2) (K 2); lane a3 (D 2) (D 3) (K 3);
   lane a4 (D 5) (D 4) (K 4); lane a5 (D 4) (D 5) (K 5); lane a6 (D 7) (D 6) (K 6); lane a7 (D 6) (D 7) (K 7)].
Proof.
  intros. unfold X3.accumulate. rewrite map_upto8. cbv zeta.
  change (Z.even 0) with true. change (Z.even 1) with false. change (Z.even 2) with true. change (Z.even 3) with false.
  change (Z.even 4) with true. change (Z.even 5) with false. change (Z.even 6) with true. change (Z.even 7) with false.
  cbv iota. rewrite !rd8_seg by lia. unfold lane, X3.hi32. rewrite !shr_eq by lia. rewrite !modW. reflexivity.
Qed.
Lemma spec_scr8 s a0 a1 a2 a3 a4 a5 a6 a7 :
  X3.scramble s [a0; a1; a2; a3; a4; a5; a6; a7] =
  let K i := X3.rd8 s (zlen s - 64 + 8 * i) in
  [scr a0 (K 0); scr a1 (K 1); scr a2 (K 2); scr a3 (K 3); scr a4 (K 4); scr a5 (K 5); scr a6 (K 6); scr a7 (K 7)].
Proof.
  unfold X3.scramble. rewrite map_upto8. cbv zeta. unfold scr. rewrite !xorshift_eq by lia. reflexivity.
Qed.

(* ------------------------------------------------------------------ *)
(** ** What a kernel must do *)
Definition wacc (acc : list Z) : Prop := length acc = 8%nat /\ Forall w64 acc.
Definition ok512 (c : cfg) (adr : Z) (f : f_acc512) : Prop :=
  forall acc input m secret s ki ko, wacc acc -> points_to input m -> bytes_ok m -> points_to secret s -> bytes_ok s ->
  0 <= ki -> ki + 64 <= zlen m -> 0 <= ko -> ko + 64 <= zlen s ->
  f adr acc (padd input ki) (padd secret ko) = OK (X3.accumulate s acc (seg m ki (ki + 64)) ko).
Definition acc_n (s m : list Z) (o so n : Z) (acc : list Z) : list Z :=
  fold_left (fun a k => X3.accumulate s a (seg m (o + 64 * k) (o + 64 * k + 64)) (so + 8 * k)) (upto n) acc.
Definition okacc (c : cfg) (adr : Z) (f : f_accumulate) : Prop :=
  forall acc input m secret s ki ko n, wacc acc -> points_to input m -> bytes_ok m -> points_to secret s -> bytes_ok s ->
  0 <= n -> 0 <= ki -> ki + 64 * n <= zlen m -> 0 <= ko -> (0 < n -> ko + 8 * (n - 1) + 64 <= zlen s) ->
  f adr acc (padd input ki) (padd secret ko) n = OK (acc_n s m ki ko n acc).
Definition okscr (c : cfg) (adr : Z) (f : f_scramble) : Prop :=
  forall acc secret s, wacc acc -> points_to secret s -> bytes_ok s -> 64 <= zlen s ->
  f adr acc (padd secret (zlen s - 64)) = OK (X3.scramble s acc).
Definition okinit (c : cfg) (adr : Z) (f : f_initSec) : Prop :=
  forall dest seed, w64 seed -> zlen dest = 192 -> f adr dest seed = OK (X3.deriveSecret seed).

Lemma accumulate_wacc s acc st o : wacc (X3.accumulate s acc st o).
Proof.
  split; [reflexivity|]. unfold X3.accumulate. rewrite map_upto8. repeat constructor; try apply u64_range;
    unfold X3.W; apply Z.mod_pos_bound; lia.
Qed.
Lemma scramble_wacc s acc : wacc (X3.scramble s acc).
Proof.
  split; [reflexivity|]. unfold X3.scramble. rewrite map_upto8. repeat constructor; unfold X3.W; apply Z.mod_pos_bound; lia.
Qed.
Lemma acc_n_wacc s m o so n acc : wacc acc -> wacc (acc_n s m o so n acc).
Proof. intros. unfold acc_n. apply fold_upto_inv; [assumption|]. intros; apply accumulate_wacc. Qed.

Lemma template_ok c adr f : ok512 c adr f -> okacc c adr (accumulate_template f).
Proof.
  intros H acc input m secret s ki ko n W PI BM PS BS Hn Hki Hm Hko Hs.
  unfold accumulate_template, STRIPE_LEN, SECRET_CONSUME_RATE.
  rewrite (for_count _ (fun i => acc_n s m ki ko (Z.of_nat i) acc)).
  - rewrite Z2Nat.id by lia. reflexivity.
  - reflexivity.
  - intros i Hi. rewrite !padd_padd. rewrite Z.add_0_l.
    rewrite (H _ input m secret s) by (try apply acc_n_wacc; trivial; lia).
    replace (Z.of_nat (S i)) with (Z.of_nat i + 1) by lia. unfold acc_n. rewrite fold_upto_S by lia.
    replace (Z.of_nat i * 64) with (64 * Z.of_nat i) by lia. replace (Z.of_nat i * 8) with (8 * Z.of_nat i) by lia.
    reflexivity.
Qed.

(* ------------------------------------------------------------------ *)
(** ** Lane arithmetic *)
Lemma w64_split x : w64 x -> u32 x + 2 ^ 32 * shr x 32 = x.
Proof. unfold w64, u32; intros; rewrite shr_eq by lia. dlia. Qed.
Lemma hi_w32 x : w64 x -> w32 (shr x 32).
Proof. unfold w64, w32; intros; rewrite shr_eq by lia. dlia. Qed.
Lemma u32_hi x : w64 x -> u32 (shr x 32) = shr x 32.
Proof. intros; apply u32_id, hi_w32; assumption. Qed.
Lemma u32_u32 x : u32 (u32 x) = u32 x.
Proof. apply u32_id, u32_range. Qed.
Lemma u32_join a b : w32 a -> u32 (a + 2 ^ 32 * b) = a.
Proof. unfold w32, u32; intros. dlia. Qed.
Lemma prod_w64 a b : w32 a -> w32 b -> w64 (a * b).
Proof. unfold w32, w64; intros; nia. Qed.
Lemma mul64_prod a b : w32 a -> w32 b -> mul64 a b = a * b.
Proof. intros; apply u64_id, prod_w64; assumption. Qed.
Lemma mulP_split x : w64 x ->
  u64 (u32 x * PRIME32_1 + 2 ^ 32 * (shr x 32 * PRIME32_1)) = u64 (x * PRIME32_1).
Proof. intros H. f_equal. rewrite <- (w64_split x H) at 3. lia. Qed.
Lemma P1_w32 : w32 PRIME32_1. Proof. unfold w32, PRIME32_1; lia. Qed.

Lemma scr_simd x : w64 x ->
  add64 (mul64 (u32 x) (u32 PRIME32_1)) (shl64 (mul64 (u32 (shr x 32)) (u32 PRIME32_1)) 32) = u64 (x * PRIME32_1).
Proof.
  intros H. rewrite (u32_id PRIME32_1 P1_w32), u32_hi by assumption.
  rewrite !mul64_prod by (try apply P1_w32; try apply u32_range; try apply hi_w32; assumption).
  unfold add64, shl64. rewrite u64_add_r, Z.shiftl_mul_pow2 by lia. rewrite <- (mulP_split x H).
  rewrite (Z.mul_comm (shr x 32 * _)). reflexivity.
Qed.

(* ------------------------------------------------------------------ *)
(** ** Scalar *)
Ltac rdk := rewrite ?padd_padd; match goal with
  | |- context [readLE64 ?c (padd ?p ?k)] =>
      match goal with P : points_to p ?m |- _ => rewrite (R8 c p m k) by (first [assumption | lia]) end end.

Lemma scalar_lane a dj d k : w64 d -> w64 k ->
  mult32to64_add64 (xor d k) (shr (xor d k) 32) (add64 a dj) = lane a dj d k.
Proof.
  intros Hd Hk. pose proof (xor_w64 _ _ Hd Hk) as W. unfold mult32to64_add64, mult32to64.
  rewrite !u32_u32, u32_hi by assumption. rewrite mul64_prod by (try apply u32_range; apply hi_w32; assumption).
  unfold add64, lane. rewrite u64_add_r. f_equal. lia.
Qed.
Lemma scalar_lane' a dj d k : w64 d -> w64 k ->
  add64 (mult32to64_add64 (xor d k) (shr (xor d k) 32) a) dj = lane a dj d k.
Proof.
  intros Hd Hk. rewrite <- scalar_lane by assumption. unfold mult32to64_add64, add64.
  rewrite u64_add_l, u64_add_r. f_equal. lia.
Qed.

(** two adjacent scalar rounds *)
Lemma scalarRound_ok c adr acc input m secret s ki ko i : cfg_ok c -> aligned_adr adr (acc_align c) = true ->
  points_to input m -> bytes_ok m -> points_to secret s -> bytes_ok s ->
  0 <= ki -> ki + 64 <= zlen m -> 0 <= ko -> ko + 64 <= zlen s -> 0 <= i < 8 ->
  scalarRound c adr acc (padd input ki) (padd secret ko) i =
  let d := X3.rd8 m (ki + 8 * i) in let k := X3.rd8 s (ko + 8 * i) in
  let acc := aset acc (Z.lxor i 1) (add64 (aget acc (Z.lxor i 1)) d) in
  OK (aset acc i (mult32to64_add64 (xor d k) (shr (xor d k) 32) (aget acc i))).
Proof.
  intros C A PI BM PS BS ? ? ? ? Hi. unfold scalarRound, ACC_NB, assert_.
  replace (i <? 8) with true by lia. cbn [bind]. rewrite A. cbn [bind]. rdk. cbn [bind]. rdk. cbn [bind].
  replace (i * 8) with (8 * i) by lia. reflexivity.
Qed.

(** compute list manipulations, leaving word operations alone *)
Ltac lcomp := cbv beta iota zeta delta [bind aset aget vset vget Z.to_nat Z.lxor Pos.lxor Pos.Nsucc_double Pos.Ndouble
  N.succ_double N.double Z.of_N Pos.to_nat Pos.iter_op Nat.add nth firstn skipn app length map map2 combine fst snd
  to32 of32 flat_map groups4 Nat.div Nat.divmod Nat.mul repeat hd tl v_xor v_add64 v_srl64 v_sll64 v_mul_epu32
  v_shuffle_epi32 v_set1_epi32 v_movn v_shrn v_mlal v_ext1 v_uzp v_mul32 vsx_mulo vsx_mule vsx_rl seq].
Ltac ari := repeat match goal with |- context [Z.to_nat (?a * ?b)] =>
  let v := eval cbv in (Z.to_nat (a * b)) in change (Z.to_nat (a * b)) with v end.
Ltac rdw := first [assumption | apply rd8_w64; [assumption|lia|lia]].
Ltac lanes := repeat match goal with |- _ :: _ = _ :: _ => apply f_equal2 | |- [] = [] => reflexivity end.

Section Scalar.
Context (c : cfg) (adr : Z).
Hypothesis C : cfg_ok c.
Hypothesis A : aligned_adr adr (acc_align c) = true.

Lemma scalar512 : ok512 c adr (accumulate_512_scalar c).
Proof.
  intros acc input m secret s ki ko [L _] PI BM PS BS ? ? ? ?.
  destruct (len8 acc L) as (a0 & a1 & a2 & a3 & a4 & a5 & a6 & a7 & ->).
  rewrite spec_acc8 by assumption. cbv zeta.
  unfold accumulate_512_scalar. cbn [for_ Z.add Pos.add Pos.succ].
  do 8 (rewrite (scalarRound_ok c adr _ input m secret s ki ko) by (assumption || lia);
        lcomp).
  f_equal. lanes; try (apply scalar_lane; rdw); apply scalar_lane'; rdw.
Qed.
Lemma scalarScr_ok acc secret s ko i : points_to secret s -> bytes_ok s ->
  0 <= ko -> ko + 64 <= zlen s -> 0 <= i < 8 ->
  scalarScrambleRound c adr acc (padd secret ko) i = OK (aset acc i (scr (aget acc i) (X3.rd8 s (ko + 8 * i)))).
Proof.
  intros PS BS ? ? Hi. unfold scalarScrambleRound, ACC_NB, assert_. rewrite A. cbn [bind].
  replace (i <? 8) with true by lia. cbn [bind]. rdk. cbn [bind].
  replace (i * 8) with (8 * i) by lia. reflexivity.
Qed.
Lemma scalar_scr : okscr c adr (scrambleAcc_scalar c).
Proof.
  intros acc secret s [L _] PS BS ?.
  destruct (len8 acc L) as (a0 & a1 & a2 & a3 & a4 & a5 & a6 & a7 & ->).
  rewrite spec_scr8. cbv zeta. unfold scrambleAcc_scalar. cbn [for_ Z.add Pos.add Pos.succ].
  do 8 (rewrite (scalarScr_ok _ secret s) by (assumption || lia);
        lcomp).
  reflexivity.
Qed.
End Scalar.

(* ------------------------------------------------------------------ *)
(** ** Vector loads *)
Lemma vloadu_ok c p m k n : cpu_le c = true -> points_to p m -> 0 <= k -> (0 < n)%nat -> k + 8 * Z.of_nat n <= zlen m ->
  vloadu c n (padd p k) = OK (map (fun i => X3.rd8 m (k + 8 * Z.of_nat i)) (seq 0 n)).
Proof.
  intros LE P Hk Hn H. assert (N : p <> Null) by (eapply points_to_nonnull; [exact P|lia]).
  unfold vloadu. rewrite (load_at p m k) by (trivial; lia). cbn [bind]. f_equal. unfold qlanes.
  apply map_ext_in. intros i Hi. apply in_seq in Hi. unfold native_val. rewrite LE, rd8_zslice.
  rewrite zslice_zslice by lia. reflexivity.
Qed.
Lemma vsx_loadu_ok c p m k : points_to p m -> bytes_ok m -> 0 <= k -> k + 16 <= zlen m ->
  vsx_loadu c (padd p k) = OK [X3.rd8 m k; X3.rd8 m (k + 8)].
Proof.
  intros P B Hk H. assert (N : p <> Null) by (eapply points_to_nonnull; [exact P|lia]).
  unfold vsx_loadu, vloadu. rewrite (load_at p m k) by (trivial; lia). cbn [bind]. f_equal.
  unfold qlanes. cbn [seq map]. change (8 * Z.of_nat 0) with 0. change (8 * Z.of_nat 1) with 8. unfold native_val.
  rewrite !zslice_zslice by lia. rewrite Z.add_0_r, !rd8_zslice. destruct (cpu_le c); [reflexivity|].
  assert (E : forall l, bytes_ok l -> zlen l = 8 -> swap64 (le_val (rev l)) = le_val l).
  { intros l Hl L8. rewrite swap64_val by (try (apply bytes_ok_rev; assumption); llia). rewrite rev_involutive. reflexivity. }
  cbn [map]. rewrite !E by (try (apply bytes_ok_zslice; assumption); llia). reflexivity.
Qed.

Section Loads.
Context (c : cfg) (p : ptr) (m : list Z) (b : Z).
Hypothesis LE : cpu_le c = true.
Hypothesis P : points_to p m.
Hypothesis B : 0 <= b.
Notation D := (fun i => X3.rd8 m (b + 8 * i)).
Lemma vl2 k j0 j1 : k = b + 8 * j0 -> j1 = j0 + 1 -> 0 <= j0 -> k + 16 <= zlen m ->
  vloadu c 2 (padd p k) = OK [D j0; D j1].
Proof.
  intros -> -> ? ?. rewrite (vloadu_ok c p m) by (trivial; lia). cbn [map seq]. f_equal. repeat (apply (f_equal2 cons); [f_equal; lia|]). reflexivity.
Qed.
Lemma vl4 k j0 j1 j2 j3 : k = b + 8 * j0 -> j1 = j0 + 1 -> j2 = j0 + 2 -> j3 = j0 + 3 -> 0 <= j0 -> k + 32 <= zlen m ->
  vloadu c 4 (padd p k) = OK [D j0; D j1; D j2; D j3].
Proof.
  intros -> -> -> -> ? ?. rewrite (vloadu_ok c p m) by (trivial; lia). cbn [map seq]. f_equal. repeat (apply (f_equal2 cons); [f_equal; lia|]). reflexivity.
Qed.
Lemma vl8 : b + 64 <= zlen m -> vloadu c 8 (padd p b) = OK [D 0; D 1; D 2; D 3; D 4; D 5; D 6; D 7].
Proof.
  intros ?. rewrite (vloadu_ok c p m) by (trivial; lia). cbn [map seq]. reflexivity.
Qed.
End Loads.

(* ------------------------------------------------------------------ *)
(** ** Lanes as the vector units compute them *)
Lemma simd_lane a dj d k : w64 d -> w64 k ->
  add64 (mul64 (u32 (xor d k)) (u32 (shr (xor d k) 32))) (add64 a dj) = lane a dj d k.
Proof.
  intros Hd Hk. pose proof (xor_w64 _ _ Hd Hk) as W. rewrite u32_hi by assumption.
  rewrite mul64_prod by (try apply u32_range; apply hi_w32; assumption).
  unfold add64, lane. rewrite u64_add_r. f_equal. lia.
Qed.
Lemma sse_lane a dj d k x : w64 d -> w64 k ->
  add64 (mul64 (u32 (xor d k)) (u32 (shr (xor d k) 32 + 2 ^ 32 * x))) (add64 a dj) = lane a dj d k.
Proof.
  intros Hd Hk. pose proof (xor_w64 _ _ Hd Hk) as W. rewrite u32_join by (apply hi_w32; assumption).
  rewrite <- simd_lane by assumption. rewrite u32_hi by assumption. reflexivity.
Qed.
Lemma scr_sse a k x : w64 a -> w64 k ->
  add64 (mul64 (u32 (xor (xor a (shr a 47)) k)) (u32 (u32 PRIME32_1 + 2 ^ 32 * u32 PRIME32_1)))
        (shl64 (mul64 (u32 (shr (xor (xor a (shr a 47)) k) 32 + 2 ^ 32 * x)) (u32 (u32 PRIME32_1 + 2 ^ 32 * u32 PRIME32_1))) 32)
  = scr a k.
Proof.
  intros Ha Hk. assert (W : w64 (xor (xor a (shr a 47)) k)) by (repeat apply xor_w64; trivial; apply shr_w64; trivial; lia).
  rewrite !u32_join by (try apply hi_w32; try apply u32_range; assumption).
  rewrite <- (u32_hi _ W). apply scr_simd; assumption.
Qed.
Lemma scr_avx a k : w64 a -> w64 k ->
  add64 (mul64 (u32 (xor (xor a (shr a 47)) k)) (u32 (u32 PRIME32_1 + 2 ^ 32 * u32 PRIME32_1)))
        (shl64 (mul64 (u32 (shr (xor (xor a (shr a 47)) k) 32)) (u32 (u32 PRIME32_1 + 2 ^ 32 * u32 PRIME32_1))) 32)
  = scr a k.
Proof.
  intros Ha Hk. assert (W : w64 (xor (xor a (shr a 47)) k)) by (repeat apply xor_w64; trivial; apply shr_w64; trivial; lia).
  rewrite !u32_join by (try apply hi_w32; try apply u32_range; assumption). apply scr_simd; assumption.
Qed.

Lemma seq_fold_lor (f : nat -> bool) n i : 0 <= i ->
  Z.testbit (fold_right (fun j acc => Z.lor (Z.shiftl (Z.b2z (f j)) (Z.of_nat j)) acc) 0 (seq 0 n)) i =
  (i <? Z.of_nat n) && f (Z.to_nat i).
Proof.
  intros Hi. assert (G : forall l, Z.testbit (fold_right (fun j acc => Z.lor (Z.shiftl (Z.b2z (f j)) (Z.of_nat j)) acc) 0 l) i
                         = existsb (fun j => Nat.eqb j (Z.to_nat i)) l && f (Z.to_nat i)).
  { induction l as [|j l IH]; [apply Z.bits_0|]. cbn [fold_right existsb]. rewrite Z.lor_spec, IH.
    rewrite Z.shiftl_spec by lia. destruct (Nat.eqb_spec j (Z.to_nat i)) as [->|Hne]; cbn [orb andb].
    - replace (i - Z.of_nat (Z.to_nat i)) with 0 by lia. destruct (f (Z.to_nat i)); [reflexivity|]. cbn. rewrite andb_false_r. reflexivity.
    - replace (Z.testbit (Z.b2z (f j)) (i - Z.of_nat j)) with false; [reflexivity|].
      destruct (Z.ltb_spec i (Z.of_nat j)); [rewrite Z.testbit_neg_r by lia; reflexivity|].
      replace (i - Z.of_nat j) with (Z.succ (i - Z.of_nat j - 1)) by lia.
      destruct (f j); cbn [Z.b2z]; [rewrite Z.bits_above_log2|rewrite Z.bits_0]; trivial; cbn; lia. }
  rewrite G. f_equal. destruct (Z.ltb_spec i (Z.of_nat n)).
  - apply existsb_exists. exists (Z.to_nat i). split; [apply in_seq; lia|apply Nat.eqb_refl].
  - apply not_true_is_false. intros E. apply existsb_exists in E. destruct E as (x & Hx & Ex).
    apply in_seq in Hx. apply Nat.eqb_eq in Ex. lia.
Qed.
Lemma testbit_w64 x i : w64 x -> 64 <= i -> Z.testbit x i = false.
Proof.
  unfold w64; intros H Hi. destruct (Z.eq_dec x 0) as [->|]; [apply Z.bits_0|].
  apply Z.bits_above_log2; [lia|]. apply Z.log2_lt_pow2; [lia|].
  apply Z.lt_le_trans with (2 ^ 64); [lia|]. apply Z.pow_le_mono_r; lia.
Qed.
Lemma ternary_xor3 x y z : w64 x -> w64 y -> w64 z -> ternary64 0x96 x y z = xor (xor y z) x.
Proof.
  intros Hx Hy Hz. apply Z.bits_inj'; intros i Hi. unfold ternary64.
  rewrite (seq_fold_lor (fun i => ternary_bit 150 (Z.testbit x (Z.of_nat i)) (Z.testbit y (Z.of_nat i)) (Z.testbit z (Z.of_nat i)))) by assumption.
  unfold xor. rewrite !Z.lxor_spec, Z2Nat.id by lia. change (Z.of_nat 64) with 64. destruct (Z.ltb_spec i 64).
  - destruct (Z.testbit x i), (Z.testbit y i), (Z.testbit z i); reflexivity.
  - rewrite !testbit_w64 by assumption. reflexivity.
Qed.

(* ------------------------------------------------------------------ *)
(** ** x86 kernels *)
Ltac wlist H := repeat match type of H with Forall _ (_ :: _) => let H1 := fresh "W" in inversion H as [|? ? H1 H']; subst; clear H; rename H' into H end.
Ltac start512 :=
  let acc := fresh in let L := fresh in
  intros acc input m secret s ki ko [L WA] PI BM PS BS ? ? ? ?;
  destruct (len8 acc L) as (a0 & a1 & a2 & a3 & a4 & a5 & a6 & a7 & ->);
  rewrite spec_acc8 by assumption; cbv zeta.
Ltac startscr :=
  let acc := fresh in let L := fresh in
  intros acc secret s [L WA] PS BS ?;
  destruct (len8 acc L) as (a0 & a1 & a2 & a3 & a4 & a5 & a6 & a7 & ->);
  repeat match goal with H : Forall _ (_ :: _) |- _ => inversion H; subst; clear H end;
  rewrite spec_scr8; cbv zeta.

Section X86.
Context (c : cfg) (adr : Z).
Hypothesis C : cfg_ok c.
Hypothesis LE : cpu_le c = true.

Lemma avx512_512 : aligned_adr adr 64 = true -> ok512 c adr (accumulate_512_avx512 c).
Proof.
  intros A. start512. unfold accumulate_512_avx512, assert_. rewrite A. cbn [bind].
  rewrite (vl8 c input m ki), (vl8 c secret s ko) by (trivial; lia). lcomp.
  rewrite !w64_split by rdw. f_equal. lanes; apply simd_lane; rdw.
Qed.
Lemma avx512_scr : aligned_adr adr 64 = true -> okscr c adr (scrambleAcc_avx512 c).
Proof.
  intros A. startscr. unfold scrambleAcc_avx512, assert_. rewrite A. cbn [bind].
  rewrite (vl8 c secret s (zlen s - 64)) by (trivial; lia). unfold v_ternary. lcomp.
  rewrite !ternary_xor3 by (first [rdw | apply shr_w64; [lia|assumption]]).
  f_equal. lanes; apply scr_avx; rdw.
Qed.
Lemma avx2_512 : aligned_adr adr 32 = true -> ok512 c adr (accumulate_512_avx2 c).
Proof.
  intros A. start512. unfold accumulate_512_avx2, assert_. rewrite A. cbn [bind for_ Z.add Pos.add Pos.succ]. ari.
  rewrite ?padd_padd.
  rewrite (vl4 c input m ki LE PI ltac:(assumption) _ 0 1 2 3), (vl4 c secret s ko LE PS ltac:(assumption) _ 0 1 2 3) by lia.
  lcomp. rewrite ?padd_padd.
  rewrite (vl4 c input m ki LE PI ltac:(assumption) _ 4 5 6 7), (vl4 c secret s ko LE PS ltac:(assumption) _ 4 5 6 7) by lia.
  lcomp. rewrite !w64_split by rdw. f_equal. lanes; apply simd_lane; rdw.
Qed.
Lemma avx2_scr : aligned_adr adr 32 = true -> okscr c adr (scrambleAcc_avx2 c).
Proof.
  intros A. startscr. unfold scrambleAcc_avx2, assert_. rewrite A. cbn [bind for_ Z.add Pos.add Pos.succ]. ari.
  rewrite ?padd_padd. rewrite (vl4 c secret s (zlen s - 64) LE PS ltac:(lia) _ 0 1 2 3) by lia. lcomp.
  rewrite ?padd_padd. rewrite (vl4 c secret s (zlen s - 64) LE PS ltac:(lia) _ 4 5 6 7) by lia. lcomp.
  f_equal. lanes; apply scr_avx; rdw.
Qed.
Lemma sse2_512 : aligned_adr adr 16 = true -> ok512 c adr (accumulate_512_sse2 c).
Proof.
  intros A. start512. unfold accumulate_512_sse2, assert_. rewrite A. cbn [bind for_ Z.add Pos.add Pos.succ]. ari.
  rewrite ?padd_padd.
  rewrite (vl2 c input m ki LE PI ltac:(assumption) _ 0 1), (vl2 c secret s ko LE PS ltac:(assumption) _ 0 1) by lia.
  lcomp. rewrite ?padd_padd.
  rewrite (vl2 c input m ki LE PI ltac:(assumption) _ 2 3), (vl2 c secret s ko LE PS ltac:(assumption) _ 2 3) by lia.
  lcomp. rewrite ?padd_padd.
  rewrite (vl2 c input m ki LE PI ltac:(assumption) _ 4 5), (vl2 c secret s ko LE PS ltac:(assumption) _ 4 5) by lia.
  lcomp. rewrite ?padd_padd.
  rewrite (vl2 c input m ki LE PI ltac:(assumption) _ 6 7), (vl2 c secret s ko LE PS ltac:(assumption) _ 6 7) by lia.
  lcomp. rewrite !(w64_split (X3.rd8 m _)) by rdw. f_equal. lanes; apply sse_lane; rdw.
Qed.
Lemma sse2_scr : aligned_adr adr 16 = true -> okscr c adr (scrambleAcc_sse2 c).
Proof.
  intros A. startscr. unfold scrambleAcc_sse2, assert_. rewrite A. cbn [bind for_ Z.add Pos.add Pos.succ]. ari.
  rewrite ?padd_padd. rewrite (vl2 c secret s (zlen s - 64) LE PS ltac:(lia) _ 0 1) by lia. lcomp.
  rewrite ?padd_padd. rewrite (vl2 c secret s (zlen s - 64) LE PS ltac:(lia) _ 2 3) by lia. lcomp.
  rewrite ?padd_padd. rewrite (vl2 c secret s (zlen s - 64) LE PS ltac:(lia) _ 4 5) by lia. lcomp.
  rewrite ?padd_padd. rewrite (vl2 c secret s (zlen s - 64) LE PS ltac:(lia) _ 6 7) by lia. lcomp.
  f_equal. lanes; apply scr_sse; rdw.
Qed.
End X86.

(* ------------------------------------------------------------------ *)
(** ** NEON *)
Lemma neon_lane a dj d k : w64 d -> w64 k ->
  add64 a (add64 dj (mul64 (u32 (xor d k)) (shr (xor d k) 32))) = lane a dj d k.
Proof.
  intros Hd Hk. pose proof (xor_w64 _ _ Hd Hk) as W.
  rewrite mul64_prod by (try apply u32_range; apply hi_w32; assumption).
  unfold add64, lane. rewrite u64_add_r. f_equal. lia.
Qed.
Lemma neon_lane' a dj d k : w64 d -> w64 k ->
  add64 a (add64 dj (mul64 (u32 (xor d k)) (u32 (shr (xor d k) 32)))) = lane a dj d k.
Proof.
  intros Hd Hk. rewrite <- neon_lane by assumption. rewrite u32_hi by (apply xor_w64; assumption). reflexivity.
Qed.
Lemma scr_neon a k : w64 a -> w64 k -> 
  add64 (mul32 (u32 (xor (xor a (shr a 47)) k)) (u32 (shl64 PRIME32_1 32)) + 2 ^ 32 *
         mul32 (shr (xor (xor a (shr a 47)) k) 32) (shr (shl64 PRIME32_1 32) 32))
        (mul64 (u32 (xor (xor a (shr a 47)) k)) PRIME32_1) = scr a k.
Proof.
  intros Ha Hk. assert (W : w64 (xor (xor a (shr a 47)) k)) by (repeat apply xor_w64; trivial; apply shr_w64; trivial; lia).
  unfold scr. set (x := xor (xor a (shr a 47)) k) in *. clearbody x.
  change (u32 (shl64 PRIME32_1 32)) with 0. change (shr (shl64 PRIME32_1 32) 32) with PRIME32_1.
  rewrite <- (mulP_split x W). unfold mul32. rewrite Z.mul_0_r. change (u32 0) with 0.
  rewrite mul64_prod by (try apply u32_range; apply P1_w32). unfold add64, u64, u32. dlia.
Qed.

Section Neon.
Context (c : cfg) (adr : Z).
Hypothesis C : cfg_ok c.
Hypothesis LE : cpu_le c = true.
Hypothesis A : aligned_adr adr (acc_align c) = true.
Hypothesis A16 : aligned_adr adr 16 = true.

Section Rounds.
Context (input secret : ptr) (m s : list Z) (ki ko a0 a1 a2 a3 a4 a5 a6 a7 : Z).
Hypothesis PI : points_to input m.
Hypothesis BM : bytes_ok m.
Hypothesis PS : points_to secret s.
Hypothesis BS : bytes_ok s.
Hypothesis Hki : 0 <= ki.
Hypothesis Hkm : ki + 64 <= zlen m.
Hypothesis Hko : 0 <= ko.
Hypothesis Hks : ko + 64 <= zlen s.
Notation D i := (X3.rd8 m (ki + 8 * i)).
Notation K i := (X3.rd8 s (ko + 8 * i)).
Notation ip := (padd input ki).
Notation sp := (padd secret ko).
Ltac n4 j0 j1 j2 j3 := unfold neon_round4; rewrite !padd_padd; ari;
  rewrite (vl2 c input m ki LE PI Hki _ j0 j1), (vl2 c secret s ko LE PS Hko _ j0 j1) by lia; cbn [bind];
  rewrite (vl2 c input m ki LE PI Hki _ j2 j3), (vl2 c secret s ko LE PS Hko _ j2 j3) by lia; cbn [bind]; lcomp;
  f_equal; lanes; first [reflexivity | apply neon_lane; rdw | apply neon_lane'; rdw].
Ltac n2 j0 j1 := unfold neon_round2; rewrite !padd_padd; ari;
  rewrite (vl2 c input m ki LE PI Hki _ j0 j1), (vl2 c secret s ko LE PS Hko _ j0 j1) by lia; cbn [bind]; lcomp;
  f_equal; lanes; first [reflexivity | apply neon_lane; rdw | apply neon_lane'; rdw].
Lemma neon4_0 : neon_round4 c [a0; a1; a2; a3; a4; a5; a6; a7] ip sp 0 =
  OK [lane a0 (D 1) (D 0) (K 0); lane a1 (D 0) (D 1) (K 1); lane a2 (D 3) (D 2) (K 2); lane a3 (D 2) (D 3) (K 3); a4; a5; a6; a7].
Proof. n4 0 1 2 3. Qed.
Lemma neon4_2 : neon_round4 c [a0; a1; a2; a3; a4; a5; a6; a7] ip sp 2 =
  OK [a0; a1; a2; a3; lane a4 (D 5) (D 4) (K 4); lane a5 (D 4) (D 5) (K 5); lane a6 (D 7) (D 6) (K 6); lane a7 (D 6) (D 7) (K 7)].
Proof. n4 4 5 6 7. Qed.
Lemma neon2_0 : neon_round2 c [a0; a1; a2; a3; a4; a5; a6; a7] ip sp 0 =
  OK [lane a0 (D 1) (D 0) (K 0); lane a1 (D 0) (D 1) (K 1); a2; a3; a4; a5; a6; a7].
Proof. n2 0 1. Qed.
Lemma neon2_2 : neon_round2 c [a0; a1; a2; a3; a4; a5; a6; a7] ip sp 2 =
  OK [a0; a1; a2; a3; lane a4 (D 5) (D 4) (K 4); lane a5 (D 4) (D 5) (K 5); a6; a7].
Proof. n2 4 5. Qed.
End Rounds.

Ltac conds := repeat match goal with |- context [?a <? ?b] =>
  let v := eval vm_compute in (a <? b) in first [constr_eq v true | constr_eq v false]; change (a <? b) with v end.
Lemma neon_512 l : (l = 2 \/ l = 4 \/ l = 6 \/ l = 8)%nat -> ok512 c adr (accumulate_512_neon c l).
Proof.
  intros Hl. start512. unfold accumulate_512_neon, assert_. rewrite A16.
  destruct Hl as [-> | [-> | [-> | ->]]]; cbn [bind for_ Nat.sub Z.of_nat Pos.of_succ_nat Pos.succ Z.add Pos.add];
  repeat (rewrite (scalarRound_ok c adr _ input m secret s ki ko) by (assumption || lia); lcomp);
  cbn [while_ fst snd]; conds; cbv iota; cbn [bind fst snd];
  repeat (first [rewrite (neon4_0 input secret m s) by assumption | rewrite (neon4_2 input secret m s) by assumption
        | rewrite (neon2_0 input secret m s) by assumption | rewrite (neon2_2 input secret m s) by assumption];
          cbn [bind fst snd Z.add Pos.add Pos.succ]; conds; cbv iota; cbn [bind fst snd]);
  f_equal; lanes; first [reflexivity | apply scalar_lane; rdw | apply scalar_lane'; rdw].
Qed.
Lemma neon_scr l wasm : (l = 2 \/ l = 4 \/ l = 6 \/ l = 8)%nat -> okscr c adr (scrambleAcc_neon c l wasm).
Proof.
  intros Hl. startscr. unfold scrambleAcc_neon, assert_. rewrite A16.
  destruct wasm; destruct Hl as [-> | [-> | [-> | ->]]];
  cbn [bind for_ Nat.sub Nat.div Nat.divmod fst Z.of_nat Pos.of_succ_nat Pos.succ Z.add Pos.add]; ari;
  repeat (rewrite (scalarScr_ok c adr C A _ secret s) by (assumption || lia); lcomp);
  rewrite ?padd_padd;
  try (rewrite (vl2 c secret s (zlen s - 64) LE PS ltac:(lia) _ 0 1) by lia; lcomp);
  try (rewrite (vl2 c secret s (zlen s - 64) LE PS ltac:(lia) _ 2 3) by lia; lcomp);
  try (rewrite (vl2 c secret s (zlen s - 64) LE PS ltac:(lia) _ 4 5) by lia; lcomp);
  try (rewrite (vl2 c secret s (zlen s - 64) LE PS ltac:(lia) _ 6 7) by lia; lcomp);
  f_equal; lanes; first [reflexivity | apply scr_neon; rdw].
Qed.
End Neon.

(* ------------------------------------------------------------------ *)
(** ** VSX *)
Lemma vsx_lane a dj d k : w64 d -> w64 k ->
  add64 (add64 a (mul64 (u32 (xor d k)) (u32 (rotl64 (xor d k) 32)))) dj = lane a dj d k.
Proof.
  intros Hd Hk. pose proof (xor_w64 _ _ Hd Hk) as W. replace (u32 (rotl64 (xor d k) 32)) with (shr (xor d k) 32).
  - rewrite mul64_prod by (try apply u32_range; apply hi_w32; assumption).
    unfold add64, lane. rewrite u64_add_l. f_equal. lia.
  - set (x := xor d k) in *. clearbody x. rewrite rotl64_rol by (trivial; lia). unfold rol.
    change (64 - 32) with 32. unfold w64 in W. rewrite shr_eq by lia. unfold u32. dlia.
Qed.
Lemma scr_vsx a k : w64 a -> w64 k ->
  add64 (mul64 (u32 (xor (xor a (shr a 47)) k)) (u32 (PRIME32_1 + 2 ^ 32 * PRIME32_1)))
        (shl64 (mul64 (shr (xor (xor a (shr a 47)) k) 32) (shr (PRIME32_1 + 2 ^ 32 * PRIME32_1) 32)) 32) = scr a k.
Proof.
  intros Ha Hk. assert (W : w64 (xor (xor a (shr a 47)) k)) by (repeat apply xor_w64; trivial; apply shr_w64; trivial; lia).
  rewrite <- (u32_hi _ W). unfold scr. rewrite <- scr_simd by assumption.
  change (u32 (PRIME32_1 + 2 ^ 32 * PRIME32_1)) with (u32 PRIME32_1).
  change (shr (PRIME32_1 + 2 ^ 32 * PRIME32_1) 32) with (u32 PRIME32_1). reflexivity.
Qed.

Section Vsx.
Context (c : cfg) (adr : Z).
Hypothesis C : cfg_ok c.
Hypothesis A16 : aligned_adr adr 16 = true.
Lemma xl2 p m b k j0 j1 : points_to p m -> bytes_ok m -> 0 <= b -> k = b + 8 * j0 -> j1 = j0 + 1 -> 0 <= j0 -> k + 16 <= zlen m ->
  vsx_loadu c (padd p k) = OK [X3.rd8 m (b + 8 * j0); X3.rd8 m (b + 8 * j1)].
Proof.
  intros P B ? -> -> ? ?. rewrite (vsx_loadu_ok c p m) by (trivial; lia). do 3 f_equal. f_equal. lia.
Qed.
Lemma vsx_512 : ok512 c adr (accumulate_512_vsx c).
Proof.
  start512. unfold accumulate_512_vsx, assert_. rewrite A16. cbn [bind for_ Z.add Pos.add Pos.succ]. ari.
  rewrite ?padd_padd.
  rewrite (xl2 input m ki _ 0 1), (xl2 secret s ko _ 0 1) by (trivial; lia). lcomp.
  rewrite (xl2 input m ki _ 2 3), (xl2 secret s ko _ 2 3) by (trivial; lia). lcomp.
  rewrite (xl2 input m ki _ 4 5), (xl2 secret s ko _ 4 5) by (trivial; lia). lcomp.
  rewrite (xl2 input m ki _ 6 7), (xl2 secret s ko _ 6 7) by (trivial; lia). lcomp.
  f_equal. lanes; apply vsx_lane; rdw.
Qed.
Lemma vsx_scr : okscr c adr (scrambleAcc_vsx c).
Proof.
  startscr. unfold scrambleAcc_vsx, assert_. rewrite A16. cbn [bind for_ Z.add Pos.add Pos.succ]. ari.
  rewrite ?padd_padd.
  rewrite (xl2 secret s (zlen s - 64) _ 0 1) by (trivial; lia). lcomp.
  rewrite (xl2 secret s (zlen s - 64) _ 2 3) by (trivial; lia). lcomp.
  rewrite (xl2 secret s (zlen s - 64) _ 4 5) by (trivial; lia). lcomp.
  rewrite (xl2 secret s (zlen s - 64) _ 6 7) by (trivial; lia). lcomp.
  f_equal. lanes; apply scr_vsx; rdw.
Qed.
End Vsx.

