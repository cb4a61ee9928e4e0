(** Inputs of more than 240 bytes with a given 64-bit XXH3 hash (proofs for C112). *)
From Verif Require Import Base Mem Spec32 Spec64 Spec3 P_Base P_Spec P_X3_Base P_Inj P_Inj64 P_Inj3 P_Inj128 P_Mid P_SeedPairs P_Told P_Forge3.

Lemma lxor_low x y : Z.lxor x y mod 2 ^ 32 = Z.lxor (x mod 2 ^ 32) (y mod 2 ^ 32).
Proof.
  apply Z.bits_inj'. intros i I. rewrite Z.lxor_spec. destruct (Z.ltb_spec i 32) as [J|J].
  - rewrite !Z.mod_pow2_bits_low by lia. apply Z.lxor_spec.
  - rewrite !Z.mod_pow2_bits_high by lia. reflexivity.
Qed.
Lemma low_of_big x : (x mod 2 ^ 64) mod 2 ^ 32 = x mod 2 ^ 32.
Proof. rewrite (Z.mod_eq x (2 ^ 64)) by discriminate. set (u := x / 2 ^ 64). replace (x - 2 ^ 64 * u) with (x + (- u * 2 ^ 32) * 2 ^ 32) by lia. apply Z_mod_plus_full. Qed.

(** what one lane adds *)
Definition product (d k : Z) : Z := X3.lo32 (Z.lxor d k) * X3.hi32 (Z.lxor d k).
Lemma product_0 d k : d mod 2 ^ 32 = k mod 2 ^ 32 -> product d k = 0.
Proof. intros E. unfold product, X3.lo32. rewrite lxor_low, E, Z.lxor_nilpotent. reflexivity. Qed.

(** Two lanes: the second becomes any chosen factor and the upper half of the first is free. *)
Lemma lanes a0 a1 s0 s1 k0 k1 u : wd 64 k0 -> wd 64 k1 -> wd 64 u ->
  exists c, wd 32 c /\ forall h, wd 32 h -> exists d0 d1, wd 64 d0 /\ wd 64 d1 /\
  Z.lxor ((a0 + d1 + product d0 s0) mod 2 ^ 64) k0 = c + 2 ^ 32 * h /\ Z.lxor ((a1 + d0 + product d1 s1) mod 2 ^ 64) k1 = u.
Proof.
  intros K0 K1 U. set (d0 := (Z.lxor u k1 - a1) mod 2 ^ 64). set (P := product d0 s0). set (c := Z.lxor ((a0 + P + s1) mod 2 ^ 32) (k0 mod 2 ^ 32)).
  assert (C : wd 32 c) by (apply (lxor_bound 32); try lia; apply mod_wd; lia). exists c. split; [exact C|]. intros h H.
  set (X := Z.lxor (c + 2 ^ 32 * h) k0). assert (V : wd 64 (c + 2 ^ 32 * h)) by (clearbody c; unfold wd in *; lia). assert (WX : wd 64 X) by (apply lxor_wd; assumption).
  set (d1 := (X - a0 - P) mod 2 ^ 64). exists d0, d1. split; [apply mod_wd; lia|]. split; [apply mod_wd; lia|].
  assert (Q : product d1 s1 = 0).
  { apply product_0. unfold d1. rewrite low_of_big. assert (XL : X mod 2 ^ 32 = (a0 + P + s1) mod 2 ^ 32).
    { unfold X. rewrite lxor_low. replace (c + 2 ^ 32 * h) with (c + h * 2 ^ 32) by lia. rewrite Z_mod_plus_full, (Z.mod_small c) by exact C. unfold c.
      rewrite Z.lxor_assoc, Z.lxor_nilpotent. apply Z.lxor_0_r. }
    rewrite <- Z.sub_add_distr, Zminus_mod, XL, <- Zminus_mod. f_equal. lia. }
  rewrite Q, Z.add_0_r. fold P. split.
  - unfold d1. replace (a0 + (X - a0 - P) mod 2 ^ 64 + P) with ((X - a0 - P) mod 2 ^ 64 + (a0 + P)) by lia. rewrite Zplus_mod_idemp_l. replace (X - a0 - P + (a0 + P)) with X by lia. rewrite (Z.mod_small X) by exact WX.
    unfold X. rewrite Z.lxor_assoc, Z.lxor_nilpotent. apply Z.lxor_0_r.
  - unfold d0. rewrite Zplus_mod_idemp_r. replace (a1 + (Z.lxor u k1 - a1)) with (Z.lxor u k1) by lia. rewrite Z.mod_small by (apply lxor_wd; assumption). rewrite Z.lxor_assoc, Z.lxor_nilpotent. apply Z.lxor_0_r.
Qed.
Lemma fold_by_1 v : wd 64 v -> X3.fold128 (v * 1) = v.
Proof. intros V. rewrite Z.mul_1_r. unfold X3.fold128, X3.lo64, X3.hi64. change X3.W with (2 ^ 64). rewrite Z.mod_small, Z.div_small by exact V. apply Z.lxor_0_r. Qed.
Lemma fold_by_half c h : wd 32 c -> wd 32 h -> X3.fold128 ((c + 2 ^ 32 * h) * 2 ^ 32) = c * 2 ^ 32 + h.
Proof.
  intros C H. unfold X3.fold128, X3.lo64, X3.hi64. change X3.W with (2 ^ 64). replace ((c + 2 ^ 32 * h) * 2 ^ 32) with (c * 2 ^ 32 + h * 2 ^ 64) by lia.
  rewrite Z_mod_plus_full, Z_div_plus by lia. assert (C' : 0 <= c * 2 ^ 32 < 2 ^ 64) by (unfold wd in C; lia). rewrite Z.mod_small, Z.div_small by exact C'. rewrite Z.add_0_l.
  rewrite Z.add_nocarry_lxor; [reflexivity|]. apply Z.bits_inj'. intros i I. rewrite Z.land_spec, Z.bits_0. destruct (Z.ltb_spec i 32) as [J|J].
  - rewrite Z.mul_pow2_bits_low by lia. reflexivity.
  - replace h with (h mod 2 ^ 32) by (apply Z.mod_small, H). rewrite Z.mod_pow2_bits_high by lia. apply andb_false_r.
Qed.
(** both halves of a sum *)
Lemma halves R cA cB T : wd 64 T -> exists hA hB, wd 32 hA /\ wd 32 hB /\ (R + (cA + 2 ^ 32 * hA) + (cB * 2 ^ 32 + hB)) mod 2 ^ 64 = T.
Proof.
  intros W. set (hB := (T - R - cA) mod 2 ^ 32). set (q := (T - R - cA) / 2 ^ 32). exists ((q - cB) mod 2 ^ 32), hB. split; [apply mod_wd; lia|]. split; [apply mod_wd; lia|].
  assert (E : T - R - cA = 2 ^ 32 * q + hB) by (apply Z.div_mod; discriminate). rewrite (Z.mod_eq (q - cB)) by discriminate. set (u := (q - cB) / 2 ^ 32). clearbody u q hB.
  replace (R + (cA + 2 ^ 32 * (q - cB - 2 ^ 32 * u)) + (cB * 2 ^ 32 + hB)) with (T + (- u) * 2 ^ 64) by lia. rewrite Z_mod_plus_full. apply Z.mod_small, W.
Qed.

(** ** The last 32 bytes *)
Section Long.
Context (s r : list Z).
Context (Bs : bytes_ok s) (Ls : 136 <= zlen s).
Let L := zlen r + 32.
Context (Long : 240 < L) (Free : 31 <= (L - 1) mod 64).

Definition four (d4 d5 d6 d7 : Z) : list Z := two d4 d5 ++ two d6 d7.
Lemma four_len d4 d5 d6 d7 : zlen (four d4 d5 d6 d7) = 32. Proof. reflexivity. Qed.
Lemma early q o : 0 <= o -> o + 64 <= zlen r -> seg (r ++ q) o (o + 64) = seg r o (o + 64).
Proof. intros O O'. rewrite !seg_zslice. apply zslice_app_l; lia. Qed.
Lemma stripes_same q o n acc : 0 <= o -> (forall k, 0 <= k < n -> o + 64 * k + 64 <= zlen r) ->
  X3.accumulate_stripes s (r ++ q) o n acc = X3.accumulate_stripes s r o n acc.
Proof. intros O H. unfold X3.accumulate_stripes. apply fold_same. intros a k I. apply upto_in in I. rewrite early; [reflexivity|lia|apply H, I]. Qed.

(** the accumulators before the last stripe *)
Let B := 64 * X3.stripesPerBlock s.
Let nb := (L - 1) / B.
Definition before : list Z :=
  X3.accumulate_stripes s r (B * nb) ((L - B * nb - 1) / 64) (fold_left (fun a b => X3.round s r (B * b) a) (upto nb) X3.init_acc).
Lemma multiple k : 64 * k <= L - 1 -> 64 * k <= zlen r.
Proof. intros H. revert Free H. unfold L. set (l := zlen r). clearbody l. clear. intros. Z.div_mod_to_equations. lia. Qed.
Lemma before_last q : zlen q = 32 -> X3.large_acc s (r ++ q) = X3.accumulate s before (seg (r ++ q) (L - 64) L) (zlen s - 71).
Proof.
  intros Q. unfold X3.large_acc. change (len (r ++ q)) with (zlen (r ++ q)). replace (zlen (r ++ q)) with L by (rewrite zlen_app, Q; reflexivity). change (len s) with (zlen s). cbv zeta. fold B nb. f_equal.
  assert (SP : 1 <= X3.stripesPerBlock s) by (unfold X3.stripesPerBlock; change (len s) with (zlen s); apply Z.div_le_lower_bound; lia).
  assert (BB : 0 < B) by (unfold B; lia). assert (NB : 0 <= nb) by (apply Z.div_pos; lia).
  assert (M : B * nb <= L - 1) by (apply Z.mul_div_le; lia).
  unfold before. rewrite stripes_same.
  - f_equal. apply fold_same. intros a b I. apply upto_in in I. unfold X3.round. rewrite stripes_same; [reflexivity|lia|]. intros k K.
    replace (B * b + 64 * k + 64) with (64 * (X3.stripesPerBlock s * b + k + 1)) by (unfold B; lia). apply multiple.
    apply Z.le_trans with (B * nb); [|exact M]. apply Z.le_trans with (B * (b + 1)); [unfold B; lia|]. apply Z.mul_le_mono_nonneg_l; lia.
  - lia.
  - intros k K. assert (64 * (k + 1) <= L - B * nb - 1).
    { apply Z.le_trans with (64 * ((L - B * nb - 1) / 64)); [lia|]. apply Z.mul_div_le. lia. }
    replace (B * nb + 64 * k + 64) with (64 * (X3.stripesPerBlock s * nb + k + 1)) by (unfold B; lia). apply multiple. unfold B in *. lia.
Qed.
(** the last stripe *)
Lemma last_stripe q : zlen q = 32 -> seg (r ++ q) (L - 64) L = zslice r (zlen r - 32) 32 ++ q.
Proof.
  intros Q. rewrite seg_zslice. replace (L - (L - 64)) with 64 by lia. replace (L - 64) with (zlen r - 32) by (unfold L; lia).
  rewrite (zslice_split (r ++ q) (zlen r - 32) 64 32) by (rewrite ?zlen_app; unfold L in Long; lia). f_equal.
  - apply zslice_app_l; unfold L in Long; lia.
  - rewrite zslice_app_r by (unfold L in Long; lia). replace (zlen r - 32 + 32 - zlen r) with 0 by lia. apply zslice_all. lia.
Qed.
Let pre := zslice r (zlen r - 32) 32.
Lemma pre_len : zlen pre = 32. Proof. apply zlen_zslice; unfold L in Long; lia. Qed.
Lemma word_low q i : zlen q = 32 -> 0 <= i < 4 -> X3.rd8 (pre ++ q) (8 * i) = X3.rd8 pre (8 * i).
Proof. intros Q I. pose proof pre_len. rewrite !rd8_zslice. f_equal. apply zslice_app_l; lia. Qed.
Lemma words d4 d5 d6 d7 : wd 64 d4 -> wd 64 d5 -> wd 64 d6 -> wd 64 d7 -> let st := pre ++ four d4 d5 d6 d7 in
  X3.rd8 st 32 = d4 /\ X3.rd8 st 40 = d5 /\ X3.rd8 st 48 = d6 /\ X3.rd8 st 56 = d7.
Proof.
  intros W4 W5 W6 W7 st. pose proof pre_len. unfold st, four, two. repeat split.
  - rewrite <- !app_assoc. rewrite (rd8_at pre (X3.bytes8 d4)) by (rewrite ?bytes8_len; lia). apply bytes8_val, W4.
  - replace (pre ++ (X3.bytes8 d4 ++ X3.bytes8 d5) ++ X3.bytes8 d6 ++ X3.bytes8 d7) with ((pre ++ X3.bytes8 d4) ++ X3.bytes8 d5 ++ X3.bytes8 d6 ++ X3.bytes8 d7) by (rewrite <- !app_assoc; reflexivity).
    rewrite (rd8_at (pre ++ X3.bytes8 d4) (X3.bytes8 d5)) by (rewrite ?zlen_app, ?bytes8_len; lia). apply bytes8_val, W5.
  - replace (pre ++ (X3.bytes8 d4 ++ X3.bytes8 d5) ++ X3.bytes8 d6 ++ X3.bytes8 d7) with ((pre ++ X3.bytes8 d4 ++ X3.bytes8 d5) ++ X3.bytes8 d6 ++ X3.bytes8 d7) by (rewrite <- !app_assoc; reflexivity).
    rewrite (rd8_at (pre ++ X3.bytes8 d4 ++ X3.bytes8 d5) (X3.bytes8 d6)) by (rewrite ?zlen_app, ?bytes8_len; lia). apply bytes8_val, W6.
  - replace (pre ++ (X3.bytes8 d4 ++ X3.bytes8 d5) ++ X3.bytes8 d6 ++ X3.bytes8 d7) with ((pre ++ X3.bytes8 d4 ++ X3.bytes8 d5 ++ X3.bytes8 d6) ++ X3.bytes8 d7 ++ []) by (rewrite app_nil_r, <- !app_assoc; reflexivity).
    rewrite (rd8_at (pre ++ X3.bytes8 d4 ++ X3.bytes8 d5 ++ X3.bytes8 d6) (X3.bytes8 d7)) by (rewrite ?zlen_app, ?bytes8_len; lia). apply bytes8_val, W7.
Qed.
Lemma forge_large64 h : wd 64 h -> exists q, bytes_ok q /\ zlen q = 32 /\ X3.large64 s (r ++ q) = h.
Proof.
  intros H. set (o := zlen s - 71). set (key := fun i => X3.rd8 s (o + 8 * i)). set (a := fun i => X3.nth0 before i).
  assert (KW : forall i, wd 64 (X3.rd8 s i)) by (intros; apply rd8_wd; exact Bs).
  destruct (lanes (a 4) (a 5) (key 4) (key 5) (X3.rd8 s (11 + 16 * 2)) (X3.rd8 s (11 + 16 * 2 + 8)) 1) as (cA & CA & FA); trivial; [split; lia|].
  destruct (lanes (a 6) (a 7) (key 6) (key 7) (X3.rd8 s (11 + 16 * 3)) (X3.rd8 s (11 + 16 * 3 + 8)) (2 ^ 32)) as (cB & CB & FB); trivial; [split; lia|].
  set (low := fun i j => (a i + X3.rd8 pre (8 * j) + product (X3.rd8 pre (8 * i)) (key i)) mod 2 ^ 64).
  set (term := fun i => X3.fold128 (Z.lxor (low (2 * i) (2 * i + 1)) (X3.rd8 s (11 + 16 * i)) * Z.lxor (low (2 * i + 1) (2 * i)) (X3.rd8 s (11 + 16 * i + 8)))).
  set (R := (((L * X3.P1) mod 2 ^ 64 + term 0) mod 2 ^ 64 + term 1) mod 2 ^ 64).
  destruct (halves R cA cB (unmix h) (unmix_wd h H)) as (hA & hB & HA & HB & E).
  destruct (FA hA HA) as (d4 & d5 & W4 & W5 & E4 & E5). destruct (FB hB HB) as (d6 & d7 & W6 & W7 & E6 & E7).
  exists (four d4 d5 d6 d7). split; [unfold four; apply bytes_ok_app; apply two_ok|]. split; [reflexivity|].
  unfold X3.large64. rewrite before_last, last_stripe by apply four_len. change (len (r ++ four d4 d5 d6 d7)) with (zlen (r ++ four d4 d5 d6 d7)).
  replace (zlen (r ++ four d4 d5 d6 d7)) with L by (rewrite zlen_app, four_len; reflexivity). fold pre o.
  destruct (words d4 d5 d6 d7 W4 W5 W6 W7) as (R4 & R5 & R6 & R7).
  set (st := pre ++ four d4 d5 d6 d7) in *. assert (RL : forall i, 0 <= i < 4 -> X3.rd8 st (8 * i) = X3.rd8 pre (8 * i)) by (intros; apply word_low; trivial; apply four_len).
  set (acc := X3.accumulate s before st o).
  assert (A : forall i, 0 <= i < 8 -> X3.nth0 acc i = (a i + X3.rd8 st (8 * (if Z.even i then i + 1 else i - 1)) + product (X3.rd8 st (8 * i)) (key i)) mod 2 ^ 64).
  { intros i I. assert (J : i = 0 \/ i = 1 \/ i = 2 \/ i = 3 \/ i = 4 \/ i = 5 \/ i = 6 \/ i = 7) by lia. destruct J as [->|[->|[->|[->|[->|[->|[->| ->]]]]]]]; reflexivity. }
  unfold X3.finalMerge. change (upto 4) with [0; 1; 2; 3]. cbn [fold_left]. change X3.W with (2 ^ 64).
  assert (T0 : X3.fold128 (Z.lxor (X3.nth0 acc (2 * 0)) (X3.rd8 s (11 + 16 * 0)) * Z.lxor (X3.nth0 acc (2 * 0 + 1)) (X3.rd8 s (11 + 16 * 0 + 8))) = term 0).
  { unfold term, low. rewrite !A by lia. change (Z.even (2 * 0)) with true. change (Z.even (2 * 0 + 1)) with false. cbv iota. rewrite !RL by lia. reflexivity. }
  assert (T1 : X3.fold128 (Z.lxor (X3.nth0 acc (2 * 1)) (X3.rd8 s (11 + 16 * 1)) * Z.lxor (X3.nth0 acc (2 * 1 + 1)) (X3.rd8 s (11 + 16 * 1 + 8))) = term 1).
  { unfold term, low. rewrite !A by lia. change (Z.even (2 * 1)) with true. change (Z.even (2 * 1 + 1)) with false. cbv iota. rewrite !RL by lia. reflexivity. }
  rewrite T0, T1. fold R.
  assert (N4 : X3.nth0 acc (2 * 2) = (a 4 + d5 + product d4 (key 4)) mod 2 ^ 64) by (etransitivity; [apply (A 4); lia|]; change (8 * (if Z.even 4 then 4 + 1 else 4 - 1)) with 40; change (8 * 4) with 32; rewrite R4, R5; reflexivity).
  assert (N5 : X3.nth0 acc (2 * 2 + 1) = (a 5 + d4 + product d5 (key 5)) mod 2 ^ 64) by (etransitivity; [apply (A 5); lia|]; change (8 * (if Z.even 5 then 5 + 1 else 5 - 1)) with 32; change (8 * 5) with 40; rewrite R4, R5; reflexivity).
  assert (N6 : X3.nth0 acc (2 * 3) = (a 6 + d7 + product d6 (key 6)) mod 2 ^ 64) by (etransitivity; [apply (A 6); lia|]; change (8 * (if Z.even 6 then 6 + 1 else 6 - 1)) with 56; change (8 * 6) with 48; rewrite R6, R7; reflexivity).
  assert (N7 : X3.nth0 acc (2 * 3 + 1) = (a 7 + d6 + product d7 (key 7)) mod 2 ^ 64) by (etransitivity; [apply (A 7); lia|]; change (8 * (if Z.even 7 then 7 + 1 else 7 - 1)) with 48; change (8 * 7) with 56; rewrite R6, R7; reflexivity).
  rewrite N4, N5, N6, N7, E4, E5, E6, E7. rewrite fold_by_1 by (unfold wd in *; lia). rewrite fold_by_half by assumption. rewrite Zplus_mod_idemp_l, E. apply avalanche_unmix, H.
Qed.
End Long.
