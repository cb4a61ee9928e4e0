(** The last one to three bytes of XXH32: no two different byte strings of equal length give the same state.
    A difference of one byte spreads in at most four ways per rotation; the differences cannot cancel. *)
From Verif Require Import Base Mem Spec32 P_Base P_Spec P_Inj.
From Coq Require Import Znumtheory.

(** a binary trie, as a set of positive numbers *)
Inductive trie := Leaf | Node (b : bool) (l r : trie).
Fixpoint tadd (p : positive) (t : trie) : trie :=
  match t with
  | Leaf => match p with xH => Node true Leaf Leaf | xO q => Node false (tadd q Leaf) Leaf | xI q => Node false Leaf (tadd q Leaf) end
  | Node b l r => match p with xH => Node true l r | xO q => Node b (tadd q l) r | xI q => Node b l (tadd q r) end
  end.
Fixpoint tmem (p : positive) (t : trie) : bool :=
  match t with
  | Leaf => false
  | Node b l r => match p with xH => b | xO q => tmem q l | xI q => tmem q r end
  end.
Lemma tmem_same p t : tmem p (tadd p t) = true.
Proof. revert t; induction p; intros [|b l r]; cbn; auto. Qed.
Lemma tmem_other p q t : tmem p t = true -> tmem p (tadd q t) = true.
Proof.
  revert p t; induction q; intros p [|b l r] H; destruct p; cbn in *; try discriminate H; auto.
Qed.
Definition tset (l : list positive) : trie := fold_left (fun t p => tadd p t) l Leaf.
Lemma tset_in p l : In p l -> tmem p (tset l) = true.
Proof.
  unfold tset. generalize Leaf. induction l as [|q l IH]; intros t I; [destruct I|]. cbn [fold_left]. destruct I as [<-|I]; [|auto].
  assert (T : tmem q (tadd q t) = true) by apply tmem_same. revert T. generalize (tadd q t). clear. induction l; intros t T; cbn [fold_left]; [exact T|].
  apply IHl. apply tmem_other, T.
Qed.

Definition M := 2 ^ 32.
Definition i1 := 0xe8b2f51.
Definition i5 := 0xae398151.
Lemma i1_ok : (X32.P1 * i1) mod M = 1. Proof. reflexivity. Qed.
Lemma i5_ok : (X32.P5 * i5) mod M = 1. Proof. reflexivity. Qed.
(** congruence modulo 2^32, in a form for linear arithmetic *)
Definition cg (a b : Z) : Prop := exists k, a = b + 4294967296 * k.
Lemma cg_mod a : cg (a mod M) a.
Proof. exists (- (a / M)). pose proof (Z_div_mod_eq_full a M). unfold M in *. change (2 ^ 32) with 4294967296 in *. lia. Qed.
Lemma cg_eq a b : cg a b -> a mod M = b mod M.
Proof. intros [k ->]. unfold M. change (2 ^ 32) with 4294967296. rewrite (Z.mul_comm 4294967296). apply Z.mod_add. lia. Qed.
Lemma cg_refl a : cg a a. Proof. exists 0. lia. Qed.
Lemma eq_cg a b : a mod M = b mod M -> cg a b.
Proof. intros E. destruct (cg_mod a) as [k Hk], (cg_mod b) as [q Hq]. exists (q - k). lia. Qed.
Lemma cg_sym a b : cg a b -> cg b a. Proof. intros [k ->]. exists (- k). lia. Qed.
Lemma cg_trans a b c : cg a b -> cg b c -> cg a c. Proof. intros [k ->] [q ->]. exists (k + q). lia. Qed.
Lemma cg_add a b c d : cg a b -> cg c d -> cg (a + c) (b + d). Proof. intros [k ->] [q ->]. exists (k + q). lia. Qed.
Lemma cg_sub a b c d : cg a b -> cg c d -> cg (a - c) (b - d). Proof. intros [k ->] [q ->]. exists (k - q). lia. Qed.
Lemma cg_mul c a b : cg a b -> cg (c * a) (c * b). Proof. intros [k ->]. exists (c * k). lia. Qed.

(** how a difference goes through a rotation by 11 *)
Definition vs : list Z := [0; 1; -2048; -2047].
Lemma rol_diff x y : wd 32 x -> wd 32 y -> exists v, In v vs /\ cg (rol 32 y 11 - rol 32 x 11) (rol 32 ((y - x) mod M) 11 + v).
Proof.
  intros Hx Hy. unfold wd in *. rewrite !rol_eq by lia. unfold M. change (2 ^ 32) with 4294967296 in *. change (2 ^ (32 - 11)) with 2097152. change (2 ^ 11) with 2048.
  set (d := (y - x) mod 4294967296). 
  assert (Hd : (0 <= d < 4294967296) /\ (d = y - x \/ d = y - x + 4294967296)) by (unfold d; dlia). clearbody d.
  pose proof (Z_div_mod_eq_full x 2097152). pose proof (Z_div_mod_eq_full y 2097152). pose proof (Z_div_mod_eq_full d 2097152).
  pose proof (Z.mod_pos_bound x 2097152). pose proof (Z.mod_pos_bound y 2097152). pose proof (Z.mod_pos_bound d 2097152).
  set (xl := x mod 2097152) in *. set (xh := x / 2097152) in *. set (yl := y mod 2097152) in *. set (yh := y / 2097152) in *.
  set (dl := d mod 2097152) in *. set (dh := d / 2097152) in *. clearbody xl xh yl yh dl dh.
  assert (exists c1, (c1 = 0 \/ c1 = 1) /\ xl + dl = yl + 2097152 * c1) as (c1 & Hc1 & E1).
  { destruct (Z.leb_spec 2097152 (xl + dl)); [exists 1|exists 0]; lia. }
  assert (exists c2, (c2 = 0 \/ c2 = 1) /\ xh + dh + c1 = yh + 2048 * c2) as (c2 & Hc2 & E2).
  { destruct Hd as [Hd [E|E]]; [exists 0|exists 1]; lia. }
  exists (c1 - 2048 * c2). split.
  - destruct Hc1 as [->| ->], Hc2 as [->| ->]; cbn; auto.
  - exists (- c1). lia.
Qed.
Definition mixv (d v : Z) : Z := (X32.P1 * (rol 32 (d mod M) 11 + v)) mod M.
Lemma step_diff U U' : wd 32 U -> wd 32 U' -> exists v, In v vs /\
  cg ((rol 32 U' 11 * X32.P1) mod M - (rol 32 U 11 * X32.P1) mod M) (mixv (U' - U) v).
Proof.
  intros H H'. destruct (rol_diff U U' H H') as (v & I & Q). exists v. split; [exact I|].
  apply cg_trans with (X32.P1 * (rol 32 U' 11 - rol 32 U 11)).
  - destruct (cg_mod (rol 32 U' 11 * X32.P1)) as [k ->]. destruct (cg_mod (rol 32 U 11 * X32.P1)) as [q ->]. exists (k - q). lia.
  - apply cg_trans with (X32.P1 * (rol 32 ((U' - U) mod M) 11 + v)); [apply cg_mul, Q|]. apply cg_sym, cg_mod.
Qed.

(** the two tables of scaled differences *)
Definition deltas : list Z := map (fun i => i - 255) (upto 511).
Definition nz : list Z := filter (fun d => negb (d =? 0)) deltas.
Definition Aval (d v : Z) : Z := (i5 * mixv (d * X32.P5) v) mod M.
Definition tabA : list Z := flat_map (fun d => map (Aval d) vs) nz.
Definition Bval (d v : Z) : Z := (i5 * rol 32 ((d * X32.P5 * i1 - v) mod M) 21) mod M.
Definition tabB : list Z := flat_map (fun d => map (Bval d) vs) deltas.
(** [a] and [b] are not within 255 of each other, modulo 2^32 *)
Definition far (a b : Z) : bool := let x := (b - a + 255) mod M in 510 <? x.
Definition key (x : Z) : positive := Z.to_pos (x / 256 + 1).
Definition keys : trie := tset (map key tabA).
Definition checkB (b : Z) : bool :=
  if tmem (key ((b - 256) mod M)) keys || tmem (key b) keys || tmem (key ((b + 256) mod M)) keys then forallb (fun a => far a b) tabA else true.
Lemma check2 : forallb (fun a => far a 0) tabA = true. Proof. vm_compute. reflexivity. Qed.
Lemma check3 : forallb checkB tabB = true. Proof. vm_compute. reflexivity. Qed.

Lemma in_deltas d : -255 <= d <= 255 -> In d deltas.
Proof.
  intros H. unfold deltas. apply in_map_iff. exists (d + 255). split; [lia|]. unfold upto. apply in_map_iff. exists (Z.to_nat (d + 255)).
  split; [lia|]. apply in_seq. lia.
Qed.
Lemma in_tabA d v : -255 <= d <= 255 -> d <> 0 -> In v vs -> In (Aval d v) tabA.
Proof.
  intros H N I. apply in_flat_map. exists d. split; [|apply in_map, I]. apply filter_In. split; [apply in_deltas, H|]. apply negb_true_iff, Z.eqb_neq, N.
Qed.
Lemma in_tabB d v : -255 <= d <= 255 -> In v vs -> In (Bval d v) tabB.
Proof. intros H I. apply in_flat_map. exists d. split; [apply in_deltas, H|apply in_map, I]. Qed.
Lemma far_false a b d : -255 <= d <= 255 -> cg (b - a) d -> far a b = false.
Proof.
  intros H [k E]. unfold far. apply Z.ltb_ge. replace (b - a + 255) with (d + 255 + k * M) by (unfold M; change (2 ^ 32) with 4294967296; lia).
  rewrite Z.mod_add by (unfold M; lia). rewrite Z.mod_small by (unfold M; lia). lia.
Qed.
Lemma M_eq : M = 4294967296. Proof. reflexivity. Qed.
Lemma far_all a b : In a tabA -> In b tabB -> far a b = true.
Proof.
  intros Ia Ib. destruct (far a b) eqn:F; [reflexivity|]. exfalso.
  pose proof check3 as C3. rewrite forallb_forall in C3. specialize (C3 b Ib). unfold checkB in C3.
  assert (Ra : 0 <= a < M).
  { apply in_flat_map in Ia as (d & _ & Ia). apply in_map_iff in Ia as (v & <- & _). apply Z.mod_pos_bound. reflexivity. }
  assert (Rb : 0 <= b < M).
  { apply in_flat_map in Ib as (d & _ & Ib). apply in_map_iff in Ib as (v & <- & _). apply Z.mod_pos_bound. reflexivity. }
  assert (K : key a = key ((b - 256) mod M) \/ key a = key b \/ key a = key ((b + 256) mod M)).
  { unfold far in F. apply Z.ltb_ge in F. unfold key. rewrite M_eq in *. 
    assert (a / 256 = (b - 256) mod 4294967296 / 256 \/ a / 256 = b / 256 \/ a / 256 = (b + 256) mod 4294967296 / 256) by dlia.
    intuition congruence. }
  assert (TK : tmem (key a) keys = true) by (apply tset_in, in_map, Ia).
  replace (tmem (key ((b - 256) mod M)) keys || tmem (key b) keys || tmem (key ((b + 256) mod M)) keys) with true in C3.
  - rewrite forallb_forall in C3. specialize (C3 a Ia). congruence.
  - destruct K as [<-|[<-|<-]]; rewrite TK, ?orb_true_r; reflexivity.
Qed.

Lemma lane1_unfold a b : X32.lane1 a b = (rol 32 ((a + b * X32.P5) mod M) 11 * X32.P1) mod M. Proof. reflexivity. Qed.
Lemma lane1_diff a b b' : wd 32 a -> exists v, In v vs /\ cg (X32.lane1 a b' - X32.lane1 a b) (mixv ((b' - b) * X32.P5) v).
Proof.
  intros Ha. rewrite !lane1_unfold.
  destruct (step_diff ((a + b * X32.P5) mod M) ((a + b' * X32.P5) mod M)) as (v & I & Q); try (apply (mod_wd 32); lia).
  exists v. split; [exact I|]. eapply cg_trans; [exact Q|]. unfold mixv.
  replace (((a + b' * X32.P5) mod M - (a + b * X32.P5) mod M) mod M) with (((b' - b) * X32.P5) mod M); [apply cg_refl|].
  apply cg_eq. apply cg_sym. eapply cg_trans; [apply cg_sub; apply cg_mod|]. exists 0. lia.
Qed.
(** scaling by the inverse of P5 *)
Lemma scale d : cg (i5 * (d * X32.P5)) d.
Proof. exists (d * (X32.P5 * i5 / M)). assert (E : X32.P5 * i5 = 1 + M * (X32.P5 * i5 / M)) by reflexivity. rewrite M_eq in *. nia. Qed.
Lemma two_bytes a x x' y y' : wd 32 a -> byte_ok x -> byte_ok x' -> byte_ok y -> byte_ok y' ->
  cg (X32.lane1 a x + y * X32.P5) (X32.lane1 a x' + y' * X32.P5) -> x = x'.
Proof.
  intros Ha Hx Hx' Hy Hy' E. unfold byte_ok in *. destruct (Z.eq_dec x x') as [|N]; [assumption|exfalso].
  destruct (lane1_diff a x x' Ha) as (v & I & Q).
  pose proof check2 as C2. rewrite forallb_forall in C2. specialize (C2 _ (in_tabA (x' - x) v ltac:(lia) ltac:(lia) I)).
  rewrite (far_false _ _ (y' - y)) in C2; [discriminate|lia|]. unfold Aval.
  assert (Q2 : cg (mixv ((x' - x) * X32.P5) v) ((y - y') * X32.P5)).
  { eapply cg_trans; [apply cg_sym, Q|]. destruct E as [k E]. exists (- k). lia. }
  eapply cg_trans; [apply cg_sub; [apply cg_refl|apply cg_mod]|].
  eapply cg_trans; [apply cg_sub; [apply cg_refl|apply cg_mul, Q2]|].
  eapply cg_trans; [apply cg_sub; [apply cg_refl|apply scale]|]. exists 0. lia.
Qed.
Lemma rol_back x : wd 32 x -> rol 32 (rol 32 x 11) 21 = x.
Proof.
  intros H. unfold wd in H. rewrite !rol_eq by lia. change (2 ^ 32) with 4294967296 in *. change (2 ^ (32 - 11)) with 2097152. change (2 ^ 11) with 2048.
  change (2 ^ (32 - 21)) with 2048. change (2 ^ 21) with 2097152. dlia.
Qed.
Lemma unscale p i q r v k w : p * i = 1 + 4294967296 * q -> i * (p * (r + v)) = i * w + 4294967296 * k ->
  r = w * i - v + 4294967296 * (k - (r + v) * q).
Proof. intros E R. replace (i * (p * (r + v))) with ((p * i) * (r + v)) in R by lia. rewrite E in R. lia. Qed.
Lemma three_bytes a x x' y y' z z' : wd 32 a -> byte_ok x -> byte_ok x' -> byte_ok y -> byte_ok y' -> byte_ok z -> byte_ok z' ->
  cg (X32.lane1 (X32.lane1 a x) y + z * X32.P5) (X32.lane1 (X32.lane1 a x') y' + z' * X32.P5) -> x = x'.
Proof.
  intros Ha Hx Hx' Hy Hy' Hz Hz' E. unfold byte_ok in *. destruct (Z.eq_dec x x') as [|N]; [assumption|exfalso].
  assert (Rx : -255 <= x' - x <= 255 /\ x' - x <> 0 /\ -255 <= z - z' <= 255 /\ -255 <= y' - y <= 255) by lia. destruct Rx as (Rx & Nx & Rz & Ry). clear Hx Hx' Hy Hy' Hz Hz' N.
  destruct (lane1_diff a x x' Ha) as (v & I & Q).
  set (S := X32.lane1 a x) in *. set (S' := X32.lane1 a x') in *.
  rewrite !(lane1_unfold S), !(lane1_unfold S') in E.
  set (U := (S + y * X32.P5) mod M) in *. set (U' := (S' + y' * X32.P5) mod M) in *.
  assert (QU : cg (U' - U) (S' - S + (y' - y) * X32.P5)).
  { eapply cg_trans; [apply cg_sub; apply cg_mod|]. exists 0. lia. }
  assert (WU : wd 32 U) by (apply (mod_wd 32); lia). assert (WU' : wd 32 U') by (apply (mod_wd 32); lia).
  clearbody U U'. clearbody S S'.
  destruct (step_diff U U' WU WU') as (v' & I' & Q').
  (* the rotated difference *)
  assert (G : cg (rol 32 ((U' - U) mod M) 11) ((z - z') * X32.P5 * i1 - v')).
  { assert (R : cg (X32.P1 * (rol 32 ((U' - U) mod M) 11 + v')) ((z - z') * X32.P5)).
    { eapply cg_trans; [apply cg_sym, cg_mod|]. eapply cg_trans; [apply cg_sym, Q'|]. destruct E as [k E]. exists (- k). lia. }
    apply (cg_mul i1) in R. destruct R as [k R].
    exists (k - (rol 32 ((U' - U) mod M) 11 + v') * (X32.P1 * i1 / M)). apply (unscale X32.P1); [reflexivity|exact R]. }
  set (g := ((z - z') * X32.P5 * i1 - v') mod M).
  assert (Wr : wd 32 (rol 32 ((U' - U) mod M) 11)) by (apply rol_wd; [lia|apply (mod_wd 32); lia]).
  assert (EG : rol 32 ((U' - U) mod M) 11 = g).
  { unfold g. rewrite <- (cg_eq _ _ G). symmetry. apply Z.mod_small. exact Wr. }
  assert (ED : (U' - U) mod M = rol 32 g 21) by (rewrite <- EG; symmetry; apply rol_back, (mod_wd 32); lia).
  pose proof (far_all (Aval (x' - x) v) (Bval (z - z') v') (in_tabA (x' - x) v Rx Nx I) (in_tabB (z - z') v' Rz I')) as F.
  rewrite (far_false _ _ (y' - y) Ry) in F; [discriminate|]. unfold Aval, Bval. fold g. rewrite <- ED.
  eapply cg_trans; [apply cg_sub; apply cg_mod|].
  eapply cg_trans; [apply cg_sub; apply cg_mul; [apply cg_mod|apply cg_sym, Q]|].
  eapply cg_trans; [apply cg_sub; [apply cg_mul, QU|apply cg_refl]|].
  replace (i5 * (S' - S + (y' - y) * X32.P5) - i5 * (S' - S)) with (i5 * ((y' - y) * X32.P5)) by lia. apply scale.
Qed.
Lemma lane1_cg s s' b b' : X32.lane1 s b = X32.lane1 s' b' -> cg (s + b * X32.P5) (s' + b' * X32.P5).
Proof.
  intros Q. rewrite !lane1_unfold in Q. unfold M in Q. apply (mul_inj 32) in Q; [|lia|reflexivity|apply rol_wd; [lia|apply (mod_wd 32); lia]..].
  apply (rol_inj 32) in Q; try lia; try (apply (mod_wd 32); lia). apply eq_cg, Q.
Qed.
Lemma fold_cons {A B} (f : A -> B -> A) x l a : fold_left f (x :: l) a = fold_left f l (f a x). Proof. reflexivity. Qed.
Lemma fold_nil {A B} (f : A -> B -> A) a : fold_left f [] a = a. Proof. reflexivity. Qed.
(** any two strings of at most three bytes *)
Lemma bytes3_inj a c c' : wd 32 a -> bytes_ok c -> bytes_ok c' -> zlen c = zlen c' -> zlen c < 4 ->
  fold_left X32.lane1 c a = fold_left X32.lane1 c' a -> c = c'.
Proof.
  intros Ha B B' L H E.
  assert (K : forall s b b', byte_ok b -> byte_ok b' -> X32.lane1 s b = X32.lane1 s b' -> b = b') by (intros; eapply lane1_inj_v; eassumption).
  pose proof lane1_cg as J.
  destruct c as [|x [|y [|z [|]]]], c' as [|x' [|y' [|z' [|]]]]; try (unfold zlen in L, H; cbn [length] in L, H; lia); [reflexivity|..]; rewrite !fold_cons, !fold_nil in E.
  all: repeat match goal with Q : bytes_ok (_ :: _) |- _ => apply Forall_cons_iff in Q as [? Q] | Q : Forall _ (_ :: _) |- _ => apply Forall_cons_iff in Q as [? Q] end.
  - f_equal. eauto.
  - assert (x = x') by (eapply (two_bytes a x x' y y'); trivial; apply J, E). subst x'. f_equal. f_equal. eauto.
  - assert (x = x') by (eapply (three_bytes a x x' y y' z z'); trivial; apply J, E). subst x'.
    assert (y = y') by (eapply (two_bytes (X32.lane1 a x) y y' z z'); trivial; [apply lane1_wd|apply J, E]). subst y'. do 3 f_equal. eauto.
Qed.

Lemma tail32_last acc k a c c' : zlen a = 4 * k -> zlen c = zlen c' -> zlen c < 4 -> bytes_ok a -> bytes_ok c -> bytes_ok c' -> wd 32 acc ->
  X32.tail acc (a ++ c) = X32.tail acc (a ++ c') -> c = c'.
Proof.
  intros La Lc H Ba Bc Bc' Ha E. rewrite !tail32_eq in E. rewrite !(rest_app 4 k a), !(words_app 4 k a) in E by lia.
  destruct (words_short 4 c ltac:(lia) H) as [E1 E2]. destruct (words_short 4 c' ltac:(lia) ltac:(lia)) as [E1' E2'].
  rewrite E1, E2, E1', E2' in E. rewrite app_nil_r in E. eapply bytes3_inj in E; trivial.
  apply (fold_P (wd 32) (wd 32)); trivial; [intros; apply lane4v_wd|apply (words_wd 4); trivial; lia].
Qed.
Lemma hash32_last k a c c' seed : zlen a = 4 * k -> zlen c = zlen c' -> zlen c < 4 -> bytes_ok a -> bytes_ok c -> bytes_ok c' ->
  X32.hash (a ++ c) seed = X32.hash (a ++ c') seed -> c = c'.
Proof.
  intros La Lc H Ba Bc Bc' E. pose proof (zlen_nonneg a). pose proof (zlen_nonneg c). set (L := zlen (a ++ c)).
  assert (EL : zlen (a ++ c') = L) by (unfold L; rewrite !zlen_app; lia). assert (HL : L = 4 * k + zlen c) by (unfold L; rewrite zlen_app; lia).
  rewrite !hash32_unfold, EL in E. fold L in E. clearbody L.
  assert (Hq : 16 * (L / 16) <= L < 16 * (L / 16) + 16) by dlia.
  assert (T : forall r, bytes_ok r -> forall a, wd 32 (X32.tail (a mod 2 ^ 32) r)) by (intros; apply tail32_wd; trivial; apply mod_wd; lia).
  apply aval32_inj in E; try (apply T, bytes_ok_zslice, bytes_ok_app; trivial).
  assert (HQ : L / 16 * 16 <= 4 * k) by lia. set (q := L / 16 * 16) in *.
  assert (S : stripes32_n (a ++ c) (L / 16) (X32.init seed) = stripes32_n (a ++ c') (L / 16) (X32.init seed)).
  { unfold stripes32_n. apply fold_upto_ext. intros i z Hi. f_equal. rewrite !seg_zslice, !zslice_app_l by lia. reflexivity. }
  rewrite S in E. rewrite !(zslice_app_mid a) in E by lia.
  rewrite !(zslice_all c), !(zslice_all c') in E by lia.
  assert (LA : zlen (zslice a q (zlen a - q)) = 4 * (k - L / 16 * 4)) by (rewrite zlen_zslice by lia; lia).
  eapply tail32_last in E; try eassumption; try (apply bytes_ok_zslice; trivial). apply mod_wd; lia.
Qed.
(** any change inside one aligned 4-byte word of the input, the last incomplete one included *)
Lemma hash32_within a w w' b seed : bytes_ok a -> bytes_ok w -> bytes_ok w' -> bytes_ok b -> zlen w = zlen w' -> zlen a mod 4 + zlen w <= 4 ->
  X32.hash (a ++ w ++ b) seed = X32.hash (a ++ w' ++ b) seed -> w = w'.
Proof.
  intros Ba Bw Bw' Bb Lw Hw E. pose proof (zlen_nonneg a). pose proof (zlen_nonneg b). pose proof (zlen_nonneg w). set (k := zlen a / 4).
  assert (Hk : zlen a = 4 * k + zlen a mod 4) by (unfold k; dlia). pose proof (Z.mod_pos_bound (zlen a) 4 ltac:(lia)) as Hm. clearbody k.
  set (a1 := zslice a 0 (4 * k)). set (a2 := zslice a (4 * k) (zlen a - 4 * k)).
  assert (Ea : a = a1 ++ a2) by (apply zslice_split0; lia).
  assert (L1 : zlen a1 = 4 * k) by (unfold a1; rewrite zlen_zslice; lia).
  assert (L2 : zlen a2 = zlen a - 4 * k) by (unfold a2; rewrite zlen_zslice; lia).
  assert (B1 : bytes_ok a1) by (apply bytes_ok_zslice; trivial). assert (B2 : bytes_ok a2) by (apply bytes_ok_zslice; trivial).
  clearbody a1 a2. set (n := 4 * k + 4 - zlen a - zlen w) in *.
  destruct (Z.leb_spec n (zlen b)) as [Hc|Hc].
  - set (b1 := zslice b 0 n). set (b2 := zslice b n (zlen b - n)).
    assert (Eb : b = b1 ++ b2) by (apply zslice_split0; unfold n; lia).
    assert (L3 : zlen b1 = n) by (unfold b1; rewrite zlen_zslice; unfold n; lia).
    assert (B3 : bytes_ok b1) by (apply bytes_ok_zslice; trivial). assert (B4 : bytes_ok b2) by (apply bytes_ok_zslice; trivial).
    clearbody b1 b2. rewrite Ea, Eb in E.
    assert (Q : forall y, (a1 ++ a2) ++ y ++ b1 ++ b2 = a1 ++ (a2 ++ y ++ b1) ++ b2) by (intros; rewrite <- !app_assoc; reflexivity).
    rewrite !Q in E. apply (hash32_word _ _ _ _ seed k) in E; trivial; try (rewrite !zlen_app; unfold n in *; lia); try (repeat (apply bytes_ok_app; trivial)).
    apply app_inv_head in E. apply app_inv_tail in E. exact E.
  - rewrite Ea in E. assert (Q : forall y, (a1 ++ a2) ++ y ++ b = a1 ++ (a2 ++ y ++ b)) by (intros; rewrite <- !app_assoc; reflexivity).
    rewrite !Q in E. apply (hash32_last k) in E; trivial; try (rewrite !zlen_app; unfold n in *; lia); try (repeat (apply bytes_ok_app; trivial)).
    apply app_inv_head in E. apply app_inv_tail in E. exact E.
Qed.
