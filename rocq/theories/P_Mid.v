(** 17 to 240 bytes: the 64-bit hash is a sum of one product per 16-byte window, so a word read by one window is lost
    exactly when the product of that window is (for C36). *)
From Verif Require Import Base Mem Spec32 Spec64 Spec3 P_Base P_Spec P_X3_Base P_Inj P_Inj64 P_Inj3 P_Inj128.

Definition adds (f : Z -> Z) (l : list Z) (a : Z) : Z := fold_left (fun acc i => (acc + f i) mod X3.W) l a.
Lemma adds_ext f f' l a : (forall i, In i l -> f i = f' i) -> adds f l a = adds f' l a.
Proof.
  revert a. induction l as [|i l IH]; intros a H; [reflexivity|]. unfold adds in *. cbn [fold_left]. rewrite (H i (or_introl eq_refl)). apply IH. intros; apply H; right; trivial.
Qed.
Lemma add_iff x y k : wd 64 x -> wd 64 y -> (x + k) mod X3.W = (y + k) mod X3.W <-> x = y.
Proof.
  intros Hx Hy. split; [|intros ->; reflexivity]. change X3.W with (2 ^ 64). intros E. apply (mod_eq_div 64) in E; [|lia]. destruct E as [q E].
  apply (wd_eq_mod 64); trivial; [lia|]. exists q. lia.
Qed.
Lemma adds_inj f l x y : wd 64 x -> wd 64 y -> adds f l x = adds f l y <-> x = y.
Proof.
  revert x y. induction l as [|i l IH]; intros x y Hx Hy; [reflexivity|]. unfold adds in *. cbn [fold_left].
  rewrite IH by (apply mod_wd; lia). apply add_iff; trivial.
Qed.
Lemma adds_wd f l a : wd 64 a -> wd 64 (adds f l a).
Proof. revert a. induction l as [|i l IH]; intros a H; [exact H|]. unfold adds in *. cbn [fold_left]. apply IH, mod_wd. lia. Qed.
Lemma adds_iff f f' l a i0 : NoDup l -> In i0 l -> (forall i, In i l -> i <> i0 -> f i = f' i) ->
  (adds f l a = adds f' l a <-> f i0 mod X3.W = f' i0 mod X3.W).
Proof.
  intros ND I H. destruct (in_split _ _ I) as (l1 & l2 & ->). apply NoDup_remove_2 in ND. unfold adds. rewrite !fold_left_app. cbn [fold_left].
  assert (H1 : forall i, In i (l1 ++ l2) -> f i = f' i).
  { intros i Hi. apply H; [|intros ->; exact (ND Hi)]. apply in_app_iff in Hi. apply in_app_iff. cbn [In]. tauto. }
  fold (adds f l1 a). fold (adds f' l1 a). rewrite (adds_ext f f' l1 a) by (intros; apply H1, in_app_iff; tauto).
  generalize (adds f' l1 a) as x. intros x.
  fold (adds f l2 ((x + f i0) mod X3.W)). fold (adds f' l2 ((x + f' i0) mod X3.W)). rewrite (adds_ext f f' l2) by (intros; apply H1, in_app_iff; tauto).
  rewrite adds_inj by (apply mod_wd; lia).
  rewrite (Z.add_mod x (f i0)), (Z.add_mod x (f' i0)) by discriminate.
  rewrite !(Z.add_comm (x mod X3.W)). apply add_iff; apply mod_wd; lia.
Qed.

(** the windows: 16 bytes at [q], with the secret at [k] *)
Definition win (L q k : Z) : Prop :=
  (17 <= L <= 128 /\ exists i, 0 <= i <= (L - 1) / 32 /\ (q = 16 * i /\ k = 32 * i \/ q = L - 16 * i - 16 /\ k = 32 * i + 16)) \/
  (129 <= L <= 240 /\ ((exists i, 0 <= i < 8 /\ q = 16 * i /\ k = 16 * i) \/ (exists j, 0 <= j < L / 16 - 8 /\ q = 16 * (8 + j) /\ k = 16 * j + 3) \/ q = L - 16 /\ k = 119)).
Lemma win_in L q k : win L q k -> 17 <= L <= 240 /\ 0 <= q /\ q + 16 <= L /\ 0 <= k /\ k + 16 <= 136.
Proof.
  intros [[H (i & Hi & [[-> ->]|[-> ->]])]|[H [(i & Hi & -> & ->)|[(j & Hj & -> & ->)|[-> ->]]]]]; try lia; Z.div_mod_to_equations; lia.
Qed.

Section Window.
Context (s : list Z) (seed : Z) (a w w' b : list Z) (q k : Z).
Let m := a ++ w ++ b.
Let m' := a ++ w' ++ b.
Let L := zlen m.
Hypothesis Bs : bytes_ok s.
Hypothesis Bm : bytes_ok m.
Hypothesis Bm' : bytes_ok m'.
Hypothesis Lw : zlen w = 8.
Hypothesis Lw' : zlen w' = 8.
Hypothesis Wi : win L q k.
Hypothesis One : forall q' k', win L q' k' -> (q', k') <> (q, k) -> q' + 16 <= zlen a \/ zlen a + 8 <= q'.
Definition term (x : list Z) (q k : Z) : Z := X3.mixStep s (X3.chunk x q) k seed.
Lemma EL : zlen m' = L. Proof. unfold L, m, m'. rewrite !zlen_app. lia. Qed.
Lemma term_wd x q' k' : bytes_ok x -> wd 64 (term x q' k').
Proof.
  intros B. unfold term, X3.mixStep, X3.chunk. apply fold128_w64; apply (lxor_bound 64); try lia; try (apply mod_wd; lia); apply rd8_wd; rewrite seg_zslice; apply bytes_ok_zslice, B.
Qed.
Lemma other q' k' : win L q' k' -> (q', k') <> (q, k) -> term m q' k' = term m' q' k'.
Proof.
  intros H N. unfold term. f_equal. pose proof (win_in _ _ _ H). apply (chunk_out a w w' b Lw Lw' q'); try (fold m; fold L); try lia. apply (One q' k'); trivial.
Qed.
Lemma mod_terms x y : wd 64 x -> wd 64 y -> x mod X3.W = y mod X3.W <-> x = y.
Proof. intros Hx Hy. rewrite !Z.mod_small by assumption. reflexivity. Qed.
Lemma mid_17 : 17 <= L <= 128 -> X3.mid17to128_64 s seed m = X3.mid17to128_64 s seed m' <-> term m q k = term m' q k.
Proof.
  intros HL. unfold X3.mid17to128_64. change (len m) with L. change (len m') with (zlen m'). rewrite EL. cbv zeta. set (n := (L - 1) / 32 + 1). set (x0 := (L * X3.P1) mod X3.W).
  assert (F : forall x, fold_left (fun acc i => (acc + X3.mixStep s (X3.chunk x (16 * i)) (32 * i) seed + X3.mixStep s (X3.chunk x (L - 16 * i - 16)) (32 * i + 16) seed) mod X3.W) (X3.down n) x0 =
    adds (fun i => term x (16 * i) (32 * i) + term x (L - 16 * i - 16) (32 * i + 16)) (X3.down n) x0).
  { intros x. unfold adds. generalize x0. induction (X3.down n) as [|i l IH]; intros y; [reflexivity|]. cbn [fold_left]. rewrite IH. unfold term. rewrite Z.add_assoc. reflexivity. }
  rewrite !F. clear F. destruct Wi as [[_ (i0 & Hi & C)]|[H _]]; [|lia].
  rewrite (adds_iff _ _ _ _ i0); [|apply down_nodup|apply in_down; unfold n; lia|].
  - assert (W1 : forall i, 0 <= i <= (L - 1) / 32 -> win L (16 * i) (32 * i)) by (intros i H; left; split; [lia|]; exists i; split; [lia|left; lia]).
    assert (W2 : forall i, 0 <= i <= (L - 1) / 32 -> win L (L - 16 * i - 16) (32 * i + 16)) by (intros i H; left; split; [lia|]; exists i; split; [lia|right; lia]).
    destruct C as [[Eq Ek]|[Eq Ek]].
    + rewrite <- Eq, <- Ek. rewrite (other (L - q - 16)); [|rewrite Eq, Ek; apply W2; lia|intros E; apply pair_equal_spec in E; lia].
      rewrite (Z.add_mod (term m q k)), (Z.add_mod (term m' q k)) by discriminate. rewrite add_iff by (apply mod_wd; lia). apply mod_terms; apply term_wd; trivial.
    + rewrite <- Eq, <- Ek. rewrite (other (16 * i0) (32 * i0)); [|apply W1; lia|intros E; apply pair_equal_spec in E; lia].
      rewrite !(Z.add_comm (term m' (16 * i0) (32 * i0))). rewrite (Z.add_mod (term m q k)), (Z.add_mod (term m' q k)) by discriminate. rewrite add_iff by (apply mod_wd; lia).
      apply mod_terms; apply term_wd; trivial.
  - intros i Ii N. apply in_down in Ii. fold n in Hi.
    f_equal; (apply other; [left; split; [lia|]; exists i; split; [unfold n in *; lia|]; lia|intros E; apply pair_equal_spec in E; lia]).
Qed.
Lemma aval_iff x y : wd 64 x -> wd 64 y -> X3.avalanche x = X3.avalanche y <-> x = y.
Proof. intros Hx Hy. split; [apply aval3_inj; trivial|intros ->; reflexivity]. Qed.
Lemma aval_wd x : wd 64 x -> wd 64 (X3.avalanche x).
Proof. intros Hx. unfold X3.avalanche. cbv zeta. unfold xorshift at 1. apply (lxor_bound 64); [lia|apply mod_wd; lia|apply shift_wd; [lia|apply mod_wd; lia]]. Qed.
Lemma upto_nodup n : NoDup (upto n).
Proof. apply FinFun.Injective_map_NoDup; [intros x y Q; lia|apply seq_NoDup]. Qed.
Lemma upto_in n i : 0 <= i < n -> In i (upto n).
Proof. intros H. unfold upto. apply in_map_iff. exists (Z.to_nat i). split; [lia|]. apply in_seq. lia. Qed.
Lemma mid_129 : 129 <= L <= 240 -> X3.mid129to240_64 s seed m = X3.mid129to240_64 s seed m' <-> term m q k = term m' q k.
Proof.
  intros HL. set (n := L / 16). set (x0 := (L * X3.P1) mod X3.W). assert (X0 : wd 64 x0) by (apply mod_wd; lia).
  set (f := fun x i => term x (16 * i) (16 * i)). set (g := fun x j => term x (16 * (8 + j)) (16 * j + 3)).
  assert (F : forall x, zlen x = L -> X3.mid129to240_64 s seed x = (adds (g x) (upto (n - 8)) (X3.avalanche (adds (f x) (upto 8) x0)) + term x (L - 16) 119) mod X3.W).
  { intros x E. unfold X3.mid129to240_64, adds, f, g, term. cbv zeta. change (len x) with (zlen x). rewrite E. reflexivity. }
  rewrite (F m eq_refl), (F m' EL). clear F.
  assert (W1 : forall i, 0 <= i < 8 -> win L (16 * i) (16 * i)) by (intros i H; right; split; [lia|]; left; exists i; lia).
  assert (W2 : forall j, 0 <= j < n - 8 -> win L (16 * (8 + j)) (16 * j + 3)) by (intros i H; right; split; [lia|]; right; left; exists i; unfold n in H; lia).
  assert (W3 : win L (L - 16) 119) by (right; split; [lia|]; right; right; lia).
  destruct Wi as [[H _]|[_ [(i0 & Hi & Eq & Ek)|[(j0 & Hj & Eq & Ek)|[Eq Ek]]]]]; [lia| | |].
  - rewrite (other (L - 16) 119) by (trivial; intros E; apply pair_equal_spec in E; lia).
    rewrite (adds_ext (g m) (g m')) by (intros j Ij; apply in_upto in Ij; apply other; [apply W2; lia|intros E; apply pair_equal_spec in E; lia]).
    rewrite add_iff by (apply adds_wd, aval_wd, adds_wd, X0). rewrite adds_inj by (apply aval_wd, adds_wd, X0).
    rewrite aval_iff by (apply adds_wd, X0).
    rewrite (adds_iff (f m) (f m') _ _ i0); [|apply upto_nodup|apply upto_in; lia|intros i Ii N; apply in_upto in Ii; apply other; [apply W1; lia|intros E; apply pair_equal_spec in E; lia]].
    unfold f. replace (term m (16 * i0) (16 * i0)) with (term m q k) by (rewrite Eq, Ek; reflexivity). replace (term m' (16 * i0) (16 * i0)) with (term m' q k) by (rewrite Eq, Ek; reflexivity).
    apply mod_terms; apply term_wd; trivial.
  - fold n in Hj. rewrite (other (L - 16) 119) by (trivial; intros E; apply pair_equal_spec in E; lia).
    rewrite (adds_ext (f m) (f m')) by (intros i Ii; apply in_upto in Ii; apply other; [apply W1; lia|intros E; apply pair_equal_spec in E; lia]).
    rewrite add_iff by (apply adds_wd, aval_wd, adds_wd, X0).
    rewrite (adds_iff (g m) (g m') _ _ j0); [|apply upto_nodup|apply upto_in; lia|intros i Ii N; apply in_upto in Ii; apply other; [apply W2; lia|intros E; apply pair_equal_spec in E; lia]].
    unfold g. rewrite <- Eq, <- Ek. apply mod_terms; apply term_wd; trivial.
  - rewrite (adds_ext (f m) (f m')) by (intros i Ii; apply in_upto in Ii; apply other; [apply W1; lia|intros E; apply pair_equal_spec in E; lia]).
    rewrite (adds_ext (g m) (g m')) by (intros j Ij; apply in_upto in Ij; apply other; [apply W2; lia|intros E; apply pair_equal_spec in E; lia]).
    rewrite <- Eq, <- Ek. rewrite !(Z.add_comm (adds (g m') _ _)). apply add_iff; apply term_wd; trivial.
Qed.
Lemma mid_17_wd x : X3.mid17to128_64 s seed x = X3.mid17to128_64 s seed x mod X3.W.
Proof.
  symmetry. unfold X3.mid17to128_64. apply Z.mod_small. cbv zeta. generalize ((len x - 1) / 32 + 1) as n. intros n.
  assert (G : forall l y, wd 64 y -> wd 64 (fold_left (fun acc i => (acc + X3.mixStep s (X3.chunk x (16 * i)) (32 * i) seed + X3.mixStep s (X3.chunk x (len x - 16 * i - 16)) (32 * i + 16) seed) mod X3.W) l y)).
  { induction l as [|i l IH]; intros y Hy; [exact Hy|]. cbn [fold_left]. apply IH, mod_wd. lia. }
  apply G, mod_wd. lia.
Qed.
Lemma short64_window : X3.short64 s seed m = X3.short64 s seed m' <-> term m q k = term m' q k.
Proof.
  unfold X3.short64. cbv zeta. change (len m) with L. change (len m') with (zlen m'). rewrite EL. destruct (win_in _ _ _ Wi) as (HL & _).
  replace (L =? 0) with false by lia. replace (L <=? 3) with false by lia. replace (L <=? 8) with false by lia. replace (L <=? 16) with false by lia. unfold X3.mid64.
  destruct (Z.leb_spec L 128) as [C|C].
  - rewrite aval_iff by (rewrite mid_17_wd; apply mod_wd; lia). apply mid_17. lia.
  - rewrite aval_iff by (unfold X3.mid129to240_64; apply mod_wd; lia). apply mid_129. lia.
Qed.
End Window.
