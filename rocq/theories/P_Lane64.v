(** XXH64: a changed word of a full stripe changes one accumulator, the one of its lane, for good (for C46). *)
From Verif Require Import Base Mem Spec32 Spec64 P_Base P_Spec P_X3_Base P_Inj P_Inj64 P_Inj3 M_XXH32 M_XXH64 P_XXH32 P_XXH64.

Lemma round64_inj_a a a' v : wd 64 a -> wd 64 a' -> X64.round a v = X64.round a' v -> a = a'.
Proof.
  intros Ha Ha' E. unfold X64.round in E. apply (mul_inj 64) in E; [|lia|reflexivity|apply rol_wd; [lia|apply mod_wd; lia]..].
  apply rol_inj in E; [|lia|apply mod_wd; lia..]. apply (add_inj 64 (v * X64.P2)); trivial. lia.
Qed.
Lemma stripe64_nth accs s j : length accs = 4%nat -> (j < 4)%nat ->
  nth j (X64.stripe accs s) 0 = X64.round (nth j accs 0) (le_val (zslice s (8 * Z.of_nat j) 8)).
Proof.
  intros L Hj. destruct accs as [|a0 [|a1 [|a2 [|a3 [|]]]]]; try discriminate L.
  unfold X64.stripe. change (upto 4) with [0; 1; 2; 3]. cbn [combine map fst snd].
  destruct j as [|[|[|[|]]]]; try lia; cbn [nth]; rewrite LE_le_val, seg_zslice; reflexivity.
Qed.
Lemma stripe64_acc accs s : length accs = 4%nat -> acc4 64 (X64.stripe accs s).
Proof.
  intros L. destruct accs as [|a0 [|a1 [|a2 [|a3 [|]]]]]; try discriminate L.
  unfold X64.stripe. change (upto 4) with [0; 1; 2; 3]. cbn [combine map fst snd].
  split; [reflexivity|]. repeat (apply Forall_cons; [apply round64_wd|]). apply Forall_nil.
Qed.
Lemma init64_acc seed : acc4 64 (X64.init seed).
Proof. split; [reflexivity|]. unfold X64.init. repeat (apply Forall_cons; [apply (mod_wd 64); lia|]). apply Forall_nil. Qed.
Definition stripes64_n (m : list Z) (n : Z) (accs : list Z) := fold_left (fun a i => X64.stripe a (seg m (32 * i) (32 * i + 32))) (upto n) accs.
Lemma stripes64_acc m n accs : acc4 64 accs -> acc4 64 (stripes64_n m n accs).
Proof. intros H. unfold stripes64_n. apply (fold_upto_inv (acc4 64)); trivial. intros i a Hi [L _]. apply stripe64_acc; exact L. Qed.

Section Word64.
Context (m m' : list Z) (n k : Z) (j : nat).
Hypothesis Hj : (j < 4)%nat.
Hypothesis Hk : 0 <= k < n.
Let lane (m : list Z) i q := le_val (zslice (seg m (32 * i) (32 * i + 32)) (8 * Z.of_nat q) 8).
Hypothesis Same : forall i q, 0 <= i < n -> (q < 4)%nat -> (i <> k \/ q <> j) -> lane m i q = lane m' i q.
Hypothesis Diff : lane m k j <> lane m' k j.
Hypothesis Wm : forall i q, 0 <= i < n -> (q < 4)%nat -> wd 64 (lane m i q) /\ wd 64 (lane m' i q).
Lemma stripes64_before i accs : acc4 64 accs -> 0 <= i <= k -> stripes64_n m i accs = stripes64_n m' i accs.
Proof.
  intros A [H0 Hi]. revert i H0 Hi. apply (natlike_ind (fun i => i <= k -> stripes64_n m i accs = stripes64_n m' i accs)); [reflexivity|].
  intros i H0 IH Hi. change (Z.succ i) with (i + 1) in *. unfold stripes64_n in *. rewrite !fold_upto_S by lia. rewrite IH by lia.
  fold (stripes64_n m' i accs). pose proof (stripes64_acc m' i accs A) as A'. destruct A' as [L _].
  apply list4_nth; try apply stripe64_acc, L. intros q Hq. rewrite !stripe64_nth by trivial. f_equal. apply Same; trivial; lia.
Qed.
Lemma stripes64_after i accs : acc4 64 accs -> k < i <= n -> dif 64 j (stripes64_n m i accs) (stripes64_n m' i accs).
Proof.
  intros A [H0 Hi]. replace i with (k + 1 + (i - k - 1)) by lia. assert (Hp : 0 <= i - k - 1) by lia. assert (Hq : k + 1 + (i - k - 1) <= n) by lia.
  set (p := i - k - 1) in *. clearbody p. clear H0 Hi i. revert Hq. revert p Hp.
  apply (natlike_ind (fun p => k + 1 + p <= n -> dif 64 j (stripes64_n m (k + 1 + p) accs) (stripes64_n m' (k + 1 + p) accs))).
  - intros _. rewrite Z.add_0_r. unfold stripes64_n. rewrite !fold_upto_S by lia.
    fold (stripes64_n m k accs) (stripes64_n m' k accs). rewrite (stripes64_before k) by (trivial; lia).
    pose proof (stripes64_acc m' k accs A) as A'. destruct A' as [L F].
    split; [apply stripe64_acc, L|]. split; [apply stripe64_acc, L|]. split.
    + intros q Hq Nq. rewrite !stripe64_nth by trivial. f_equal. apply Same; trivial; lia.
    + rewrite !stripe64_nth by trivial. intros E. apply Diff. destruct (Wm k j); trivial. apply round64_inj_v in E; trivial.
  - intros p Hp IH Hq. change (Z.succ p) with (p + 1) in *. rewrite Z.add_assoc in *. unfold stripes64_n in *. rewrite !(fold_upto_S _ _ (k + 1 + p)) by lia.
    destruct IH as (A1 & A2 & S1 & S2); [lia|].
    split; [apply stripe64_acc, A1|]. split; [apply stripe64_acc, A2|]. split.
    + intros q Hq' Nq. rewrite !stripe64_nth by (trivial; apply A1 || apply A2). rewrite S1 by assumption. f_equal. apply Same; trivial; lia.
    + rewrite !stripe64_nth by (trivial; apply A1 || apply A2). intros E. apply S2.
      change (le_val (zslice (seg m (32 * (k + 1 + p)) (32 * (k + 1 + p) + 32)) (8 * Z.of_nat j) 8)) with (lane m (k + 1 + p) j) in E.
      change (le_val (zslice (seg m' (32 * (k + 1 + p)) (32 * (k + 1 + p) + 32)) (8 * Z.of_nat j) 8)) with (lane m' (k + 1 + p) j) in E.
      rewrite (Same (k + 1 + p) j) in E by (trivial; lia).
      apply round64_inj_a in E; trivial; apply acc4_nth; trivial; lia.
Qed.
End Word64.

Lemma converge64_wd a : wd 64 (X64.converge a).
Proof. unfold X64.converge. destruct a as [|? [|? [|? [|? [|]]]]]; try (split; reflexivity); try (split; [lia|reflexivity]). cbn [fold_left]. apply (mod_wd 64); lia. Qed.
Section Hash64.
Context (a w w' b : list Z) (seed k : Z).
Hypothesis La : zlen a = 8 * k.
Hypothesis Lw : zlen w = 8.
Hypothesis Lw' : zlen w' = 8.
Hypothesis Bm : bytes_ok (a ++ w ++ b).
Hypothesis Bm' : bytes_ok (a ++ w' ++ b).
Hypothesis N : w <> w'.
Let L := zlen (a ++ w ++ b).
Hypothesis In : zlen a < 32 * (L / 32).
Lemma stripes64_word : dif 64 (Z.to_nat (k mod 4)) (X64.stripes (a ++ w ++ b) (X64.init seed)) (X64.stripes (a ++ w' ++ b) (X64.init seed)).
Proof.
  assert (EL : zlen (a ++ w' ++ b) = L) by (unfold L; rewrite !zlen_app; lia).
  pose proof (zlen_nonneg a). pose proof (zlen_nonneg b). assert (HL : L = 8 * k + 8 + zlen b) by (unfold L; rewrite !zlen_app; lia).
  assert (Hq : 32 * (L / 32) <= L < 32 * (L / 32) + 32) by dlia.
  assert (Ne : le_val w <> le_val w').
  { intros E. apply N. pose proof Bm as Q. pose proof Bm' as Q'. unfold bytes_ok in Q, Q'. rewrite !Forall_app in Q, Q'. apply le_val_inj; try tauto. lia. }
  set (kk := k / 4). set (j := Z.to_nat (k mod 4)).
  assert (Hj : (j < 4)%nat) by (unfold j; pose proof (Z.mod_pos_bound k 4); lia).
  assert (Hk : 32 * kk + 8 * Z.of_nat j = 8 * k) by (unfold kk, j; rewrite Z2Nat.id by (apply Z.mod_pos_bound; lia); dlia).
  assert (Hkk : 0 <= kk < L / 32) by (unfold kk in *; dlia). clearbody kk j.
  assert (LN : forall mm i p, zlen mm = L -> 0 <= i < L / 32 -> (p < 4)%nat ->
    zslice (seg mm (32 * i) (32 * i + 32)) (8 * Z.of_nat p) 8 = zslice mm (32 * i + 8 * Z.of_nat p) 8).
  { intros mm i p Hm Hi Hp. rewrite seg_zslice, zslice_zslice by lia. reflexivity. }
  unfold X64.stripes. change (len (a ++ w ++ b)) with L. change (len (a ++ w' ++ b)) with (zlen (a ++ w' ++ b)). rewrite EL.
  fold (stripes64_n (a ++ w ++ b) (L / 32) (X64.init seed)). fold (stripes64_n (a ++ w' ++ b) (L / 32) (X64.init seed)).
  refine (stripes64_after (a ++ w ++ b) (a ++ w' ++ b) (L / 32) kk j Hj Hkk _ _ _ (L / 32) _ _ _).
  + intros i p Hi Hp Hne. rewrite !LN by (trivial; lia). f_equal. apply zslice_outside; lia.
  + rewrite !LN by (trivial; lia). rewrite Hk, <- La. rewrite <- Lw at 1. rewrite zslice_inside. rewrite <- Lw' at 1. rewrite zslice_inside. exact Ne.
  + intros i p Hi Hp. split; apply (le_wd 8); try (apply bytes_ok_zslice, bytes_ok_zslice; trivial); rewrite LN, zlen_zslice by (trivial; lia); lia.
  + apply init64_acc.
  + lia.
Qed.
Lemma hash64_merged : X64.hash (a ++ w ++ b) seed = X64.hash (a ++ w' ++ b) seed <->
  X64.converge (X64.stripes (a ++ w ++ b) (X64.init seed)) = X64.converge (X64.stripes (a ++ w' ++ b) (X64.init seed)).
Proof.
  assert (EL : zlen (a ++ w' ++ b) = L) by (unfold L; rewrite !zlen_app; lia).
  pose proof (zlen_nonneg a). pose proof (zlen_nonneg b). assert (HL : L = 8 * k + 8 + zlen b) by (unfold L; rewrite !zlen_app; lia).
  assert (Hq : 32 * (L / 32) <= L < 32 * (L / 32) + 32) by dlia.
  rewrite !P_Inj64.hash64_unfold, EL. fold L. replace (L <? 32) with false by lia.
  assert (R : zslice (a ++ w ++ b) (L / 32 * 32) (L - L / 32 * 32) = zslice (a ++ w' ++ b) (L / 32 * 32) (L - L / 32 * 32)) by (apply zslice_outside; lia).
  rewrite R. split; [|intros ->; reflexivity]. intros E.
  apply aval64_inj in E; try (apply tail64_wd; [apply bytes_ok_zslice; trivial|apply mod_wd; lia]).
  apply tail64_inj in E; try (apply bytes_ok_zslice; trivial); try (apply mod_wd; lia).
  apply (add_inj 64) in E; try apply converge64_wd; trivial. lia.
Qed.
End Hash64.
