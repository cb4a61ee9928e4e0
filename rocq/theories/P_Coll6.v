(** Proofs about the jobs of the collision tester and its number reader. *)
From Coq Require Import Permutation Sorted.
From Verif Require Import Base Mem P_Base P_Util SpecColl M_Coll P_Coll1 P_Coll2 P_Coll3 P_Coll4 P_Coll5.
Import Coll.

(** ** the hashes of the threads together are all hashes *)
Definition part (m t : Z) (x : Z * Z) : bool := Z.land (fst x) m =? t.
Fixpoint sum_parts (m : Z) (n : nat) (l : list (Z * Z)) : Z := match n with O => 0 | S n => sum_parts m n l + dups (filter (part m (Z.of_nat n)) l) end.
Lemma filter_filter {A} (f g : A -> bool) l : filter f (filter g l) = filter (fun x => g x && f x) l.
Proof. induction l as [|x l IH]; [reflexivity|]. cbn [filter]. destruct (g x); cbn [filter andb]; rewrite IH; reflexivity. Qed.
Lemma sum_parts_ok m n l : (forall x, 0 <= Z.land x m) -> sum_parts m n l = dups (filter (fun x => Z.land (fst x) m <? Z.of_nat n) l).
Proof.
  intros M. induction n as [|n IH].
  - cbn [sum_parts]. replace (filter (fun x : Z * Z => Z.land (fst x) m <? Z.of_nat 0) l) with (@nil (Z * Z)); [reflexivity|].
    symmetry. induction l as [|x l IH]; [reflexivity|]. cbn [filter]. replace (Z.land (fst x) m <? Z.of_nat 0) with false; [exact IH|]. specialize (M (fst x)). lia.
  - cbn [sum_parts]. rewrite IH. rewrite (dups_split (fun x => Z.land (fst x) m <? Z.of_nat n) (filter (fun x => Z.land (fst x) m <? Z.of_nat (S n)) l)).
    rewrite !filter_filter. f_equal; f_equal; apply filter_ext; intros x.
    + lia.
    + unfold part. lia.
Qed.
Lemma sum_parts_all k l : 0 <= k -> sum_parts (2 ^ k - 1) (Z.to_nat (2 ^ k)) l = dups l.
Proof.
  intros K. assert (P : 0 < 2 ^ k) by (apply Z.pow_pos_nonneg; lia).
  assert (LA : forall x, Z.land x (2 ^ k - 1) = x mod 2 ^ k) by (intros x; rewrite Z.sub_1_r, <- Z.ones_equiv; apply Z.land_ones; exact K).
  assert (MB : forall x, 0 <= x mod 2 ^ k < 2 ^ k) by (intros x; apply Z.mod_pos_bound; exact P).
  rewrite sum_parts_ok by (intros x; rewrite LA; apply MB). f_equal. induction l as [|x l IH]; [reflexivity|]. cbn [filter].
  rewrite LA, Z2Nat.id by lia. replace (fst x mod 2 ^ k <? 2 ^ k) with true by (specialize (MB (fst x)); lia). f_equal. rewrite Z2Nat.id in IH by lia. exact IH.
Qed.
Lemma dups_bound l : 0 <= dups l <= zlen l.
Proof.
  unfold dups. pose proof (zlen_nonneg (nodup pair_dec l)). assert (zlen (nodup pair_dec l) <= zlen l); [|lia].
  clear. induction l as [|x l IH]; [reflexivity|]. cbn [nodup]. destruct (in_dec pair_dec x l); rewrite ?zlen_cons; lia.
Qed.
Lemma keys_filter bits p l : map (key bits) (filter (selected p) l) = filter (part (p_mask p) (p_maskSelector p)) (map (key bits) l).
Proof.
  assert (K : forall h, fst (key bits h) = fst h) by (intros h; unfold key; destruct (bits =? 128); reflexivity).
  induction l as [|x l IH]; [reflexivity|]. cbn [map filter]. unfold selected at 1, part at 1. rewrite K. destruct (_ =? _); cbn [map]; rewrite IH; reflexivity.
Qed.

Definition first_sample (o : opts) (base : list Z) : Prop :=
  zlen base = o_sampleSize o /\ bytes_ok base /\ forall n, 0 <= n < o_sampleSize o -> nth (Z.to_nat n) base 0 = seeded (o_prngSeed o) n.
Lemma first_unique o b b' : first_sample o b -> first_sample o b' -> b = b'.
Proof.
  intros (L & _ & A) (L' & _ & A'). apply nth_ext with (d := 0) (d' := 0); [unfold zlen in *; lia|]. intros n Hn.
  specialize (A (Z.of_nat n)). specialize (A' (Z.of_nat n)). rewrite Nat2Z.id in *. unfold zlen in *. rewrite A, A' by lia. reflexivity.
Qed.

Section Jobs.
Context (c : cfg) (junk junkIdx : list Z) (strict : bool) (hfunction : list Z -> res (Z * Z)) (H : list Z -> Z * Z) (bits : Z) (sort : list (Z * Z) -> list (Z * Z)) (le : Z * Z -> Z * Z -> Prop).
Context (o : opts).
Hypothesis C : cfg_ok c.
Hypothesis LJ : zlen junk = o_sampleSize o.
Hypothesis SZ : o_sampleSize o * 8 < 2 ^ szbits c.
Hypothesis HF : forall b, zlen b = o_sampleSize o -> bytes_ok b -> hfunction b = OK (H b).
Hypothesis NBH : 0 < o_totalH o < 2 ^ 58.
Hypothesis AS : forall a b, le a b -> le b a -> a = b.
Hypothesis SORT : forall l, Permutation l (sort l) /\ StronglySorted le (sort l).
(** all the keys of a run *)
Definition all_keys (base : list Z) : list (Z * Z) := map (key bits) (map H (samples base (Z.to_nat (o_totalH o)))).
Lemma all_keys_len base : zlen (all_keys base) = Z.of_nat (Z.to_nat (o_totalH o)).
Proof. unfold all_keys, samples, zlen. rewrite !map_length, seq_length. reflexivity. Qed.

Lemma one_job mask sel fl d r : fl <> 0 -> search_collisions c junk junkIdx strict hfunction bits sort (Params (o_totalH o) mask sel (o_sampleSize o) (o_prngSeed o) fl d) = OK (Some r) ->
  exists base, first_sample o base /\ (2 <= zlen base /\ (Z.to_nat (o_totalH o) < length (upto 14 (8 * zlen base)))%nat) /\ r = dups (filter (part mask sel) (all_keys base)).
Proof.
  intros NZ E. destruct (search_right c junk junkIdx strict hfunction H bits sort le (Params (o_totalH o) mask sel (o_sampleSize o) (o_prngSeed o) fl d) C LJ SZ HF NBH AS SORT r NZ E) as (base & I & S2 & LU & R).
  exists base. split; [exact I|]. split; [split; assumption|]. rewrite R. unfold hashes. rewrite keys_filter. reflexivity.
Qed.
Lemma gather_ok base mask fl d n : fl <> 0 -> 0 <= mask -> first_sample o base -> forall a r,
  gather c junk junkIdx strict hfunction bits sort (map (fun t => Params (o_totalH o) mask (Z.of_nat t) (o_sampleSize o) (o_prngSeed o) fl d) (seq a n)) (sum_parts mask a (all_keys base)) = OK (Some r) ->
  r = sum_parts mask (a + n) (all_keys base).
Proof.
  intros NZ M F. induction n as [|n IH]; intros a r E.
  - cbn in E. rewrite Nat.add_0_r. congruence.
  - cbn [seq map gather] in E.
    destruct (search_collisions _ _ _ _ _ _ _ _) as [[r0|]| |] eqn:ES in E; cbn [bind] in E; try discriminate.
    destruct (one_job _ _ _ _ _ NZ ES) as (base' & F' & _ & R0). rewrite (first_unique _ _ _ F' F) in R0.
    assert (AE : add64 (sum_parts mask a (all_keys base)) r0 = sum_parts mask (S a) (all_keys base)).
    { assert (Q : sum_parts mask (S a) (all_keys base) = sum_parts mask a (all_keys base) + r0) by (cbn [sum_parts]; rewrite R0; reflexivity). unfold add64, u64. rewrite <- Q.
      apply Z.mod_small. rewrite sum_parts_ok by (intros x; apply Z.land_nonneg; right; exact M).
      match goal with |- 0 <= dups (filter ?f ?l) < _ => pose proof (dups_bound (filter f l)) as DB; pose proof (filter_split f l) as FS end. rewrite all_keys_len in FS.
      match type of FS with _ = _ + zlen ?x => pose proof (zlen_nonneg x) end. change M64 with (2 ^ 64). lia. }
    rewrite AE in E. replace (a + S n)%nat with (S a + n)%nat by lia. apply IH. exact E.
Qed.
Lemma gather_first l acc r : gather c junk junkIdx strict hfunction bits sort l acc = OK (Some r) ->
  forall p, In p l -> exists q, search_collisions c junk junkIdx strict hfunction bits sort p = OK (Some q).
Proof.
  revert acc. induction l as [|x l IH]; intros acc E p I; [contradiction|]. cbn [gather] in E.
  destruct (search_collisions c junk junkIdx strict hfunction bits sort x) as [[r0|]| |] eqn:ES; cbn [bind] in E; try discriminate.
  destruct I as [<-|I]; [exists r0; exact ES|]. exact (IH _ E p I).
Qed.
Lemma highest_pos v b : highestBitSet v = OK b -> 0 <= b.
Proof.
  unfold highestBitSet. destruct (negb (v =? 0)); cbn [assert_ bind]; [|discriminate].
  destruct (while_ _ _ _ _) as [[v' b']| |] eqn:E; cbn [bind]; try discriminate. intros Q. injection Q as <-.
  assert (G : forall f v b r, 0 <= b -> while_ f (fun '(v, _) => negb (shr v 1 =? 0)) (fun '(v, bitId) => OK (shr v 1, bitId + 1)) (v, b) = OK r -> 0 <= snd r).
  { clear. induction f as [|f IH]; intros v b r B E; cbn [while_] in E; destruct (negb (shr v 1 =? 0)); try discriminate; try (injection E as <-; exact B).
    cbn [bind] in E. apply (IH (shr v 1) (b + 1)); [lia|exact E]. }
  exact (G _ _ _ _ (Z.le_refl 0) E).
Qed.
(** what the tool reports is the number of hashes minus the number of distinct hashes *)
Lemma found_right r : found c junk junkIdx strict hfunction bits sort o = OK (Some r) ->
  exists base, first_sample o base /\ (2 <= zlen base /\ (Z.to_nat (o_totalH o) < length (upto 14 (8 * zlen base)))%nat) /\ r = dups (all_keys base).
Proof.
  unfold found. destruct (jobs o) as [[l|]| |] eqn:EJ; cbn [bind]; try discriminate. intros E. unfold jobs in EJ.
  destruct (if o_bflog o =? 0 then let! b := highestBitSet (o_totalH o) in OK (b + 1) else OK (o_bflog o)) as [bl| |] eqn:EB; cbn [bind] in EJ; try discriminate.
  assert (BZ : bl <> 0).
  { revert EB. destruct (Z.eqb_spec (o_bflog o) 0) as [|NB]; [|intros EB; injection EB as <-; exact NB]. intros EB. destruct (highestBitSet (o_totalH o)) as [b| |] eqn:EH; cbn [bind] in EB; try discriminate.
    apply highest_pos in EH. injection EB as <-. lia. }
  clear EB. set (bl' := if negb (o_filter o) then -1 else bl) in EJ. assert (BZ' : bl' <> 0) by (unfold bl'; destruct (negb (o_filter o)); lia). clearbody bl'.
  destruct ((0 <=? o_threadlog o) && (o_threadlog o <? 31)) eqn:ET; cbn [assert_ bind] in EJ; [|discriminate].
  assert (P2 : 0 < 2 ^ o_threadlog o) by (apply Z.pow_pos_nonneg; lia).
  assert (K : exists fl d, fl <> 0 /\ l = map (fun t => Params (o_totalH o) (2 ^ o_threadlog o - 1) (Z.of_nat t) (o_sampleSize o) (o_prngSeed o) fl d) (seq 0 (Z.to_nat (2 ^ o_threadlog o)))).
  { revert EJ. destruct (Z.eqb_spec (2 ^ o_threadlog o) 1) as [E1|E1]; intros EJ.
    - exists bl', true. split; [exact BZ'|]. rewrite E1. injection EJ as <-. reflexivity.
    - destruct (30 <=? o_threadlog o); [discriminate|]. destruct (shr (o_totalH o) 16 <? 2 ^ o_threadlog o); [discriminate|]. destruct ((0 <? bl') && (bl' - 10 <? o_threadlog o)) eqn:EQ; [discriminate|].
      exists (bl' - o_threadlog o), false. split; [lia|]. replace (bl' =? 0) with false in EJ by lia. destruct (- 2 ^ 31 <=? bl' - o_threadlog o); cbn [assert_ bind] in EJ; [|discriminate]. injection EJ as <-. reflexivity. }
  destruct K as (fl & d & NZ & ->).
  destruct (gather_first _ _ _ E (Params (o_totalH o) (2 ^ o_threadlog o - 1) (Z.of_nat 0) (o_sampleSize o) (o_prngSeed o) fl d)) as (q & EQ).
  { apply in_map_iff. exists 0%nat. split; [reflexivity|]. apply in_seq. lia. }
  destruct (one_job _ _ _ _ _ NZ EQ) as (base & F & LU & _). exists base. split; [exact F|]. split; [exact LU|].
  rewrite <- (sum_parts_all (o_threadlog o) (all_keys base)) by lia. apply (gather_ok base (2 ^ o_threadlog o - 1) fl d (Z.to_nat (2 ^ o_threadlog o)) NZ ltac:(lia) F 0). exact E.
Qed.
End Jobs.

(** ** the number reader *)
Lemma decimal_le ds : forall acc, 0 <= acc -> Forall (fun d => 0 <= d <= 9) ds -> acc <= decimal acc ds.
Proof. induction ds as [|d ds IH]; intros acc A F; [cbn; lia|]. inversion F; subst. cbn [decimal]. specialize (IH (10 * acc + d) ltac:(lia) H2). lia. Qed.
Lemma readDigits_spec ds : forall acc rest, 0 <= acc < 2 ^ 64 -> Forall (fun d => 0 <= d <= 9) ds -> isDigit (ch rest) = false ->
  readDigits (map (fun d => 48 + d) ds ++ rest) acc = OK (decimal acc ds, rest) /\ 0 <= decimal acc ds < 2 ^ 64 \/
  readDigits (map (fun d => 48 + d) ds ++ rest) acc = UB /\ 18446744073709551600 <= decimal acc ds.
Proof.
  induction ds as [|d ds IH]; intros acc rest A F R.
  - left. cbn [map app decimal]. split; [|exact A]. destruct rest as [|x rest]; [reflexivity|]. cbn [readDigits ch] in *. rewrite R. reflexivity.
  - inversion F as [|? ? D F']; subst. cbn [map app readDigits decimal]. replace (isDigit (48 + d)) with true by (unfold isDigit; lia).
    change ((2 ^ 64 - 1) / 10 - 1) with 1844674407370955160.
    destruct (Z.ltb_spec acc 1844674407370955160) as [LT|GE]; cbn [assert_ bind].
    + assert (E : add64 (mul64 acc 10) (48 + d - 48) = 10 * acc + d).
      { unfold mul64, add64, u64. change M64 with (2 ^ 64). rewrite (Z.mod_small (acc * 10)) by lia. rewrite Z.mod_small by lia. lia. }
      rewrite E. apply IH; trivial. lia.
    + right. split; [reflexivity|]. pose proof (decimal_le ds (10 * acc + d) ltac:(lia) F'). lia.
Qed.
Lemma shl10_spec x : 0 <= x < 2 ^ 64 -> shl10 x = OK (1024 * x) /\ 0 <= 1024 * x < 2 ^ 64 \/ shl10 x = UB /\ 2 ^ 54 - 1 <= x.
Proof.
  intros X. unfold shl10. change (shr (2 ^ 64 - 1) 10) with (2 ^ 54 - 1). destruct (Z.ltb_spec x (2 ^ 54 - 1)); cbn [assert_ bind].
  - left. split; [|lia]. f_equal. unfold shl64. rewrite Z.shiftl_mul_pow2 by lia. unfold u64. change M64 with (2 ^ 64). rewrite Z.mod_small by lia. lia.
  - right. split; [reflexivity|lia].
Qed.
Lemma read_spec ds sfx k rest : Forall (fun d => 0 <= d <= 9) ds -> In (sfx, k) suffixes -> isDigit (ch rest) = false -> ~ In (ch rest) [75; 77; 71; 105; 66] ->
  readU64FromChar (map (fun d => 48 + d) ds ++ sfx ++ rest) = OK (1024 ^ k * decimal 0 ds, rest) /\ 0 <= 1024 ^ k * decimal 0 ds < 2 ^ 64 \/
  readU64FromChar (map (fun d => 48 + d) ds ++ sfx ++ rest) = UB /\ 2 ^ 64 - 1024 <= 1024 ^ k * decimal 0 ds.
Proof.
  intros F I R NR.
  assert (N75 : (ch rest =? 75) = false) by (apply Z.eqb_neq; intros E; apply NR; rewrite E; cbn; tauto).
  assert (N77 : (ch rest =? 77) = false) by (apply Z.eqb_neq; intros E; apply NR; rewrite E; cbn; tauto).
  assert (N71 : (ch rest =? 71) = false) by (apply Z.eqb_neq; intros E; apply NR; rewrite E; cbn; tauto).
  assert (N105 : (ch rest =? 105) = false) by (apply Z.eqb_neq; intros E; apply NR; rewrite E; cbn; tauto).
  assert (N66 : (ch rest =? 66) = false) by (apply Z.eqb_neq; intros E; apply NR; rewrite E; cbn; tauto).
  assert (R' : isDigit (ch (sfx ++ rest)) = false).
  { cbn in I. repeat (destruct I as [I|I]; [injection I as <- <-; first [exact R|reflexivity]|]). contradiction. }
  unfold readU64FromChar. destruct (readDigits_spec ds 0 (sfx ++ rest) ltac:(lia) F R') as [(-> & B)|(-> & B)]; cbn [bind].
  2:{ right. split; [reflexivity|]. assert (1 <= 1024 ^ k) by (cbn in I; repeat (destruct I as [I|I]; [injection I as <- <-; cbn; lia|]); contradiction). nia. }
  set (v := decimal 0 ds) in *. clearbody v.
  assert (K1 : shl10 v = OK (1024 * v) /\ 0 <= 1024 * v < 2 ^ 64 \/ shl10 v = UB /\ 2 ^ 54 - 1 <= v) by (apply shl10_spec; exact B).
  cbn in I. repeat (destruct I as [I|I]; [injection I as <- <-; cbn [app ch tl Z.eqb Pos.eqb orb]; rewrite ?N75, ?N77, ?N71, ?N105, ?N66; cbn [orb]|]); [..|contradiction].
  all: try (left; split; [do 2 f_equal; lia|lia]).
  all: destruct K1 as [(-> & B1)|(-> & B1)]; cbn [bind]; [|right; split; [reflexivity|lia]].
  all: rewrite ?N105, ?N66; try (left; split; [do 2 f_equal; lia|lia]).
  all: destruct (shl10_spec _ B1) as [(-> & B2)|(-> & B2)]; cbn [bind]; [|right; split; [reflexivity|lia]].
  all: rewrite ?N105, ?N66; try (left; split; [do 2 f_equal; lia|lia]).
  all: destruct (shl10_spec _ B2) as [(-> & B3)|(-> & B3)]; cbn [bind]; [|right; split; [reflexivity|lia]].
  all: rewrite ?N105, ?N66; try (left; split; [do 2 f_equal; lia|lia]).
Qed.
