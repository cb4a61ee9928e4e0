(** Proofs about the sparse sample generator: what update_sampleFactory does to the buffer. *)
From Coq Require Import Permutation.
From Verif Require Import Base Mem P_Base SpecColl M_Coll P_Coll1.
Import Coll.

(** ** arrays *)
Lemma upd_length a i v : length (upd a i v) = length a.
Proof. revert i. induction a as [|x a IH]; intros [|i]; cbn; congruence. Qed.
Lemma zlen_upd a i v : zlen (upd a i v) = zlen a.
Proof. unfold zlen. rewrite upd_length. reflexivity. Qed.
Lemma nth_upd a i v j d : (i < length a)%nat -> nth j (upd a i v) d = if Nat.eqb i j then v else nth j a d.
Proof.
  revert i j. induction a as [|x a IH]; intros [|i] [|j] L; cbn in *; trivial; try lia. apply IH. lia.
Qed.
Lemma upd_upd a i v w : upd (upd a i v) i w = upd a i w.
Proof. revert i. induction a as [|x a IH]; intros [|i]; cbn; congruence. Qed.
Lemma upd_same a i d : upd a i (nth i a d) = a.
Proof. revert i. induction a as [|x a IH]; intros [|i]; cbn; congruence. Qed.
Lemma rd_ok a i : 0 <= i < zlen a -> rd a i = OK (nth (Z.to_nat i) a 0).
Proof. intros H. unfold rd. replace ((0 <=? i) && (i <? zlen a)) with true by lia. reflexivity. Qed.
Lemma wr_ok a i v : 0 <= i < zlen a -> wr a i v = OK (upd a (Z.to_nat i) v).
Proof. intros H. unfold wr. replace ((0 <=? i) && (i <? zlen a)) with true by lia. reflexivity. Qed.
Lemma bytes_nth b i : bytes_ok b -> byte_ok (nth i b 0).
Proof.
  intros B. revert i. induction B as [|x b H B IH]; intros [|i]; cbn [nth]; trivial; try (unfold byte_ok; lia).
Qed.
Lemma bytes_upd b i v : bytes_ok b -> byte_ok v -> bytes_ok (upd b i v).
Proof. intros B H. revert i. induction B as [|x b Hx B IH]; intros [|i]; cbn [upd]; constructor; trivial. apply IH. Qed.

(** ** flipping bits: bit [i] of the sample is bit [i mod 8] of byte [i / 8] *)
Definition flip1 (i : Z) (b : list Z) : list Z := upd b (Z.to_nat (i / 8)) (Z.lxor (nth (Z.to_nat (i / 8)) b 0) (2 ^ (i mod 8))).
Definition flips (b : list Z) (c : list Z) : list Z := fold_right flip1 b c.
Lemma byte_lxor x k : byte_ok x -> 0 <= k < 8 -> byte_ok (Z.lxor x (2 ^ k)).
Proof.
  unfold byte_ok. intros H K. change 256 with (2 ^ 8). apply lxor_bound; [lia|exact H|].
  split; [lia|]. apply Z.pow_lt_mono_r; lia.
Qed.
Lemma flip1_len i b : zlen (flip1 i b) = zlen b.
Proof. apply zlen_upd. Qed.
Lemma flip1_bytes i b : bytes_ok b -> bytes_ok (flip1 i b).
Proof. intros B. apply bytes_upd; trivial. apply byte_lxor; [apply bytes_nth; exact B|apply Z.mod_pos_bound; lia]. Qed.
Lemma idx_range i (b : list Z) : 0 <= i < 8 * zlen b -> 0 <= i / 8 < zlen b /\ (Z.to_nat (i / 8) < length b)%nat.
Proof.
  intros H. assert (0 <= i / 8 < zlen b) by (split; [apply Z.div_pos; lia|apply Z.div_lt_upper_bound; lia]). split; [assumption|]. unfold zlen in *. lia.
Qed.
Lemma flip1_twice i b : 0 <= i < 8 * zlen b -> flip1 i (flip1 i b) = b.
Proof.
  intros H. destruct (idx_range i b H) as [_ L]. unfold flip1. rewrite upd_upd, nth_upd, Nat.eqb_refl by exact L.
  rewrite Z.lxor_assoc, Z.lxor_nilpotent, Z.lxor_0_r. apply upd_same.
Qed.
Lemma bit_flip1 i j b : 0 <= i < 8 * zlen b -> 0 <= j -> bit j (flip1 i b) = xorb (bit j b) (i =? j).
Proof.
  intros H J. destruct (idx_range i b H) as [D L]. unfold bit, flip1. rewrite nth_upd by exact L.
  destruct (Nat.eqb_spec (Z.to_nat (i / 8)) (Z.to_nat (j / 8))) as [E|E].
  - assert (ED : i / 8 = j / 8) by (pose proof (Z.div_pos j 8); lia). rewrite ED, Z.lxor_spec. f_equal.
    pose proof (Z.div_mod i 8). pose proof (Z.div_mod j 8). pose proof (Z.mod_pos_bound i 8). pose proof (Z.mod_pos_bound j 8).
    rewrite Z.pow2_bits_eqb by lia. apply eq_true_iff_eq. rewrite !Z.eqb_eq. lia.
  - replace (i =? j) with false; [symmetry; apply xorb_false_r|]. symmetry. apply Z.eqb_neq. congruence.
Qed.
Lemma flipbit_ok b i : bytes_ok b -> 0 <= i < 8 * zlen b -> flipbit b i = OK (flip1 i b).
Proof.
  intros B H. destruct (idx_range i b H) as [D L]. unfold flipbit, shr, xor. rewrite (Z.shiftr_div_pow2 i 3) by lia. change (2 ^ 3) with 8.
  rewrite rd_ok by exact D. cbn [bind]. rewrite wr_ok by exact D. f_equal. unfold flip1. f_equal.
  change 7 with (Z.ones 3). rewrite Z.land_ones by lia. change (2 ^ 3) with 8. rewrite Z.shiftl_1_l.
  pose proof (Z.mod_pos_bound i 8 ltac:(lia)). unfold u8.
  rewrite (Z.mod_small (2 ^ (i mod 8))) by (split; [lia|change 256 with (2 ^ 8); apply Z.pow_lt_mono_r; lia]).
  apply Z.mod_small. apply byte_lxor; [apply bytes_nth; exact B|lia].
Qed.
Lemma flips_len b c : zlen (flips b c) = zlen b.
Proof. induction c; cbn [flips fold_right]; [reflexivity|]. rewrite flip1_len. exact IHc. Qed.
Lemma flips_bytes b c : bytes_ok b -> bytes_ok (flips b c).
Proof. intros B. induction c; cbn [flips fold_right]; [exact B|apply flip1_bytes; exact IHc]. Qed.
Lemma bit_flips b c N j : below N c -> N <= 8 * zlen b -> 0 <= j -> bit j (flips b c) = xorb (bit j b) (existsb (Z.eqb j) c).
Proof.
  revert N. induction c as [|x t IH]; intros N B L J; cbn [flips fold_right existsb]; [symmetry; apply xorb_false_r|].
  cbn in B. destruct B as [B1 B2]. fold (flips b t). rewrite bit_flip1 by (rewrite ?flips_len; lia). rewrite (IH x) by (trivial; lia).
  rewrite xorb_assoc. f_equal. rewrite (Z.eqb_sym x j). destruct (Z.eqb_spec j x) as [->|E]; [|apply xorb_false_r].
  replace (existsb (Z.eqb x) t) with false; [reflexivity|]. symmetry. apply not_true_is_false. rewrite existsb_exists. intros (y & I & E).
  apply Z.eqb_eq in E. subst y. pose proof (below_in _ _ _ B2 I). lia.
Qed.
Lemma flips_inj b c d : below (8 * zlen b) c -> below (8 * zlen b) d -> flips b c = flips b d -> c = d.
Proof.
  intros Hc Hd E. apply (below_ext _ _ _ Hc Hd). intros i.
  assert (X : existsb (Z.eqb i) c = existsb (Z.eqb i) d \/ i < 0).
  { destruct (Z.le_gt_cases 0 i) as [J|J]; [left|right; exact J].
    pose proof (bit_flips b c _ i Hc ltac:(lia) J) as E1. pose proof (bit_flips b d _ i Hd ltac:(lia) J) as E2. rewrite E in E1. rewrite E1 in E2.
    destruct (bit i b), (existsb _ c), (existsb _ d); cbn in E2; congruence. }
  destruct X as [X|X].
  - split; intros I.
    + assert (T : existsb (Z.eqb i) c = true) by (apply existsb_exists; exists i; split; [exact I|apply Z.eqb_refl]). rewrite X in T.
      apply existsb_exists in T. destruct T as (y & Iy & Ey). apply Z.eqb_eq in Ey. congruence.
    + assert (T : existsb (Z.eqb i) d = true) by (apply existsb_exists; exists i; split; [exact I|apply Z.eqb_refl]). rewrite <- X in T.
      apply existsb_exists in T. destruct T as (y & Iy & Ey). apply Z.eqb_eq in Ey. congruence.
  - split; intros I; [pose proof (below_in _ _ _ Hc I)|pose proof (below_in _ _ _ Hd I)]; lia.
Qed.

(** ** one update *)
Lemma next_below N c c' : below N c -> next N c = Some c' -> below N c' /\ length c' = length c.
Proof.
  revert N c'. induction c as [|x t IH]; intros N c'; cbn [below next]; [discriminate|]. intros [B1 B2].
  destruct (Z.ltb_spec x (N - 1)) as [L|L].
  - intros E. injection E as <-. cbn [below length]. split; [|reflexivity]. split; [lia|]. apply (below_le x); [lia|exact B2].
  - destruct (next (N - 1) t) as [t'|] eqn:E; [|discriminate]. intros Q. injection Q as <-.
    destruct (IH (N - 1) t') as [H1 H2]; trivial; [apply (below_le x); [lia|exact B2]|]. cbn [below length]. split; [|congruence].
    destruct t' as [|y u]; [cbn; destruct t; [cbn [next] in E; discriminate|discriminate]|]. cbn [top hd]. cbn in H1. split; [lia|]. split; [lia|apply H1].
Qed.
Fixpoint agree (idx c : list Z) : Prop := match c with [] => True | x :: t => nth (length c) idx 0 = x /\ agree idx t end.
Lemma agree_upd idx c j v : (length c < j < length idx)%nat -> agree idx c -> agree (upd idx j v) c.
Proof.
  induction c as [|x t IH]; intros L A; [exact I|]. cbn [agree] in *. destruct A as [A1 A2]. cbn [length] in *. split.
  - rewrite nth_upd by lia. destruct (Nat.eqb_spec j (S (length t))); [lia|exact A1].
  - apply IH; [lia|exact A2].
Qed.
Section Update.
Context (c : cfg) (base : list Z).
Hypothesis BB : bytes_ok base.
Hypothesis SZ : 8 * zlen base < 2 ^ szbits c.
Lemma flip_in cb i : 0 <= i < 8 * zlen base -> flipbit (flips base cb) i = OK (flip1 i (flips base cb)).
Proof. intros H. apply flipbit_ok; [apply flips_bytes; exact BB|rewrite flips_len; exact H]. Qed.
Lemma updateBit_ok cb : forall N idx, (length cb <= 14)%nat -> length idx = 15%nat -> agree idx cb -> below N cb ->
  Z.of_nat (length cb) <= N <= 8 * zlen base ->
  exists idx', length idx' = 15%nat /\
    match next N cb with
    | Some c' => updateBit c (length cb) (flips base cb) idx N = OK (true, flips base c', idx') /\ agree idx' c'
    | None => updateBit c (length cb) (flips base cb) idx N = OK (false, base, idx')
    end.
Proof.
  induction cb as [|x t IH]; intros N idx L LI A B HN.
  - exists idx. split; [exact LI|]. reflexivity.
  - cbn [agree] in A. destruct A as [A1 A2]. cbn [below] in B. destruct B as [B1 B2]. cbn [length] in *.
    assert (LZ : zlen idx = 15) by (unfold zlen; lia). assert (LV : 0 <= Z.of_nat (S (length t)) < zlen idx) by lia.
    assert (LN : Z.to_nat (Z.of_nat (S (length t))) = S (length t)) by lia.
    cbn [updateBit]. rewrite rd_ok by exact LV. rewrite LN, A1. cbn [bind].
    rewrite flip_in by lia. cbn [bind]. cbn [flips fold_right]. fold (flips base t). rewrite flip1_twice by (rewrite flips_len; lia).
    unfold usz. rewrite (Z.mod_small (N - 1)) by lia. cbn [next].
    destruct (Z.ltb_spec x (N - 1)) as [C|C].
    + rewrite (Z.mod_small (x + 1)) by lia. rewrite wr_ok by exact LV. rewrite LN. cbn [bind].
      rewrite rd_ok by (rewrite zlen_upd; exact LV). rewrite LN, nth_upd, Nat.eqb_refl by lia. cbn [bind]. rewrite flip_in by lia. cbn [bind].
      eexists. split; [|split; [reflexivity|]].
      * rewrite upd_length. exact LI.
      * cbn [agree length]. split; [rewrite nth_upd, Nat.eqb_refl by lia; reflexivity|]. apply agree_upd; [lia|exact A2].
    + destruct (IH (N - 1) idx ltac:(lia) LI A2 ltac:(apply (below_le x); [lia|exact B2]) ltac:(lia)) as (idx1 & LI1 & M).
      destruct (next (N - 1) t) as [t'|] eqn:E.
      * destruct M as [M A']. rewrite M. cbn [bind negb].
        destruct (next_below (N - 1) t t' ltac:(apply (below_le x); [lia|exact B2]) E) as [BT LT].
        destruct t' as [|y u]; [destruct t; discriminate|]. cbn [agree] in A'. destruct A' as [A1' A2']. cbn [below] in BT. destruct BT as [BT1 BT2].
        cbn [length] in LT. rewrite rd_ok by (unfold zlen; lia). replace (Z.to_nat (Z.of_nat (S (length t)) - 1)) with (length (y :: u)) by (cbn [length]; lia).
        rewrite A1'. cbn [bind]. rewrite (Z.mod_small (y + 1)) by lia.
        assert (LV1 : 0 <= Z.of_nat (S (length t)) < zlen idx1) by (unfold zlen; lia).
        rewrite wr_ok by exact LV1. rewrite LN. cbn [bind].
        rewrite rd_ok by (rewrite zlen_upd; exact LV1). rewrite LN, nth_upd, Nat.eqb_refl by lia. cbn [bind]. rewrite flip_in by lia. cbn [bind].
        eexists. split; [|split; [reflexivity|]].
        -- rewrite upd_length. exact LI1.
        -- cbn [top hd]. cbn [agree length] in *. rewrite LT. split; [rewrite nth_upd, Nat.eqb_refl by lia; reflexivity|].
           split.
           ++ rewrite LT in A1'. rewrite nth_upd by lia. destruct (Nat.eqb_spec (S (length t)) (length t)); [lia|exact A1'].
           ++ apply agree_upd; [lia|exact A2'].
      * rewrite M. cbn [bind negb]. exists idx1. split; [exact LI1|reflexivity].
Qed.
(** the loop that sets the first combination of a new level *)
Lemma new_level k : forall n idx, length idx = 15%nat -> (n + k <= 14)%nat -> Z.of_nat (n + k) <= 8 * zlen base -> agree idx (first k) ->
  exists idx', length idx' = 15%nat /\ agree idx' (first (n + k)) /\
  for_ n (Z.of_nat k + 1) (fun i '(p, bitIdx) =>
      let! bitIdx := wr bitIdx i (i - 1) in
      let! y := rd bitIdx i in
      let! p := flipbit p y in
      OK (p, bitIdx)) (flips base (first k), idx) = OK (flips base (first (n + k)), idx').
Proof.
  intros n. revert k. induction n as [|n IH]; intros k idx LI L LN A.
  - exists idx. split; [exact LI|]. split; [exact A|reflexivity].
  - cbn [for_]. assert (LV : 0 <= Z.of_nat k + 1 < zlen idx) by (unfold zlen; lia). rewrite wr_ok by exact LV. cbn [bind].
    rewrite rd_ok by (rewrite zlen_upd; exact LV). replace (Z.to_nat (Z.of_nat k + 1)) with (S k) by lia.
    rewrite nth_upd, Nat.eqb_refl by lia. cbn [bind]. replace (Z.of_nat k + 1 - 1) with (Z.of_nat k) by lia. rewrite flip_in by lia. cbn [bind].
    assert (LF : forall j, length (first j) = j) by (induction j; cbn; congruence).
    destruct (IH (S k) (upd idx (S k) (Z.of_nat k))) as (idx' & L' & A' & E').
    + rewrite upd_length. exact LI.
    + lia.
    + lia.
    + cbn [first agree length]. rewrite LF. split; [rewrite nth_upd, Nat.eqb_refl by lia; reflexivity|]. apply agree_upd; [rewrite LF; lia|exact A].
    + exists idx'. replace (S n + k)%nat with (n + S k)%nat by lia. split; [exact L'|]. split; [exact A'|].
      replace (Z.of_nat k + 1 + 1) with (Z.of_nat (S k) + 1) by lia. exact E'.
Qed.
(** the generator holds combination [cb] of the bits of [base] *)
Definition holds (cb : list Z) (sf : sparse) : Prop :=
  f_buffer sf = flips base cb /\ length (f_bitIdx sf) = 15%nat /\ agree (f_bitIdx sf) cb /\ f_level sf = Z.of_nat (length cb) /\
  f_maxBitIdx sf = 8 * zlen base /\ f_size sf = zlen base.
Lemma sparse_update_ok cb c' sf : 14 <= 8 * zlen base -> (length cb <= 14)%nat -> below (8 * zlen base) cb -> holds cb sf ->
  succ 14 (8 * zlen base) cb = Some c' -> exists sf', sparse_update c sf = OK sf' /\ holds c' sf' /\ f_prngSeed sf' = f_prngSeed sf.
Proof.
  intros N14 L B (H1 & H2 & H3 & H4 & H5 & H6) ES. unfold sparse_update. rewrite H1, H4, H5, Nat2Z.id.
  destruct (updateBit_ok cb (8 * zlen base) (f_bitIdx sf) L H2 H3 B ltac:(lia)) as (idx' & LI & M).
  unfold succ in ES. destruct (next (8 * zlen base) cb) as [c1|] eqn:E.
  - injection ES as <-. destruct M as [M A]. rewrite M. cbn [bind]. eexists. split; [reflexivity|]. split; [|reflexivity].
    destruct (next_below _ _ _ B E) as [_ LL]. repeat split; cbn; trivial. congruence.
  - destruct (Nat.ltb_spec (length cb) 14) as [L1|L1]; [|discriminate]. assert (Ec : c' = first (S (length cb))) by congruence. clear ES. subst c'. rewrite M. cbn [bind].
    unfold SPARSE_LEVEL_MAX. replace (Z.of_nat (length cb) + 1 <? 15) with true by lia. cbn [assert_ bind].
    replace (Z.to_nat (Z.of_nat (length cb) + 1)) with (S (length cb)) by lia.
    destruct (new_level 0 (S (length cb)) idx' LI ltac:(lia) ltac:(lia) I) as (idx2 & L2 & A2 & E2).
    rewrite Nat.add_0_r in E2, A2. change (Z.of_nat 0 + 1) with 1 in E2. change (flips base (first 0)) with base in E2. rewrite E2. cbn [bind].
    assert (LF : forall j, length (first j) = j) by (induction j; cbn; congruence).
    eexists. split; [reflexivity|]. split; [|reflexivity]. unfold holds. cbn [f_buffer f_bitIdx f_level f_maxBitIdx f_size].
    rewrite LF. split; [reflexivity|]. split; [exact L2|]. split; [exact A2|]. split; [lia|]. auto.
Qed.
End Update.
