(** Secrets so large that the block length wraps in a size_t (C45): the loop is right while the input fits the wrapped block and reads
    beyond the input otherwise. *)
From Verif Require Import Base Mem M_XXH32 M_XXH64 M_XXH3 M_Kernels M_Long Spec3 P_Base P_Spec P_XXH64 P_X3_Base P_X3_Short
  P_Kernels P_Kernels2 P_X3_Long.

(** ** Reading beyond the end of a block *)
Definition beyond (p : ptr) : Prop := match p with Null => True | Ptr b _ o => zlen b <= o end.
Lemma beyond_padd p k : beyond p -> 0 <= k -> beyond (padd p k).
Proof. destruct p; cbn; lia. Qed.
Lemma load_beyond p n : beyond p -> 1 <= n -> load p n = UB.
Proof. destruct p as [|b a o]; cbn; intros; [reflexivity|]. replace ((0 <=? o) && (0 <=? n) && (o + n <=? zlen b)) with false by (symmetry; apply andb_false_iff; right; lia). reflexivity. Qed.
Lemma vloadu_beyond c n p : beyond p -> (1 <= n)%nat -> vloadu c n p = UB.
Proof. intros B N. unfold vloadu. rewrite load_beyond by (trivial; lia). reflexivity. Qed.
Lemma readLE64_beyond c p : beyond p -> readLE64 c p = UB.
Proof.
  intros B. unfold readLE64, read64, load8. destruct (mem_access c =? 3); [rewrite load_beyond by (trivial; lia); reflexivity|].
  rewrite load_beyond by (trivial; lia). destruct (negb (mem_access c =? 2) || hw_unaligned c || aligned_to p 8); reflexivity.
Qed.
Lemma scalarRound_beyond c adr acc p s lane : beyond p -> 0 <= lane -> scalarRound c adr acc p s lane = UB.
Proof.
  intros B L. unfold scalarRound. destruct (lane <? ACC_NB); [|reflexivity]. destruct (aligned_adr adr (acc_align c)); [|reflexivity]. cbn [assert_ bind].
  rewrite readLE64_beyond by (apply beyond_padd; trivial; lia). reflexivity.
Qed.
Lemma rounds_beyond c d j act o offs v vs p s : beyond p -> (1 <= act)%nat -> 0 <= o -> sve_rounds c d j act (o :: offs) (v :: vs) p s = UB.
Proof. intros B A O. cbn [sve_rounds]. unfold ACCRND, sv_ld1. rewrite vloadu_beyond by (try apply beyond_padd; trivial; lia). reflexivity. Qed.
Lemma shape d : (2 <= d)%nat -> (d = 2 \/ 4 <= d)%nat -> exists act offs, sve_shape d = (act, 0 :: offs) /\ (1 <= act)%nat.
Proof.
  intros D D4. unfold sve_shape, sv_mask. destruct (Nat.leb_spec 8 d); [do 2 eexists; split; [reflexivity|lia]|].
  destruct (Nat.eqb_spec d 2); [replace (2 <=? d)%nat with true by (symmetry; apply Nat.leb_le; lia); do 2 eexists; split; [reflexivity|lia]|].
  replace (4 <=? d)%nat with true by (symmetry; apply Nat.leb_le; lia). do 2 eexists; split; [reflexivity|lia].
Qed.
Lemma acc512_beyond c adr acc p s : cfg_ok c -> beyond p -> accumulate_512 c adr acc p s = UB.
Proof.
  intros C B. assert (P : forall k, 0 <= k -> beyond (padd p k)) by (intros; apply beyond_padd; trivial).
  unfold accumulate_512. pose proof (ok_vec c C) as V. destruct (vec c) as [| | | |l w| |d j]; cbn [vec_ok] in V.
  - unfold accumulate_512_scalar. cbn [for_]. rewrite scalarRound_beyond by (trivial; lia). reflexivity.
  - unfold accumulate_512_sse2. destruct (aligned_adr adr 16); [|reflexivity]. cbn [assert_ bind for_]. rewrite vloadu_beyond by (try apply P; lia). reflexivity.
  - unfold accumulate_512_avx2. destruct (aligned_adr adr 32); [|reflexivity]. cbn [assert_ bind for_]. rewrite vloadu_beyond by (try apply P; lia). reflexivity.
  - unfold accumulate_512_avx512. destruct (aligned_adr adr 64); [|reflexivity]. cbn [assert_ bind]. rewrite vloadu_beyond by (trivial; lia). reflexivity.
  - unfold accumulate_512_neon. destruct (aligned_adr adr 16); [|reflexivity]. cbn [assert_ bind]. destruct V as (_ & [-> | [-> | [-> | ->]]]);
      try (cbn [Nat.sub for_]; rewrite scalarRound_beyond by (trivial; lia); reflexivity).
    cbn [Nat.sub for_ bind]. change (Z.of_nat 8 / 2) with 4. cbn [while_ fst snd]. change (0 + 1 <? 4) with true. cbv iota. unfold neon_round4.
    rewrite vloadu_beyond by (try apply P; lia). reflexivity.
  - unfold accumulate_512_vsx. destruct (aligned_adr adr 16); [|reflexivity]. cbn [assert_ bind for_]. unfold vsx_loadu. rewrite vloadu_beyond by (try apply P; lia). reflexivity.
  - unfold accumulate_512_sve. destruct V as (_ & k & K & D). destruct (shape d) as (act & offs & -> & A); [lia|lia|]. cbn [map]. rewrite rounds_beyond by (trivial; lia). reflexivity.
Qed.
Lemma for_never {S} n : forall i (body : Z -> S -> res S) s k, 0 <= k < Z.of_nat n -> (forall s r, body (i + k) s <> OK r) -> forall r, for_ n i body s <> OK r.
Proof.
  induction n as [|n IH]; intros i body s k K B r; [lia|]. cbn [for_]. destruct (Z.eq_dec k 0) as [->|N].
  - rewrite Z.add_0_r in B. destruct (body i s) as [s'| |] eqn:E; cbn [bind]; try discriminate. exfalso. exact (B s s' E).
  - destruct (body i s) as [s'| |] eqn:E; cbn [bind]; try discriminate. apply (IH (i + 1) body s' (k - 1)); [lia|]. replace (i + 1 + (k - 1)) with (i + k) by lia. exact B.
Qed.
Lemma sve_never c d j act o offs : (1 <= act)%nat -> 0 <= o -> forall fuel v vs p s nb, 1 <= nb -> beyond (padd p (64 * (nb - 1))) -> forall r,
  while_ fuel (fun s : list (list Z) * ptr * ptr * Z => let '(_, _, _, nb) := s in negb (nb =? 0))
    (fun s => let '(vs, xinput, xsecret, nb) := s in
       let! vs := sve_rounds c d j act (o :: offs) vs xinput xsecret in OK (vs, padd xinput (8 * 8), padd xsecret (8 * 1), nb - 1)) (v :: vs, p, s, nb) <> OK r.
Proof.
  intros A O. induction fuel as [|fuel IH]; intros v vs p s nb N B r; cbn [while_]; replace (nb =? 0) with false by lia; cbn [negb]; [discriminate|].
  destruct (Z.eq_dec nb 1) as [->|M].
  - replace (64 * (1 - 1)) with 0 in B by lia. rewrite padd_0 in B. rewrite rounds_beyond by trivial. discriminate.
  - destruct (sve_rounds c d j act (o :: offs) (v :: vs) p s) as [vs'| |] eqn:E; cbn [bind]; try discriminate.
    assert (X : exists v' vs2, vs' = v' :: vs2).
    { cbn [sve_rounds] in E. destruct (ACCRND _ _ _ _ _ _ _ _); cbn [bind] in E; try discriminate. destruct (sve_rounds _ _ _ _ _ _ _ _); cbn [bind] in E; try discriminate. injection E as <-. eauto. }
    destruct X as (v' & vs2 & ->). apply IH; [lia|]. rewrite padd_padd. replace (8 * 8 + 64 * (nb - 1 - 1)) with (64 * (nb - 1)) by lia. exact B.
Qed.
Lemma accumulate_never c adr acc p s n : cfg_ok c -> 1 <= n -> beyond (padd p (64 * (n - 1))) -> forall r, accumulate c adr acc p s n <> OK r.
Proof.
  intros C N B r. assert (T : accumulate_template (accumulate_512 c) adr acc p s n <> OK r).
  { unfold accumulate_template. apply (for_never _ _ _ _ (n - 1)); [lia|]. intros acc' r'. rewrite Z.add_0_l. unfold STRIPE_LEN. rewrite (Z.mul_comm (n - 1)). rewrite acc512_beyond by trivial. discriminate. }
  unfold accumulate. pose proof (ok_vec c C) as V. destruct (vec c) as [| | | |l w| |d j]; try exact T. clear T. cbn [vec_ok] in V. destruct V as (_ & k & K & D).
  unfold accumulate_sve. replace (n =? 0) with false by lia. destruct (shape d) as (act & offs & -> & A); [lia|lia|]. cbn [map]. unfold do_while.
  destruct (Z.eq_dec n 1) as [->|M].
  - replace (64 * (1 - 1)) with 0 in B by lia. rewrite padd_0 in B. rewrite rounds_beyond by (trivial; lia). discriminate.
  - destruct (sve_rounds c d j act (0 :: offs) _ p s) as [vs'| |] eqn:E; cbn [bind]; try discriminate.
    assert (X : exists v' vs2, vs' = v' :: vs2).
    { cbn [sve_rounds] in E. destruct (ACCRND _ _ _ _ _ _ _ _); cbn [bind] in E; try discriminate. destruct (sve_rounds _ _ _ _ _ _ _ _); cbn [bind] in E; try discriminate. injection E as <-. eauto. }
    destruct X as (v' & vs2 & ->).
    match goal with |- (let! x := ?w in _) <> _ => destruct w as [[[[vs3 p3] s3] n3]| |] eqn:W end; cbn [bind]; try discriminate.
    exfalso. revert W. apply sve_never; trivial; [lia|lia|]. rewrite padd_padd. replace (8 * 8 + 64 * (n - 1 - 1)) with (64 * (n - 1)) by lia. exact B.
Qed.

(** ** The long hash *)
Section Huge.
Context (c : cfg) (input secret : ptr) (m s : list Z) (C : cfg_ok c) (PI : points_to input m) (BM : bytes_ok m) (PS : points_to secret s) (BS : bytes_ok s)
  (S1 : 136 <= zlen s) (S2 : zlen s < 2 ^ szbits c) (HL : 240 < zlen m).
Definition wrapped : Z := (64 * ((zlen s - 64) / 8)) mod 2 ^ szbits c.

Lemma huge_loop adr : aligned_adr adr (acc_align c) = true -> 2 ^ szbits c <= 64 * ((zlen s - 64) / 8) -> zlen m <= wrapped ->
  hashLong_internal_loop c adr INIT_ACC input (zlen m) secret (zlen s) (accumulate c) (scrambleAcc c) = OK (X3.large_acc s m).
Proof.
  intros A BIG FIT. pose proof (accumulate_ok c adr C A) as Ha. unfold hashLong_internal_loop, STRIPE_LEN, SECRET_CONSUME_RATE, SECRET_LASTACC_START, SECRET_SIZE_MIN, usz, X3.large_acc.
  change (- (64)) with (-64). change (len m) with (zlen m). change (len s) with (zlen s). unfold X3.stripesPerBlock. change (len s) with (zlen s).
  assert (P : 0 < 2 ^ szbits c) by (destruct (ok_sz c C) as [-> | ->]; reflexivity).
  rewrite (Z.mod_small (zlen s - 64)) by lia. fold wrapped. set (n := (zlen s - 64) / 8) in *.
  assert (N : 8 * n <= zlen s - 64) by (unfold n; apply Z.mul_div_le; lia).
  assert (W : 0 <= wrapped < 2 ^ szbits c) by (unfold wrapped; apply Z.mod_pos_bound; exact P).
  replace (wrapped =? 0) with false by lia. cbn [negb assert_ bind]. replace (136 <=? zlen s) with true by lia. cbn [assert_ bind].
  rewrite (Z.div_small (zlen m - 1) wrapped) by lia. rewrite (Z.div_small (zlen m - 1) (64 * n)) by lia.
  cbn [Z.to_nat for_ bind]. replace (64 <? zlen m) with true by lia. cbn [assert_ bind]. rewrite !Z.mul_0_r, Z.mul_0_l, !Z.sub_0_r.
  assert (Q : 0 <= (zlen m - 1) / 64 <= n) by (split; [apply Z.div_pos; lia|]; apply Z.div_le_upper_bound; lia).
  assert (Q2 : 64 * ((zlen m - 1) / 64) <= zlen m - 1) by (apply Z.mul_div_le; lia). set (ns := (zlen m - 1) / 64) in *. clearbody ns.
  replace (ns <=? zlen s / 8) with true by (symmetry; apply Z.leb_le; apply Z.le_trans with n; [lia|]; apply Z.div_le_lower_bound; lia).
  cbn [assert_ bind]. rewrite <- (padd_0 secret) at 1. change (fold_left _ (upto 0) X3.init_acc) with X3.init_acc.
  rewrite (Ha _ input m secret s) by (trivial; try apply init_wacc; lia). cbn [bind]. rewrite !padd_padd.
  replace (zlen m + -64) with (zlen m - 64) by lia. replace (zlen s + (-64 - 7)) with (zlen s - 71) by lia.
  rewrite (accumulate_512_ok c adr C A _ input m secret s) by (try apply acc_n_wacc; try apply init_wacc; trivial; lia).
  rewrite acc_n_stripes. replace (zlen m - 64 + 64) with (zlen m) by lia. reflexivity.
Qed.
Lemma huge_never adr r : 2 ^ szbits c <= 64 * ((zlen s - 64) / 8) -> wrapped < zlen m -> beyond (padd input (2 ^ szbits c - 64)) ->
  hashLong_internal_loop c adr INIT_ACC input (zlen m) secret (zlen s) (accumulate c) (scrambleAcc c) <> OK r.
Proof.
  intros BIG LONG BEY. unfold hashLong_internal_loop, STRIPE_LEN, SECRET_CONSUME_RATE, usz. 
  assert (P : 0 < 2 ^ szbits c) by (destruct (ok_sz c C) as [-> | ->]; reflexivity).
  rewrite (Z.mod_small (zlen s - 64)) by lia. fold wrapped. set (n := (zlen s - 64) / 8) in *.
  assert (W : 0 <= wrapped < 2 ^ szbits c) by (unfold wrapped; apply Z.mod_pos_bound; exact P).
  destruct (Z.eqb_spec wrapped 0) as [Z0|Z0]; [discriminate|]. cbn [negb assert_ bind]. unfold SECRET_SIZE_MIN. replace (136 <=? zlen s) with true by lia. cbn [assert_ bind].
  assert (NB : 1 <= (zlen m - 1) / wrapped) by (apply Z.div_le_lower_bound; lia).
  match goal with |- (let! x := ?w in _) <> _ => destruct w as [acc| |] eqn:E end; cbn [bind]; try discriminate.
  exfalso. revert E. apply (for_never _ _ _ _ 0); [lia|]. intros acc' r'. rewrite Z.add_0_l, Z.mul_0_l, padd_0.
  destruct (accumulate c adr acc' input secret n) as [x| |] eqn:E; cbn [bind]; try discriminate. exfalso. revert E. apply accumulate_never; [exact C|lia|].
  replace (64 * (n - 1)) with (2 ^ szbits c - 64 + (64 * n - 2 ^ szbits c)) by lia. rewrite <- padd_padd. apply beyond_padd; [exact BEY|lia].
Qed.
Lemma merge_huge acc o start : wacc acc -> 0 <= o -> o + 64 <= zlen s ->
  mergeAccs c acc (padd secret o) start = OK (X3.finalMerge s acc start o).
Proof.
  intros [L W] Ho H.
  destruct (len8 acc L) as (a0 & a1 & a2 & a3 & a4 & a5 & a6 & a7 & ->).
  repeat match goal with H : Forall _ (_ :: _) |- _ => inv H end.
  unfold mergeAccs, X3.finalMerge. rewrite upto4. cbn [for_ Z.add Pos.add Pos.succ fold_left]. unfold mix2Accs. rewrite !padd_padd.
  repeat (rewrite (R8 c secret s) by (trivial; lia); cbn [bind]).
  rewrite !fold64_ok by (apply xor_w64; [assumption|apply rd8_w64; [assumption|lia|lia]]).
  rewrite <- avalanche3_eq. rewrite !modW.
  change (2 * 0) with 0. change (2 * 1) with 2. change (2 * 2) with 4. change (2 * 3) with 6.
  change (16 * 0) with 0. change (16 * 1) with 16. change (16 * 2) with 32. change (16 * 3) with 48.
  reflexivity.
Qed.
Lemma huge64 : 2 ^ szbits c <= 64 * ((zlen s - 64) / 8) -> zlen m <= wrapped ->
  XXH3_64bits_withSecret c input (zlen m) secret (zlen s) = OK (X3.XXH3_64_withSecret s m) /\
  XXH3_128bits_withSecret c input (zlen m) secret (zlen s) = OK (X3.XXH3_128_withSecret s m).
Proof.
  intros BIG FIT. split.
  - unfold XXH3_64bits_withSecret, X3.XXH3_64_withSecret. apply internal64; trivial; [unfold w64; lia|]. intros _. unfold hashLong_64b_withSecret, hashLong_64b_internal.
    rewrite huge_loop by (trivial; apply local_acc_aligned). cbn [bind]. unfold SECRET_MERGEACCS_START. change (- (11)) with (-11). replace (64 + 11 <=? zlen s) with true by lia. cbn [assert_ bind].
    rewrite merge_huge by (trivial; try apply large_wacc; lia). unfold X3.large64. change (len m) with (zlen m). rewrite modW. unfold mul64. rewrite u64_mul_l. reflexivity.
  - unfold XXH3_128bits_withSecret, X3.XXH3_128_withSecret. apply internal128; trivial; [unfold w64; lia|]. intros _. unfold hashLong_128b_withSecret, hashLong_128b_internal.
    rewrite huge_loop by (trivial; apply local_acc_aligned). cbn [bind]. unfold SECRET_MERGEACCS_START. change (- (11)) with (-11). replace (64 + 11 <=? zlen s) with true by lia. cbn [assert_ bind].
    rewrite !padd_padd. replace (zlen s + -64 + -11) with (zlen s - 75) by lia.
    rewrite merge_huge by (trivial; try apply large_wacc; lia). cbn [bind]. rewrite merge_huge by (trivial; try apply large_wacc; lia). cbn [bind].
    unfold X3.large128. change (len m) with (zlen m). change (len s) with (zlen s). rewrite !modW. unfold mul64. rewrite !u64_mul_l. reflexivity.
Qed.
Lemma huge_undefined : 2 ^ szbits c <= 64 * ((zlen s - 64) / 8) -> wrapped < zlen m -> beyond (padd input (2 ^ szbits c - 64)) ->
  (forall r, XXH3_64bits_withSecret c input (zlen m) secret (zlen s) <> OK r) /\
  (forall r, XXH3_128bits_withSecret c input (zlen m) secret (zlen s) <> OK r).
Proof.
  intros BIG LONG BEY. assert (NN : (zlen m <=? 16) = false /\ (zlen m <=? 128) = false /\ (zlen m <=? 240) = false) by lia. destruct NN as (N1 & N2 & N3). split; intros r.
  - unfold XXH3_64bits_withSecret, XXH3_64bits_internal, SECRET_SIZE_MIN. replace (136 <=? zlen s) with true by lia. cbn [assert_ bind]. rewrite N1, N2. unfold MIDSIZE_MAX. rewrite N3.
    unfold hashLong_64b_withSecret, hashLong_64b_internal. match goal with |- (let! x := ?w in _) <> _ => destruct w as [acc| |] eqn:E end; cbn [bind]; try discriminate. exfalso. exact (huge_never _ _ BIG LONG BEY E).
  - unfold XXH3_128bits_withSecret, XXH3_128bits_internal, SECRET_SIZE_MIN. replace (136 <=? zlen s) with true by lia. cbn [assert_ bind]. rewrite N1, N2. unfold MIDSIZE_MAX. rewrite N3.
    unfold hashLong_128b_withSecret, hashLong_128b_internal. match goal with |- (let! x := ?w in _) <> _ => destruct w as [acc| |] eqn:E end; cbn [bind]; try discriminate. exfalso. exact (huge_never _ _ BIG LONG BEY E).
Qed.
End Huge.
