(** Proofs about the sample generators: creation, the number of combinations, runs; the slab5 variant. *)
From Verif Require Import Base Mem Spec64 P_Base P_Spec P_Util SpecColl M_Coll P_Coll1 P_Coll2.
Import Coll.

(** ** initial contents *)
Lemma randomByte_ok n : byte_ok (randomByte n).
Proof. unfold randomByte, u8, byte_ok. apply Z.mod_pos_bound. lia. Qed.
Lemma randomByte_seeded seed n : randomByte (add64 seed n) = seeded seed n.
Proof.
  unfold randomByte, seeded. assert (A : forall h, avalanche64 h = X64.avalanche h) by (intros h; unfold avalanche64, X64.avalanche; rewrite !xorshift_eq by lia; reflexivity).
  rewrite A. unfold add64, mul64, u64. rewrite Z.add_mod_idemp_l by lia.
  change prime64_1 with X64.P1. set (x := _ * X64.P1). unfold shr, u8. rewrite Z.shiftr_div_pow2 by lia.
  apply Z.mod_small. pose proof (Z.mod_pos_bound x (2 ^ 64) ltac:(lia)).
  split; [apply Z.div_pos; lia|]. apply Z.div_lt_upper_bound; lia.
Qed.
Lemma fill_ok seed size junk : 0 <= size -> zlen junk = size ->
  exists b, fill seed size junk = OK b /\ zlen b = size /\ bytes_ok b /\ forall n, 0 <= n < size -> nth (Z.to_nat n) b 0 = seeded seed n.
Proof.
  intros S0 L. unfold fill.
  assert (G : forall k i b, zlen b = size -> 0 <= i -> i + Z.of_nat k = size -> (forall n, 0 <= n < i -> nth (Z.to_nat n) b 0 = randomByte (add64 seed n)) ->
    exists b', for_ k i (fun n p => wr p n (randomByte (add64 seed n))) b = OK b' /\ zlen b' = size /\ forall n, 0 <= n < size -> nth (Z.to_nat n) b' 0 = randomByte (add64 seed n)).
  { induction k as [|k IH]; intros i b Lb I0 E A.
    - exists b. split; [reflexivity|]. split; [exact Lb|]. intros n Hn. apply A. lia.
    - cbn [for_]. rewrite wr_ok by lia. cbn [bind]. apply IH; [rewrite zlen_upd; exact Lb|lia|lia|].
      intros n Hn. rewrite nth_upd by (unfold zlen in Lb; lia). destruct (Nat.eqb_spec (Z.to_nat i) (Z.to_nat n)) as [Q|Q].
      + replace n with i by lia. reflexivity.
      + apply A. lia. }
  destruct (G (Z.to_nat size) 0 junk L ltac:(lia) ltac:(lia) ltac:(intros; lia)) as (b & E & Lb & A). exists b. split; [exact E|]. split; [exact Lb|]. split; [|intros n Hn; rewrite <- randomByte_seeded; exact (A n Hn)].
  apply Forall_forall. intros x Ix. apply (In_nth _ _ 0) in Ix. destruct Ix as (n & Ln & <-).
  specialize (A (Z.of_nat n)). rewrite Nat2Z.id in A. rewrite A by (unfold zlen in Lb; lia). apply randomByte_ok.
Qed.

(** ** counting combinations *)
Lemma Cnm_ok n m x : Cnm (Z.of_nat n) m = OK x -> x = binom n (Z.to_nat m) /\ 0 <= x <= 2 ^ 53.
Proof.
  unfold Cnm. destruct (0 <? Z.of_nat n) eqn:E1; cbn [assert_ bind]; [|discriminate]. destruct (0 <? m) eqn:E2; cbn [assert_ bind]; [|discriminate].
  destruct (m <=? Z.of_nat n) eqn:E3; cbn [assert_ bind]; [|discriminate].
  assert (G : forall k i acc, (i + k = Z.to_nat m)%nat -> acc = binom n i -> acc <= 2 ^ 53 ->
    for_ k (Z.of_nat i) (fun i acc => if acc * (Z.of_nat n - i) <=? 2 ^ 53 then OK (acc * (Z.of_nat n - i) / (1 + i)) else NoFuel) acc = OK x ->
    x = binom n (Z.to_nat m) /\ 0 <= x <= 2 ^ 53).
  { induction k as [|k IH]; intros i acc E A Bd H.
    - cbn in H. injection H as <-. rewrite A. split; [f_equal; lia|]. split; [apply binom_pos|rewrite <- A; exact Bd].
    - cbn [for_] in H. destruct (Z.leb_spec (acc * (Z.of_nat n - Z.of_nat i)) (2 ^ 53)) as [LE|LE]; cbn [bind] in H; [|discriminate].
      replace (Z.of_nat i + 1) with (Z.of_nat (S i)) in H by lia.
      assert (D : acc * (Z.of_nat n - Z.of_nat i) / (1 + Z.of_nat i) = binom n (S i)).
      { rewrite A, <- binom_step. replace (Z.of_nat (S i)) with (1 + Z.of_nat i) by lia. apply Z.div_mul. lia. }
      rewrite D in H. apply (IH (S i) _ ltac:(lia) eq_refl); [|exact H].
      rewrite A, <- binom_step in LE. pose proof (binom_pos n (S i)). nia. }
  apply (G (Z.to_nat m) 0%nat 1); [reflexivity|destruct n; reflexivity|lia].
Qed.
Lemma sumb_mono n k k' : (k <= k')%nat -> sumb n k <= sumb n k'.
Proof. induction 1; [lia|]. cbn [sumb]. pose proof (binom_pos n (S m)). lia. Qed.
Lemma upto_count n k : zlen (upto k (Z.of_nat n)) = 1 + sumb n k.
Proof.
  induction k as [|k IH]; [reflexivity|]. rewrite upto_S, zlen_app, IH, combos_count. cbn [sumb]. lia.
Qed.
Lemma enoughCombos_ok size htotal : enoughCombos size htotal = OK true -> 2 <= size /\ 8 * size < 2 ^ 31 - 1 /\ htotal <= sumb (Z.to_nat (8 * size)) 14.
Proof.
  unfold enoughCombos. destruct (Z.ltb_spec size 2) as [S2|S2]; [discriminate|].
  destruct (Z.ltb_spec (size * 8) (2 ^ 31 - 1)) as [SI|SI]; cbn [assert_ bind]; [|discriminate].
  set (N := Z.to_nat (8 * size)). replace (size * 8) with (Z.of_nat N) by lia.
  match goal with |- context [while_ _ ?x ?y _] => set (cond := x); set (body := y) end.
  assert (G : forall f acc nb (r : Z * Z * bool), (nb <= 14)%nat -> acc = sumb N nb -> acc <= Z.of_nat nb * 2 ^ 53 ->
    while_ f cond body (acc, Z.of_nat nb, false) = OK r -> snd r = false -> htotal <= sumb N 14).
  { induction f as [|f IH]; intros acc nb r LN A Bd H O.
    - cbn [while_] in H. unfold cond at 1 in H. cbn [negb andb] in H. destruct (Z.ltb_spec acc htotal) as [C|C]; [discriminate|].
      rewrite A in C. pose proof (sumb_mono N nb 14 LN). lia.
    - cbn [while_] in H. unfold cond at 1 in H. cbn [negb andb] in H. destruct (Z.ltb_spec acc htotal) as [C|C].
      2:{ rewrite A in C. pose proof (sumb_mono N nb 14 LN). lia. }
      unfold body at 1 in H. unfold SPARSE_LEVEL_MAX in H. destruct (Z.leb_spec 15 (Z.of_nat nb + 1)) as [Q|Q].
      + cbn [bind] in H. destruct f; cbn [while_] in H; unfold cond at 1 in H; cbn [negb andb] in H; injection H as <-; discriminate.
      + destruct (Cnm (Z.of_nat N) (Z.of_nat nb + 1)) as [x| |] eqn:EC; cbn [bind] in H; try discriminate.
        apply Cnm_ok in EC. destruct EC as [EX BX]. replace (Z.of_nat nb + 1) with (Z.of_nat (S nb)) in H by lia.
        assert (A64 : add64 acc x = acc + x).
        { unfold add64, u64. apply Z.mod_small. assert (0 <= acc) by (rewrite A; clear; induction nb; cbn [sumb]; [lia|]; pose proof (binom_pos N (S nb)); lia).
          cbn in *. lia. }
        apply (IH _ (S nb) r ltac:(lia)) in H; trivial.
        * rewrite A64, A, EX. cbn [sumb]. do 2 f_equal. lia.
        * rewrite A64. lia. }
  destruct (while_ 15 cond body (0, 0, false)) as [[[acc nb] out]| |] eqn:EW; cbn [bind]; try discriminate.
  intros E. injection E as E. split; [exact S2|]. split; [lia|].
  apply (G 15%nat 0 0%nat (acc, nb, out)); trivial; try lia. destruct out; [discriminate|reflexivity].
Qed.

Lemma enoughCombos_no size htotal : enoughCombos size htotal = OK false -> size < 2 \/ sumb (Z.to_nat (8 * size)) 14 < htotal.
Proof.
  unfold enoughCombos. destruct (Z.ltb_spec size 2) as [S2|S2]; [left; exact S2|]. intros E0. right. revert E0.
  destruct (Z.ltb_spec (size * 8) (2 ^ 31 - 1)) as [SI|SI]; cbn [assert_ bind]; [|discriminate].
  set (N := Z.to_nat (8 * size)). replace (size * 8) with (Z.of_nat N) by lia.
  match goal with |- context [while_ _ ?x ?y _] => set (cond := x); set (body := y) end.
  assert (G : forall f acc nb (r : Z * Z * bool), (nb <= 14)%nat -> acc = sumb N nb -> acc <= Z.of_nat nb * 2 ^ 53 ->
    while_ f cond body (acc, Z.of_nat nb, false) = OK r -> snd r = true -> sumb N 14 < htotal).
  { induction f as [|f IH]; intros acc nb r LN A Bd H O.
    - cbn [while_] in H. unfold cond at 1 in H. cbn [negb andb] in H. destruct (Z.ltb_spec acc htotal) as [C|C]; [discriminate|].
      injection H as <-. discriminate.
    - cbn [while_] in H. unfold cond at 1 in H. cbn [negb andb] in H. destruct (Z.ltb_spec acc htotal) as [C|C].
      2:{ injection H as <-. discriminate. }
      unfold body at 1 in H. unfold SPARSE_LEVEL_MAX in H. destruct (Z.leb_spec 15 (Z.of_nat nb + 1)) as [Q|Q].
      + replace nb with 14%nat in A by lia. rewrite <- A. exact C.
      + destruct (Cnm (Z.of_nat N) (Z.of_nat nb + 1)) as [x| |] eqn:EC; cbn [bind] in H; try discriminate.
        apply Cnm_ok in EC. destruct EC as [EX BX]. replace (Z.of_nat nb + 1) with (Z.of_nat (S nb)) in H by lia.
        assert (A64 : add64 acc x = acc + x).
        { unfold add64, u64. apply Z.mod_small. assert (0 <= acc) by (rewrite A; clear; induction nb; cbn [sumb]; [lia|]; pose proof (binom_pos N (S nb)); lia).
          cbn in *. lia. }
        apply (IH _ (S nb) r ltac:(lia)) in H; trivial.
        * rewrite A64, A, EX. cbn [sumb]. do 2 f_equal. lia.
        * rewrite A64. lia. }
  destruct (while_ 15 cond body (0, 0, false)) as [[[acc nb] out]| |] eqn:EW; cbn [bind]; try discriminate.
  intros E. injection E as E. apply (G 15%nat 0 0%nat (acc, nb, out)); trivial; try lia. destruct out; [reflexivity|discriminate].
Qed.

(** ** the sparse generator: creation and runs *)
Fixpoint run_sparse (c : cfg) (n : nat) (sf : sparse) : res sparse :=
  match n with O => OK sf | S n => let! sf := run_sparse c n sf in sparse_update c sf end.
Lemma create_ok c junk junkIdx size htotal seed sf : size * 8 < 2 ^ szbits c -> zlen junk = size ->
  sparse_create c junk junkIdx size htotal seed = OK (Some sf) ->
  2 <= size /\ htotal <= sumb (Z.to_nat (8 * size)) 14 /\
  exists base, zlen base = size /\ bytes_ok base /\ (forall n, 0 <= n < size -> nth (Z.to_nat n) base 0 = seeded seed n) /\
    holds base [] sf /\ f_prngSeed sf = seed.
Proof.
  intros SZ LJ. unfold sparse_create, sparse_init. cbn [f_size f_prngSeed f_buffer f_maxBitIdx].
  destruct (enoughCombos size htotal) as [[]| |] eqn:EC; cbn [bind negb]; try discriminate. apply enoughCombos_ok in EC. destruct EC as (S2 & SI & HT).
  destruct (fill_ok seed size junk ltac:(lia) LJ) as (b & -> & Lb & Bb & A). cbn [bind]. intros E. injection E as <-.
  split; [exact S2|]. split; [exact HT|]. exists b. split; [exact Lb|]. split; [exact Bb|]. split; [exact A|]. split; [|reflexivity].
  unfold holds. cbn [f_buffer f_bitIdx f_level f_maxBitIdx f_size flips fold_right agree length]. unfold usz. rewrite Z.mod_small by lia.
  repeat split; lia.
Qed.
Lemma run_ok c base sf n : bytes_ok base -> 8 * zlen base < 2 ^ szbits c -> 2 <= zlen base -> holds base [] sf ->
  (n < length (upto 14 (8 * zlen base)))%nat ->
  exists sf', run_sparse c n sf = OK sf' /\ holds base (nth n (upto 14 (8 * zlen base)) []) sf' /\ f_prngSeed sf' = f_prngSeed sf.
Proof.
  intros B SZ S2 H. set (N := 8 * zlen base) in *. assert (L14 : Z.of_nat 14 <= N) by lia.
  assert (U0 : exists r, upto 14 N = [] :: r) by (exists (flat_map (fun j => combos j N) (seq 1 14)); reflexivity).
  pose proof (upto_orbit 14 N L14) as O. pose proof (in_upto 14 N) as IU. remember (upto 14 N) as l eqn:El. clear El.
  induction n as [|n IH]; intros Hn.
  - destruct U0 as (r & ->). exists sf. split; [reflexivity|]. split; [exact H|reflexivity].
  - destruct IH as (sf1 & E1 & H1 & P1); [lia|]. cbn [run_sparse]. rewrite E1. cbn [bind].
    assert (In1 : In (nth n l []) l) by (apply nth_In; lia). destruct (proj1 (IU _) In1) as [Ln Bn].
    destruct (sparse_update_ok c base B SZ (nth n l []) (nth (S n) l []) sf1) as (sf2 & E2 & H2 & P2); trivial.
    + apply (orbit_nth _ _ [] n O Hn).
    + exists sf2. split; [exact E2|]. split; [exact H2|congruence].
Qed.

(** ** the slab5 generator *)
Section Slab.
Context (c : cfg) (size : Z).
Hypothesis SZ : size < 2 ^ szbits c.
Let nb := size / 5.
Hypothesis NB : 1 <= nb.
Definition word (b : list Z) (s : Z) : Z := native_val c (zslice b (5 * s + 1) 4).
Lemma slab_fits s : 0 <= s < nb -> 0 <= 5 * s + 1 /\ 5 * s + 1 + 4 <= size.
Proof. intros H. unfold nb in H. pose proof (Z.mul_div_le size 5). lia. Qed.
Lemma native_store x : 0 <= x < 2 ^ 32 -> native_val c (native_bytes c 4 x) = x.
Proof.
  intros H. unfold native_val, native_bytes. destruct (cpu_le c); rewrite ?rev_involutive, le_bytes_val by lia; apply Z.mod_small; exact H.
Qed.
Lemma slab_update_ok sf : bytes_ok (s_buffer sf) -> zlen (s_buffer sf) = size -> s_size sf = size -> 0 <= s_hnb sf < 2 ^ 64 - 1 ->
  exists sf', slab_update c sf = OK sf' /\ bytes_ok (s_buffer sf') /\ zlen (s_buffer sf') = size /\ s_size sf' = size /\ s_hnb sf' = s_hnb sf + 1 /\
    forall s, 0 <= s < nb -> word (s_buffer sf') s = if s =? s_hnb sf mod nb then (word (s_buffer sf) s + 374761393) mod 2 ^ 32 else word (s_buffer sf) s.
Proof.
  intros B L S H. set (k := s_hnb sf mod nb). assert (K : 0 <= k < nb) by (apply Z.mod_pos_bound; lia).
  pose proof (slab_fits k K) as [F1 F2]. unfold slab_update. rewrite S. change SLAB_SIZE with 5. fold nb.
  replace (nb =? 0) with false by lia. cbn [negb assert_ bind]. fold k. unfold usz. rewrite (Z.mod_small (k * 5)) by lia.
  rewrite Z.mod_small by lia. replace (k * 5 + 1) with (5 * k + 1) by lia.
  unfold load. replace ((0 <=? 5 * k + 1) && (0 <=? 4) && (5 * k + 1 + 4 <=? zlen (s_buffer sf))) with true by lia. cbn [bind].
  fold (word (s_buffer sf) k). set (v := add32 (word (s_buffer sf) k) 374761393). assert (V : 0 <= v < 2 ^ 32) by (apply Z.mod_pos_bound; lia).
  assert (LN : zlen (native_bytes c 4 v) = 4) by apply native_len.
  rewrite store_ok by lia. rewrite LN. cbn [bind]. eexists. split; [reflexivity|]. cbn [s_buffer s_size s_hnb].
  set (b := s_buffer sf) in *.
  split; [|split; [|split; [reflexivity|split; [unfold add64, u64; apply Z.mod_small; lia|]]]].
  - apply Forall_app. split; [apply bytes_ok_zslice; exact B|]. apply Forall_app. split; [|apply bytes_ok_zslice; exact B].
    unfold native_bytes. destruct (cpu_le c); [apply le_bytes_ok|apply bytes_ok_rev, le_bytes_ok].
  - rewrite !zlen_app, LN, !zlen_zslice by lia. lia.
  - intros s Hs. pose proof (slab_fits s Hs) as [G1 G2]. destruct (Z.eqb_spec s k) as [->|NE].
    + unfold word at 1. rewrite zslice_app_r by (rewrite ?zlen_app, ?LN, ?zlen_zslice by lia; lia). rewrite zlen_zslice by lia.
      replace (5 * k + 1 - (5 * k + 1)) with 0 by lia. rewrite zslice_app_l by lia. rewrite zslice_all by lia. rewrite native_store by exact V. reflexivity.
    + unfold word. f_equal. destruct (Z.lt_ge_cases s k).
      * rewrite zslice_app_l by (rewrite ?zlen_zslice by lia; lia). rewrite zslice_zslice by lia. f_equal; lia.
      * rewrite zslice_app_r by (rewrite ?zlen_app, ?LN, ?zlen_zslice by lia; lia). rewrite zlen_zslice by lia.
        rewrite zslice_app_r by (rewrite ?LN, ?zlen_zslice by lia; lia). rewrite LN, zslice_zslice by lia. f_equal; lia.
Qed.
Fixpoint run_slab (n : nat) (sf : slab) : res slab :=
  match n with O => OK sf | S n => let! sf := run_slab n sf in slab_update c sf end.
(** how often slab [s] was changed in the first [n] updates *)
Fixpoint cnt (s : Z) (n : nat) : Z := match n with O => 0 | S n => cnt s n + (if s =? Z.of_nat n mod nb then 1 else 0) end.
Lemma run_slab_ok sf n : bytes_ok (s_buffer sf) -> zlen (s_buffer sf) = size -> s_size sf = size -> s_hnb sf = 0 -> Z.of_nat n < 2 ^ 64 ->
  exists sf', run_slab n sf = OK sf' /\ bytes_ok (s_buffer sf') /\ zlen (s_buffer sf') = size /\ s_size sf' = size /\ s_hnb sf' = Z.of_nat n /\
    forall s, 0 <= s < nb -> word (s_buffer sf') s mod 2 ^ 32 = (word (s_buffer sf) s + cnt s n * 374761393) mod 2 ^ 32.
Proof.
  intros B L S H. induction n as [|n IH]; intros HN.
  - exists sf. repeat split; trivial. intros s _. cbn [cnt]. f_equal. lia.
  - destruct IH as (sf1 & E1 & B1 & L1 & S1 & H1 & W1); [lia|]. cbn [run_slab]. rewrite E1. cbn [bind].
    destruct (slab_update_ok sf1 B1 L1 S1 ltac:(lia)) as (sf2 & E2 & B2 & L2 & S2 & H2 & W2). exists sf2. repeat split; trivial; [lia|].
    intros s Hs. rewrite (W2 s Hs), H1. cbn [cnt]. destruct (s =? Z.of_nat n mod nb).
    + rewrite Z.mod_mod by lia. rewrite Z.add_mod, W1 by (trivial; lia). rewrite <- Z.add_mod by lia. f_equal. lia.
    + rewrite W1 by exact Hs. f_equal. lia.
Qed.
(** closed form of the count *)
Lemma cnt_eq s n : 0 <= s < nb -> cnt s n = (Z.of_nat n + nb - 1 - s) / nb.
Proof.
  intros Hs. induction n as [|n IH].
  - cbn [cnt]. symmetry. apply Z.div_small. lia.
  - cbn [cnt]. rewrite IH. replace (Z.of_nat (S n)) with (Z.of_nat n + 1) by lia.
    pose proof (Z.div_mod (Z.of_nat n) nb ltac:(lia)) as D. pose proof (Z.mod_pos_bound (Z.of_nat n) nb ltac:(lia)) as M.
    set (q := Z.of_nat n / nb) in *. set (r := Z.of_nat n mod nb) in *. rewrite D.
    destruct (Z.eqb_spec s r) as [->|NE].
    + replace (nb * q + r + nb - 1 - r) with (nb - 1 + q * nb) by lia. replace (nb * q + r + 1 + nb - 1 - r) with (0 + (q + 1) * nb) by lia.
      rewrite !Z.div_add by lia. rewrite !Z.div_small by lia. lia.
    + rewrite Z.add_0_r. destruct (Z.lt_ge_cases s r).
      * replace (nb * q + r + nb - 1 - s) with (r - 1 - s + (q + 1) * nb) by lia. replace (nb * q + r + 1 + nb - 1 - s) with (r - s + (q + 1) * nb) by lia.
        rewrite !Z.div_add by lia. rewrite !Z.div_small by lia. reflexivity.
      * replace (nb * q + r + nb - 1 - s) with (r + nb - 1 - s + q * nb) by lia. replace (nb * q + r + 1 + nb - 1 - s) with (r + nb - s + q * nb) by lia.
        rewrite !Z.div_add by lia. rewrite !Z.div_small by lia. reflexivity.
Qed.
Lemma cnt_differ m n : (m < n)%nat -> Z.of_nat n - Z.of_nat m < nb * 2 ^ 32 -> exists s, 0 <= s < nb /\ 0 < cnt s n - cnt s m < 2 ^ 32.
Proof.
  intros L D. destruct (Z.lt_ge_cases (Z.of_nat n - Z.of_nat m) nb) as [C|C].
  - exists (Z.of_nat m mod nb). assert (S : 0 <= Z.of_nat m mod nb < nb) by (apply Z.mod_pos_bound; lia). split; [exact S|]. rewrite !cnt_eq by exact S.
    pose proof (Z.div_mod (Z.of_nat m) nb ltac:(lia)) as E. set (q := Z.of_nat m / nb) in *. set (r := Z.of_nat m mod nb) in *.
    replace ((Z.of_nat m + nb - 1 - r) / nb) with q.
    + replace ((Z.of_nat n + nb - 1 - r) / nb) with (q + 1); [lia|]. apply Z.div_unique_pos with (r := Z.of_nat n - 1 - Z.of_nat m); lia.
    + apply Z.div_unique_pos with (r := nb - 1); lia.
  - exists (Z.of_nat n mod nb). assert (S : 0 <= Z.of_nat n mod nb < nb) by (apply Z.mod_pos_bound; lia). split; [exact S|]. rewrite !cnt_eq by exact S.
    pose proof (Z.div_mod (Z.of_nat n) nb ltac:(lia)) as E. set (q := Z.of_nat n / nb) in *. set (r := Z.of_nat n mod nb) in *.
    replace ((Z.of_nat n + nb - 1 - r) / nb) with q by (apply Z.div_unique_pos with (r := nb - 1); lia).
    set (a := (Z.of_nat m + nb - 1 - r) / nb). pose proof (Z.div_mod (Z.of_nat m + nb - 1 - r) nb ltac:(lia)) as F. fold a in F.
    pose proof (Z.mod_pos_bound (Z.of_nat m + nb - 1 - r) nb ltac:(lia)). nia.
Qed.
Lemma prime_odd d : 0 < d < 2 ^ 32 -> (d * 374761393) mod 2 ^ 32 <> 0.
Proof.
  intros H E. apply Z.mod_divide in E; [|lia]. assert (G : (2 ^ 32 | d)).
  { apply Z.gauss with (m := 374761393); [rewrite Z.mul_comm; exact E|]. vm_compute. reflexivity. }
  apply Z.divide_pos_le in G; lia.
Qed.
Lemma slab_distinct sf m n sm sn : bytes_ok (s_buffer sf) -> zlen (s_buffer sf) = size -> s_size sf = size -> s_hnb sf = 0 ->
  (m < n)%nat -> Z.of_nat n < 2 ^ 64 -> Z.of_nat n - Z.of_nat m < nb * 2 ^ 32 ->
  run_slab m sf = OK sm -> run_slab n sf = OK sn -> s_buffer sm <> s_buffer sn.
Proof.
  intros B L S H LT HN D Em En E. destruct (cnt_differ m n LT D) as (s & Hs & C).
  destruct (run_slab_ok sf m B L S H ltac:(lia)) as (sm' & Em' & _ & _ & _ & _ & Wm). rewrite Em in Em'. injection Em' as <-.
  destruct (run_slab_ok sf n B L S H HN) as (sn' & En' & _ & _ & _ & _ & Wn). rewrite En in En'. injection En' as <-.
  specialize (Wm s Hs). specialize (Wn s Hs). rewrite E in Wm. rewrite Wm in Wn.
  apply (prime_odd (cnt s n - cnt s m) C). rewrite Z.mul_sub_distr_r.
  replace (cnt s n * 374761393 - cnt s m * 374761393) with ((word (s_buffer sf) s + cnt s n * 374761393) - (word (s_buffer sf) s + cnt s m * 374761393)) by lia.
  rewrite Zminus_mod, <- Wn, Z.sub_diag. reflexivity.
Qed.
End Slab.
