(** XXH3 streaming: absorbing stripes, the state invariant, update and digest. *)
From Verif Require Import Base Mem M_XXH32 M_XXH64 M_XXH3 M_Kernels M_Long M_Stream3 Spec3 P_Base P_Spec P_XXH64 P_X3_Base P_X3_Short
  P_Kernels P_Kernels2 P_X3_Long.

(** ** the accumulators after [K] stripes of [m], with a scramble at the end of every block *)
Definition step3 (s m : list Z) (a : list Z) (k : Z) : list Z :=
  let n := X3.stripesPerBlock s in
  let a := X3.accumulate s a (seg m (64 * k) (64 * k + 64)) (8 * (k mod n)) in
  if (k + 1) mod n =? 0 then X3.scramble s a else a.
Definition absorb (s m : list Z) (K : Z) : list Z := fold_left (step3 s m) (upto K) X3.init_acc.

Lemma step3_wacc s m a k : wacc (step3 s m a k).
Proof. unfold step3. destruct (_ =? 0); [apply scramble_wacc|apply accumulate_wacc]. Qed.
Lemma absorb_wacc s m K : wacc (absorb s m K).
Proof. unfold absorb. apply fold_upto_inv; [apply init_wacc|]. intros; apply step3_wacc. Qed.
Lemma absorb_S s m K : 0 <= K -> absorb s m (K + 1) = step3 s m (absorb s m K) K.
Proof. intros. unfold absorb. rewrite fold_upto_S by lia. reflexivity. Qed.
Lemma acc_n_S s m o so n acc : 0 <= n ->
  acc_n s m o so (n + 1) acc = X3.accumulate s (acc_n s m o so n acc) (seg m (o + 64 * n) (o + 64 * n + 64)) (so + 8 * n).
Proof. intros. unfold acc_n. rewrite fold_upto_S by lia. reflexivity. Qed.
Lemma acc_n_ext s m1 m2 o1 o2 so n acc : 0 <= n -> 0 <= o1 -> 0 <= o2 -> o1 + 64 * n <= zlen m1 -> o2 + 64 * n <= zlen m2 ->
  zslice m1 o1 (64 * n) = zslice m2 o2 (64 * n) -> acc_n s m1 o1 so n acc = acc_n s m2 o2 so n acc.
Proof.
  intros Hn H1 H2 L1 L2 E. unfold acc_n. apply fold_upto_ext. intros k a Hk. f_equal. rewrite !seg_zslice.
  replace (o1 + 64 * k + 64 - (o1 + 64 * k)) with 64 by lia. replace (o2 + 64 * k + 64 - (o2 + 64 * k)) with 64 by lia.
  rewrite <- (zslice_zslice m1 o1 (64 * n) (64 * k) 64) by lia. rewrite E. apply zslice_zslice; lia.
Qed.
Lemma absorb_ext s m1 m2 K : 0 <= K -> 64 * K <= zlen m1 -> 64 * K <= zlen m2 -> zslice m1 0 (64 * K) = zslice m2 0 (64 * K) ->
  absorb s m1 K = absorb s m2 K.
Proof.
  intros HK L1 L2 E. unfold absorb. apply fold_upto_ext. intros k a Hk. unfold step3.
  replace (seg m1 (64 * k) (64 * k + 64)) with (seg m2 (64 * k) (64 * k + 64)); [reflexivity|].
  rewrite !seg_zslice. replace (64 * k + 64 - 64 * k) with 64 by lia.
  pose proof (zslice_zslice m1 0 (64 * K) (64 * k) 64) as Z1. pose proof (zslice_zslice m2 0 (64 * K) (64 * k) 64) as Z2.
  rewrite !Z.add_0_l in Z1, Z2. rewrite <- Z1, <- Z2, E by lia. reflexivity.
Qed.
Lemma absorb_app s m d K : 0 <= K -> 64 * K <= zlen m -> absorb s (m ++ d) K = absorb s m K.
Proof. intros. zlen_pose. apply absorb_ext; trivial; [llia|]. rewrite zslice_app_l by lia. reflexivity. Qed.

Section Absorb.
Context (s : list Z).
Hypothesis S136 : 136 <= zlen s.
Local Notation n := (X3.stripesPerBlock s).
Lemma nspb : 9 <= n /\ 8 * n <= zlen s - 64 < 8 * n + 8.
Proof. unfold X3.stripesPerBlock. change (len s) with (zlen s). dlia. Qed.

Lemma absorb_run m K r : 0 <= K -> 0 <= r -> K mod n + r < n ->
  absorb s m (K + r) = acc_n s m (64 * K) (8 * (K mod n)) r (absorb s m K).
Proof.
  intros HK Hr. pose proof nspb as N. pose proof (Z.mod_pos_bound K n ltac:(lia)) as MB.
  rewrite <- (Z2Nat.id r) by lia. generalize (Z.to_nat r) as k. clear r Hr. induction k as [|k IH]; intros H.
  - change (Z.of_nat 0) with 0. rewrite Z.add_0_r. reflexivity.
  - replace (Z.of_nat (S k)) with (Z.of_nat k + 1) in * by lia. rewrite acc_n_S by lia. rewrite <- IH by lia.
    rewrite Z.add_assoc, absorb_S by lia. unfold step3.
    assert (M1 : (K + Z.of_nat k) mod n = K mod n + Z.of_nat k).
    { rewrite <- Zplus_mod_idemp_l. apply Z.mod_small. lia. }
    assert (M2 : (K + Z.of_nat k + 1) mod n = K mod n + Z.of_nat k + 1).
    { rewrite <- Z.add_assoc, <- Zplus_mod_idemp_l. rewrite Z.mod_small; lia. }
    rewrite M1, M2. replace (K mod n + Z.of_nat k + 1 =? 0) with false by lia. f_equal; [|lia].
    f_equal; lia.
Qed.
Lemma absorb_block m K r : 0 <= K -> 0 < r -> K mod n + r = n ->
  absorb s m (K + r) = X3.scramble s (acc_n s m (64 * K) (8 * (K mod n)) r (absorb s m K)).
Proof.
  intros HK Hr H. pose proof nspb as N. pose proof (Z.mod_pos_bound K n ltac:(lia)) as MB.
  replace r with (r - 1 + 1) at 2 by lia. rewrite acc_n_S by lia. rewrite <- absorb_run by lia.
  replace (K + r) with (K + (r - 1) + 1) by lia. rewrite absorb_S by lia. unfold step3.
  assert (M1 : (K + (r - 1)) mod n = K mod n + (r - 1)).
  { rewrite <- Zplus_mod_idemp_l. apply Z.mod_small. lia. }
  assert (M2 : (K + (r - 1) + 1) mod n = 0).
  { rewrite <- Z.add_assoc, <- Zplus_mod_idemp_l. replace (K mod n + (r - 1 + 1)) with n by lia. apply Z.mod_same. lia. }
  rewrite M1, M2. cbn [Z.eqb]. f_equal. f_equal; [|lia]. f_equal; lia.
Qed.
Lemma absorb_rounds m b : 0 <= b ->
  fold_left (fun a b => X3.round s m (64 * n * b) a) (upto b) X3.init_acc = absorb s m (n * b).
Proof.
  pose proof nspb as N. intros Hb. rewrite <- (Z2Nat.id b) by lia. generalize (Z.to_nat b) as k. clear b Hb. induction k as [|k IH].
  - change (Z.of_nat 0) with 0. rewrite Z.mul_0_r. reflexivity.
  - replace (Z.of_nat (S k)) with (Z.of_nat k + 1) by lia. rewrite fold_upto_S by lia. rewrite IH. rewrite Z.mul_add_distr_l, Z.mul_1_r.
    assert (M : (n * Z.of_nat k) mod n = 0) by (rewrite Z.mul_comm; apply Z.mod_mul; lia).
    rewrite absorb_block by lia. unfold X3.round. rewrite <- acc_n_stripes, M, Z.mul_0_r, Z.mul_assoc. reflexivity.
Qed.
Lemma large_absorb m : 0 < zlen m ->
  X3.large_acc s m = X3.accumulate s (absorb s m ((zlen m - 1) / 64)) (seg m (zlen m - 64) (zlen m)) (zlen s - 71).
Proof.
  intros Hm. pose proof nspb as N. unfold X3.large_acc. change (len m) with (zlen m). change (len s) with (zlen s).
  set (b := (zlen m - 1) / (64 * n)).
  assert (Hb : 0 <= b /\ 64 * n * b <= zlen m - 1 < 64 * n * b + 64 * n).
  { pose proof (Z.div_mod (zlen m - 1) (64 * n) ltac:(lia)) as D. pose proof (Z.mod_pos_bound (zlen m - 1) (64 * n) ltac:(lia)) as R.
    subst b. split; [apply Z.div_pos; lia|lia]. }
  rewrite absorb_rounds by lia.
  assert (E : (zlen m - 1) / 64 = n * b + (zlen m - 64 * n * b - 1) / 64).
  { replace (zlen m - 1) with (zlen m - 64 * n * b - 1 + (n * b) * 64) by lia. rewrite Z.div_add by lia. lia. }
  set (r := (zlen m - 64 * n * b - 1) / 64) in *.
  assert (Hr : 0 <= r < n).
  { subst r. split; [apply Z.div_pos; lia|]. apply Z.div_lt_upper_bound; lia. }
  assert (M : (n * b) mod n = 0) by (rewrite Z.mul_comm; apply Z.mod_mul; lia).
  rewrite E. rewrite (absorb_run m (n * b) r) by lia.
  rewrite <- acc_n_stripes, M, Z.mul_0_r, Z.mul_assoc. reflexivity.
Qed.

Lemma consume_ok c adr fa fs input d secret ki K nn M :
  cfg_ok c -> secret_fits c s -> okacc c adr fa -> okscr c adr fs -> points_to input d -> bytes_ok d -> points_to secret s ->
  0 <= K -> 0 <= nn < 2 ^ szbits c -> 0 <= ki -> ki + 64 * nn <= zlen d -> 64 * (K + nn) <= zlen M ->
  zslice M (64 * K) (64 * nn) = zslice d ki (64 * nn) ->
  consumeStripes c adr (absorb s M K) (K mod n) n (padd input ki) nn secret (zlen s - 64) fa fs =
  OK (absorb s M (K + nn), (K + nn) mod n, padd input (ki + 64 * nn)).
Proof.
  intros C SO Ha Hs PI BD PS HK Hnn Hki Ld LM E. pose proof SO as (BS & _ & SZ). pose proof nspb as N.
  pose proof (Z.mod_pos_bound K n ltac:(lia)) as MB. pose proof (zlen_nonneg s) as Z0.
  (* one call of f_acc *)
  assert (RUN : forall j r so, 0 <= j -> 0 <= r -> j + r <= nn -> 0 <= so -> so + r <= n ->
     fa adr (absorb s M (K + j)) (padd input (ki + 64 * j)) (padd secret (8 * so)) r =
     OK (acc_n s M (64 * (K + j)) (8 * so) r (absorb s M (K + j)))).
  { intros j r so Hj Hr Hjr Hso Hsr. rewrite (Ha _ input d secret s) by (trivial; try apply absorb_wacc; lia). f_equal.
    apply acc_n_ext; try lia.
    rewrite <- (zslice_zslice d ki (64 * nn) (64 * j) (64 * r)) by lia. rewrite <- E.
    rewrite zslice_zslice by lia. f_equal. lia. }
  unfold consumeStripes, SECRET_CONSUME_RATE, STRIPE_LEN.
  unfold usz at 1 2. rewrite (Z.mod_small (n - K mod n)) by lia. 
  assert (Er0 : exists r0, r0 = n - K mod n) by eauto. destruct Er0 as [r0 Er0]. rewrite <- !Er0.
  assert (Hr0 : 0 < r0 <= n) by lia.
  (* the final partial block *)
  assert (FIN : forall j so x, 0 <= j <= nn -> (K + j) mod n = so -> so + (nn - j) < n -> x = padd secret (8 * so) ->
    (if 0 <? nn - j then
       let! acc := fa adr (absorb s M (K + j)) (padd input (ki + 64 * j)) x (nn - j) in
       OK (acc, usz c (so + (nn - j)), padd (padd input (ki + 64 * j)) ((nn - j) * 64))
     else OK (absorb s M (K + j), so, padd input (ki + 64 * j))) =
    OK (absorb s M (K + nn), (K + nn) mod n, padd input (ki + 64 * nn))).
  { intros j so x Hj Hso Hlt ->. assert (0 <= so) by (rewrite <- Hso; apply Z.mod_pos_bound; lia).
    destruct (Z.ltb_spec 0 (nn - j)) as [H0|H0].
    - rewrite RUN by lia. cbn [bind]. rewrite padd_padd. unfold usz. rewrite (Z.mod_small (so + (nn - j))) by lia.
      f_equal. f_equal; [f_equal|f_equal; lia].
      + replace (K + nn) with (K + j + (nn - j)) by lia. rewrite (absorb_run M (K + j)) by lia. rewrite Hso. reflexivity.
      + replace (K + nn) with (K + j + (nn - j)) by lia. rewrite <- Zplus_mod_idemp_l, Hso. symmetry. apply Z.mod_small. lia.
    - replace j with nn in * by lia. rewrite Hso. reflexivity. }
  destruct (Z.leb_spec r0 nn) as [H|H].
  - set (g := fun i : nat => match i with
      | O => (absorb s M K, padd input ki, nn, r0, padd secret (K mod n * 8))
      | S i => let j := r0 + n * Z.of_nat i in (absorb s M (K + j), padd input (ki + 64 * j), nn - j, n, secret) end).
    assert (Q : 0 <= (nn - r0) / n /\ n * ((nn - r0) / n) <= nn - r0 < n * ((nn - r0) / n) + n).
    { pose proof (Z.div_mod (nn - r0) n ltac:(lia)) as D. pose proof (Z.mod_pos_bound (nn - r0) n ltac:(lia)) as R.
      split; [apply Z.div_pos; lia|lia]. }
    set (q := (nn - r0) / n) in *. clearbody q.
    assert (Ecnt : exists cnt, cnt = S (Z.to_nat q)) by eauto. destruct Ecnt as [cnt Ecnt].
    assert (Hcnt : Z.of_nat cnt = q + 1) by lia.
    assert (KR : (K + r0) mod n = 0).
    { rewrite <- Zplus_mod_idemp_l. replace (K mod n + r0) with n by lia. apply Z.mod_same. lia. }
    assert (KM : forall i, (K + (r0 + n * i)) mod n = 0).
    { intros i. rewrite Z.add_assoc, (Z.mul_comm n), Z.mod_add by lia. exact KR. }
    rewrite (do_while_count _ _ g cnt).
    + cbn [bind]. rewrite Ecnt. unfold g. cbv zeta. rewrite Z2Nat.id by lia. cbn [bind].
      assert (Hj : 0 <= r0 + n * q <= nn) by lia.
      assert (Hm : 0 + (nn - (r0 + n * q)) < n) by lia. specialize (KM q). clear - FIN Hj Hm KM.
      set (j := r0 + n * q) in *. clearbody j. specialize (FIN j 0 secret Hj KM Hm). rewrite Z.mul_0_r, padd_0 in FIN.
      exact (FIN eq_refl).
    + reflexivity.
    + lia.
    + clear - Hcnt N Q Hr0. assert (n * q >= q) by nia. lia.
    + intros i Hi. destruct i as [|i].
      * unfold g. cbv zeta. unfold consume_body, STRIPE_LEN. rewrite (Z.mul_comm (K mod n)).
        pose proof (RUN 0 r0 (K mod n)) as R1. rewrite Z.mul_0_r, !Z.add_0_r in R1. rewrite R1 by lia. cbn [bind].
        rewrite (Hs _ secret s) by (trivial; try (apply acc_n_wacc, absorb_wacc); lia). cbn [bind].
        change (Z.of_nat 0) with 0. rewrite Z.mul_0_r, Z.add_0_r. rewrite padd_padd.
        unfold usz. rewrite (Z.mod_small (nn - r0)) by lia.
        rewrite (absorb_block M K r0) by lia. rewrite (Z.mul_comm r0). reflexivity.
      * unfold g. cbv zeta. unfold consume_body, STRIPE_LEN. 
        assert (Hj : 0 <= r0 + n * Z.of_nat i /\ r0 + n * Z.of_nat i + n <= nn).
        { clear - Hcnt N Q Hr0 Hi. assert (n * Z.of_nat i + n <= n * q) by nia. lia. }
        specialize (KM (Z.of_nat i)). replace (r0 + n * Z.of_nat (S i)) with (r0 + n * Z.of_nat i + n) by lia.
        set (j := r0 + n * Z.of_nat i) in *. clearbody j.
        pose proof (RUN j n 0) as R1. rewrite Z.mul_0_r, padd_0 in R1. rewrite R1 by lia. cbn [bind].
        rewrite (Hs _ secret s) by (trivial; try (apply acc_n_wacc, absorb_wacc); lia). cbn [bind].
        unfold usz. rewrite (Z.mod_small (nn - j - n)) by lia. rewrite padd_padd.
        pose proof (absorb_block M (K + j) n) as AB. rewrite KM, Z.mul_0_r in AB.
        rewrite Z.add_assoc, AB by lia. f_equal. f_equal. f_equal. f_equal; [f_equal|]; [f_equal; lia|lia].
    + intros i Hi. destruct i as [|i]; [lia|]. unfold g. cbv zeta. apply Z.leb_le.
      clear - Hcnt N Q Hr0 Hi. assert (n * Z.of_nat i + n <= n * q) by nia. lia.
    + rewrite Ecnt. unfold g. cbv zeta. rewrite Z2Nat.id by lia. apply Z.leb_gt. lia.
  - cbn [bind]. pose proof (FIN 0 (K mod n) (padd secret (K mod n * 8))) as F. rewrite Z.sub_0_r, Z.mul_0_r, !Z.add_0_r in F. rewrite F; trivial.
    + lia.
    + lia.
    + f_equal. lia.
Qed.
End Absorb.

(** ** the state *)
(** what any correctly aligned state is before its first reset: arrays of the right size *)
Record raw3 (st : state3) : Prop := Raw3 {
  w3_adr : s3_adr st mod 64 = 0;
  w3_buf : zlen (s3_buffer st) = 256;
  w3_bytes : bytes_ok (s3_buffer st);
  w3_custom : zlen (s3_customSecret st) = 192
}.
(** the cached secret is valid whenever reset_withSeed would trust it *)
Definition cache3 (st : state3) : Prop :=
  s3_extSecret st = Null -> s3_seed st <> 0 -> s3_customSecret st = X3.deriveSecret (s3_seed st).

(** the state has absorbed [m]: [K] stripes in the accumulators, the rest in the buffer *)
Record rep3 (c : cfg) (s : list Z) (us : bool) (seed : Z) (m : list Z) (K : Z) (st : state3) : Prop := Rep3 {
  r3_raw   : raw3 st;
  r3_cache : cache3 st;
  r3_sec   : points_to (state_secret st) s;
  r3_sok   : secret_fits c s;
  r3_limit : s3_secretLimit st = zlen s - 64;
  r3_nspb  : s3_nbStripesPerBlock st = X3.stripesPerBlock s;
  r3_seed  : s3_seed st = seed;
  r3_w     : w64 seed;
  r3_use   : s3_useSeed st = if us then 1 else 0;
  r3_total : s3_totalLen st = zlen m mod 2 ^ 64;
  r3_K     : K = 0 \/ 4 <= K /\ 1 <= s3_bufferedSize st;
  r3_len   : zlen m = 64 * K + s3_bufferedSize st;
  r3_size  : 0 <= s3_bufferedSize st <= 256;
  r3_msg   : bytes_ok m;
  r3_acc   : s3_acc st = absorb s m K;
  r3_sofar : s3_nbStripesSoFar st = K mod X3.stripesPerBlock s;
  r3_buf   : zslice (s3_buffer st) 0 (s3_bufferedSize st) = zslice m (64 * K) (s3_bufferedSize st);
  r3_tail  : 0 < K -> s3_bufferedSize st < 64 -> zslice (s3_buffer st) 192 64 = zslice m (64 * K - 64) 64
}.

Lemma align64 c adr : adr mod 64 = 0 -> aligned_adr adr (acc_align c) = true /\ aligned_adr adr (sec_align c) = true.
Proof.
  intros H. assert (A : aligned_adr adr (2 ^ 6) = true) by (rewrite aligned_adr_mod by lia; apply Z.eqb_eq; exact H).
  assert (G : forall x, (exists j, 0 <= j <= 6 /\ x = 2 ^ j) -> aligned_adr adr x = true).
  { intros x (j & Hj & ->). eapply aligned_weaken; [exact Hj|exact A]. }
  assert (J : forall k, 0 <= k <= 6 -> exists j, 0 <= j <= 6 /\ 2 ^ k = 2 ^ j) by eauto.
  split; apply G; unfold sec_align, acc_align; destruct (x86dispatch c); try destruct (vec c);
    first [exact (J 3 ltac:(lia)) | exact (J 4 ltac:(lia)) | exact (J 5 ltac:(lia)) | exact (J 6 ltac:(lia))].
Qed.
Lemma update_adr_aligned c st : raw3 st -> aligned_adr (update_acc_adr c st) (acc_align c) = true.
Proof.
  intros R. unfold update_acc_adr. destruct (stream_stack c); [apply local_acc_aligned|]. apply align64. apply R.
Qed.

(** ** update *)
Lemma update3_ok c s us seed m K st p d fa fs : cfg_ok c -> okacc c (update_acc_adr c st) fa -> okscr c (update_acc_adr c st) fs ->
  rep3 c s us seed m K st -> points_to p d -> bytes_ok d -> zlen d < 2 ^ szbits c ->
  exists K' st', XXH3_update c st p (zlen d) fa fs = OK (XXH_OK, st') /\ rep3 c s us seed (m ++ d) K' st' /\ s3_adr st' = s3_adr st.
Proof.
  intros C Ha Hs R P B SZ. unfold XXH3_update. zlen_pose. pose proof (zlen_nonneg m) as ZM.
  destruct (is_null p) eqn:EN.
  { rewrite (points_to_null p d P EN). rewrite app_nil_r. cbn. do 2 eexists; split; [reflexivity|split; [exact R|reflexivity]]. }
  assert (N : p <> Null) by (intros ->; discriminate).
  destruct R as [RW RC RS RSO RL RN RSD RWS RU RT RK RLen RSZ RM RA RSF RB RTL].
  destruct RW as [WA WB WBB WC]. pose proof RSO as (BS & S136 & S8). pose proof (nspb s S136) as NS.
  rewrite RL, RN, RSF, RA. unfold INTERNALBUFFER_SIZE, INTERNALBUFFER_STRIPES, STRIPE_LEN. change (- (64)) with (-64).
  replace (s3_bufferedSize st <=? 256) with true by lia. cbn [assert_ bind].
  assert (HT : add64 (s3_totalLen st) (zlen d) = zlen (m ++ d) mod 2 ^ 64).
  { unfold add64. rewrite RT, zlen_app. apply Zplus_mod_idemp_l. }
  rewrite HT. remember (s3_bufferedSize st) as b eqn:Eb.
  assert (BM : bytes_ok (m ++ d)) by (apply bytes_ok_app; assumption).
  destruct (Z.leb_spec (zlen d) (256 - b)) as [H|H].
  - rewrite (load_at0 p d) by (trivial; lia). rewrite zslice_all by reflexivity. cbn [bind].
    rewrite store_ok by lia. cbn [bind].
    assert (U : u32 (b + u32 (zlen d)) = b + zlen d).
    { unfold u32. rewrite (Z.mod_small (zlen d)) by lia. apply Z.mod_small; lia. }
    rewrite U.
    exists K. eexists; split; [reflexivity|]. split; [|reflexivity].
    constructor; cbn [s3_adr s3_acc s3_customSecret s3_buffer s3_bufferedSize s3_useSeed s3_nbStripesSoFar s3_totalLen
      s3_nbStripesPerBlock s3_secretLimit s3_seed s3_extSecret]; trivial.
    + constructor; cbn; trivial; [llia|]. repeat apply bytes_ok_app; trivial; apply bytes_ok_zslice; assumption.
    + lia.
    + llia.
    + lia.
    + rewrite absorb_app by lia. reflexivity.
    + transitivity (zslice (s3_buffer st) 0 b ++ d); [list_eq|]. rewrite RB. list_eq.
    + intros HK Hb. rewrite (zslice_app_l m d) by lia. rewrite <- RTL by (trivial; lia). list_eq.
  - set (M := m ++ d) in *. assert (LM : zlen M = zlen m + zlen d) by (subst M; llia).
    pose proof (zlen_nonneg s) as Zs.
    set (fill := if b =? 0 then 0 else 256 - b).
    assert (STEP1 : exists K1 buf1,
      (if negb (b =? 0)
       then let! data := load p (256 - b) in
            let! buffer := store (s3_buffer st) b data in
            let! (acc, nbStripesSoFar, _) :=
              consumeStripes c (update_acc_adr c st) (absorb s m K) (K mod X3.stripesPerBlock s) (X3.stripesPerBlock s)
                (Ptr buffer (s3_adr st + 256) 0) 4 (state_secret st) (zlen s - 64) fa fs in
            OK (acc, nbStripesSoFar, buffer, 0, padd p (256 - b))
       else OK (absorb s m K, K mod X3.stripesPerBlock s, s3_buffer st, b, p)) =
      OK (absorb s M K1, K1 mod X3.stripesPerBlock s, buf1, 0, padd p fill)
      /\ zlen buf1 = 256 /\ bytes_ok buf1 /\ 64 * K1 = zlen m + fill /\ (fill = 0 /\ zlen m = 0 \/ 4 <= K1) /\ 0 <= K1 /\
      (0 < K1 -> zslice buf1 192 64 = zslice M (64 * K1 - 64) 64)).
    { subst fill. destruct (Z.eqb_spec b 0) as [E|E]; cbn [negb].
      - assert (K = 0) by lia. subst K. exists 0, (s3_buffer st). rewrite padd_0, E. change (absorb s M 0) with (absorb s m 0).
        repeat split; trivial; try lia; intros; lia.
      - rewrite (load_at0 p d) by (trivial; lia). cbn [bind].
        rewrite store_ok by llia. cbn [bind]. rewrite (zlen_zslice d 0) by lia.
        set (buf1 := zslice (s3_buffer st) 0 b ++ zslice d 0 (256 - b) ++ _).
        assert (L1 : zlen buf1 = 256) by (subst buf1; llia).
        assert (B1 : bytes_ok buf1).
        { subst buf1. repeat apply bytes_ok_app; apply bytes_ok_zslice; assumption. }
        assert (M1 : buf1 = zslice M (64 * K) 256).
        { subst buf1 M. rewrite RB. list_eq. }
        clearbody buf1. rewrite <- (absorb_app s m d K) by lia. fold M.
        rewrite <- (padd_0 (Ptr buf1 (s3_adr st + 256) 0)).
        rewrite (consume_ok s S136 c _ fa fs (Ptr buf1 (s3_adr st + 256) 0) buf1 (state_secret st) 0 K 4 M); trivial; try lia.
        + cbn [bind]. exists (K + 4), buf1. repeat split; trivial; try lia.
          intros _. rewrite M1. replace (64 * (K + 4) - 64) with (64 * K + 192) by lia. apply zslice_zslice; lia.
        + apply local_points.
        + rewrite M1 at 1. rewrite zslice_zslice by lia. f_equal. lia. }
    destruct STEP1 as (K1 & buf1 & -> & L1 & B1 & EK1 & FK1 & PK1 & T1). cbn [bind].
    assert (HF : 0 <= fill <= 256 /\ fill < zlen d) by (subst fill; destruct (Z.eqb_spec b 0); lia).
    clearbody fill.
    unfold pltb at 1. rewrite !poff_padd by assumption.
    replace (poff p + fill <? poff p + zlen d) with true by lia. cbn [assert_ bind].
    replace (poff p + zlen d - (poff p + fill)) with (zlen d - fill) by lia.
    replace (poff p + zlen d - 1 - (poff p + fill)) with (zlen d - fill - 1) by lia.
    assert (STEP2 : exists K2 buf2 f2,
      (if 256 <? zlen d - fill
       then let! (acc, nbStripesSoFar, input) :=
              consumeStripes c (update_acc_adr c st) (absorb s M K1) (K1 mod X3.stripesPerBlock s) (X3.stripesPerBlock s)
                (padd p fill) ((zlen d - fill - 1) / 64) (state_secret st) (zlen s - 64) fa fs in
            let! data := load (padd input (-64)) 64 in
            let! buffer := store buf1 (zlen buf1 - 64) data in
            OK (acc, nbStripesSoFar, buffer, input)
       else OK (absorb s M K1, K1 mod X3.stripesPerBlock s, buf1, padd p fill)) =
      OK (absorb s M K2, K2 mod X3.stripesPerBlock s, buf2, padd p f2)
      /\ zlen buf2 = 256 /\ bytes_ok buf2 /\ 64 * K2 = zlen m + f2 /\ 4 <= K2 /\ fill <= f2 < zlen d /\ zlen d - f2 <= 256 /\
      zslice buf2 192 64 = zslice M (64 * K2 - 64) 64).
    { destruct (Z.ltb_spec 256 (zlen d - fill)) as [H2|H2].
      - assert (Hn : 4 <= (zlen d - fill - 1) / 64 /\ 64 * ((zlen d - fill - 1) / 64) <= zlen d - fill - 1 < 64 * ((zlen d - fill - 1) / 64) + 64) by dlia.
        set (nn := (zlen d - fill - 1) / 64) in *. clearbody nn.
        rewrite (consume_ok s S136 c _ fa fs p d (state_secret st) fill K1 nn M); trivial; try lia.
        + cbn [bind]. rewrite padd_padd. rewrite (load_at p d) by (trivial; lia). cbn [bind].
          rewrite store_ok by llia. cbn [bind]. exists (K1 + nn). eexists. exists (fill + 64 * nn).
          split; [reflexivity|]. split; [llia|]. split; [repeat apply bytes_ok_app; apply bytes_ok_zslice; assumption|].
          split; [lia|]. split; [lia|]. split; [lia|]. split; [lia|].
          replace (64 * (K1 + nn) - 64) with (zlen m + (fill + 64 * nn - 64)) by lia. subst M. rewrite (zslice_app_r m d) by lia.
          list_eq.
        + subst M. rewrite (zslice_app_r m d) by lia. f_equal. lia.
      - exists K1, buf1, fill. split; [reflexivity|]. repeat split; trivial; try lia. apply T1. lia. }
    destruct STEP2 as (K2 & buf2 & f2 & -> & L2 & B2 & EK2 & FK2 & Hf2 & Hr & T2). cbn [bind].
    unfold pltb. rewrite !poff_padd by assumption.
    replace (poff p + f2 <? poff p + zlen d) with true by lia. cbn [assert_ bind].
    replace (poff p + zlen d - (poff p + f2)) with (zlen d - f2) by lia.
    replace (zlen d - f2 <=? 256) with true by lia. cbn [assert_ bind Z.eqb].
    rewrite (load_at p d) by (trivial; lia). cbn [bind]. rewrite store_ok by llia. cbn [bind].
    rewrite (zlen_zslice d) by lia.
    assert (U : u32 (zlen d - f2) = zlen d - f2) by (unfold u32; apply Z.mod_small; lia). rewrite U.
    exists K2. eexists; split; [reflexivity|]. split; [|reflexivity].
    constructor; cbn [s3_adr s3_acc s3_customSecret s3_buffer s3_bufferedSize s3_useSeed s3_nbStripesSoFar s3_totalLen
      s3_nbStripesPerBlock s3_secretLimit s3_seed s3_extSecret]; trivial.
    + constructor; cbn; trivial; [llia|]. repeat apply bytes_ok_app; trivial; apply bytes_ok_zslice; assumption.
    + lia.
    + lia.
    + lia.
    + replace (64 * K2) with (zlen m + f2) by lia. subst M. rewrite (zslice_app_r m d) by lia. list_eq.
    + intros _ Hb. rewrite <- T2. list_eq.
Qed.
