(** Proofs about the candidate filter of the collision tester. *)
From Verif Require Import Base Mem P_Base P_Util SpecColl M_Coll P_Coll1 P_Coll2.
Import Coll.

Lemma nth_firstn_lt (l : list Z) n i d : (i < n)%nat -> nth i (firstn n l) d = nth i l d.
Proof. revert l i. induction n; intros l i H; [lia|]. destruct l; [destruct i; reflexivity|]. destruct i; [reflexivity|]. cbn [firstn nth]. apply IHn. lia. Qed.
Lemma nth_skipn (l : list Z) n i d : nth i (skipn n l) d = nth (n + i) l d.
Proof. revert l. induction n; intros l; [reflexivity|]. destruct l; [destruct i; reflexivity|]. apply IHn. Qed.
Lemma firstn_In (l : list Z) n x : In x (firstn n l) -> In x l.
Proof. revert l. induction n; intros l H; [contradiction|]. destruct l; [contradiction|]. destruct H as [->|H]; [left; reflexivity|right; apply IHn; exact H]. Qed.
Definition mask1 (on : bool) (k : Z) : Z := if on then 2 ^ k else 0.
Lemma mask1_byte on k : 0 <= k < 8 -> byte_ok (mask1 on k).
Proof.
  intros H. unfold byte_ok. destruct on; cbn [mask1]; [|lia]. split; [apply Z.pow_nonneg; lia|].
  change 256 with (2 ^ 8). apply Z.pow_lt_mono_r; lia.
Qed.
Lemma mask1_bit on k j : 0 <= k -> 0 <= j -> Z.testbit (mask1 on k) j = on && (k =? j).
Proof.
  intros K J. destruct on; cbn [mask1 andb]; [|apply Z.bits_0]. rewrite Z.pow2_bits_eqb by exact K. reflexivity.
Qed.
Lemma land_mask x k : 0 <= k -> Z.land x (2 ^ k) = mask1 (Z.testbit x k) k.
Proof.
  intros K. apply Z.bits_inj'. intros j J. rewrite Z.land_spec, mask1_bit, Z.pow2_bits_eqb by assumption.
  destruct (Z.eqb_spec k j) as [->|]; [reflexivity|]. rewrite !andb_false_r. reflexivity.
Qed.
Lemma shr_mask on k : 0 <= k -> shr (mask1 on k) k = Z.b2z on.
Proof.
  intros K. unfold shr. rewrite Z.shiftr_div_pow2 by exact K. destruct on; cbn [mask1 Z.b2z]; [|reflexivity]. apply Z.div_same. pose proof (Z.pow_pos_nonneg 2 k). lia.
Qed.
Lemma mask_hit on hit k : 0 <= k < 8 -> Z.land (mask1 on k) (u32 (- Z.b2z hit)) = mask1 (on && hit) k.
Proof.
  intros K. destruct hit; cbn [Z.b2z]; [|rewrite andb_false_r; apply Z.land_0_r]. rewrite andb_true_r.
  change (u32 (- (1))) with (Z.ones 32). rewrite Z.land_ones by lia. apply Z.mod_small. pose proof (mask1_byte on k K) as B. unfold byte_ok in B. lia.
Qed.
Lemma u8_byte x : byte_ok x -> u8 x = x.
Proof. apply Z.mod_small. Qed.

Lemma or_at_ok b i on : bytes_ok b -> 0 <= i < 8 * zlen b ->
  exists b', or_at b (i / 8) (mask1 on (i mod 8)) = OK b' /\ zlen b' = zlen b /\ bytes_ok b' /\ forall j, 0 <= j -> bit j b' = bit j b || (on && (i =? j)).
Proof.
  intros B H. pose proof (idx_range i b H) as [R RL]. assert (M : 0 <= i mod 8 < 8) by (apply Z.mod_pos_bound; lia).
  unfold or_at. rewrite rd_ok by exact R. cbn [bind]. rewrite wr_ok by exact R. eexists. split; [reflexivity|]. split; [apply zlen_upd|].
  pose proof (bytes_nth b (Z.to_nat (i / 8)) B) as BX. pose proof (mask1_byte on (i mod 8) M) as BM.
  assert (BO : byte_ok (Z.lor (nth (Z.to_nat (i / 8)) b 0) (mask1 on (i mod 8)))).
  { unfold byte_ok in *. split; [apply Z.lor_nonneg; lia|]. change 256 with (2 ^ 8).
    destruct (Z.eq_dec (Z.lor (nth (Z.to_nat (i / 8)) b 0) (mask1 on (i mod 8))) 0) as [->|NZ]; [lia|].
    apply Z.log2_lt_pow2; [|rewrite Z.log2_lor by lia; apply Z.max_lub_lt].
    - assert (0 <= Z.lor (nth (Z.to_nat (i / 8)) b 0) (mask1 on (i mod 8))) by (apply Z.lor_nonneg; lia). lia.
    - destruct (Z.eq_dec (nth (Z.to_nat (i / 8)) b 0) 0) as [->|]; [cbn; lia|apply Z.log2_lt_pow2; lia].
    - destruct (Z.eq_dec (mask1 on (i mod 8)) 0) as [->|]; [cbn; lia|apply Z.log2_lt_pow2; lia]. }
  rewrite u8_byte by exact BO. split; [apply bytes_upd; assumption|].
  intros j J. unfold bit. rewrite nth_upd by exact RL. assert (MJ : 0 <= j mod 8 < 8) by (apply Z.mod_pos_bound; lia).
  pose proof (Z.div_mod i 8 ltac:(lia)) as Di. pose proof (Z.div_mod j 8 ltac:(lia)) as Dj.
  assert (0 <= j / 8) by (apply Z.div_pos; lia).
  destruct (Nat.eqb_spec (Z.to_nat (i / 8)) (Z.to_nat (j / 8))) as [E|E].
  - assert (E' : i / 8 = j / 8) by lia. rewrite <- E'. rewrite Z.lor_spec, mask1_bit by lia. do 2 f_equal.
    destruct (Z.eqb_spec (i mod 8) (j mod 8)), (Z.eqb_spec i j); try reflexivity; lia.
  - replace (i =? j) with false; [rewrite andb_false_r, orb_false_r; reflexivity|]. symmetry. apply Z.eqb_neq. intros ->. lia.
Qed.

Section Filter.
Context (c : cfg) (bflog : Z).
Hypothesis LOG : 6 <= bflog < szbits c.

(** the cache line of a hash and its two slots *)
Definition line (h : Z) : Z := (avalanche64 h / 2 ^ 16) mod 2 ^ (bflog - 6).
Definition slot1 (h : Z) : Z := avalanche64 h mod 256.
Definition slot2 (h : Z) : Z := (avalanche64 h / 256) mod 256.
Lemma line_range h : 0 <= line h < 2 ^ (bflog - 6).
Proof. apply Z.mod_pos_bound. apply Z.pow_pos_nonneg; lia. Qed.
Lemma slot1_range h : 0 <= slot1 h < 256. Proof. apply Z.mod_pos_bound. lia. Qed.
Lemma slot2_range h : 0 <= slot2 h < 256. Proof. apply Z.mod_pos_bound. lia. Qed.
Lemma log_split : 2 ^ bflog = 64 * 2 ^ (bflog - 6) /\ 0 < 2 ^ (bflog - 6) /\ 2 ^ bflog < 2 ^ szbits c /\ 2 ^ bflog <= 2 ^ szbits c - 2 ^ bflog.
Proof.
  split; [change 64 with (2 ^ 6); rewrite <- Z.pow_add_r by lia; f_equal; lia|]. split; [apply Z.pow_pos_nonneg; lia|].
  assert (2 ^ bflog * 2 <= 2 ^ szbits c). { rewrite Z.mul_comm, <- Z.pow_succ_r by lia. apply Z.pow_le_mono_r; lia. }
  assert (0 < 2 ^ bflog) by (apply Z.pow_pos_nonneg; lia). lia.
Qed.
Lemma shl1_ok : shl1 c (bflog - 6) = OK (2 ^ (bflog - 6)).
Proof. unfold shl1. replace ((0 <=? bflog - 6) && (bflog - 6 <? szbits c)) with true by lia. reflexivity. Qed.
Lemma line_eq h : Z.land (usz c (shr (shr (avalanche64 h) 8) 8)) (2 ^ (bflog - 6) - 1) = line h.
Proof.
  pose proof log_split as (_ & P & _). rewrite Z.sub_1_r, <- Z.ones_equiv, Z.land_ones by lia. unfold usz, shr, line. rewrite Z.shiftr_shiftr, Z.shiftr_div_pow2 by lia.
  rewrite <- Znumtheory.Zmod_div_mod; trivial; [apply Z.pow_pos_nonneg; lia|].
  exists (2 ^ (szbits c - (bflog - 6))). rewrite <- Z.pow_add_r by lia. f_equal. lia.
Qed.
Lemma slot1_eq h : Z.land (avalanche64 h) 255 = slot1 h.
Proof. change 255 with (Z.ones 8). rewrite Z.land_ones by lia. reflexivity. Qed.
Lemma slot2_eq h : Z.land (shr (avalanche64 h) 8) 255 = slot2 h.
Proof. change 255 with (Z.ones 8). unfold shr. rewrite Z.land_ones, Z.shiftr_div_pow2 by lia. reflexivity. Qed.
Lemma pos_eq w l s : 0 <= l < 2 ^ (bflog - 6) -> 0 <= s < 256 -> w = 5 \/ w = 6 ->
  usz c (usz c (Z.shiftl l w) + shr s 3) = (8 * 2 ^ w * l + s) / 8 /\ Z.land s 7 = (8 * 2 ^ w * l + s) mod 8 /\
  0 <= 8 * 2 ^ w * l + s /\ (8 * 2 ^ w * l + s) / 8 + 32 < 2 ^ szbits c.
Proof.
  intros L S W. pose proof log_split as (E & P & Q & _). rewrite Z.shiftl_mul_pow2 by lia. unfold shr. rewrite Z.shiftr_div_pow2 by lia. change (2 ^ 3) with 8.
  assert (D : (8 * 2 ^ w * l + s) / 8 = l * 2 ^ w + s / 8).
  { replace (8 * 2 ^ w * l + s) with (s + l * 2 ^ w * 8) by lia. rewrite Z.div_add by lia. lia. }
  assert (S8 : 0 <= s / 8 < 32) by (split; [apply Z.div_pos; lia|apply Z.div_lt_upper_bound; lia]).
  assert (W2 : 2 ^ w = 32 \/ 2 ^ w = 64) by (destruct W as [-> | ->]; cbn; lia).
  unfold usz. rewrite D. rewrite (Z.mod_small (l * 2 ^ w)) by nia. rewrite Z.mod_small by nia. split; [reflexivity|].
  split; [|nia]. change 7 with (Z.ones 3). rewrite Z.land_ones by lia. change (2 ^ 3) with 8.
  replace (8 * 2 ^ w * l + s) with (s + l * 2 ^ w * 8) by lia. rewrite Z.mod_add by lia. reflexivity.
Qed.

(** ** insertion *)
Definition at1 (h : Z) : Z := 512 * line h + slot1 h.
Definition at2 (h : Z) : Z := 512 * line h + slot2 h.
Definition hit (b : list Z) (h : Z) : bool := bit (at1 h) b && bit (at2 h) b.
Lemma insert_ok b h : bytes_ok b -> zlen b = 2 ^ bflog ->
  exists b', Filter_insert c b bflog h = OK (Z.b2z (hit b h), b') /\ bytes_ok b' /\ zlen b' = 2 ^ bflog /\
    forall j, 0 <= j -> bit j b' = bit j b || (at1 h =? j) || (at2 h =? j) || (hit b h && ((at1 h + 256 =? j) || (at2 h + 256 =? j))).
Proof.
  intros B L. pose proof log_split as (E64 & P & Q & _). pose proof (line_range h) as LR. pose proof (slot1_range h) as R1. pose proof (slot2_range h) as R2.
  unfold Filter_insert. cbv zeta. rewrite shl1_ok. cbn [bind]. rewrite line_eq, slot1_eq, slot2_eq.
  destruct (pos_eq 6 (line h) (slot1 h) LR R1 (or_intror eq_refl)) as (E1 & M1 & N1 & B1).
  destruct (pos_eq 6 (line h) (slot2 h) LR R2 (or_intror eq_refl)) as (E2 & M2 & N2 & B2).
  rewrite E1, E2, M1, M2. change (8 * 2 ^ 6) with 512 in *. fold (at1 h) (at2 h) in *.
  assert (A1 : 0 <= at1 h + 256 < 8 * zlen b) by (unfold at1; lia). assert (A2 : 0 <= at2 h + 256 < 8 * zlen b) by (unfold at2; lia).
  assert (D1 : usz c (at1 h / 8 + 32) = (at1 h + 256) / 8).
  { replace (at1 h + 256) with (at1 h + 32 * 8) by lia. rewrite Z.div_add by lia. apply Z.mod_small. assert (0 <= at1 h / 8) by (apply Z.div_pos; lia). lia. }
  assert (D2 : usz c (at2 h / 8 + 32) = (at2 h + 256) / 8).
  { replace (at2 h + 256) with (at2 h + 32 * 8) by lia. rewrite Z.div_add by lia. apply Z.mod_small. assert (0 <= at2 h / 8) by (apply Z.div_pos; lia). lia. }
  assert (K1 : at1 h mod 8 = (at1 h + 256) mod 8) by (replace (at1 h + 256) with (at1 h + 32 * 8) by lia; rewrite Z.mod_add by lia; reflexivity).
  assert (K2 : at2 h mod 8 = (at2 h + 256) mod 8) by (replace (at2 h + 256) with (at2 h + 32 * 8) by lia; rewrite Z.mod_add by lia; reflexivity).
  assert (Q1 : 0 <= at1 h mod 8 < 8) by (apply Z.mod_pos_bound; lia). assert (Q2 : 0 <= at2 h mod 8 < 8) by (apply Z.mod_pos_bound; lia).
  rewrite D1, D2. rewrite !rd_ok by (apply idx_range; lia). cbn [bind].
  rewrite !Z.shiftl_1_l. assert (U : forall k, 0 <= k < 8 -> u32 (2 ^ k) = 2 ^ k).
  { intros k K. apply Z.mod_small. split; [apply Z.pow_nonneg; lia|]. change M32 with (2 ^ 32). apply Z.pow_lt_mono_r; lia. }
  rewrite !U by assumption. rewrite !land_mask by lia. fold (bit (at1 h) b) (bit (at2 h) b). rewrite !shr_mask by lia.
  replace (Z.land (Z.b2z (bit (at1 h) b)) (Z.b2z (bit (at2 h) b))) with (Z.b2z (hit b h)) by (unfold hit; destruct (bit (at1 h) b), (bit (at2 h) b); reflexivity).
  rewrite !mask_hit by assumption.
  replace (bit (at1 h) b && hit b h) with (hit b h) by (unfold hit; destruct (bit (at1 h) b), (bit (at2 h) b); reflexivity).
  replace (bit (at2 h) b && hit b h) with (hit b h) by (unfold hit; destruct (bit (at1 h) b), (bit (at2 h) b); reflexivity).
  rewrite !(u8_byte (mask1 _ _)) by (apply mask1_byte; assumption).
  change (2 ^ (at1 h mod 8)) with (mask1 true (at1 h mod 8)). change (2 ^ (at2 h mod 8)) with (mask1 true (at2 h mod 8)).
  rewrite !(u8_byte (mask1 true _)) by (apply mask1_byte; assumption).
  set (ht := hit b h) in *. clearbody ht.
  replace (mask1 ht (at1 h mod 8)) with (mask1 ht ((at1 h + 256) mod 8)) by (rewrite K1; reflexivity). destruct (or_at_ok b (at1 h + 256) ht B A1) as (b1 & -> & L1 & O1 & T1). cbn [bind].
  replace (mask1 ht (at2 h mod 8)) with (mask1 ht ((at2 h + 256) mod 8)) by (rewrite K2; reflexivity). destruct (or_at_ok b1 (at2 h + 256) ht O1 ltac:(lia)) as (b2 & -> & L2 & O2 & T2). cbn [bind].
  destruct (or_at_ok b2 (at1 h) true O2 ltac:(lia)) as (b3 & -> & L3 & O3 & T3). cbn [bind].
  destruct (or_at_ok b3 (at2 h) true O3 ltac:(lia)) as (b4 & -> & L4 & O4 & T4). cbn [bind].
  exists b4. split; [reflexivity|]. split; [exact O4|]. split; [lia|]. intros j J. rewrite T4, T3, T2, T1 by exact J.
  destruct (bit j b), (at1 h =? j), (at2 h =? j), (at1 h + 256 =? j), (at2 h + 256 =? j), ht; reflexivity.
Qed.

(** what the filter holds after a list of insertions *)
Definition seen (l : list Z) (b : list Z) : Prop :=
  bytes_ok b /\ zlen b = 2 ^ bflog /\
  (forall h, In h l -> bit (at1 h) b = true /\ bit (at2 h) b = true) /\
  (forall h, (2 <= count_occ Z.eq_dec l h)%nat -> bit (at1 h + 256) b = true /\ bit (at2 h + 256) b = true).
Lemma at_nonneg h : 0 <= at1 h /\ 0 <= at2 h.
Proof. pose proof (line_range h). pose proof (slot1_range h). pose proof (slot2_range h). unfold at1, at2. lia. Qed.
Lemma seen_empty b : create_Filter c bflog = OK b -> seen [] b.
Proof.
  unfold create_Filter. destruct ((bflog <? 64) && (1 <? bflog)); cbn [assert_ bind]; [|discriminate]. unfold shl1.
  replace ((0 <=? bflog) && (bflog <? szbits c)) with true by lia. cbn [bind]. intros E. injection E as <-.
  split; [apply Forall_forall; intros x I; apply repeat_spec in I; subst x; unfold byte_ok; lia|]. split; [rewrite zlen_repeat; pose proof (Z.pow_nonneg 2 bflog); lia|].
  split; [contradiction|]. cbn. lia.
Qed.
Lemma seen_insert l b h : seen l b -> exists r b', Filter_insert c b bflog h = OK (r, b') /\ (r = 0 \/ r = 1) /\ (In h l -> r = 1) /\ seen (l ++ [h]) b'.
Proof.
  intros (B & L & S1 & S2). destruct (insert_ok b h B L) as (b' & E & B' & L' & T). exists (Z.b2z (hit b h)), b'. split; [exact E|].
  split; [destruct (hit b h); cbn; lia|]. split; [intros I; destruct (S1 h I) as [H1 H2]; unfold hit; rewrite H1, H2; reflexivity|].
  split; [exact B'|]. split; [exact L'|]. split.
  - intros x I. pose proof (at_nonneg x) as [X1 X2]. rewrite !T by assumption. apply in_app_or in I. destruct I as [I|[<-|[]]].
    + destruct (S1 x I) as [-> ->]. split; reflexivity.
    + rewrite !Z.eqb_refl. split; rewrite ?orb_true_r; reflexivity.
  - intros x H. pose proof (at_nonneg x) as [X1 X2]. rewrite !T by lia. rewrite count_occ_app in H. cbn [count_occ] in H.
    destruct (Z.eq_dec h x) as [<-|NE].
    + assert (I : In h l) by (apply (count_occ_In Z.eq_dec); lia). destruct (S1 h I) as [H1 H2]. unfold hit. rewrite H1, H2, !Z.eqb_refl. cbn [andb orb].
      rewrite ?orb_true_r. split; reflexivity.
    + destruct (S2 x ltac:(lia)) as [-> ->]. split; reflexivity.
Qed.

(** ** reduction *)
Lemma reduce_loop b : bytes_ok b -> zlen b = 2 ^ bflog -> forall k i b1, 0 <= i -> i + Z.of_nat k = 2 ^ (bflog - 6) -> zlen b1 = 2 ^ bflog -> bytes_ok b1 ->
  (forall l j, 0 <= l < i -> 0 <= j < 32 -> nth (Z.to_nat (32 * l + j)) b1 0 = nth (Z.to_nat (64 * l + 32 + j)) b 0) ->
  (forall p, 32 * i <= p < zlen b -> nth (Z.to_nat p) b1 0 = nth (Z.to_nat p) b 0) ->
  exists b2, for_ k i (fun lineNb bf => let! l := load (Ptr bf 0 (lineNb * 64 + 32)) 32 in store bf (lineNb * 32) l) b1 = OK b2 /\ zlen b2 = 2 ^ bflog /\ bytes_ok b2 /\
    forall l j, 0 <= l < 2 ^ (bflog - 6) -> 0 <= j < 32 -> nth (Z.to_nat (32 * l + j)) b2 0 = nth (Z.to_nat (64 * l + 32 + j)) b 0.
Proof.
  pose proof log_split as (E64 & P & _). intros B L k. induction k as [|k IH]; intros i b1 I E L1 B1 A1 A2.
  - exists b1. split; [reflexivity|]. split; [exact L1|]. split; [exact B1|]. intros l j Hl Hj. apply A1; lia.
  - cbn [for_]. unfold load at 1. replace ((0 <=? i * 64 + 32) && (0 <=? 32) && (i * 64 + 32 + 32 <=? zlen b1)) with true by lia. cbn [bind].
    set (src := zslice b1 (i * 64 + 32) 32). assert (LS : zlen src = 32) by (apply zlen_zslice; lia). rewrite store_ok by lia. cbn [bind]. rewrite LS.
    set (b3 := zslice b1 0 (i * 32) ++ src ++ zslice b1 (i * 32 + 32) (zlen b1 - i * 32 - 32)).
    assert (L3 : zlen b3 = zlen b1) by (unfold b3; rewrite !zlen_app, LS, !zlen_zslice by lia; lia).
    assert (NZ : forall (l : list Z) o n p, 0 <= o -> 0 <= p < n -> o + n <= zlen l -> nth (Z.to_nat p) (zslice l o n) 0 = nth (Z.to_nat (o + p)) l 0).
    { intros l o n p Ho Hp Hl. unfold zslice. rewrite nth_firstn_lt by lia. rewrite nth_skipn. f_equal. lia. }
    assert (N3 : forall p, 0 <= p < zlen b1 -> nth (Z.to_nat p) b3 0 = if (i * 32 <=? p) && (p <? i * 32 + 32) then nth (Z.to_nat (i * 64 + 32 + (p - i * 32))) b1 0 else nth (Z.to_nat p) b1 0).
    { intros p Hp. unfold b3. assert (LA : zlen (zslice b1 0 (i * 32)) = i * 32) by (apply zlen_zslice; lia).
      assert (LC : length (zslice b1 0 (i * 32)) = Z.to_nat (i * 32)) by (unfold zlen in LA; lia). assert (LD : length src = 32%nat) by (unfold zlen in LS; lia).
      destruct (Z.leb_spec (i * 32) p); cbn [andb].
      - rewrite app_nth2 by lia. destruct (Z.ltb_spec p (i * 32 + 32)).
        + rewrite app_nth1 by lia. unfold src. replace (Z.to_nat p - length (zslice b1 0 (i * 32)))%nat with (Z.to_nat (p - i * 32)) by lia. apply NZ; lia.
        + rewrite app_nth2 by lia. replace (Z.to_nat p - length (zslice b1 0 (i * 32)) - length src)%nat with (Z.to_nat (p - (i * 32 + 32))) by lia.
          rewrite NZ by lia. f_equal. lia.
      - rewrite app_nth1 by lia. rewrite NZ by lia. reflexivity. }
    apply IH; try lia.
    + unfold b3. apply Forall_app. split; [apply bytes_ok_zslice; exact B1|]. apply Forall_app. split; apply bytes_ok_zslice; exact B1.
    + intros l j Hl Hj. rewrite N3 by lia. destruct (Z.eq_dec l i) as [->|].
      * replace ((i * 32 <=? 32 * i + j) && (32 * i + j <? i * 32 + 32)) with true by lia. rewrite A2 by lia. f_equal. lia.
      * replace ((i * 32 <=? 32 * l + j) && (32 * l + j <? i * 32 + 32)) with false by lia. apply A1; lia.
    + intros p Hp. rewrite N3 by lia. replace ((i * 32 <=? p) && (p <? i * 32 + 32)) with false by lia. apply A2. lia.
Qed.
Lemma reduce_ok b : 7 <= bflog < 64 -> bytes_ok b -> zlen b = 2 ^ bflog ->
  exists b', Filter_reduce c b bflog = OK b' /\ bytes_ok b' /\ zlen b' = 2 ^ (bflog - 1) /\
    forall l s, 0 <= l < 2 ^ (bflog - 6) -> 0 <= s < 256 -> bit (256 * l + s) b' = bit (512 * l + 256 + s) b.
Proof.
  intros L63 B L. pose proof log_split as (E64 & P & Q & _). unfold Filter_reduce. replace ((6 <? bflog) && (bflog <? 64)) with true by lia. cbn [assert_ bind].
  rewrite shl1_ok. cbn [bind]. destruct (reduce_loop b B L (Z.to_nat (2 ^ (bflog - 6))) 0 b) as (b2 & -> & L2 & B2 & N2); trivial; try lia.
  cbn [bind]. assert (E1 : 2 ^ (bflog - 1) = 32 * 2 ^ (bflog - 6)) by (change 32 with (2 ^ 5); rewrite <- Z.pow_add_r by lia; f_equal; lia).
  rewrite Z.shiftl_mul_pow2 by lia. change (2 ^ 5) with 32. unfold usz. rewrite Z.mod_small by lia.
  eexists. split; [reflexivity|]. split; [apply Forall_forall; intros x Ix; unfold bytes_ok in B2; rewrite Forall_forall in B2; apply B2; apply (firstn_In _ _ _ Ix)|].
  split; [unfold zlen in *; rewrite firstn_length; lia|].
  intros l s Hl Hs. unfold bit. assert (S8 : 0 <= s / 8 < 32) by (split; [apply Z.div_pos; lia|apply Z.div_lt_upper_bound; lia]).
  replace (256 * l + s) with (s + (32 * l) * 8) by lia. replace (512 * l + 256 + s) with (s + (64 * l + 32) * 8) by lia. rewrite !Z.div_add, !Z.mod_add by lia.
  f_equal. rewrite nth_firstn_lt by lia. rewrite <- (Z.add_comm (32 * l)), (Z.add_comm (s / 8)). apply N2; assumption.
Qed.

(** ** checking *)
Lemma check_ok b h : bytes_ok b -> zlen b = 2 ^ (bflog - 1) ->
  Filter_check c b bflog h = OK (Z.b2z (bit (256 * line h + slot1 h) b && bit (256 * line h + slot2 h) b)).
Proof.
  intros B L. pose proof log_split as (E64 & P & Q & _). pose proof (line_range h) as LR. pose proof (slot1_range h) as R1. pose proof (slot2_range h) as R2.
  assert (E1 : 2 ^ (bflog - 1) = 32 * 2 ^ (bflog - 6)) by (change 32 with (2 ^ 5); rewrite <- Z.pow_add_r by lia; f_equal; lia).
  unfold Filter_check. cbv zeta. rewrite shl1_ok. cbn [bind]. rewrite line_eq, slot1_eq, slot2_eq.
  destruct (pos_eq 5 (line h) (slot1 h) LR R1 (or_introl eq_refl)) as (F1 & M1 & N1 & _).
  destruct (pos_eq 5 (line h) (slot2 h) LR R2 (or_introl eq_refl)) as (F2 & M2 & N2 & _).
  rewrite F1, F2, M1, M2. change (8 * 2 ^ 5) with 256 in *. rewrite !rd_ok by (apply idx_range; lia). cbn [bind].
  assert (G : forall x k, 0 <= k -> Z.land (shr x k) 1 = Z.b2z (Z.testbit x k)).
  { intros x k K. change 1 with (Z.ones 1). rewrite Z.land_ones by lia. unfold shr. rewrite Z.testbit_spec' by exact K. rewrite Z.shiftr_div_pow2 by exact K. reflexivity. }
  assert (Q1 : forall i, 0 <= i mod 8) by (intros i; apply Z.mod_pos_bound; lia).
  rewrite !G by apply Q1. unfold bit. f_equal. destruct (Z.testbit _ _), (Z.testbit _ _); reflexivity.
Qed.

(** what is left after reduction: every hash that was inserted twice passes *)
Lemma seen_check l b : 7 <= bflog < 64 -> seen l b -> exists b', Filter_reduce c b bflog = OK b' /\
  (forall h, exists r, Filter_check c b' bflog h = OK r /\ (r = 0 \/ r = 1)) /\
  forall h, (2 <= count_occ Z.eq_dec l h)%nat -> Filter_check c b' bflog h = OK 1.
Proof.
  intros L63 (B & L & _ & S2). destruct (reduce_ok b L63 B L) as (b' & E & B' & L' & T). exists b'. split; [exact E|]. split.
  - intros h. rewrite check_ok by assumption. eexists. split; [reflexivity|]. destruct (_ && _); cbn; lia.
  - intros h H. rewrite check_ok by assumption. destruct (S2 h H) as [H1 H2].
    rewrite !T by (apply line_range || apply slot1_range || apply slot2_range).
    replace (512 * line h + 256 + slot1 h) with (at1 h + 256) by (unfold at1; lia). replace (512 * line h + 256 + slot2 h) with (at2 h + 256) by (unfold at2; lia).
    rewrite H1, H2. reflexivity.
Qed.
End Filter.
