(** Proofs about the search of the collision tester. *)
From Coq Require Import Permutation Sorted.
From Verif Require Import Base Mem P_Base P_Util SpecColl M_Coll P_Coll1 P_Coll2 P_Coll3 P_Coll4.
Import Coll.

(** ** duplicates of a list: elements minus distinct elements *)
Lemma filter_split {A} (f : A -> bool) (l : list A) : zlen l = zlen (filter f l) + zlen (filter (fun x => negb (f x)) l).
Proof. induction l as [|x l IH]; [reflexivity|]. cbn [filter]. destruct (f x); cbn [negb]; rewrite !zlen_cons; lia. Qed.
Lemma nodup_filter (f : Z * Z -> bool) l : nodup pair_dec (filter f l) = filter f (nodup pair_dec l).
Proof.
  induction l as [|x l IH]; [reflexivity|]. cbn [filter nodup]. destruct (f x) eqn:F.
  - cbn [nodup]. destruct (in_dec pair_dec x (filter f l)) as [I|I], (in_dec pair_dec x l) as [J|J].
    + exact IH.
    + apply filter_In in I. tauto.
    + destruct I. apply filter_In. tauto.
    + cbn [filter]. rewrite F, IH. reflexivity.
  - destruct (in_dec pair_dec x l); [exact IH|]. cbn [filter]. rewrite F. exact IH.
Qed.
Lemma dups_split f l : dups l = dups (filter f l) + dups (filter (fun x => negb (f x)) l).
Proof. unfold dups. rewrite !nodup_filter. pose proof (filter_split f l). pose proof (filter_split f (nodup pair_dec l)). lia. Qed.
Lemma dups_nodup l : NoDup l -> dups l = 0.
Proof. intros H. unfold dups. rewrite nodup_fixed_point by exact H. lia. Qed.
Lemma dups_filter f l : (forall x, (2 <= count_occ pair_dec l x)%nat -> f x = true) -> dups (filter f l) = dups l.
Proof.
  intros H. rewrite (dups_split f l). rewrite (dups_nodup (filter (fun x => negb (f x)) l)); [lia|].
  apply (NoDup_count_occ pair_dec). intros x. destruct (f x) eqn:F.
  - rewrite (proj1 (count_occ_not_In pair_dec _ x)); [lia|]. intros I. apply filter_In in I. rewrite F in I. destruct I. discriminate.
  - assert (count_occ pair_dec (filter (fun x => negb (f x)) l) x <= count_occ pair_dec l x)%nat.
    { clear. induction l as [|y l IH]; [cbn; lia|]. cbn [filter]. destruct (negb (f y)); cbn [count_occ]; destruct (pair_dec y x); lia. }
    destruct (Nat.lt_ge_cases (count_occ pair_dec l x) 2); [lia|]. rewrite H in F by assumption. discriminate.
Qed.
Lemma dups_perm l l' : Permutation l l' -> dups l = dups l'.
Proof.
  intros P. unfold dups. unfold zlen. rewrite (Permutation_length P). do 2 f_equal. apply Permutation_length.
  apply NoDup_Permutation; try apply NoDup_nodup. intros x. rewrite !nodup_In. split; apply Permutation_in; [|apply Permutation_sym]; exact P.
Qed.

(** ** counting equal neighbours in a sorted table *)
Definition same (a b : Z * Z) : bool := (fst a =? fst b) && (snd a =? snd b).
Lemma same_spec a b : reflect (a = b) (same a b).
Proof.
  unfold same. destruct a as [a1 a2], b as [b1 b2]. cbn [fst snd]. destruct (Z.eqb_spec a1 b1), (Z.eqb_spec a2 b2); constructor; congruence.
Qed.
Fixpoint pairs (x : Z * Z) (l : list (Z * Z)) : Z := match l with [] => 0 | y :: l => (if same y x then 1 else 0) + pairs y l end.
Lemma count_pairs x l : count_dups same (x :: l) = pairs x l.
Proof.
  assert (G : forall pre y l acc, for_ (length l) (zlen pre + 1) (fun n acc =>
      OK (if same (nth (Z.to_nat n) (pre ++ y :: l) (0, 0)) (nth (Z.to_nat (n - 1)) (pre ++ y :: l) (0, 0)) then acc + 1 else acc)) acc = OK (acc + pairs y l)).
  { intros pre y l0. revert pre y. induction l0 as [|z l0 IH]; intros pre y acc.
    - cbn [length for_ pairs]. f_equal. lia.
    - cbn [length for_ bind pairs]. pose proof (zlen_nonneg pre). unfold zlen in *.
      rewrite app_nth2 by lia. rewrite app_nth2 by lia. replace (Z.to_nat (Z.of_nat (length pre) + 1) - length pre)%nat with 1%nat by lia.
      replace (Z.to_nat (Z.of_nat (length pre) + 1 - 1) - length pre)%nat with 0%nat by lia. cbn [nth].
      specialize (IH (pre ++ [y]) z). rewrite <- app_assoc in IH. cbn [app] in IH. rewrite app_length in IH. cbn [length] in IH.
      replace (Z.of_nat (length pre) + 1 + 1) with (Z.of_nat (length pre + 1) + 1) by lia. rewrite IH. f_equal. destruct (same z y); lia. }
  unfold count_dups. cbn [length]. rewrite Nat.sub_succ, Nat.sub_0_r. change 1 with (zlen (@nil (Z * Z)) + 1) at 1.
  change (x :: l) with ([] ++ x :: l). rewrite G. lia.
Qed.
Lemma pairs_dups (le : Z * Z -> Z * Z -> Prop) x l : (forall a b, le a b -> le b a -> a = b) -> StronglySorted le (x :: l) -> pairs x l = dups (x :: l).
Proof.
  intros AS. revert x. induction l as [|y l IH]; intros x S; [reflexivity|]. cbn [pairs]. apply StronglySorted_inv in S. destruct S as [S F].
  rewrite (IH y S). unfold dups. rewrite !(zlen_cons x). change (nodup pair_dec (x :: y :: l)) with (if in_dec pair_dec x (y :: l) then nodup pair_dec (y :: l) else x :: nodup pair_dec (y :: l)).
  destruct (same_spec y x) as [->|NE].
  - destruct (in_dec pair_dec x (x :: l)) as [|N]; [lia|]. destruct N. left. reflexivity.
  - destruct (in_dec pair_dec x (y :: l)) as [I|I]; [|rewrite (zlen_cons x); lia]. exfalso. destruct I as [|I]; [contradiction|].
    apply StronglySorted_inv in S. destruct S as [_ FY]. rewrite Forall_forall in FY, F. apply NE. apply AS; [apply FY; exact I|apply F; left; reflexivity].
Qed.
Lemma count_dups_ok (le : Z * Z -> Z * Z -> Prop) l : (forall a b, le a b -> le b a -> a = b) -> StronglySorted le l -> count_dups same l = dups l.
Proof. destruct l as [|x l]; [reflexivity|]. intros AS S. rewrite count_pairs. apply (pairs_dups le); assumption. Qed.

(** ** the passes *)
Section Lists.
Context (base : list Z) (H : list Z -> Z * Z) (bits : Z) (p : params).
Let U := upto 14 (8 * zlen base).
Definition samples (n : nat) : list (list Z) := map (fun i => flips base (nth i U [])) (seq 1 n).
Definition hashes (n : nat) : list (Z * Z) := filter (selected p) (map H (samples n)).
Lemma hashes_S n : hashes (S n) = hashes n ++ (if selected p (H (flips base (nth (S n) U []))) then [H (flips base (nth (S n) U []))] else []).
Proof.
  unfold hashes, samples. rewrite seq_S, !map_app, filter_app. cbn [map filter]. replace (1 + n)%nat with (S n) by lia. reflexivity.
Qed.
Section Table.
Context (chk : Z -> bool).
Definition table (n : nat) : list (Z * Z) := map (key bits) (filter (fun h => chk (fst h)) (hashes n)).
Lemma table_S n : table (S n) = table n ++ (let h := H (flips base (nth (S n) U [])) in if selected p h && chk (fst h) then [key bits h] else []).
Proof.
  unfold table. rewrite hashes_S, filter_app, map_app. f_equal. cbv zeta. destruct (selected p _); [|reflexivity]. cbn [filter andb]. destruct (chk _); reflexivity.
Qed.
Lemma table_mono k i : zlen (table i) <= zlen (table (i + k)).
Proof.
  induction k as [|k IH]; [rewrite Nat.add_0_r; lia|]. replace (i + S k)%nat with (S (i + k)) by lia. rewrite table_S, zlen_app.
  match goal with |- context [zlen (table (i + k)) + zlen ?x] => pose proof (zlen_nonneg x) end. lia.
Qed.
End Table.
Lemma table_all n : map (key bits) (hashes n) = table (fun _ => true) n.
Proof. unfold table. f_equal. generalize (hashes n). intros l. induction l as [|x l IH]; [reflexivity|]. cbn [filter]. rewrite <- IH. reflexivity. Qed.
Lemma hashes_len n : zlen (hashes n) <= Z.of_nat n.
Proof.
  induction n as [|n IH]; [reflexivity|]. rewrite hashes_S, zlen_app. destruct (selected _ _); cbn [zlen length]; unfold zlen in *; cbn [length]; lia.
Qed.
End Lists.
Section Passes.
Context (c : cfg) (base : list Z) (hfunction : list Z -> res (Z * Z)) (H : list Z -> Z * Z) (bits : Z) (p : params).
Hypothesis BB : bytes_ok base.
Hypothesis SZ : 8 * zlen base < 2 ^ szbits c.
Hypothesis S2 : 2 <= zlen base.
Hypothesis HF : forall b, zlen b = zlen base -> bytes_ok b -> hfunction b = OK (H b).
Let U := upto 14 (8 * zlen base).
Notation hashes := (hashes base H p).
Lemma next_sample sf n : (S n < length U)%nat -> holds base (nth n U []) sf ->
  exists sf', sparse_update c sf = OK sf' /\ holds base (nth (S n) U []) sf' /\ f_prngSeed sf' = f_prngSeed sf /\ hfunction (f_buffer sf') = OK (H (flips base (nth (S n) U []))).
Proof.
  intros L Hs. assert (L14 : Z.of_nat 14 <= 8 * zlen base) by lia. pose proof (upto_orbit 14 _ L14) as O. fold U in O.
  assert (I : In (nth n U []) U) by (apply nth_In; lia). apply in_upto in I. destruct I as [L1 B1].
  destruct (sparse_update_ok c base BB SZ (nth n U []) (nth (S n) U []) sf ltac:(lia) L1 B1 Hs (orbit_nth _ _ [] n O L)) as (sf' & E & Hs' & P).
  exists sf'. split; [exact E|]. split; [exact Hs'|]. split; [exact P|]. destruct Hs' as (-> & _). apply HF; [apply flips_len|apply flips_bytes; exact BB].
Qed.

Section P1.
Context (bflog : Z).
Hypothesis LOG : 6 <= bflog < szbits c.
Lemma pass1_loop : forall k i sf bf m j, (i + k < length U)%nat -> Z.of_nat (i + k) < 2 ^ 58 -> holds base (nth i U []) sf ->
  seen bflog (map fst (hashes i)) bf -> 0 <= m <= 2 * Z.of_nat i -> (m = 0 -> NoDup (map fst (hashes i))) ->
  exists sf' bf' m', for_ k j (fun n '(sf, bf, maxNbH) =>
    let! sf := sparse_update c sf in
    let! h := hfunction (f_buffer sf) in
    if negb (selected p h) then OK (sf, bf, maxNbH)
    else
      let! r := Filter_insert c bf bflog (fst h) in
      let '(hit, bf) := r in
      OK (sf, bf, add64 maxNbH (2 * hit))) (sf, bf, m) = OK (sf', bf', m') /\ holds base (nth (i + k) U []) sf' /\ f_prngSeed sf' = f_prngSeed sf /\
    seen bflog (map fst (hashes (i + k))) bf' /\ 0 <= m' <= 2 * Z.of_nat (i + k) /\ (m' = 0 -> NoDup (map fst (hashes (i + k)))).
Proof.
  induction k as [|k IH]; intros i sf bf m j L L58 Hs Sn M ND.
  - exists sf, bf, m. rewrite Nat.add_0_r. split; [reflexivity|]. split; [exact Hs|]. split; [reflexivity|]. split; [exact Sn|]. split; [exact M|exact ND].
  - cbn [for_]. destruct (next_sample sf i ltac:(lia) Hs) as (sf1 & -> & Hs1 & P1 & E1). cbn [bind]. rewrite E1. cbn [bind].
    set (h := H (flips base (nth (S i) U []))) in *. pose proof (hashes_S base H p i) as HS. fold U in HS. fold h in HS. replace (i + S k)%nat with (S i + k)%nat in * by lia.
    destruct (selected p h) eqn:SEL; cbn [negb].
    + destruct (seen_insert c bflog LOG _ _ (fst h) Sn) as (r & bf1 & -> & R & RI & Sn1). cbn [bind].
      assert (A : add64 m (2 * r) = m + 2 * r) by (unfold add64, u64; apply Z.mod_small; change M64 with (2 ^ 64); lia). rewrite A.
      assert (HS' : map fst (hashes (S i)) = map fst (hashes i) ++ [fst h]) by (rewrite HS, map_app; reflexivity).
      destruct (IH (S i) sf1 bf1 (m + 2 * r) (j + 1) L L58 Hs1) as (sf' & bf' & m' & E & G1 & G2 & G3); [rewrite HS'; exact Sn1|destruct R; lia| |].
      * intros Z0. rewrite HS'. apply nodup_app; [apply ND; lia|constructor; [intros []|constructor]|].
        intros x I [<-|[]]. specialize (RI I). lia.
      * exists sf', bf', m'. rewrite G2. split; [exact E|]. split; [exact G1|]. split; [exact P1|exact G3].
    + rewrite app_nil_r in HS. destruct (IH (S i) sf1 bf m (j + 1) L L58 Hs1) as (sf' & bf' & m' & E & G1 & G2 & G3); [rewrite HS; exact Sn|lia|rewrite HS; exact ND|].
      exists sf', bf', m'. rewrite G2. split; [exact E|]. split; [exact G1|]. split; [exact P1|exact G3].
Qed.
End P1.

(** a filter of less than one cache line: the first insertion is undefined *)
Lemma pass1_small bflog bf : bflog < 6 -> forall k i sf j, (i + k < length U)%nat -> holds base (nth i U []) sf -> hashes i = [] ->
  let r := for_ k j (fun n '(sf, bf, maxNbH) =>
    let! sf := sparse_update c sf in
    let! h := hfunction (f_buffer sf) in
    if negb (selected p h) then OK (sf, bf, maxNbH)
    else
      let! r := Filter_insert c bf bflog (fst h) in
      let '(hit, bf) := r in
      OK (sf, bf, add64 maxNbH (2 * hit))) (sf, bf, 0) in
  r = UB \/ (hashes (i + k) = [] /\ exists sf', r = OK (sf', bf, 0)).
Proof.
  intros LT. induction k as [|k IH]; intros i sf j L Hs HN.
  - right. rewrite Nat.add_0_r. split; [exact HN|]. exists sf. reflexivity.
  - cbn [for_]. destruct (next_sample sf i ltac:(lia) Hs) as (sf1 & -> & Hs1 & P1 & E1). cbn [bind]. rewrite E1. cbn [bind].
    set (h := H (flips base (nth (S i) U []))) in *. pose proof (hashes_S base H p i) as HS. fold U in HS. fold h in HS. replace (i + S k)%nat with (S i + k)%nat in * by lia.
    destruct (selected p h) eqn:SEL; cbn [negb].
    + left. unfold Filter_insert. cbv zeta. unfold shl1. replace (0 <=? bflog - 6) with false by lia. reflexivity.
    + rewrite HN in HS. cbn [app] in HS. cbn [bind]. exact (IH (S i) sf1 (j + 1) L Hs1 HS).
Qed.

Section P2.
Context (bflog : Z) (bf : option (list Z)) (chk : Z -> bool) (maxNbH : Z).
Hypothesis CHK : forall h, match bf with Some bf => Filter_check c bf bflog h | None => OK 1 end = OK (Z.b2z (chk h)).
Notation table := (table base H bits p chk).
Lemma pass2_loop : forall k i sf j, (i + k < length U)%nat -> holds base (nth i U []) sf -> zlen (table i) <= maxNbH ->
  exists sf', for_ k j (fun n '(sf, t) =>
    let! sf := sparse_update c sf in
    let! h := hfunction (f_buffer sf) in
    if negb (selected p h) then OK (sf, t)
    else
      let! hit := match bf with Some bf => Filter_check c bf bflog (fst h) | None => OK 1 end in
      if hit =? 0 then OK (sf, t)
      else
        let! _ := assert_ (zlen t <? maxNbH) in
        OK (sf, t ++ [key bits h])) (sf, table i) = (if zlen (table (i + k)) <=? maxNbH then OK (sf', table (i + k)) else UB).
Proof.
  induction k as [|k IH]; intros i sf j L Hs LE.
  - exists sf. rewrite Nat.add_0_r. cbn [for_]. replace (zlen (table i) <=? maxNbH) with true by lia. reflexivity.
  - cbn [for_]. destruct (next_sample sf i ltac:(lia) Hs) as (sf1 & -> & Hs1 & P1 & E1). cbn [bind]. rewrite E1. cbn [bind].
    pose proof (table_S base H bits p chk i) as HS. cbv zeta in HS. fold U in HS. set (h := H (flips base (nth (S i) U []))) in *. replace (i + S k)%nat with (S i + k)%nat in * by lia.
    pose proof (table_mono base H bits p chk k (S i)) as MO.
    destruct (selected p h) eqn:SEL; cbn [negb andb] in *.
    + rewrite CHK. cbn [bind]. destruct (chk (fst h)) eqn:CH; cbn [Z.b2z Z.eqb] in *.
      * destruct (Z.ltb_spec (zlen (table i)) maxNbH) as [LT|GE]; cbn [assert_ bind].
        -- rewrite <- HS. apply IH; trivial. rewrite HS, zlen_app, zlen_cons. cbn. lia.
        -- exists sf. rewrite HS, zlen_app, zlen_cons in MO. replace (zlen (table (S i + k)) <=? maxNbH) with false; [reflexivity|].
           change (zlen (@nil (Z * Z))) with 0 in MO. lia.
      * rewrite app_nil_r in HS. rewrite <- HS. apply IH; trivial. rewrite HS. exact LE.
    + rewrite app_nil_r in HS. rewrite <- HS. apply IH; trivial. rewrite HS. exact LE.
Qed.
End P2.
End Passes.

(** the second preparation of the sample gives the first one back *)
Lemma init_again c seed base cb sf htotal : (forall n, 0 <= n < zlen base -> nth (Z.to_nat n) base 0 = seeded seed n) ->
  holds base cb sf -> f_prngSeed sf = seed -> enoughCombos (zlen base) htotal = OK true -> 8 * zlen base < 2 ^ szbits c ->
  exists sf', sparse_init sf htotal = OK (Some sf') /\ holds base [] sf' /\ f_prngSeed sf' = seed.
Proof.
  intros A (H1 & H2 & H3 & H4 & H5 & H6) P EC SZ. unfold sparse_init. rewrite H6, EC. cbn [bind negb].
  destruct (fill_ok (f_prngSeed sf) (zlen base) (f_buffer sf)) as (b & -> & Lb & Bb & N); [apply zlen_nonneg|rewrite H1; apply flips_len|]. cbn [bind].
  assert (b = base) as ->.
  { apply nth_ext with (d := 0) (d' := 0); [unfold zlen in Lb; lia|]. intros n L. specialize (N (Z.of_nat n)). specialize (A (Z.of_nat n)).
    rewrite Nat2Z.id in *. unfold zlen in *. rewrite N, A, P by lia. reflexivity. }
  eexists. split; [reflexivity|]. split; [|exact P]. unfold holds. cbn [f_buffer f_bitIdx f_level f_maxBitIdx f_size length agree flips fold_right].
  repeat split; trivial.
Qed.

(** ** the whole search *)
Lemma keys_twice bits (chk : Z -> bool) (l : list (Z * Z)) : (forall h, (2 <= count_occ Z.eq_dec (map fst l) h)%nat -> chk h = true) ->
  dups (map (key bits) (filter (fun h => chk (fst h)) l)) = dups (map (key bits) l).
Proof.
  intros A. assert (K : forall h, fst (key bits h) = fst h) by (intros h; unfold key; destruct (bits =? 128); reflexivity).
  replace (map (key bits) (filter (fun h => chk (fst h)) l)) with (filter (fun h => chk (fst h)) (map (key bits) l)).
  - apply dups_filter. intros x X. apply A. assert (G : (count_occ pair_dec (map (key bits) l) x <= count_occ Z.eq_dec (map fst l) (fst x))%nat).
    { clear -K. induction l as [|h l IH]; [cbn; lia|]. cbn [map count_occ]. destruct (pair_dec (key bits h) x) as [E|].
      - destruct (Z.eq_dec (fst h) (fst x)) as [|N]; [lia|]. destruct N. rewrite <- K. congruence.
      - destruct (Z.eq_dec (fst h) (fst x)); lia. }
    lia.
  - clear -K. induction l as [|h l IH]; [reflexivity|]. cbn [map filter]. rewrite K. destruct (chk (fst h)); cbn [map]; rewrite IH; reflexivity.
Qed.
Lemma shift_ok strict n : 0 <= n < 64 \/ strict = false -> shift_1ULL strict n = OK tt.
Proof. intros E. unfold shift_1ULL. destruct strict; [|reflexivity]. destruct E as [E|]; [|discriminate]. replace ((0 <=? n) && (n <? 64)) with true by lia. reflexivity. Qed.

Section Whole.
Context (c : cfg) (junk junkIdx : list Z) (strict : bool) (hfunction : list Z -> res (Z * Z)) (H : list Z -> Z * Z) (bits : Z) (sort : list (Z * Z) -> list (Z * Z)) (le : Z * Z -> Z * Z -> Prop).
Context (p : params).
Hypothesis C : cfg_ok c.
Hypothesis LJ : zlen junk = p_sampleSize p.
Hypothesis SZ : p_sampleSize p * 8 < 2 ^ szbits c.
Hypothesis HF : forall b, zlen b = p_sampleSize p -> bytes_ok b -> hfunction b = OK (H b).
Hypothesis NBH : 0 < p_nbH p < 2 ^ 58.
Hypothesis AS : forall a b, le a b -> le b a -> a = b.
Hypothesis SORT : forall l, Permutation l (sort l) /\ StronglySorted le (sort l).

Lemma sorted_count l : count_dups (fun a b => (fst a =? fst b) && (snd a =? snd b)) (sort l) = dups l.
Proof.
  destruct (SORT l) as [P S]. change (fun a b => (fst a =? fst b) && (snd a =? snd b)) with same.
  rewrite (count_dups_ok le) by assumption. symmetry. apply dups_perm. exact P.
Qed.
Definition initial (base : list Z) : Prop := zlen base = p_sampleSize p /\ bytes_ok base /\ forall n, 0 <= n < p_sampleSize p -> nth (Z.to_nat n) base 0 = seeded (p_prngSeed p) n.

Lemma created sf : sparse_create c junk junkIdx (p_sampleSize p) (p_nbH p) (p_prngSeed p) = OK (Some sf) ->
  exists base, initial base /\ holds base [] sf /\ f_prngSeed sf = p_prngSeed p /\ 2 <= zlen base /\
    (Z.to_nat (p_nbH p) < length (upto 14 (8 * zlen base)))%nat /\ enoughCombos (zlen base) (p_nbH p) = OK true.
Proof.
  intros E. destruct (create_ok c junk junkIdx _ _ _ _ SZ LJ E) as (G2 & HT & base & Lb & Bb & A & Hs & P).
  exists base. split; [split; [exact Lb|split; [exact Bb|exact A]]|]. split; [exact Hs|]. split; [exact P|]. split; [lia|]. split.
  - pose proof (upto_count (Z.to_nat (8 * p_sampleSize p)) 14) as UC. rewrite Z2Nat.id in UC by lia. rewrite Lb. unfold zlen in UC. lia.
  - unfold sparse_create, sparse_init in E. cbn [f_size] in E. rewrite Lb. destruct (enoughCombos (p_sampleSize p) (p_nbH p)) as [[]| |]; cbn in E; try discriminate. reflexivity.
Qed.

(** without the filter *)
Lemma search_plain sf : p_filterLog p < 0 -> strict = false -> sparse_create c junk junkIdx (p_sampleSize p) (p_nbH p) (p_prngSeed p) = OK (Some sf) ->
  exists base, initial base /\ 2 <= zlen base /\ (Z.to_nat (p_nbH p) < length (upto 14 (8 * zlen base)))%nat /\
    let l := map (key bits) (hashes base H p (Z.to_nat (p_nbH p))) in
    search_collisions c junk junkIdx strict hfunction bits sort p = if l then UB else OK (Some (dups l)).
Proof.
  intros NF ST E. destruct (created sf E) as (base & I & Hs & P & S2 & LU & EC). exists base. split; [exact I|]. split; [exact S2|]. split; [exact LU|]. cbv zeta.
  unfold search_collisions. rewrite E. cbn [bind]. replace (p_filterLog p =? 0) with false by lia. cbn [bind]. rewrite shift_ok by (right; exact ST). cbn [bind].
  replace (0 <=? p_filterLog p) with false by lia. cbn [bind andb negb]. destruct I as (Lb & Bb & A). rewrite <- Lb in *.
  destruct (init_again c (p_prngSeed p) base [] sf (p_nbH p) A Hs P EC ltac:(lia)) as (sf1 & -> & Hs1 & P1). cbn [bind].
  unfold pass2. destruct (pass2_loop c base hfunction H bits p Bb ltac:(lia) S2 HF (p_filterLog p) None (fun _ => true) (p_nbH p) ltac:(reflexivity) (Z.to_nat (p_nbH p)) 0 sf1 0 LU) as (sf2 & E2).
  { destruct Hs1 as (X & Y). exact (conj X Y). }
  { cbn. lia. }
  change (table base H bits p (fun _ => true) 0) with (@nil (Z * Z)) in E2. rewrite E2. cbn [Nat.add]. rewrite <- table_all.
  pose proof (hashes_len base H p (Z.to_nat (p_nbH p))) as HL. assert (ML : forall l, zlen (map (key bits) l) = zlen l) by (intros l; unfold zlen; rewrite map_length; reflexivity).
  rewrite ML. replace (zlen (hashes base H p (Z.to_nat (p_nbH p))) <=? p_nbH p) with true by lia. cbn [bind snd].
  destruct (map (key bits) (hashes base H p (Z.to_nat (p_nbH p)))) as [|x l] eqn:EL.
  - replace (zlen [] <? p_nbH p) with true by (cbn; lia). cbn. reflexivity.
  - replace (zlen (x :: l) =? 0) with false by (rewrite zlen_cons; pose proof (zlen_nonneg l); lia). rewrite andb_false_r. cbn [negb assert_ bind].
    rewrite sorted_count. destruct (p_display p); cbn [bind]; [|reflexivity].
    assert (G : forall k j, for_ k j (fun (nbHBits : Z) (_ : unit) => shift_1ULL strict nbHBits) tt = OK tt).
    { induction k as [|k IH]; intros j; [reflexivity|]. cbn [for_]. rewrite shift_ok by (right; exact ST). cbn [bind]. apply IH. }
    rewrite G. reflexivity.
Qed.

(** with the filter: the right number, or the end of the program in an assertion or undefined shift *)
Lemma search_filter sf : 0 < p_filterLog p -> sparse_create c junk junkIdx (p_sampleSize p) (p_nbH p) (p_prngSeed p) = OK (Some sf) ->
  exists base, initial base /\ 2 <= zlen base /\ (Z.to_nat (p_nbH p) < length (upto 14 (8 * zlen base)))%nat /\
    let l := map (key bits) (hashes base H p (Z.to_nat (p_nbH p))) in
    search_collisions c junk junkIdx strict hfunction bits sort p = UB \/ search_collisions c junk junkIdx strict hfunction bits sort p = OK (Some (dups l)).
Proof.
  intros NF E. assert (SZ64 : szbits c <= 64) by (destruct (ok_sz c C); lia).
  destruct (created sf E) as (base & I & Hs & P & S2 & LU & EC). exists base. split; [exact I|]. split; [exact S2|]. split; [exact LU|]. cbv zeta.
  unfold search_collisions. rewrite E. cbn [bind]. replace (p_filterLog p =? 0) with false by lia. cbn [bind].
  destruct (shift_1ULL strict (p_filterLog p)) as [[]| |] eqn:ESH; cbn [bind]; [|left; reflexivity|unfold shift_1ULL in ESH; destruct (_ && _); discriminate].
  replace (0 <=? p_filterLog p) with true by lia. cbn [andb negb]. destruct I as (Lb & Bb & A). rewrite <- Lb in *.
  destruct (create_Filter c (p_filterLog p)) as [bf0| |] eqn:EF.
  2:{ left. reflexivity. }
  2:{ exfalso. unfold create_Filter, shl1 in EF. destruct (_ && _) in EF; cbn in EF; [|discriminate]. destruct (_ && _) in EF; discriminate. }
  cbn [bind]. unfold pass1. assert (HI : p_filterLog p < szbits c /\ p_filterLog p < 64).
  { unfold create_Filter, shl1 in EF. destruct ((p_filterLog p <? 64) && (1 <? p_filterLog p)) eqn:Q1; cbn in EF; [|discriminate]. destruct ((0 <=? p_filterLog p) && (p_filterLog p <? szbits c)) eqn:Q2; [|discriminate]. lia. }
  destruct (Z.lt_ge_cases (p_filterLog p) 6) as [SM|LOG].
  { destruct (pass1_small c base hfunction H p Bb ltac:(lia) S2 HF (p_filterLog p) bf0 SM (Z.to_nat (p_nbH p)) 0 sf 0 LU Hs eq_refl) as [-> | (HE & sf1 & ->)]; [left; reflexivity|].
    right. cbn [bind Nat.add] in *. change (0 =? 0) with true. cbv iota. cbn [bind]. change (0 =? 0) with true. cbv iota. rewrite HE. reflexivity. }
  assert (LOG2 : 6 <= p_filterLog p < szbits c) by lia.
  destruct (pass1_loop c base hfunction H p Bb ltac:(lia) S2 HF (p_filterLog p) LOG2 (Z.to_nat (p_nbH p)) 0 sf bf0 0 0 LU ltac:(lia) Hs) as (sf1 & bf1 & m & E1 & Hs1 & P1 & Sn & M & ND).
  { apply (seen_empty c _ LOG2). exact EF. }
  { lia. }
  { intros _. constructor. }
  rewrite E1. cbn [bind Nat.add] in *. set (hs := hashes base H p (Z.to_nat (p_nbH p))) in *.
  destruct (Z.eqb_spec m 0) as [M0|M0]; cbn [bind].
  - right. change (0 =? 0) with true. cbv iota. do 2 f_equal. specialize (ND M0). symmetry. apply dups_nodup. assert (K : forall h, fst (key bits h) = fst h) by (intros h; unfold key; destruct (bits =? 128); reflexivity).
    apply (NoDup_map_inv fst). rewrite map_map. rewrite (map_ext _ fst K). exact ND.
  - destruct (Z.eq_dec (p_filterLog p) 6) as [E6|N6]; [left; unfold Filter_reduce; rewrite E6; reflexivity|].
    destruct (seen_check c _ LOG2 _ _ ltac:(lia) Sn) as (bf2 & -> & CK & C1). cbn [bind]. replace (m =? 0) with false by lia.
    destruct (init_again c (p_prngSeed p) base _ sf1 (p_nbH p) A Hs1 ltac:(congruence) EC ltac:(lia)) as (sf2 & -> & Hs2 & P2). cbn [bind].
    set (chk := fun h => match Filter_check c bf2 (p_filterLog p) h with OK 1 => true | _ => false end).
    assert (CHK : forall h, Filter_check c bf2 (p_filterLog p) h = OK (Z.b2z (chk h))).
    { intros h. unfold chk. destruct (CK h) as (r & -> & [-> | ->]); reflexivity. }
    unfold pass2. destruct (pass2_loop c base hfunction H bits p Bb ltac:(lia) S2 HF (p_filterLog p) (Some bf2) chk m CHK (Z.to_nat (p_nbH p)) 0 sf2 0 LU) as (sf3 & E3).
    { destruct Hs2 as (X & Y). exact (conj X Y). }
    { cbn. lia. }
    change (table base H bits p chk 0) with (@nil (Z * Z)) in E3. rewrite E3. cbn [Nat.add].
    set (t := table base H bits p chk (Z.to_nat (p_nbH p))). destruct (zlen t <=? m); [|left; reflexivity]. cbn [bind snd].
    destruct ((zlen t <? m) && (zlen t =? 0)); cbn [negb assert_ bind]; [left; reflexivity|right]. do 2 f_equal. rewrite sorted_count.
    unfold t, table. apply keys_twice. intros h G. unfold chk. rewrite (C1 h G). reflexivity.
Qed.

(** whatever comes back is right *)
Lemma search_right r : p_filterLog p <> 0 -> search_collisions c junk junkIdx strict hfunction bits sort p = OK (Some r) ->
  exists base, initial base /\ 2 <= zlen base /\ (Z.to_nat (p_nbH p) < length (upto 14 (8 * zlen base)))%nat /\
    r = dups (map (key bits) (hashes base H p (Z.to_nat (p_nbH p)))).
Proof.
  intros NZ E. destruct (sparse_create c junk junkIdx (p_sampleSize p) (p_nbH p) (p_prngSeed p)) as [[sf|]| |] eqn:EC;
    try (unfold search_collisions in E; rewrite EC in E; discriminate).
  destruct (Z.lt_ge_cases (p_filterLog p) 0) as [LT|GE].
  - destruct strict eqn:ST.
    + unfold search_collisions in E. rewrite EC in E. cbn [bind] in E. replace (p_filterLog p =? 0) with false in E by lia. cbn [bind] in E.
      unfold shift_1ULL in E. replace (0 <=? p_filterLog p) with false in E by lia. discriminate.
    + rewrite <- ST in E. destruct (search_plain sf LT ST EC) as (base & I & S2 & LU & G). cbv zeta in G. rewrite G in E. exists base.
      split; [exact I|]. split; [exact S2|]. split; [exact LU|]. destruct (map (key bits) (hashes base H p (Z.to_nat (p_nbH p)))); [discriminate|]. congruence.
  - destruct (search_filter sf ltac:(lia) EC) as (base & I & S2 & LU & G). cbv zeta in G. exists base.
    split; [exact I|]. split; [exact S2|]. split; [exact LU|]. destruct G as [G|G]; rewrite G in E; [discriminate|congruence].
Qed.
End Whole.
