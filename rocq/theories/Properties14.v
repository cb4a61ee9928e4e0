(** Property theorems about the collision tester: C60 (sparse samples), C61 (slab5 samples), C62 (candidate filter),
    C63 (the number it reports), C64 (its number reader). *)
From Coq Require Import Permutation Sorted.
From Verif Require Import Base Mem M_XXH32 M_XXH64 M_XXH3 M_Kernels M_Long M_Util Spec32 Spec64 Spec3 SpecUtil P_Base P_XXH32 P_XXH64 P_X3_Long P_Util
  SpecColl M_Coll M_Coll2 P_Coll1 P_Coll2 P_Coll3 P_Coll4 P_Coll5 P_Coll6 Vectors Vectors3.
Import Coll.

(** C60: once the generator accepts the sample size, sample number [n] is the seeded one with the [n]-th set of bits
    flipped; the sets are exactly the sets of at most 14 bits, each once, smaller ones first *)
Theorem C60_sparse_samples : forall c junk junkIdx size htotal seed sf,
  size * 8 < 2 ^ szbits c -> zlen junk = size -> sparse_create c junk junkIdx size htotal seed = OK (Some sf) ->
  exists base sets, zlen base = size /\ bytes_ok base /\ f_buffer sf = base /\ (forall n, 0 <= n < size -> nth (Z.to_nat n) base 0 = seeded seed n) /\
    NoDup sets /\ (forall s, In s sets <-> (length s <= 14)%nat /\ below (8 * size) s) /\
    (forall i j, (i <= j < length sets)%nat -> (length (nth i sets []) <= length (nth j sets []))%nat) /\
    htotal < zlen sets /\
    forall n, (n < length sets)%nat -> exists sf', run_sparse c n sf = OK sf' /\ zlen (f_buffer sf') = size /\ bytes_ok (f_buffer sf') /\
      forall i, 0 <= i < 8 * size -> bit i (f_buffer sf') = xorb (bit i base) (existsb (Z.eqb i) (nth n sets [])).
Proof.
  intros c junk junkIdx size htotal seed sf SZ LJ E. destruct (create_ok c junk junkIdx size htotal seed sf SZ LJ E) as (S2 & HT & base & Lb & Bb & SB & Hs & _).
  exists base, (upto 14 (8 * size)). assert (FB : f_buffer sf = base) by (destruct Hs as (X & _); exact X).
  pose proof (upto_count (Z.to_nat (8 * size)) 14) as UC. rewrite Z2Nat.id in UC by lia.
  split; [exact Lb|]. split; [exact Bb|]. split; [exact FB|]. split; [exact SB|]. split; [apply upto_nodup|]. split; [apply in_upto|]. split; [|split; [lia|]].
  - intros i j [IJ J]. induction IJ as [|j IJ IH]; [lia|]. specialize (IH ltac:(lia)). pose proof (orbit_len 14 (8 * size) j [] ltac:(lia) J). lia.
  - intros n Hn. rewrite <- Lb in Hn |- *. destruct (run_ok c base sf n Bb ltac:(lia) ltac:(lia) Hs Hn) as (sf' & E' & Hs' & _). exists sf'.
    assert (FB' : f_buffer sf' = flips base (nth n (upto 14 (8 * zlen base)) [])) by (destruct Hs' as (X & _); exact X).
    rewrite FB', flips_len. split; [exact E'|]. split; [reflexivity|]. split; [apply flips_bytes; exact Bb|]. intros i I.
    apply (bit_flips _ _ (8 * zlen base)); [|lia|lia]. apply (in_upto 14), nth_In. exact Hn.
Qed.
Print Assumptions C60_sparse_samples.

(** no two of the samples [0 .. htotal] are the same *)
Theorem C60_sparse_samples_are_unique : forall c junk junkIdx size htotal seed sf m n sm sn,
  size * 8 < 2 ^ szbits c -> zlen junk = size -> sparse_create c junk junkIdx size htotal seed = OK (Some sf) ->
  (m < n)%nat -> Z.of_nat n <= htotal -> run_sparse c m sf = OK sm -> run_sparse c n sf = OK sn -> f_buffer sm <> f_buffer sn.
Proof.
  intros c junk junkIdx size htotal seed sf m n sm sn SZ LJ E MN HN Em En. destruct (create_ok c junk junkIdx size htotal seed sf SZ LJ E) as (S2 & HT & base & Lb & Bb & _ & Hs & _).
  pose proof (upto_count (Z.to_nat (8 * size)) 14) as UC. rewrite Z2Nat.id in UC by lia. rewrite <- Lb in *.
  assert (LU : (n < length (upto 14 (8 * zlen base)))%nat) by (unfold zlen in UC at 1; lia).
  destruct (run_ok c base sf m Bb ltac:(lia) ltac:(lia) Hs ltac:(lia)) as (a & Ea & (Ha & _) & _). destruct (run_ok c base sf n Bb ltac:(lia) ltac:(lia) Hs LU) as (b & Eb & (Hb & _) & _).
  rewrite Em in Ea. rewrite En in Eb. injection Ea as <-. injection Eb as <-. rewrite Ha, Hb. intros Q. apply flips_inj in Q.
  - pose proof (upto_nodup 14 (8 * zlen base)) as ND. apply (NoDup_nth _ []) in Q; [lia|exact ND|lia|lia].
  - apply (in_upto 14), nth_In. lia.
  - apply (in_upto 14), nth_In. lia.
Qed.
Print Assumptions C60_sparse_samples_are_unique.

(** the generator refuses a size only if there are not that many samples *)
Theorem C60_refusal : forall c junk junkIdx size htotal seed,
  zlen junk = size -> sparse_create c junk junkIdx size htotal seed = OK None -> size < 2 \/ sumb (Z.to_nat (8 * size)) 14 < htotal.
Proof.
  intros c junk junkIdx size htotal seed LJ. unfold sparse_create, sparse_init. cbn [f_size f_prngSeed f_buffer].
  destruct (enoughCombos size htotal) as [[]| |] eqn:EC; cbn [bind negb]; try discriminate.
  - destruct (fill seed size junk); discriminate.
  - intros _. apply enoughCombos_no. exact EC.
Qed.
Print Assumptions C60_refusal.

(** the default sample size with 24 Gi hashes is accepted, 8 bytes are not enough for them *)
Example C60_accepts : match sparse_create c0 (repeat 7 256) [] 256 (24 * 2 ^ 30) 0 with OK (Some sf) => zlen (f_buffer sf) | _ => 0 end = 256.
Proof. vm_compute. reflexivity. Qed.
Example C60_refuses : sparse_create c0 (repeat 7 2) [] 2 (24 * 2 ^ 30) 0 = OK None.
Proof. vm_compute. reflexivity. Qed.

(** C61: the slab5 generator gives every requested hash its own sample *)
Theorem C61_slab5_samples_are_unique : forall c junk size htotal seed sf,
  cfg_ok c -> size < 2 ^ szbits c -> zlen junk = size -> 1 <= htotal < 2 ^ 64 -> slab_create junk size htotal seed = OK (Some sf) ->
  (forall n, 0 <= n < size -> nth (Z.to_nat n) (s_buffer sf) 0 = seeded 0 n) /\
  (forall n, Z.of_nat n <= htotal -> exists sf', run_slab c n sf = OK sf' /\ zlen (s_buffer sf') = size /\ bytes_ok (s_buffer sf')) /\
  (forall m n sm sn, (1 <= m < n)%nat -> Z.of_nat n <= htotal -> run_slab c m sf = OK sm -> run_slab c n sf = OK sn -> s_buffer sm <> s_buffer sn).
Proof.
  intros c junk size htotal seed sf C SZ LJ HT E. assert (S64 : szbits c <= 64) by (destruct (ok_sz c C); lia). assert (P64 : 2 ^ szbits c <= 2 ^ 64) by (apply Z.pow_le_mono_r; lia).
  unfold slab_create, slab_init in E. cbn [s_size s_buffer s_prngSeed] in E.
  assert (ML : mul64 (add64 (shr (sub64 htotal 1) 32) 1) SLAB_SIZE = 5 * ((htotal - 1) / 2 ^ 32 + 1)).
  { unfold shr. rewrite Z.shiftr_div_pow2 by lia. unfold sub64, u64. rewrite (Z.mod_small (htotal - 1)) by lia.
    assert (0 <= (htotal - 1) / 2 ^ 32 < 2 ^ 32) by (split; [apply Z.div_pos; lia|apply Z.div_lt_upper_bound; lia]).
    unfold add64, mul64, u64, SLAB_SIZE. rewrite (Z.mod_small (_ + 1)) by lia. rewrite Z.mod_small by lia. lia. }
  rewrite ML in E. revert E. destruct (Z.ltb_spec size (5 * ((htotal - 1) / 2 ^ 32 + 1))) as [|GE]; intros E; [discriminate|].
  pose proof (zlen_nonneg junk). destruct (fill_ok 0 size junk ltac:(lia) LJ) as (b & EF & Lb & Bb & SB). rewrite EF in E. cbn [bind] in E. injection E as <-.
  assert (Q0 : 0 <= (htotal - 1) / 2 ^ 32) by (apply Z.div_pos; lia).
  assert (NB : 1 <= size / 5) by (apply Z.div_le_lower_bound; lia).
  assert (NE : (htotal - 1) / 2 ^ 32 + 1 <= size / 5) by (apply Z.div_le_lower_bound; lia).
  assert (HB : htotal <= size / 5 * 2 ^ 32) by (pose proof (Z.div_mod (htotal - 1) (2 ^ 32) ltac:(lia)); pose proof (Z.mod_pos_bound (htotal - 1) (2 ^ 32) ltac:(lia)); nia).
  split; [exact SB|]. split.
  - intros n Hn. destruct (run_slab_ok c size SZ NB (Slab b size seed 0) n Bb Lb eq_refl eq_refl ltac:(lia)) as (sf' & E' & B' & L' & _). exists sf'. split; [exact E'|]. split; assumption.
  - intros m n sm sn MN Hn Em En. apply (slab_distinct c size SZ NB (Slab b size seed 0) m n sm sn Bb Lb eq_refl eq_refl); trivial; lia.
Qed.
Print Assumptions C61_slab5_samples_are_unique.
Example C61_accepts : match slab_create (repeat 7 30) 30 (24 * 2 ^ 30) 5 with OK (Some sf) => zlen (s_buffer sf) | _ => 0 end = 30.
Proof. vm_compute. reflexivity. Qed.

(** but in that build the seed changes nothing: two seeds give the same first sample, for every size *)
Theorem C61_seed_selects_the_samples_refuted : forall junk size htotal, exists s s', s <> s' /\
  match slab_create junk size htotal s, slab_create junk size htotal s' with
  | OK (Some f), OK (Some f') => s_buffer f = s_buffer f' /\ s_hnb f = s_hnb f'
  | OK None, OK None => True | UB, UB => True | NoFuel, NoFuel => True | _, _ => False end.
Proof.
  intros junk size htotal. exists 0, 1. split; [discriminate|]. unfold slab_create, slab_init. cbn [s_size s_buffer s_prngSeed].
  destruct (_ <? _); [exact I|]. destruct (fill 0 size junk); cbn [bind s_buffer s_hnb]; auto.
Qed.
Print Assumptions C61_seed_selects_the_samples_refuted.

(** C62: the candidate filter loses nothing: whatever is inserted, no access leaves the filter, a hash inserted before is
    reported as present, and after the reduction every hash that was inserted twice passes the check *)
Fixpoint insert_each (insert : list Z -> Z -> res (Z * list Z)) (bf l : list Z) : res (list Z * list Z) :=
  match l with [] => OK ([], bf) | h :: l => let! r := insert bf h in let! q := insert_each insert (snd r) l in OK (fst r :: fst q, snd q) end.
Definition insert_all (c : cfg) (bf : list Z) (bflog : Z) (l : list Z) := insert_each (fun bf h => Filter_insert c bf bflog h) bf l.
Theorem C62_filter_is_complete : forall c bflog l, 7 <= bflog < 64 -> bflog < szbits c ->
  exists bf0 hits bf bf', create_Filter c bflog = OK bf0 /\ zlen bf0 = 2 ^ bflog /\ insert_all c bf0 bflog l = OK (hits, bf) /\ Filter_reduce c bf bflog = OK bf' /\
    Forall (fun r => r = 0 \/ r = 1) hits /\ length hits = length l /\
    (forall i j, (i < j < length l)%nat -> nth i l 0 = nth j l 0 -> nth j hits 0 = 1) /\
    (forall h, exists r, Filter_check c bf' bflog h = OK r /\ (r = 0 \/ r = 1)) /\
    (forall i j, (i < j < length l)%nat -> nth i l 0 = nth j l 0 -> Filter_check c bf' bflog (nth i l 0) = OK 1).
Proof.
  intros c bflog l L64 LS. assert (LOG : 6 <= bflog < szbits c) by lia.
  assert (EC : exists bf0, create_Filter c bflog = OK bf0).
  { unfold create_Filter, shl1. replace ((bflog <? 64) && (1 <? bflog)) with true by lia. cbn [assert_ bind]. replace ((0 <=? bflog) && (bflog <? szbits c)) with true by lia. eexists. reflexivity. }
  destruct EC as (bf0 & EC). pose proof (seen_empty c bflog LOG bf0 EC) as S0.
  assert (G : forall l k bf, seen bflog k bf -> exists hits bf', insert_all c bf bflog l = OK (hits, bf') /\ seen bflog (k ++ l) bf' /\ Forall (fun r => r = 0 \/ r = 1) hits /\ length hits = length l /\
              forall j, (j < length l)%nat -> In (nth j l 0) (k ++ firstn j l) -> nth j hits 0 = 1).
  { clear - LOG. induction l as [|h l IH]; intros k bf S.
    - exists [], bf. rewrite app_nil_r. split; [reflexivity|]. split; [exact S|]. split; [constructor|]. split; [reflexivity|]. intros j J. inversion J.
    - unfold insert_all in *. cbn [insert_each]. destruct (seen_insert c bflog LOG k bf h S) as (r & b1 & E & R & RI & S1). rewrite E. cbn [bind snd fst].
      destruct (IH (k ++ [h]) b1 S1) as (hits & b2 & -> & S2 & F & Ln & HI). cbn [bind fst snd]. exists (r :: hits), b2. split; [reflexivity|].
      rewrite <- app_assoc in S2. split; [exact S2|]. split; [constructor; assumption|]. split; [cbn; lia|].
      intros [|j] J IN.
      + cbn [firstn nth] in *. rewrite app_nil_r in IN. apply RI. exact IN.
      + cbn [firstn nth length] in *. apply HI; [lia|]. rewrite <- app_assoc. exact IN. }
  destruct (G l [] bf0 S0) as (hits & bf & EI & S & F & Ln & HI). cbn [app] in *.
  destruct (seen_check c bflog LOG l bf L64 S) as (bf' & ER & CK & C2). exists bf0, hits, bf, bf'.
  split; [exact EC|]. split; [apply S0|]. split; [exact EI|]. split; [exact ER|]. split; [exact F|]. split; [exact Ln|].
  assert (NF : forall (l : list Z) i j, (i < j < length l)%nat -> In (nth i l 0) (firstn j l)).
  { clear. induction l as [|x l IH]; intros i j J; [cbn in J; lia|]. destruct j as [|j]; [lia|]. cbn [firstn]. destruct i as [|i]; [left; reflexivity|]. right. cbn [nth]. apply IH. cbn in J. lia. }
  split; [|split; [exact CK|]].
  - intros i j J E. apply HI; [lia|]. rewrite <- E. apply NF. exact J.
  - intros i j J E. apply C2. clear - J E. revert i j J E. induction l as [|x l IH]; intros i j J E; [cbn in J; lia|]. destruct j as [|j]; [lia|]. cbn [nth length] in *. destruct i as [|i].
    + assert (IN : In (nth j l 0) l) by (apply nth_In; lia). rewrite <- E in IN. apply (count_occ_In Z.eq_dec) in IN. rewrite count_occ_cons_eq by reflexivity. lia.
    + specialize (IH i j ltac:(lia) E). cbn [count_occ]. destruct (Z.eq_dec x (nth i l 0)); lia.
Qed.
Print Assumptions C62_filter_is_complete.
(** three hashes, one of them twice: it passes, another one does not *)
Example C62_discards : match create_Filter c0 7 with OK b => match insert_all c0 b 7 [11; 22; 11; 33] with
  | OK (hits, b) => match Filter_reduce c0 b 7 with OK b => (hits, Filter_check c0 b 7 11, Filter_check c0 b 7 22) | _ => ([], UB, UB) end | _ => ([], UB, UB) end | _ => ([], UB, UB) end
  = ([0; 0; 1; 0], OK 1, OK 0).
Proof. vm_compute. reflexivity. Qed.

(** C63: what the seven hash functions of the tool compute (low half, high half) *)
Definition spec_hash (id : hashID) (m : list Z) : Z * Z :=
  match id with
  | Xxh3 => (X3.XXH3_64 m, 0)
  | Xxh64 => (X64.hash m 0, 0)
  | Xxh128 => X3.XXH3_128 m
  | Xxh128l => (fst (X3.XXH3_128 m), 0)
  | Xxh128h => (snd (X3.XXH3_128 m), 0)
  | Xxh32 => (X32.hash m 0, 0)
  | Badsum32 => (fold_right Z.add 0 m mod 2 ^ 32, 0)
  end.
(** the order std::sort is given: XXH128_cmp, which for hashes without high half is the order of the integers *)
Definition ordered (a b : Z * Z) : Prop := XXH128_cmp a b <= 0.
Definition sorts (sort : list (Z * Z) -> list (Z * Z)) : Prop := forall l, Permutation l (sort l) /\ StronglySorted ordered (sort l).
Lemma ordered_antisym a b : ordered a b -> ordered b a -> a = b.
Proof.
  unfold ordered, XXH128_cmp, gt_int. destruct a as [a1 a2], b as [b1 b2]. cbn [fst snd].
  destruct (Z.ltb_spec a2 b2), (Z.ltb_spec b2 a2); cbn; try lia. destruct (Z.ltb_spec a1 b1), (Z.ltb_spec b1 a1); cbn; try lia. intros _ _. f_equal; lia.
Qed.
Lemma wrapper_ok c adr id m : cfg_ok c -> bytes_ok m -> zlen m < 2 ^ szbits c -> wrapper c adr id m = OK (spec_hash id m).
Proof.
  intros C B L. assert (P : points_to (Ptr m adr 0) m) by (exists [], []; rewrite app_nil_r; split; reflexivity).
  destruct id; cbn [wrapper spec_hash].
  - rewrite (XXH3_64bits_ok c _ m C P B). reflexivity.
  - rewrite (XXH64_spec c _ m 0 C P B L). reflexivity.
  - rewrite (XXH3_128bits_ok c _ m C P B). reflexivity.
  - rewrite (XXH3_128bits_ok c _ m C P B). reflexivity.
  - rewrite (XXH3_128bits_ok c _ m C P B). reflexivity.
  - rewrite (XXH32_spec c _ m 0 C P B L). reflexivity.
  - do 2 f_equal. unfold badsum32. assert (G : forall m s, fold_left (fun sum b => add32 sum b) m s mod 2 ^ 32 = (s + fold_right Z.add 0 m) mod 2 ^ 32).
    { clear. induction m as [|x m IH]; intros s; cbn [fold_left fold_right]; [f_equal; lia|]. rewrite IH. unfold add32, u32. change M32 with (2 ^ 32). rewrite Z.add_mod_idemp_l by lia. f_equal. lia. }
    specialize (G m 0). rewrite Z.add_0_l in G. rewrite <- G. symmetry. apply Z.mod_small.
    assert (R : forall m s, 0 <= s < 2 ^ 32 -> 0 <= fold_left (fun sum b => add32 sum b) m s < 2 ^ 32).
    { clear. induction m as [|x m IH]; intros s S; cbn [fold_left]; [exact S|]. apply IH. unfold add32, u32. apply Z.mod_pos_bound. reflexivity. }
    apply R. lia.
Qed.
Lemma key_spec id m : key (hash_bits id) (spec_hash id m) = spec_hash id m.
Proof. destruct id; cbn; destruct (X3.XXH3_128 m); reflexivity. Qed.
Lemma samples_nodup base n : 2 <= zlen base -> (n < length (upto 14 (8 * zlen base)))%nat -> NoDup (samples base n).
Proof.
  intros S2 L. unfold samples. apply nodup_map; [|apply seq_NoDup]. intros a b Ia Ib E. apply in_seq in Ia, Ib. apply flips_inj in E.
  - apply (proj1 (NoDup_nth _ []) (upto_nodup 14 (8 * zlen base))) in E; lia.
  - apply (in_upto 14), nth_In. lia.
  - apply (in_upto 14), nth_In. lia.
Qed.

(** for every hash function of the tool, every option, every build: a number that is reported is the number of hashes
    minus the number of distinct hashes, over that many different samples of the requested size *)
Theorem C63_reported_collisions : forall c adr junk junkIdx strict id sort o r,
  cfg_ok c -> zlen junk = o_sampleSize o -> o_sampleSize o * 8 < 2 ^ szbits c -> 0 < o_totalH o < 2 ^ 58 -> sorts sort ->
  found c junk junkIdx strict (wrapper c adr id) (hash_bits id) sort o = OK (Some r) ->
  exists samples, zlen samples = o_totalH o /\ NoDup samples /\ Forall (fun s => zlen s = o_sampleSize o /\ bytes_ok s) samples /\
    r = dups (map (spec_hash id) samples).
Proof.
  intros c adr junk junkIdx strict id sort o r C LJ SZ NBH ST E.
  destruct (found_right c junk junkIdx strict (wrapper c adr id) (spec_hash id) (hash_bits id) sort ordered o C LJ SZ) with (r := r) as (base & (Lb & Bb & _) & (S2 & LU) & R); trivial.
  { intros b L B. apply wrapper_ok; trivial. pose proof (zlen_nonneg b). lia. }
  { exact ordered_antisym. }
  exists (samples base (Z.to_nat (o_totalH o))). split; [unfold samples, zlen; rewrite map_length, seq_length; lia|]. split; [apply samples_nodup; trivial|]. split.
  - apply Forall_forall. intros s I. unfold samples in I. apply in_map_iff in I. destruct I as (i & <- & _). rewrite flips_len. split; [exact Lb|apply flips_bytes; exact Bb].
  - rewrite R. unfold all_keys. f_equal. rewrite map_map. apply map_ext. intros m. apply key_spec.
Qed.
Print Assumptions C63_reported_collisions.

(** the number depends only on the hash, the sample size, the seed and the number of hashes: not on the filter, its size,
    the number of threads, the build or uninitialised memory *)
Theorem C63_same_number_with_any_options : forall c c' adr adr' junk junk' junkIdx junkIdx' strict strict' id sort sort' o o' r r',
  cfg_ok c -> cfg_ok c' -> zlen junk = o_sampleSize o -> zlen junk' = o_sampleSize o' -> o_sampleSize o * 8 < 2 ^ szbits c -> o_sampleSize o' * 8 < 2 ^ szbits c' ->
  0 < o_totalH o < 2 ^ 58 -> sorts sort -> sorts sort' ->
  o_sampleSize o = o_sampleSize o' -> o_prngSeed o = o_prngSeed o' -> o_totalH o = o_totalH o' ->
  found c junk junkIdx strict (wrapper c adr id) (hash_bits id) sort o = OK (Some r) ->
  found c' junk' junkIdx' strict' (wrapper c' adr' id) (hash_bits id) sort' o' = OK (Some r') -> r = r'.
Proof.
  intros c c' adr adr' junk junk' junkIdx junkIdx' strict strict' id sort sort' o o' r r' C C' LJ LJ' SZ SZ' NBH ST ST' ES EP ET E E'.
  destruct (found_right c junk junkIdx strict (wrapper c adr id) (spec_hash id) (hash_bits id) sort ordered o C LJ SZ) with (r := r) as (base & F & _ & R); trivial.
  { intros b L B. apply wrapper_ok; trivial. pose proof (zlen_nonneg b). lia. }
  { exact ordered_antisym. }
  destruct (found_right c' junk' junkIdx' strict' (wrapper c' adr' id) (spec_hash id) (hash_bits id) sort' ordered o' C' LJ' SZ') with (r := r') as (base' & F' & _ & R'); trivial; [| | |].
  { intros b L B. apply wrapper_ok; trivial. pose proof (zlen_nonneg b). lia. }
  { lia. }
  { exact ordered_antisym. }
  assert (EB : base = base').
  { apply (first_unique o); [exact F|]. unfold first_sample in *. rewrite ES, EP. exact F'. }
  rewrite R, R', <- EB. unfold all_keys. rewrite ET. reflexivity.
Qed.
Print Assumptions C63_same_number_with_any_options.

(** one thread without filter: once the generator accepts the size, a number is reported (if the two shifts of 64-bit
    constants by an impossible count, whose values are only displayed, give some value) *)
Theorem C63_run_without_filter_reports : forall c adr junk junkIdx id sort o sf,
  cfg_ok c -> zlen junk = o_sampleSize o -> o_sampleSize o * 8 < 2 ^ szbits c -> 0 < o_totalH o < 2 ^ 58 -> sorts sort ->
  o_filter o = false -> o_threadlog o = 0 -> o_bflog o = 0 -> sparse_create c junk junkIdx (o_sampleSize o) (o_totalH o) (o_prngSeed o) = OK (Some sf) ->
  exists r, found c junk junkIdx false (wrapper c adr id) (hash_bits id) sort o = OK (Some r).
Proof.
  intros c adr junk junkIdx id sort o sf C LJ SZ NBH ST NF T0 B0 E. unfold found, jobs. rewrite NF, T0, B0. cbn [negb Z.eqb].
  assert (HB : exists b, highestBitSet (o_totalH o) = OK b).
  { unfold highestBitSet. replace (o_totalH o =? 0) with false by lia. cbn [negb assert_ bind].
    assert (G : forall f v b, 0 < v < 2 ^ Z.of_nat (S f) -> exists s, while_ f (fun '(v, _) => negb (shr v 1 =? 0)) (fun '(v, bitId) => OK (shr v 1, bitId + 1)) (v, b) = OK s).
    { clear. induction f as [|f IH]; intros v b V.
      - exists (v, b). cbn [while_]. replace v with 1 by (change (2 ^ Z.of_nat 1) with 2 in V; lia). reflexivity.
      - cbn [while_]. destruct (Z.eqb_spec (shr v 1) 0); cbn [negb]; [eexists; reflexivity|]. cbn [bind]. apply IH. unfold shr in *. rewrite Z.shiftr_div_pow2 in * by lia. change (2 ^ 1) with 2 in *.
        assert (0 <= v / 2) by (apply Z.div_pos; lia). split; [lia|]. apply Z.div_lt_upper_bound; [lia|]. replace (Z.of_nat (S (S f))) with (1 + Z.of_nat (S f)) in V by lia. rewrite Z.pow_add_r in V by lia. lia. }
    destruct (G 64%nat (o_totalH o) 0) as (s & Es). { assert (2 ^ 58 < 2 ^ Z.of_nat 65) by reflexivity. lia. }
    rewrite Es. eexists. reflexivity. }
  destruct HB as (b & ->). cbn [bind Z.leb Z.ltb andb assert_ Z.compare Z.eqb Z.pow Pos.eqb].
  destruct (search_plain c junk junkIdx false (wrapper c adr id) (spec_hash id) (hash_bits id) sort ordered (Params (o_totalH o) 0 0 (o_sampleSize o) (o_prngSeed o) (-1) true) LJ SZ) with (sf := sf) as (base & I & S2 & LU & R); trivial.
  { intros x L B. apply wrapper_ok; trivial. cbn [p_sampleSize] in L. pose proof (zlen_nonneg x). lia. }
  { exact ordered_antisym. }
  { cbn. lia. }
  cbn [gather]. rewrite R. unfold hashes. cbn [p_nbH] in *.
  rewrite (filter_ext _ (fun _ => true)) by (intros x; unfold selected; cbn [p_mask p_maskSelector]; rewrite Z.land_0_r; reflexivity).
  destruct (samples base (Z.to_nat (o_totalH o))) as [|x l] eqn:EL.
  - exfalso. assert (Q : length (samples base (Z.to_nat (o_totalH o))) = 0%nat) by (rewrite EL; reflexivity). unfold samples in Q. rewrite map_length, seq_length in Q. lia.
  - cbn [map filter bind]. eexists. reflexivity.
Qed.
Print Assumptions C63_run_without_filter_reports.

(** "every run the generator accepts is free of undefined behaviour" is false: without the filter main.c:690 shifts by -1,
    whatever the hash and the sizes *)
Theorem C63_no_undefined_shift_refuted : forall c junk junkIdx hfunction bits sort o r,
  o_filter o = false -> found c junk junkIdx true hfunction bits sort o <> OK (Some r).
Proof.
  intros c junk junkIdx hfunction bits sort o r NF E. unfold found in E. destruct (jobs o) as [[l|]| |] eqn:EJ; cbn [bind] in E; try discriminate. unfold jobs in EJ. rewrite NF in EJ. cbn [negb] in EJ.
  destruct (if o_bflog o =? 0 then let! b := highestBitSet (o_totalH o) in OK (b + 1) else OK (o_bflog o)); cbn [bind] in EJ; try discriminate.
  destruct ((0 <=? o_threadlog o) && (o_threadlog o <? 31)) eqn:ET; cbn [assert_ bind] in EJ; [|discriminate].
  assert (P2 : 0 < 2 ^ o_threadlog o) by (apply Z.pow_pos_nonneg; lia).
  assert (Q : exists p l', l = p :: l' /\ p_filterLog p < 0).
  { revert EJ. destruct (Z.eqb_spec (2 ^ o_threadlog o) 1) as [E1|E1]; intros EJ.
    - injection EJ as <-. eexists. eexists. split; [reflexivity|]. reflexivity.
    - destruct (30 <=? o_threadlog o); [discriminate|]. destruct (shr (o_totalH o) 16 <? 2 ^ o_threadlog o); [discriminate|]. cbn [Z.ltb Z.compare andb Z.eqb] in EJ. destruct (- 2 ^ 31 <=? -1 - o_threadlog o); cbn [assert_ bind] in EJ; [|discriminate].
      destruct (Z.to_nat (2 ^ o_threadlog o)) as [|n] eqn:EN; [lia|]. cbn [seq map] in EJ. match type of EJ with OK (Some ?x) = _ => assert (EL : l = x) by congruence end. rewrite EL. eexists. eexists. split; [reflexivity|]. cbn [p_filterLog]. lia. }
  destruct Q as (p & l' & -> & NEG). cbn [gather] in E. destruct (search_collisions _ _ _ _ _ _ _ p) as [[q|]| |] eqn:ES in E; cbn [bind] in E; try discriminate.
  unfold search_collisions in ES. destruct (sparse_create _ _ _ _ _ _) as [[sf|]| |]; cbn [bind] in ES; try discriminate.
  replace (p_filterLog p =? 0) with false in ES by lia. cbn [bind] in ES. unfold shift_1ULL in ES. replace (0 <=? p_filterLog p) with false in ES by lia. discriminate.
Qed.
Print Assumptions C63_no_undefined_shift_refuted.

(** a sort for the examples *)
Fixpoint ins (x : Z * Z) (l : list (Z * Z)) : list (Z * Z) := match l with [] => [x] | y :: l' => if XXH128_cmp x y <=? 0 then x :: l else y :: ins x l' end.
Fixpoint isort (l : list (Z * Z)) : list (Z * Z) := match l with [] => [] | x :: l => ins x (isort l) end.
Lemma ordered_trans a b d : ordered a b -> ordered b d -> ordered a d.
Proof.
  unfold ordered, XXH128_cmp, gt_int. destruct a as [a1 a2], b as [b1 b2], d as [d1 d2]. cbn [fst snd].
  destruct (Z.ltb_spec a2 b2), (Z.ltb_spec b2 a2), (Z.ltb_spec b2 d2), (Z.ltb_spec d2 b2), (Z.ltb_spec a2 d2), (Z.ltb_spec d2 a2); cbn; try lia.
  all: destruct (Z.ltb_spec a1 b1), (Z.ltb_spec b1 a1), (Z.ltb_spec b1 d1), (Z.ltb_spec d1 b1), (Z.ltb_spec a1 d1), (Z.ltb_spec d1 a1); cbn; lia.
Qed.
Lemma isort_sorts : sorts isort.
Proof.
  intros l. induction l as [|x l [P S]]; [split; constructor|]. cbn [isort].
  assert (PI : forall l, Permutation (x :: l) (ins x l)).
  { clear. induction l as [|y l IH]; cbn [ins]; [apply Permutation_refl|]. destruct (_ <=? 0); [apply Permutation_refl|]. eapply perm_trans; [apply perm_swap|]. apply perm_skip. exact IH. }
  split; [eapply perm_trans; [apply perm_skip; exact P|apply PI]|].
  clear P. revert S. generalize (isort l) as m. induction m as [|y m IH]; intros S; cbn [ins]; [repeat constructor|]. inversion S as [|? ? S' F]; subst.
  destruct (Z.leb_spec (XXH128_cmp x y) 0) as [LE|GT].
  - constructor; [exact S|]. constructor; [exact LE|]. eapply Forall_impl; [|exact F]. intros z Hz. apply ordered_trans with y; assumption.
  - constructor; [apply IH; exact S'|]. apply Forall_forall. intros z Hz. apply (Permutation_in _ (Permutation_sym (PI m))) in Hz. destruct Hz as [<-|Hz].
    + unfold ordered, XXH128_cmp, gt_int in *. destruct (Z.ltb_spec (snd y) (snd x)), (Z.ltb_spec (snd x) (snd y)); cbn in *; try lia; destruct (Z.ltb_spec (fst y) (fst x)), (Z.ltb_spec (fst x) (fst y)); cbn in *; lia.
    + rewrite Forall_forall in F. apply F. exact Hz.
Qed.
(** badsum32 of 100 samples of 2 bytes: the tool reports 39 collisions, with and without the filter *)
Example C63_badsum : found c0 [9; 9] [] false (wrapper c0 0 Badsum32) 32 isort (Opts 100 0 false 2 0 0) = OK (Some 39).
Proof. vm_compute. reflexivity. Qed.
Example C63_badsum_filter : found c0 [3; 4] [] true (wrapper c0 0 Badsum32) 32 isort (Opts 100 9 true 2 0 0) = OK (Some 39).
Proof. vm_compute. reflexivity. Qed.

(** with the filter a run can end in an assertion although everything is in order: "the second pass never finds more
    candidates than the first announced" (main.c:758) is false.  Five hashes whose two filter slots are ab bc cd ad bc:
    the first pass announces two pairs, the second finds five candidates *)
Theorem C63_candidates_never_exceed_announced_refuted : exists hfunction : list Z -> Z * Z,
  found c0 [0; 0] [] true (fun m => OK (hfunction m)) 64 isort (Opts 5 7 true 2 0 0) = UB /\
  found c0 [0; 0] [] false (fun m => OK (hfunction m)) 64 isort (Opts 5 7 false 2 0 0) = OK (Some 1).
Proof.
  exists (fun m => (match Z.lxor (nth 0 m 0) (randomByte 0) with
      | 1 => 741680773492972610 | 2 => 15333758092471943793 | 4 => 11139867932723583712 | 8 => 14125985556035772911 | _ => 15333758092471943793 end, 0)).
  split; vm_compute; reflexivity.
Qed.
Print Assumptions C63_candidates_never_exceed_announced_refuted.

(** C64: reading a number with its suffix: the exact value, or the end of the program, and that only for values
    beyond 2^64 - 1024; never a wrapped value *)
Theorem C64_numbers_are_read_exactly : forall ds sfx k rest,
  Forall (fun d => 0 <= d <= 9) ds -> In (sfx, k) suffixes -> isDigit (ch rest) = false -> ~ In (ch rest) [75; 77; 71; 105; 66] ->
  readU64FromChar (map (fun d => 48 + d) ds ++ sfx ++ rest) = OK (1024 ^ k * decimal 0 ds, rest) /\ 0 <= 1024 ^ k * decimal 0 ds < 2 ^ 64 \/
  readU64FromChar (map (fun d => 48 + d) ds ++ sfx ++ rest) = UB /\ 2 ^ 64 - 1024 <= 1024 ^ k * decimal 0 ds.
Proof. exact read_spec. Qed.
Print Assumptions C64_numbers_are_read_exactly.
(** "24GiB," *)
Example C64_24GiB : readU64FromChar [50; 52; 71; 105; 66; 44] = OK (24 * 2 ^ 30, [44]).
Proof. vm_compute. reflexivity. Qed.
