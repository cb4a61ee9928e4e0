(** The benchmark: every call it makes is defined and computes the specified hash. *)
From Coq Require Import String.
From Verif Require Import Base Mem M_XXH32 M_XXH64 M_XXH3 M_Kernels M_Long M_Stream3 M_Util Spec32 Spec64 Spec3 SpecUtil SpecCli SpecBench
  P_Base P_Spec P_XXH32 P_XXH64 P_X3_Long P_Stream3 P_Stream4 P_Util History P_History Properties1 Properties2 M_Sanity P_Cli P_Sanity M_Cli M_Bench.

(** ** The wrappers *)
Section Wrappers.
Context (c : cfg) (C : cfg_ok c) (st : state3) (RW : raw3 st).
Context (ps : ptr) (s : list Z) (PS : points_to ps s) (BS : bytes_ok s) (LS : zlen s = 136).
Context (p : ptr) (m : list Z) (PT : points_to p m) (BM : bytes_ok m) (SZ : zlen m < 2 ^ szbits c).
Lemma init_created : created3 (XXH3_INITSTATE st).
Proof. destruct RW. constructor; cbn; trivial. Qed.
Lemma len64 : zlen m < 2 ^ 64.
Proof. destruct C as [[E | E] _ _]; rewrite E in SZ; lia. Qed.
Lemma vupdate P s0 : R3 c (Some (P, [])) s0 -> exists s1, void (XXH3_64bits_update c s0 p (zlen m)) = OK s1 /\ R3 c (Some (P, m)) s1.
Proof.
  intros R. destruct (update3_R c P [] s0 p m C R PT BM SZ) as (s1 & E & R1). exists s1. unfold void. rewrite E. split; [reflexivity|exact R1].
Qed.
Lemma vreset_default : exists s1, void3 (XXH3_64bits_reset c (Some st)) = OK s1 /\ R3 c (Some (PDefault, [])) s1.
Proof.
  destruct (reset_rep c st C RW) as (s1 & E & Rp & _). exists s1. unfold void3. rewrite E. split; [reflexivity|].
  eapply R3_rep; [|exact Rp]. cbn. auto.
Qed.
Lemma bdigest_64 P s0 : R3 c (Some (P, m)) s0 ->
  XXH3_64bits_digest c s0 = OK (match P with PDefault => X3.XXH3_64 m | PSeed sd => X3.XXH3_64_withSeed sd m
    | PSecret s => X3.XXH3_64_withSecret s m | PBoth s sd => X3.XXH3_64_withSecretandSeed s sd m end).
Proof.
  intros (RW' & RC & s1 & us & seed & K & L & Rp). pose proof len64.
  pose proof (link_digest c W64 P m s1 us seed K s0 C L Rp ltac:(lia)) as E.
  unfold do_digest3 in E. destruct (XXH3_64bits_digest c s0); cbn [bind] in E; try discriminate. injection E as ->. reflexivity.
Qed.
Lemma bdigest_128 P s0 : R3 c (Some (P, m)) s0 ->
  XXH3_128bits_digest c s0 = OK (match P with PDefault => X3.XXH3_128 m | PSeed sd => X3.XXH3_128_withSeed sd m
    | PSecret s => X3.XXH3_128_withSecret s m | PBoth s sd => X3.XXH3_128_withSecretandSeed s sd m end).
Proof.
  intros (RW' & RC & s1 & us & seed & K & L & Rp). pose proof len64.
  pose proof (link_digest c W128 P m s1 us seed K s0 C L Rp ltac:(lia)) as E.
  unfold do_digest3 in E. destruct (XXH3_128bits_digest c s0); cbn [bind] in E; try discriminate. injection E as ->. reflexivity.
Qed.
Lemma wrapper_ok id name func u : nth_error (hashesToBench c) id = Some (name, func) -> 0 <= u < 2 ^ 32 ->
  exists h x, variant id s m u = Some h /\ func st ps p (zlen m) u = OK x /\ x mod 2 ^ 32 = h mod 2 ^ 32.
Proof.
  intros E U. pose proof (small32 c C) as S32. pose proof len64 as L64.
  assert (T : forall h : Z, exists h' x, Some h = Some h' /\ OK (u32 h) = OK x /\ x mod 2 ^ 32 = h' mod 2 ^ 32).
  { intros h. exists h, (u32 h). repeat split. unfold u32. apply Z.mod_mod. lia. }
  unfold hashesToBench in E.
  do 14 (try (destruct id as [|id]; [clear - E U S32 L64 T C RW PS BS LS PT BM SZ; injection E as <- <-|cbn [nth_error] in E])); [..|destruct id; discriminate]; cbn [variant].
  - unfold localXXH32. rewrite C01_xxh32_equals_spec with (m := m) by trivial. eauto.
  - unfold localXXH64. rewrite C02_xxh64_equals_spec with (m := m) by trivial. cbn [bind]. apply T.
  - unfold localXXH3_64b. rewrite C03_xxh3_64_equals_spec with (m := m) by trivial. cbn [bind]. apply T.
  - unfold localXXH3_64b_seeded. rewrite C03_xxh3_64_withSeed_equals_spec with (m := m) by (trivial; lia). cbn [bind]. apply T.
  - unfold localXXH3_64b_secret. change SECRET_SIZE_MIN with 136. rewrite <- LS.
    rewrite C03_xxh3_64_withSecret_equals_spec with (m := m) (s := s) by (trivial; lia). cbn [bind]. apply T.
  - unfold localXXH3_128b. rewrite C04_xxh3_128_equals_spec with (m := m) by trivial. cbn [bind]. apply T.
  - unfold localXXH3_128b_seeded. destruct (C04_xxh3_128_withSeed_equals_spec c p m u C PT BM ltac:(lia)) as [-> _]. cbn [bind]. apply T.
  - unfold localXXH3_128b_secret. change SECRET_SIZE_MIN with 136. rewrite <- LS.
    rewrite C04_xxh3_128_withSecret_equals_spec with (m := m) (s := s) by (trivial; lia). cbn [bind]. apply T.
  - unfold localXXH32_stream. destruct (update32_ok' c u [] _ p m C (reset32_rep u) PT BM) as (s1 & E1 & R1).
    { change (zlen [] mod 16) with 0. lia. }
    unfold void. rewrite E1. cbn [bind]. rewrite (digest32_ok c u m s1 C R1). cbn [bind]. apply T.
  - unfold localXXH64_stream. destruct (update64_ok' c u [] _ p m C (reset64_rep u) PT BM) as (s1 & E1 & R1).
    { change (zlen [] mod 32) with 0. lia. }
    unfold void. rewrite E1. cbn [bind]. rewrite (digest64_ok c u m s1 C R1) by lia. cbn [bind]. apply T.
  - unfold localXXH3_stream. destruct vreset_default as (s1 & -> & R1). cbn [bind].
    destruct (vupdate _ _ R1) as (s2 & -> & R2). cbn [bind]. rewrite (bdigest_64 _ _ R2). cbn [bind]. apply T.
  - unfold localXXH3_stream_seeded. destruct (vreset_seed c C _ _ u (created_R3 c _ init_created) ltac:(lia)) as (s1 & -> & R1). cbn [bind].
    destruct (vupdate _ _ R1) as (s2 & -> & R2). cbn [bind]. rewrite (bdigest_64 _ _ R2). cbn [bind]. apply T.
  - unfold localXXH128_stream. change (XXH3_128bits_update c) with (XXH3_64bits_update c). unfold XXH3_128bits_reset.
    destruct vreset_default as (s1 & -> & R1). cbn [bind].
    destruct (vupdate _ _ R1) as (s2 & -> & R2). cbn [bind]. rewrite (bdigest_128 _ _ R2). cbn [bind]. apply T.
  - unfold localXXH128_stream_seeded. change (XXH3_128bits_update c) with (XXH3_64bits_update c). unfold XXH3_128bits_reset_withSeed.
    destruct (vreset_seed c C _ _ u (created_R3 c _ init_created) ltac:(lia)) as (s1 & -> & R1). cbn [bind].
    destruct (vupdate _ _ R1) as (s2 & -> & R2). cbn [bind]. rewrite (bdigest_128 _ _ R2). cbn [bind]. apply T.
Qed.
End Wrappers.

Ltac nulf := let I := fresh in intros I; cbn in I; repeat (destruct I as [I|I]; [discriminate|]); exact I.

(** ** The secret *)
Lemma gen_bytes_spec n : forall g k, 0 <= k -> g = (2654435761 * 11400714785074694797 ^ k) mod 2 ^ 64 ->
  gen_bytes n g = map (fun j => (2654435761 * 11400714785074694797 ^ (k + Z.of_nat j)) mod 2 ^ 64 / 2 ^ 56) (seq 0 n).
Proof.
  induction n as [|n IH]; intros g k K G; cbn [gen_bytes seq map]; [reflexivity|]. f_equal.
  - rewrite Z.add_0_r, G. apply Z.mod_small. pose proof (Z.mod_pos_bound (2654435761 * 11400714785074694797 ^ k) (2 ^ 64) ltac:(lia)).
    split; [apply Z.div_pos; [apply H|reflexivity]|]. apply Z.div_lt_upper_bound; [reflexivity|]. exact (proj2 H).
  - rewrite (IH _ (k + 1)); [|lia|].
    + rewrite <- seq_shift, map_map. apply map_ext. intros j. replace (k + 1 + Z.of_nat j) with (k + Z.of_nat (S j)) by lia. reflexivity.
    + rewrite G, Z.mul_mod_idemp_l by lia. f_equal. rewrite Z.pow_add_r by lia. change TPRIME64 with 11400714785074694797. ring.
Qed.
Lemma fill_secret b : zlen b = 136 -> fillTestBuffer b SECRET_SIZE_MIN = OK bench_secret.
Proof.
  intros L. unfold fillTestBuffer. change SECRET_SIZE_MIN with 136.
  destruct (fill_loop (Z.to_nat 136) [] b [] TPRIME32) as [g' E]; [llia|].
  cbn [app] in E. rewrite !app_nil_r in E. change (zlen []) with 0 in E. rewrite E. clear E. cbn [bind]. apply (f_equal (@OK _)).
  rewrite (gen_bytes_spec _ _ 0); [|lia|reflexivity]. unfold bench_secret, upto. rewrite map_map. apply map_ext. intros j. rewrite Z.add_0_l. reflexivity.
Qed.
Lemma bench_secret_len : zlen bench_secret = 136.
Proof. unfold bench_secret, upto, zlen. rewrite !map_length, seq_length. reflexivity. Qed.
Lemma bench_secret_bytes : bytes_ok bench_secret.
Proof.
  unfold bench_secret, bytes_ok. apply Forall_forall. intros x I. apply in_map_iff in I as (k & <- & _).
  pose proof (Z.mod_pos_bound (2654435761 * 11400714785074694797 ^ k) (2 ^ 64) ltac:(lia)).
  split; [apply Z.div_pos; [apply H|reflexivity]|]. apply Z.div_lt_upper_bound; [reflexivity|]. exact (proj2 H).
Qed.
Opaque bench_secret.

(** ** Rounds *)
Lemma fold_add_shift l : forall a, fold_left Z.add l a = a + fold_left Z.add l 0.
Proof. induction l as [|x l IH]; intros a; cbn [fold_left]; [lia|]. rewrite IH, (IH (0 + x)). lia. Qed.
Lemma upto_S n : upto (Z.of_nat (S n)) = upto (Z.of_nat n) ++ [Z.of_nat n].
Proof. unfold upto. rewrite !Nat2Z.id, seq_S, map_app. reflexivity. Qed.
Lemma total32_S n f : total32 (Z.of_nat (S n)) f = (total32 (Z.of_nat n) f + f (Z.of_nat n)) mod 2 ^ 32.
Proof.
  unfold total32. rewrite upto_S, map_app, fold_left_app. cbn [map fold_left]. rewrite Zplus_mod_idemp_l. reflexivity.
Qed.
Lemma round_ok (x : Z -> res Z) (f : Z -> Z) N : 0 <= N ->
  (forall u, 0 <= u < N -> exists v, x u = OK v /\ v mod 2 ^ 32 = f u mod 2 ^ 32) ->
  for_ (Z.to_nat N) 0 (fun u r => let! v := x u in OK (u32 (r + v))) 0 = OK (total32 N f).
Proof.
  intros P H.
  destruct (for_inv (fun i r => r = total32 i f) (fun u r => let! v := x u in OK (u32 (r + v))) (Z.to_nat N) 0 0) as (r & E & I).
  - reflexivity.
  - intros i r R ->. destruct (H i) as (v & -> & M); [lia|]. cbn [bind]. eexists. split; [reflexivity|].
    replace (i + 1) with (Z.of_nat (S (Z.to_nat i))) by lia. rewrite total32_S, Z2Nat.id by lia.
    unfold u32. change M32 with (2 ^ 32). rewrite <- (Zplus_mod_idemp_r v), M, Zplus_mod_idemp_r. reflexivity.
  - rewrite E, I. f_equal. f_equal. lia.
Qed.
Lemma rounds_ok (F : list Z -> Z -> res Z) (g : Z -> Z) (Q : Z -> Prop) : (forall acc n, Q n -> F acc n = OK (g n)) ->
  forall l acc, Forall Q l ->
  fold_left (fun a n => let! a := a in let! r := F a n in OK (a ++ [r])) l (OK acc) = OK (acc ++ map g l).
Proof.
  intros H. induction l as [|n l IH]; intros acc A; cbn [fold_left map]; [rewrite app_nil_r; reflexivity|].
  inversion A; subst. cbn [bind]. rewrite H by trivial. cbn [bind]. rewrite IH by trivial. rewrite <- app_assoc. reflexivity.
Qed.

Section Bench.
Context (c : cfg) (C : cfg_ok c).
Definition counted (n : Z) : Prop := 0 <= n < 2 ^ 32.
Lemma first_counted size : 0 <= size -> counted (first_count size).
Proof.
  intros S. unfold counted, first_count.
  assert (0 <= 10 * 2 ^ 20 / (size + 1)) by (apply Z.div_pos; lia).
  assert (10 * 2 ^ 20 / (size + 1) <= 10 * 2 ^ 20) by (apply Z.div_le_upper_bound; lia). lia.
Qed.
Lemma benchHash_ok id name func st ps p m later : nth_error (hashesToBench c) id = Some (name, func) ->
  (forall j u, raw3 (st j u)) -> points_to ps bench_secret -> points_to p m -> bytes_ok m -> zlen m + 1 < 2 ^ szbits c ->
  Forall counted later ->
  benchHash c func st ps p (zlen m) later =
  OK (map (fun n => total32 n (fun u => match variant id bench_secret m u with Some h => h | None => 0 end)) (first_count (zlen m) :: later)).
Proof.
  intros E RW PS PT B SZ L. unfold benchHash. pose proof (zlen_nonneg m) as Z0.
  assert (U : usz c (zlen m + 1) = zlen m + 1) by (apply Z.mod_small; lia). rewrite U, (proj2 (Z.eqb_neq _ _)) by lia.
  pose proof (first_counted (zlen m) Z0) as FC.
  replace (u32 (u32 (SPEED_TARGET * MB / (zlen m + 1)) + 1)) with (first_count (zlen m)).
  2: { unfold u32. change M32 with (2 ^ 32). rewrite Zplus_mod_idemp_l. symmetry. apply Z.mod_small. exact FC. }
  rewrite (rounds_ok (fun acc nbh => for_ (Z.to_nat nbh) 0 (fun u r => let! x := func (st (zlen acc) u) ps p (zlen m) u in OK (u32 (r + x))) 0)
    (fun n => total32 n (fun u => match variant id bench_secret m u with Some h => h | None => 0 end)) counted); [reflexivity| |constructor; trivial].
  intros acc n CN. apply (round_ok (fun u => func (st (zlen acc) u) ps p (zlen m) u)); [apply CN|]. intros u U'. unfold counted in CN.
  destruct (wrapper_ok c C (st (zlen acc) u) (RW _ _) ps bench_secret PS bench_secret_bytes bench_secret_len p m PT B ltac:(lia) id name func u E ltac:(lia)) as (h & x & V & X & M).
  rewrite V. eauto.
Qed.

Lemma names_ok id name func : nth_error (hashesToBench c) id = Some (name, func) ->
  name = codes (nth id variant_names ""%string) /\ nul_free name /\ zlen name < 100.
Proof.
  intros E. unfold hashesToBench in E.
  do 14 (try (destruct id as [|id]; [clear - E; injection E as <- _|cbn [nth_error] in E])); [..|destruct id; discriminate];
    (split; [reflexivity|]; split; [nulf|reflexivity]).
Qed.
Lemma strcatDup_ok fresh s1 s2 : (forall n, 0 <= n -> zlen (fresh n) = n) -> nul_free s1 -> nul_free s2 -> zlen s1 + zlen s2 + 1 < 2 ^ szbits c ->
  strcatDup c fresh (s1 ++ [0]) (s2 ++ [0]) = OK (s1 ++ s2 ++ [0]).
Proof.
  intros F N1 N2 S. unfold strcatDup. pose proof (zlen_nonneg s1). pose proof (zlen_nonneg s2).
  pose proof (strlen_ok [] s1 [] 0 eq_refl N1) as E1. pose proof (strlen_ok [] s2 [] 0 eq_refl N2) as E2. cbn [app] in E1, E2.
  rewrite E1, E2. cbn [bind].
  assert (U : usz c (zlen s1 + zlen s2 + 1) = zlen s1 + zlen s2 + 1) by (apply Z.mod_small; lia). rewrite U.
  pose proof (F (zlen s1 + zlen s2 + 1) ltac:(lia)) as LF. set (b := fresh (zlen s1 + zlen s2 + 1)) in *.
  rewrite (load_at0 _ (s1 ++ [0])); [|exists [], []; rewrite app_nil_r; split; reflexivity|congruence|llia]. cbn [bind].
  replace (zslice (s1 ++ [0]) 0 (zlen s1)) with s1 by list_eq.
  rewrite store_ok by lia. cbn [bind].
  rewrite (load_at0 _ (s2 ++ [0])); [|exists [], []; rewrite app_nil_r; split; reflexivity|congruence|llia]. cbn [bind].
  replace (zslice (s2 ++ [0]) 0 (zlen s2 + 1)) with (s2 ++ [0]) by list_eq.
  rewrite store_ok by llia. f_equal. list_eq.
Qed.

Definition calm (a : ambience) : Prop :=
  (forall n, 0 <= n -> zlen (a_fresh a n) = n) /\ (forall k i j u, raw3 (a_state a k i j u)) /\ (forall k i, Forall counted (a_later a k i)) /\ zlen (a_secret a) = 136.

Lemma seq_sel (P : Z -> bool) n : forall s, map (fun i => i + 1) (filter (fun i => P (i + 1)) (map Z.of_nat (seq s n))) = filter P (map (fun i => i + 1) (map Z.of_nat (seq s n))).
Proof. induction n as [|n IH]; intros s; cbn; [reflexivity|]. destruct (P (Z.of_nat s + 1)); cbn; rewrite IH; reflexivity. Qed.
Definition upto_i (i : Z) := map (fun i => i + 1) (upto i).
Lemma upto_i_S i : 0 <= i -> upto_i (i + 1) = upto_i i ++ [i + 1].
Proof. intros. unfold upto_i. replace (i + 1) with (Z.of_nat (S (Z.to_nat i))) by lia. rewrite upto_S, map_app. rewrite Z2Nat.id by lia. cbn. repeat f_equal; lia. Qed.

Lemma benchMem_ok a k ids p m m3 : calm a -> zlen ids = 29 -> points_to p m -> points_to (padd p 3) m3 -> bytes_ok m -> bytes_ok m3 ->
  zlen m3 = zlen m -> zlen m + 1 < 2 ^ szbits c -> paddr p mod 16 = 0 ->
  benchMem c a k ids p (zlen m) = OK (bench_result ids m m3 (fun i => first_count (zlen m) :: a_later a k i)).
Proof.
  intros (FR & RW & LT & LSec) LI PT PT3 B B3 L3 SZ AL. unfold benchMem.
  change 15 with (Z.ones 4). rewrite Z.land_ones by lia. change (2 ^ 4) with 16. rewrite AL. cbn [Z.eqb assert_ bind].
  rewrite fill_secret by trivial. cbn [bind].
  assert (PS : points_to (Ptr bench_secret (a_sadr a) 0) bench_secret) by (exists [], []; rewrite app_nil_r; split; reflexivity).
  set (counts := fun i => first_count (zlen m) :: a_later a k i).
  assert (H := for_inv (fun i acc => acc = map (test_of m m3 counts) (filter (fun i => negb (nth (Z.to_nat i) ids 0 =? 0)) (upto_i (i - 1))))).
  specialize (H (fun i acc =>
    let hashFuncID := (i - 1) / 2 in
    let! t := cget ids i in
    match nth_error (hashesToBench c) (Z.to_nat hashFuncID) with
    | None => UB
    | Some (name, func) =>
        if t =? 0 then OK acc
        else if i mod 2 =? 1 then
          let! r := benchHash c func (a_state a k i) (Ptr bench_secret (a_sadr a) 0) p (zlen m) (a_later a k i) in
          OK (acc ++ [(name, r)])
        else
          let! b := strcatDup c (a_fresh a) (name ++ [0]) (str " unaligned" ++ [0]) in
          let! n := cstr b 0 in
          let! r := benchHash c func (a_state a k i) (Ptr bench_secret (a_sadr a) 0) (padd p 3) (zlen m) (a_later a k i) in
          OK (acc ++ [(n, r)])
    end) 28%nat 1 []).
  destruct H as (r & E & I).
  - reflexivity.
  - intros i acc R ->. cbv zeta. unfold cget.
    rewrite (proj2 (Z.leb_le 0 i)), (proj2 (Z.ltb_lt i (zlen ids))) by lia. cbn [andb bind].
    destruct (nth_error (hashesToBench c) (Z.to_nat ((i - 1) / 2))) as [[name func]|] eqn:NE.
    2: { exfalso. apply nth_error_None in NE. change (List.length (hashesToBench c)) with 14%nat in NE.
         assert ((i - 1) / 2 < 14) by (apply Z.div_lt_upper_bound; lia). lia. }
    destruct (names_ok _ _ _ NE) as (NM & NF & NL).
    replace (i + 1 - 1) with ((i - 1) + 1) by lia. rewrite upto_i_S, filter_app, map_app by lia.
    replace (i - 1 + 1) with i by lia. cbn [filter].
    destruct (nth (Z.to_nat i) ids 0 =? 0) eqn:T; cbn [negb map].
    + eexists. split; [reflexivity|]. rewrite app_nil_r. reflexivity.
    + assert (OD : Z.odd i = (i mod 2 =? 1)) by (rewrite Zmod_odd; destruct (Z.odd i); reflexivity).
      destruct (i mod 2 =? 1) eqn:Q.
      * rewrite (benchHash_ok _ _ _ _ _ p m _ NE) by (trivial; lia). cbn [bind]. eexists. split; [reflexivity|].
        f_equal. f_equal. unfold test_of. rewrite OD, app_nil_r, <- NM. reflexivity.
      * pose proof (small32 c C). rewrite strcatDup_ok; [|exact FR|exact NF|nulf|change (zlen (str " unaligned")) with 10; lia].
        cbn [bind]. rewrite app_assoc.
        pose proof (cstr_ok [] (name ++ str " unaligned") [] 0 eq_refl) as CS. cbn [app] in CS. rewrite CS.
        2: { intros I. apply in_app_iff in I as [I|I]; [exact (NF I)|]. revert I. nulf. }
        cbn [bind]. pose proof (benchHash_ok _ _ _ (a_state a k i) _ (padd p 3) m3 (a_later a k i) NE (RW k i) PS PT3 B3 ltac:(lia) (LT k i)) as BH.
        rewrite L3 in BH. rewrite BH. cbn [bind]. eexists. split; [reflexivity|].
        f_equal. f_equal. unfold test_of. rewrite OD, <- NM. reflexivity.
  - exact (eq_trans E (f_equal OK I)).
Qed.

(** ** The buffers *)
Lemma aligned16_ok base : 0 <= aligned16 base <= 15 /\ (base + aligned16 base) mod 16 = 0.
Proof.
  unfold aligned16. assert (L : forall x, Z.land x 15 = x mod 16) by (intros x; change 15 with (Z.ones 4); apply Z.land_ones; lia). rewrite !L.
  pose proof (Z.div_mod (base + 15) 16 ltac:(lia)). pose proof (Z.mod_pos_bound (base + 15) 16 ltac:(lia)).
  split; [lia|]. replace (base + (15 - (base + 15) mod 16)) with ((base + 15) / 16 * 16) by lia. apply Z.mod_mul. lia.
Qed.
Lemma benchMem_at a k ids base n m off : calm a -> zlen ids = 29 -> bytes_ok m -> zlen m + 19 < 2 ^ szbits c ->
  n = zlen m + 19 -> off = aligned16 base ->
  forall blk, blk = repeat 0 (Z.to_nat off) ++ m ++ repeat 0 (Z.to_nat (n - off - zlen m)) ->
  benchMem c a k ids (Ptr blk base off) (zlen m) = OK (bench_result ids m (skipn 3 (m ++ [0; 0; 0])) (fun i => first_count (zlen m) :: a_later a k i)).
Proof.
  intros CA LI B SZ -> -> blk ->. destruct (aligned16_ok base) as [A0 AL]. set (off := aligned16 base) in *.
  pose proof (zlen_nonneg m).
  assert (Zr : forall k, 0 <= k -> zlen (repeat 0 (Z.to_nat k)) = k) by (intros; unfold zlen; rewrite repeat_length; lia).
  assert (B0 : bytes_ok (m ++ [0; 0; 0])) by (apply Forall_app; split; [exact B|]; repeat constructor; cbn; lia).
  apply benchMem_ok; trivial.
  - exists (repeat 0 (Z.to_nat off)), (repeat 0 (Z.to_nat (zlen m + 19 - off - zlen m))). split; [reflexivity|]. rewrite Zr by lia. reflexivity.
  - replace (repeat 0 (Z.to_nat (zlen m + 19 - off - zlen m))) with ([0; 0; 0] ++ repeat 0 (Z.to_nat (16 - off))).
    2: { change [0; 0; 0] with (repeat 0 3). rewrite <- repeat_app. f_equal. lia. }
    replace (m ++ [0; 0; 0] ++ repeat 0 (Z.to_nat (16 - off))) with ((m ++ [0; 0; 0]) ++ repeat 0 (Z.to_nat (16 - off))) by (rewrite <- app_assoc; reflexivity).
    replace (skipn 3 (m ++ [0; 0; 0])) with (zslice (m ++ [0; 0; 0]) 3 (zlen m)).
    2: { unfold zslice. change (Z.to_nat 3) with 3%nat. apply firstn_all2. rewrite skipn_length, app_length. unfold zlen. cbn [List.length]. lia. }
    apply points_to_sub; [|lia|lia|rewrite zlen_app; change (zlen [0; 0; 0]) with 3; lia].
    exists (repeat 0 (Z.to_nat off)), (repeat 0 (Z.to_nat (16 - off))). split; [reflexivity|]. rewrite Zr by lia. reflexivity.
  - apply Forall_forall. intros x I. unfold bytes_ok in B0. rewrite Forall_forall in B0. apply B0.
    rewrite <- (firstn_skipn 3 (m ++ [0; 0; 0])). apply in_or_app. right. exact I.
  - unfold zlen. rewrite skipn_length, app_length. cbn [List.length]. lia.
  - lia.
Qed.
Lemma skip_zeros n : skipn 3 (repeat 0 n ++ [0; 0; 0]) = repeat 0 n.
Proof. change [0; 0; 0] with (repeat 0 3). rewrite <- repeat_app, Nat.add_comm. reflexivity. Qed.
Lemma benchInternal_ok a get ids keySize : calm a -> zlen ids = 29 -> 0 <= keySize -> keySize + 19 < 2 ^ szbits c ->
  benchInternal c a get ids keySize = OK (match get (keySize + 19) with
    | None => BExit 12
    | Some _ => let m := repeat 0 (Z.to_nat keySize) in BDone [bench_result ids m m (fun i => first_count keySize :: a_later a 0 i)]
    end).
Proof.
  intros CA LI K SZ. unfold benchInternal.
  assert (U : usz c (usz c (keySize + 16) + 3) = keySize + 19) by (unfold usz; rewrite Zplus_mod_idemp_l, Z.mod_small by lia; lia).
  rewrite U. destruct (get (keySize + 19)) as [base|]; [|reflexivity].
  assert (L : zlen (repeat 0 (Z.to_nat keySize)) = keySize) by (unfold zlen; rewrite repeat_length; lia).
  destruct (aligned16_ok base) as [A0 _].
  pose proof (benchMem_at a 0 ids base (keySize + 19) (repeat 0 (Z.to_nat keySize)) (aligned16 base) CA LI) as E. rewrite L, skip_zeros in E.
  rewrite E; trivial.
  - apply Forall_forall. intros x I. apply repeat_spec in I. subst. split; [lia|reflexivity].
  - rewrite <- !repeat_app. f_equal. lia.
Qed.

(** ** Probing the memory *)
Lemma less_offered q j : 3 <= q <= 31 -> 0 <= j -> less (offered q j) = offered q (j + 1).
Proof.
  intros Q J. unfold less, offered, MB.
  destruct (j <=? q - 2) eqn:E1; destruct (j + 1 <=? q - 2) eqn:E2; try lia.
  - rewrite (proj2 (Z.ltb_lt _ _)) by lia. lia.
  - replace (q - 1 - j) with 1 by lia. replace (j + 1 - (q - 2)) with 1 by lia. reflexivity.
  - replace (j + 1 - (q - 2)) with (j - (q - 2) + 1) by lia.
    assert (2 ^ 26 / 2 ^ (j - (q - 2)) <= 2 ^ 26).
    { apply Z.div_le_upper_bound; [apply Z.pow_pos_nonneg; lia|]. assert (0 < 2 ^ (j - (q - 2))) by (apply Z.pow_pos_nonneg; lia). nia. }
    rewrite (proj2 (Z.ltb_ge _ _)) by lia. rewrite Z.pow_add_r, Z.div_div by (try apply Z.pow_nonzero; lia). reflexivity.
Qed.
Lemma offered_bound q j : 3 <= q <= 31 -> 0 <= j -> 0 <= offered q j <= 30 * 2 ^ 26.
Proof.
  intros Q J. unfold offered. destruct (j <=? q - 2) eqn:E; [lia|].
  assert (0 < 2 ^ (j - (q - 2))) by (apply Z.pow_pos_nonneg; lia).
  split; [apply Z.div_pos; lia|]. apply Z.div_le_upper_bound; nia.
Qed.
Lemma chunks_bound size : 0 <= size -> 3 <= chunks size <= 31.
Proof. intros. unfold chunks. assert (0 <= size / 2 ^ 26) by (apply Z.div_pos; lia). lia. Qed.
Lemma start_ok size : 0 <= size < 2 ^ 63 ->
  less (let requiredMem := ((size / 2 ^ 26 + 1) mod 2 ^ 64 * 2 ^ 26) mod 2 ^ 64 in
    let requiredMem := (requiredMem + 2 * (64 * MB)) mod 2 ^ 64 in
    if MAX_MEM <? requiredMem then MAX_MEM else requiredMem) = offered (chunks size) 0.
Proof.
  intros S. assert (0 <= size / 2 ^ 26) by (apply Z.div_pos; lia). assert (size / 2 ^ 26 < 2 ^ 37) by (apply Z.div_lt_upper_bound; lia).
  cbv zeta. rewrite (Z.mod_small (size / 2 ^ 26 + 1)) by lia. rewrite (Z.mod_small (_ * _)) by lia. unfold MB.
  rewrite (Z.mod_small (_ + _)) by lia. unfold MAX_MEM, MB, offered, chunks, less, MB.
  destruct (2 * 2 ^ 30 - 64 * 2 ^ 20 <? (size / 2 ^ 26 + 1) * 2 ^ 26 + 2 * (64 * 2 ^ 20)) eqn:E.
  - rewrite Z.min_l by lia. reflexivity.
  - rewrite (proj2 (Z.ltb_lt _ _)) by lia. rewrite (proj2 (Z.leb_le _ _)) by lia. lia.
Qed.
Definition probe (malloc : nat -> Z -> bool) (st : Z * nat * bool) : res (Z * nat * bool) :=
  let '(requiredMem, j, _) := st in OK (less requiredMem, S j, malloc j (usz c (less requiredMem))).
Lemma offered_usz q j : 3 <= q <= 31 -> 0 <= j -> usz c (offered q j) = offered q j.
Proof. intros Q J. pose proof (offered_bound q j Q J). pose proof (small32 c C). apply Z.mod_small. lia. Qed.
Lemma probe_loop malloc q f r0 : 3 <= q <= 31 -> less r0 = offered q 0 ->
  (forall j, (j < f)%nat -> malloc j (offered q (Z.of_nat j)) = false) -> malloc f (offered q (Z.of_nat f)) = true ->
  forall d j r fuel, (j + d = f)%nat -> less r = offered q (Z.of_nat j) -> (d < fuel)%nat ->
  while_ fuel (fun '(_, _, testmem) => negb testmem) (probe malloc) (r, j, false) = OK (offered q (Z.of_nat f), S f, true).
Proof.
  intros Q R0 NO YES. induction d as [|d IH]; intros j r fuel J R F; (destruct fuel as [|fuel]; [lia|]); cbn [while_ negb probe bind]; rewrite R, (offered_usz q) by lia.
  - replace j with f by lia. rewrite YES. destruct fuel; reflexivity.
  - rewrite NO by lia. apply IH; [lia| |lia]. rewrite less_offered by lia. f_equal. lia.
Qed.
Lemma findMaxMem_ok malloc size f fuel : 0 <= size < 2 ^ 63 ->
  (forall j, (j < f)%nat -> malloc j (offered (chunks size) (Z.of_nat j)) = false) -> malloc f (offered (chunks size) (Z.of_nat f)) = true ->
  (f < fuel)%nat -> findMaxMem c fuel malloc size = OK (offered (chunks size) (Z.of_nat f + 1)).
Proof.
  intros S NO YES F. pose proof (chunks_bound size ltac:(lia)) as Q. unfold findMaxMem.
  pose proof (start_ok size S) as ST. cbv zeta in ST |- *.
  pose proof (probe_loop malloc (chunks size) f _ Q ST NO YES f O _ fuel eq_refl ST F) as E. unfold probe in E. rewrite E. cbn [bind].
  rewrite less_offered by lia. rewrite offered_usz by lia. reflexivity.
Qed.
Lemma select_ok malloc size f fuel : 0 <= size < 2 ^ 63 ->
  (forall j, (j < f)%nat -> malloc j (offered (chunks size) (Z.of_nat j)) = false) -> malloc f (offered (chunks size) (Z.of_nat f)) = true ->
  (f < fuel)%nat -> selectBenchedSize c fuel malloc size = OK (bench_size size (Z.of_nat f)).
Proof.
  intros S NO YES F. unfold selectBenchedSize. rewrite (findMaxMem_ok malloc size f fuel S NO YES F). cbn [bind]. unfold bench_size. f_equal.
  pose proof (offered_bound (chunks size) (Z.of_nat f + 1) (chunks_bound size ltac:(lia)) ltac:(lia)). pose proof (small32 c C).
  destruct (size <? offered (chunks size) (Z.of_nat f + 1)) eqn:E; [|lia]. rewrite Z.min_l by lia. apply Z.mod_small. lia.
Qed.
(** it never ends if no memory is ever found *)
Lemma findMaxMem_never malloc size : (forall j n, malloc j n = false) -> forall fuel, findMaxMem c fuel malloc size = NoFuel.
Proof.
  intros N fuel. unfold findMaxMem. cbv zeta.
  match goal with |- context [while_ fuel ?cd ?b (_, O, false)] => assert (H : forall k x j, while_ k cd b (x, j, false) = NoFuel) end.
  { induction k as [|k IH]; intros r j; cbn [while_ negb bind]; [reflexivity|]. rewrite N. apply IH. }
  rewrite H. reflexivity.
Qed.

(** ** Files *)
(** the first [fails] requests for a file of this size are refused, the next one is not *)
Definition granted (malloc : nat -> Z -> bool) (size : Z) (fails : nat) : Prop :=
  (forall j, (j < fails)%nat -> malloc j (offered (chunks size) (Z.of_nat j)) = false) /\ malloc fails (offered (chunks size) (Z.of_nat fails)) = true.
Definition as_end (b : bench) : bench_end := match b with BExit k => Stop k | BDone r => Results r end.
Lemma bench_size_bound size f : 0 <= size -> 0 <= f -> 0 <= bench_size size f <= 30 * 2 ^ 26.
Proof. intros S F. unfold bench_size. pose proof (offered_bound (chunks size) (f + 1) (chunks_bound size S) ltac:(lia)). lia. Qed.
Lemma benchFiles_ok a fuel malloc get ids (fails : Z -> nat) : calm a -> zlen ids = 29 -> forall fs k acc,
  Forall (fun f => 0 <= bf_size f < 2 ^ 63 /\ match bf_open f with Some d => bytes_ok d | None => True end) fs ->
  (forall i f, nth_error fs i = Some f -> granted (malloc (k + Z.of_nat i)) (bf_size f) (fails (k + Z.of_nat i))) ->
  (forall k, (fails k < fuel)%nat) ->
  exists b, benchFiles c a fuel malloc get ids fs k acc = OK b /\
    as_end b = match files_result ids (a_later a) (fun k => Z.of_nat (fails k)) (fun k n => match get k n with Some _ => true | None => false end)
                     (map (fun f => (bf_size f, bf_open f)) fs) k with Stop e => Stop e | Results r => Results (acc ++ r) end.
Proof.
  intros CA LI. induction fs as [|f fs IH]; intros k acc FO MA FU; cbn [benchFiles map files_result].
  - eexists. split; [reflexivity|]. cbn [as_end]. rewrite app_nil_r. reflexivity.
  - inversion FO as [|? ? [S0 BO] FO']; subst. pose proof (MA O f eq_refl) as [NO YES]. rewrite Z.add_0_r in NO, YES.
    assert (MA' : forall i g, nth_error fs i = Some g -> granted (malloc (k + 1 + Z.of_nat i)) (bf_size g) (fails (k + 1 + Z.of_nat i))).
    { intros i g I. specialize (MA (S i) g I). replace (k + 1 + Z.of_nat i) with (k + Z.of_nat (S i)) by lia. exact MA. }
    rewrite (select_ok (malloc k) (bf_size f) (fails k) fuel S0 NO YES (FU k)). cbn [bind].
    pose proof (bench_size_bound (bf_size f) (Z.of_nat (fails k)) ltac:(lia) ltac:(lia)) as BB.
    set (n := bench_size (bf_size f) (Z.of_nat (fails k))) in *. cbv zeta. pose proof (small32 c C).
    assert (U : usz c (usz c (n + 16) + 3) = n + 19) by (unfold usz; rewrite Zplus_mod_idemp_l, Z.mod_small by lia; lia). rewrite U.
    destruct (bf_open f) as [d|]; [|eexists; split; reflexivity].
    destruct (get k (n + 19)) as [base|]; cbn [negb]; [|eexists; split; reflexivity].
    destruct (aligned16_ok base) as [A0 _].
    set (m := firstn (Z.to_nat n) d).
    assert (LM : zlen m = Z.min n (zlen d)) by (unfold m, zlen; rewrite firstn_length; lia).
    assert (LR : zlen (repeat 0 (Z.to_nat (n + 19))) = n + 19) by (unfold zlen; rewrite repeat_length; lia).
    rewrite store_ok by lia. rewrite LR. cbn [bind]. change (Z.of_nat (List.length d)) with (zlen d). rewrite LM.
    destruct (zlen d <? n) eqn:Q.
    + rewrite (proj2 (Z.eqb_neq _ _)) by lia. cbn [negb]. eexists; split; reflexivity.
    + rewrite (proj2 (Z.eqb_eq _ _)) by lia. cbn [negb].
      assert (LN : zlen m = n) by lia.
      assert (BMm : bytes_ok m).
      { apply Forall_forall. intros x I. unfold bytes_ok in BO. rewrite Forall_forall in BO. apply BO. rewrite <- (firstn_skipn (Z.to_nat n) d). apply in_or_app. left. exact I. }
      assert (Zs : forall o l, 0 <= o -> 0 <= l -> o + l <= n + 19 -> zslice (repeat 0 (Z.to_nat (n + 19))) o l = repeat 0 (Z.to_nat l)).
      { intros o l O L OL. unfold zslice. replace (Z.to_nat (n + 19)) with (Z.to_nat o + (Z.to_nat l + Z.to_nat (n + 19 - o - l)))%nat by lia.
        rewrite repeat_app, skipn_app, repeat_length, Nat.sub_diag, skipn_all2 by (rewrite repeat_length; lia). cbn [app skipn].
        rewrite repeat_app, firstn_app, repeat_length, Nat.sub_diag. cbn [firstn]. rewrite app_nil_r. apply firstn_all2. rewrite repeat_length. lia. }
      rewrite !Zs by lia.
      pose proof (benchMem_at a k ids base (n + 19) m (aligned16 base) CA LI) as E. rewrite LN in E.
      replace (Z.min n (zlen d)) with n by lia.
      rewrite (E BMm ltac:(lia) eq_refl eq_refl _ eq_refl). cbn [bind].
      destruct (IH (k + 1) (acc ++ [bench_result ids m (skipn 3 (m ++ [0; 0; 0])) (fun i => first_count n :: a_later a k i)]) FO' MA' FU) as (b & -> & R).
      exists b. split; [reflexivity|]. rewrite R. destruct (files_result _ _ _ _ _ _); [reflexivity|]. rewrite <- app_assoc. reflexivity.
Qed.
End Bench.
