(** Property theorems about the command line of the collision tester: C83 (what it runs), C84 (the statistics over the
    high bits), C85 (four expectations that fail). *)
From Coq Require Import String Permutation Sorted.
From Verif Require Import Base Mem M_Cli M_Util SpecColl M_Coll M_Coll2 M_Coll3 P_Base P_Coll1 P_Coll5 P_Coll6 P_BenchHash2 Vectors Properties14.
Import Coll CM.

(** ** C83 *)
(** the options with a number: the word, the bound of its values, the setting it changes *)
Definition numeric (c : cfg) : list (list Z * Z * (Z -> settings -> settings)) :=
  [ (str "-T", 2 ^ 31, fun v s => Settings (g_totalH s) (g_bflog s) (g_filter s) (g_sampleSize s) (g_hash s) v (g_prngSeed s));
    (str "--seed", 2 ^ 64, fun v s => Settings (g_totalH s) (g_bflog s) (g_filter s) (g_sampleSize s) (g_hash s) (g_threadlog s) v);
    (str "--nbh=", 2 ^ 64, fun v s => Settings v (g_bflog s) (g_filter s) (g_sampleSize s) (g_hash s) (g_threadlog s) (g_prngSeed s));
    (str "--filter=", 64, fun v s => Settings (g_totalH s) v true (g_sampleSize s) (g_hash s) (g_threadlog s) (g_prngSeed s));
    (str "--filterlog=", 64, fun v s => Settings (g_totalH s) v true (g_sampleSize s) (g_hash s) (g_threadlog s) (g_prngSeed s));
    (str "--size=", 2 ^ szbits c, fun v s => Settings (g_totalH s) (g_bflog s) (g_filter s) v (g_hash s) (g_threadlog s) (g_prngSeed s));
    (str "--len=", 2 ^ szbits c, fun v s => Settings (g_totalH s) (g_bflog s) (g_filter s) v (g_hash s) (g_threadlog s) (g_prngSeed s));
    (str "--threadlog=", 2 ^ 31, fun v s => Settings (g_totalH s) (g_bflog s) (g_filter s) (g_sampleSize s) (g_hash s) v (g_prngSeed s)) ].
(** the words without a number: the two switches and the names of the hashes *)
Definition word_hash (id : hashID) (s : settings) : settings := Settings (g_totalH s) (g_bflog s) (g_filter s) (g_sampleSize s) id (g_threadlog s) (g_prngSeed s).
Definition plain : list (list Z * (settings -> settings)) :=
  [ (str "--filter", fun s => Settings (g_totalH s) (g_bflog s) true (g_sampleSize s) (g_hash s) (g_threadlog s) (g_prngSeed s));
    (str "--no-filter", fun s => Settings (g_totalH s) (g_bflog s) false (g_sampleSize s) (g_hash s) (g_threadlog s) (g_prngSeed s));
    (str "xxh3", word_hash Xxh3); (str "xxh64", word_hash Xxh64); (str "xxh128", word_hash Xxh128); (str "xxh128l", word_hash Xxh128l);
    (str "xxh128h", word_hash Xxh128h); (str "xxh32", word_hash Xxh32); (str "badsum32", word_hash Badsum32) ].
(** what an argument means *)
Inductive means (c : cfg) : list Z -> (settings -> settings) -> Prop :=
  | means_number opt lim upd ds sfx k : In (opt, lim, upd) (numeric c) -> Forall (fun d => 0 <= d <= 9) ds -> In (sfx, k) suffixes ->
      1024 ^ k * decimal 0 ds < lim -> 1024 ^ k * decimal 0 ds < 2 ^ 64 - 1024 ->
      means c (opt ++ map (fun d => 48 + d) ds ++ sfx) (upd (1024 ^ k * decimal 0 ds))
  | means_plain w upd : In (w, upd) plain -> means c w upd.

Lemma suffix_nonneg sfx k : In (sfx, k) suffixes -> 0 <= k.
Proof. cbn [suffixes In]. intros H. repeat (destruct H as [H|H]; [apply pair_equal_spec in H; lia|]). destruct H. Qed.
Lemma to_int_small v : 0 <= v < 2 ^ 31 -> to_int v = v.
Proof. intros V. unfold to_int. rewrite Z.mod_small by lia. lia. Qed.
Lemma one_word c w upd s : cfg_ok c -> means c w upd -> one_arg c w s = OK (inl (upd s)).
Proof.
  intros C M. destruct M as [opt lim upd ds sfx k IN F SX L1 L2|w upd IN].
  - assert (V0 : 0 <= 1024 ^ k * decimal 0 ds).
    { apply Z.mul_nonneg_nonneg; [apply Z.pow_nonneg; lia|]. apply P_Coll6.decimal_le; [lia|exact F]. }
    assert (R : Coll.readU64FromChar (map (fun d => 48 + d) ds ++ sfx) = OK (1024 ^ k * decimal 0 ds, [])).
    { destruct (read_spec ds sfx k [] F SX eq_refl ltac:(cbn; lia)) as [(E & _)|(_ & Q)]; [rewrite app_nil_r in E; exact E|lia]. }
    set (x := map (fun d => 48 + d) ds ++ sfx) in *. clearbody x. set (v := 1024 ^ k * decimal 0 ds) in *. clearbody v. clear F SX ds sfx k.
    cbn [numeric In] in IN.
    repeat (destruct IN as [IN|IN]; [pose proof (f_equal (fun q => fst (fst q)) IN) as E1; pose proof (f_equal (fun q => snd (fst q)) IN) as E3; pose proof (f_equal snd IN) as E2; cbn [fst snd] in E1, E2, E3; subst opt lim upd; clear IN|]); [..|destruct IN].
    + transitivity (with_u64 x (fun v => OK (Settings (g_totalH s) (g_bflog s) (g_filter s) (g_sampleSize s) (g_hash s) (to_int v) (g_prngSeed s)))); [destruct x; reflexivity|].
      unfold with_u64. rewrite R. cbn [bind]. rewrite to_int_small by lia. reflexivity.
    + transitivity (with_u64 x (fun v => OK (Settings (g_totalH s) (g_bflog s) (g_filter s) (g_sampleSize s) (g_hash s) (g_threadlog s) v))); [reflexivity|]. unfold with_u64. rewrite R. reflexivity.
    + transitivity (with_u64 x (fun v => OK (Settings v (g_bflog s) (g_filter s) (g_sampleSize s) (g_hash s) (g_threadlog s) (g_prngSeed s)))); [reflexivity|]. unfold with_u64. rewrite R. reflexivity.
    + transitivity (with_u64 x (fun v => let! _ := assert_ (to_int v <? 64) in OK (Settings (g_totalH s) (to_int v) true (g_sampleSize s) (g_hash s) (g_threadlog s) (g_prngSeed s)))); [reflexivity|].
      unfold with_u64. rewrite R. cbn [bind]. rewrite to_int_small by lia. replace (v <? 64) with true by lia. reflexivity.
    + transitivity (with_u64 x (fun v => let! _ := assert_ (to_int v <? 64) in OK (Settings (g_totalH s) (to_int v) true (g_sampleSize s) (g_hash s) (g_threadlog s) (g_prngSeed s)))); [reflexivity|].
      unfold with_u64. rewrite R. cbn [bind]. rewrite to_int_small by lia. replace (v <? 64) with true by lia. reflexivity.
    + transitivity (with_u64 x (fun v => OK (Settings (g_totalH s) (g_bflog s) (g_filter s) (usz c v) (g_hash s) (g_threadlog s) (g_prngSeed s)))); [reflexivity|].
      unfold with_u64. rewrite R. cbn [bind]. unfold usz. rewrite Z.mod_small by lia. reflexivity.
    + transitivity (with_u64 x (fun v => OK (Settings (g_totalH s) (g_bflog s) (g_filter s) (usz c v) (g_hash s) (g_threadlog s) (g_prngSeed s)))); [reflexivity|].
      unfold with_u64. rewrite R. cbn [bind]. unfold usz. rewrite Z.mod_small by lia. reflexivity.
    + transitivity (with_u64 x (fun v => OK (Settings (g_totalH s) (g_bflog s) (g_filter s) (g_sampleSize s) (g_hash s) (to_int v) (g_prngSeed s)))); [reflexivity|].
      unfold with_u64. rewrite R. cbn [bind]. rewrite to_int_small by lia. reflexivity.
  - cbn [plain In] in IN. repeat (destruct IN as [IN|IN]; [pose proof (f_equal fst IN) as E1; pose proof (f_equal snd IN) as E2; cbn [fst snd] in E1, E2; subst w upd; clear IN; reflexivity|]). destruct IN.
Qed.

(** every argument changes its setting and no other, to the number written; the last one wins *)
Theorem C83_words : forall c words upds s, cfg_ok c -> Forall2 (means c) words upds -> all_args c words s = OK (inl (fold_left (fun s f => f s) upds s)).
Proof.
  intros c words upds s C F. revert s. induction F as [|w upd words upds M F IH]; intros s; [reflexivity|]. cbn [all_args fold_left].
  rewrite (one_word c w upd s C M). cbn [bind]. apply IH.
Qed.
Print Assumptions C83_words.
(** -h ends the program with status 0, a word that is neither an option nor a name with status 1, whatever follows *)
Theorem C83_stops : forall c words upds w rest s code, cfg_ok c -> Forall2 (means c) words upds ->
  (w = str "-h" /\ code = 0 \/
   w <> str "-h" /\ code = 1 /\ (forall w' upd, In (w', upd) plain -> w <> w') /\ forall opt lim upd, In (opt, lim, upd) (numeric c) -> ~ exists t, w = opt ++ t) ->
  all_args c (words ++ w :: rest) s = OK (inr code).
Proof.
  intros c words upds w rest s code C F W. revert s. induction F as [|a upd words upds M F IH]; intros s; [|cbn [all_args app]; rewrite (one_word c a upd s C M); cbn [bind]; apply IH].
  cbn [app all_args]. assert (E : one_arg c w s = OK (inr code)); [|rewrite E; reflexivity].
  destruct W as [(-> & ->)|(NH & -> & NP & NN)]; [reflexivity|].
  assert (SA : forall a b, same a b = true -> a = b).
  { clear. induction a as [|x a IH]; intros [|y b] H; cbn [same] in H; try discriminate; [reflexivity|]. apply andb_prop in H. destruct H as (E & H). apply Z.eqb_eq in E. subst. f_equal. apply IH. exact H. }
  assert (NS : forall b, w <> b -> same w b = false) by (intros b N; destruct (same w b) eqn:E; [exfalso; apply N; apply SA; exact E|reflexivity]).
  assert (PF : forall p l, prefixb p l = true -> exists t, l = p ++ t).
  { clear. induction p as [|x p IH]; intros [|y l] H; cbn [prefixb] in H; try discriminate; [exists []; reflexivity|eexists; reflexivity|]. apply andb_prop in H. destruct H as (E & H). apply Z.eqb_eq in E. subst. destruct (IH l H) as (t & ->). exists t. reflexivity. }
  assert (NO : forall p, ~ (exists t, w = p ++ t) -> longCommandWArg w p = None).
  { intros p N. unfold longCommandWArg. destruct (prefixb p w) eqn:E; [|reflexivity]. exfalso. apply N. apply PF. exact E. }
  unfold one_arg. rewrite (NS _ NH).
  rewrite (NO (str "-T")) by (eapply NN; cbn; left; reflexivity).
  rewrite (NS (str "--filter")) by (eapply NP; cbn; left; reflexivity). rewrite (NS (str "--no-filter")) by (eapply NP; cbn; right; left; reflexivity).
  rewrite (NO (str "--seed")) by (eapply NN; cbn; do 1 right; left; reflexivity). rewrite (NO (str "--nbh=")) by (eapply NN; cbn; do 2 right; left; reflexivity).
  rewrite (NO (str "--filter=")) by (eapply NN; cbn; do 3 right; left; reflexivity). rewrite (NO (str "--filterlog=")) by (eapply NN; cbn; do 4 right; left; reflexivity).
  rewrite (NO (str "--size=")) by (eapply NN; cbn; do 5 right; left; reflexivity). rewrite (NO (str "--len=")) by (eapply NN; cbn; do 6 right; left; reflexivity).
  rewrite (NO (str "--threadlog=")) by (eapply NN; cbn; do 7 right; left; reflexivity).
  unfold hashfnTable. cbn [lookup].
  rewrite (NS (str "xxh3")) by (eapply NP; cbn; do 2 right; left; reflexivity). rewrite (NS (str "xxh64")) by (eapply NP; cbn; do 3 right; left; reflexivity).
  rewrite (NS (str "xxh128")) by (eapply NP; cbn; do 4 right; left; reflexivity). rewrite (NS (str "xxh128l")) by (eapply NP; cbn; do 5 right; left; reflexivity).
  rewrite (NS (str "xxh128h")) by (eapply NP; cbn; do 6 right; left; reflexivity). rewrite (NS (str "xxh32")) by (eapply NP; cbn; do 7 right; left; reflexivity).
  rewrite (NS (str "badsum32")) by (eapply NP; cbn; do 8 right; left; reflexivity). reflexivity.
Qed.
Print Assumptions C83_stops.

(** the rounding of double: to within 2^-53 of the value *)
Definition rounding (rnd : Z -> Z) : Prop := forall x, 0 <= x -> Z.abs (rnd x - x) * 2 ^ 53 <= x.
(** the number of hashes without --nbh: 24 times 2^30, or 24 times 2^16 for the 32-bit hashes *)
Definition default_nbh (id : hashID) : Z := match id with Xxh32 | Badsum32 => 24 * 2 ^ 16 | _ => 24 * 2 ^ 30 end.
Lemma select_loop rnd bits target j f : rounding rnd -> 0 <= j <= 30 ->
  (forall i, 0 <= i < j -> 17 * (24 * 2 ^ i * (24 * 2 ^ i)) < 16 * (target * 2 ^ (bits + 1))) -> target * 2 ^ (bits + 1) + 2 ^ 20 <= 24 * 2 ^ j * (24 * 2 ^ j - 1) -> (Z.to_nat j <= f)%nat ->
  while_ f (fun nbH => estimate_below rnd nbH bits target) (fun nbH => OK (mul64 nbH 2)) 24 = OK (24 * 2 ^ j).
Proof.
  intros R J LO HI FU.
  assert (G : forall m f i, (m <= f)%nat -> Z.of_nat m = j - i -> 0 <= i ->
    while_ f (fun nbH => estimate_below rnd nbH bits target) (fun nbH => OK (mul64 nbH 2)) (24 * 2 ^ i) = OK (24 * 2 ^ j)).
  { clear FU f. induction m as [|m IH]; intros f i MF MI I0.
    - assert (i = j) by lia. subst i. assert (E : estimate_below rnd (24 * 2 ^ j) bits target = false).
      { unfold estimate_below. apply Z.ltb_ge. assert (P : 2 ^ 0 <= 2 ^ j <= 2 ^ 30) by (split; apply Z.pow_le_mono_r; lia). change (2 ^ 0) with 1 in P.
        assert (B : 24 * 2 ^ j * (24 * 2 ^ j - 1) < 2 ^ 73) by (change (2 ^ 73) with (2 ^ 37 * 2 ^ 36); change (2 ^ 30) with 1073741824 in P; nia).
        pose proof (R (24 * 2 ^ j * (24 * 2 ^ j - 1)) ltac:(nia)). lia. }
      destruct f; cbn [while_]; rewrite E; reflexivity.
    - destruct f as [|f]; [lia|]. cbn [while_]. assert (E : estimate_below rnd (24 * 2 ^ i) bits target = true).
      { unfold estimate_below. apply Z.ltb_lt. specialize (LO i ltac:(lia)). assert (P : 0 < 2 ^ i) by (apply Z.pow_pos_nonneg; lia).
        pose proof (R (24 * 2 ^ i * (24 * 2 ^ i - 1)) ltac:(nia)). nia. }
      rewrite E. cbn [bind]. replace (mul64 (24 * 2 ^ i) 2) with (24 * 2 ^ (i + 1)).
      + apply IH; lia.
      + rewrite Z.pow_add_r by lia. assert (P : 0 < 2 ^ i <= 2 ^ 29) by (split; [apply Z.pow_pos_nonneg|apply Z.pow_le_mono_r]; lia). unfold mul64, u64. rewrite Z.mod_small by lia. lia. }
  replace 24 with (24 * 2 ^ 0) by reflexivity. apply (G (Z.to_nat j) f 0); lia.
Qed.
Theorem C83_default_number : forall rnd id, rounding rnd -> select_nbh rnd (hash_bits id) = OK (default_nbh id).
Proof.
  intros rnd id R. assert (W : forall n, 0 <= n -> forall i, 0 <= i < n -> 24 * 2 ^ i * (24 * 2 ^ i) <= 576 * 2 ^ (2 * (n - 1))).
  { intros n N i I. replace (24 * 2 ^ i * (24 * 2 ^ i)) with (576 * (2 ^ i * 2 ^ i)) by lia. rewrite <- Z.pow_add_r by lia. assert (2 ^ (i + i) <= 2 ^ (2 * (n - 1))) by (apply Z.pow_le_mono_r; lia). lia. }
  assert (E64 : forall b, 64 <= b -> select_nbh rnd b = OK (24 * 2 ^ 30)).
  { intros b B. unfold select_nbh. replace (0 <? b) with true by lia. cbn [assert_ bind]. replace (if 64 <? b then 64 else b) with 64 by (destruct (Z.ltb_spec 64 b); lia).
    apply select_loop; try lia; [exact R|]. intros i I. specialize (W 30 ltac:(lia) i I). change (576 * 2 ^ (2 * (30 - 1))) with (576 * 2 ^ 58) in W. change ((128 + 17 - 64 * 2) * 2 ^ (64 + 1)) with (17 * 2 ^ 65). lia. }
  assert (E32 : select_nbh rnd 32 = OK (24 * 2 ^ 16)).
  { unfold select_nbh. change (0 <? 32) with true. change (if 64 <? 32 then 64 else 32) with 32. cbn [assert_ bind]. apply select_loop; try lia; [exact R|].
    intros i I. specialize (W 16 ltac:(lia) i I). change (576 * 2 ^ (2 * (16 - 1))) with (576 * 2 ^ 30) in W. change ((128 + 17 - 32 * 2) * 2 ^ (32 + 1)) with (81 * 2 ^ 33). lia. }
  destruct id; cbn [hash_bits default_nbh]; try exact E32; apply E64; lia.
Qed.
Print Assumptions C83_default_number.

(** the filter sized automatically: the least power of two above the number of hashes *)
Lemma highest_log2 v : 0 < v < 2 ^ 64 -> highestBitSet v = OK (Z.log2 v).
Proof.
  intros V. unfold highestBitSet. replace (v =? 0) with false by lia. cbn [negb assert_ bind].
  assert (G : forall f v b, 0 < v < 2 ^ Z.of_nat (S f) -> exists w, while_ f (fun '(v, _) => negb (shr v 1 =? 0)) (fun '(v, bitId) => OK (shr v 1, bitId + 1)) (v, b) = OK (w, b + Z.log2 v)).
  { clear. induction f as [|f IH]; intros v b V.
    - exists v. assert (v = 1) by (change (2 ^ Z.of_nat 1) with 2 in V; lia). subst v. cbn. rewrite Z.add_0_r. reflexivity.
    - cbn [while_]. assert (SV : shr v 1 = v / 2) by (unfold shr; rewrite Z.shiftr_div_pow2 by lia; reflexivity). rewrite SV.
      destruct (Z.eqb_spec (v / 2) 0) as [E|E]; cbn [negb].
      + exists v. assert (v = 1) by (pose proof (Z.div_mod v 2 ltac:(lia)); pose proof (Z.mod_pos_bound v 2 ltac:(lia)); lia). subst v. rewrite Z.add_0_r. reflexivity.
      + cbn [bind]. assert (0 <= v / 2) by (apply Z.div_pos; lia).
        destruct (IH (v / 2) (b + 1)) as (w & Ew). { split; [lia|]. apply Z.div_lt_upper_bound; [lia|]. replace (Z.of_nat (S (S f))) with (1 + Z.of_nat (S f)) in V by lia. rewrite Z.pow_add_r in V by lia. lia. }
        exists w. rewrite Ew. do 2 f_equal. replace (Z.log2 v) with (Z.log2 (v / 2) + 1); [lia|].
        replace (v / 2) with (Z.shiftr v 1) by (rewrite Z.shiftr_div_pow2 by lia; reflexivity). rewrite Z.log2_shiftr by lia.
        assert (1 <= Z.log2 v) by (apply Z.log2_le_pow2; [lia|]; pose proof (Z.div_mod v 2 ltac:(lia)); pose proof (Z.mod_pos_bound v 2 ltac:(lia)); change (2 ^ 1) with 2; lia). lia. }
  destruct (G 64%nat v 0) as (w & ->). { assert (2 ^ 64 < 2 ^ Z.of_nat 65) by reflexivity. lia. }
  reflexivity.
Qed.
Theorem C83_auto_filter : forall o, 0 < o_totalH o < 2 ^ 64 -> o_filter o = true -> o_bflog o = 0 -> o_threadlog o = 0 -> exists k,
  jobs o = OK (Some [Params (o_totalH o) 0 0 (o_sampleSize o) (o_prngSeed o) k true]) /\ 2 ^ (k - 1) <= o_totalH o < 2 ^ k.
Proof.
  intros o V F B T. exists (Z.log2 (o_totalH o) + 1). unfold jobs. rewrite B, F, T. cbn [Z.eqb negb]. rewrite highest_log2 by exact V. cbn [bind]. split; [reflexivity|].
  replace (Z.log2 (o_totalH o) + 1 - 1) with (Z.log2 (o_totalH o)) by lia. exact (Z.log2_spec (o_totalH o) ltac:(lia)).
Qed.
Print Assumptions C83_auto_filter.
(** the two sizes of the README: 16 GB for 14G hashes, 32 GB by default *)
Example C83_readme : jobs (Opts (14 * 2 ^ 30) 0 true 256 0 0) = OK (Some [Params (14 * 2 ^ 30) 0 0 256 0 34 true]) /\
  jobs (Opts (default_nbh Xxh3) 0 true 256 0 0) = OK (Some [Params (24 * 2 ^ 30) 0 0 256 0 35 true]).
Proof. split; vm_compute; reflexivity. Qed.

(** the program: whatever the options, a number it prints is the number of hashes minus the number of distinct hashes, of the
    hash named, over as many different samples as asked, of the length asked *)
Definition asked (words : list (settings -> settings)) : settings := fold_left (fun s f => f s) words defaults.
Definition hashes_asked (s : settings) : Z := if g_totalH s =? 0 then default_nbh (g_hash s) else g_totalH s.
Theorem C83_main : forall c rnd fresh junkIdx adr strict sort words upds r, cfg_ok c -> rounding rnd -> (forall n, zlen (fresh n) = Z.max 0 n) -> sorts sort ->
  Forall2 (means c) words upds -> g_sampleSize (asked upds) * 8 < 2 ^ szbits c -> g_totalH (asked upds) < 2 ^ 58 ->
  main c rnd fresh junkIdx adr strict sort words = OK (Collisions r) ->
  exists samples, zlen samples = hashes_asked (asked upds) /\ NoDup samples /\ Forall (fun s => zlen s = g_sampleSize (asked upds) /\ bytes_ok s) samples /\
    r = dups (map (spec_hash (g_hash (asked upds))) samples).
Proof.
  intros c rnd fresh junkIdx adr strict sort words upds r C R FR ST F SZ TH E. unfold main in E. rewrite (C83_words c words upds defaults C F) in E. fold (asked upds) in E. cbn [bind] in E.
  assert (POS : 0 <= g_totalH (asked upds) /\ 0 <= g_sampleSize (asked upds)).
  { clear - F. unfold asked. assert (G : forall s, 0 <= g_totalH s /\ 0 <= g_sampleSize s -> 0 <= g_totalH (fold_left (fun s f => f s) upds s) /\ 0 <= g_sampleSize (fold_left (fun s f => f s) upds s)).
    { induction F as [|w upd words upds M F IH]; intros s S; [exact S|]. cbn [fold_left]. apply IH. clear IH F. destruct M as [opt lim upd ds sfx k IN D SX L1 L2|w upd IN].
      - assert (V0 : 0 <= 1024 ^ k * decimal 0 ds) by (apply Z.mul_nonneg_nonneg; [apply Z.pow_nonneg; lia|]; apply P_Coll6.decimal_le; [lia|exact D]).
        revert V0. generalize (1024 ^ k * decimal 0 ds). intros v V0. cbn [numeric In] in IN.
        repeat (destruct IN as [IN|IN]; [pose proof (f_equal snd IN) as E2; cbn [snd] in E2; subst upd; cbn [g_totalH g_sampleSize]; split; (exact V0 || apply S)|]). destruct IN.
      - cbn [plain In] in IN. repeat (destruct IN as [IN|IN]; [pose proof (f_equal snd IN) as E2; cbn [snd] in E2; subst upd; cbn [word_hash g_totalH g_sampleSize]; exact S|]). destruct IN. }
    apply G. cbn. lia. }
  set (s := asked upds) in *. clearbody s. clear F upds words.
  assert (ET : (if g_totalH s =? 0 then select_nbh rnd (hash_bits (g_hash s)) else OK (g_totalH s)) = OK (hashes_asked s)).
  { unfold hashes_asked. destruct (g_totalH s =? 0); [apply C83_default_number; exact R|reflexivity]. }
  rewrite ET in E. cbn [bind] in E. clear ET.
  destruct (found _ _ _ _ _ _ _ _) as [[q|]| |] eqn:EF in E; cbn [bind] in E; try discriminate. injection E as ->.
  assert (HA : 0 < hashes_asked s < 2 ^ 58).
  { unfold hashes_asked. destruct (Z.eqb_spec (g_totalH s) 0); [destruct (g_hash s); cbn; lia|lia]. }
  apply (C63_reported_collisions c adr _ junkIdx strict (g_hash s) sort _ r C) in EF; cbn [o_sampleSize o_totalH] in *; trivial. rewrite FR. lia.
Qed.
Print Assumptions C83_main.
Example C83_ex : main c0 (fun x => x) (fun n => repeat 7 (Z.to_nat n)) [] 0 false isort [str "xxh64"; str "--nbh=2K"; str "--len=2"; str "badsum32"; str "--nbh=70"] = OK (Collisions 22).
Proof. vm_compute. reflexivity. Qed.
Example hyps83_inhabited : Forall2 (means c0) [str "--nbh=2K"; str "badsum32"] [fun s => Settings 2048 (g_bflog s) (g_filter s) (g_sampleSize s) (g_hash s) (g_threadlog s) (g_prngSeed s); word_hash Badsum32] /\
  rounding (fun x => x).
Proof.
  split.
  - constructor; [|constructor; [|constructor]].
    + apply (means_number c0 (str "--nbh=") (2 ^ 64) (fun v s => Settings v (g_bflog s) (g_filter s) (g_sampleSize s) (g_hash s) (g_threadlog s) (g_prngSeed s)) [2] [75] 1); [cbn; do 2 right; left; reflexivity|repeat constructor; lia|cbn; right; left; reflexivity|reflexivity|reflexivity].
    + apply means_plain. cbn. do 8 right. left. reflexivity.
  - intros x X. rewrite Z.sub_diag. cbn [Z.abs]. lia.
Qed.

(** without filter and threads the program prints a number as soon as the generator accepts the length *)
Theorem C83_run_reports : forall c rnd fresh junkIdx adr sort words upds sf, cfg_ok c -> rounding rnd -> (forall n, zlen (fresh n) = Z.max 0 n) -> sorts sort ->
  Forall2 (means c) words upds -> 0 <= g_sampleSize (asked upds) -> g_sampleSize (asked upds) * 8 < 2 ^ szbits c -> 0 <= g_totalH (asked upds) < 2 ^ 58 ->
  g_filter (asked upds) = false -> g_threadlog (asked upds) = 0 -> g_bflog (asked upds) = 0 ->
  sparse_create c (fresh (g_sampleSize (asked upds))) junkIdx (g_sampleSize (asked upds)) (hashes_asked (asked upds)) (g_prngSeed (asked upds)) = OK (Some sf) ->
  exists r, main c rnd fresh junkIdx adr false sort words = OK (Collisions r).
Proof.
  intros c rnd fresh junkIdx adr sort words upds sf C R FR ST F S0 SZ TH FL TL BL E. unfold main. rewrite (C83_words c words upds defaults C F). fold (asked upds). cbn [bind].
  set (s := asked upds) in *. clearbody s.
  assert (ET : (if g_totalH s =? 0 then select_nbh rnd (hash_bits (g_hash s)) else OK (g_totalH s)) = OK (hashes_asked s)).
  { unfold hashes_asked. destruct (g_totalH s =? 0); [apply C83_default_number; exact R|reflexivity]. }
  rewrite ET. cbn [bind].
  assert (HA : 0 < hashes_asked s < 2 ^ 58) by (unfold hashes_asked; destruct (Z.eqb_spec (g_totalH s) 0); [destruct (g_hash s); cbn; lia|lia]).
  destruct (C63_run_without_filter_reports c adr (fresh (g_sampleSize s)) junkIdx (g_hash s) sort (Opts (hashes_asked s) (g_bflog s) (g_filter s) (g_sampleSize s) (g_threadlog s) (g_prngSeed s)) sf) as (r & ER); cbn [o_sampleSize o_totalH o_filter o_threadlog o_bflog o_prngSeed]; trivial.
  { rewrite FR. lia. }
  exists r. rewrite ER. reflexivity.
Qed.
Print Assumptions C83_run_reports.

(** ** C84: the statistics over the high bits *)
(** a hash as a number, and its [n] highest bits out of [bits] *)
Definition hash_value (h : Z * Z) : Z := fst h + 2 ^ 64 * snd h.
Definition high_bits (bits n : Z) (h : Z * Z) : Z := hash_value h / 2 ^ (bits - n).
Definition hash_ok (bits : Z) (h : Z * Z) : Prop := 0 <= fst h < 2 ^ 64 /\ 0 <= snd h < 2 ^ 64 /\ (bits <> 128 -> snd h = 0).
Lemma ordered_value bits a b : hash_ok bits a -> hash_ok bits b -> ordered a b -> hash_value a <= hash_value b.
Proof.
  intros (A1 & A2 & _) (B1 & B2 & _) O. destruct a as [a1 a2], b as [b1 b2]. cbn [fst snd] in *.
  assert (D : a2 < b2 \/ a2 = b2 /\ a1 <= b1).
  { clear A1 A2 B1 B2. revert O. unfold ordered, XXH128_cmp, gt_int. cbn [fst snd]. destruct (Z.ltb_spec a2 b2), (Z.ltb_spec b2 a2); cbn; try lia. destruct (Z.ltb_spec a1 b1), (Z.ltb_spec b1 a1); cbn; lia. }
  unfold hash_value. cbn [fst snd]. lia.
Qed.
Definition one (x : Z) : Z * Z := (x, 0).
Fixpoint steps (f : Z * Z -> Z) (x : Z * Z) (l : list (Z * Z)) : Z := match l with [] => 0 | y :: l => (if f y =? f x then 1 else 0) + steps f y l end.
Lemma steps_dups f x l : StronglySorted (fun a b => f a <= f b) (x :: l) -> steps f x l = dups (map (fun h => one (f h)) (x :: l)).
Proof.
  revert x. induction l as [|y l IH]; intros x S; [reflexivity|]. cbn [steps]. apply StronglySorted_inv in S. destruct S as [S F]. rewrite (IH y S). cbn [map]. unfold dups.
  rewrite !(zlen_cons (one (f x))). set (m := map (fun h => one (f h)) l). change (nodup pair_dec (one (f x) :: one (f y) :: m)) with (if in_dec pair_dec (one (f x)) (one (f y) :: m) then nodup pair_dec (one (f y) :: m) else one (f x) :: nodup pair_dec (one (f y) :: m)).
  destruct (Z.eqb_spec (f y) (f x)) as [E|NE].
  - rewrite E. destruct (in_dec pair_dec (one (f x)) (one (f x) :: m)) as [|N]; [lia|]. destruct N. left. reflexivity.
  - destruct (in_dec pair_dec (one (f x)) (one (f y) :: m)) as [I|I]; [|rewrite (zlen_cons (one (f x))); lia]. exfalso.
    destruct I as [I|I]; [injection I as I; contradiction|]. unfold m in I. apply in_map_iff in I. destruct I as (z & EZ & I). injection EZ as EZ.
    apply StronglySorted_inv in S. destruct S as [_ FY]. rewrite Forall_forall in FY, F. specialize (FY z I). specialize (F y ltac:(left; reflexivity)). lia.
Qed.
Lemma high_steps bits n f t : (forall a b, (a < length t)%nat -> (b < length t)%nat -> isHighEqual bits t (Z.of_nat a) (Z.of_nat b) (bits - n) = OK (f (nth a t (0, 0)) =? f (nth b t (0, 0)))) ->
  high_collisions bits n t = OK (match t with [] => 0 | x :: l => steps f x l end).
Proof.
  intros H. unfold high_collisions.
  assert (G : forall l pre y acc, t = pre ++ y :: l -> for_ (length l) (zlen pre + 1) (fun n0 acc => let! e := isHighEqual bits t n0 (n0 - 1) (bits - n) in OK (if e then acc + 1 else acc)) acc = OK (acc + steps f y l)).
  { induction l as [|z l IH]; intros pre y acc ET.
    - cbn [length for_ steps]. f_equal. lia.
    - cbn [length for_ steps]. assert (LT : length t = (length pre + S (S (length l)))%nat) by (rewrite ET, app_length; reflexivity).
      replace (zlen pre + 1) with (Z.of_nat (length pre + 1)) by (unfold zlen; lia). replace (Z.of_nat (length pre + 1) - 1) with (Z.of_nat (length pre)) by lia.
      rewrite H by lia. cbn [bind].
      assert (NZ : nth (length pre + 1) t (0, 0) = z) by (rewrite ET, app_nth2 by lia; replace (length pre + 1 - length pre)%nat with 1%nat by lia; reflexivity).
      assert (NY : nth (length pre) t (0, 0) = y) by (rewrite ET, app_nth2 by lia; rewrite Nat.sub_diag; reflexivity).
      rewrite NZ, NY. specialize (IH (pre ++ [y]) z). rewrite <- app_assoc in IH. replace (zlen (pre ++ [y])) with (Z.of_nat (length pre + 1)) in IH by (unfold zlen; rewrite app_length; reflexivity).
      rewrite IH by exact ET. f_equal. destruct (f z =? f y); lia. }
  destruct t as [|x l]; [reflexivity|]. cbn [length]. rewrite Nat.sub_succ, Nat.sub_0_r. specialize (G l [] x 0 eq_refl). cbn [app] in G. change (zlen (@nil (Z * Z)) + 1) with 1 in G. rewrite G. reflexivity.
Qed.
(** the count of neighbours that agree on their high bits is the number of hashes minus the number of different high parts *)
Theorem C84_high_bits : forall bits n t, In bits [32; 64; 128] -> 1 <= n < bits -> n <= 64 -> Forall (hash_ok bits) t -> StronglySorted ordered t ->
  high_collisions bits n t = OK (dups (map (fun h => (high_bits bits n h, 0)) t)).
Proof.
  intros bits n t IB N N64 F S. rewrite (high_steps bits n (high_bits bits n)).
  - assert (S' : StronglySorted (fun a b => high_bits bits n a <= high_bits bits n b) t).
    { clear - F S N. induction S as [|x l S IH FO]; [constructor|]. inversion F as [|? ? HX FL]; subst. constructor; [apply IH; exact FL|].
      rewrite Forall_forall in FO, FL |- *. intros y I. unfold high_bits. apply Z.div_le_mono; [apply Z.pow_pos_nonneg; lia|]. apply (ordered_value bits); [exact HX|apply FL; exact I|apply FO; exact I]. }
    destruct t as [|x l]; [reflexivity|]. f_equal. exact (steps_dups _ x l S').
  - intros a b A B. assert (GA : hash_ok bits (nth a t (0, 0))) by (rewrite Forall_forall in F; apply F, nth_In, A).
    assert (GB : hash_ok bits (nth b t (0, 0))) by (rewrite Forall_forall in F; apply F, nth_In, B).
    unfold isHighEqual. rewrite !Nat2Z.id. set (x := nth a t (0, 0)) in *. set (y := nth b t (0, 0)) in *. clearbody x y.
    assert (SH : forall v k, 0 <= k -> shr v k = v / 2 ^ k) by (intros v k K; unfold shr; apply Z.shiftr_div_pow2; exact K).
    assert (HI : forall z, hash_ok 128 z -> high_bits 128 n z = snd z / 2 ^ (64 - n)).
    { intros z (Z1 & Z2 & _). unfold high_bits, hash_value. replace (2 ^ (128 - n)) with (2 ^ 64 * 2 ^ (64 - n)) by (rewrite <- Z.pow_add_r by lia; f_equal; lia).
      rewrite <- Z.div_div by (try apply Z.pow_pos_nonneg; lia). f_equal. rewrite Z.mul_comm, Z.div_add by lia. rewrite Z.div_small by lia. reflexivity. }
    cbn [In] in IB. destruct IB as [<-|[<-|[<-|[]]]].
    + cbn [Z.eqb Pos.eqb orb]. replace ((0 <=? 32 - n) && (32 - n <? 64)) with true by lia. cbn [assert_ bind]. rewrite !SH by lia. unfold high_bits, hash_value.
      destruct GA as (_ & _ & GA). destruct GB as (_ & _ & GB). rewrite (GA ltac:(lia)), (GB ltac:(lia)), Z.mul_0_r, !Z.add_0_r. reflexivity.
    + cbn [Z.eqb Pos.eqb orb]. replace ((0 <=? 64 - n) && (64 - n <? 64)) with true by lia. cbn [assert_ bind]. rewrite !SH by lia. unfold high_bits, hash_value.
      destruct GA as (_ & _ & GA). destruct GB as (_ & _ & GB). rewrite (GA ltac:(lia)), (GB ltac:(lia)), Z.mul_0_r, !Z.add_0_r. reflexivity.
    + cbn [Z.eqb Pos.eqb orb]. replace (64 <=? 128 - n) with true by lia. cbn [assert_ bind]. replace (128 - n - 64) with (64 - n) by lia.
      replace ((0 <=? 64 - n) && (64 - n <? 64)) with true by lia. cbn [assert_ bind]. rewrite !SH by lia. rewrite !HI by assumption. reflexivity.
Qed.
Print Assumptions C84_high_bits.
Example C84_ex : high_collisions 64 8 [(5, 0); (2 ^ 56 + 1, 0); (2 ^ 56 + 3, 0); (2 ^ 60, 0)] = OK 1 /\ Forall (hash_ok 64) [(5, 0); (2 ^ 56 + 1, 0); (2 ^ 56 + 3, 0); (2 ^ 60, 0)] /\
  StronglySorted ordered [(5, 0); (2 ^ 56 + 1, 0); (2 ^ 56 + 3, 0); (2 ^ 60, 0)].
Proof. split; [reflexivity|]. split; repeat constructor; cbn; try lia; unfold ordered; vm_compute; discriminate. Qed.
(** "the loop over nbHBits can count every line it selects" is false for the 128-bit hash: from 65 bits on an assertion fails *)
Theorem C84_every_width_refuted : forall n t, 64 < n < 128 -> (2 <= length t)%nat -> high_collisions 128 n t = UB.
Proof.
  intros n t N L. unfold high_collisions. destruct t as [|x [|y t]]; cbn [length] in L; try lia. cbn [length]. rewrite Nat.sub_succ, Nat.sub_0_r. cbn [for_]. unfold isHighEqual at 1.
  cbn [Z.eqb Pos.eqb orb]. replace (64 <=? 128 - n) with false by lia. reflexivity.
Qed.
Print Assumptions C84_every_width_refuted.

(** ** C85: four expectations that fail *)
(** "--seed=N selects the seed N": the option is --seedN, and =N reads as no digits: the seed is 0 whatever follows *)
Theorem C85_seed_with_equals_sign_refuted : forall c text s,
  one_arg c (str "--seed=" ++ text) s = OK (inl (Settings (g_totalH s) (g_bflog s) (g_filter s) (g_sampleSize s) (g_hash s) (g_threadlog s) 0)).
Proof. intros c text s. reflexivity. Qed.
Print Assumptions C85_seed_with_equals_sign_refuted.
(** "a malformed number is refused": whatever follows the digits is ignored *)
Theorem C85_malformed_number_refused_refuted : forall c s, one_arg c (str "--nbh=2,000,000") s = one_arg c (str "--nbh=2") s.
Proof. intros c s. reflexivity. Qed.
Print Assumptions C85_malformed_number_refused_refuted.
(** "the number of threads is the one asked or the program stops": 2^32 as logarithm is taken as 0 *)
Theorem C85_thread_number_refuted : forall c s, one_arg c (str "--threadlog=4294967296") s = one_arg c (str "--threadlog=0") s.
Proof. intros c s. reflexivity. Qed.
Print Assumptions C85_thread_number_refuted.
(** "--filter works for every number of hashes": with its automatic size it never does below 32 hashes; the shift by
    bflog - 6 in Filter_insert is by a negative count *)
Theorem C85_filter_for_few_hashes_refuted : forall c junk junkIdx strict hfunction bits sort o, o_filter o = true -> o_bflog o = 0 -> 0 < o_totalH o < 32 ->
  forall r, found c junk junkIdx strict hfunction bits sort o <> OK (Some r).
Proof.
  intros c junk junkIdx strict hfunction bits sort o FI BF TH r E. unfold found in E. destruct (jobs o) as [[l|]| |] eqn:EJ; cbn [bind] in E; try discriminate.
  unfold jobs in EJ. rewrite BF, FI in EJ. cbn [Z.eqb negb] in EJ. rewrite highest_log2 in EJ by lia. cbn [bind] in EJ.
  destruct ((0 <=? o_threadlog o) && (o_threadlog o <? 31)) eqn:ET; cbn [assert_ bind] in EJ; [|discriminate].
  assert (LG : 0 <= Z.log2 (o_totalH o) <= 4) by (split; [apply Z.log2_nonneg|]; enough (Z.log2 (o_totalH o) < 5) by lia; apply Z.log2_lt_pow2; lia).
  revert EJ. destruct (Z.eqb_spec (2 ^ o_threadlog o) 1) as [E1|E1].
  - intros EJ. injection EJ as <-. cbn [gather] in E. set (p := Params _ _ _ _ _ _ _) in E.
    destruct (search_collisions _ _ _ _ _ _ _ p) as [[q|]| |] eqn:ES in E; cbn [bind] in E; try discriminate. clear E.
    unfold search_collisions in ES. destruct (sparse_create _ _ _ _ _ _) as [[sf|]| |]; cbn [bind] in ES; try discriminate.
    change (p_filterLog p) with (Z.log2 (o_totalH o) + 1) in ES. replace (Z.log2 (o_totalH o) + 1 =? 0) with false in ES by lia. cbn [bind] in ES.
    destruct (shift_1ULL _ _); cbn [bind] in ES; try discriminate. replace (0 <=? Z.log2 (o_totalH o) + 1) with true in ES by lia.
    destruct (create_Filter c _) as [bf| |]; cbn [bind] in ES; try discriminate.
    destruct (pass1 _ _ p _ sf bf) as [u| |] eqn:EP; cbn [bind] in ES; try discriminate. clear ES. unfold pass1 in EP.
    change (p_nbH p) with (o_totalH o) in EP. destruct (Z.to_nat (o_totalH o)) as [|m] eqn:EM; [lia|]. cbn [for_] in EP.
    destruct (sparse_update c sf) as [sf'| |]; cbn [bind] in EP; try discriminate. destruct (hfunction (f_buffer sf')) as [h| |]; cbn [bind] in EP; try discriminate.
    unfold selected in EP. change (p_mask p) with 0 in EP. change (p_maskSelector p) with 0 in EP. rewrite Z.land_0_r in EP. cbn [Z.eqb negb] in EP.
    unfold Filter_insert, shl1 in EP. replace (0 <=? Z.log2 (o_totalH o) + 1 - 6) with false in EP by lia. cbn in EP. discriminate.
  - assert (1 <= o_threadlog o) by (destruct (Z.eq_dec (o_threadlog o) 0) as [Q|Q]; [rewrite Q in E1; exfalso; apply E1; reflexivity|lia]).
    destruct (30 <=? o_threadlog o); [discriminate|]. assert (P1 : 2 ^ 0 <= 2 ^ o_threadlog o) by (apply Z.pow_le_mono_r; lia). change (2 ^ 0) with 1 in P1.
    unfold shr. rewrite Z.shiftr_div_pow2 by lia. rewrite Z.div_small by lia. replace (0 <? 2 ^ o_threadlog o) with true by lia. discriminate.
Qed.
Print Assumptions C85_filter_for_few_hashes_refuted.
(** the same command without --filter prints a number, and with --filter for more hashes too *)
Example C85_ex : main c0 (fun x => x) (fun n => repeat 7 (Z.to_nat n)) [] 0 false isort [str "badsum32"; str "--len=2"; str "--nbh=20"; str "--filter"] = UB /\
  main c0 (fun x => x) (fun n => repeat 7 (Z.to_nat n)) [] 0 false isort [str "badsum32"; str "--len=2"; str "--nbh=20"] = OK (Collisions 4) /\
  main c0 (fun x => x) (fun n => repeat 7 (Z.to_nat n)) [] 0 false isort [str "badsum32"; str "--len=2"; str "--nbh=70"; str "--filter"] = OK (Collisions 22).
Proof. repeat split; vm_compute; reflexivity. Qed.
