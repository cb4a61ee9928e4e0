(** C36 from 17 to 240 bytes and C46: exactly when a change of one 8-byte word is lost. *)
From Verif Require Import Base Mem M_XXH32 M_XXH64 M_XXH3 M_Kernels M_Long Spec32 Spec64 Spec3 P_Base P_Spec P_XXH32 P_XXH64 P_X3_Base P_X3_Long P_Stream
  P_Inj P_Inj64 P_Inj3 P_Inj128 P_Mid P_Lane64 Vectors Vectors3 Properties1 Properties2 Properties3 Properties4 Properties5.

(** The 16-byte windows the 64-bit hash of [L] bytes reads: 16 bytes of the input at [q] with 16 bytes of the secret at [k]. *)
Definition window64 (L q k : Z) : Prop :=
  (17 <= L <= 128 /\ exists i, 0 <= i <= (L - 1) / 32 /\ (q = 16 * i /\ k = 32 * i \/ q = L - 16 * i - 16 /\ k = 32 * i + 16)) \/
  (129 <= L <= 240 /\ ((exists i, 0 <= i < 8 /\ q = 16 * i /\ k = 16 * i) \/
                       (exists j, 0 <= j < L / 16 - 8 /\ q = 16 * (8 + j) /\ k = 16 * j + 3) \/
                       q = L - 16 /\ k = 119)).
(** the 8 bytes at [o] are one half of the window [q], [k] and no part of another *)
Definition in_one_window (L o q k : Z) : Prop := window64 L q k /\ (o = q \/ o = q + 8) /\
  forall q' k', window64 L q' k' -> (q', k') <> (q, k) -> q' + 16 <= o \/ o + 8 <= q'.
Definition window_product (s : list Z) (seed : Z) (m : list Z) (q k : Z) : Z :=
  X3.fold128 (Z.lxor (LE (zslice m q 8)) ((LE (zslice s k 8) + seed) mod 2 ^ 64) *
              Z.lxor (LE (zslice m (q + 8) 8)) ((LE (zslice s (k + 8) 8) - seed) mod 2 ^ 64)).
Lemma window_term s seed m q k : window64 (zlen m) q k -> term s seed m q k = window_product s seed m q k.
Proof.
  intros W. pose proof (win_in _ _ _ W) as (_ & H1 & H2 & _). unfold term, X3.mixStep, window_product, X3.chunk.
  rewrite !rd8_zslice, !seg_zslice. replace (q + 16 - q) with 16 by lia. rewrite !(zslice_zslice m) by lia. rewrite Z.add_0_r. reflexivity.
Qed.
Lemma short64_iff s seed a w w' b q k : bytes_ok s -> bytes_ok (a ++ w ++ b) -> bytes_ok (a ++ w' ++ b) -> zlen w = 8 -> zlen w' = 8 ->
  in_one_window (zlen (a ++ w ++ b)) (zlen a) q k ->
  X3.short64 s seed (a ++ w ++ b) = X3.short64 s seed (a ++ w' ++ b) <-> window_product s seed (a ++ w ++ b) q k = window_product s seed (a ++ w' ++ b) q k.
Proof.
  intros Bs B B' Lw Lw' (W & _ & U). rewrite <- !window_term by (trivial; replace (zlen (a ++ w' ++ b)) with (zlen (a ++ w ++ b)) by (rewrite !zlen_app; lia); trivial).
  apply short64_window; trivial.
Qed.
Lemma window_small L o q k : in_one_window L o q k -> 17 <= L <= 240.
Proof. intros (W & _). pose proof (win_in _ _ _ W). lia. Qed.

(** C36, what does hold: a change of one word of one window is lost exactly when the folded product of that window is the same. *)
Theorem C36_lost_only_in_its_product : forall c c' p p' a w w' b q k, let L := zlen a + 8 + zlen b in
  cfg_ok c -> cfg_ok c' -> points_to p (a ++ w ++ b) -> points_to p' (a ++ w' ++ b) ->
  bytes_ok (a ++ w ++ b) -> bytes_ok (a ++ w' ++ b) -> zlen w = 8 -> zlen w' = 8 -> in_one_window L (zlen a) q k ->
  (forall seed, 0 <= seed < 2 ^ 64 ->
     exists h h', XXH3_64bits_withSeed c p L seed = OK h /\ XXH3_64bits_withSeed c' p' L seed = OK h' /\
       (h = h' <-> window_product X3.default_secret seed (a ++ w ++ b) q k = window_product X3.default_secret seed (a ++ w' ++ b) q k)) /\
  (forall ps ps' s, points_to ps s -> points_to ps' s -> bytes_ok s -> 136 <= zlen s ->
     exists h h', XXH3_64bits_withSecret c p L ps (zlen s) = OK h /\ XXH3_64bits_withSecret c' p' L ps' (zlen s) = OK h' /\
       (h = h' <-> window_product s 0 (a ++ w ++ b) q k = window_product s 0 (a ++ w' ++ b) q k)).
Proof.
  intros c c' p p' a w w' b q k L C C' P P' B B' Lw Lw' I. pose proof (window_small _ _ _ _ I) as HL.
  assert (L1 : zlen (a ++ w ++ b) = L) by (unfold L; rewrite !zlen_app; lia). assert (L2 : zlen (a ++ w' ++ b) = L) by (unfold L; rewrite !zlen_app; lia). split.
  - intros seed W. do 2 eexists. pose proof (C03_xxh3_64_withSeed_equals_spec c p _ seed C P B W) as Q1. pose proof (C03_xxh3_64_withSeed_equals_spec c' p' _ seed C' P' B' W) as Q2.
    rewrite L1 in Q1. rewrite L2 in Q2. split; [exact Q1|]. split; [exact Q2|]. unfold X3.XXH3_64_withSeed. rewrite !hash64_short by lia. apply short64_iff; trivial; [apply default_bytes|rewrite L1; exact I].
  - intros ps ps' s S S' Bs Ls. do 2 eexists.
    pose proof (C03_xxh3_64_withSecret_equals_spec c p _ ps s C P B S Bs Ls ltac:(lia)) as Q1. pose proof (C03_xxh3_64_withSecret_equals_spec c' p' _ ps' s C' P' B' S' Bs Ls ltac:(lia)) as Q2.
    rewrite L1 in Q1. rewrite L2 in Q2. split; [exact Q1|]. split; [exact Q2|]. unfold X3.XXH3_64_withSecret. rewrite !hash64_short by lia. apply short64_iff; trivial. rewrite L1; exact I.
Qed.
Print Assumptions C36_lost_only_in_its_product.

(** C36 is false of every length from 17 to 240, every window that has a word of its own, every seed and everything around
    the window: the other word [v] can be such that all 2^64 values of the word give one hash. *)
Theorem C36_word_change_everywhere_refuted : forall seed a b q k, 0 <= seed < 2 ^ 64 -> bytes_ok a -> bytes_ok b -> zlen a = q ->
  (in_one_window (zlen a + 16 + zlen b) q q k ->
     exists v, bytes_ok v /\ zlen v = 8 /\ forall c c' p p' x x', cfg_ok c -> cfg_ok c' -> bytes_ok x -> bytes_ok x' -> zlen x = 8 -> zlen x' = 8 ->
       points_to p (a ++ x ++ v ++ b) -> points_to p' (a ++ x' ++ v ++ b) ->
       exists h, XXH3_64bits_withSeed c p (zlen a + 16 + zlen b) seed = OK h /\ XXH3_64bits_withSeed c' p' (zlen a + 16 + zlen b) seed = OK h) /\
  (in_one_window (zlen a + 16 + zlen b) (q + 8) q k ->
     exists v, bytes_ok v /\ zlen v = 8 /\ forall c c' p p' x x', cfg_ok c -> cfg_ok c' -> bytes_ok x -> bytes_ok x' -> zlen x = 8 -> zlen x' = 8 ->
       points_to p (a ++ v ++ x ++ b) -> points_to p' (a ++ v ++ x' ++ b) ->
       exists h, XXH3_64bits_withSeed c p (zlen a + 16 + zlen b) seed = OK h /\ XXH3_64bits_withSeed c' p' (zlen a + 16 + zlen b) seed = OK h).
Proof.
  intros seed a b q k W Ba Bb Hq. set (s := X3.default_secret).
  assert (X : forall z, LE (X3.bytes8 (z mod 2 ^ 64)) = z mod 2 ^ 64) by (intros; rewrite LE_le_val; apply bytes8_val, mod_wd; lia). split; intros I.
  - set (v := X3.bytes8 ((LE (zslice s (k + 8) 8) - seed) mod 2 ^ 64)). exists v. split; [apply bytes8_ok|]. split; [reflexivity|].
    intros c c' p p' x x' C C' Bx Bx' Lx Lx' P P'. assert (Lv : zlen v = 8) by reflexivity. assert (Bv : bytes_ok v) by apply bytes8_ok.
    assert (BB : forall y, bytes_ok y -> bytes_ok (a ++ y ++ v ++ b)) by (intros; repeat (apply bytes_ok_app; trivial)).
    assert (Z0 : forall y, zlen y = 8 -> window_product s seed (a ++ y ++ v ++ b) q k = 0).
    { intros y Ly. unfold window_product. replace (zslice (a ++ y ++ v ++ b) (q + 8) 8) with v.
      - unfold v. rewrite X, Z.lxor_nilpotent, Z.mul_0_r. reflexivity.
      - rewrite <- Hq. rewrite (app_assoc a y). replace (zlen a + 8) with (zlen (a ++ y)) by (rewrite zlen_app; lia). symmetry. exact (zslice_inside (a ++ y) v b). }
    replace (zlen a + 16 + zlen b) with (zlen a + 8 + zlen (v ++ b)) in * by (rewrite zlen_app; lia). rewrite <- Hq in I at 1.
    destruct (C36_lost_only_in_its_product c c' p p' a x x' (v ++ b) q k C C' P P' (BB x Bx) (BB x' Bx') Lx Lx' I) as [G _].
    destruct (G seed W) as (h & h' & E1 & E2 & E3). exists h. split; [exact E1|]. rewrite E2. f_equal. symmetry. apply E3. fold s. rewrite !Z0 by trivial. reflexivity.
  - set (v := X3.bytes8 ((LE (zslice s k 8) + seed) mod 2 ^ 64)). exists v. split; [apply bytes8_ok|]. split; [reflexivity|].
    intros c c' p p' x x' C C' Bx Bx' Lx Lx' P P'. assert (Lv : zlen v = 8) by reflexivity. assert (Bv : bytes_ok v) by apply bytes8_ok.
    assert (BB : forall y, bytes_ok y -> bytes_ok ((a ++ v) ++ y ++ b)) by (intros; repeat (apply bytes_ok_app; trivial)).
    assert (Z0 : forall y, zlen y = 8 -> window_product s seed ((a ++ v) ++ y ++ b) q k = 0).
    { intros y Ly. unfold window_product. replace (zslice ((a ++ v) ++ y ++ b) q 8) with v.
      - unfold v. rewrite X, Z.lxor_nilpotent, Z.mul_0_l. reflexivity.
      - rewrite <- Hq, <- app_assoc. symmetry. exact (zslice_inside a v (y ++ b)). }
    rewrite app_assoc in P, P'.
    replace (zlen a + 16 + zlen b) with (zlen (a ++ v) + 8 + zlen b) in * by (rewrite zlen_app; lia). rewrite <- Hq in I at 1. replace (zlen a + 8) with (zlen (a ++ v)) in I by (rewrite zlen_app; lia).
    destruct (C36_lost_only_in_its_product c c' p p' (a ++ v) x x' b q k C C' P P' (BB x Bx) (BB x' Bx') Lx Lx' I) as [G _].
    destruct (G seed W) as (h & h' & E1 & E2 & E3). exists h. split; [exact E1|]. rewrite E2. f_equal. symmetry. apply E3. fold s. rewrite !Z0 by trivial. reflexivity.
Qed.
Print Assumptions C36_word_change_everywhere_refuted.

(** C46, what does hold: a change of an aligned word of a full stripe changes exactly the accumulator of its lane, whatever
    follows and however the data is cut into calls, and is lost exactly when the merged accumulators coincide. *)
Definition lane (v : lanes4) (i : Z) : Z := let '(v1, v2, v3, v4) := v in if i =? 0 then v1 else if i =? 1 then v2 else if i =? 2 then v3 else v4.
Lemma lane_nth l i : lanes64_ok l -> 0 <= i < 4 -> lane (ofL l) i = nth (Z.to_nat i) l 0.
Proof.
  intros [L _] Hi. destruct (list4 l L) as (x & y & z & t & ->). assert (i = 0 \/ i = 1 \/ i = 2 \/ i = 3) as K by lia.
  destruct K as [-> |[-> |[-> | ->]]]; reflexivity.
Qed.
Theorem C46_word_changes_one_accumulator : forall c c' calls chunks calls' chunks' a w w' b seed, cfg_ok c -> cfg_ok c' ->
  chunks_ok c 32 calls chunks -> chunks_ok c' 32 calls' chunks' -> concat chunks = a ++ w ++ b -> concat chunks' = a ++ w' ++ b ->
  zlen w = 8 -> zlen w' = 8 -> w <> w' -> zlen a mod 8 = 0 -> zlen a < 32 * (zlen (a ++ w ++ b) / 32) -> zlen (a ++ w ++ b) < 2 ^ 64 ->
  exists st st' h h', feed (XXH64_update c) (XXH64_reset seed) calls = OK st /\ feed (XXH64_update c') (XXH64_reset seed) calls' = OK st' /\
    (forall i, 0 <= i < 4 -> lane (s64_v st) i = lane (s64_v st') i <-> i <> zlen a / 8 mod 4) /\
    XXH64_digest c st = OK h /\ XXH64_digest c' st' = OK h' /\ (h = h' <-> XXH64_merge (s64_v st) = XXH64_merge (s64_v st')).
Proof.
  intros c c' calls chunks calls' chunks' a w w' b seed C C' K K' E E' Lw Lw' N A8 In Lm.
  pose proof (chunks_bytes _ _ _ _ K) as B. pose proof (chunks_bytes _ _ _ _ K') as B'. rewrite E in B. rewrite E' in B'.
  destruct (feed64_rep c seed calls chunks C K [] _ (reset64_rep seed)) as (st & F & R). destruct (feed64_rep c' seed calls' chunks' C' K' [] _ (reset64_rep seed)) as (st' & F' & R').
  cbn [app] in R, R'. rewrite E in R. rewrite E' in R'.
  assert (L2 : zlen (a ++ w' ++ b) = zlen (a ++ w ++ b)) by (rewrite !zlen_app; lia).
  exists st, st'. do 2 eexists. split; [exact F|]. split; [exact F'|].
  assert (D : dif 64 (Z.to_nat (zlen a / 8 mod 4)) (X64.stripes (a ++ w ++ b) (X64.init seed)) (X64.stripes (a ++ w' ++ b) (X64.init seed))).
  { apply stripes64_word; trivial. Z.div_mod_to_equations. lia. }
  pose proof (Z.mod_pos_bound (zlen a / 8) 4 ltac:(lia)) as J. destruct D as (_ & _ & D1 & D2).
  assert (O : forall m, lanes64_ok (X64.stripes m (X64.init seed))) by (intros; apply lanes64_ok_stripes, lanes64_ok_init).
  rewrite (r64_v _ _ _ R), (r64_v _ _ _ R'). split.
  { intros i Hi. rewrite !lane_nth by trivial. split.
    - intros Q ->. exact (D2 Q).
    - intros Q. apply D1; lia. }
  split; [apply (digest64_ok c seed _ st C R); exact Lm|]. split; [apply (digest64_ok c' seed _ st' C' R'); lia|].
  rewrite !merge64_eq by trivial. apply (hash64_merged a w w' b seed (zlen a / 8)); trivial. Z.div_mod_to_equations. lia.
Qed.
Print Assumptions C46_word_changes_one_accumulator.

(** the hypotheses are met by real values: words of one window at 32, 100, 200 and 240 bytes, and a word of two windows *)

(** the hypotheses are met by real values: words of one window at 32, 100 and 200 bytes, and a word of two windows *)
Example hyps20_inhabited :
  in_one_window 32 0 0 0 /\ in_one_window 32 24 16 16 /\ in_one_window 100 8 0 0 /\ in_one_window 200 128 128 3 /\ in_one_window 200 192 184 119 /\
  ~ in_one_window 100 40 32 64 /\
  (let a := pre 40 in let w := [1; 2; 3; 4; 5; 6; 7; 8] in let w' := [1; 2; 3; 4; 5; 6; 7; 40] in let b := pre 60 in
   cfg_ok c1 /\ chunks_ok c1 32 [(Ptr (a ++ w ++ b) 3 0, 108)] [a ++ w ++ b] /\ w <> w' /\ zlen a mod 8 = 0 /\ zlen a < 32 * (zlen (a ++ w ++ b) / 32)).
Proof.
  assert (E32 : (32 - 1) / 32 = 0) by reflexivity. assert (E100 : (100 - 1) / 32 = 3) by reflexivity. assert (E200 : 200 / 16 = 12) by reflexivity.
  assert (NE : forall q k q' k' : Z, (q', k') <> (q, k) -> q' <> q \/ k' <> k).
  { intros q k q' k' N. destruct (Z.eq_dec q' q) as [->|]; [|left; trivial]. destruct (Z.eq_dec k' k) as [->|]; [|right; trivial]. exfalso. apply N. reflexivity. }
  split; [|split; [|split; [|split; [|split; [|split]]]]].
  - split; [left; split; [lia|]; exists 0; lia|]. split; [lia|]. intros q' k' [[H (i & Hi & K)]|[H _]] N; [|lia]. apply NE in N. lia.
  - split; [left; split; [lia|]; exists 0; lia|]. split; [lia|]. intros q' k' [[H (i & Hi & K)]|[H _]] N; [|lia]. apply NE in N. lia.
  - split; [left; split; [lia|]; exists 0; lia|]. split; [lia|]. intros q' k' [[H (i & Hi & K)]|[H _]] N; [|lia]. apply NE in N. lia.
  - split; [right; split; [lia|]; right; left; exists 0; lia|]. split; [lia|]. intros q' k' [[H _]|[H [(i & Hi & K)|[(j & Hj & K)|K]]]] N; apply NE in N; lia.
  - split; [right; split; [lia|]; right; right; lia|]. split; [lia|]. intros q' k' [[H _]|[H [(i & Hi & K)|[(j & Hj & K)|K]]]] N; apply NE in N; lia.
  - intros (_ & _ & U). destruct (U 36 112) as [U1|U1]; [left; split; [lia|]; exists 3; lia|discriminate|lia|lia].
  - cbv zeta. split; [constructor; cbn; auto; try lia; discriminate|]. split.
    { apply Forall2_cons; [|apply Forall2_nil]. cbn [fst snd]. split; [apply points_buf|]. split; [reflexivity|]. split; [vm_compute; repeat constructor; discriminate|vm_compute; discriminate]. }
    repeat split; try discriminate; reflexivity.
Qed.
