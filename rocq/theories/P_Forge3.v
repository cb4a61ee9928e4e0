(** Inputs of 24 to 240 bytes with a given XXH3 hash (proofs for C111). *)
From Verif Require Import Base Mem Spec32 Spec64 Spec3 P_Base P_Spec P_X3_Base P_Inj P_Inj64 P_Inj3 P_Inj128 P_Mid P_SeedPairs P_Told.

Lemma avalanche_unmix x : wd 64 x -> X3.avalanche (unmix x) = x.
Proof.
  intros W. unfold unmix, X3.avalanche. cbv zeta. change X3.W with (2 ^ 64). rewrite (xorshift_twice 37) by (try lia; apply mod_wd; lia).
  rewrite Zmult_mod_idemp_l. rewrite <- Z.mul_assoc. set (y := xorshift x 32). assert (Y : wd 64 y) by (apply xorshift_wd; trivial; lia).
  replace ((y * (0x8da8ee41d6df849 * X3.MX1)) mod 2 ^ 64) with y; [apply xorshift_twice; trivial; lia|].
  rewrite <- Zmult_mod_idemp_r. change ((0x8da8ee41d6df849 * X3.MX1) mod 2 ^ 64) with 1. rewrite Z.mul_1_r. symmetry. apply Z.mod_small, Y.
Qed.
Lemma unmix_wd x : wd 64 x -> wd 64 (unmix x).
Proof. intros W. unfold unmix. apply xorshift_wd; try lia. apply mod_wd. lia. Qed.

Lemma lxor_wd a b : wd 64 a -> wd 64 b -> wd 64 (Z.lxor a b).
Proof. apply lxor_bound. lia. Qed.

(** the words of 16 bytes *)
Definition two (x y : Z) : list Z := X3.bytes8 x ++ X3.bytes8 y.
Lemma two_words x y : wd 64 x -> wd 64 y -> X3.rd8 (two x y) 0 = x /\ X3.rd8 (two x y) 8 = y.
Proof.
  intros X Y. unfold two. split.
  - rewrite (rd8_at [] (X3.bytes8 x) (X3.bytes8 y)) by reflexivity. apply bytes8_val, X.
  - rewrite <- (app_nil_r (X3.bytes8 y)). rewrite (rd8_at (X3.bytes8 x) (X3.bytes8 y) []) by reflexivity. apply bytes8_val, Y.
Qed.
Lemma two_ok x y : bytes_ok (two x y) /\ zlen (two x y) = 16.
Proof. split; [apply bytes_ok_app; apply bytes8_ok|reflexivity]. Qed.

(** windows *)
Lemma chunk_first w r : zlen w = 16 -> X3.chunk (w ++ r) 0 = w.
Proof. intros L. pose proof (zlen_nonneg r). unfold X3.chunk. rewrite seg_zslice, zslice_app_l by lia. apply zslice_all. lia. Qed.
Lemma chunk_last a z : zlen z = 16 -> X3.chunk (a ++ z) (zlen a) = z.
Proof.
  intros L. pose proof (zlen_nonneg a). unfold X3.chunk. rewrite seg_zslice. replace (zlen a + 16 - zlen a) with 16 by lia. rewrite zslice_app_r by lia. rewrite Z.sub_diag. apply zslice_all. lia.
Qed.
Lemma chunk_in u t q o k : zlen u = k -> k <= o -> o + 16 <= k + zlen t -> X3.chunk (u ++ t ++ q) o = zslice t (o - k) 16.
Proof.
  intros L O O'. pose proof (zlen_nonneg u). pose proof (zlen_nonneg q). unfold X3.chunk. rewrite seg_zslice. replace (o + 16 - o) with 16 by lia. rewrite zslice_app_r; rewrite ?zlen_app; try lia.
  rewrite zslice_app_l by lia. f_equal. lia.
Qed.
(** the rounds after the one that reads the ends *)
Definition others (n : Z) : list Z := rev (map Z.of_nat (seq 1 (Z.to_nat n - 1))).
Lemma down_others n : 1 <= n -> X3.down n = others n ++ [0].
Proof. intros N. unfold X3.down, others, upto. replace (Z.to_nat n) with (S (Z.to_nat n - 1)) at 1 by lia. reflexivity. Qed.
Lemma others_in n i : In i (others n) -> 1 <= i < n.
Proof. unfold others. rewrite <- in_rev, in_map_iff. intros (k & <- & K). apply in_seq in K. lia. Qed.
Lemma upto_in n i : In i (upto n) -> 0 <= i < n.
Proof. unfold upto. rewrite in_map_iff. intros (k & <- & K). apply in_seq in K. lia. Qed.
Lemma fold_same {A} (f g : A -> Z -> A) l : (forall a i, In i l -> f a i = g a i) -> forall a, fold_left f l a = fold_left g l a.
Proof. induction l as [|i l IH]; intros H a; [reflexivity|]. cbn. rewrite H by (left; reflexivity). apply IH. intros; apply H; right; assumption. Qed.

(** maps that reach everything *)
Definition onto {A} (ok : A -> Prop) (f : A -> A) : Prop := forall y, ok y -> exists x, ok x /\ f x = y.
Lemma onto_comp {A} (ok : A -> Prop) f g : onto ok f -> onto ok g -> onto ok (fun a => g (f a)).
Proof. intros F G y Y. destruct (G y Y) as (x & X & <-). destruct (F x X) as (v & V & <-). exists v. auto. Qed.
Lemma onto_fold {A} (ok : A -> Prop) (f : A -> Z -> A) l : (forall i, onto ok (fun a => f a i)) -> onto ok (fun a => fold_left f l a).
Proof. intros F. induction l as [|i l IH]; [intros y Y; exists y; auto|]. cbn. apply (onto_comp ok (fun a => f a i)); [apply F|exact IH]. Qed.
Lemma onto_add k : onto (wd 64) (fun a => (a + k) mod X3.W).
Proof. intros y Y. exists ((y - k) mod 2 ^ 64). split; [apply mod_wd; lia|]. change X3.W with (2 ^ 64). rewrite Zplus_mod_idemp_l. replace (y - k + k) with y by lia. apply Z.mod_small, Y. Qed.
Lemma onto_avalanche : onto (wd 64) X3.avalanche.
Proof. intros y Y. exists (unmix y). split; [apply unmix_wd, Y|apply avalanche_unmix, Y]. Qed.
Definition wd2 (a : Z * Z) : Prop := wd 64 (fst a) /\ wd 64 (snd a).
Lemma onto_two s d1 d2 off seed : onto wd2 (fun a => X3.mixTwoChunks s a d1 d2 off seed).
Proof.
  intros [x y] [X Y]. cbn [fst snd] in X, Y. unfold X3.mixTwoChunks. set (m1 := X3.mixStep _ _ _ _). set (m2 := X3.mixStep _ d2 _ _). set (s1 := _ mod _). set (s2 := (X3.rd8 d1 0 + _) mod _).
  assert (S1 : wd 64 s1) by (apply (mod_wd 64); lia). assert (S2 : wd 64 s2) by (apply (mod_wd 64); lia).
  exists ((Z.lxor x s1 - m1) mod 2 ^ 64, (Z.lxor y s2 - m2) mod 2 ^ 64). split; [split; apply mod_wd; lia|]. cbn [fst snd]. change X3.W with (2 ^ 64). rewrite !Zplus_mod_idemp_l.
  replace (Z.lxor x s1 - m1 + m1) with (Z.lxor x s1) by lia. replace (Z.lxor y s2 - m2 + m2) with (Z.lxor y s2) by lia.
  rewrite !Z.mod_small by (apply lxor_wd; assumption). rewrite !Z.lxor_assoc, !Z.lxor_nilpotent, !Z.lxor_0_r. reflexivity.
Qed.

(** ** 64 bits: the second factor is 1, so that the first is the product; it is solved for *)
Section Head.
Context (s : list Z) (seed : Z) (r : list Z).
Let k1 := (X3.rd8 s 0 + seed) mod X3.W.
Let k2 := (X3.rd8 s (0 + 8) - seed) mod X3.W.
(** everything after the first 8 bytes *)
Let t := X3.bytes8 (Z.lxor k2 1) ++ r.
Let L := 16 + zlen r.
Definition first_word (v : Z) : list Z := X3.bytes8 (Z.lxor k1 v).
Lemma k_wd : wd 64 k1 /\ wd 64 (Z.lxor k2 1).
Proof. split; [apply (mod_wd 64); lia|]. apply lxor_wd; [apply (mod_wd 64); lia|split; lia]. Qed.
Lemma first_mix v : wd 64 v -> X3.mixStep s (X3.chunk (first_word v ++ t) 0) 0 seed = v.
Proof.
  intros V. destruct k_wd as [K1 K2]. unfold t. rewrite app_assoc, chunk_first by reflexivity. change (first_word v ++ X3.bytes8 (Z.lxor k2 1)) with (two (Z.lxor k1 v) (Z.lxor k2 1)).
  unfold X3.mixStep. destruct (two_words (Z.lxor k1 v) (Z.lxor k2 1)) as [-> ->]; [apply lxor_wd; trivial|trivial|]. fold k1 k2. rewrite !cancel, Z.mul_1_r. unfold X3.fold128, X3.lo64, X3.hi64.
  change X3.W with (2 ^ 64). rewrite Z.mod_small, Z.div_small by exact V. apply Z.lxor_0_r.
Qed.
Lemma t_len : zlen t = zlen r + 8. Proof. unfold t. rewrite zlen_app, bytes8_len. lia. Qed.
Lemma m_len v : len (first_word v ++ t) = L.
Proof. change (len (first_word v ++ t)) with (zlen (first_word v ++ t)). rewrite zlen_app, t_len. unfold first_word, L. rewrite bytes8_len. lia. Qed.
Lemma tail_chunk v v' o : 8 <= o -> o + 16 <= L -> X3.chunk (first_word v ++ t) o = X3.chunk (first_word v' ++ t) o.
Proof.
  intros O O'. rewrite <- (app_nil_r t). rewrite !(chunk_in _ t [] o 8); trivial; try reflexivity; rewrite t_len; unfold L in O'; lia.
Qed.
Lemma head64 : 24 <= L <= 32 \/ 40 <= L <= 128 -> exists G, onto (wd 64) G /\ forall v, wd 64 v -> X3.mid17to128_64 s seed (first_word v ++ t) = G v.
Proof.
  intros R. set (n := (L - 1) / 32 + 1). assert (N : 1 <= n /\ forall i, 0 <= i < n -> 8 <= 16 * (1 + i) /\ 8 <= L - 16 * i - 16 /\ (1 <= i -> 16 * i + 16 <= L)).
  { unfold n. set (l := L) in *. clearbody l. clear - R. split; [Z.div_mod_to_equations; lia|]. intros i I. Z.div_mod_to_equations. lia. }
  destruct N as [N1 N].
  set (m0 := first_word 0 ++ t). set (C := fold_left (fun acc i => (acc + X3.mixStep s (X3.chunk m0 (16 * i)) (32 * i) seed + X3.mixStep s (X3.chunk m0 (L - 16 * i - 16)) (32 * i + 16) seed) mod X3.W) (others n) ((L * X3.P1) mod X3.W)).
  exists (fun v => (v + (C + X3.mixStep s (X3.chunk m0 (L - 16)) 16 seed)) mod X3.W). split; [apply onto_add|]. intros v V. unfold X3.mid17to128_64. rewrite m_len. fold n. cbv zeta.
  rewrite down_others by exact N1. rewrite fold_left_app. cbn [fold_left]. change (16 * 0) with 0. rewrite first_mix by exact V. replace (L - 0 - 16) with (L - 16) by lia. change (32 * 0 + 16) with 16.
  rewrite (tail_chunk v 0 (L - 16)) by (specialize (N 0); lia). fold m0.
  match goal with |- (fold_left ?f _ _ + _ + _) mod _ = _ => assert (E : fold_left f (others n) ((L * X3.P1) mod X3.W) = C) end.
  { unfold C. apply fold_same. intros a i I. apply others_in in I. destruct (N i) as (N2 & N3 & N4); [lia|]. rewrite (tail_chunk v 0 (16 * i)), (tail_chunk v 0 (L - 16 * i - 16)) by lia. reflexivity. }
  rewrite E. f_equal. lia.
Qed.
Lemma head64_long : 129 <= L <= 240 -> exists G, onto (wd 64) G /\ forall v, wd 64 v -> X3.mid129to240_64 s seed (first_word v ++ t) = G v.
Proof.
  intros R. set (m0 := first_word 0 ++ t).
  set (F1 := fun acc i => (acc + X3.mixStep s (X3.chunk m0 (16 * i)) (16 * i) seed) mod X3.W). set (F2 := fun acc j => (acc + X3.mixStep s (X3.chunk m0 (16 * (8 + j))) (16 * j + 3) seed) mod X3.W).
  exists (fun v => (fold_left F2 (upto (L / 16 - 8)) (X3.avalanche (fold_left F1 [1; 2; 3; 4; 5; 6; 7] ((v + (L * X3.P1) mod X3.W) mod X3.W))) + X3.mixStep s (X3.chunk m0 (L - 16)) 119 seed) mod X3.W). split.
  - apply (onto_comp (wd 64) (fun v => fold_left F2 _ _) (fun a => (a + _) mod _)); [|apply onto_add]. apply (onto_comp (wd 64) _ (fun a => fold_left F2 _ a)); [|apply onto_fold; intros i; apply onto_add].
    apply (onto_comp (wd 64) _ X3.avalanche); [|apply onto_avalanche]. apply (onto_comp (wd 64) (fun v => (v + _) mod _) (fun a => fold_left F1 _ a)); [apply onto_add|apply onto_fold; intros i; apply onto_add].
  - intros v V. unfold X3.mid129to240_64. rewrite m_len. cbv zeta. rewrite (tail_chunk v 0 (L - 16)) by lia. fold m0. change (upto 8) with (0 :: [1; 2; 3; 4; 5; 6; 7]). cbn [fold_left app]. change (16 * 0) with 0. rewrite first_mix by exact V.
    rewrite (Z.add_comm ((L * X3.P1) mod X3.W) v). do 2 f_equal. rewrite !(tail_chunk v 0 (16 * _)) by lia. unfold F1. cbn [fold_left]. fold m0.
    apply fold_same. intros a j I. apply upto_in in I. unfold F2. rewrite (tail_chunk v 0 (16 * (8 + j))); [reflexivity|lia|]. clear - I. set (l := L) in *. clearbody l. Z.div_mod_to_equations. lia.
Qed.
Lemma forge64 h : 24 <= L <= 32 \/ 40 <= L <= 240 -> wd 64 h -> exists w, bytes_ok w /\ zlen w = 16 /\ X3.short64 s seed (w ++ r) = h.
Proof.
  intros R H. assert (Q : exists G, onto (wd 64) G /\ forall v, wd 64 v -> X3.short64 s seed (first_word v ++ t) = X3.avalanche (G v)).
  { unfold X3.short64. destruct (Z.leb_spec L 128) as [M|M].
    - destruct head64 as (G & O & E); [lia|]. exists G. split; [exact O|]. intros v V. rewrite m_len, <- E by exact V. cbv zeta. replace (L =? 0) with false by lia. replace (L <=? 3) with false by lia.
      replace (L <=? 8) with false by lia. replace (L <=? 16) with false by lia. replace (L <=? 128) with true by lia. reflexivity.
    - destruct head64_long as (G & O & E); [lia|]. exists G. split; [exact O|]. intros v V. rewrite m_len, <- E by exact V. cbv zeta. replace (L =? 0) with false by lia. replace (L <=? 3) with false by lia.
      replace (L <=? 8) with false by lia. replace (L <=? 16) with false by lia. replace (L <=? 128) with false by lia. reflexivity. }
  destruct Q as (G & O & E). destruct (O (unmix h) (unmix_wd h H)) as (v & V & Gv). exists (two (Z.lxor k1 v) (Z.lxor k2 1)). destruct (two_ok (Z.lxor k1 v) (Z.lxor k2 1)) as [B Lw]. split; [exact B|]. split; [exact Lw|].
  unfold two. rewrite <- app_assoc. etransitivity; [apply (E v V)|]. rewrite Gv. apply avalanche_unmix, H.
Qed.
End Head.

(** ** 128 bits: both products are 0, the sums of the words give any two accumulators *)
Section Ends.
Context (s : list Z) (seed : Z).
Let kw := (X3.rd8 s (0 + 8) - seed) mod X3.W.
Let kz := (X3.rd8 s (0 + 16) + seed) mod X3.W.
Lemma ends_two acc x y : wd 64 x -> wd 64 y -> exists a q, wd 64 a /\ wd 64 q /\ X3.mixTwoChunks s acc (two a kw) (two kz q) 0 seed = (x, y).
Proof.
  intros X Y. destruct acc as [x0 y0]. assert (K : wd 64 kw) by (apply (mod_wd 64); lia). assert (K' : wd 64 kz) by (apply (mod_wd 64); lia).
  set (a := (Z.lxor (y0 mod 2 ^ 64) y - kw) mod 2 ^ 64). set (q := (Z.lxor (x0 mod 2 ^ 64) x - kz) mod 2 ^ 64).
  assert (A : wd 64 a) by (apply mod_wd; lia). assert (Q : wd 64 q) by (apply mod_wd; lia). exists a, q. split; [exact A|]. split; [exact Q|].
  unfold X3.mixTwoChunks, X3.mixStep. destruct (two_words a kw A K) as [-> ->]. destruct (two_words kz q K' Q) as [-> ->]. fold kw kz.
  rewrite !Z.lxor_nilpotent, !Z.mul_0_l, !Z.mul_0_r. change (X3.fold128 0) with 0. cbn [fst snd]. rewrite !Z.add_0_r. change X3.W with (2 ^ 64).
  assert (S : forall k w, wd 64 w -> (k + (w - k) mod 2 ^ 64) mod 2 ^ 64 = w) by (intros j w W; rewrite Zplus_mod_idemp_r; replace (j + (w - j)) with w by lia; apply Z.mod_small, W).
  rewrite (Z.add_comm a kw). unfold a, q. rewrite !S by (apply lxor_wd; trivial; apply mod_wd; lia). rewrite <- !Z.lxor_assoc, !Z.lxor_nilpotent, !Z.lxor_0_l. reflexivity.
Qed.
(** 32 and 40 to 128 bytes: the ends *)
Lemma accs128 b x y : zlen b = 0 \/ 8 <= zlen b <= 96 -> wd 64 x -> wd 64 y ->
  exists w z, bytes_ok w /\ zlen w = 16 /\ bytes_ok z /\ zlen z = 16 /\ X3.mid17to128_128 s seed (w ++ b ++ z) = (x, y).
Proof.
  intros R X Y. pose proof (zlen_nonneg b). set (L := 32 + zlen b). set (n := (L - 1) / 32 + 1).
  assert (N : 1 <= n /\ forall i, 1 <= i < n -> 8 <= 16 * i /\ 16 * i + 16 <= L - 8 /\ 8 <= L - 16 * i - 16 /\ L - 16 * i - 16 + 16 <= L - 8).
  { unfold n, L. set (l := zlen b) in *. clearbody l. clear - R. split; [Z.div_mod_to_equations; lia|]. intros i I. Z.div_mod_to_equations. lia. }
  destruct N as [N1 N]. set (m := fun a q => two a kw ++ b ++ two kz q).
  assert (ML : forall a q, len (m a q) = L) by (intros; unfold m; change (len ?l) with (zlen l); rewrite !zlen_app; change (zlen (two _ _)) with 16; unfold L; lia).
  assert (MC : forall a q a' q' o, 8 <= o -> o + 16 <= L - 8 -> X3.chunk (m a q) o = X3.chunk (m a' q') o).
  { assert (M1 : forall a q, m a q = X3.bytes8 a ++ (X3.bytes8 kw ++ b ++ X3.bytes8 kz) ++ X3.bytes8 q) by (intros; unfold m, two; rewrite <- !app_assoc; reflexivity).
    intros a q a' q' o O O'. rewrite !M1, !(chunk_in _ (X3.bytes8 kw ++ b ++ X3.bytes8 kz) _ o 8); trivial; rewrite !zlen_app, !bytes8_len; unfold L in O'; lia. }
  set (acc := fold_left (fun acc i => X3.mixTwoChunks s acc (X3.chunk (m 0 0) (16 * i)) (X3.chunk (m 0 0) (L - 16 * i - 16)) (32 * i) seed) (others n) ((L * X3.P1) mod X3.W, 0)).
  destruct (ends_two acc x y X Y) as (a & q & A & Q & E). exists (two a kw), (two kz q). destruct (two_ok a kw) as [B1 L1]. destruct (two_ok kz q) as [B2 L2]. repeat (split; [assumption|]).
  change (two a kw ++ b ++ two kz q) with (m a q). unfold X3.mid17to128_128. rewrite ML. fold n. cbv zeta. rewrite down_others by exact N1. rewrite fold_left_app. cbn [fold_left].
  change (16 * 0) with 0. change (32 * 0) with 0. rewrite <- E.
  replace (X3.chunk (m a q) 0) with (two a kw) by (symmetry; unfold m; apply chunk_first; exact L1).
  replace (X3.chunk (m a q) (L - 0 - 16)) with (two kz q).
  2:{ symmetry. unfold m. rewrite app_assoc. replace (L - 0 - 16) with (zlen (two a kw ++ b)) by (rewrite zlen_app; change (zlen (two _ _)) with 16; unfold L; lia). apply chunk_last. exact L2. }
  replace acc with (fold_left (fun acc i => X3.mixTwoChunks s acc (X3.chunk (m a q) (16 * i)) (X3.chunk (m a q) (L - 16 * i - 16)) (32 * i) seed) (others n) ((L * X3.P1) mod X3.W, 0)); [reflexivity|].
  unfold acc. apply fold_same. intros v i I. apply others_in in I. destruct (N i I) as (I1 & I2 & I3 & I4). rewrite (MC a q 0 0 (16 * i)), (MC a q 0 0 (L - 16 * i - 16)) by lia. reflexivity.
Qed.
(** 129 to 240 bytes: the first 32 bytes *)
Lemma accs128_long r x y : 97 <= zlen r <= 208 -> wd 64 x -> wd 64 y -> exists w, bytes_ok w /\ zlen w = 32 /\ X3.mid129to240_128 s seed (w ++ r) = (x, y).
Proof.
  intros R X Y. set (L := 32 + zlen r). set (m := fun a q => (two a kw ++ two kz q) ++ r).
  assert (ML : forall a q, len (m a q) = L) by (intros; unfold m; change (len ?l) with (zlen l); rewrite !zlen_app; change (zlen (two _ _)) with 16; unfold L; lia).
  assert (MC : forall a q o, 32 <= o -> o + 16 <= L -> X3.chunk (m a q) o = X3.chunk (m 0 0) o).
  { intros a q o O O'. unfold m. rewrite <- (app_nil_r r). rewrite !(chunk_in _ r [] o 32); trivial; unfold L in O'; lia. }
  set (m0 := m 0 0). set (F1 := fun acc i => X3.mixTwoChunks s acc (X3.chunk m0 (32 * i)) (X3.chunk m0 (32 * i + 16)) (32 * i) seed).
  set (F2 := fun acc j => X3.mixTwoChunks s acc (X3.chunk m0 (32 * (4 + j))) (X3.chunk m0 (32 * (4 + j) + 16)) (32 * j + 3) seed).
  set (av := fun a : Z * Z => (X3.avalanche (fst a), X3.avalanche (snd a))).
  assert (O : onto wd2 (fun a => X3.mixTwoChunks s (fold_left F2 (upto (L / 32 - 4)) (av (fold_left F1 [1; 2; 3] a))) (X3.chunk m0 (L - 16)) (X3.chunk m0 (L - 32)) 103 ((0 - seed) mod X3.W))).
  { apply (onto_comp wd2 (fun a => fold_left F2 _ _) (fun a => X3.mixTwoChunks s a _ _ _ _)); [|apply onto_two]. apply (onto_comp wd2 _ (fun a => fold_left F2 _ a)); [|apply onto_fold; intros i; apply onto_two].
    apply (onto_comp wd2 _ av); [apply onto_fold; intros i; apply onto_two|]. intros [p q] [P Q]. cbn [fst snd] in P, Q. destruct (onto_avalanche p P) as (p' & P' & E1). destruct (onto_avalanche q Q) as (q' & Q' & E2).
    exists (p', q'). split; [split; assumption|]. unfold av. cbn [fst snd]. rewrite E1, E2. reflexivity. }
  destruct (O (x, y)) as ([x1 y1] & [X1 Y1] & E); [split; assumption|]. cbn [fst snd] in X1, Y1. destruct (ends_two ((L * X3.P1) mod X3.W, 0) x1 y1 X1 Y1) as (a & q & A & Q & E1).
  exists (two a kw ++ two kz q). destruct (two_ok a kw) as [B1 L1]. destruct (two_ok kz q) as [B2 L2]. split; [apply bytes_ok_app; assumption|]. split; [reflexivity|].
  change ((two a kw ++ two kz q) ++ r) with (m a q). unfold X3.mid129to240_128. rewrite ML. cbv zeta. change (upto 4) with (0 :: [1; 2; 3]). cbn [fold_left]. change (32 * 0) with 0. change (0 + 16) with 16.
  replace (X3.chunk (m a q) 0) with (two a kw) by (unfold m; rewrite <- app_assoc; symmetry; apply chunk_first; exact L1).
  replace (X3.chunk (m a q) 16) with (two kz q).
  2:{ unfold m. rewrite <- app_assoc. unfold X3.chunk. rewrite seg_zslice. rewrite zslice_app_r; rewrite ?zlen_app, ?L1, ?L2; try lia. rewrite zslice_app_l by lia. symmetry. apply zslice_all. lia. }
  rewrite E1. rewrite <- E. cbn [fold_left]. unfold F1. rewrite !(MC a q (32 * _)), !(MC a q (32 * _ + 16)) by (unfold L; lia). rewrite (MC a q (L - 16)), (MC a q (L - 32)) by (unfold L; lia). fold m0. f_equal.
  apply fold_same. intros v j I. apply upto_in in I. unfold F2, m0. rewrite (MC a q (32 * (4 + j))), (MC a q (32 * (4 + j) + 16)); [reflexivity|lia| |lia|]; (clear - I; set (l := L) in *; clearbody l; Z.div_mod_to_equations; lia).
Qed.
End Ends.

(** the accumulators that give a digest: a linear system with determinant 4 times an odd number *)
Lemma solve128 lo hi L seed : wd 64 lo -> wd 64 hi -> told (lo, hi) = (L - seed) mod 4 -> exists x y, wd 64 x /\ wd 64 y /\ X3.mid128 (x, y) L seed = (lo, hi).
Proof.
  intros HL HH T. set (u := unmix lo). set (v := unmix ((- hi) mod 2 ^ 64)). assert (U : wd 64 u) by (apply unmix_wd, HL). assert (V : wd 64 v) by (apply unmix_wd, mod_wd; lia).
  assert (Q : exists q, v - u * X3.P4 - (L - seed) * X3.P2 = 4 * q).
  { unfold told in T. cbn [fst snd] in T. fold u v in T. clearbody u v. clear - T. change X3.P4 with (4 * 2412507310571957144 + 3). change X3.P2 with (4 * 3507366841724254931 + 3).
    exists ((v - u * (4 * 2412507310571957144 + 3) - (L - seed) * (4 * 3507366841724254931 + 3)) / 4). set (d := L - seed) in *. clearbody d. Z.div_mod_to_equations. lia. }
  destruct Q as [q Q]. set (x := (q * 14248390043380315961) mod 2 ^ 64). set (y := (u - x) mod 2 ^ 64).
  assert (X : wd 64 x) by (apply mod_wd; lia). assert (Y : wd 64 y) by (apply mod_wd; lia). exists x, y. split; [exact X|]. split; [exact Y|].
  assert (E1 : (x + y) mod 2 ^ 64 = u) by (unfold y; rewrite Zplus_mod_idemp_r; replace (x + (u - x)) with u by lia; apply Z.mod_small, U).
  assert (E2 : (x * X3.P1 + y * X3.P4 + (L - seed) * X3.P2) mod 2 ^ 64 = v).
  { rewrite <- (Z.mod_small v (2 ^ 64) V). unfold y. rewrite (Z.mod_eq (u - x)) by discriminate. unfold x at 1 2. rewrite (Z.mod_eq (q * 14248390043380315961)) by discriminate.
    set (m1 := (u - x) / 2 ^ 64). set (m2 := q * 14248390043380315961 / 2 ^ 64). clearbody m1 m2. clear - Q.
    revert Q. change X3.P1 with 0x9E3779B185EBCA87. change X3.P4 with 0x85EBCA77C2B2AE63. change X3.P2 with 0xC2B2AE3D27D4EB4F. intros Q.
    replace v with (4 * q + u * 0x85EBCA77C2B2AE63 + (L - seed) * 0xC2B2AE3D27D4EB4F) by lia.
    rewrite <- (Z_mod_plus_full (4 * q + u * 0x85EBCA77C2B2AE63 + (L - seed) * 0xC2B2AE3D27D4EB4F) (4 * 338060342210814327 * q - 4 * 437671385696716553 * m2 - m1 * 0x85EBCA77C2B2AE63)). f_equal. lia. }
  unfold X3.mid128. cbn [fst snd]. change X3.W with (2 ^ 64). rewrite E1, E2. unfold u, v. rewrite !avalanche_unmix by (trivial; apply mod_wd; lia). f_equal.
  rewrite Zminus_mod_idemp_r. replace (0 - - hi) with hi by lia. apply Z.mod_small, HH.
Qed.
(** ** 128 bits *)
Lemma forge128 s seed b lo hi : zlen b = 0 \/ 8 <= zlen b <= 96 -> wd 64 lo -> wd 64 hi -> told (lo, hi) = (32 + zlen b - seed) mod 4 ->
  exists w z, bytes_ok w /\ zlen w = 16 /\ bytes_ok z /\ zlen z = 16 /\ X3.short128 s seed (w ++ b ++ z) = (lo, hi).
Proof.
  intros A HL HH T. pose proof (zlen_nonneg b). destruct (solve128 lo hi (32 + zlen b) seed HL HH T) as (x & y & X & Y & E). destruct (accs128 s seed b x y A X Y) as (w & z & Bw & Lw & Bz & Lz & M).
  exists w, z. repeat (split; [assumption|]). unfold X3.short128. change (len (w ++ b ++ z)) with (zlen (w ++ b ++ z)). replace (zlen (w ++ b ++ z)) with (32 + zlen b) by (rewrite !zlen_app; lia). cbv zeta.
  replace (32 + zlen b =? 0) with false by lia. replace (32 + zlen b <=? 3) with false by lia. replace (32 + zlen b <=? 8) with false by lia. replace (32 + zlen b <=? 16) with false by lia.
  replace (32 + zlen b <=? 128) with true by lia. rewrite M. exact E.
Qed.
Lemma forge128_long s seed r lo hi : 97 <= zlen r <= 208 -> wd 64 lo -> wd 64 hi -> told (lo, hi) = (32 + zlen r - seed) mod 4 ->
  exists w, bytes_ok w /\ zlen w = 32 /\ X3.short128 s seed (w ++ r) = (lo, hi).
Proof.
  intros A HL HH T. destruct (solve128 lo hi (32 + zlen r) seed HL HH T) as (x & y & X & Y & E). destruct (accs128_long s seed r x y A X Y) as (w & Bw & Lw & M).
  exists w. repeat (split; [assumption|]). unfold X3.short128. change (len (w ++ r)) with (zlen (w ++ r)). replace (zlen (w ++ r)) with (32 + zlen r) by (rewrite !zlen_app; lia). cbv zeta.
  replace (32 + zlen r =? 0) with false by lia. replace (32 + zlen r <=? 3) with false by lia. replace (32 + zlen r <=? 8) with false by lia. replace (32 + zlen r <=? 16) with false by lia.
  replace (32 + zlen r <=? 128) with false by lia. rewrite M. exact E.
Qed.
