(** One input and two seeds: when the hashes can coincide (proofs for C108). *)
From Verif Require Import Base Mem Spec32 Spec64 Spec3 P_Base P_Spec P_X3_Base P_Inj P_Inj64 P_Inj3 P_Inj128 P_Mid.
From Coq Require Import Znumtheory.

(* ------------------------------------------------------------------ *)
(** ** XXH3 64-bit, 32, 64, 96 and 128 bytes: one factor of each product is 0 for one seed, the other for the other *)
Section Zero.
Context (s : list Z) (a b : Z).
Definition zblock (k : Z) : list Z := X3.bytes8 ((X3.rd8 s k + a) mod X3.W) ++ X3.bytes8 ((X3.rd8 s (k + 8) - b) mod X3.W).
(** the input of [32 n] bytes: the windows from the front, then those from the back *)
Definition zinput (n : Z) : list Z := concat (map (fun i => zblock (32 * i)) (upto n) ++ map (fun i => zblock (32 * i + 16)) (X3.down n)).
Lemma zblock_words k : X3.rd8 (zblock k) 0 = (X3.rd8 s k + a) mod X3.W /\ X3.rd8 (zblock k) 8 = (X3.rd8 s (k + 8) - b) mod X3.W.
Proof.
  unfold zblock. set (x := X3.bytes8 _). set (y := X3.bytes8 ((X3.rd8 s (k + 8) - b) mod X3.W)). split.
  - rewrite (rd8_at [] x y) by reflexivity. apply bytes8_val, mod_wd. lia.
  - rewrite <- (app_nil_r y). rewrite (rd8_at x y []) by reflexivity. apply bytes8_val, mod_wd. lia.
Qed.
Lemma zblock_zero k seed : seed = a \/ seed = b -> X3.mixStep s (zblock k) k seed = 0.
Proof.
  intros H. unfold X3.mixStep. destruct (zblock_words k) as [-> ->]. destruct H as [-> | ->]; rewrite Z.lxor_nilpotent.
  - rewrite Z.mul_0_l. reflexivity.
  - rewrite Z.mul_0_r. reflexivity.
Qed.
Lemma zchunks n i : 1 <= n <= 4 -> 0 <= i < n ->
  X3.chunk (zinput n) (16 * i) = zblock (32 * i) /\ X3.chunk (zinput n) (32 * n - 16 * i - 16) = zblock (32 * i + 16).
Proof.
  intros Hn Hi. assert (C : n = 1 \/ n = 2 \/ n = 3 \/ n = 4) by lia. assert (D : i = 0 \/ i = 1 \/ i = 2 \/ i = 3) by lia.
  unfold zinput. destruct C as [-> | [-> | [-> | ->]]]; destruct D as [-> | [-> | [-> | ->]]]; try lia; split; reflexivity.
Qed.
Lemma zinput_len n : 1 <= n <= 4 -> zlen (zinput n) = 32 * n.
Proof. intros Hn. assert (C : n = 1 \/ n = 2 \/ n = 3 \/ n = 4) by lia. unfold zinput. destruct C as [-> | [-> | [-> | ->]]]; reflexivity. Qed.
Lemma zinput_bytes n : bytes_ok (zinput n).
Proof.
  unfold zinput. apply Forall_concat, Forall_forall. intros l H. assert (B : exists k, l = zblock k).
  { apply in_app_iff in H. destruct H as [H|H]; apply in_map_iff in H; destruct H as (i & <- & _); eauto. }
  destruct B as [k ->]. apply bytes_ok_app; apply bytes8_ok.
Qed.
Lemma zinput_mid n seed : 1 <= n <= 4 -> seed = a \/ seed = b -> X3.mid17to128_64 s seed (zinput n) = (32 * n * X3.P1) mod X3.W.
Proof.
  intros Hn H. unfold X3.mid17to128_64. change (len (zinput n)) with (zlen (zinput n)). rewrite zinput_len by trivial. cbv zeta.
  replace ((32 * n - 1) / 32 + 1) with n by dlia.
  assert (G : forall l x, (forall i, In i l -> 0 <= i < n) -> 0 <= x < X3.W ->
    fold_left (fun acc i => (acc + X3.mixStep s (X3.chunk (zinput n) (16 * i)) (32 * i) seed + X3.mixStep s (X3.chunk (zinput n) (32 * n - 16 * i - 16)) (32 * i + 16) seed) mod X3.W) l x = x).
  { induction l as [|i l IH]; intros x F X; [reflexivity|]. cbn [fold_left]. destruct (zchunks n i Hn (F i (or_introl eq_refl))) as [-> ->]. rewrite !zblock_zero by trivial.
    rewrite !Z.add_0_r, Z.mod_small by exact X. apply IH; [|exact X]. intros j J. apply F. right. exact J. }
  apply G; [|apply Z.mod_pos_bound; reflexivity]. intros i I. apply in_down in I. exact I.
Qed.
Lemma zinput_short64 n : 1 <= n <= 4 -> X3.short64 s a (zinput n) = X3.short64 s b (zinput n).
Proof.
  intros Hn. unfold X3.short64. change (len (zinput n)) with (zlen (zinput n)). rewrite zinput_len by trivial. cbv zeta.
  replace (32 * n =? 0) with false by lia. replace (32 * n <=? 3) with false by lia. replace (32 * n <=? 8) with false by lia. replace (32 * n <=? 16) with false by lia.
  replace (32 * n <=? 128) with true by lia. rewrite !zinput_mid by auto. reflexivity.
Qed.
End Zero.

(* ------------------------------------------------------------------ *)
(** ** XXH3 64-bit, 16 bytes *)
Lemma lxor_add k v : 0 <= k -> 0 <= v -> (v / 2 ^ k) mod 2 = 0 -> Z.lxor v (2 ^ k) = v + 2 ^ k.
Proof.
  intros Hk Hv B. symmetry. apply Z.add_nocarry_lxor. apply Z.bits_inj'. intros n Hn. rewrite Z.land_spec, Z.bits_0, Z.pow2_bits_eqb by lia.
  destruct (Z.eqb_spec k n) as [<-|]; [|apply andb_false_r]. rewrite andb_true_r. rewrite Z.testbit_odd, Z.shiftr_div_pow2 by lia. rewrite <- Z.negb_even.
  rewrite Zeven_mod, B. reflexivity.
Qed.
Lemma lxor_sub k v : 0 <= k -> 0 <= v -> (v / 2 ^ k) mod 2 = 1 -> Z.lxor v (2 ^ k) = v - 2 ^ k.
Proof.
  intros Hk Hv B. assert (Pk : 0 < 2 ^ k) by (apply Z.pow_pos_nonneg; lia). assert (D : 2 ^ k <= v) by (destruct (Z.lt_ge_cases v (2 ^ k)) as [C|C]; [rewrite Z.div_small in B by lia; discriminate|exact C]).
  assert (E : v = Z.lxor (v - 2 ^ k) (2 ^ k)).
  { rewrite lxor_add; try lia. replace (v - 2 ^ k) with (v + (-1) * 2 ^ k) by lia. rewrite Z.div_add by lia. clear - B. set (u := v / 2 ^ k) in *. clearbody u. Z.div_mod_to_equations. lia. }
  rewrite E at 1. rewrite Z.lxor_assoc, Z.lxor_nilpotent, Z.lxor_0_r. reflexivity.
Qed.
Definition pal : Z := 2 ^ 63 + 2 ^ 7.
Lemma flip_up v : wd 64 v -> (v / 2 ^ 7) mod 2 = 0 -> Z.lxor v ((v + pal) mod 2 ^ 64) = pal.
Proof.
  intros W B. assert (W7 : wd 64 (Z.lxor v (2 ^ 7))) by (apply lxor_bound; [lia|exact W|split; [lia|reflexivity]]).
  replace ((v + pal) mod 2 ^ 64) with (Z.lxor (Z.lxor v (2 ^ 7)) (2 ^ (64 - 1))).
  - rewrite <- !Z.lxor_assoc, Z.lxor_nilpotent. reflexivity.
  - rewrite lxor_top_mod by (trivial; lia). rewrite lxor_add by (trivial; try lia; apply W). f_equal. unfold pal. change (64 - 1) with 63. lia.
Qed.
Lemma flip_down v : wd 64 v -> (v / 2 ^ 7) mod 2 = 1 -> Z.lxor v ((v - pal) mod 2 ^ 64) = pal.
Proof.
  intros W B. assert (W7 : wd 64 (Z.lxor v (2 ^ 7))) by (apply lxor_bound; [lia|exact W|split; [lia|reflexivity]]).
  replace ((v - pal) mod 2 ^ 64) with (Z.lxor (Z.lxor v (2 ^ 7)) (2 ^ (64 - 1))).
  - rewrite <- !Z.lxor_assoc, Z.lxor_nilpotent. reflexivity.
  - rewrite lxor_top_mod by (trivial; lia). rewrite lxor_sub by (trivial; try lia; apply W). unfold pal. change (64 - 1) with 63.
    replace (v - 2 ^ 7 + 2 ^ 63) with (v - (2 ^ 63 + 2 ^ 7) + 1 * 2 ^ 64) by lia. apply Z_mod_plus_full.
Qed.
Lemma pair16 s x y : bytes_ok s -> wd 64 x -> wd 64 y ->
  let a := Z.lxor (X3.rd8 s 24) (X3.rd8 s 32) in let b := Z.lxor (X3.rd8 s 40) (X3.rd8 s 48) in
  y = (x + pal) mod 2 ^ 64 -> (((a + x) mod 2 ^ 64) / 2 ^ 7) mod 2 = 0 -> (((b - x) mod 2 ^ 64) / 2 ^ 7) mod 2 = 1 ->
  let m := X3.bytes8 ((a + x) mod X3.W) ++ X3.bytes8 ((b - y) mod X3.W) in X3.short64 s x m = X3.short64 s y m.
Proof.
  intros Bs Wx Wy a b Y B1 B2 m. assert (LM : len m = 16) by reflexivity. unfold X3.short64. rewrite LM. cbn [Z.eqb Z.leb Z.compare Pos.compare Pos.compare_cont].
  unfold X3.h9to16_64. rewrite LM. change (16 - 8) with 8. cbv zeta. fold a b.
  assert (R1 : X3.rd8 m 0 = (a + x) mod X3.W).
  { unfold m. set (u := X3.bytes8 _). set (v := X3.bytes8 ((b - y) mod X3.W)). rewrite (rd8_at [] u v) by reflexivity. apply bytes8_val, mod_wd. lia. }
  assert (R2 : X3.rd8 m 8 = (b - y) mod X3.W).
  { unfold m. set (u := X3.bytes8 _). set (v := X3.bytes8 ((b - y) mod X3.W)). rewrite <- (app_nil_r v). rewrite (rd8_at u v []) by reflexivity. apply bytes8_val, mod_wd. lia. }
  rewrite R1, R2. change X3.W with (2 ^ 64). rewrite !Z.lxor_nilpotent. rewrite Z.mul_0_l, Z.mul_0_r.
  replace (Z.lxor ((b - x) mod 2 ^ 64) ((b - y) mod 2 ^ 64)) with pal.
  2: { symmetry. replace ((b - y) mod 2 ^ 64) with (((b - x) mod 2 ^ 64 - pal) mod 2 ^ 64); [apply flip_down; trivial; apply mod_wd; lia|].
    rewrite Y. rewrite Zminus_mod_idemp_l, Zminus_mod_idemp_r. f_equal. lia. }
  replace (Z.lxor ((a + y) mod 2 ^ 64) ((a + x) mod 2 ^ 64)) with pal.
  2: { symmetry. rewrite Z.lxor_comm. replace ((a + y) mod 2 ^ 64) with (((a + x) mod 2 ^ 64 + pal) mod 2 ^ 64); [apply flip_up; trivial; apply mod_wd; lia|].
    rewrite Y. rewrite Zplus_mod_idemp_l, Zplus_mod_idemp_r. f_equal. lia. }
  reflexivity.
Qed.

(* ------------------------------------------------------------------ *)
(** ** XXH3 128-bit, 17 to 240 bytes *)
Lemma mid128_seeds l h l' h' L x y : X3.mid128 (l, h) L x = X3.mid128 (l', h') L y -> x mod 4 = y mod 4.
Proof.
  unfold X3.mid128. cbn [fst snd]. change X3.W with (2 ^ 64). intros E. pose proof (f_equal fst E) as E1. pose proof (f_equal snd E) as E2. cbn [fst snd] in E1, E2. clear E.
  apply aval3_inj in E1; try (apply mod_wd; lia). apply (sub_inj 64) in E2; try lia.
  2, 3: unfold X3.avalanche; apply (xorshift_wd 64); try lia; apply (mod_wd 64); lia.
  apply aval3_inj in E2; try (apply mod_wd; lia). apply mod_eq_div in E1, E2; try lia. destruct E1 as [p E1], E2 as [q E2].
  change X3.P1 with 0x9E3779B185EBCA87 in *. change X3.P4 with 0x85EBCA77C2B2AE63 in *. change X3.P2 with 0xC2B2AE3D27D4EB4F in *.
  change (2 ^ 64) with 18446744073709551616 in *. Z.div_mod_to_equations. lia.
Qed.
Lemma short128_seeds s m x y : 17 <= zlen m <= 240 -> X3.short128 s x m = X3.short128 s y m -> x mod 4 = y mod 4.
Proof.
  intros L. unfold X3.short128. change (len m) with (zlen m). cbv zeta.
  replace (zlen m =? 0) with false by lia. replace (zlen m <=? 3) with false by lia. replace (zlen m <=? 8) with false by lia. replace (zlen m <=? 16) with false by lia.
  destruct (zlen m <=? 128).
  - destruct (X3.mid17to128_128 s x m), (X3.mid17to128_128 s y m). apply mid128_seeds.
  - destruct (X3.mid129to240_128 s x m), (X3.mid129to240_128 s y m). apply mid128_seeds.
Qed.

(** the input of 32 bytes for the seeds [x] and [x] with its top bit flipped: the products are 2^61 for [x] and 0 for the other *)
Definition top (x : Z) : Z := Z.lxor x (2 ^ 63).
Definition half (s : list Z) (x k : Z) : list Z :=
  X3.bytes8 (Z.lxor ((X3.rd8 s k + x) mod X3.W) (2 ^ 62)) ++ X3.bytes8 (Z.lxor ((X3.rd8 s (k + 8) - x) mod X3.W) (2 ^ 63)).
Definition pair32 (s : list Z) (x : Z) : list Z := half s x 0 ++ half s x 16.
Lemma half_words s x k : X3.rd8 (half s x k) 0 = Z.lxor ((X3.rd8 s k + x) mod X3.W) (2 ^ 62) /\ X3.rd8 (half s x k) 8 = Z.lxor ((X3.rd8 s (k + 8) - x) mod X3.W) (2 ^ 63).
Proof.
  unfold half. set (u := X3.bytes8 _). set (v := X3.bytes8 (Z.lxor _ (2 ^ 63))). split.
  - rewrite (rd8_at [] u v) by reflexivity. apply bytes8_val. apply lxor_bound; [lia|apply mod_wd; lia|split; [lia|reflexivity]].
  - rewrite <- (app_nil_r v). rewrite (rd8_at u v []) by reflexivity. apply bytes8_val. apply lxor_bound; [lia|apply mod_wd; lia|split; [lia|reflexivity]].
Qed.
Lemma cancel a b : Z.lxor (Z.lxor a b) a = b.
Proof. rewrite (Z.lxor_comm (Z.lxor a b)), <- Z.lxor_assoc, Z.lxor_nilpotent. apply Z.lxor_0_l. Qed.
Lemma top_mod x : wd 64 x -> top x = (x + 2 ^ 63) mod 2 ^ 64.
Proof. intros W. unfold top. change 63 with (64 - 1) at 1. rewrite lxor_top_mod by (trivial; lia). reflexivity. Qed.
Lemma minus_top k x : wd 64 x -> (k - top x) mod 2 ^ 64 = Z.lxor ((k - x) mod 2 ^ 64) (2 ^ 63).
Proof.
  intros W. rewrite top_mod by trivial. change (2 ^ 63) with (2 ^ (64 - 1)) at 2. rewrite lxor_top_mod by (try lia; apply mod_wd; lia).
  rewrite Zminus_mod_idemp_r, Zplus_mod_idemp_l. change (64 - 1) with 63. replace (k - x + 2 ^ 63) with (k - (x + 2 ^ 63) + 1 * 2 ^ 64) by lia. symmetry. apply Z_mod_plus_full.
Qed.
Lemma half_mix s x k : wd 64 x -> X3.mixStep s (half s x k) k x = 2 ^ 61 /\ X3.mixStep s (half s x k) k (top x) = 0.
Proof.
  intros W. unfold X3.mixStep. destruct (half_words s x k) as [-> ->]. change X3.W with (2 ^ 64). rewrite !cancel. split; [reflexivity|].
  rewrite minus_top by trivial. rewrite Z.lxor_nilpotent, Z.mul_0_r. reflexivity.
Qed.
(** the low 62 bits of the sum of the two words do not depend on the seed *)
Lemma half_sum s x k : exists q, X3.rd8 (half s x k) 0 + X3.rd8 (half s x k) 8 = X3.rd8 s k + X3.rd8 s (k + 8) + q * 2 ^ 62.
Proof.
  destruct (half_words s x k) as [-> ->]. set (A := X3.rd8 s k). set (B := X3.rd8 s (k + 8)). change X3.W with (2 ^ 64).
  assert (G : forall v d, (d = 2 ^ 62 \/ d = 2 ^ 63) -> exists q, Z.lxor (v mod 2 ^ 64) d = v + q * 2 ^ 62).
  { intros v d D. exists ((Z.lxor (v mod 2 ^ 64) d - v) / 2 ^ 62). assert (M : (Z.lxor (v mod 2 ^ 64) d) mod 2 ^ 62 = v mod 2 ^ 62).
    { change (low62 (Z.lxor (v mod 2 ^ 64) d) = low62 v). rewrite low62_lxor, low62_mod. replace (low62 d) with 0 by (destruct D as [-> | ->]; reflexivity). apply Z.lxor_0_r. }
    Z.div_mod_to_equations. lia. }
  destruct (G (A + x) (2 ^ 62) (or_introl eq_refl)) as [q1 ->]. destruct (G (B - x) (2 ^ 63) (or_intror eq_refl)) as [q2 ->]. exists (q1 + q2). lia.
Qed.
Lemma bit61 v v' q : v = v' + q * 2 ^ 62 -> (v / 2 ^ 61) mod 2 = (v' / 2 ^ 61) mod 2.
Proof. intros ->. replace (q * 2 ^ 62) with (q * 2 * 2 ^ 61) by lia. rewrite Z.div_add by lia. apply Z_mod_plus_full. Qed.
Lemma bit61_mod v v' q : v = v' + q * 2 ^ 62 -> (v mod 2 ^ 64 / 2 ^ 61) mod 2 = (v' / 2 ^ 61) mod 2.
Proof. intros E. apply (bit61 _ _ (q - 4 * (v / 2 ^ 64))). rewrite Z.mod_eq by discriminate. rewrite E at 1. set (u := v / 2 ^ 64). clearbody u. lia. Qed.
Lemma mid128_flip l h L x : wd 64 l -> wd 64 h -> wd 64 x -> (l / 2 ^ 61) mod 2 <> (h / 2 ^ 61) mod 2 ->
  X3.mid128 (Z.lxor l (2 ^ 61), Z.lxor h (2 ^ 61)) L x = X3.mid128 (l, h) L (top x).
Proof.
  intros Wl Wh Wx N. assert (T : exists t, top x = x + 2 ^ 63 * t /\ (t = 1 \/ t = -1)).
  { unfold top. change 63 with (64 - 1). rewrite lxor_top by (trivial; lia). destruct (x <? 2 ^ (64 - 1)); [exists 1|exists (-1)]; change (64 - 1) with 63; lia. }
  destruct T as (t & -> & T). assert (S : exists d, Z.lxor l (2 ^ 61) = l + 2 ^ 61 * d /\ Z.lxor h (2 ^ 61) = h - 2 ^ 61 * d /\ (d = 1 \/ d = -1)).
  { assert (Bl := Z.mod_pos_bound (l / 2 ^ 61) 2 ltac:(lia)). assert (Bh := Z.mod_pos_bound (h / 2 ^ 61) 2 ltac:(lia)).
    destruct (Z.eq_dec ((l / 2 ^ 61) mod 2) 0) as [E|E].
    - exists 1. rewrite lxor_add, lxor_sub; try lia; try apply Wl; try apply Wh.
    - exists (-1). rewrite lxor_sub, lxor_add; try lia; try apply Wl; try apply Wh. }
  destruct S as (d & -> & -> & D). unfold X3.mid128. cbn [fst snd]. change X3.W with (2 ^ 64). f_equal.
  - f_equal. f_equal. lia.
  - do 3 f_equal. change X3.P1 with 0x9E3779B185EBCA87 in *. change X3.P4 with 0x85EBCA77C2B2AE63 in *. change X3.P2 with 0xC2B2AE3D27D4EB4F in *.
    assert (M : forall u v q, u = v + q * 2 ^ 64 -> u mod 2 ^ 64 = v mod 2 ^ 64) by (intros u v q ->; apply Z_mod_plus_full).
    apply (M _ _ ((437671385696716553 * d + 0xC2B2AE3D27D4EB4F * t) / 2)). destruct D as [-> | ->], T as [-> | ->]; lia.
Qed.
Lemma pair32_short128 s x : bytes_ok s -> wd 64 x ->
  Z.odd ((Z.lxor ((32 * X3.P1) mod X3.W) ((X3.rd8 s 16 + X3.rd8 s 24) mod X3.W)) / 2 ^ 61) <> Z.odd ((X3.rd8 s 0 + X3.rd8 s 8) / 2 ^ 61) ->
  X3.short128 s x (pair32 s x) = X3.short128 s (top x) (pair32 s x).
Proof.
  intros Bs W N. unfold X3.short128. change (len (pair32 s x)) with 32. cbn [Z.eqb Z.leb Z.compare Pos.compare Pos.compare_cont].
  unfold X3.mid17to128_128. change (len (pair32 s x)) with 32. change (X3.down ((32 - 1) / 32 + 1)) with [0]. cbn [fold_left].
  unfold X3.mixTwoChunks. cbn [fst snd]. change (X3.chunk (pair32 s x) (32 - 16 * 0 - 16)) with (half s x 16). change (X3.chunk (pair32 s x) (16 * 0)) with (half s x 0).
  change (32 * 0) with 0. change (0 + 16) with 16. destruct (half_mix s x 0 W) as [-> ->]. destruct (half_mix s x 16 W) as [-> ->].
  destruct (half_sum s x 0) as [q1 E1]. destruct (half_sum s x 16) as [q2 E2]. rewrite E1, E2. change (16 + 8) with 24 in *. change (0 + 8) with 8 in *.
  set (c2 := (X3.rd8 s 0 + X3.rd8 s 8 + q1 * 2 ^ 62) mod X3.W). set (c := (X3.rd8 s 16 + X3.rd8 s 24 + q2 * 2 ^ 62) mod X3.W).
  set (A := (32 * X3.P1) mod X3.W) in *. assert (A1 : (A + 2 ^ 61) mod X3.W = Z.lxor A (2 ^ 61)) by reflexivity. assert (A0 : (A + 0) mod X3.W = A) by reflexivity.
  rewrite A1, A0. change ((0 + 2 ^ 61) mod X3.W) with (2 ^ 61). change ((0 + 0) mod X3.W) with 0. rewrite Z.lxor_0_l.
  rewrite (Z.lxor_assoc A), (Z.lxor_comm (2 ^ 61) c), <- (Z.lxor_assoc A), (Z.lxor_comm (2 ^ 61) c2).
  assert (Wc : wd 64 c) by (apply (mod_wd 64); lia). assert (Wc2 : wd 64 c2) by (apply (mod_wd 64); lia). assert (WA : wd 64 A) by (apply (mod_wd 64); lia).
  apply mid128_flip; trivial; [apply lxor_bound; trivial; lia|]. intros F. apply N. clear N.
  assert (P : forall u, Z.odd u = (u mod 2 =? 1)) by (intros u; rewrite Zmod_odd; destruct (Z.odd u); reflexivity).
  assert (B2 : Z.odd (c2 / 2 ^ 61) = Z.odd ((X3.rd8 s 0 + X3.rd8 s 8) / 2 ^ 61)).
  { rewrite !P. f_equal. unfold c2. change X3.W with (2 ^ 64). apply (bit61_mod _ _ q1). reflexivity. }
  rewrite <- B2. assert (B1 : Z.odd (Z.lxor A c / 2 ^ 61) = Z.odd (Z.lxor A ((X3.rd8 s 16 + X3.rd8 s 24) mod X3.W) / 2 ^ 61)).
  { rewrite <- !Z.shiftr_div_pow2 by lia. rewrite <- !Z.testbit_odd, !Z.lxor_spec. f_equal. rewrite !Z.testbit_odd, !Z.shiftr_div_pow2 by lia. rewrite !P. f_equal.
    unfold c. change X3.W with (2 ^ 64). rewrite (bit61_mod _ _ q2 eq_refl). symmetry. apply (bit61_mod _ _ 0). lia. }
  rewrite <- B1, !P, F. reflexivity.
Qed.
