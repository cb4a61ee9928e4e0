(** Bijectivity of the mixing steps and collision freedom of the specification functions on structured pairs of inputs. *)
From Verif Require Import Base Mem Spec32 Spec64 Spec3 P_Base P_Spec.
From Coq Require Import Znumtheory Zpow_facts.

(* ------------------------------------------------------------------ *)
(** ** Elementary steps *)
Definition wd (w x : Z) : Prop := 0 <= x < 2 ^ w.
Lemma pow_pos w : 0 <= w -> 0 < 2 ^ w. Proof. intros; apply Z.pow_pos_nonneg; lia. Qed.
Lemma mod_wd w x : 0 <= w -> wd w (x mod 2 ^ w). Proof. intros; apply Z.mod_pos_bound, pow_pos; lia. Qed.
Lemma wd_eq_mod w x y : 0 <= w -> wd w x -> wd w y -> (2 ^ w | x - y) -> x = y.
Proof.
  intros Hw Hx Hy [k E]. unfold wd in *. pose proof (pow_pos w Hw). assert (k = 0) by nia. subst k. lia.
Qed.
Lemma mod_eq_div w a b : 0 <= w -> a mod 2 ^ w = b mod 2 ^ w -> (2 ^ w | a - b).
Proof.
  intros Hw E. pose proof (pow_pos w Hw). exists (a / 2 ^ w - b / 2 ^ w).
  pose proof (Z_div_mod_eq_full a (2 ^ w)). pose proof (Z_div_mod_eq_full b (2 ^ w)). nia.
Qed.
Lemma odd_coprime w K : 0 <= w -> Z.odd K = true -> rel_prime (2 ^ w) K.
Proof.
  intros Hw Ho. apply rel_prime_sym, rel_prime_Zpower_r; [lia|]. apply rel_prime_sym. apply Zis_gcd_intro; [exists 2; lia|exists K; lia|].
  intros d [a Ha] [b Hb].
  assert (Od : Z.odd d = true) by (rewrite Hb, Z.odd_mul in Ho; apply andb_true_iff in Ho; tauto).
  assert (Ea : Z.even a = true).
  { pose proof (f_equal Z.even Ha) as Q. rewrite Z.even_mul in Q. change (Z.even 2) with true in Q. symmetry in Q.
    rewrite <- Z.negb_odd in Q. rewrite <- (Z.negb_odd d), Od in Q. rewrite Z.negb_odd, orb_false_r in Q. exact Q. }
  apply Z.even_spec in Ea. destruct Ea as [e Ee]. exists e. nia.
Qed.
Lemma mul_inj w K x y : 0 <= w -> Z.odd K = true -> wd w x -> wd w y -> (x * K) mod 2 ^ w = (y * K) mod 2 ^ w -> x = y.
Proof.
  intros Hw Ho Hx Hy E. apply (wd_eq_mod w); trivial. apply mod_eq_div in E; [|lia].
  replace (x * K - y * K) with (K * (x - y)) in E by lia. apply Gauss in E; [exact E|]. apply odd_coprime; assumption.
Qed.
Lemma add_inj w k x y : 0 <= w -> wd w x -> wd w y -> (x + k) mod 2 ^ w = (y + k) mod 2 ^ w -> x = y.
Proof.
  intros Hw Hx Hy E. apply (wd_eq_mod w); trivial. apply mod_eq_div in E; [|lia].
  replace (x - y) with (x + k - (y + k)) by lia. exact E.
Qed.
(** affine in the word, the accumulator being fixed *)
Lemma add_mul_inj w K k x y : 0 <= w -> Z.odd K = true -> wd w x -> wd w y -> (k + x * K) mod 2 ^ w = (k + y * K) mod 2 ^ w -> x = y.
Proof.
  intros Hw Ho Hx Hy E. apply (mul_inj w K); trivial. pose proof (pow_pos w Hw) as PP.
  apply (add_inj w k); try (apply mod_wd; lia); try lia.
  rewrite !Z.add_mod_idemp_l by lia. rewrite (Z.add_comm (x * K)), (Z.add_comm (y * K)). exact E.
Qed.
Lemma sub_inj w k x y : 0 <= w -> wd w x -> wd w y -> (k - x) mod 2 ^ w = (k - y) mod 2 ^ w -> x = y.
Proof.
  intros Hw Hx Hy E. apply (wd_eq_mod w); trivial. apply mod_eq_div in E; [|lia].
  destruct E as [q E]. exists (- q). lia.
Qed.
Lemma lxor_inj k x y : Z.lxor k x = Z.lxor k y -> x = y.
Proof.
  intros E. rewrite <- (Z.lxor_0_l x), <- (Z.lxor_0_l y), <- (Z.lxor_nilpotent k), !Z.lxor_assoc, E. reflexivity.
Qed.
Lemma lxor_inj_r k x y : Z.lxor x k = Z.lxor y k -> x = y.
Proof. rewrite (Z.lxor_comm x), (Z.lxor_comm y). apply lxor_inj. Qed.
Lemma xorshift_inj s x y : 0 < s -> 0 <= x -> 0 <= y -> xorshift x s = xorshift y s -> x = y.
Proof.
  unfold xorshift, shift_right. intros Hs Hx Hy E. rewrite <- !Z.shiftr_div_pow2 in E by lia.
  assert (D : Z.lxor x y = Z.shiftr (Z.lxor x y) s).
  { rewrite Z.shiftr_lxor. apply (lxor_inj (Z.lxor y (Z.shiftr x s))).
    transitivity (Z.lxor x (Z.shiftr x s)).
    - apply Z.bits_inj'. intros i Hi. rewrite !Z.lxor_spec. destruct (Z.testbit x i), (Z.testbit y i), (Z.testbit (Z.shiftr x s) i); reflexivity.
    - rewrite E. apply Z.bits_inj'. intros i Hi. rewrite !Z.lxor_spec.
      destruct (Z.testbit (Z.shiftr y s) i), (Z.testbit y i), (Z.testbit (Z.shiftr x s) i); reflexivity. }
  apply Z.lxor_eq. assert (N : 0 <= Z.lxor x y) by (apply Z.lxor_nonneg; lia).
  set (d := Z.lxor x y) in *. clearbody d. rewrite Z.shiftr_div_pow2 in D by lia.
  destruct (Z.eq_dec d 0) as [|Hd]; [assumption|].
  pose proof (Z.div_lt d (2 ^ s) ltac:(lia)) as Q. assert (1 < 2 ^ s) by (apply Z.pow_gt_1; lia). lia.
Qed.
Lemma xorshift_wd w s x : 0 <= w -> 0 <= s -> wd w x -> wd w (xorshift x s).
Proof.
  intros Hw Hs Hx. unfold xorshift, shift_right. apply lxor_bound; trivial. unfold wd in *. pose proof (pow_pos s Hs).
  split; [apply Z.div_pos; lia|]. apply Z.div_lt_upper_bound; nia.
Qed.
Lemma rol_eq w x s : 0 < s < w -> rol w x s = (x mod 2 ^ (w - s)) * 2 ^ s + x / 2 ^ (w - s).
Proof.
  intros Hs. unfold rol. f_equal. replace (2 ^ w) with (2 ^ (w - s) * 2 ^ s) by (rewrite <- Z.pow_add_r by lia; f_equal; lia).
  apply Zmult_mod_distr_r.
Qed.
Lemma rol_wd w x s : 0 < s < w -> wd w x -> wd w (rol w x s).
Proof. intros. apply rot_range; assumption. Qed.
Lemma rol_inj w s x y : 0 < s < w -> wd w x -> wd w y -> rol w x s = rol w y s -> x = y.
Proof.
  intros Hs Hx Hy E. rewrite !rol_eq in E by lia. unfold wd in *.
  pose proof (pow_pos s ltac:(lia)) as Ps. pose proof (pow_pos (w - s) ltac:(lia)) as Pw.
  assert (PW : 2 ^ w = 2 ^ (w - s) * 2 ^ s) by (rewrite <- Z.pow_add_r by lia; f_equal; lia).
  assert (Bx : 0 <= x / 2 ^ (w - s) < 2 ^ s) by (split; [apply Z.div_pos; lia|apply Z.div_lt_upper_bound; nia]).
  assert (By : 0 <= y / 2 ^ (w - s) < 2 ^ s) by (split; [apply Z.div_pos; lia|apply Z.div_lt_upper_bound; nia]).
  pose proof (Z_div_mod_eq_full x (2 ^ (w - s))) as Ex. pose proof (Z_div_mod_eq_full y (2 ^ (w - s))) as Ey.
  assert (x / 2 ^ (w - s) = y / 2 ^ (w - s) /\ x mod 2 ^ (w - s) = y mod 2 ^ (w - s)) as [E1 E2].
  { generalize dependent (x / 2 ^ (w - s)). generalize dependent (y / 2 ^ (w - s)).
    generalize dependent (x mod 2 ^ (w - s)). generalize dependent (y mod 2 ^ (w - s)). intros. clear - E Bx By Ps. assert (z0 = z) by nia. lia. }
  rewrite Ex, Ey, E1, E2. reflexivity.
Qed.

(* ------------------------------------------------------------------ *)
(** ** Folds *)
Section Folds.
Context {B : Type} (P : Z -> Prop) (Q : B -> Prop) (f : Z -> B -> Z).
Hypothesis Pf : forall a b, P a -> Q b -> P (f a b).
Hypothesis If : forall a a' b, P a -> P a' -> Q b -> f a b = f a' b -> a = a'.
Lemma fold_P l a : Forall Q l -> P a -> P (fold_left f l a).
Proof. intros F; revert a; induction F; intros a Ha; cbn [fold_left]; auto. Qed.
Lemma fold_inj l a a' : Forall Q l -> P a -> P a' -> fold_left f l a = fold_left f l a' -> a = a'.
Proof. intros F; revert a a'; induction F as [|b l Hb F IH]; intros a a' Ha Ha' E; cbn [fold_left] in E; [exact E|]. apply IH in E; auto. eapply If; eassumption. Qed.
Hypothesis Ib : forall a b b', P a -> Q b -> Q b' -> f a b = f a b' -> b = b'.
Lemma fold_mid l1 b b' l2 a : Forall Q l1 -> Forall Q l2 -> Q b -> Q b' -> P a ->
  fold_left f (l1 ++ b :: l2) a = fold_left f (l1 ++ b' :: l2) a -> b = b'.
Proof.
  intros F1 F2 Hb Hb' Ha E. rewrite !fold_left_app in E. cbn [fold_left] in E.
  pose proof (fold_P l1 a F1 Ha). apply fold_inj in E; auto. eapply Ib; [| | |exact E]; auto.
Qed.
End Folds.

Lemma fold_map {A B C} (f : A -> B -> A) (g : C -> B) l a : fold_left f (map g l) a = fold_left (fun a x => f a (g x)) l a.
Proof. revert a. induction l; intros; cbn [map fold_left]; auto. Qed.
(** equal outside one place *)
Lemma zslice_outside (a w w' b : list Z) o n : zlen w = zlen w' -> 0 <= o -> 0 <= n -> o + n <= zlen (a ++ w ++ b) ->
  o + n <= zlen a \/ zlen a + zlen w <= o -> zslice (a ++ w ++ b) o n = zslice (a ++ w' ++ b) o n.
Proof.
  intros L Ho Hn Hb. pose proof (zlen_nonneg a). pose proof (zlen_nonneg w). pose proof (zlen_nonneg b). rewrite !zlen_app in Hb. intros [H2|H2].
  - rewrite !(zslice_app_l a) by lia. reflexivity.
  - rewrite !(zslice_app_r a) by llia. rewrite (zslice_app_r w), (zslice_app_r w') by llia. rewrite L. reflexivity.
Qed.
Lemma zslice_inside (a w b : list Z) : zslice (a ++ w ++ b) (zlen a) (zlen w) = w.
Proof.
  pose proof (zlen_nonneg a). pose proof (zlen_nonneg w). pose proof (zlen_nonneg b).
  rewrite zslice_app_r by llia. rewrite Z.sub_diag, zslice_app_l by lia. apply zslice_all. reflexivity.
Qed.

(* ------------------------------------------------------------------ *)
(** ** XXH32 *)
Ltac odd := match goal with |- Z.odd _ = true => vm_compute; reflexivity end.
Lemma aval32_inj x y : wd 32 x -> wd 32 y -> X32.avalanche x = X32.avalanche y -> x = y.
Proof.
  unfold X32.avalanche. change X32.W with (2 ^ 32). intros Hx Hy E.
  apply xorshift_inj in E; try apply (mod_wd 32); try lia.
  apply (mul_inj 32) in E; try odd; try lia; try (apply xorshift_wd; try lia; apply mod_wd; lia).
  apply xorshift_inj in E; try apply (mod_wd 32); try lia.
  apply (mul_inj 32) in E; try odd; try lia; try (apply xorshift_wd; trivial; lia).
  apply xorshift_inj in E; trivial; try lia; [apply Hx|apply Hy].
Qed.
Definition lane4v (acc v : Z) : Z := (rol 32 ((acc + v * X32.P3) mod X32.W) 17 * X32.P4) mod X32.W.
Lemma round32_wd a v : wd 32 (X32.round a v). Proof. apply (mod_wd 32). lia. Qed.
Lemma round32_inj_v a v v' : wd 32 v -> wd 32 v' -> X32.round a v = X32.round a v' -> v = v'.
Proof.
  unfold X32.round. change X32.W with (2 ^ 32). intros Hv Hv' E.
  apply (mul_inj 32) in E; try odd; try lia; try (apply rol_wd; [lia|apply mod_wd; lia]).
  apply (rol_inj 32) in E; try lia; try (apply mod_wd; lia). apply (add_mul_inj 32) in E; trivial; try lia; odd.
Qed.
Lemma round32_inj_a a a' v : wd 32 a -> wd 32 a' -> X32.round a v = X32.round a' v -> a = a'.
Proof.
  unfold X32.round. change X32.W with (2 ^ 32). intros Hv Hv' E.
  apply (mul_inj 32) in E; try odd; try lia; try (apply rol_wd; [lia|apply mod_wd; lia]).
  apply (rol_inj 32) in E; try lia; try (apply mod_wd; lia). apply (add_inj 32) in E; trivial; lia.
Qed.
Lemma lane4v_wd a v : wd 32 (lane4v a v). Proof. apply (mod_wd 32). lia. Qed.
Lemma lane4v_inj_v a v v' : wd 32 v -> wd 32 v' -> lane4v a v = lane4v a v' -> v = v'.
Proof.
  unfold lane4v. change X32.W with (2 ^ 32). intros Hv Hv' E.
  apply (mul_inj 32) in E; try odd; try lia; try (apply rol_wd; [lia|apply mod_wd; lia]).
  apply (rol_inj 32) in E; try lia; try (apply mod_wd; lia). apply (add_mul_inj 32) in E; trivial; try lia; odd.
Qed.
Lemma lane4v_inj_a a a' v : wd 32 a -> wd 32 a' -> lane4v a v = lane4v a' v -> a = a'.
Proof.
  unfold lane4v. change X32.W with (2 ^ 32). intros Hv Hv' E.
  apply (mul_inj 32) in E; try odd; try lia; try (apply rol_wd; [lia|apply mod_wd; lia]).
  apply (rol_inj 32) in E; try lia; try (apply mod_wd; lia). apply (add_inj 32) in E; trivial; lia.
Qed.
Lemma lane1_wd a v : wd 32 (X32.lane1 a v). Proof. apply (mod_wd 32). lia. Qed.
Lemma byte_wd b w : byte_ok b -> 8 <= w -> wd w b.
Proof. unfold byte_ok, wd. intros. pose proof (Z.pow_le_mono_r 2 8 w). change (2 ^ 8) with 256 in *. lia. Qed.
Lemma lane1_inj_v a v v' : byte_ok v -> byte_ok v' -> X32.lane1 a v = X32.lane1 a v' -> v = v'.
Proof.
  unfold X32.lane1. change X32.W with (2 ^ 32). intros Hv Hv' E.
  apply (mul_inj 32) in E; try odd; try lia; try (apply rol_wd; [lia|apply mod_wd; lia]).
  apply (rol_inj 32) in E; try lia; try (apply mod_wd; lia). apply (add_mul_inj 32) in E; trivial; try lia; try odd; apply byte_wd; trivial; lia.
Qed.
Lemma lane1_inj_a a a' v : wd 32 a -> wd 32 a' -> X32.lane1 a v = X32.lane1 a' v -> a = a'.
Proof.
  unfold X32.lane1. change X32.W with (2 ^ 32). intros Hv Hv' E.
  apply (mul_inj 32) in E; try odd; try lia; try (apply rol_wd; [lia|apply mod_wd; lia]).
  apply (rol_inj 32) in E; try lia; try (apply mod_wd; lia). apply (add_inj 32) in E; trivial; lia.
Qed.

(** words of [n] bytes, then the remaining bytes *)
Definition words (n : Z) (r : list Z) : list Z := map (fun i => le_val (zslice r (n * i) n)) (upto (zlen r / n)).
Definition rest (n : Z) (r : list Z) : list Z := zslice r (n * (zlen r / n)) (zlen r - n * (zlen r / n)).
Lemma upto_add k n : 0 <= k -> 0 <= n -> upto (k + n) = upto k ++ map (Z.add k) (upto n).
Proof.
  intros Hk. revert n. apply (natlike_ind (fun n => upto (k + n) = upto k ++ map (Z.add k) (upto n))).
  - rewrite Z.add_0_r. change (upto 0) with (@nil Z). cbn [map]. rewrite app_nil_r. reflexivity.
  - intros n Hn IH. replace (k + Z.succ n) with (k + n + 1) by lia. change (Z.succ n) with (n + 1).
    rewrite !upto_S, map_app, app_assoc, <- IH by lia. reflexivity.
Qed.
Lemma in_upto n i : In i (upto n) -> 0 <= i < n.
Proof. unfold upto. intros I. apply in_map_iff in I. destruct I as (k & <- & I). apply in_seq in I. lia. Qed.
Lemma words_app n k a b : 0 < n -> zlen a = n * k -> words n (a ++ b) = words n a ++ words n b.
Proof.
  intros Hn L. pose proof (zlen_nonneg a). pose proof (zlen_nonneg b). assert (Hk : 0 <= k) by nia. unfold words. rewrite zlen_app, L.
  replace (n * k + zlen b) with (zlen b + k * n) by lia. rewrite Z.div_add by lia. rewrite (Z.mul_comm n k), Z.div_mul by lia.
  pose proof (Z.div_pos (zlen b) n ltac:(lia) ltac:(lia)). pose proof (Z.mul_div_le (zlen b) n ltac:(lia)).
  rewrite (Z.add_comm _ k), upto_add, map_app by lia. f_equal.
  - apply map_ext_in. intros i Hi. apply in_upto in Hi. rewrite zslice_app_l by nia. reflexivity.
  - rewrite map_map. apply map_ext_in. intros i Hi. apply in_upto in Hi. rewrite zslice_app_r by nia. do 2 f_equal. lia.
Qed.
Lemma rest_app n k a b : 0 < n -> zlen a = n * k -> rest n (a ++ b) = rest n b.
Proof.
  intros Hn L. pose proof (zlen_nonneg a). pose proof (zlen_nonneg b). assert (Hk : 0 <= k) by nia. unfold rest. rewrite zlen_app, L.
  replace (n * k + zlen b) with (zlen b + k * n) by lia. rewrite Z.div_add by lia.
  pose proof (Z.div_pos (zlen b) n ltac:(lia) ltac:(lia)). pose proof (Z.mul_div_le (zlen b) n ltac:(lia)).
  rewrite zslice_app_r by nia. f_equal; nia.
Qed.
Lemma words_1 n w : 0 < n -> zlen w = n -> words n w = [le_val w].
Proof.
  intros Hn L. unfold words. rewrite L, Z.div_same by lia. cbn [upto map]. change (upto 1) with [0]. cbn [map]. rewrite Z.mul_0_r, zslice_all by lia. reflexivity.
Qed.
Lemma words_wd n r : 0 < n -> bytes_ok r -> Forall (wd (8 * n)) (words n r).
Proof.
  intros Hn B. apply Forall_forall. intros x I. apply in_map_iff in I. destruct I as (i & <- & I). apply in_upto in I.
  pose proof (zlen_nonneg r). pose proof (Z.mul_div_le (zlen r) n ltac:(lia)).
  pose proof (le_val_bound (zslice r (n * i) n) (bytes_ok_zslice _ _ _ B)) as Q. rewrite zlen_zslice in Q by nia. exact Q.
Qed.
Lemma rest_bytes n r : bytes_ok r -> bytes_ok (rest n r). Proof. apply bytes_ok_zslice. Qed.
Lemma rest_len n r : 0 < n -> 0 <= zlen (rest n r) < n.
Proof.
  intros Hn. unfold rest. pose proof (zlen_nonneg r). pose proof (Z.mul_div_le (zlen r) n ltac:(lia)). pose proof (Z.div_pos (zlen r) n ltac:(lia) ltac:(lia)).
  pose proof (Z.mul_succ_div_gt (zlen r) n ltac:(lia)). rewrite zlen_zslice by nia. nia.
Qed.
(** a short list has no word *)
Lemma words_short n r : 0 < n -> zlen r < n -> words n r = [] /\ rest n r = r.
Proof.
  intros Hn L. pose proof (zlen_nonneg r). unfold words, rest. rewrite Z.div_small by lia. rewrite upto_0 by lia. split; [reflexivity|].
  rewrite Z.mul_0_r, Z.sub_0_r. apply zslice_all. reflexivity.
Qed.

Lemma tail32_eq acc r : X32.tail acc r = fold_left X32.lane1 (rest 4 r) (fold_left lane4v (words 4 r) acc).
Proof.
  unfold X32.tail, words, rest. change (len r) with (zlen r). rewrite seg_zslice. f_equal. rewrite fold_map.
  apply fold_upto_ext. intros i a Hi. unfold X32.lane4, lane4v. rewrite LE_le_val, seg_zslice. replace (4 * i + 4 - 4 * i) with 4 by lia. reflexivity.
Qed.
Lemma tail32_wd a r : bytes_ok r -> wd 32 a -> wd 32 (X32.tail a r).
Proof.
  intros B Ha. rewrite tail32_eq. apply (fold_P (wd 32) byte_ok); [intros; apply lane1_wd|apply rest_bytes, B|].
  apply (fold_P (wd 32) (wd 32)); trivial; [intros; apply lane4v_wd|apply (words_wd 4); trivial; lia].
Qed.
Lemma tail32_inj a a' r : bytes_ok r -> wd 32 a -> wd 32 a' -> X32.tail a r = X32.tail a' r -> a = a'.
Proof.
  intros B Ha Ha' E. rewrite !tail32_eq in E.
  assert (F : Forall (wd 32) (words 4 r)) by (apply (words_wd 4); trivial; lia).
  eapply (fold_inj (wd 32) byte_ok) in E; [| | |apply rest_bytes, B| |].
  - eapply (fold_inj (wd 32) (wd 32)) in E; trivial; [intros; apply lane4v_wd|intros; eapply lane4v_inj_a; eassumption].
  - intros; apply lane1_wd.
  - intros; eapply lane1_inj_a; eassumption.
  - apply (fold_P (wd 32) (wd 32)); trivial. intros; apply lane4v_wd.
  - apply (fold_P (wd 32) (wd 32)); trivial. intros; apply lane4v_wd.
Qed.
(** one word of the tail *)
Lemma tail32_word acc k a w w' b : zlen a = 4 * k -> zlen w = 4 -> zlen w' = 4 -> bytes_ok a -> bytes_ok w -> bytes_ok w' -> bytes_ok b -> wd 32 acc ->
  X32.tail acc (a ++ w ++ b) = X32.tail acc (a ++ w' ++ b) -> w = w'.
Proof.
  intros La Lw Lw' Ba Bw Bw' Bb Ha E. rewrite !tail32_eq in E.
  rewrite !(rest_app 4 k a), !(rest_app 4 1 _ b), !(words_app 4 k a), !(words_app 4 1 _ b), !(words_1 4 w), !(words_1 4 w') in E by lia.
  assert (Fa : Forall (wd 32) (words 4 a)) by (apply (words_wd 4); trivial; lia).
  assert (Fb : Forall (wd 32) (words 4 b)) by (apply (words_wd 4); trivial; lia).
  pose proof (le_val_w32 w Bw Lw) as Ww. pose proof (le_val_w32 w' Bw' Lw') as Ww'.
  apply le_val_inj; trivial; [lia|]. cbn [app] in E.
  assert (F : forall v, wd 32 v -> Forall (wd 32) (words 4 a ++ v :: words 4 b)) by (intros; apply Forall_app; split; [|constructor]; trivial).
  eapply (fold_inj (wd 32) byte_ok) in E; [| | |apply rest_bytes, Bb| |].
  - eapply (fold_mid (wd 32) (wd 32)) in E; trivial; [intros; apply lane4v_wd|intros; eapply lane4v_inj_a; eassumption|intros; eapply lane4v_inj_v; eassumption].
  - intros; apply lane1_wd.
  - intros; eapply lane1_inj_a; eassumption.
  - apply (fold_P (wd 32) (wd 32)); auto. intros; apply lane4v_wd.
  - apply (fold_P (wd 32) (wd 32)); auto. intros; apply lane4v_wd.
Qed.
(** the four accumulators *)
Definition acc4 (w : Z) (a : list Z) : Prop := length a = 4%nat /\ Forall (wd w) a.
(** equal accumulators except the [j]-th *)
Definition dif (w : Z) (j : nat) (a b : list Z) : Prop :=
  acc4 w a /\ acc4 w b /\ (forall i, (i < 4)%nat -> i <> j -> nth i a 0 = nth i b 0) /\ nth j a 0 <> nth j b 0.
Lemma acc4_nth w a i : 0 <= w -> acc4 w a -> wd w (nth i a 0).
Proof.
  intros Hw [L F]. destruct (Nat.ltb_spec i 4).
  - rewrite Forall_forall in F. apply F, nth_In. lia.
  - rewrite nth_overflow by lia. split; [lia|apply pow_pos; lia].
Qed.
Lemma list4_nth (a b : list Z) : length a = 4%nat -> length b = 4%nat -> (forall i, (i < 4)%nat -> nth i a 0 = nth i b 0) -> a = b.
Proof. intros La Lb H. apply (nth_ext a b 0 0); [lia|]. rewrite La. exact H. Qed.
Lemma stripe32_nth accs s j : length accs = 4%nat -> (j < 4)%nat ->
  nth j (X32.stripe accs s) 0 = X32.round (nth j accs 0) (le_val (zslice s (4 * Z.of_nat j) 4)).
Proof.
  intros L Hj. destruct accs as [|a0 [|a1 [|a2 [|a3 [|]]]]]; try discriminate L.
  unfold X32.stripe. change (upto 4) with [0; 1; 2; 3]. cbn [combine map fst snd].
  destruct j as [|[|[|[|]]]]; try lia; cbn [nth]; rewrite LE_le_val, seg_zslice; reflexivity.
Qed.
Lemma stripe32_acc accs s : length accs = 4%nat -> acc4 32 (X32.stripe accs s).
Proof.
  intros L. destruct accs as [|a0 [|a1 [|a2 [|a3 [|]]]]]; try discriminate L.
  unfold X32.stripe. change (upto 4) with [0; 1; 2; 3]. cbn [combine map fst snd].
  split; [reflexivity|]. repeat (apply Forall_cons; [apply round32_wd|]). apply Forall_nil.
Qed.
Lemma init32_acc seed : acc4 32 (X32.init seed).
Proof. split; [reflexivity|]. unfold X32.init. repeat (apply Forall_cons; [apply (mod_wd 32); lia|]). apply Forall_nil. Qed.
Definition stripes32_n (m : list Z) (n : Z) (accs : list Z) := fold_left (fun a i => X32.stripe a (seg m (16 * i) (16 * i + 16))) (upto n) accs.
Lemma stripes32_acc m n accs : acc4 32 accs -> acc4 32 (stripes32_n m n accs).
Proof. intros H. unfold stripes32_n. apply (fold_upto_inv (acc4 32)); trivial. intros i a Hi [L _]. apply stripe32_acc; exact L. Qed.

Section Word32.
Context (m m' : list Z) (n k : Z) (j : nat).
Hypothesis Hj : (j < 4)%nat.
Hypothesis Hk : 0 <= k < n.
Let lane (m : list Z) i q := le_val (zslice (seg m (16 * i) (16 * i + 16)) (4 * Z.of_nat q) 4).
Hypothesis Same : forall i q, 0 <= i < n -> (q < 4)%nat -> (i <> k \/ q <> j) -> lane m i q = lane m' i q.
Hypothesis Diff : lane m k j <> lane m' k j.
Hypothesis Wm : forall i q, 0 <= i < n -> (q < 4)%nat -> wd 32 (lane m i q) /\ wd 32 (lane m' i q).
Lemma stripes32_before i accs : acc4 32 accs -> 0 <= i <= k -> stripes32_n m i accs = stripes32_n m' i accs.
Proof.
  intros A [H0 Hi]. revert i H0 Hi. apply (natlike_ind (fun i => i <= k -> stripes32_n m i accs = stripes32_n m' i accs)); [reflexivity|].
  intros i H0 IH Hi. change (Z.succ i) with (i + 1) in *. unfold stripes32_n in *. rewrite !fold_upto_S by lia. rewrite IH by lia.
  fold (stripes32_n m' i accs). pose proof (stripes32_acc m' i accs A) as A'. destruct A' as [L _].
  apply list4_nth; try apply stripe32_acc, L. intros q Hq. rewrite !stripe32_nth by trivial. f_equal. apply Same; trivial; lia.
Qed.
Lemma stripes32_after i accs : acc4 32 accs -> k < i <= n -> dif 32 j (stripes32_n m i accs) (stripes32_n m' i accs).
Proof.
  intros A [H0 Hi]. replace i with (k + 1 + (i - k - 1)) by lia. assert (Hp : 0 <= i - k - 1) by lia. assert (Hq : k + 1 + (i - k - 1) <= n) by lia.
  set (p := i - k - 1) in *. clearbody p. clear H0 Hi i. revert Hq. revert p Hp.
  apply (natlike_ind (fun p => k + 1 + p <= n -> dif 32 j (stripes32_n m (k + 1 + p) accs) (stripes32_n m' (k + 1 + p) accs))).
  - intros _. rewrite Z.add_0_r. unfold stripes32_n. rewrite !fold_upto_S by lia.
    fold (stripes32_n m k accs) (stripes32_n m' k accs). rewrite (stripes32_before k) by (trivial; lia).
    pose proof (stripes32_acc m' k accs A) as A'. destruct A' as [L F].
    split; [apply stripe32_acc, L|]. split; [apply stripe32_acc, L|]. split.
    + intros q Hq Nq. rewrite !stripe32_nth by trivial. f_equal. apply Same; trivial; lia.
    + rewrite !stripe32_nth by trivial. intros E. apply Diff. destruct (Wm k j); trivial. apply round32_inj_v in E; trivial.
  - intros p Hp IH Hq. change (Z.succ p) with (p + 1) in *. rewrite Z.add_assoc in *. unfold stripes32_n in *. rewrite !(fold_upto_S _ _ (k + 1 + p)) by lia.
    destruct IH as (A1 & A2 & S1 & S2); [lia|].
    split; [apply stripe32_acc, A1|]. split; [apply stripe32_acc, A2|]. split.
    + intros q Hq' Nq. rewrite !stripe32_nth by (trivial; apply A1 || apply A2). rewrite S1 by assumption. f_equal. apply Same; trivial; lia.
    + rewrite !stripe32_nth by (trivial; apply A1 || apply A2). intros E. apply S2.
      change (le_val (zslice (seg m (16 * (k + 1 + p)) (16 * (k + 1 + p) + 16)) (4 * Z.of_nat j) 4)) with (lane m (k + 1 + p) j) in E.
      change (le_val (zslice (seg m' (16 * (k + 1 + p)) (16 * (k + 1 + p) + 16)) (4 * Z.of_nat j) 4)) with (lane m' (k + 1 + p) j) in E.
      rewrite (Same (k + 1 + p) j) in E by (trivial; lia).
      apply round32_inj_a in E; trivial; apply acc4_nth; trivial; lia.
Qed.
End Word32.
Lemma converge32_dif j a b : (j < 4)%nat -> dif 32 j a b -> X32.converge a <> X32.converge b.
Proof.
  intros Hj ((La & Fa) & (Lb & Fb) & S & N).
  destruct a as [|a0 [|a1 [|a2 [|a3 [|]]]]]; try discriminate La. destruct b as [|b0 [|b1 [|b2 [|b3 [|]]]]]; try discriminate Lb.
  pose proof (S 0%nat ltac:(lia)) as S0. pose proof (S 1%nat ltac:(lia)) as S1. pose proof (S 2%nat ltac:(lia)) as S2. pose proof (S 3%nat ltac:(lia)) as S3.
  clear S. cbn [nth] in *. 
  apply Forall_cons_iff in Fa as [Fa0 Fa]. apply Forall_cons_iff in Fa as [Fa1 Fa]. apply Forall_cons_iff in Fa as [Fa2 Fa]. apply Forall_cons_iff in Fa as [Fa3 _].
  apply Forall_cons_iff in Fb as [Fb0 Fb]. apply Forall_cons_iff in Fb as [Fb1 Fb]. apply Forall_cons_iff in Fb as [Fb2 Fb]. apply Forall_cons_iff in Fb as [Fb3 _].
  unfold X32.converge. change X32.W with (2 ^ 32).
  assert (K : forall x y r s, 0 < s < 32 -> wd 32 x -> wd 32 y -> x <> y -> (rol 32 x s + r) mod 2 ^ 32 <> (rol 32 y s + r) mod 2 ^ 32).
  { intros x y r s Hs Hx Hy Hn E. apply (add_inj 32) in E; try lia; try (apply rol_wd; trivial). apply (rol_inj 32) in E; trivial. exact (Hn E). }
  destruct j as [|[|[|[|]]]]; try lia; cbn [nth] in N; rewrite ?S0, ?S1, ?S2, ?S3 by lia; intros E.
  - rewrite <- !Z.add_assoc in E. revert E. apply K; trivial; lia.
  - rewrite <- !Z.add_assoc, !(Z.add_comm (rol 32 b0 1)) in E. rewrite <- !Z.add_assoc in E. revert E. apply K; trivial; lia.
  - rewrite <- !(Z.add_assoc (_ + _)), (Z.add_comm (_ + _) (rol 32 a2 12 + _)), (Z.add_comm (_ + _) (rol 32 b2 12 + _)) in E. rewrite <- !Z.add_assoc in E.
    revert E. apply K; trivial; lia.
  - rewrite !(Z.add_comm (_ + _ + _)) in E. revert E. apply K; trivial; lia.
Qed.

(** ** XXH32, whole function *)
Lemma drop_split (a w b : list Z) q n : 0 <= q <= zlen a -> n = zlen a + zlen w + zlen b - q -> zslice (a ++ w ++ b) q n = zslice a q (zlen a - q) ++ w ++ b.
Proof.
  intros Hq ->. pose proof (zlen_nonneg w). pose proof (zlen_nonneg b). rewrite (zslice_app_mid a) by llia. f_equal.
  apply zslice_all. llia.
Qed.
Lemma hash32_unfold m seed : X32.hash m seed =
  X32.avalanche (X32.tail (((if zlen m <? 16 then (seed + X32.P5) mod 2 ^ 32 else X32.converge (stripes32_n m (zlen m / 16) (X32.init seed))) + zlen m) mod 2 ^ 32)
                 (zslice m (zlen m / 16 * 16) (zlen m - zlen m / 16 * 16))).
Proof. reflexivity. Qed.
Lemma converge32_wd a : wd 32 (X32.converge a).
Proof. unfold X32.converge. destruct a as [|? [|? [|? [|? [|]]]]]; try (split; reflexivity); [|split; [lia|reflexivity]..]. apply (mod_wd 32); lia. Qed.
Section Hash32.
Context (a w w' b : list Z) (seed k : Z).
Hypothesis La : zlen a = 4 * k.
Hypothesis Lw : zlen w = 4.
Hypothesis Lw' : zlen w' = 4.
Hypothesis Ba : bytes_ok a.
Hypothesis Bw : bytes_ok w.
Hypothesis Bw' : bytes_ok w'.
Hypothesis Bb : bytes_ok b.
Let L := zlen (a ++ w ++ b).
Let q := L / 16 * 16.
Lemma hash32_word : X32.hash (a ++ w ++ b) seed = X32.hash (a ++ w' ++ b) seed -> w = w'.
Proof.
  assert (EL : zlen (a ++ w' ++ b) = L) by (unfold L; rewrite !zlen_app; lia).
  pose proof (zlen_nonneg a). pose proof (zlen_nonneg b). assert (HL : L = 4 * k + 4 + zlen b) by (unfold L; rewrite !zlen_app; lia).
  rewrite !hash32_unfold, EL. fold L. intros E. fold q in E.
  assert (Hq : 16 * (L / 16) <= L < 16 * (L / 16) + 16) by dlia.
  assert (T : forall r, bytes_ok r -> forall a, wd 32 (X32.tail (a mod 2 ^ 32) r)) by (intros; apply tail32_wd; trivial; apply mod_wd; lia).
  assert (B1 : bytes_ok (a ++ w ++ b)) by (repeat apply bytes_ok_app; trivial).
  assert (B2 : bytes_ok (a ++ w' ++ b)) by (repeat apply bytes_ok_app; trivial).
  apply aval32_inj in E; try (apply T, bytes_ok_zslice; trivial).
  destruct (Z.leb_spec q (zlen a)) as [Hc|Hc].
  - (* the word is in the tail *)
    assert (S : stripes32_n (a ++ w ++ b) (L / 16) (X32.init seed) = stripes32_n (a ++ w' ++ b) (L / 16) (X32.init seed)).
    { unfold stripes32_n. apply fold_upto_ext. intros i x Hi. f_equal. rewrite !seg_zslice. apply zslice_outside; lia. }
    rewrite S in E. rewrite !drop_split in E by (unfold q in *; lia).
    assert (LA : zlen (zslice a q (zlen a - q)) = 4 * (k - L / 16 * 4)) by (rewrite zlen_zslice by (unfold q in *; lia); unfold q; lia).
    eapply tail32_word in E; try eassumption; try (apply bytes_ok_zslice; trivial). apply mod_wd; lia.
  - (* the word is in a stripe *)
    assert (Hq2 : zlen a + 4 <= q) by (unfold q in *; lia).
    assert (R : zslice (a ++ w ++ b) q (L - q) = zslice (a ++ w' ++ b) q (L - q)) by (apply zslice_outside; unfold q in *; lia).
    rewrite R in E. apply tail32_inj in E; try (apply bytes_ok_zslice; trivial); try (apply mod_wd; lia).
    replace (L <? 16) with false in E by (unfold q in *; lia).
    apply (add_inj 32) in E; try apply converge32_wd; try lia.
    apply le_val_inj; trivial; [lia|]. destruct (Z.eq_dec (le_val w) (le_val w')) as [|N]; [assumption|exfalso].
    set (kk := k / 4). set (j := Z.to_nat (k mod 4)).
    assert (Hj : (j < 4)%nat) by (unfold j; pose proof (Z.mod_pos_bound k 4); lia).
    assert (Hk : 16 * kk + 4 * Z.of_nat j = 4 * k) by (unfold kk, j; rewrite Z2Nat.id by (apply Z.mod_pos_bound; lia); dlia).
    assert (Hkk : 0 <= kk < L / 16) by (unfold kk, q in *; dlia). clearbody kk j.
    assert (LN : forall mm i p, zlen mm = L -> 0 <= i < L / 16 -> (p < 4)%nat ->
      zslice (seg mm (16 * i) (16 * i + 16)) (4 * Z.of_nat p) 4 = zslice mm (16 * i + 4 * Z.of_nat p) 4).
    { intros mm i p Hm Hi Hp. rewrite seg_zslice, zslice_zslice by lia. reflexivity. }
    refine (converge32_dif j _ _ Hj _ E). refine (stripes32_after (a ++ w ++ b) (a ++ w' ++ b) (L / 16) kk j Hj Hkk _ _ _ (L / 16) _ _ _).
    + intros i p Hi Hp Hne. rewrite !LN by (trivial; lia). f_equal. apply zslice_outside; lia.
    + rewrite !LN by (trivial; lia). rewrite Hk, <- La. rewrite <- Lw at 1. rewrite zslice_inside. rewrite <- Lw' at 1. rewrite zslice_inside. exact N.
    + intros i p Hi Hp. split; apply le_val_w32; try (apply bytes_ok_zslice, bytes_ok_zslice; trivial); rewrite LN, zlen_zslice by (trivial; lia); reflexivity.
    + apply init32_acc.
    + lia.
Qed.
End Hash32.

Lemma hash32_seed m s s' : zlen m < 16 -> bytes_ok m -> 0 <= s < 2 ^ 32 -> 0 <= s' < 2 ^ 32 -> X32.hash m s = X32.hash m s' -> s = s'.
Proof.
  intros L B H H' E. rewrite !hash32_unfold in E. replace (zlen m <? 16) with true in E by lia.
  apply aval32_inj in E; try (apply tail32_wd; [apply bytes_ok_zslice, B|apply (mod_wd 32); lia]).
  apply tail32_inj in E; [|apply bytes_ok_zslice, B|apply (mod_wd 32); lia|apply (mod_wd 32); lia].
  apply (add_inj 32) in E; [|lia|apply mod_wd; lia|apply mod_wd; lia]. apply (add_inj 32) in E; trivial; lia.
Qed.
