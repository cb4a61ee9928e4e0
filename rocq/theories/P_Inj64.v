(** XXH64: the part after the last full 32-byte stripe, and the seeds. *)
From Verif Require Import Base Mem Spec32 Spec64 P_Base P_Spec P_Inj.

Lemma aval64_inj x y : wd 64 x -> wd 64 y -> X64.avalanche x = X64.avalanche y -> x = y.
Proof.
  unfold X64.avalanche. change X64.W with (2 ^ 64). intros Hx Hy E.
  apply xorshift_inj in E; try apply (mod_wd 64); try lia.
  apply (mul_inj 64) in E; try odd; try lia; try (apply xorshift_wd; try lia; apply mod_wd; lia).
  apply xorshift_inj in E; try apply (mod_wd 64); try lia.
  apply (mul_inj 64) in E; try odd; try lia; try (apply xorshift_wd; trivial; lia).
  apply xorshift_inj in E; trivial; try lia; [apply Hx|apply Hy].
Qed.
Lemma round64_wd a v : wd 64 (X64.round a v). Proof. apply (mod_wd 64). lia. Qed.
Lemma round64_inj_v a v v' : wd 64 v -> wd 64 v' -> X64.round a v = X64.round a v' -> v = v'.
Proof.
  unfold X64.round. change X64.W with (2 ^ 64). intros Hv Hv' E.
  apply (mul_inj 64) in E; try odd; try lia; try (apply rol_wd; [lia|apply mod_wd; lia]).
  apply (rol_inj 64) in E; try lia; try (apply mod_wd; lia). apply (add_mul_inj 64) in E; trivial; try lia; odd.
Qed.
(** one step of the tail: a word already mixed into [x] *)
Definition step64 (s K k acc x : Z) : Z := (rol 64 (Z.lxor acc x) s * K + k) mod 2 ^ 64.
Lemma step64_inj_x s K k acc x x' : 0 < s < 64 -> Z.odd K = true -> wd 64 acc -> wd 64 x -> wd 64 x' -> step64 s K k acc x = step64 s K k acc x' -> x = x'.
Proof.
  unfold step64. intros Hs Ho Ha Hx Hx' E.
  assert (W : forall y, wd 64 y -> wd 64 (rol 64 (Z.lxor acc y) s)) by (intros; apply rol_wd; trivial; apply lxor_bound; trivial; lia).
  rewrite !(Z.add_comm (_ * K)) in E. apply (add_mul_inj 64) in E; auto; try lia.
  apply (rol_inj 64) in E; trivial; try (apply lxor_bound; trivial; lia). apply lxor_inj in E. exact E.
Qed.
Lemma step64_inj_a s K k a a' x : 0 < s < 64 -> Z.odd K = true -> wd 64 a -> wd 64 a' -> wd 64 x -> step64 s K k a x = step64 s K k a' x -> a = a'.
Proof. unfold step64. intros. rewrite !(Z.lxor_comm _ x) in *. eapply (step64_inj_x s K k x a a'); eassumption. Qed.
Definition lane8v (acc v : Z) : Z := step64 27 X64.P1 X64.P4 acc (X64.round 0 v).
Definition lane4v (acc v : Z) : Z := step64 23 X64.P2 X64.P3 acc ((v * X64.P1) mod 2 ^ 64).
Definition lane1v (acc v : Z) : Z := step64 11 X64.P1 0 acc ((v * X64.P5) mod 2 ^ 64).
Lemma lane8_eq a l : X64.lane8 a l = lane8v a (le_val l).
Proof. unfold X64.lane8, lane8v, step64. rewrite <- (LE_le_val l). reflexivity. Qed.
Lemma lane4_eq a l : X64.lane4 a l = lane4v a (le_val l).
Proof. unfold X64.lane4, lane4v, step64. rewrite <- (LE_le_val l). reflexivity. Qed.
Lemma lane1v_eq a b : X64.lane1 a b = lane1v a b.
Proof. unfold X64.lane1, lane1v, step64. rewrite Z.add_0_r. reflexivity. Qed.
Lemma step_wd s K k a x : wd 64 (step64 s K k a x). Proof. apply (mod_wd 64). lia. Qed.
Lemma lane8v_inj_v a v v' : wd 64 a -> wd 64 v -> wd 64 v' -> lane8v a v = lane8v a v' -> v = v'.
Proof. intros Ha Hv Hv' E. apply step64_inj_x in E; try lia; try odd; trivial; try apply round64_wd. apply round64_inj_v in E; trivial. Qed.
Lemma lane8v_inj_a a a' v : wd 64 a -> wd 64 a' -> lane8v a v = lane8v a' v -> a = a'.
Proof. intros Ha Hv E. apply step64_inj_a in E; try lia; try odd; trivial; apply round64_wd. Qed.
Lemma wd_mono w w' x : 0 <= w <= w' -> wd w x -> wd w' x.
Proof. intros H [H1 H2]. pose proof (Z.pow_le_mono_r 2 w w'). split; lia. Qed.
Lemma lane4v_inj_v a v v' : wd 64 a -> wd 32 v -> wd 32 v' -> lane4v a v = lane4v a v' -> v = v'.
Proof.
  intros Ha Hv Hv' E. apply step64_inj_x in E; try lia; try odd; trivial; try (apply mod_wd; lia).
  apply (mul_inj 64) in E; try lia; try odd; trivial; apply (wd_mono 32); trivial; lia.
Qed.
Lemma lane4v_inj_a a a' v : wd 64 a -> wd 64 a' -> lane4v a v = lane4v a' v -> a = a'.
Proof. intros Ha Hv E. apply step64_inj_a in E; try lia; try odd; trivial; apply mod_wd; lia. Qed.
Lemma lane1v_inj_v a v v' : wd 64 a -> byte_ok v -> byte_ok v' -> lane1v a v = lane1v a v' -> v = v'.
Proof.
  intros Ha Hv Hv' E. apply step64_inj_x in E; try lia; try odd; trivial; try (apply mod_wd; lia).
  apply (mul_inj 64) in E; try lia; try odd; trivial; apply byte_wd; trivial; lia.
Qed.
Lemma lane1v_inj_a a a' v : wd 64 a -> wd 64 a' -> lane1v a v = lane1v a' v -> a = a'.
Proof. intros Ha Hv E. apply step64_inj_a in E; try lia; try odd; trivial; apply mod_wd; lia. Qed.

Definition w8 (r : list Z) (acc : Z) : Z := fold_left lane8v (words 8 r) acc.
Definition w4 (r : list Z) (acc : Z) : Z := fold_left lane4v (words 4 r) acc.
Definition w1 (r : list Z) (acc : Z) : Z := fold_left lane1v r acc.
Lemma w8_wd r a : bytes_ok r -> wd 64 a -> wd 64 (w8 r a).
Proof. intros B Ha. apply (fold_P (wd 64) (wd 64)); trivial; [intros; apply step_wd|apply (words_wd 8); trivial; lia]. Qed.
Lemma w4_wd r a : bytes_ok r -> wd 64 a -> wd 64 (w4 r a).
Proof. intros B Ha. apply (fold_P (wd 64) (wd 32)); trivial; [intros; apply step_wd|apply (words_wd 4); trivial; lia]. Qed.
Lemma w1_wd r a : bytes_ok r -> wd 64 a -> wd 64 (w1 r a).
Proof. intros B Ha. apply (fold_P (wd 64) byte_ok); trivial. intros; apply step_wd. Qed.
Lemma w8_inj r a a' : bytes_ok r -> wd 64 a -> wd 64 a' -> w8 r a = w8 r a' -> a = a'.
Proof.
  intros B Ha Ha' E. eapply (fold_inj (wd 64) (wd 64)) in E; trivial; [intros; apply step_wd|intros; eapply lane8v_inj_a; eassumption|apply (words_wd 8); trivial; lia].
Qed.
Lemma w4_inj r a a' : bytes_ok r -> wd 64 a -> wd 64 a' -> w4 r a = w4 r a' -> a = a'.
Proof.
  intros B Ha Ha' E. eapply (fold_inj (wd 64) (wd 32)) in E; trivial; [intros; apply step_wd|intros; eapply lane4v_inj_a; eassumption|apply (words_wd 4); trivial; lia].
Qed.
Lemma w1_inj r a a' : bytes_ok r -> wd 64 a -> wd 64 a' -> w1 r a = w1 r a' -> a = a'.
Proof.
  intros B Ha Ha' E. eapply (fold_inj (wd 64) byte_ok) in E; trivial; [intros; apply step_wd|intros; eapply lane1v_inj_a; eassumption].
Qed.
Lemma tail64_eq acc r : X64.tail acc r = w1 (rest 4 (rest 8 r)) (w4 (rest 8 r) (w8 r acc)).
Proof.
  unfold X64.tail. change (len r) with (zlen r). rewrite seg_zslice. fold (rest 8 r).
  replace (fold_left (fun a i => X64.lane8 a (seg r (8 * i) (8 * i + 8))) (upto (zlen r / 8)) acc) with (w8 r acc).
  2: { unfold w8, words. rewrite fold_map. apply fold_upto_ext. intros i a Hi. rewrite lane8_eq, seg_zslice.
       replace (8 * i + 8 - 8 * i) with 8 by lia. reflexivity. }
  pose proof (rest_len 8 r ltac:(lia)) as Lr. set (r2 := rest 8 r) in *. clearbody r2. change (len r2) with (zlen r2). unfold w1, w4.
  destruct (Z.leb_spec 4 (zlen r2)) as [H|H].
  - assert (D : zlen r2 / 4 = 1) by dlia. unfold words, rest. rewrite D. change (upto 1) with [0]. cbn [map fold_left].
    rewrite !seg_zslice. 
    rewrite lane4_eq. change (zslice r2 0 (4 - 0)) with (zslice r2 (4 * 0) 4).
    generalize (lane4v (w8 r acc) (le_val (zslice r2 (4 * 0) 4))) as s. intros s. change (4 * 1) with 4. generalize (zslice r2 4 (zlen r2 - 4)) as l. clear.
    intros l. revert s. induction l as [|b l IH]; intros s; [reflexivity|]. cbn [fold_left]. rewrite lane1v_eq. apply IH.
  - destruct (words_short 4 r2 ltac:(lia) H) as [-> ->]. cbn [fold_left]. generalize (w8 r acc). clear. induction r2 as [|b l IH]; intros s; [reflexivity|]. cbn [fold_left]. rewrite lane1v_eq. apply IH.
Qed.
Lemma words_ext n a c : 0 < n -> zlen (a ++ c) / n = zlen a / n -> words n (a ++ c) = words n a /\ rest n (a ++ c) = rest n a ++ c.
Proof.
  intros Hn E. pose proof (zlen_nonneg a). pose proof (zlen_nonneg c). unfold words, rest. rewrite E.
  pose proof (Z.mul_div_le (zlen a) n Hn). pose proof (Z.div_pos (zlen a) n ltac:(lia) Hn). split.
  - apply map_ext_in. intros i Hi. apply in_upto in Hi. rewrite zslice_app_l by nia. reflexivity.
  - rewrite zlen_app. set (q := n * (zlen a / n)) in *.
    assert (Q : a = zslice a 0 q ++ zslice a q (zlen a - q)) by (apply zslice_split0; nia).
    replace (zlen a + zlen c - q) with ((zlen a - q) + zlen c) by lia. rewrite zslice_app_mid by nia. f_equal.
    apply zslice_all. lia.
Qed.
Lemma tail64_wd a r : bytes_ok r -> wd 64 a -> wd 64 (X64.tail a r).
Proof. intros B Ha. rewrite tail64_eq. apply w1_wd; [apply rest_bytes, rest_bytes, B|]. apply w4_wd; [apply rest_bytes, B|]. apply w8_wd; trivial. Qed.
Lemma tail64_inj a a' r : bytes_ok r -> wd 64 a -> wd 64 a' -> X64.tail a r = X64.tail a' r -> a = a'.
Proof.
  intros B Ha Ha' E. rewrite !tail64_eq in E. assert (B8 : bytes_ok (rest 8 r)) by (apply rest_bytes, B).
  apply w1_inj in E; [|apply rest_bytes, B8|apply w4_wd; trivial; apply w8_wd; trivial..].
  apply w4_inj in E; trivial; try (apply w8_wd; trivial). apply w8_inj in E; trivial.
Qed.
(** one 8-byte word *)
Lemma tail64_word8 acc k a w w' b : zlen a = 8 * k -> zlen w = 8 -> zlen w' = 8 -> bytes_ok a -> bytes_ok w -> bytes_ok w' -> bytes_ok b -> wd 64 acc ->
  X64.tail acc (a ++ w ++ b) = X64.tail acc (a ++ w' ++ b) -> w = w'.
Proof.
  intros La Lw Lw' Ba Bw Bw' Bb Ha E. rewrite !tail64_eq in E. unfold w8 in E.
  rewrite !(rest_app 8 k a), !(rest_app 8 1 _ b), !(words_app 8 k a), !(words_app 8 1 _ b), !(words_1 8 w), !(words_1 8 w') in E by lia.
  assert (Fa : Forall (wd 64) (words 8 a)) by (apply (words_wd 8); trivial; lia).
  assert (Fb : Forall (wd 64) (words 8 b)) by (apply (words_wd 8); trivial; lia).
  assert (B8 : bytes_ok (rest 8 b)) by (apply rest_bytes, Bb).
  pose proof (le_val_w64 w Bw Lw) as Ww. pose proof (le_val_w64 w' Bw' Lw') as Ww'.
  apply le_val_inj; trivial; [lia|]. cbn [app] in E.
  assert (F : forall v, wd 64 v -> wd 64 (fold_left lane8v (words 8 a ++ v :: words 8 b) acc)).
  { intros. apply (fold_P (wd 64) (wd 64)); trivial; [intros; apply step_wd|]. apply Forall_app; split; [|constructor]; trivial. }
  apply w1_inj in E; [|apply rest_bytes, B8|apply w4_wd; auto..].
  apply w4_inj in E; auto.
  eapply (fold_mid (wd 64) (wd 64)) in E; trivial; [intros; apply step_wd|intros; eapply lane8v_inj_a; [| |eassumption]; eassumption|intros ? ? ? Q1 Q2 Q3 Q4; exact (lane8v_inj_v _ _ _ Q1 Q2 Q3 Q4)].
Qed.
(** the 4-byte word *)
Lemma tail64_word4 acc k a w w' b : zlen a = 8 * k -> zlen w = 4 -> zlen w' = 4 -> zlen b < 4 -> bytes_ok a -> bytes_ok w -> bytes_ok w' -> bytes_ok b -> wd 64 acc ->
  X64.tail acc (a ++ w ++ b) = X64.tail acc (a ++ w' ++ b) -> w = w'.
Proof.
  intros La Lw Lw' Lb Ba Bw Bw' Bb Ha E. rewrite !tail64_eq in E. unfold w8, w4 in E. pose proof (zlen_nonneg b).
  rewrite !(rest_app 8 k a), !(words_app 8 k a) in E by lia.
  destruct (words_short 8 (w ++ b) ltac:(lia) ltac:(llia)) as [W R]. destruct (words_short 8 (w' ++ b) ltac:(lia) ltac:(llia)) as [W' R'].
  rewrite W, R, W', R', app_nil_r in E.
  rewrite !(rest_app 4 1 _ b), !(words_app 4 1 _ b), !(words_1 4 w), !(words_1 4 w') in E by lia.
  destruct (words_short 4 b ltac:(lia) Lb) as [-> ->] in E. cbn [app fold_left] in E.
  assert (Fa : Forall (wd 64) (words 8 a)) by (apply (words_wd 8); trivial; lia).
  pose proof (w8_wd a acc Ba Ha) as W8. unfold w8 in W8.
  pose proof (le_val_w32 w Bw Lw) as Ww. pose proof (le_val_w32 w' Bw' Lw') as Ww'.
  apply le_val_inj; trivial; [lia|].
  apply w1_inj in E; trivial; try apply step_wd. apply lane4v_inj_v in E; trivial.
Qed.
(** the last bytes *)
Lemma tail64_byte acc a x x' b : zlen a / 4 = (zlen a + 1 + zlen b) / 4 -> bytes_ok a -> byte_ok x -> byte_ok x' -> bytes_ok b -> wd 64 acc ->
  X64.tail acc (a ++ [x] ++ b) = X64.tail acc (a ++ [x'] ++ b) -> x = x'.
Proof.
  intros La Ba Bx Bx' Bb Ha E. rewrite !tail64_eq in E. pose proof (zlen_nonneg a). pose proof (zlen_nonneg b).
  assert (L1 : forall y : Z, zlen [y] = 1) by reflexivity.
  assert (D : (zlen a + 1 + zlen b) / 8 = zlen a / 8) by dlia.
  destruct (words_ext 8 a ([x] ++ b)) as [W R]; [lia|rewrite !zlen_app, L1, Z.add_assoc; exact D|].
  destruct (words_ext 8 a ([x'] ++ b)) as [W' R']; [lia|rewrite !zlen_app, L1, Z.add_assoc; exact D|].
  unfold w8, w4 in E. rewrite W, R, W', R' in E.
  assert (D4 : (zlen (rest 8 a) + 1 + zlen b) / 4 = zlen (rest 8 a) / 4).
  { unfold rest. rewrite zlen_zslice by dlia. dlia. }
  assert (B8 : bytes_ok (rest 8 a)) by (apply rest_bytes, Ba). 
  destruct (words_ext 4 (rest 8 a) ([x] ++ b)) as [V S]; [lia|rewrite !zlen_app, L1, Z.add_assoc; exact D4|].
  destruct (words_ext 4 (rest 8 a) ([x'] ++ b)) as [V' S']; [lia|rewrite !zlen_app, L1, Z.add_assoc; exact D4|].
  rewrite V, S, V', S' in E. pose proof (w4_wd (rest 8 a) _ B8 (w8_wd a acc Ba Ha)) as W48. unfold w8, w4 in W48. cbn [app] in E. unfold w1 in E.
  eapply (fold_mid (wd 64) byte_ok) in E; trivial; [intros; apply step_wd|intros; eapply lane1v_inj_a; [| |eassumption]; eassumption|intros ? ? ? Q1 Q2 Q3 Q4; exact (lane1v_inj_v _ _ _ Q1 Q2 Q3 Q4)|apply rest_bytes, B8].
Qed.

Lemma zlen_1 (l : list Z) : zlen l = 1 -> exists x, l = [x].
Proof. destruct l as [|x [|y l]]; intros H; [discriminate|exists x; reflexivity|exfalso; pose proof (zlen_nonneg l); rewrite !zlen_cons in H; lia]. Qed.
Lemma hash64_unfold m seed : X64.hash m seed =
  X64.avalanche (X64.tail (((if zlen m <? 32 then (seed + X64.P5) mod 2 ^ 64 else X64.converge (X64.stripes m (X64.init seed))) + zlen m) mod 2 ^ 64)
                 (zslice m (zlen m / 32 * 32) (zlen m - zlen m / 32 * 32))).
Proof. reflexivity. Qed.
Lemma hash64_tail a w w' b seed : bytes_ok a -> bytes_ok w -> bytes_ok w' -> bytes_ok b -> zlen w = zlen w' ->
  let L := zlen a + zlen w + zlen b in
  L / 32 * 32 <= zlen a -> X64.hash (a ++ w ++ b) seed = X64.hash (a ++ w' ++ b) seed ->
  exists acc, wd 64 acc /\ let a' := zslice a (L / 32 * 32) (zlen a - L / 32 * 32) in X64.tail acc (a' ++ w ++ b) = X64.tail acc (a' ++ w' ++ b).
Proof.
  intros Ba Bw Bw' Bb Lw L Hq E. rewrite !hash64_unfold in E. pose proof (zlen_nonneg a). pose proof (zlen_nonneg b). pose proof (zlen_nonneg w).
  replace (zlen (a ++ w ++ b)) with L in E by (unfold L; rewrite !zlen_app; lia). replace (zlen (a ++ w' ++ b)) with L in E by (unfold L; rewrite !zlen_app; lia).
  assert (S : X64.stripes (a ++ w ++ b) (X64.init seed) = X64.stripes (a ++ w' ++ b) (X64.init seed)).
  { unfold X64.stripes. change (len (a ++ w ++ b)) with (zlen (a ++ w ++ b)). change (len (a ++ w' ++ b)) with (zlen (a ++ w' ++ b)).
    rewrite !zlen_app, <- Lw. replace (zlen a + (zlen w + zlen b)) with L by (unfold L; lia).
    apply fold_upto_ext. intros i x Hi. f_equal. rewrite !seg_zslice. apply zslice_outside; rewrite ?zlen_app; unfold L in *; lia. }
  assert (HL : 32 * (L / 32) <= L) by (apply Z.mul_div_le; lia). assert (0 <= L / 32) by (apply Z.div_pos; unfold L; lia).
  rewrite S, !drop_split in E by (unfold L in *; lia).
  match type of E with X64.avalanche (X64.tail ?s _) = _ => exists s; split; [apply (mod_wd 64); lia|] end.
  apply aval64_inj in E; [exact E|apply tail64_wd; [|apply (mod_wd 64); lia]..]; repeat (apply bytes_ok_app; trivial); apply bytes_ok_zslice; trivial.
Qed.
(** What the part after the last full stripe detects: a change inside one of its 8-byte words, inside its 4-byte word, or of one of the last bytes. *)
Lemma hash64_within a w w' b seed : bytes_ok a -> bytes_ok w -> bytes_ok w' -> bytes_ok b -> zlen w = zlen w' ->
  let L := zlen a + zlen w + zlen b in
  L / 32 * 32 <= zlen a ->
  (zlen a mod 8 + zlen w <= 8 /\ zlen a / 8 * 8 + 8 <= L) \/ (L / 8 * 8 <= zlen a /\ zlen a + zlen w <= L / 8 * 8 + 4 <= L) \/ zlen w <= 1 ->
  X64.hash (a ++ w ++ b) seed = X64.hash (a ++ w' ++ b) seed -> w = w'.
Proof.
  intros Ba Bw Bw' Bb Lw L Hq C E. pose proof (zlen_nonneg a). pose proof (zlen_nonneg b). pose proof (zlen_nonneg w).
  destruct (Z.eq_dec (zlen w) 0) as [Hz|Hz].
  { rewrite Hz in Lw. rewrite (zlen_0 w Hz), (zlen_0 w' (eq_sym Lw)). reflexivity. }
  destruct (hash64_tail a w w' b seed Ba Bw Bw' Bb Lw Hq E) as (acc & Hacc & T). clear E. fold L in T.
  assert (Hq0 : 0 <= L / 32) by (apply Z.div_pos; unfold L; lia).
  set (q := L / 32) in *. assert (Q : 32 * q <= L < 32 * q + 32) by (unfold q; dlia). clearbody q.
  set (a' := zslice a (q * 32) (zlen a - q * 32)) in T. assert (Ba' : bytes_ok a') by (apply bytes_ok_zslice, Ba).
  assert (La' : zlen a' = zlen a - 32 * q) by (unfold a'; rewrite zlen_zslice; lia). clearbody a'. cbv zeta in T.
  assert (C' : (zlen a mod 8 + zlen w <= 8 /\ zlen a / 8 * 8 + 8 <= L) \/ (L / 8 * 8 <= zlen a /\ zlen a + zlen w <= L / 8 * 8 + 4 <= L) \/ (zlen w = 1 /\ zlen a / 4 = L / 4)).
  { destruct C as [C|[C|C]]; [left; exact C|right; left; exact C|]. assert (W1 : zlen w = 1) by lia. clear - W1 H H0 L. unfold L. rewrite W1. dlia. }
  clear C. destruct C' as [[C1 C2]|[[C1 C2]|[C1 C2]]].
  - set (k := zlen a / 8 - 4 * q). assert (Hk : zlen a' = 8 * k + zlen a mod 8) by (unfold k; dlia). pose proof (Z.mod_pos_bound (zlen a) 8 ltac:(lia)).
    assert (k0 : 0 <= k) by (unfold k; dlia). assert (k1 : zlen a / 8 = k + 4 * q) by (unfold k; lia). clearbody k.
    set (a1 := zslice a' 0 (8 * k)). set (a2 := zslice a' (8 * k) (zlen a' - 8 * k)).
    assert (Ea : a' = a1 ++ a2) by (apply zslice_split0; lia).
    assert (L1 : zlen a1 = 8 * k) by (unfold a1; rewrite zlen_zslice; lia).
    assert (L2 : zlen a2 = zlen a' - 8 * k) by (unfold a2; rewrite zlen_zslice; lia).
    assert (B1 : bytes_ok a1) by (apply bytes_ok_zslice; trivial). assert (B2 : bytes_ok a2) by (apply bytes_ok_zslice; trivial).
    clearbody a1 a2. set (n := 8 * k + 8 - zlen a' - zlen w) in *.
    assert (Hc : 0 <= n <= zlen b) by (unfold n, L in *; lia).
    set (b1 := zslice b 0 n). set (b2 := zslice b n (zlen b - n)).
    assert (Eb : b = b1 ++ b2) by (apply zslice_split0; lia).
    assert (L3 : zlen b1 = n) by (unfold b1; rewrite zlen_zslice; lia).
    assert (B3 : bytes_ok b1) by (apply bytes_ok_zslice; trivial). assert (B4 : bytes_ok b2) by (apply bytes_ok_zslice; trivial).
    clearbody b1 b2. rewrite Ea, Eb in T.
    assert (QQ : forall y, (a1 ++ a2) ++ y ++ b1 ++ b2 = a1 ++ (a2 ++ y ++ b1) ++ b2) by (intros; rewrite <- !app_assoc; reflexivity).
    rewrite !QQ in T. apply (tail64_word8 _ k) in T; trivial; try (rewrite !zlen_app; unfold n in *; lia); try (repeat (apply bytes_ok_app; trivial)).
    apply app_inv_head in T. apply app_inv_tail in T. exact T.
  - set (k := L / 8 - 4 * q). assert (k0 : 0 <= k) by (unfold k; dlia). assert (k1 : L / 8 = k + 4 * q) by (unfold k; lia).
    assert (k2 : L < L / 8 * 8 + 8) by dlia. clearbody k. rewrite k1 in *.
    set (a1 := zslice a' 0 (8 * k)). set (a2 := zslice a' (8 * k) (zlen a' - 8 * k)).
    assert (Ea : a' = a1 ++ a2) by (apply zslice_split0; lia).
    assert (L1 : zlen a1 = 8 * k) by (unfold a1; rewrite zlen_zslice; lia).
    assert (L2 : zlen a2 = zlen a' - 8 * k) by (unfold a2; rewrite zlen_zslice; lia).
    assert (B1 : bytes_ok a1) by (apply bytes_ok_zslice; trivial). assert (B2 : bytes_ok a2) by (apply bytes_ok_zslice; trivial).
    clearbody a1 a2. set (n := 8 * k + 4 - zlen a' - zlen w) in *.
    assert (Hc : 0 <= n <= zlen b) by (unfold n, L in *; lia).
    set (b1 := zslice b 0 n). set (b2 := zslice b n (zlen b - n)).
    assert (Eb : b = b1 ++ b2) by (apply zslice_split0; lia).
    assert (L3 : zlen b1 = n) by (unfold b1; rewrite zlen_zslice; lia).
    assert (L4 : zlen b2 = zlen b - n) by (unfold b2; rewrite zlen_zslice; lia).
    assert (B3 : bytes_ok b1) by (apply bytes_ok_zslice; trivial). assert (B4 : bytes_ok b2) by (apply bytes_ok_zslice; trivial).
    clearbody b1 b2. rewrite Ea, Eb in T.
    assert (QQ : forall y, (a1 ++ a2) ++ y ++ b1 ++ b2 = a1 ++ (a2 ++ y ++ b1) ++ b2) by (intros; rewrite <- !app_assoc; reflexivity).
    rewrite !QQ in T. apply (tail64_word4 _ k) in T; trivial; try (rewrite ?zlen_app; unfold n, L in *; lia); try (repeat (apply bytes_ok_app; trivial)).
    apply app_inv_head in T. apply app_inv_tail in T. exact T.
  - rewrite C1 in Lw. destruct (zlen_1 w C1) as [x ->]. destruct (zlen_1 w' (eq_sym Lw)) as [x' ->].
    apply tail64_byte in T; trivial; [f_equal; exact T| |apply Forall_inv in Bw; exact Bw|apply Forall_inv in Bw'; exact Bw'].
    clear - La' C1 C2 L. unfold L in *. dlia.
Qed.
Lemma hash64_seed m s s' : zlen m < 32 -> bytes_ok m -> 0 <= s < 2 ^ 64 -> 0 <= s' < 2 ^ 64 -> X64.hash m s = X64.hash m s' -> s = s'.
Proof.
  intros L B H H' E. rewrite !hash64_unfold in E. replace (zlen m <? 32) with true in E by lia.
  apply aval64_inj in E; try (apply tail64_wd; [apply bytes_ok_zslice, B|apply (mod_wd 64); lia]).
  apply tail64_inj in E; [|apply bytes_ok_zslice, B|apply (mod_wd 64); lia|apply (mod_wd 64); lia].
  apply (add_inj 64) in E; [|lia|apply mod_wd; lia|apply mod_wd; lia]. apply (add_inj 64) in E; trivial; lia.
Qed.
