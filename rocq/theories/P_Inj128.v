(** Changes of one word that XXH3 detects or loses, and pairs of inputs that collide for half of all seeds
    (proofs for C69 to C72). *)
From Verif Require Import Base Mem Spec32 Spec64 Spec3 P_Base P_Spec P_X3_Base P_Inj P_Inj64 P_Inj3.
From Coq Require Import Znumtheory FinFun.

(* ------------------------------------------------------------------ *)
(** ** The top bit *)
Lemma lxor_top w v : 0 < w -> wd w v -> Z.lxor v (2 ^ (w - 1)) = if v <? 2 ^ (w - 1) then v + 2 ^ (w - 1) else v - 2 ^ (w - 1).
Proof.
  intros Hw [H0 H1]. assert (E2 : 2 ^ w = 2 * 2 ^ (w - 1)) by (rewrite <- Z.pow_succ_r by lia; f_equal; lia).
  assert (K : forall u, 0 <= u < 2 ^ (w - 1) -> Z.lxor u (2 ^ (w - 1)) = u + 2 ^ (w - 1)).
  { intros u Hu. symmetry. apply Z.add_nocarry_lxor. apply Z.bits_inj'. intros n Hn. rewrite Z.land_spec, Z.bits_0, Z.pow2_bits_eqb by lia.
    destruct (Z.eqb_spec (w - 1) n) as [<-|]; [|apply andb_false_r]. rewrite andb_true_r.
    destruct (Z.eqb_spec u 0) as [->|N]; [apply Z.bits_0|]. apply Z.bits_above_log2; [lia|]. apply Z.log2_lt_pow2; lia. }
  destruct (Z.ltb_spec v (2 ^ (w - 1))).
  - apply K; lia.
  - assert (Q : v = Z.lxor (v - 2 ^ (w - 1)) (2 ^ (w - 1))) by (rewrite K by lia; lia).
    rewrite Q at 1. rewrite Z.lxor_assoc, Z.lxor_nilpotent, Z.lxor_0_r. reflexivity.
Qed.
Lemma lxor_top_mod w v : 0 < w -> wd w v -> Z.lxor v (2 ^ (w - 1)) = (v + 2 ^ (w - 1)) mod 2 ^ w.
Proof.
  intros Hw Hv. rewrite lxor_top by trivial. destruct Hv as [H0 H1].
  assert (E2 : 2 ^ w = 2 * 2 ^ (w - 1)) by (rewrite <- Z.pow_succ_r by lia; f_equal; lia).
  destruct (Z.ltb_spec v (2 ^ (w - 1))); [rewrite Z.mod_small; lia|].
  apply (Z.mod_unique_pos _ _ 1); lia.
Qed.
Lemma top_wd w v : 0 < w -> wd w v -> wd w (Z.lxor v (2 ^ (w - 1))).
Proof. intros Hw Hv. rewrite lxor_top_mod by trivial. apply mod_wd; lia. Qed.
Lemma le_val_top y b : bytes_ok (y ++ [b]) -> zlen y = 7 -> le_val (y ++ [Z.lxor b 128]) = Z.lxor (le_val (y ++ [b])) (2 ^ 63).
Proof.
  intros B L. pose proof (le_wd 8 (y ++ [b]) B ltac:(rewrite zlen_app, L; reflexivity)) as W. change (8 * 8) with 64 in W.
  apply Forall_app in B as [By Bb]. apply Forall_cons_iff in Bb as [Bb _]. change (2 ^ 63) with (2 ^ (64 - 1)).
  rewrite lxor_top by (trivial; lia). rewrite !le_val_app, L. cbn [le_val]. rewrite le_val_app, L in W. cbn [le_val] in W.
  change 128 with (2 ^ (8 - 1)). assert (Wb : wd 8 b) by (apply byte_wd; [trivial|lia]). rewrite lxor_top by (trivial; lia).
  pose proof (le_wd 7 y By ltac:(lia)) as Wy. unfold wd in *. change (2 ^ (64 - 1)) with 9223372036854775808. change (8 - 1) with 7 in *. 
  change (2 ^ 7) with 128. change (8 * 7) with 56 in *. change (2 ^ 56) with 72057594037927936 in *. change (2 ^ 8) with 256 in *.
  destruct (Z.ltb_spec b 128), (Z.ltb_spec (le_val y + 72057594037927936 * (b + 256 * 0)) 9223372036854775808); lia.
Qed.
Lemma bytes_top y b : bytes_ok (y ++ [b]) -> bytes_ok (y ++ [Z.lxor b 128]).
Proof.
  intros B. apply Forall_app in B as [By Bb]. apply Forall_cons_iff in Bb as [Bb _]. apply bytes_ok_app; trivial. repeat constructor.
  - apply (top_wd 8 b); [lia|apply byte_wd; [trivial|lia]].
  - apply (top_wd 8 b); [lia|apply byte_wd; [trivial|lia]].
Qed.
Lemma rd8_at a w b o : o = zlen a -> zlen w = 8 -> X3.rd8 (a ++ w ++ b) o = le_val w.
Proof. intros -> L. rewrite rd8_zslice. rewrite <- L. rewrite zslice_inside. reflexivity. Qed.
Lemma bytes8_ok x : bytes_ok (X3.bytes8 x).
Proof. apply Forall_forall. intros y Hy. apply in_map_iff in Hy. destruct Hy as (i & <- & _). apply Z.mod_pos_bound. reflexivity. Qed.
Lemma bytes8_len x : zlen (X3.bytes8 x) = 8. Proof. reflexivity. Qed.
Lemma bytes8_val x : wd 64 x -> le_val (X3.bytes8 x) = x.
Proof.
  intros [H0 H1]. rewrite bytes8_eq by trivial. rewrite le_bytes_val by trivial. apply Z.mod_small. split; [trivial|exact H1].
Qed.

(* ------------------------------------------------------------------ *)
(** ** XXH3 64-bit, 16 bytes: the first word makes one factor 1 *)
Lemma fold128_1 v : wd 64 v -> X3.fold128 (1 * v) = v.
Proof.
  intros H. unfold X3.fold128, X3.lo64, X3.hi64. change X3.W with (2 ^ 64). rewrite Z.mul_1_l, Z.mod_small, Z.div_small by exact H. apply Z.lxor_0_r.
Qed.
(** the first 8 bytes for which the low factor is 1 *)
Definition unit9to16 (secret : list Z) (seed : Z) : list Z :=
  X3.bytes8 (Z.lxor 1 ((Z.lxor (X3.rd8 secret 24) (X3.rd8 secret 32) + seed) mod X3.W)).
Lemma h9to16_flip s seed y b : bytes_ok s -> bytes_ok (y ++ [b]) -> zlen y = 7 ->
  X3.h9to16_64 s seed (unit9to16 s seed ++ y ++ [b]) = X3.h9to16_64 s seed (unit9to16 s seed ++ y ++ [Z.lxor b 128]).
Proof.
  intros Bs B L. set (K := (Z.lxor (X3.rd8 s 24) (X3.rd8 s 32) + seed) mod X3.W). set (u := unit9to16 s seed).
  assert (WK : wd 64 K) by (apply (mod_wd 64); lia).
  assert (Lu : zlen u = 8) by reflexivity.
  assert (Vu : le_val u = Z.lxor 1 K) by (apply bytes8_val; apply lxor_bound; trivial; [lia|split; [lia|reflexivity]]).
  assert (G : forall x, zlen x = 8 -> X3.h9to16_64 s seed (u ++ x) =
    X3.avalanche ((16 + X3.bswap 8 1 + Z.lxor ((Z.lxor (X3.rd8 s 40) (X3.rd8 s 48) - seed) mod X3.W) (le_val x) +
      X3.fold128 (1 * Z.lxor ((Z.lxor (X3.rd8 s 40) (X3.rd8 s 48) - seed) mod X3.W) (le_val x))) mod X3.W)).
  { intros x Lx. unfold X3.h9to16_64. fold K. assert (LL : len (u ++ x) = 16) by (rewrite len_zlen, zlen_app; lia). rewrite LL. change (16 - 8) with 8.
    replace (X3.rd8 (u ++ x) 0) with (Z.lxor 1 K) by (rewrite <- Vu; symmetry; apply (rd8_at [] u x); trivial; reflexivity).
    replace (X3.rd8 (u ++ x) 8) with (le_val x) by (symmetry; rewrite <- (app_nil_r x) at 1; apply (rd8_at u x []); lia).
    rewrite (Z.lxor_comm 1 K), <- Z.lxor_assoc, Z.lxor_nilpotent, Z.lxor_0_l. reflexivity. }
  rewrite !G by (rewrite zlen_app, L; reflexivity). rewrite le_val_top by trivial. rewrite <- Z.lxor_assoc.
  set (h := Z.lxor _ (le_val (y ++ [b]))).
  assert (Wh : wd 64 h).
  { apply lxor_bound; [lia|apply (mod_wd 64); lia|apply (le_wd 8 _ B); rewrite zlen_app, L; reflexivity]. }
  pose proof (top_wd 64 h ltac:(lia) Wh) as Wh'. change (64 - 1) with 63 in Wh'. rewrite !fold128_1 by trivial. f_equal.
  change 63 with (64 - 1) at 1 2. rewrite lxor_top by (trivial; lia). change (64 - 1) with 63. change X3.W with (2 ^ 64).
  generalize (16 + X3.bswap 8 1) as k. intros k. destruct (h <? 2 ^ 63).
  - replace (k + (h + 2 ^ 63) + (h + 2 ^ 63)) with (k + h + h + 1 * 2 ^ 64) by lia. rewrite Z_mod_plus_full. reflexivity.
  - replace (k + (h - 2 ^ 63) + (h - 2 ^ 63)) with (k + h + h + (-1) * 2 ^ 64) by lia. rewrite Z_mod_plus_full. reflexivity.
Qed.

(* ------------------------------------------------------------------ *)
(** ** XXH3 128-bit, 32 bytes: the second word makes one factor 1 *)
(** the second 8 bytes for which the second factor is 1 *)
Definition unit17to128 (secret : list Z) (seed : Z) : list Z := X3.bytes8 (Z.lxor 1 ((X3.rd8 secret 8 - seed) mod X3.W)).
Lemma mid128_top l h L seed : wd 64 l -> wd 64 h -> X3.mid128 (Z.lxor l (2 ^ 63), Z.lxor h (2 ^ 63)) L seed = X3.mid128 (l, h) L seed.
Proof.
  intros Wl Wh. unfold X3.mid128. cbn [fst snd]. change 63 with (64 - 1). rewrite !lxor_top by (trivial; lia). change (64 - 1) with 63. change X3.W with (2 ^ 64).
  assert (M : forall a b k, a = b + k * 2 ^ 64 -> a mod 2 ^ 64 = b mod 2 ^ 64) by (intros a b k ->; apply Z_mod_plus_full).
  unfold wd in *. unfold X3.P1, X3.P4, X3.P2, X64.P1, X64.P4, X64.P2. generalize ((L - seed) * 14029467366897019727) as t. intros t.
  destruct (Z.ltb_spec l (2 ^ 63)), (Z.ltb_spec h (2 ^ 63));
    (apply (f_equal2 pair); [apply (f_equal X3.avalanche)|apply (f_equal (fun x => (0 - X3.avalanche x) mod 2 ^ 64))]).
  - apply (M _ _ 1). lia.
  - apply (M _ _ ((0x9E3779B185EBCA87 + 0x85EBCA77C2B2AE63) / 2)). lia.
  - apply (M _ _ 0). lia.
  - apply (M _ _ ((0x9E3779B185EBCA87 - 0x85EBCA77C2B2AE63) / 2)). lia.
  - apply (M _ _ 0). lia.
  - apply (M _ _ ((- 0x9E3779B185EBCA87 + 0x85EBCA77C2B2AE63) / 2)). lia.
  - apply (M _ _ (-1)). lia.
  - apply (M _ _ ((- 0x9E3779B185EBCA87 - 0x85EBCA77C2B2AE63) / 2)). lia.
Qed.
Lemma fold128_1r v : wd 64 v -> X3.fold128 (v * 1) = v.
Proof. rewrite Z.mul_1_r. intros. rewrite <- (Z.mul_1_l v) at 1. apply fold128_1; trivial. Qed.
Lemma add_top k v : wd 64 v -> (k + Z.lxor v (2 ^ 63)) mod 2 ^ 64 = Z.lxor ((k + v) mod 2 ^ 64) (2 ^ 63).
Proof.
  intros W. change 63 with (64 - 1). rewrite !lxor_top_mod by (trivial; try lia; apply mod_wd; lia). rewrite Zplus_mod_idemp_r, Zplus_mod_idemp_l. f_equal. lia.
Qed.
Lemma h32_flip s seed y b z : bytes_ok s -> bytes_ok (y ++ [b]) -> bytes_ok z -> zlen y = 7 -> zlen z = 16 ->
  X3.short128 s seed ((y ++ [b]) ++ unit17to128 s seed ++ z) = X3.short128 s seed ((y ++ [Z.lxor b 128]) ++ unit17to128 s seed ++ z).
Proof.
  intros Bs B Bz L Lz. set (K := (X3.rd8 s 8 - seed) mod X3.W). set (u := unit17to128 s seed).
  assert (WK : wd 64 K) by (apply (mod_wd 64); lia). assert (Lu : zlen u = 8) by reflexivity.
  assert (Bu : bytes_ok u) by apply bytes8_ok.
  assert (Vu : le_val u = Z.lxor 1 K) by (apply bytes8_val; apply lxor_bound; trivial; [lia|split; [lia|reflexivity]]).
  set (S0 := (X3.rd8 s 0 + seed) mod X3.W). set (M2 := X3.mixStep s z 16 seed). set (q := (X3.rd8 z 0 + X3.rd8 z 8) mod X3.W).
  assert (WS : wd 64 S0) by (apply (mod_wd 64); lia).
  assert (G : forall x, zlen x = 8 -> bytes_ok x -> X3.short128 s seed (x ++ u ++ z) =
    X3.mid128 (Z.lxor (((32 * X3.P1) mod X3.W + Z.lxor S0 (le_val x)) mod X3.W) q,
               Z.lxor ((0 + M2) mod X3.W) ((le_val u + le_val x) mod X3.W)) 32 seed).
  { intros x Lx Bx. unfold X3.short128. assert (LL : len (x ++ u ++ z) = 32) by (rewrite len_zlen, !zlen_app; lia). rewrite LL.
    cbn [Z.eqb Z.leb Z.compare Pos.compare Pos.compare_cont]. unfold X3.mid17to128_128. rewrite LL. change (X3.down ((32 - 1) / 32 + 1)) with [0]. cbn [fold_left].
    unfold X3.mixTwoChunks. cbn [fst snd]. change (32 - 16 * 0 - 16) with 16. change (16 * 0) with 0. change (32 * 0) with 0. change (0 + 16) with 16.
    assert (C1 : X3.chunk (x ++ u ++ z) 0 = x ++ u).
    { unfold X3.chunk. rewrite seg_zslice, app_assoc, zslice_app_l by llia. apply zslice_all. llia. }
    assert (C2 : X3.chunk (x ++ u ++ z) 16 = z).
    { unfold X3.chunk. rewrite seg_zslice, (zslice_app_r x), (zslice_app_r u) by llia. rewrite Lx, Lu. apply zslice_all. lia. }
    rewrite C1, C2. fold M2 q.
    assert (R1 : X3.rd8 (x ++ u) 0 = le_val x) by (apply (rd8_at [] x u); trivial; reflexivity).
    assert (R2 : X3.rd8 (x ++ u) 8 = le_val u) by (rewrite <- (app_nil_r u) at 1; apply (rd8_at x u []); lia).
    rewrite R1, R2. unfold X3.mixStep. rewrite R1, R2. change (0 + 8) with 8. fold K S0. rewrite Vu at 1. rewrite Z.lxor_assoc, Z.lxor_nilpotent, Z.lxor_0_r.
    rewrite fold128_1r by (apply lxor_bound; [lia|apply (le_wd 8 _ Bx); lia|trivial]). rewrite (Z.lxor_comm (le_val x)), (Z.add_comm (le_val x)). reflexivity. }
  assert (L8 : forall c, zlen (y ++ [c]) = 8) by (intros; rewrite zlen_app, L; reflexivity).
  rewrite !G by (trivial; apply bytes_top; trivial). rewrite le_val_top by trivial.
  pose proof (le_wd 8 _ B ltac:(rewrite L8; lia)) as Wx. change (8 * 8) with 64 in Wx. set (v := le_val (y ++ [b])) in *. clearbody v. change X3.W with (2 ^ 64).
  rewrite <- Z.lxor_assoc, !add_top by (trivial; apply lxor_bound; trivial; lia).
  set (A := (_ + Z.lxor S0 v) mod 2 ^ 64). set (C := (le_val u + v) mod 2 ^ 64). set (D := (0 + M2) mod 2 ^ 64).
  rewrite (Z.lxor_assoc A), (Z.lxor_comm (2 ^ 63) q), <- (Z.lxor_assoc A q). rewrite <- (Z.lxor_assoc D C).
  symmetry. apply mid128_top; apply lxor_bound; try apply (mod_wd 64); lia.
Qed.

(* ------------------------------------------------------------------ *)
(** ** XXH3 128-bit, 17 to 128 bytes: a change in the low 62 bits of one word *)
Definition low62 (x : Z) : Z := x mod 2 ^ 62.
Lemma low62_lxor x y : low62 (Z.lxor x y) = Z.lxor (low62 x) (low62 y).
Proof. unfold low62. rewrite <- !Z.land_ones by lia. apply Z.bits_inj'. intros n Hn. rewrite !Z.land_spec, !Z.lxor_spec, !Z.land_spec. destruct (Z.testbit x n), (Z.testbit y n), (Z.testbit (Z.ones 62) n); reflexivity. Qed.
Lemma low62_mod x : low62 (x mod 2 ^ 64) = low62 x.
Proof. unfold low62. change (2 ^ 64) with (2 ^ 62 * 4). rewrite Z.rem_mul_r by lia. rewrite Z.mul_comm, Z_mod_plus_full. apply Z.mod_mod. lia. Qed.
Lemma low62_add k x y : low62 (x + k) = low62 (y + k) -> low62 x = low62 y.
Proof.
  unfold low62. intros E. apply mod_eq_div in E; [|lia]. replace (x + k - (y + k)) with (x - y) in E by lia. destruct E as [q E].
  replace x with (y + q * 2 ^ 62) by lia. apply Z_mod_plus_full.
Qed.
(** one lane of a step: [x] is the accumulator, [k] the mixed word and [r] the sum of two words *)
Lemma lane_keep x y k r : low62 x <> low62 y -> low62 (Z.lxor ((x + k) mod X3.W) r) <> low62 (Z.lxor ((y + k) mod X3.W) r).
Proof.
  intros N E. apply N. rewrite !low62_lxor in E. apply lxor_inj_r in E. change X3.W with (2 ^ 64) in E. rewrite !low62_mod in E. apply low62_add in E. exact E.
Qed.
Lemma lane_enter x r r' : low62 r <> low62 r' -> low62 (Z.lxor x (r mod X3.W)) <> low62 (Z.lxor x (r' mod X3.W)).
Proof. intros N E. apply N. rewrite !low62_lxor in E. apply lxor_inj in E. change X3.W with (2 ^ 64) in E. rewrite !low62_mod in E. exact E. Qed.
Lemma mid128_inj62 l h l' h' L seed : X3.mid128 (l, h) L seed = X3.mid128 (l', h') L seed -> low62 l = low62 l' /\ low62 h = low62 h'.
Proof.
  unfold X3.mid128. cbn [fst snd]. change X3.W with (2 ^ 64). intros E. pose proof (f_equal fst E) as E1. pose proof (f_equal snd E) as E2. cbn [fst snd] in E1, E2. clear E.
  apply aval3_inj in E1; try (apply mod_wd; lia). apply (sub_inj 64) in E2; try lia.
  2, 3: unfold X3.avalanche; apply (xorshift_wd 64); try lia; apply (mod_wd 64); lia.
  apply aval3_inj in E2; try (apply mod_wd; lia). apply mod_eq_div in E1, E2; try lia. destruct E1 as [a E1], E2 as [d E2].
  assert (D : (2 ^ 62 | l - l')).
  { apply (Gauss _ ((X3.P1 - X3.P4) / 4)).
    - exists (d - X3.P4 * a). change X3.P1 with 0x9E3779B185EBCA87 in *. change X3.P4 with 0x85EBCA77C2B2AE63 in *.
      change ((0x9E3779B185EBCA87 - 0x85EBCA77C2B2AE63) / 4) with 437671385696716553. lia.
    - apply odd_coprime; [lia|vm_compute; reflexivity]. }
  destruct D as [k D]. unfold low62. split.
  - replace l with (l' + k * 2 ^ 62) by lia. apply Z_mod_plus_full.
  - replace h with (h' + (4 * a - k) * 2 ^ 62) by lia. apply Z_mod_plus_full.
Qed.
(** the words of [A i] and [B i] enter at step [i]; only one chunk of one step differs *)
Section Rounds.
Context (s : list Z) (seed : Z) (A A' B B' : Z -> list Z) (o : Z -> Z) (i0 : Z).
Let f (A B : Z -> list Z) := fun acc i => X3.mixTwoChunks s acc (A i) (B i) (o i) seed.
Let sum (d : list Z) := X3.rd8 d 0 + X3.rd8 d 8.
Definition apart (a a' : Z * Z) : Prop := low62 (fst a) <> low62 (fst a') \/ low62 (snd a) <> low62 (snd a').
Lemma rounds_same l a : (forall i, In i l -> A i = A' i /\ B i = B' i) -> fold_left (f A B) l a = fold_left (f A' B') l a.
Proof.
  revert a. induction l as [|i l IH]; intros a H; [reflexivity|]. cbn [fold_left]. destruct (H i (or_introl eq_refl)) as [E1 E2].
  unfold f at 2 4. rewrite E1, E2. apply IH. intros j Hj. apply H. right. exact Hj.
Qed.
Lemma rounds_keep l a a' : (forall i, In i l -> A i = A' i /\ B i = B' i) -> apart a a' -> apart (fold_left (f A B) l a) (fold_left (f A' B') l a').
Proof.
  revert a a'. induction l as [|i l IH]; intros a a' H N; [exact N|]. cbn [fold_left]. apply IH; [intros; apply H; right; trivial|].
  destruct (H i (or_introl eq_refl)) as [E1 E2]. unfold f. rewrite E1, E2. unfold X3.mixTwoChunks. destruct N as [N|N]; [left|right]; cbn [fst snd]; apply lane_keep; exact N.
Qed.
Lemma rounds_apart l a : NoDup l -> In i0 l -> (forall i, In i l -> i <> i0 -> A i = A' i /\ B i = B' i) ->
  (A i0 = A' i0 /\ low62 (sum (B i0)) <> low62 (sum (B' i0)) \/ B i0 = B' i0 /\ low62 (sum (A i0)) <> low62 (sum (A' i0))) ->
  apart (fold_left (f A B) l a) (fold_left (f A' B') l a).
Proof.
  intros ND I H N. destruct (in_split _ _ I) as (l1 & l2 & ->). apply NoDup_remove_2 in ND. rewrite !fold_left_app. cbn [fold_left].
  assert (H1 : forall i, In i (l1 ++ l2) -> A i = A' i /\ B i = B' i).
  { intros i Hi. apply H; [|intros ->; exact (ND Hi)]. apply in_app_iff in Hi. apply in_app_iff. cbn [In]. tauto. }
  rewrite (rounds_same l1) by (intros; apply H1, in_app_iff; tauto).
  apply rounds_keep; [intros; apply H1, in_app_iff; tauto|]. generalize (fold_left (f A' B') l1 a) as x. intros x.
  unfold f, X3.mixTwoChunks, apart. cbn [fst snd]. destruct N as [[-> N]|[-> N]]; [left|right]; apply lane_enter; exact N.
Qed.
End Rounds.
Lemma in_down n i : In i (X3.down n) <-> 0 <= i < n.
Proof.
  unfold X3.down. rewrite <- in_rev. unfold upto. rewrite in_map_iff. split.
  - intros (k & <- & Hk). apply in_seq in Hk. lia.
  - intros H. exists (Z.to_nat i). split; [lia|]. apply in_seq. lia.
Qed.
Lemma down_nodup n : NoDup (X3.down n).
Proof.
  unfold X3.down, upto. apply NoDup_rev. apply FinFun.Injective_map_NoDup; [|apply seq_NoDup]. intros a b E. lia.
Qed.

(** a word read by one 16-byte window only: by the [r] windows at the front or by the [r] windows at the back *)
Definition single_window (L o : Z) : Prop :=
  let r := (L - 1) / 32 + 1 in (o mod 8 = 0 /\ o + 8 <= L - 16 * r) \/ ((L - o) mod 8 = 0 /\ 16 * r <= o).
Section Word128.
Context (a w w' b : list Z).
Hypothesis Lw : zlen w = 8.
Hypothesis Lw' : zlen w' = 8.
Hypothesis N : low62 (le_val w) <> low62 (le_val w').
Let L := zlen (a ++ w ++ b).
Let r := (L - 1) / 32 + 1.
Lemma chunk_out o : 0 <= o -> o + 16 <= L -> o + 16 <= zlen a \/ zlen a + 8 <= o -> X3.chunk (a ++ w ++ b) o = X3.chunk (a ++ w' ++ b) o.
Proof. intros H1 H2 H3. unfold X3.chunk. rewrite !seg_zslice. apply zslice_outside; unfold L in *; lia. Qed.
Lemma chunk_in o : 0 <= o -> o + 16 <= L -> zlen a = o \/ zlen a = o + 8 ->
  low62 (X3.rd8 (X3.chunk (a ++ w ++ b) o) 0 + X3.rd8 (X3.chunk (a ++ w ++ b) o) 8) <>
  low62 (X3.rd8 (X3.chunk (a ++ w' ++ b) o) 0 + X3.rd8 (X3.chunk (a ++ w' ++ b) o) 8).
Proof.
  assert (EL : zlen (a ++ w' ++ b) = L) by (unfold L; rewrite !zlen_app; lia).
  intros H1 H2 H3. unfold X3.chunk. rewrite !rd8_zslice, !seg_zslice, !zslice_zslice by (unfold L in *; lia). rewrite Z.add_0_r.
  destruct H3 as [H3|H3].
  - rewrite <- H3. replace (zslice (a ++ w ++ b) (zlen a) 8) with w by (rewrite <- Lw; symmetry; apply zslice_inside).
    replace (zslice (a ++ w' ++ b) (zlen a) 8) with w' by (rewrite <- Lw'; symmetry; apply zslice_inside).
    rewrite (zslice_outside a w w' b (zlen a + 8)) by (unfold L in *; lia). intros E. apply low62_add in E. exact (N E).
  - rewrite <- H3. replace (zslice (a ++ w ++ b) (zlen a) 8) with w by (rewrite <- Lw; symmetry; apply zslice_inside).
    replace (zslice (a ++ w' ++ b) (zlen a) 8) with w' by (rewrite <- Lw'; symmetry; apply zslice_inside).
    rewrite (zslice_outside a w w' b o) by (unfold L in *; lia). rewrite !(Z.add_comm (le_val (zslice (a ++ w' ++ b) o 8))).
    intros E. apply low62_add in E. exact (N E).
Qed.
Lemma short128_word s seed : 17 <= L <= 128 -> single_window L (zlen a) -> X3.short128 s seed (a ++ w ++ b) <> X3.short128 s seed (a ++ w' ++ b).
Proof.
  intros HL SW E. assert (EL : zlen (a ++ w' ++ b) = L) by (unfold L; rewrite !zlen_app; lia).
  unfold X3.short128 in E. cbv zeta in E. change (len (a ++ w ++ b)) with L in E. change (len (a ++ w' ++ b)) with (zlen (a ++ w' ++ b)) in E. rewrite EL in E.
  replace (L =? 0) with false in E by lia. replace (L <=? 3) with false in E by lia. replace (L <=? 8) with false in E by lia.
  replace (L <=? 16) with false in E by lia. replace (L <=? 128) with true in E by lia.
  unfold X3.mid17to128_128 in E. cbv zeta in E. change (len (a ++ w ++ b)) with L in E. change (len (a ++ w' ++ b)) with (zlen (a ++ w' ++ b)) in E. rewrite EL in E. fold r in E.
  pose proof (zlen_nonneg a) as La. assert (Hr : 16 * r <= L /\ L <= 32 * r) by (unfold r; dlia).
  set (i0 := if zlen a <? 16 * r then zlen a / 16 else (L - zlen a - 8) / 16).
  set (A := fun m i => X3.chunk m (16 * i)). set (B := fun m i => X3.chunk m (L - 16 * i - 16)).
  assert (AP : apart (fold_left (fun acc i => X3.mixTwoChunks s acc (A (a ++ w ++ b) i) (B (a ++ w ++ b) i) (32 * i) seed) (X3.down r) ((L * X3.P1) mod X3.W, 0))
                     (fold_left (fun acc i => X3.mixTwoChunks s acc (A (a ++ w' ++ b) i) (B (a ++ w' ++ b) i) (32 * i) seed) (X3.down r) ((L * X3.P1) mod X3.W, 0))).
  { unfold single_window in SW. fold r in SW. cbv zeta in SW.
    assert (LL : L = zlen a + 8 + zlen b) by (unfold L; rewrite !zlen_app; lia). pose proof (zlen_nonneg b).
    apply (rounds_apart s seed (A (a ++ w ++ b)) (A (a ++ w' ++ b)) (B (a ++ w ++ b)) (B (a ++ w' ++ b)) (fun i => 32 * i) i0).
    - apply down_nodup.
    - apply in_down. unfold i0. destruct (Z.ltb_spec (zlen a) (16 * r)); dlia.
    - intros i Hi Ni. apply in_down in Hi. unfold i0 in Ni. unfold A, B.
      destruct (Z.ltb_spec (zlen a) (16 * r)); split; apply chunk_out; dlia.
    - unfold i0. destruct (Z.ltb_spec (zlen a) (16 * r)) as [C|C]; [right|left]; unfold A, B; (split; [apply chunk_out; dlia|apply chunk_in; dlia]). }
  unfold A, B in AP. apply (f_equal (fun x => x)) in E.
  destruct (fold_left _ _ _) as [l h] in AP, E. destruct (fold_left _ _ _) as [l' h'] in AP, E.
  apply mid128_inj62 in E. unfold apart in AP. cbn [fst snd] in AP. tauto.
Qed.
(** 129 to 240 bytes, a word after the first 128 bytes *)
Lemma short128_word_late s seed : 129 <= L <= 240 ->
  zlen a mod 8 = 0 /\ 128 <= zlen a /\ zlen a + 8 <= L - 32 \/ (L - zlen a) mod 8 = 0 /\ 32 * (L / 32) <= zlen a ->
  X3.short128 s seed (a ++ w ++ b) <> X3.short128 s seed (a ++ w' ++ b).
Proof.
  intros HL SW E. assert (EL : zlen (a ++ w' ++ b) = L) by (unfold L; rewrite !zlen_app; lia).
  unfold X3.short128 in E. cbv zeta in E. change (len (a ++ w ++ b)) with L in E. change (len (a ++ w' ++ b)) with (zlen (a ++ w' ++ b)) in E. rewrite EL in E.
  replace (L =? 0) with false in E by lia. replace (L <=? 3) with false in E by lia. replace (L <=? 8) with false in E by lia.
  replace (L <=? 16) with false in E by lia. replace (L <=? 128) with false in E by lia.
  unfold X3.mid129to240_128 in E. cbv zeta in E. change (len (a ++ w ++ b)) with L in E. change (len (a ++ w' ++ b)) with (zlen (a ++ w' ++ b)) in E. rewrite EL in E.
  pose proof (zlen_nonneg a) as La. assert (LL : L = zlen a + 8 + zlen b) by (unfold L; rewrite !zlen_app; lia). pose proof (zlen_nonneg b).
  set (n := L / 32) in *. assert (Hn : 32 * n <= L < 32 * n + 32) by (unfold n; dlia). clearbody n.
  assert (Ha : 128 <= zlen a) by (destruct SW as [SW|SW]; lia).
  set (A := fun (m : list Z) i => X3.chunk m (32 * i)). set (B := fun (m : list Z) i => X3.chunk m (32 * i + 16)).
  assert (F : fold_left (fun acc i => X3.mixTwoChunks s acc (A (a ++ w ++ b) i) (B (a ++ w ++ b) i) (32 * i) seed) (upto 4) ((L * X3.P1) mod X3.W, 0) =
              fold_left (fun acc i => X3.mixTwoChunks s acc (A (a ++ w' ++ b) i) (B (a ++ w' ++ b) i) (32 * i) seed) (upto 4) ((L * X3.P1) mod X3.W, 0)).
  { apply (rounds_same s seed (A (a ++ w ++ b)) (A (a ++ w' ++ b)) (B (a ++ w ++ b)) (B (a ++ w' ++ b)) (fun i => 32 * i)).
    intros i Hi. apply in_upto in Hi. unfold A, B. split; apply chunk_out; lia. }
  unfold A, B in F. rewrite F in E. clear F.
  set (x := (X3.avalanche _, X3.avalanche _)) in E. clearbody x.
  set (A2 := fun (m : list Z) j => X3.chunk m (32 * (4 + j))). set (B2 := fun (m : list Z) j => X3.chunk m (32 * (4 + j) + 16)).
  assert (AP : apart (fold_left (fun acc i => X3.mixTwoChunks s acc (X3.chunk (a ++ w ++ b) (L - 16)) (X3.chunk (a ++ w ++ b) (L - 32)) 103 ((0 - seed) mod X3.W)) [0]
                       (fold_left (fun acc j => X3.mixTwoChunks s acc (A2 (a ++ w ++ b) j) (B2 (a ++ w ++ b) j) (32 * j + 3) seed) (upto (n - 4)) x))
                     (fold_left (fun acc i => X3.mixTwoChunks s acc (X3.chunk (a ++ w' ++ b) (L - 16)) (X3.chunk (a ++ w' ++ b) (L - 32)) 103 ((0 - seed) mod X3.W)) [0]
                       (fold_left (fun acc j => X3.mixTwoChunks s acc (A2 (a ++ w' ++ b) j) (B2 (a ++ w' ++ b) j) (32 * j + 3) seed) (upto (n - 4)) x))).
  { assert (UN : NoDup (upto (n - 4))) by (apply FinFun.Injective_map_NoDup; [intros p q Q; lia|apply seq_NoDup]).
    assert (UI : forall j, 0 <= j < n - 4 -> In j (upto (n - 4))).
    { intros j Hj. unfold upto. apply in_map_iff. exists (Z.to_nat j). split; [lia|]. apply in_seq. lia. }
    destruct SW as [(M8 & _ & Hb)|(M8 & Hb)].
    - apply (rounds_keep s ((0 - seed) mod X3.W) (fun _ => X3.chunk (a ++ w ++ b) (L - 16)) (fun _ => X3.chunk (a ++ w' ++ b) (L - 16))
              (fun _ => X3.chunk (a ++ w ++ b) (L - 32)) (fun _ => X3.chunk (a ++ w' ++ b) (L - 32)) (fun _ => 103)).
      + intros _ _. split; apply chunk_out; lia.
      + apply (rounds_apart s seed (A2 (a ++ w ++ b)) (A2 (a ++ w' ++ b)) (B2 (a ++ w ++ b)) (B2 (a ++ w' ++ b)) (fun j => 32 * j + 3) (zlen a / 32 - 4)); trivial.
        * apply UI. dlia.
        * intros j Hj Nj. apply in_upto in Hj. unfold A2, B2. split; apply chunk_out; dlia.
        * unfold A2, B2. replace (4 + (zlen a / 32 - 4)) with (zlen a / 32) by lia.
          destruct (Z.ltb_spec (zlen a mod 32) 16); [right|left]; (split; [apply chunk_out; dlia|apply chunk_in; dlia]).
    - assert (Q : fold_left (fun acc j => X3.mixTwoChunks s acc (A2 (a ++ w ++ b) j) (B2 (a ++ w ++ b) j) (32 * j + 3) seed) (upto (n - 4)) x =
                  fold_left (fun acc j => X3.mixTwoChunks s acc (A2 (a ++ w' ++ b) j) (B2 (a ++ w' ++ b) j) (32 * j + 3) seed) (upto (n - 4)) x).
      { apply (rounds_same s seed (A2 (a ++ w ++ b)) (A2 (a ++ w' ++ b)) (B2 (a ++ w ++ b)) (B2 (a ++ w' ++ b)) (fun j => 32 * j + 3)).
        intros j Hj. apply in_upto in Hj. unfold A2, B2. split; apply chunk_out; lia. }
      rewrite Q. apply (rounds_apart s ((0 - seed) mod X3.W) (fun _ => X3.chunk (a ++ w ++ b) (L - 16)) (fun _ => X3.chunk (a ++ w' ++ b) (L - 16))
              (fun _ => X3.chunk (a ++ w ++ b) (L - 32)) (fun _ => X3.chunk (a ++ w' ++ b) (L - 32)) (fun _ => 103) 0).
      + repeat constructor. intros [].
      + left. reflexivity.
      + intros i [<-|[]] Hi. destruct Hi. reflexivity.
      + destruct (Z.ltb_spec (zlen a) (L - 16)); [left|right]; (split; [apply chunk_out; dlia|apply chunk_in; dlia]). }
  unfold A2, B2 in AP. cbn [fold_left] in AP.
  destruct (X3.mixTwoChunks _ _ _ _ _ _) as [l h] in AP, E. destruct (X3.mixTwoChunks _ _ _ _ _ _) as [l' h'] in AP, E.
  apply mid128_inj62 in E. unfold apart in AP. cbn [fst snd] in AP. tauto.
Qed.
End Word128.
