(** SVE kernels, custom-secret kernels, and the kernel each configuration selects. *)
From Verif Require Import Base Mem M_XXH32 M_XXH64 M_XXH3 M_Kernels Spec3 P_Base P_Spec P_XXH64 P_X3_Base P_Kernels.

(* ------------------------------------------------------------------ *)
(** ** SVE *)
Lemma do_while_inv {S} n (body : S -> res S) cond (I : nat -> S -> Prop) s0 : (0 < n)%nat -> I O s0 ->
  (forall i s, (i < n)%nat -> I i s -> exists s', body s = OK s' /\ I (Datatypes.S i) s' /\ cond s' = (Datatypes.S i <? n)%nat) ->
  exists s', do_while n body cond s0 = OK s' /\ I n s'.
Proof.
  intros Hn H0 Hs.
  assert (G : forall k fuel i s, (k <= fuel)%nat -> (0 < i)%nat -> (i + k = n)%nat -> I i s -> cond s = (i <? n)%nat ->
              exists s', while_ fuel cond body s = OK s' /\ I n s').
  { induction k; intros fuel i s Hf Hi Hk HI Hc.
    - exists s. replace (i <? n)%nat with false in Hc by (symmetry; apply Nat.ltb_ge; lia).
      destruct fuel; cbn [while_]; rewrite Hc; (split; [reflexivity|]); replace n with i by lia; assumption.
    - replace (i <? n)%nat with true in Hc by (symmetry; apply Nat.ltb_lt; lia).
      destruct fuel as [|fuel]; [lia|]. cbn [while_]. rewrite Hc. destruct (Hs i s ltac:(lia) HI) as (s' & Eb & HI' & Ec).
      rewrite Eb. cbn [bind]. apply (IHk fuel (Datatypes.S i)); trivial; lia. }
  unfold do_while. destruct (Hs O s0 Hn H0) as (s' & Eb & HI' & Ec). rewrite Eb. cbn [bind].
  apply (G (n - 1)%nat n 1%nat s'); trivial; lia.
Qed.

Lemma nth_map_seq {A} (f : nat -> A) n i d : (i < n)%nat -> nth i (map f (seq 0 n)) d = f i.
Proof.
  intros H. rewrite nth_indep with (d' := f O) by (rewrite map_length, seq_length; lia).
  rewrite (map_nth f). rewrite seq_nth by lia. reflexivity.
Qed.
Lemma sv_x_nth d act junk v i : (i < act)%nat -> (act <= d)%nat -> nth i (sv_x d act junk v) 0 = nth i v 0.
Proof.
  intros. unfold sv_x. rewrite nth_map_seq by lia. replace (i <? act)%nat with true by (symmetry; apply Nat.ltb_lt; lia). reflexivity.
Qed.
Lemma sv_x_len d act junk v : length (sv_x d act junk v) = d.
Proof. unfold sv_x. rewrite map_length, seq_length. reflexivity. Qed.
Lemma map2_len f a b : length a = length b -> length (map2 f a b) = length a.
Proof. intros. unfold map2. rewrite map_length, combine_length. lia. Qed.
Lemma map2_nth f a b i : length a = length b -> (i < length a)%nat -> nth i (map2 f a b) 0 = f (nth i a 0) (nth i b 0).
Proof.
  intros L H. unfold map2. rewrite nth_indep with (d' := f (fst (0, 0)) (snd (0, 0))) by (rewrite map_length, combine_length; lia).
  rewrite (map_nth (fun p => f (fst p) (snd p))). rewrite combine_nth by assumption. reflexivity.
Qed.
Lemma map_nth0 (f : Z -> Z) v i : (i < length v)%nat -> nth i (map f v) 0 = f (nth i v 0).
Proof. intros. rewrite nth_indep with (d' := f 0) by (rewrite map_length; lia). apply map_nth. Qed.

Lemma even_small n : Nat.even n = true -> (2 <= n)%nat -> (n < 8)%nat -> (n = 2 \/ n = 4 \/ n = 6)%nat.
Proof. intros E H1 H2. do 8 (destruct n as [|n]; [first [discriminate | lia]|]). lia. Qed.

Section Sve.
Context (c : cfg) (adr : Z) (d : nat) (junk : Z).
Hypothesis C : cfg_ok c.
Hypothesis LE : cpu_le c = true.

Lemma sv_ld1_ok p m k act : points_to p m -> 0 <= k -> (0 < act <= d)%nat -> k + 8 * Z.of_nat act <= zlen m ->
  exists v, sv_ld1 c d act (padd p k) = OK v /\ length v = d /\
            forall i, (i < act)%nat -> nth i v 0 = X3.rd8 m (k + 8 * Z.of_nat i).
Proof.
  intros P Hk Ha H. unfold sv_ld1. rewrite (vloadu_ok c p m) by (trivial; lia). cbn [bind].
  eexists. split; [reflexivity|]. split.
  - rewrite app_length, map_length, seq_length, repeat_length. lia.
  - intros i Hi. rewrite app_nth1 by (rewrite map_length, seq_length; lia). apply (nth_map_seq (fun i => X3.rd8 m (k + 8 * Z.of_nat i))); assumption.
Qed.

Definition sw (i : nat) : nat := Z.to_nat (Z.lxor (Z.of_nat i) 1).
Lemma sw_lt act i : (act = 2 \/ act = 4 \/ act = 8)%nat -> (i < act)%nat -> (sw i < act)%nat.
Proof. intros [-> | [-> | ->]] H; do 8 (destruct i as [|i]; [cbv; lia|]); lia. Qed.

Lemma ACCRND_ok act v input m secret s ki ko off : (act = 2 \/ act = 4 \/ act = 8)%nat -> (act <= d)%nat -> length v = d ->
  points_to input m -> bytes_ok m -> points_to secret s -> bytes_ok s ->
  0 <= ki -> ki + 64 <= zlen m -> 0 <= ko -> ko + 64 <= zlen s -> 0 <= off -> off + Z.of_nat act <= 8 ->
  exists v', ACCRND c d junk act v (padd input ki) (padd secret ko) off = OK v' /\ length v' = d /\
    forall i, (i < act)%nat -> nth i v' 0 =
      lane (nth i v 0) (X3.rd8 m (ki + 8 * off + 8 * Z.of_nat (sw i))) (X3.rd8 m (ki + 8 * off + 8 * Z.of_nat i))
           (X3.rd8 s (ko + 8 * off + 8 * Z.of_nat i)).
Proof.
  intros Ha Hd Lv PI BM PS BS ? ? ? ? ? ?. unfold ACCRND. rewrite !padd_padd.
  destruct (sv_ld1_ok input m (ki + 8 * off) act) as (iv & Ei & Li & Ni); [trivial|lia|lia|lia|].
  destruct (sv_ld1_ok secret s (ko + 8 * off) act) as (sv & Es & Ls & Ns); [trivial|lia|lia|lia|].
  rewrite Ei, Es. cbn [bind]. eexists. split; [reflexivity|]. split; [apply sv_x_len|].
  intros i Hi. pose proof (sw_lt act i Ha Hi) as Hs.
  assert (Lt : length (sv_tbl iv (sve_kSwap d)) = d) by (unfold sv_tbl, sve_kSwap; rewrite !map_length, seq_length; reflexivity).
  assert (Tn : nth i (sv_tbl iv (sve_kSwap d)) 0 = nth (sw i) iv 0).
  { unfold sv_tbl, sve_kSwap. rewrite map_map. rewrite nth_map_seq by lia. reflexivity. }
  rewrite sv_x_nth by lia. unfold v_add64. rewrite map2_nth; [|rewrite sv_x_len; lia|lia].
  rewrite sv_x_nth by lia. rewrite map2_nth.
  2: { rewrite map2_len; rewrite !sv_x_len; lia. }
  2: { rewrite map2_len; rewrite !sv_x_len; lia. }
  rewrite Tn. rewrite map2_nth by (rewrite !sv_x_len; lia). rewrite !sv_x_nth by lia.
  unfold v_srl64. rewrite !map_nth0 by (rewrite sv_x_len; lia). rewrite sv_x_nth by lia.
  unfold v_xor. rewrite map2_nth by lia. rewrite Ni, Ns by lia. rewrite Ni by lia.
  assert (W1 : w64 (X3.rd8 m (ki + 8 * off + 8 * Z.of_nat i))) by (apply rd8_w64; [assumption|lia|lia]).
  assert (W2 : w64 (X3.rd8 s (ko + 8 * off + 8 * Z.of_nat i))) by (apply rd8_w64; [assumption|lia|lia]).
  unfold xor at 1 2. rewrite (Z.lxor_comm (X3.rd8 s _)). fold (xor (X3.rd8 m (ki + 8 * off + 8 * Z.of_nat i)) (X3.rd8 s (ko + 8 * off + 8 * Z.of_nat i))).
  rewrite <- neon_lane by assumption. unfold add64. rewrite (Z.add_comm (mul64 _ _)). reflexivity.
Qed.

(** the registers [vs] hold the accumulators [acc] *)
Definition reg (act : nat) (acc : list Z) (o : Z) (v : list Z) : Prop :=
  length v = d /\ forall i, (i < act)%nat -> nth i v 0 = nth (Z.to_nat o + i) acc 0.
Definition shape_ok (act : nat) (offs : list Z) : Prop :=
  (act = 2%nat /\ offs = [0; 2; 4; 6]) \/ (act = 4%nat /\ offs = [0; 4]) \/ (act = 8%nat /\ offs = [0]).

Lemma acc_nth m s ki ko acc j : length acc = 8%nat -> bytes_ok m -> bytes_ok s ->
  0 <= ki -> ki + 64 <= zlen m -> 0 <= ko -> ko + 64 <= zlen s -> (j < 8)%nat ->
  nth j (X3.accumulate s acc (seg m ki (ki + 64)) ko) 0 =
  lane (nth j acc 0) (X3.rd8 m (ki + 8 * Z.of_nat (sw j))) (X3.rd8 m (ki + 8 * Z.of_nat j)) (X3.rd8 s (ko + 8 * Z.of_nat j)).
Proof.
  intros L ? ? ? ? ? ? Hj. destruct (len8 acc L) as (a0 & a1 & a2 & a3 & a4 & a5 & a6 & a7 & ->).
  rewrite spec_acc8 by assumption. cbv zeta. do 8 (destruct j as [|j]; [reflexivity|]). lia.
Qed.
Lemma sw_off o i : (o = 0 \/ o = 2 \/ o = 4 \/ o = 6)%nat -> (i < 8)%nat -> (o + sw i = sw (o + i))%nat.
Proof. intros [-> | [-> | [-> | ->]]] H; do 8 (destruct i as [|i]; [reflexivity|]); lia. Qed.

Lemma round_reg act acc input m secret s ki ko o v : (act = 2 \/ act = 4 \/ act = 8)%nat -> (act <= d)%nat ->
  length acc = 8%nat -> reg act acc o v -> o = 0 \/ o = 2 \/ o = 4 \/ o = 6 -> o + Z.of_nat act <= 8 ->
  points_to input m -> bytes_ok m -> points_to secret s -> bytes_ok s ->
  0 <= ki -> ki + 64 <= zlen m -> 0 <= ko -> ko + 64 <= zlen s -> 
  exists v', ACCRND c d junk act v (padd input ki) (padd secret ko) o = OK v' /\
    reg act (X3.accumulate s acc (seg m ki (ki + 64)) ko) o v'.
Proof.
  intros Ha Hd La [Lv Hv] Ho ? PI BM PS BS ? ? ? ?.
  destruct (ACCRND_ok act v input m secret s ki ko o) as (v' & E & L' & N); trivial; try lia.
  exists v'. split; [exact E|]. split; [exact L'|]. intros i Hi. rewrite N, Hv by assumption.
  rewrite acc_nth by (trivial; lia).
  rewrite <- sw_off by lia. pose proof (sw_lt act i Ha Hi).
  f_equal; f_equal; lia.
Qed.

Lemma rounds_reg act acc input m secret s ki ko : (act = 2 \/ act = 4 \/ act = 8)%nat -> (act <= d)%nat ->
  length acc = 8%nat -> points_to input m -> bytes_ok m -> points_to secret s -> bytes_ok s ->
  0 <= ki -> ki + 64 <= zlen m -> 0 <= ko -> ko + 64 <= zlen s ->
  forall offs vs, Forall (fun o => (o = 0 \/ o = 2 \/ o = 4 \/ o = 6) /\ o + Z.of_nat act <= 8) offs ->
  Forall2 (reg act acc) offs vs ->
  exists vs', sve_rounds c d junk act offs vs (padd input ki) (padd secret ko) = OK vs' /\
    Forall2 (reg act (X3.accumulate s acc (seg m ki (ki + 64)) ko)) offs vs'.
Proof.
  intros Ha Hd La PI BM PS BS ? ? ? ?. induction offs as [|o offs IH]; intros vs Fo R; inv R.
  - exists []. split; [reflexivity|constructor].
  - inv Fo. destruct (round_reg act acc input m secret s ki ko o y) as (v' & E & R'); trivial; try tauto.
    destruct (IH l') as (vs' & E' & R''); trivial. cbn [sve_rounds]. rewrite E. cbn [bind]. rewrite E'. cbn [bind].
    eexists. split; [reflexivity|]. constructor; assumption.
Qed.

Lemma firstn_nth n (v : list Z) : (n <= length v)%nat -> firstn n v = map (fun i => nth i v 0) (seq 0 n).
Proof.
  intros H. apply nth_ext with (d := 0) (d' := 0).
  - rewrite firstn_length, map_length, seq_length. lia.
  - intros i Hi. rewrite firstn_length in Hi. rewrite nth_map_seq by lia.
    rewrite <- (firstn_skipn n v) at 2. rewrite app_nth1 by (rewrite firstn_length; lia). reflexivity.
Qed.
Lemma reg_first act acc o v : (act <= d)%nat -> reg act acc o v ->
  firstn act v = map (fun i => nth (Z.to_nat o + i) acc 0) (seq 0 act).
Proof.
  intros Hd [L N]. rewrite firstn_nth by lia. apply map_ext_in. intros i Hi. apply in_seq in Hi. apply N. lia.
Qed.
Lemma store_reg act offs vs acc0 acc : shape_ok act offs -> (act <= d)%nat -> length acc0 = 8%nat -> length acc = 8%nat ->
  Forall2 (reg act acc) offs vs -> sve_store act acc0 offs vs = acc.
Proof.
  intros S Hd L0 L R. destruct (len8 acc L) as (a0 & a1 & a2 & a3 & a4 & a5 & a6 & a7 & ->).
  destruct (len8 acc0 L0) as (b0 & b1 & b2 & b3 & b4 & b5 & b6 & b7 & ->).
  destruct S as [[-> ->] | [[-> ->] | [-> ->]]];
  repeat match goal with H : Forall2 _ _ _ |- _ => inv H end; cbn [sve_store]; unfold sv_stacc;
  repeat match goal with H : reg _ _ _ _ |- _ => apply reg_first in H; [rewrite H; clear H|assumption] end; reflexivity.
Qed.
Lemma load_reg act offs acc : shape_ok act offs -> (act <= d)%nat -> length acc = 8%nat ->
  Forall2 (reg act acc) offs (map (fun o => sv_ldacc d act acc (Z.to_nat o)) offs).
Proof.
  intros S Hd L. destruct (len8 acc L) as (a0 & a1 & a2 & a3 & a4 & a5 & a6 & a7 & ->).
  destruct S as [[-> ->] | [[-> ->] | [-> ->]]]; cbn [map]; repeat (apply Forall2_cons || apply Forall2_nil); split;
  unfold sv_ldacc; 
  try (unfold vget; rewrite app_length, repeat_length, firstn_length, skipn_length; cbn [length]; lia);
  intros i Hi; rewrite app_nth1 by (unfold vget; rewrite firstn_length, skipn_length; cbn [length]; lia); do 8 (destruct i as [|i]; [first [reflexivity | lia]|]); lia.
Qed.
Lemma shape_spec : (Nat.even d = true) -> (2 <= d)%nat -> shape_ok (fst (sve_shape d)) (snd (sve_shape d)) /\ (fst (sve_shape d) <= d)%nat.
Proof.
  intros Hd H2. unfold sve_shape, sv_mask, shape_ok. destruct (Nat.leb_spec 8 d).
  - cbn [fst snd]. split; [tauto|lia].
  - destruct (even_small d Hd H2 ltac:(assumption)) as [-> | [-> | ->]]; cbn; (split; [tauto|lia]).
Qed.
Lemma shape_act act offs : shape_ok act offs -> (act = 2 \/ act = 4 \/ act = 8)%nat.
Proof. unfold shape_ok; tauto. Qed.
Lemma shape_offs act offs : shape_ok act offs ->
  Forall (fun o => (o = 0 \/ o = 2 \/ o = 4 \/ o = 6) /\ o + Z.of_nat act <= 8) offs.
Proof. intros [[-> ->] | [[-> ->] | [-> ->]]]; repeat (apply Forall_cons || apply Forall_nil); lia. Qed.

Hypothesis E : Nat.even d = true.
Hypothesis G2 : (2 <= d)%nat.

Lemma sve_512 : ok512 c adr (accumulate_512_sve c d junk).
Proof.
  intros acc input m secret s ki ko [L WA] PI BM PS BS ? ? ? ?. unfold accumulate_512_sve.
  destruct (shape_spec E G2) as [S Hd]. destruct (sve_shape d) as [act offs]. cbn [fst snd] in *.
  destruct (rounds_reg act acc input m secret s ki ko) with (offs := offs) (vs := map (fun o => sv_ldacc d act acc (Z.to_nat o)) offs)
    as (vs' & Ev & R'); trivial.
  - eapply shape_act; eassumption.
  - apply shape_offs; assumption.
  - apply load_reg; assumption.
  - rewrite Ev. cbn [bind]. f_equal. apply store_reg; trivial.
Qed.
Lemma sve_acc : okacc c adr (accumulate_sve c d junk).
Proof.
  intros acc input m secret s ki ko n [L WA] PI BM PS BS Hn Hki Hm Hko Hs. unfold accumulate_sve.
  destruct (Z.eqb_spec n 0) as [->|Hn0]; [reflexivity|].
  destruct (shape_spec E G2) as [S Hd]. destruct (sve_shape d) as [act offs]. cbn [fst snd] in *.
  match goal with |- context [do_while ?f ?b ?cd ?st] =>
    destruct (do_while_inv f b cd (fun i q => let '(vs, xi, xs, nb) := q in
       Forall2 (reg act (acc_n s m ki ko (Z.of_nat i) acc)) offs vs /\ xi = padd input (ki + 64 * Z.of_nat i) /\
       xs = padd secret (ko + 8 * Z.of_nat i) /\ nb = n - Z.of_nat i) st) as (st' & Es & Is) end.
  - lia.
  - cbv beta iota. rewrite !Z.mul_0_r, !Z.add_0_r, Z.sub_0_r. split; [|tauto]. apply load_reg; trivial.
  - intros i [[[vs xi] xs] nb] Hi (R & -> & -> & ->).
    assert (La : length (acc_n s m ki ko (Z.of_nat i) acc) = 8%nat) by (apply acc_n_wacc; split; assumption).
    destruct (rounds_reg act (acc_n s m ki ko (Z.of_nat i) acc) input m secret s (ki + 64 * Z.of_nat i) (ko + 8 * Z.of_nat i))
      with (offs := offs) (vs := vs) as (vs' & Ev & R'); trivial; try lia.
    { eapply shape_act; eassumption. }
    { apply shape_offs; assumption. }
    rewrite Ev. cbn [bind]. eexists. split; [reflexivity|]. rewrite !padd_padd.
    split.
    + replace (Z.of_nat (Datatypes.S i)) with (Z.of_nat i + 1) by lia. split; [|repeat split; try (f_equal; lia); lia].
      unfold acc_n. rewrite fold_upto_S by lia. exact R'.
    + destruct (Z.eqb_spec (n - Z.of_nat i - 1) 0); cbn [negb]; symmetry; [apply Nat.ltb_ge|apply Nat.ltb_lt]; lia.
  - rewrite Es. destruct st' as [[[vs xi] xs] nb]. destruct Is as (R & _). cbn [bind]. f_equal.
    rewrite Z2Nat.id in R by lia. apply store_reg; trivial. apply acc_n_wacc; split; assumption.
Qed.
End Sve.

(* ------------------------------------------------------------------ *)
(** ** Custom secret *)
Definition kword (j : Z) : Z := X3.rd8 kSecret (8 * j).
Definition eword (seed j : Z) : Z := if Z.even j then u64 (kword j + seed) else u64 (kword j - seed).
Lemma eword_w64 seed j : w64 (eword seed j).
Proof. unfold eword. destruct (Z.even j); apply u64_range. Qed.
Lemma derive_eq seed : X3.deriveSecret seed = flat_map (le_bytes 8) (map (eword seed) (upto 24)).
Proof.
  unfold X3.deriveSecret, X3.bytes_of. rewrite flat_map_concat_map, !map_map. f_equal.
  assert (E : combine (upto 24) X3.default_words = map (fun j => (j, kword j)) (upto 24)) by (vm_compute; reflexivity).
  rewrite E, map_map. apply map_ext. intros j. cbn [fst snd]. fold (eword seed j). 
  transitivity (X3.bytes8 (eword seed j)); [unfold eword; rewrite <- !modW; reflexivity|].
  apply bytes8_eq. apply eword_w64.
Qed.

Lemma writeLE64_ok c b o v : w64 v -> writeLE64 c b o v = store b o (le_bytes 8 v).
Proof.
  intros W. unfold writeLE64, native_bytes. destruct (cpu_le c); [reflexivity|]. f_equal.
  assert (V : v = le_val (le_bytes 8 v)) by (rewrite le_bytes_val by apply W; symmetry; apply Z.mod_small, W).
  assert (B : bytes_ok (le_bytes 8 v)) by apply le_bytes_ok.
  assert (L : zlen (le_bytes 8 v) = 8) by apply (le_bytes_len 8).
  set (l := le_bytes 8 v) in *. clearbody l. subst v. rewrite swap64_val by assumption.
  replace 8%nat with (length (rev l)) by (rewrite rev_length; unfold zlen in L; lia).
  rewrite le_val_bytes by (apply bytes_ok_rev; assumption). apply rev_involutive.
Qed.

(** the destination after [n] words *)
Definition pre (seed n : Z) : list Z := flat_map (le_bytes 8) (map (eword seed) (upto n)).
Definition part (seed : Z) (dest : list Z) (n : Z) : list Z := pre seed n ++ zslice dest (8 * n) (192 - 8 * n).
Lemma pre_S seed n : 0 <= n -> pre seed (n + 1) = pre seed n ++ le_bytes 8 (eword seed n).
Proof. intros. unfold pre. rewrite upto_S by lia. rewrite map_app, flat_map_app. cbn [map flat_map]. rewrite app_nil_r. reflexivity. Qed.
Lemma pre_len seed n : 0 <= n -> zlen (pre seed n) = 8 * n.
Proof.
  intros H; revert n H. apply natlike_ind; [reflexivity|]. intros n Hn IH. change (Z.succ n) with (n + 1).
  rewrite pre_S by lia. rewrite zlen_app, IH, le_bytes_len. lia.
Qed.
Lemma part_store seed dest n bs k : zlen dest = 192 -> 0 <= n -> 0 <= k -> n + k <= 24 ->
  pre seed (n + k) = pre seed n ++ bs ->
  store (part seed dest n) (8 * n) bs = OK (part seed dest (n + k)).
Proof.
  intros L Hn Hk H E.
  assert (Lb : zlen bs = 8 * k).
  { pose proof (f_equal zlen E) as Q. rewrite zlen_app, !pre_len in Q by lia. lia. }
  pose proof (pre_len seed n Hn) as Lp. unfold part at 1.
  rewrite store_ok; [|lia|rewrite zlen_app, zlen_zslice by lia; lia]. f_equal. unfold part. rewrite E, <- app_assoc.
  f_equal; [|f_equal].
  - rewrite zslice_app_l by lia. apply zslice_all. lia.
  - rewrite Lb. replace (zlen (pre seed n ++ zslice dest (8 * n) (192 - 8 * n)) - 8 * n - 8 * k) with (192 - 8 * (n + k))
      by (rewrite zlen_app, zlen_zslice by lia; lia).
    rewrite zslice_app_r by (rewrite ?zlen_zslice by lia; lia). rewrite zslice_zslice by lia. f_equal; lia.
Qed.
Lemma part_0 seed dest : zlen dest = 192 -> part seed dest 0 = dest.
Proof. intros L. unfold part, pre. cbn [upto]. rewrite upto_0 by lia. cbn [map flat_map app]. apply zslice_all. lia. Qed.
Lemma part_24 seed dest : zlen dest = 192 -> part seed dest 24 = X3.deriveSecret seed.
Proof.
  intros L. rewrite derive_eq. unfold part. change (192 - 8 * 24) with 0. rewrite zslice_0. apply app_nil_r.
Qed.

Lemma combine_map {A} (f g : A -> Z) l : combine (map f l) (map g l) = map (fun x => (f x, g x)) l.
Proof. induction l as [|a l IH]; [reflexivity|]. cbn [map combine]. rewrite IH. reflexivity. Qed.
Lemma pre_add seed b n : 0 <= b ->
  pre seed (b + Z.of_nat n) = pre seed b ++ flat_map (le_bytes 8) (map (fun j => eword seed (b + Z.of_nat j)) (seq 0 n)).
Proof.
  intros Hb. induction n as [|n IH]; [cbn [seq map flat_map]; rewrite Z.add_0_r, app_nil_r; reflexivity|].
  rewrite seq_S, map_app, flat_map_app, app_assoc, <- IH. replace (b + Z.of_nat (S n)) with (b + Z.of_nat n + 1) by lia.
  rewrite pre_S by lia. cbn [map flat_map Nat.add]. rewrite app_nil_r. reflexivity.
Qed.

Section Init.
Context (c : cfg) (adr : Z).
Hypothesis C : cfg_ok c.
Lemma kread k : 0 <= k < 24 -> readLE64 c (padd kSecret_ptr (8 * k)) = OK (kword k).
Proof.
  intros. apply (R8 c _ kSecret); trivial; try apply kSecret_points; try apply kSecret_bytes; try lia. rewrite kSecret_len; lia.
Qed.
Lemma kword_w64 k : 0 <= k < 24 -> w64 (kword k).
Proof. intros. apply rd8_w64; [apply kSecret_bytes|lia|rewrite kSecret_len; lia]. Qed.
Lemma scalar_init : okinit c adr (initCustomSecret_scalar c).
Proof.
  intros dest seed W L. unfold initCustomSecret_scalar.
  rewrite (for_count _ (fun i => part seed dest (2 * Z.of_nat i))).
  - rewrite part_24 by assumption. reflexivity.
  - symmetry. apply part_0; assumption.
  - intros i Hi. rewrite Z.add_0_l. set (n := 2 * Z.of_nat i).
    replace (16 * Z.of_nat i) with (8 * n) by lia. replace (8 * n + 8) with (8 * (n + 1)) by lia.
    rewrite !kread by lia. cbn [bind]. rewrite !writeLE64_ok by apply u64_range.
    assert (Ev : Z.even n = true) by (unfold n; rewrite Z.even_mul; reflexivity).
    assert (Od : Z.even (n + 1) = false) by (rewrite Z.add_1_r, Z.even_succ, <- Z.negb_even, Ev; reflexivity).
    rewrite (part_store seed dest n _ 1) by (trivial; try lia; rewrite pre_S by lia; unfold eword; rewrite Ev; reflexivity).
    cbn [bind]. rewrite writeLE64_ok by apply u64_range.
    rewrite (part_store seed dest (n + 1) _ 1) by (trivial; try lia; rewrite pre_S by lia; unfold eword; rewrite Od; reflexivity).
    f_equal. f_equal. lia.
Qed.
Hypothesis LE : cpu_le c = true.
Lemma v_init n seed seedv dest i : zlen dest = 192 -> w64 seed -> (n = 2 \/ n = 4 \/ n = 8)%nat ->
  seedv = map (fun j => if Nat.even j then seed else sub64 0 seed) (seq 0 n) -> 0 <= i -> Z.of_nat n * (i + 1) <= 24 ->
  init_step c n seedv i (part seed dest (Z.of_nat n * i)) = OK (part seed dest (Z.of_nat n * (i + 1))).
Proof.
  intros L W Hn -> Hi H. unfold init_step, assert_.
  replace (aligned_to (padd kSecret_ptr (8 * Z.of_nat n * i)) (8 * Z.of_nat n)) with true.
  2: { symmetry. unfold aligned_to. apply Z.eqb_eq. cbn [padd kSecret_ptr paddr]. rewrite Z.add_0_l.
       destruct Hn as [-> | [-> | ->]].
       - change (8 * Z.of_nat 2) with 16. replace (64 + 16 * i) with ((4 + i) * 16) by lia. apply Z.mod_mul. lia.
       - change (8 * Z.of_nat 4) with 32. replace (64 + 32 * i) with ((2 + i) * 32) by lia. apply Z.mod_mul. lia.
       - change (8 * Z.of_nat 8) with 64. replace (64 + 64 * i) with ((1 + i) * 64) by lia. apply Z.mod_mul. lia. }
  cbn [bind]. rewrite (vloadu_ok c _ kSecret); try assumption; try apply kSecret_points; try lia.
  2: { rewrite kSecret_len; nia. }
  cbn [bind]. replace (8 * Z.of_nat n * i) with (8 * (Z.of_nat n * i)) by lia.
  replace (Z.of_nat n * (i + 1)) with (Z.of_nat n * i + Z.of_nat n) by lia.
  assert (Ev : Z.even (Z.of_nat n * i) = true) by (destruct Hn as [-> | [-> | ->]]; rewrite Z.even_mul; reflexivity).
  apply part_store; trivial; try nia.
  assert (Hb : 0 <= Z.of_nat n * i) by nia. set (b := Z.of_nat n * i) in *. clearbody b.
  unfold vbytes, v_add64, native_bytes, map2. rewrite LE.
  rewrite combine_map, map_map. rewrite pre_add by lia. f_equal. f_equal. apply map_ext_in. intros j Hj. apply in_seq in Hj.
  cbn [fst snd]. unfold eword, kword. rewrite Z.even_add, Ev. replace (8 * (b + Z.of_nat j)) with (8 * b + 8 * Z.of_nat j) by lia.
  replace (Z.even (Z.of_nat j)) with (Nat.even j) by (assert (j < 8)%nat by lia; clear - H0; do 8 (destruct j as [|j]; [reflexivity|]); lia).
  unfold add64, sub64. destruct (Nat.even j); cbn [Bool.eqb]; [reflexivity|]. rewrite u64_add_r. f_equal.
Qed.
Lemma avx512_init : aligned_adr adr 64 = true -> okinit c adr (initCustomSecret_avx512 c).
Proof.
  intros A dest seed W L. unfold initCustomSecret_avx512, assert_. rewrite A. cbn [bind].
  rewrite (for_count _ (fun i => part seed dest (Z.of_nat 8 * Z.of_nat i))).
  - rewrite part_24 by assumption. reflexivity.
  - symmetry; apply part_0; assumption.
  - intros i Hi. rewrite Z.add_0_l. replace (Z.of_nat (S i)) with (Z.of_nat i + 1) by lia. apply v_init; trivial; lia.
Qed.
Lemma avx2_init : aligned_adr adr 32 = true -> okinit c adr (initCustomSecret_avx2 c).
Proof.
  intros A dest seed W L. unfold initCustomSecret_avx2, assert_. rewrite A. cbn [bind].
  rewrite (for_count _ (fun i => part seed dest (Z.of_nat 4 * Z.of_nat i))).
  - rewrite part_24 by assumption. reflexivity.
  - symmetry; apply part_0; assumption.
  - intros i Hi. rewrite Z.add_0_l. replace (Z.of_nat (S i)) with (Z.of_nat i + 1) by lia. apply v_init; trivial; lia.
Qed.
Lemma sse2_init : aligned_adr adr 16 = true -> okinit c adr (initCustomSecret_sse2 c).
Proof.
  intros A dest seed W L. unfold initCustomSecret_sse2, assert_. rewrite A. cbn [bind].
  rewrite (for_count _ (fun i => part seed dest (Z.of_nat 2 * Z.of_nat i))).
  - rewrite part_24 by assumption. reflexivity.
  - symmetry; apply part_0; assumption.
  - intros i Hi. rewrite Z.add_0_l. replace (Z.of_nat (S i)) with (Z.of_nat i + 1) by lia. apply v_init; trivial; lia.
Qed.
End Init.

(* ------------------------------------------------------------------ *)
(** ** The kernels a configuration selects *)
Lemma aligned_adr_mod adr k : 0 <= k -> aligned_adr adr (2 ^ k) = (adr mod 2 ^ k =? 0).
Proof. intros. unfold aligned_adr. f_equal. rewrite <- (Z.land_ones adr k) by lia. f_equal. rewrite Z.ones_equiv. lia. Qed.
Lemma aligned_weaken adr j k : 0 <= j <= k -> aligned_adr adr (2 ^ k) = true -> aligned_adr adr (2 ^ j) = true.
Proof.
  intros H. rewrite !aligned_adr_mod by lia. rewrite !Z.eqb_eq. intros E.
  apply Z.mod_divide in E; [|apply Z.pow_nonzero; lia]. apply Z.mod_divide; [apply Z.pow_nonzero; lia|].
  eapply Z.divide_trans; [|exact E]. exists (2 ^ (k - j)). rewrite <- Z.pow_add_r by lia. f_equal. lia.
Qed.
(** what the alignment of an accumulator array guarantees to the kernel *)
Definition need (v : vectype) : Z :=
  match v with V_SCALAR => 3 | V_SSE2 => 4 | V_AVX2 => 5 | V_AVX512 => 6 | V_NEON _ _ => 4 | V_VSX => 4 | V_SVE _ _ => 3 end.
Lemma acc_align_need c adr : aligned_adr adr (acc_align c) = true -> aligned_adr adr (2 ^ need (vec c)) = true.
Proof.
  unfold acc_align. destruct (x86dispatch c).
  - change 64 with (2 ^ 6). apply aligned_weaken. destruct (vec c); cbn; lia.
  - destruct (vec c); cbn [need]; trivial. change 64 with (2 ^ 6). apply aligned_weaken. lia.
Qed.
Lemma sve_even d : (exists k, 1 <= k /\ d = 2 * k)%nat -> Nat.even d = true /\ (2 <= d)%nat.
Proof. intros (k & Hk & ->). split; [apply Nat.even_mul|lia]. Qed.

Lemma accumulate_512_ok c adr : cfg_ok c -> aligned_adr adr (acc_align c) = true -> ok512 c adr (accumulate_512 c).
Proof.
  intros C A. pose proof (acc_align_need c adr A) as N. pose proof (ok_vec c C) as V. unfold accumulate_512, vec_ok, need in *.
  destruct (vec c).
  - apply scalar512; assumption.
  - apply sse2_512; assumption.
  - apply avx2_512; assumption.
  - apply avx512_512; assumption.
  - destruct V. apply neon_512; assumption.
  - apply vsx_512; assumption.
  - destruct V as [LE V]. apply sve_even in V. apply sve_512; tauto.
Qed.
Lemma accumulate_ok c adr : cfg_ok c -> aligned_adr adr (acc_align c) = true -> okacc c adr (accumulate c).
Proof.
  intros C A. pose proof (accumulate_512_ok c adr C A) as O. pose proof (ok_vec c C) as V. unfold accumulate, vec_ok in *.
  destruct (vec c); try (apply template_ok; assumption).
  destruct V as [LE V]. apply sve_even in V. apply sve_acc; tauto.
Qed.
Lemma scrambleAcc_ok c adr : cfg_ok c -> aligned_adr adr (acc_align c) = true -> okscr c adr (scrambleAcc c).
Proof.
  intros C A. pose proof (acc_align_need c adr A) as N. pose proof (ok_vec c C) as V. unfold scrambleAcc, vec_ok, need in *.
  destruct (vec c).
  - apply scalar_scr; assumption.
  - apply sse2_scr; assumption.
  - apply avx2_scr; assumption.
  - apply avx512_scr; assumption.
  - destruct V. apply neon_scr; assumption.
  - apply vsx_scr; assumption.
  - apply scalar_scr; assumption.
Qed.
Lemma initCustomSecret_ok c adr : cfg_ok c -> aligned_adr adr (sec_align c) = true -> okinit c adr (initCustomSecret c).
Proof.
  intros C A. pose proof (ok_vec c C) as V. unfold initCustomSecret, vec_ok in *.
  destruct (1 <=? size_opt c); [apply scalar_init; assumption|].
  assert (A' : match vec c with V_SSE2 | V_AVX2 | V_AVX512 => aligned_adr adr (2 ^ need (vec c)) = true | _ => True end).
  { unfold sec_align in A. destruct (x86dispatch c) eqn:X; [apply acc_align_need in A; destruct (vec c); trivial|].
    destruct (vec c) eqn:Ev; trivial; apply acc_align_need in A; rewrite Ev in A; assumption. }
  unfold need in A'. destruct (vec c); try (apply scalar_init; assumption).
  - apply sse2_init; assumption.
  - apply avx2_init; assumption.
  - apply avx512_init; assumption.
Qed.
