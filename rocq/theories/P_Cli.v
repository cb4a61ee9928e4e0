(** Proofs about the text side of xxhsum: strings in buffers, hexadecimal text, escaping, and the exact language
    accepted by the line parser. *)
From Coq Require Import String Ascii List.
From Verif Require Import Base Mem M_Cli SpecCli P_Base.
#[local] Opaque Z.mul.

(* ------------------------------------------------------------------ *)
(** ** Buffers *)
Lemma zlen_nil {A} : zlen (@nil A) = 0. Proof. reflexivity. Qed.
Lemma skipn_pre {A} (pre s : list A) : skipn (Z.to_nat (zlen pre)) (pre ++ s) = s.
Proof.
  unfold zlen. rewrite Nat2Z.id, skipn_app, skipn_all2, Nat.sub_diag by lia. reflexivity.
Qed.
Lemma cget_at pre x post i : i = zlen pre -> cget (pre ++ x :: post) i = OK x.
Proof.
  intros ->. unfold cget. rewrite zlen_app, zlen_cons.
  pose proof (zlen_nonneg pre). pose proof (zlen_nonneg post).
  rewrite (proj2 (Z.leb_le 0 (zlen pre))) by lia. rewrite (proj2 (Z.ltb_lt _ _)) by lia. cbn [andb].
  unfold zlen. rewrite Nat2Z.id, app_nth2, Nat.sub_diag by lia. reflexivity.
Qed.
Lemma cset_at pre x post i v : i = zlen pre -> cset (pre ++ x :: post) i v = OK (pre ++ v :: post).
Proof.
  intros ->. unfold cset, store. change (zlen [v]) with 1. rewrite zlen_app, zlen_cons.
  pose proof (zlen_nonneg pre). pose proof (zlen_nonneg post).
  rewrite (proj2 (Z.leb_le 0 (zlen pre))) by lia. rewrite (proj2 (Z.leb_le _ _)) by lia. cbn [andb].
  f_equal. replace (Z.to_nat (zlen pre)) with (Datatypes.length pre) by (unfold zlen; lia).
  replace (Z.to_nat (zlen pre + 1)) with (S (Datatypes.length pre)) by (unfold zlen; lia).
  rewrite firstn_app, firstn_all, Nat.sub_diag. cbn [firstn]. rewrite app_nil_r.
  rewrite skipn_app, skipn_all2 by lia. replace (S (Datatypes.length pre) - Datatypes.length pre)%nat with 1%nat by lia.
  reflexivity.
Qed.
Lemma split_first (ch : Z) s : ~ In ch s \/ exists u v, s = u ++ ch :: v /\ ~ In ch u.
Proof.
  induction s as [|x s IH]; [left; intros []|]. destruct (Z.eq_dec x ch) as [->|N].
  - right. exists [], s. split; [reflexivity|intros []].
  - destruct IH as [IH|(u & v & -> & U)].
    + left. intros [E|E]; congruence || contradiction.
    + right. exists (x :: u), v. split; [reflexivity|]. intros [E|E]; congruence || contradiction.
Qed.
Lemma split_last (ch : Z) s : ~ In ch s \/ exists u v, s = u ++ ch :: v /\ ~ In ch v.
Proof.
  induction s as [|x s IH]; [left; intros []|]. destruct IH as [IH|(u & v & -> & U)].
  - destruct (Z.eq_dec x ch) as [->|N].
    + right. exists [], s. split; [reflexivity|exact IH].
    + left. intros [E|E]; congruence || contradiction.
  - right. exists (x :: u), v. split; [reflexivity|exact U].
Qed.
Lemma strchr_l_found u v k ch : nul_free u -> ~ In ch u -> strchr_l (u ++ ch :: v) k ch = OK (Some (k + zlen u)).
Proof.
  revert k; induction u as [|x u IH]; intros k N U; cbn [app strchr_l].
  - rewrite Z.eqb_refl, zlen_nil. f_equal. f_equal. lia.
  - rewrite (proj2 (Z.eqb_neq x ch)) by (intros ->; apply U; left; reflexivity).
    rewrite (proj2 (Z.eqb_neq x 0)) by (intros ->; apply N; left; reflexivity).
    rewrite IH by (intros E; first [exact (N (or_intror E))|exact (U (or_intror E))]). rewrite zlen_cons. f_equal. f_equal. lia.
Qed.
Lemma strchr_l_none u v k ch : ch <> 0 -> nul_free u -> ~ In ch u -> strchr_l (u ++ 0 :: v) k ch = OK None.
Proof.
  intros C. revert k; induction u as [|x u IH]; intros k N U; cbn [app strchr_l].
  - rewrite (proj2 (Z.eqb_neq 0 ch)) by congruence. reflexivity.
  - rewrite (proj2 (Z.eqb_neq x ch)) by (intros ->; apply U; left; reflexivity).
    rewrite (proj2 (Z.eqb_neq x 0)) by (intros ->; apply N; left; reflexivity).
    apply IH; intros E; first [exact (N (or_intror E))|exact (U (or_intror E))].
Qed.
Lemma strchr_found pre u v i ch : i = zlen pre -> nul_free u -> ~ In ch u -> strchr (pre ++ u ++ ch :: v) i ch = OK (Some (i + zlen u)).
Proof.
  intros -> N U. unfold strchr. pose proof (zlen_nonneg pre). rewrite (proj2 (Z.ltb_ge _ _)) by lia.
  rewrite skipn_pre. apply strchr_l_found; trivial.
Qed.
Lemma strchr_none pre u v i ch : ch <> 0 -> i = zlen pre -> nul_free u -> ~ In ch u -> strchr (pre ++ u ++ 0 :: v) i ch = OK None.
Proof.
  intros C -> N U. unfold strchr. pose proof (zlen_nonneg pre). rewrite (proj2 (Z.ltb_ge _ _)) by lia.
  rewrite skipn_pre. apply strchr_l_none; trivial.
Qed.
Lemma strrchr_l_last v w k ch l : nul_free v -> ~ In ch v -> strrchr_l (v ++ 0 :: w) k ch l = OK l.
Proof.
  revert k; induction v as [|x v IH]; intros k N U; cbn [app strrchr_l].
  - reflexivity.
  - rewrite (proj2 (Z.eqb_neq x ch)) by (intros ->; apply U; left; reflexivity).
    rewrite (proj2 (Z.eqb_neq x 0)) by (intros ->; apply N; left; reflexivity).
    apply IH; intros E; first [exact (N (or_intror E))|exact (U (or_intror E))].
Qed.
Lemma strrchr_l_found u v w k ch l : ch <> 0 -> nul_free u -> nul_free v -> ~ In ch v ->
  strrchr_l (u ++ ch :: v ++ 0 :: w) k ch l = OK (Some (k + zlen u)).
Proof.
  intros C. revert k l; induction u as [|x u IH]; intros k l N NV U; cbn [app strrchr_l].
  - rewrite Z.eqb_refl, (proj2 (Z.eqb_neq ch 0)) by congruence. rewrite strrchr_l_last by trivial. rewrite zlen_nil.
    f_equal. f_equal. lia.
  - rewrite (proj2 (Z.eqb_neq x 0)) by (intros ->; apply N; left; reflexivity).
    rewrite IH; trivial. { rewrite zlen_cons. f_equal. f_equal. lia. } intros E; apply N; right; exact E.
Qed.
Lemma strrchr_found pre u v w i ch : ch <> 0 -> i = zlen pre -> nul_free u -> nul_free v -> ~ In ch v ->
  strrchr (pre ++ u ++ ch :: v ++ 0 :: w) i ch = OK (Some (i + zlen u)).
Proof.
  intros C -> N NV U. unfold strrchr. pose proof (zlen_nonneg pre). rewrite (proj2 (Z.ltb_ge _ _)) by lia.
  rewrite skipn_pre. apply strrchr_l_found; trivial.
Qed.
Lemma cstr_l_ok s w : nul_free s -> cstr_l (s ++ 0 :: w) = OK s.
Proof.
  induction s as [|x s IH]; intros N; cbn [app cstr_l]; [reflexivity|].
  rewrite (proj2 (Z.eqb_neq x 0)) by (intros ->; apply N; left; reflexivity).
  rewrite IH by (intros E; apply N; right; exact E). reflexivity.
Qed.
Lemma cstr_ok pre s w i : i = zlen pre -> nul_free s -> cstr (pre ++ s ++ 0 :: w) i = OK s.
Proof.
  intros -> N. unfold cstr. pose proof (zlen_nonneg pre). rewrite (proj2 (Z.ltb_ge _ _)) by lia.
  rewrite skipn_pre. apply cstr_l_ok, N.
Qed.
Lemma strlen_ok pre s w i : i = zlen pre -> nul_free s -> strlen (pre ++ s ++ 0 :: w) i = OK (zlen s).
Proof. intros E N. unfold strlen. rewrite (cstr_ok _ _ _ _ E N). reflexivity. Qed.

Lemma eqb_list_eq a b : eqb_list a b = true <-> a = b.
Proof.
  revert b; induction a as [|x a IH]; intros [|y b]; cbn [eqb_list]; split; try congruence.
  - intros E. apply andb_prop in E as [E1 E2]. apply Z.eqb_eq in E1. apply IH in E2. congruence.
  - intros [= -> ->]. rewrite Z.eqb_refl. cbn [andb]. apply IH. reflexivity.
Qed.
Lemma prefixb_starts p l : prefixb p l = true <-> starts p l.
Proof.
  revert l; induction p as [|x p IH]; intros l; cbn [prefixb].
  - split; [|trivial]. intros _. exists l. reflexivity.
  - destruct l as [|y l].
    + split; [discriminate|]. intros (r & [=]).
    + split.
      * intros E. apply andb_prop in E as [E1 E2]. apply Z.eqb_eq in E1. apply IH in E2 as (r & ->). subst. exists r. reflexivity.
      * intros (r & [= -> ->]). rewrite Z.eqb_refl. cbn [andb]. apply IH. exists r. reflexivity.
Qed.
Lemma containsb_occurs p l : containsb p l = true <-> occurs p l.
Proof.
  induction l as [|x l IH]; cbn [containsb].
  - rewrite orb_false_r, prefixb_starts. split.
    + intros (r & E). exists [], r. exact E.
    + intros (u & v & E). destruct u; [|discriminate]. exists v. exact E.
  - rewrite orb_true_iff, prefixb_starts, IH. split.
    + intros [(r & E)|(u & v & ->)]; [exists [], r; exact E|exists (x :: u), v; reflexivity].
    + intros ([|y u] & v & E); [left; exists v; exact E|right; injection E as -> ->; exists u, v; reflexivity].
Qed.
Lemma starts_nul p u w : nul_free p -> (starts p (u ++ 0 :: w) <-> starts p u).
Proof.
  intros NP. split.
  - revert u; induction p as [|x p IH]; intros u (r & E); [exists u; reflexivity|].
    destruct u as [|y u].
    + injection E as E1 E2. exfalso. apply NP. left. congruence.
    + injection E as -> E2. destruct (IH (fun H => NP (or_intror H)) u) as (r' & ->); [exists r; exact E2|].
      exists r'. reflexivity.
  - intros (r & ->). exists (r ++ 0 :: w). rewrite app_assoc. reflexivity.
Qed.
Lemma memeq_ok pre s pat i : i = zlen pre -> zlen pat <= zlen s -> memeq (pre ++ s) i pat = OK (prefixb pat s).
Proof.
  intros -> L. unfold memeq. rewrite zlen_app. pose proof (zlen_nonneg pre).
  rewrite (proj2 (Z.leb_le 0 (zlen pre))) by lia. rewrite (proj2 (Z.leb_le _ _)) by lia. cbn [andb]. f_equal.
  unfold zslice. rewrite skipn_pre. unfold zlen at 1. rewrite Nat2Z.id.
  assert (E : (Datatypes.length pat <= Datatypes.length s)%nat) by (unfold zlen in L; lia).
  clear L H. revert s E. induction pat as [|x pat IH]; intros s E; [reflexivity|].
  destruct s as [|y s]; cbn [Datatypes.length] in E; [lia|].
  cbn [Datatypes.length firstn eqb_list prefixb]. rewrite IH by lia. rewrite (Z.eqb_sym y x). reflexivity.
Qed.

(* ------------------------------------------------------------------ *)
(** ** Hexadecimal text *)
Lemma charToHex_spec ch : (exists d, is_hex ch d /\ charToHex ch = d /\ 0 <= d < 16) \/ (charToHex ch = -1 /\ forall d, ~ is_hex ch d).
Proof.
  assert (D : forall d, is_hex ch d -> charToHex ch = d).
  { intros d (k & L & -> & E).
    do 16 (destruct k as [|k]; [destruct E as [E|E]; rewrite <- E; vm_compute; reflexivity|]). lia. }
  unfold charToHex in *.
  destruct ((48 <=? ch) && (ch <=? 57)) eqn:E1.
  { left. exists (ch - 48). apply andb_prop in E1 as [A B]. apply Z.leb_le in A, B. split; [|split; [reflexivity|lia]].
    exists (Z.to_nat (ch - 48)). split; [lia|]. split; [lia|]. left.
    assert (H : ch = 48 \/ ch = 49 \/ ch = 50 \/ ch = 51 \/ ch = 52 \/ ch = 53 \/ ch = 54 \/ ch = 55 \/ ch = 56 \/ ch = 57) by lia.
    repeat (destruct H as [-> |H]; [reflexivity|]). rewrite H. reflexivity. }
  destruct ((65 <=? ch) && (ch <=? 70)) eqn:E2.
  { left. exists (ch - 65 + 10). apply andb_prop in E2 as [A B]. apply Z.leb_le in A, B. split; [|split; [reflexivity|lia]].
    exists (Z.to_nat (ch - 65 + 10)). split; [lia|]. split; [lia|]. right.
    assert (H : ch = 65 \/ ch = 66 \/ ch = 67 \/ ch = 68 \/ ch = 69 \/ ch = 70) by lia.
    repeat (destruct H as [-> |H]; [reflexivity|]). rewrite H. reflexivity. }
  destruct ((97 <=? ch) && (ch <=? 102)) eqn:E3.
  { left. exists (ch - 97 + 10). apply andb_prop in E3 as [A B]. apply Z.leb_le in A, B. split; [|split; [reflexivity|lia]].
    exists (Z.to_nat (ch - 97 + 10)). split; [lia|]. split; [lia|]. left.
    assert (H : ch = 97 \/ ch = 98 \/ ch = 99 \/ ch = 100 \/ ch = 101 \/ ch = 102) by lia.
    repeat (destruct H as [-> |H]; [reflexivity|]). rewrite H. reflexivity. }
  right. split; [reflexivity|]. intros d H. pose proof (D d H) as N. destruct H as (k & _ & -> & _). lia.
Qed.
Lemma is_hex_val ch d : is_hex ch d -> charToHex ch = d /\ 0 <= d < 16.
Proof.
  intros H. destruct (charToHex_spec ch) as [(d' & H' & E & R)|(_ & N)]; [|exfalso; exact (N d H)].
  assert (d = d'); [|subst; auto].
  destruct H as (k & L & -> & E1), H' as (k' & L' & -> & E2).
  rewrite <- E. clear - L E1. do 16 (destruct k as [|k]; [destruct E1 as [E1|E1]; rewrite <- E1; vm_compute; reflexivity|]). lia.
Qed.
Lemma HexText_det s d : HexText s d -> forall d', HexText s d' -> d = d'.
Proof.
  induction 1 as [|x y a b s bs X Y _ IH]; intros d' H; inversion H; subst; [reflexivity|].
  match goal with X' : is_hex x ?a', Y' : is_hex y ?b', T : HexText s ?t |- _ =>
    apply is_hex_val in X, X', Y, Y'; rewrite (IH t T); f_equal; lia end.
Qed.
Lemma HexText_len s d : HexText s d -> zlen s = 2 * zlen d.
Proof. induction 1; rewrite ?zlen_cons in *; [reflexivity|lia]. Qed.
Lemma HexText_bytes s d : HexText s d -> bytes_ok d.
Proof.
  induction 1 as [|x y a b s bs X Y _ IH]; constructor; trivial. apply is_hex_val in X, Y. unfold byte_ok. lia.
Qed.
Lemma HexText_hex s d : HexText s d -> Forall (fun x => 0 <= charToHex x) s.
Proof.
  induction 1 as [|x y a b s bs X Y _ IH]; constructor; [|constructor; [|trivial]]; apply is_hex_val in X, Y; lia.
Qed.
Lemma HexText_app s1 d1 s2 d2 : HexText s1 d1 -> HexText s2 d2 -> HexText (s1 ++ s2) (d1 ++ d2).
Proof. induction 1; intros; cbn [app]; [assumption|constructor; auto]. Qed.
Lemma hexdigit_ok d : 0 <= d < 16 -> is_hex (hexdigit d) d.
Proof.
  intros H. exists (Z.to_nat d). split; [lia|]. split; [lia|]. left.
  assert (E : d = 0 \/ d = 1 \/ d = 2 \/ d = 3 \/ d = 4 \/ d = 5 \/ d = 6 \/ d = 7 \/ d = 8 \/ d = 9 \/ d = 10 \/ d = 11 \/ d = 12 \/ d = 13 \/ d = 14 \/ d = 15) by lia.
  repeat (destruct E as [-> |E]; [reflexivity|]). rewrite E. reflexivity.
Qed.
Lemma hex2_ok x : byte_ok x -> HexText (hex2 x) [x].
Proof.
  intros H. unfold byte_ok in H. unfold hex2.
  pose proof (Z.div_mod x 16 ltac:(lia)). pose proof (Z.mod_pos_bound x 16 ltac:(lia)).
  assert (0 <= x / 16 < 16) by (split; [apply Z.div_pos; lia|apply Z.div_lt_upper_bound; lia]).
  replace [x] with [16 * (x / 16) + x mod 16] by (f_equal; lia).
  apply hex_cons; [apply hexdigit_ok; lia|apply hexdigit_ok; lia|constructor].
Qed.

Lemma for_inv {S} (I : Z -> S -> Prop) (body : Z -> S -> res S) n : forall i0 s, I i0 s ->
  (forall i s, i0 <= i < i0 + Z.of_nat n -> I i s -> exists s', body i s = OK s' /\ I (i + 1) s') ->
  exists s', for_ n i0 body s = OK s' /\ I (i0 + Z.of_nat n) s'.
Proof.
  induction n as [|n IH]; intros i0 s H B; cbn [for_].
  - exists s. split; [reflexivity|]. rewrite Z.add_0_r. exact H.
  - destruct (B i0 s) as (s' & -> & H'); [lia|exact H|]. cbn [bind].
    destruct (IH (i0 + 1) s' H') as (s'' & E & H''). { intros i t R T. apply B; [lia|exact T]. }
    exists s''. split; [exact E|]. replace (i0 + Z.of_nat (Datatypes.S n)) with (i0 + 1 + Z.of_nat n) by lia. exact H''.
Qed.
Lemma zsplit (l : list Z) k : 0 <= k <= zlen l -> exists a b, l = a ++ b /\ zlen a = k.
Proof.
  intros H. exists (firstn (Z.to_nat k) l), (skipn (Z.to_nat k) l). split; [symmetry; apply firstn_skipn|].
  unfold zlen in *. rewrite firstn_length. lia.
Qed.
Lemma zsplit2 (l : list Z) : 2 <= zlen l -> exists x y r, l = x :: y :: r.
Proof. destruct l as [|x [|y r]]; cbn; try lia; eauto. Qed.
Lemma zsplit2r (l : list Z) : 2 <= zlen l -> exists x y r, l = r ++ [x; y].
Proof.
  intros H. destruct (zsplit l (zlen l - 2)) as (a & b & E & L); [lia|]. subst l. rewrite zlen_app in *.
  destruct b as [|x [|y [|z b]]]; rewrite ?zlen_cons in *; change (zlen []) with 0 in *; try (pose proof (zlen_nonneg b)); try lia. eauto.
Qed.
Lemma hexbyte x y d e : is_hex x d -> is_hex y e -> u8 (Z.lor (Z.shiftl d 4) e) = 16 * d + e.
Proof.
  intros X Y. apply is_hex_val in X as [_ X], Y as [_ Y]. rewrite Z.shiftl_mul_pow2 by lia.
  rewrite lor_down by (change (2 ^ 4) with 16; lia). change (2 ^ 4) with 16. unfold u8. rewrite Z.mod_small by lia. lia.
Qed.
Lemma nohex_not h1 x h2 : charToHex x = -1 -> forall d, ~ HexText (h1 ++ x :: h2) d.
Proof. intros E d H. apply HexText_hex in H. apply Forall_app in H as [_ H]. inversion H; subst. lia. Qed.
Lemma canonicalFromString_ok pre h post n i (le : bool) : i = zlen pre -> 0 <= n -> zlen h = 2 * n ->
  exists r, canonicalFromString n (pre ++ h ++ post) i le = OK r /\
    match r with Some canon => exists d, HexText h d /\ canon = (if le then rev d else d) | None => forall d, ~ HexText h d end.
Proof.
  intros -> N L. unfold canonicalFromString.
  destruct (for_inv (fun k (r : option (list Z)) => match r with
     | None => forall d, ~ HexText h d
     | Some dst => exists h1 h2, h = h1 ++ h2 /\ (if le then HexText h2 (rev dst) /\ zlen h2 = 2 * k else HexText h1 dst /\ zlen h1 = 2 * k)
     end) (fun i r =>
    match r with
    | None => OK None
    | Some dst =>
        let j := if le then n - i - 1 else i in
        let! ch := cget (pre ++ h ++ post) (zlen pre + (j * 2 + 0)) in
        let h0 := charToHex ch in
        if h0 <? 0 then OK None
        else
          let! ch := cget (pre ++ h ++ post) (zlen pre + (j * 2 + 1)) in
          let h1 := charToHex ch in
          if h1 <? 0 then OK None
          else OK (Some (dst ++ [u8 (Z.lor (Z.shiftl h0 4) h1)]))
    end) (Z.to_nat n) 0 (Some [])) as (r & E & H).
  - destruct le; [exists h, []|exists [], h]; rewrite ?app_nil_r; (split; [reflexivity|]); split; constructor.
  - intros k [dst|] R H; [|exists None; split; [reflexivity|exact H]].
    destruct H as (h1 & h2 & Eh & H).
    assert (X : exists g1 x y g2, h = g1 ++ x :: y :: g2 /\ zlen g1 = 2 * (if le then n - k - 1 else k) /\
       if le then g2 = h2 else g1 = h1).
    { subst h. rewrite zlen_app in L. destruct le; destruct H as [H E].
      - destruct (zsplit2r h1) as (x & y & g & ->); [lia|]. exists g, x, y, h2. rewrite <- app_assoc. split; [reflexivity|].
        rewrite zlen_app in L. change (zlen [x; y]) with 2 in L. split; [lia|reflexivity].
      - destruct (zsplit2 h2) as (x & y & g & ->); [lia|]. exists h1, x, y, g. split; [reflexivity|]. split; [lia|reflexivity]. }
    destruct X as (g1 & x & y & g2 & Eg & Lg & Hg). cbv zeta.
    set (j := if le then n - k - 1 else k) in *. rewrite Eg.
    replace (pre ++ (g1 ++ x :: y :: g2) ++ post) with ((pre ++ g1) ++ x :: y :: g2 ++ post) by (rewrite <- !app_assoc; reflexivity).
    rewrite (cget_at (pre ++ g1) x) by (rewrite zlen_app; lia). cbn [bind].
    destruct (charToHex_spec x) as [(d0 & X & EX & RX)|(EX & _)]; rewrite EX; cycle 1.
    { exists None; split; [reflexivity|]. exact (nohex_not g1 x (y :: g2) EX). }
    rewrite (proj2 (Z.ltb_ge d0 0)) by lia.
    replace ((pre ++ g1) ++ x :: y :: g2 ++ post) with ((pre ++ g1 ++ [x]) ++ y :: g2 ++ post) by (rewrite <- !app_assoc; reflexivity).
    rewrite (cget_at (pre ++ g1 ++ [x]) y) by (rewrite !zlen_app; change (zlen [x]) with 1; lia). cbn [bind].
    destruct (charToHex_spec y) as [(d1 & Y & EY & RY)|(EY & _)]; rewrite EY; cycle 1.
    { exists None; split; [reflexivity|]. change (g1 ++ x :: y :: g2) with (g1 ++ [x] ++ y :: g2). rewrite app_assoc. exact (nohex_not (g1 ++ [x]) y g2 EY). }
    rewrite (proj2 (Z.ltb_ge d1 0)) by lia.
    eexists; split; [reflexivity|]. rewrite (hexbyte _ _ _ _ X Y).
    exists (if le then g1 else g1 ++ [x; y]), (if le then x :: y :: g2 else g2).
    destruct le; destruct H as [H E].
    + split; [reflexivity|]. subst g2. rewrite rev_app_distr. cbn [rev app]. split; [constructor; assumption|].
      rewrite !zlen_cons. lia.
    + split; [rewrite <- app_assoc; reflexivity|]. subst g1. split.
      * apply HexText_app; [exact H|]. constructor; trivial. constructor.
      * rewrite zlen_app. change (zlen [x; y]) with 2. lia.
  - exists r. split; [exact E|]. destruct r as [dst|]; [|exact H].
    destruct H as (h1 & h2 & Eh & H). replace (0 + Z.of_nat (Z.to_nat n)) with n in H by lia. subst h. rewrite zlen_app in L.
    destruct le; destruct H as [H EL].
    + assert (h1 = []) as -> by (destruct h1; [reflexivity|rewrite zlen_cons in L; pose proof (zlen_nonneg h1); lia]).
      exists (rev dst). rewrite rev_involutive. split; [exact H|reflexivity].
    + assert (h2 = []) as -> by (destruct h2; [reflexivity|rewrite zlen_cons in L; pose proof (zlen_nonneg h2); lia]).
      rewrite app_nil_r. exists dst. split; [exact H|reflexivity].
Qed.

(* ------------------------------------------------------------------ *)
(** ** Escaping *)
Lemma Unescaped_cancel d n : Unescaped d n -> forall t m, Unescaped (d ++ t) m -> exists m', m = n ++ m' /\ Unescaped t m'.
Proof.
  induction 1 as [|s n H IH|s n H IH|s n H IH|x s n A B H IH]; intros t m U.
  - exists m. split; [reflexivity|exact U].
  - inversion U; subst; [|congruence]. destruct (IH _ _ ltac:(eassumption)) as (m' & -> & T). exists m'. split; [reflexivity|exact T].
  - inversion U; subst; [|congruence]. destruct (IH _ _ ltac:(eassumption)) as (m' & -> & T). exists m'. split; [reflexivity|exact T].
  - inversion U; subst; [|congruence]. destruct (IH _ _ ltac:(eassumption)) as (m' & -> & T). exists m'. split; [reflexivity|exact T].
  - inversion U; subst; try congruence. destruct (IH _ _ ltac:(eassumption)) as (m' & -> & T). exists m'. split; [reflexivity|exact T].
Qed.
Lemma Unescaped_app d n t m : Unescaped d n -> Unescaped t m -> Unescaped (d ++ t) (n ++ m).
Proof. induction 1; intros; cbn [app]; [assumption|constructor; auto..]. Qed.
Lemma Unescaped_det s n m : Unescaped s n -> Unescaped s m -> n = m.
Proof.
  intros A B. destruct (Unescaped_cancel s n A [] m) as (m' & -> & T); [rewrite app_nil_r; exact B|].
  inversion T. rewrite app_nil_r. reflexivity.
Qed.
Lemma Unescaped_nul s n : Unescaped s n -> nul_free n.
Proof. induction 1 as [|s n H IH|s n H IH|s n H IH|x s n A B H IH]; intros E; try destruct E as [E|E]; auto; congruence. Qed.
Lemma Unescaped_len s n : Unescaped s n -> zlen n <= zlen s.
Proof. induction 1; rewrite ?zlen_cons in *; lia. Qed.

Definition un_inv (pre raw w : list Z) (s : Z * Z * list Z * bool) : Prop :=
  let '(i, p, b, ok) := s in
  zlen b = zlen (pre ++ raw ++ 0 :: w) /\
  if ok then exists done todo out gap, raw = done ++ todo /\ i = zlen done /\ b = pre ++ out ++ gap ++ todo ++ 0 :: w /\
    p = zlen out /\ zlen out + zlen gap = i /\ Unescaped done out
  else forall m, ~ Unescaped raw m.
(** one step: the characters [es] stand for the character [v] *)
Lemma un_step pre raw w done es todo out gap v : raw = done ++ es ++ todo -> es <> [] -> zlen out + zlen gap = zlen done ->
  Unescaped done out -> Unescaped es [v] ->
  exists b', cset (pre ++ out ++ gap ++ es ++ todo ++ 0 :: w) (zlen pre + zlen out) v = OK b' /\
    un_inv pre raw w (zlen done + zlen es, zlen out + 1, b', true).
Proof.
  intros -> NE L U V.
  assert (X : exists g gap', gap ++ es = g :: gap' /\ zlen gap' + 1 = zlen gap + zlen es).
  { destruct gap as [|g gap]; [destruct es as [|g es]; [congruence|]; exists g, es|exists g, (gap ++ es)];
      (split; [reflexivity|]); rewrite ?zlen_cons, ?zlen_app; change (zlen []) with 0; lia. }
  destruct X as (g & gap' & E & LG).
  replace (pre ++ out ++ gap ++ es ++ todo ++ 0 :: w) with ((pre ++ out) ++ g :: (gap' ++ todo ++ 0 :: w)).
  2:{ rewrite <- !app_assoc. f_equal. f_equal. rewrite (app_assoc gap), E. reflexivity. }
  rewrite (cset_at (pre ++ out)) by (rewrite zlen_app; lia). eexists; split; [reflexivity|].
  split.
  - rewrite !zlen_app, !zlen_cons, !zlen_app, !zlen_cons. lia.
  - exists (done ++ es), todo, (out ++ [v]), gap'. split; [apply app_assoc|]. rewrite !zlen_app. change (zlen [v]) with 1.
    split; [reflexivity|]. split; [rewrite <- !app_assoc; reflexivity|]. split; [reflexivity|]. split; [lia|].
    apply Unescaped_app; assumption.
Qed.
Lemma un_stuck raw done todo out : raw = done ++ todo -> Unescaped done out -> (forall m, ~ Unescaped todo m) -> forall m, ~ Unescaped raw m.
Proof. intros -> U N m H. destruct (Unescaped_cancel _ _ U _ _ H) as (m' & _ & T). exact (N m' T). Qed.
Lemma unescape_body_ok pre raw w i p b : nul_free raw -> un_inv pre raw w (i, p, b, true) -> i < zlen raw ->
  exists i' p' b' ok, unescape_body (zlen pre) (zlen raw) (i, p, b, true) = OK (i', p', b', ok) /\
    un_inv pre raw w (i', p', b', ok) /\ (ok = true -> i < i').
Proof.
  intros NF (LB & done & todo & out & gap & ER & -> & -> & -> & LG & U) L.
  destruct todo as [|x todo]; [rewrite app_nil_r in ER; subst; lia|]. unfold unescape_body.
  assert (G : forall l1 ch l2, todo = l1 ++ ch :: l2 -> cget (pre ++ out ++ gap ++ (x :: todo) ++ 0 :: w) (zlen pre + (zlen done + 1 + zlen l1)) = OK ch).
  { intros l1 ch l2 ->. replace (pre ++ out ++ gap ++ (x :: l1 ++ ch :: l2) ++ 0 :: w) with ((pre ++ out ++ gap ++ x :: l1) ++ ch :: l2 ++ 0 :: w)
      by (rewrite <- ?app_assoc; cbn [app]; rewrite <- ?app_assoc; reflexivity).
    apply cget_at. rewrite !zlen_app, zlen_cons. lia. }
  assert (G0 : cget (pre ++ out ++ gap ++ (x :: todo) ++ 0 :: w) (zlen pre + zlen done) = OK x).
  { replace (pre ++ out ++ gap ++ (x :: todo) ++ 0 :: w) with ((pre ++ out ++ gap) ++ x :: todo ++ 0 :: w) by (rewrite <- !app_assoc; reflexivity).
    apply cget_at. rewrite !zlen_app. lia. }
  rewrite G0. cbn [bind]. destruct (Z.eqb_spec x BSL) as [->|NB].
  - destruct todo as [|y todo].
    + rewrite (proj2 (Z.eqb_eq _ _)) by (subst raw; rewrite zlen_app; reflexivity).
      do 4 eexists. split; [reflexivity|]. split; [|discriminate]. split; [exact LB|].
      apply (un_stuck raw done [BSL] out ER U). intros m H. unfold BSL in H. inversion H; subst. congruence.
    + rewrite (proj2 (Z.eqb_neq _ _)) by (subst raw; rewrite zlen_app, !zlen_cons; pose proof (zlen_nonneg todo); lia).
      pose proof (G [] y todo eq_refl) as G1. change (zlen []) with 0 in G1. rewrite Z.add_0_r in G1. rewrite G1. cbn [bind].
      assert (ST : forall v, Unescaped [BSL; y] [v] -> exists b', cset (pre ++ out ++ gap ++ (BSL :: y :: todo) ++ 0 :: w) (zlen pre + zlen out) v = OK b' /\
         un_inv pre raw w (zlen done + 1 + 1, zlen out + 1, b', true)).
      { intros v V. destruct (un_step pre raw w done [BSL; y] todo out gap v) as (b' & E & H); trivial; [discriminate|].
        exists b'. split; [exact E|]. change (zlen [BSL; y]) with 2 in H. replace (zlen done + 1 + 1) with (zlen done + 2) by lia. exact H. }
      destruct (Z.eqb_spec y 110) as [->|N1].
      { destruct (ST LF) as (b' & E & H); [repeat constructor|]. rewrite E. cbn [bind]. do 4 eexists. split; [reflexivity|]. split; [exact H|]. intros _. lia. }
      destruct (Z.eqb_spec y 114) as [->|N2].
      { destruct (ST CR) as (b' & E & H); [repeat constructor|]. rewrite E. cbn [bind]. do 4 eexists. split; [reflexivity|]. split; [exact H|]. intros _. lia. }
      destruct (Z.eqb_spec y BSL) as [->|N3].
      { destruct (ST BSL) as (b' & E & H); [repeat constructor|]. rewrite E. cbn [bind]. do 4 eexists. split; [reflexivity|]. split; [exact H|]. intros _. lia. }
      do 4 eexists. split; [reflexivity|]. split; [|discriminate]. split; [exact LB|].
      apply (un_stuck raw done (BSL :: y :: todo) out ER U). intros m H. unfold BSL in *. inversion H; subst; congruence.
  - assert (NX : x <> 0) by (intros ->; apply NF; rewrite ER, in_app_iff; right; left; reflexivity).
    rewrite (proj2 (Z.eqb_neq x 0)) by exact NX.
    destruct (un_step pre raw w done [x] todo out gap x) as (b' & E & H); trivial; [discriminate|constructor; [exact NB|exact NX|constructor]|].
    cbn [app] in E |- *. rewrite E. cbn [bind]. do 4 eexists. split; [reflexivity|]. change (zlen [x]) with 1 in H. split; [exact H|]. intros _. lia.
Qed.
Lemma unescape_loop pre raw w : nul_free raw -> forall k i p b, un_inv pre raw w (i, p, b, true) -> zlen raw - i <= Z.of_nat k ->
  exists i' p' b' ok, while_ k (fun s => let '(i, _, _, ok) := s in ok && (i <? zlen raw)) (unescape_body (zlen pre) (zlen raw)) (i, p, b, true)
     = OK (i', p', b', ok) /\ un_inv pre raw w (i', p', b', ok) /\ (ok = true -> zlen raw <= i').
Proof.
  intros NF. induction k as [|k IH]; intros i p b H L; cbn [while_ andb].
  - rewrite (proj2 (Z.ltb_ge _ _)) by lia. do 4 eexists. split; [reflexivity|]. split; [exact H|]. lia.
  - destruct (Z.ltb_spec i (zlen raw)) as [R|R].
    + destruct (unescape_body_ok pre raw w i p b NF H R) as (i' & p' & b' & ok & E & H' & G). rewrite E. cbn [bind].
      destruct ok; [apply IH; [exact H'|specialize (G eq_refl); lia]|].
      destruct k; cbn [while_ andb]; (do 4 eexists; split; [reflexivity|]; split; [exact H'|discriminate]).
    + do 4 eexists. split; [reflexivity|]. split; [exact H|]. intros _. lia.
Qed.
Lemma filenameUnescape_ok pre raw w f n : nul_free raw -> f = zlen pre -> n = zlen raw ->
  exists ok b', filenameUnescape (pre ++ raw ++ 0 :: w) f n = OK (ok, b') /\ zlen b' = zlen (pre ++ raw ++ 0 :: w) /\
    if ok then exists name w', b' = pre ++ name ++ 0 :: w' /\ Unescaped raw name else forall name, ~ Unescaped raw name.
Proof.
  intros NF -> ->. unfold filenameUnescape.
  destruct (unescape_loop pre raw w NF (Z.to_nat (zlen raw)) 0 0 (pre ++ raw ++ 0 :: w)) as (i & p & b & ok & E & H & G).
  { split; [reflexivity|]. exists [], raw, [], []. repeat split; constructor. }
  { pose proof (zlen_nonneg raw). lia. }
  rewrite E. cbn [bind]. destruct ok; cbn [negb].
  - specialize (G eq_refl). destruct H as (LB & done & todo & out & gap & ER & -> & -> & -> & LG & U).
    assert (todo = []) as -> by (destruct todo as [|t todo]; [reflexivity|]; subst raw; rewrite zlen_app, zlen_cons in G; pose proof (zlen_nonneg todo); lia).
    rewrite app_nil_r in ER. subst done. cbn [app] in *.
    destruct (Z.ltb_spec (zlen out) (zlen raw)) as [R|R].
    + destruct gap as [|g gap]; [change (zlen []) with 0 in LG; lia|].
      replace (pre ++ out ++ (g :: gap) ++ 0 :: w) with ((pre ++ out) ++ g :: gap ++ 0 :: w) in * by (rewrite <- !app_assoc; reflexivity).
      rewrite (cset_at (pre ++ out)) by (rewrite zlen_app; lia). cbn [bind]. do 2 eexists. split; [reflexivity|]. split.
      * rewrite <- LB, !zlen_app, !zlen_cons. lia.
      * exists out, (gap ++ 0 :: w). split; [rewrite <- app_assoc; reflexivity|exact U].
    + assert (gap = []) as -> by (destruct gap as [|g gap]; [reflexivity|]; rewrite zlen_cons in LG; pose proof (zlen_nonneg gap); lia).
      do 2 eexists. split; [reflexivity|]. split; [exact LB|]. exists out, w. split; [reflexivity|exact U].
  - destruct H as (LB & N). do 2 eexists. split; [reflexivity|]. split; [exact LB|exact N].
Qed.

(* ------------------------------------------------------------------ *)
(** ** The line parser *)
Lemma accepts_bit mask a : algoBitmask_Accepts mask a = Z.testbit mask (algo_num a).
Proof.
  unfold algoBitmask_Accepts. replace (shl32 1 (algo_num a)) with (2 ^ algo_num a) by (destruct a; reflexivity).
  assert (0 <= algo_num a) by (destruct a; cbn; lia). set (n := algo_num a) in *. clearbody n.
  destruct (Z.testbit mask n) eqn:T.
  - apply negb_true_iff, Z.eqb_neq. intros E. apply (f_equal (fun z => Z.testbit z n)) in E.
    rewrite Z.land_spec, T, Z.pow2_bits_true, Z.bits_0 in E by lia. discriminate.
  - apply negb_false_iff, Z.eqb_eq. apply Z.bits_inj'. intros k K. rewrite Z.land_spec, Z.bits_0, Z.pow2_bits_eqb by lia.
    destruct (Z.eqb_spec n k) as [<-|]; [rewrite T; reflexivity|apply andb_false_r].
Qed.
Lemma lineNeedsUnescape_ok s w : exists b, lineNeedsUnescape (s ++ 0 :: w) = OK b /\ (b = true <-> escaped_line s).
Proof.
  induction s as [|x s IH]; cbn [app lineNeedsUnescape].
  - exists false. split; [reflexivity|]. split; [discriminate|]. intros ([|] & r & E & _); discriminate.
  - destruct ((x =? 32) || (x =? 9)) eqn:B.
    + destruct IH as (b & -> & H). exists b. split; [reflexivity|]. rewrite H. apply orb_prop in B.
      assert (X : x = 32 \/ x = 9) by (destruct B as [B|B]; apply Z.eqb_eq in B; auto). split.
      * intros (bl & r & -> & F). exists (x :: bl), r. split; [reflexivity|constructor; trivial].
      * intros ([|y bl] & r & E & F); injection E as -> E.
        { destruct X; discriminate. } exists bl, r. split; [exact E|]. inversion F; trivial.
    + exists (x =? BSL). split; [reflexivity|]. apply orb_false_elim in B as [B1 B2]. apply Z.eqb_neq in B1, B2. split.
      * intros E. apply Z.eqb_eq in E. subst. exists [], s. split; [reflexivity|constructor].
      * intros ([|y bl] & r & E & F); injection E as -> E; [reflexivity|]. inversion F; subst. lia.
Qed.
Lemma first_unique (ch : Z) u v u' v' : ~ In ch u -> ~ In ch u' -> u ++ ch :: v = u' ++ ch :: v' -> u = u' /\ v = v'.
Proof.
  revert u'; induction u as [|x u IH]; intros [|y u'] A B E; cbn [app] in E.
  - injection E as ->. auto.
  - injection E as <- _. exfalso. apply B. left. reflexivity.
  - injection E as -> _. exfalso. apply A. left. reflexivity.
  - injection E as -> E. destruct (IH u') as [-> ->]; auto; intros H; [apply A|apply B]; right; exact H.
Qed.
Lemma last_unique (ch : Z) u v u' v' : ~ In ch v -> ~ In ch v' -> u ++ ch :: v = u' ++ ch :: v' -> u = u' /\ v = v'.
Proof.
  intros A B E. apply (f_equal (@rev Z)) in E. rewrite !rev_app_distr in E. cbn [rev] in E. rewrite <- !app_assoc in E. cbn [app] in E.
  apply first_unique in E as [E1 E2]; [|intros H; apply in_rev in H; contradiction..].
  split; [rewrite <- (rev_involutive u), E2|rewrite <- (rev_involutive v), E1]; apply rev_involutive.
Qed.

Definition ord (le : bool) (d : list Z) := if le then rev d else d.
Lemma ordered_ord P (le : bool) d canon : (le = true <-> P) -> (ordered P d canon <-> canon = ord le d).
Proof.
  intros H. unfold ordered, ord. destruct le; split.
  - intros [[_ ->]|[N _]]; [reflexivity|]. exfalso. apply N, H. reflexivity.
  - intros ->. left. split; [apply H|]; reflexivity.
  - intros [[N _]|[_ ->]]; [apply H in N; discriminate|reflexivity].
  - intros ->. right. split; [|reflexivity]. intros N. apply H in N. discriminate.
Qed.
Lemma hex_no32 h d : HexText h d -> ~ In 32 h.
Proof. intros H I. apply HexText_hex in H. rewrite Forall_forall in H. specialize (H 32 I). vm_compute in H. apply H. reflexivity. Qed.
Lemma bsd_no32 a h d : bsd_digest a h d -> ~ In 32 h.
Proof.
  intros [(H & _)|(_ & h' & -> & H & _)]; [exact (hex_no32 _ _ H)|]. intros I. apply in_app_or in I as [I|I]; [|exact (hex_no32 _ _ H I)].
  vm_compute in I. repeat (destruct I as [I|I]; [discriminate|]). exact I.
Qed.
Lemma gnu_bsd a h d : gnu_digest a h d -> bsd_digest a h d.
Proof. destruct a; cbn; intros H; [left; exact H..|right; split; [reflexivity|exact H]]. Qed.
Definition gnu_algo (n : Z) : algo := if n =? 8 then algo_xxh32 else if n =? 21 then algo_xxh3 else if n =? 32 then algo_xxh128 else algo_xxh64.
Lemma gnu_digest_iff a h d : gnu_digest a h d <-> a = gnu_algo (zlen h) /\ bsd_digest a h d /\ (a = algo_xxh3 -> zlen h = 21).
Proof.
  split.
  - intros H. split; [|split; [exact (gnu_bsd _ _ _ H)|]].
    + destruct a; cbn in H.
      1-3: destruct H as [H L]; apply HexText_len in H; rewrite L in H; rewrite H; reflexivity.
      destruct H as (h' & -> & H & L). apply HexText_len in H. rewrite zlen_app, H, L. reflexivity.
    + intros ->. destruct H as (h' & -> & H & L). apply HexText_len in H. rewrite zlen_app, H, L. reflexivity.
  - intros (A & B & C). destruct a; cbn.
    1-3: destruct B as [B|[B _]]; [exact B|discriminate].
    specialize (C eq_refl). destruct B as [[B L]|[_ B]]; [|exact B]. apply HexText_len in B. cbn [digest_size] in L. lia.
Qed.
Lemma bsd_digest_det a h d d' : bsd_digest a h d -> bsd_digest a h d' -> d = d'.
Proof.
  intros [[A LA]|(-> & h1 & -> & A & LA)] [[B LB]|(E & h2 & E2 & B & LB)].
  - exact (HexText_det _ _ A _ B).
  - subst. apply HexText_len in A, B. rewrite zlen_app in A. cbn [digest_size] in LA. change (zlen (str "XXH3_")) with 5 in A. lia.
  - apply HexText_len in A, B. rewrite zlen_app in B. cbn [digest_size] in LB. change (zlen (str "XXH3_")) with 5 in B. lia.
  - apply app_inv_head in E2. subst h2. exact (HexText_det _ _ A _ B).
Qed.
Lemma app_inv_len (a b c d : list Z) : a ++ b = c ++ d -> zlen a = zlen c -> a = c /\ b = d.
Proof.
  revert c; induction a as [|x a IH]; intros [|y c] E L; rewrite ?zlen_cons in L; change (zlen []) with 0 in L;
    try (pose proof (zlen_nonneg a)); try (pose proof (zlen_nonneg c)); try lia; [auto|].
  injection E as -> E. destruct (IH c E) as [-> ->]; [lia|auto].
Qed.
Lemma parseHash_ok pre h post i n a (le : bool) : i = zlen pre -> n = zlen h ->
  exists r, parseHash (pre ++ h ++ post) i n a le = OK r /\
    match r with Some canon => exists d, bsd_digest a h d /\ canon = ord le d | None => forall d, ~ bsd_digest a h d end.
Proof.
  intros -> ->. set (n := zlen h). unfold parseHash.
  assert (LN : forall a d, bsd_digest a h d -> n = 2 * digest_size a \/ a = algo_xxh3 /\ n = 21).
  { intros a' d [[H L]|(-> & h' & -> & H & L)]; subst n; apply HexText_len in H; [left; lia|].
    right. split; [reflexivity|]. rewrite zlen_app, H, L. reflexivity. }
  assert (NO : (forall d, bsd_digest a h d -> False) ->
     exists r, OK (@None (list Z)) = OK r /\ match r with Some canon => exists d, bsd_digest a h d /\ canon = ord le d | None => forall d, ~ bsd_digest a h d end).
  { intros H. exists None. split; [reflexivity|]. exact H. }
  assert (PL : forall k, n = 2 * k -> k = digest_size a -> exists r, canonicalFromString k (pre ++ h ++ post) (zlen pre) le = OK r /\
     match r with Some canon => exists d, bsd_digest a h d /\ canon = ord le d | None => forall d, ~ bsd_digest a h d end).
  { intros k E K. destruct (canonicalFromString_ok pre h post k (zlen pre) le) as (r & E1 & H); [reflexivity|destruct a; cbn in K; lia|exact E|].
    exists r. split; [exact E1|]. destruct r as [canon|].
    - destruct H as (d & H & ->). exists d. split; [|reflexivity]. left. split; [exact H|]. apply HexText_len in H. fold n in H. lia.
    - intros d [[D _]|(-> & h' & -> & D & L)]; [exact (H d D)|]. apply HexText_len in D. subst n. rewrite zlen_app in E.
      change (zlen (str "XXH3_")) with 5 in E. lia. }
  destruct (Z.eq_dec n 8) as [E8|N8].
  { rewrite E8. destruct a; cbn [algo_eqb algo_num Z.eqb negb]; [apply PL; [lia|reflexivity]|..];
      apply NO; intros d H; apply LN in H; cbn [digest_size] in H; destruct H as [H|[H H']]; lia || congruence. }
  destruct (Z.eq_dec n 16) as [E16|N16].
  { rewrite E16. destruct a; cbn [algo_eqb algo_num Z.eqb Pos.eqb negb andb];
     try (apply PL; [lia|reflexivity]); apply NO; intros d H; apply LN in H; cbn [digest_size] in H; destruct H as [H|[H H']]; lia || congruence. }
  destruct (Z.eq_dec n 21) as [E21|N21].
  { rewrite E21. destruct a; cbn [algo_eqb algo_num Z.eqb Pos.eqb negb andb];
     try (apply NO; intros d H; apply LN in H; cbn [digest_size] in H; destruct H as [H|[H H']]; lia || congruence).
    rewrite (memeq_ok pre (h ++ post)); [|reflexivity|rewrite zlen_app; change (zlen (str "XXH3_")) with 5; pose proof (zlen_nonneg post); subst n; lia].
    cbn [bind]. destruct (prefixb (str "XXH3_") (h ++ post)) eqn:P; cbn [negb].
    - apply prefixb_starts in P as (r & P).
      destruct (zsplit h 5) as (h0 & h' & Eh & L0); [subst n; lia|].
      assert (h0 = str "XXH3_") as ->.
      { rewrite Eh, <- app_assoc in P. exact (proj1 (app_inv_len _ _ _ _ P L0)). }
      assert (LH : zlen h' = 16) by (subst n; rewrite Eh, zlen_app in E21; lia).
      destruct (canonicalFromString_ok (pre ++ str "XXH3_") h' post 8 (zlen pre + 5) le) as (r' & E1 & H);
        [rewrite zlen_app; reflexivity|lia|lia|].
      exists r'. split. { rewrite <- E1. f_equal. rewrite Eh, <- !app_assoc. reflexivity. }
      destruct r' as [canon|].
      + destruct H as (d & H & ->). exists d. split; [|reflexivity]. right. split; [reflexivity|]. exists h'. split; [exact Eh|].
        split; [exact H|]. apply HexText_len in H. lia.
      + intros d [[D L]|(_ & h2 & E2 & D & L)].
        * apply HexText_len in D. cbn [digest_size] in L. fold n in D. lia.
        * rewrite Eh in E2. apply app_inv_head in E2. subst h2. exact (H d D).
    - apply NO. intros d [[D L]|(_ & h2 & E2 & D & L)].
      + apply HexText_len in D. cbn [digest_size] in L. fold n in D. lia.
      + assert (prefixb (str "XXH3_") (h ++ post) = true); [|congruence]. apply prefixb_starts. exists (h2 ++ post). rewrite E2, <- app_assoc. reflexivity. }
  destruct (Z.eq_dec n 32) as [E32|N32].
  { rewrite E32. destruct a; cbn [algo_eqb algo_num Z.eqb Pos.eqb negb andb];
     try (apply PL; [lia|reflexivity]); apply NO; intros d H; apply LN in H; cbn [digest_size] in H; destruct H as [H|[H H']]; lia || congruence. }
  assert (X : (match n with 8 | 16 | 21 | 32 => true | _ => false end) = false).
  { destruct n as [|p|p]; trivial. do 6 (destruct p as [p|p|]; trivial; try (exfalso; congruence)). }
  assert (N : forall d, bsd_digest a h d -> False).
  { intros d H. apply LN in H. destruct a; cbn [digest_size] in H; destruct H as [H|[H H']]; lia || congruence. }
  destruct n as [|p|p]; try exact (NO N).
  do 6 (destruct p as [p|p|]; try exact (NO N); try discriminate X).
Qed.

Definition body_ok (le : bool) (needs : bool) (body : list Z) (a : algo) (canon name : list Z) : Prop :=
  exists raw, (gnu_line le body a canon raw \/ bsd_line body a canon raw) /\ (if needs then Unescaped raw name else name = raw).
Definition parse_post (mask : Z) (le needs : bool) (b0 body : list Z) (r : option parsed) (b' : list Z) : Prop :=
  zlen b' = zlen b0 /\
  match r with
  | Some (a, canon, i) => Z.testbit mask (algo_num a) = true /\
      exists pre' name w', b' = pre' ++ name ++ 0 :: w' /\ i = zlen pre' /\ nul_free name /\ body_ok le needs body a canon name
  | None => forall a canon name, Z.testbit mask (algo_num a) = true -> ~ body_ok le needs body a canon name
  end.

(** the end of parseLine1, once the digest and the file name are located: [Q a canon] says which digests the line may give *)
Definition finish (b : list Z) (firstSpace hash_ptr hash_len : Z) (a : algo) (rev needsUnescape : bool) (mask : Z) : res (option parsed * list Z) :=
  if negb (algoBitmask_Accepts mask a) then OK (None, b)
  else
    let! canonical := parseHash b hash_ptr hash_len a rev in
    match canonical with
    | None => OK (None, b)
    | Some canonical =>
        let filename := firstSpace + 2 in
        let! filenameLen := strlen b filename in
        if needsUnescape then
          let! (ok, b) := filenameUnescape b filename filenameLen in
          if ok then OK (Some (a, canonical, filename), b) else OK (None, b)
        else OK (Some (a, canonical, filename), b)
    end.
Lemma finish_ok b0 b fs hp hl a le lb needs mask body prh h posth prf raw w :
  b = prh ++ h ++ posth -> hp = zlen prh -> hl = zlen h ->
  b = prf ++ raw ++ 0 :: w -> fs + 2 = zlen prf -> nul_free raw -> zlen b = zlen b0 ->
  (forall a' canon raw', gnu_line le body a' canon raw' \/ bsd_line body a' canon raw' <->
     raw' = raw /\ a' = a /\ exists d, bsd_digest a h d /\ canon = ord lb d) ->
  exists r b', finish b fs hp hl a lb needs mask = OK (r, b') /\ parse_post mask le needs b0 body r b'.
Proof.
  intros Eb1 Ehp Ehl Eb2 Efs NR LB Q. unfold finish. rewrite accepts_bit.
  destruct (Z.testbit mask (algo_num a)) eqn:T; cbn [negb].
  2:{ do 2 eexists. split; [reflexivity|]. split; [exact LB|]. intros a' canon name T' (raw' & H & _). apply Q in H as (_ & -> & _). congruence. }
  destruct (parseHash_ok prh h posth hp hl a lb Ehp Ehl) as (r & E & H). rewrite <- Eb1 in E. rewrite E. cbn [bind].
  destruct r as [canon|].
  2:{ do 2 eexists. split; [reflexivity|]. split; [exact LB|]. intros a' canon name T' (raw' & G & _).
      apply Q in G as (_ & -> & d & D & _). exact (H d D). }
  destruct H as (d & D & EC). cbv zeta. rewrite Eb2, Efs. rewrite (strlen_ok prf raw w) by trivial. cbn [bind].
  assert (OKline : gnu_line le body a canon raw \/ bsd_line body a canon raw) by (apply Q; eauto).
  destruct needs.
  - destruct (filenameUnescape_ok prf raw w (zlen prf) (zlen raw) NR eq_refl eq_refl) as (ok & b' & EU & LU & HU). rewrite EU. cbn [bind].
    destruct ok.
    + destruct HU as (name & w' & Eb' & U). do 2 eexists. split; [reflexivity|]. split; [rewrite LU, <- Eb2; exact LB|].
      split; [exact T|]. exists prf, name, w'. split; [exact Eb'|]. split; [reflexivity|]. split; [exact (Unescaped_nul _ _ U)|].
      exists raw. split; [exact OKline|exact U].
    + do 2 eexists. split; [reflexivity|]. split; [rewrite LU, <- Eb2; exact LB|]. intros a' canon' name _ (raw' & G & U).
      apply Q in G as (-> & _). exact (HU name U).
  - do 2 eexists. split; [reflexivity|]. split; [rewrite <- Eb2; exact LB|]. split; [exact T|]. exists prf, raw, w.
    split; [reflexivity|]. split; [reflexivity|]. split; [exact NR|]. exists raw. split; [exact OKline|reflexivity].
Qed.

Lemma in_str_app_l (x : Z) (a b : list Z) : ~ In x (a ++ b) -> ~ In x a. Proof. intros H I. apply H, in_or_app. auto. Qed.
Lemma in_str_app_r (x : Z) (a b : list Z) : ~ In x (a ++ b) -> ~ In x b. Proof. intros H I. apply H, in_or_app. auto. Qed.
Lemma gnu_no32 a h d : gnu_digest a h d -> ~ In 32 h.
Proof. intros H. exact (bsd_no32 _ _ _ (gnu_bsd _ _ _ H)). Qed.
(** the two shapes of a line exclude each other, and each fixes its parts *)
Lemma gnu_shape le u x v a canon raw : ~ In 32 u -> gnu_line le (u ++ 32 :: x :: v) a canon raw ->
  x <> 40 /\ raw = v /\ exists d, gnu_digest a u d /\ ordered (le = true) d canon.
Proof.
  intros U (h & y & d & E & NY & G & O). apply first_unique in E as [<- E]; [|exact U|exact (gnu_no32 _ _ _ G)].
  injection E as -> ->. split; [exact NY|]. split; [reflexivity|]. eauto.
Qed.
Lemma bsd_shape u x v a canon raw : ~ In 32 u -> bsd_line (u ++ 32 :: x :: v) a canon raw ->
  x = 40 /\ exists h d, v = raw ++ str ") = " ++ h /\ tag_algo u a /\ bsd_digest a h d /\ ordered (occurs (str "_LE") u) d canon.
Proof.
  intros U (tag & h & d & E & NT & T & G & O). apply (first_unique 32) in E as [<- E]; [|exact U|exact NT].
  injection E as -> E. split; [reflexivity|]. exists h, d. split; [exact E|]. split; [exact T|]. split; [exact G|exact O].
Qed.
Lemma no_space_no_line le body : ~ In 32 body -> forall a canon raw, ~ (gnu_line le body a canon raw \/ bsd_line body a canon raw).
Proof.
  intros N a canon raw [(h & x & d & -> & _)|(tag & h & d & -> & _)]; apply N, in_or_app; right; left; reflexivity.
Qed.
Definition tag_of (u : list Z) : algo :=
  if prefixb (str "XXH128") u then algo_xxh128 else if prefixb (str "XXH32") u then algo_xxh32
  else if prefixb (str "XXH3") u then algo_xxh3 else algo_xxh64.
Lemma starts_head p q (u : list Z) : starts (p ++ q) u -> starts p u.
Proof. intros (r & ->). exists (q ++ r). rewrite app_assoc. reflexivity. Qed.
Lemma starts_ne p q (x y : Z) u : x <> y -> starts (p ++ [x]) u -> starts (p ++ [y] ++ q) u -> False.
Proof. intros N (r & ->) (r' & E). rewrite <- !app_assoc in E. apply app_inv_head in E. cbn in E. congruence. Qed.
Lemma tag_algo_of u a : tag_algo u a <-> a = tag_of u.
Proof.
  unfold tag_of, tag_algo.
  assert (E1 : starts (str "XXH32") u -> starts (str "XXH3") u) by (apply (starts_head (str "XXH3") (str "2"))).
  assert (E2 : starts (str "XXH3") u -> starts (str "XXH128") u -> False) by exact (starts_ne (str "XXH") (str "28") 51 49 u ltac:(discriminate)).
  pose proof (prefixb_starts (str "XXH128") u) as P128. pose proof (prefixb_starts (str "XXH32") u) as P32. pose proof (prefixb_starts (str "XXH3") u) as P3.
  destruct (prefixb (str "XXH128") u), (prefixb (str "XXH32") u), (prefixb (str "XXH3") u);
    destruct a; split; intros H; try discriminate; try reflexivity; try tauto;
    try (destruct P128 as [P128 _], P32 as [P32 _], P3 as [P3 _]; specialize (P3 eq_refl); tauto);
    try (exfalso; destruct P128 as [A A'], P32 as [B B'], P3 as [C C']; intuition congruence);
    try (destruct P128 as [A A'], P32 as [B B'], P3 as [C C']; intuition congruence).
Qed.

Lemma parseLine1_ok pre body w le needs mask b0 : nul_free body -> zlen b0 = zlen (pre ++ body ++ 0 :: w) ->
  exists r b', parseLine1 (pre ++ body ++ 0 :: w) (zlen pre) le needs mask = OK (r, b') /\
    parse_post mask le needs b0 body r b'.
Proof.
  intros NF LB0. unfold parseLine1.
  destruct (split_first 32 body) as [NS|(u & v & -> & NU)].
  { rewrite strchr_none by (trivial; discriminate). cbn [bind]. do 2 eexists. split; [reflexivity|]. split; [symmetry; exact LB0|].
    intros a canon name _ (raw & H & _). exact (no_space_no_line le body NS _ _ _ H). }
  assert (NFU : nul_free u) by exact (in_str_app_l _ _ _ NF).
  assert (NFV : nul_free v) by (intros I; apply NF, in_or_app; right; right; exact I).
  replace (pre ++ (u ++ 32 :: v) ++ 0 :: w) with (pre ++ u ++ 32 :: v ++ 0 :: w) by (rewrite <- app_assoc; reflexivity).
  rewrite strchr_found by trivial. cbn [bind].
  destruct v as [|x v].
  { replace (pre ++ u ++ 32 :: [] ++ 0 :: w) with ((pre ++ u ++ [32]) ++ 0 :: w) by (rewrite <- !app_assoc; reflexivity).
    rewrite cget_at by (rewrite !zlen_app; change (zlen [32]) with 1; lia). cbn [bind Z.eqb].
    do 2 eexists. split; [reflexivity|]. split; [rewrite LB0; rewrite <- !app_assoc; reflexivity|].
    intros a canon name _ (raw & [(h & x & d & E & _)|(tag & h & d & E & NT & _)] & _).
    - replace (u ++ [32]) with (u ++ 32 :: []) in E by reflexivity. apply (f_equal (@rev Z)) in E. rewrite !rev_app_distr in E. cbn [rev app] in E.
      assert (H : In 32 (rev u)).
      { destruct (rev raw) as [|z rr] eqn:ER.
        - cbn [app] in E. injection E as _ E. rewrite E. left. reflexivity.
        - cbn [app] in E. injection E as _ E. rewrite E. apply in_or_app. left. apply in_or_app. right. right. left. reflexivity. }
      apply in_rev in H. contradiction.
    - apply first_unique in E as [_ E]; [discriminate|exact NU|exact NT]. }
  assert (NX : x <> 0) by (intros ->; apply NFV; left; reflexivity).
  assert (NFV' : nul_free v) by (intros I; apply NFV; right; exact I).
  replace (pre ++ u ++ 32 :: (x :: v) ++ 0 :: w) with ((pre ++ u ++ [32]) ++ x :: v ++ 0 :: w) by (rewrite <- !app_assoc; reflexivity).
  rewrite cget_at by (rewrite !zlen_app; change (zlen [32]) with 1; lia). cbn [bind].
  rewrite (proj2 (Z.eqb_neq x 0)) by exact NX.
  destruct (Z.eqb_spec x 40) as [->|NP].
  2:{ (* the GNU shape *)
    cbn [bind]. replace (zlen pre + zlen u - zlen pre) with (zlen u) by lia.
    assert (EA : (if zlen u =? 32 then algo_xxh128 else if zlen u =? 21 then algo_xxh3 else if zlen u =? 16 then algo_xxh64 else
       if zlen u =? 8 then algo_xxh32 else algo_xxh64) = gnu_algo (zlen u)).
    { unfold gnu_algo. destruct (Z.eqb_spec (zlen u) 32) as [->|]; [reflexivity|].
      destruct (Z.eqb_spec (zlen u) 21) as [->|]; [reflexivity|]. destruct (Z.eqb_spec (zlen u) 16) as [->|]; [reflexivity|].
      destruct (zlen u =? 8); reflexivity. }
    rewrite EA. clear EA. set (a := gnu_algo (zlen u)).
    change (exists r b', finish ((pre ++ u ++ [32]) ++ x :: v ++ 0 :: w) (zlen pre + zlen u) (zlen pre) (zlen u) a le needs mask = OK (r, b') /\
      parse_post mask le needs b0 (u ++ 32 :: x :: v) r b').
    apply (finish_ok b0 _ _ _ _ a le le needs mask (u ++ 32 :: x :: v) pre u (32 :: x :: v ++ 0 :: w) (pre ++ u ++ [32; x]) v w); trivial.
    - rewrite <- !app_assoc. reflexivity.
    - rewrite <- !app_assoc. reflexivity.
    - rewrite !zlen_app. change (zlen [32; x]) with 2. lia.
    - rewrite LB0. rewrite <- !app_assoc. reflexivity.
    - intros a' canon raw'. split.
      + intros [H|H]; [|apply bsd_shape in H as [H _]; [congruence|exact NU]].
        apply gnu_shape in H as (_ & -> & d & G & O); [|exact NU]. apply gnu_digest_iff in G as (EA & B & _). fold a in EA. subst a'.
        split; [reflexivity|]. split; [reflexivity|]. exists d. split; [exact B|]. apply (ordered_ord _ le) in O; [exact O|reflexivity].
      + intros (-> & -> & d & B & ->). left. exists u, x, d. split; [reflexivity|]. split; [exact NP|]. split.
        * apply gnu_digest_iff. split; [reflexivity|]. split; [exact B|]. unfold a, gnu_algo.
          destruct (Z.eqb_spec (zlen u) 8); [discriminate|]. destruct (Z.eqb_spec (zlen u) 21); [lia|]. destruct (zlen u =? 32); discriminate.
        * apply (ordered_ord _ le); reflexivity. }
  (* the BSD shape *)
  destruct (split_last 32 (32 :: 40 :: v)) as [NS|(l & q & E & NQ)]; [exfalso; apply NS; left; reflexivity|].
  assert (NFQ : nul_free q).
  { intros I. apply NF, in_or_app. right. rewrite E. apply in_or_app. right. right. exact I. }
  assert (NFL : nul_free (u ++ l)).
  { intros I. apply NF. rewrite E, app_assoc. apply in_or_app. left. exact I. }
  replace ((pre ++ u ++ [32]) ++ 40 :: v ++ 0 :: w) with (pre ++ (u ++ l) ++ 32 :: q ++ 0 :: w).
  2:{ transitivity (pre ++ u ++ (32 :: 40 :: v) ++ 0 :: w); [rewrite E; rewrite <- !app_assoc; reflexivity|rewrite <- !app_assoc; reflexivity]. }
  rewrite strrchr_found by (trivial; discriminate). cbn [bind]. rewrite zlen_app.
  assert (NOTBSD : (forall raw, v <> raw ++ str ") = " ++ q) -> forall a canon name, Z.testbit mask (algo_num a) = true -> ~ body_ok le needs (u ++ 32 :: 40 :: v) a canon name).
  { intros H a canon name _ (raw & [G|G] & _); [apply gnu_shape in G as [G _]; [congruence|exact NU]|].
    apply bsd_shape in G as (_ & h & d & EV & _ & B & _); [|exact NU]. apply (H raw). rewrite EV. f_equal. f_equal.
    apply bsd_no32 in B. assert (EE : (32 :: 40 :: raw ++ str ") =") ++ 32 :: h = l ++ 32 :: q).
    { rewrite <- E, EV. cbn [app]. rewrite <- app_assoc. reflexivity. }
    apply last_unique in EE as [_ EE]; trivial. }
  assert (LV : zlen l + zlen q = 1 + zlen v).
  { apply (f_equal zlen) in E. rewrite zlen_app, !zlen_cons in E. lia. }
  set (b1 := pre ++ (u ++ l) ++ 32 :: q ++ 0 :: w).
  assert (LB1 : zlen b1 = zlen b0) by (unfold b1; rewrite LB0; rewrite E; rewrite <- !app_assoc; reflexivity).
  assert (REJ : (forall raw, v <> raw ++ str ") = " ++ q) -> exists r b', OK (@None parsed, b1) = OK (r, b') /\
     parse_post mask le needs b0 (u ++ 32 :: 40 :: v) r b').
  { intros H. do 2 eexists. split; [reflexivity|]. split; [exact LB1|]. exact (NOTBSD H). }
  destruct (Z.ltb_spec (zlen pre + (zlen u + zlen l) - (zlen pre + zlen u)) 5) as [R|R].
  { cbn [bind]. apply REJ. intros raw EV. apply (f_equal zlen) in EV. rewrite !zlen_app in EV.
    change (zlen (str ") = ")) with 4 in EV. pose proof (zlen_nonneg raw). lia. }
  (* l = 32 40 raw x1 x2 x3 *)
  assert (EL : exists raw x3 x2 x1, l = 32 :: 40 :: raw ++ [x3; x2; x1]).
  { destruct l as [|y1 [|y2 l]]; [rewrite ?zlen_cons in R; change (zlen []) with 0 in R; lia..|]. injection E as <- <- E.
    rewrite !zlen_cons in R. destruct (zsplit l (zlen l - 3)) as (raw & t & -> & Lt); [lia|]. rewrite zlen_app in *.
    destruct t as [|x3 [|x2 [|x1 [|x0 t]]]]; rewrite ?zlen_cons in *; change (zlen []) with 0 in *; try (pose proof (zlen_nonneg t)); try lia.
    eauto. }
  destruct EL as (raw & x3 & x2 & x1 & ->). injection E as EV. rewrite <- app_assoc in EV. cbn [app] in EV.
  replace (zlen (32 :: 40 :: raw ++ [x3; x2; x1])) with (zlen raw + 5) by (rewrite !zlen_cons, zlen_app; change (zlen [x3; x2; x1]) with 3; lia).
  assert (F3 : b1 = (pre ++ u ++ 32 :: 40 :: raw) ++ x3 :: x2 :: x1 :: 32 :: q ++ 0 :: w).
  { unfold b1. rewrite <- !app_assoc. cbn [app]. rewrite <- !app_assoc. reflexivity. }
  assert (F2 : b1 = (pre ++ u ++ 32 :: 40 :: raw ++ [x3]) ++ x2 :: x1 :: 32 :: q ++ 0 :: w).
  { rewrite F3. rewrite <- !app_assoc. cbn [app]. rewrite <- !app_assoc. reflexivity. }
  assert (F1 : b1 = (pre ++ u ++ 32 :: 40 :: raw ++ [x3; x2]) ++ x1 :: 32 :: q ++ 0 :: w).
  { rewrite F3. rewrite <- !app_assoc. cbn [app]. rewrite <- !app_assoc. reflexivity. }
  assert (C1 : cget b1 (zlen pre + (zlen u + (zlen raw + 5)) - 1) = OK x1).
  { rewrite F1. apply cget_at. rewrite !zlen_app, !zlen_cons, zlen_app; change (zlen [x3; x2]) with 2; lia. }
  assert (C2 : cget b1 (zlen pre + (zlen u + (zlen raw + 5)) - 2) = OK x2).
  { rewrite F2. apply cget_at. rewrite !zlen_app, !zlen_cons, zlen_app; change (zlen [x3]) with 1; lia. }
  assert (C3 : cget b1 (zlen pre + (zlen u + (zlen raw + 5)) - 3) = OK x3).
  { rewrite F3. apply cget_at. rewrite !zlen_app, !zlen_cons; lia. }
  assert (REJ' : x1 <> 61 \/ x2 <> 32 \/ x3 <> 41 -> forall raw, v <> raw ++ str ") = " ++ q).
  { intros D raw' EV'. rewrite EV in EV'. change (x3 :: x2 :: x1 :: 32 :: q) with ([x3; x2; x1; 32] ++ q) in EV'. rewrite !app_assoc in EV'.
    apply app_inv_tail in EV'. assert (L : zlen raw = zlen raw').
    { apply (f_equal zlen) in EV'. rewrite !zlen_app in EV'. change (zlen (str ") = ")) with 4 in EV'. change (zlen [x3; x2; x1; 32]) with 4 in EV'. lia. }
    apply app_inv_len in EV' as [_ EV']; [|exact L]. vm_compute in EV'. injection EV' as -> -> ->. destruct D as [D|[D|D]]; apply D; reflexivity. }
  rewrite C1. cbn [bind].
  destruct (Z.eqb_spec x1 61) as [->|N1]; cbn [negb]; [|cbn [bind]; apply REJ, REJ'; auto].
  rewrite C2. cbn [bind].
  destruct (Z.eqb_spec x2 32) as [->|N2]; cbn [negb]; [|cbn [bind]; apply REJ, REJ'; auto].
  rewrite C3. cbn [bind].
  destruct (Z.eqb_spec x3 41) as [->|N3]; cbn [negb]; [|cbn [bind]; apply REJ, REJ'; auto].
  rewrite F3, cset_at by (rewrite !zlen_app, !zlen_cons; lia). cbn [bind].
  replace ((pre ++ u ++ 32 :: 40 :: raw) ++ 0 :: 32 :: 61 :: 32 :: q ++ 0 :: w) with ((pre ++ u) ++ 32 :: 40 :: raw ++ 0 :: 32 :: 61 :: 32 :: q ++ 0 :: w)
    by (rewrite <- !app_assoc; reflexivity).
  rewrite cset_at by (rewrite zlen_app; lia). cbn [bind].
  set (tl := 40 :: raw ++ 0 :: 32 :: 61 :: 32 :: q ++ 0 :: w).
  replace ((pre ++ u) ++ 0 :: tl) with (pre ++ u ++ 0 :: tl) by (rewrite <- app_assoc; reflexivity).
  unfold strstr at 1. rewrite cstr_ok by trivial. cbn [bind].
  assert (ST : pre ++ u ++ 0 :: tl = (pre ++ u ++ 0 :: 40 :: raw ++ [0; 32; 61; 32]) ++ q ++ 0 :: w).
  { unfold tl. rewrite <- !app_assoc. cbn [app]. rewrite <- !app_assoc. reflexivity. }
  assert (LT : 6 <= zlen tl).
  { unfold tl. rewrite !zlen_cons, zlen_app, !zlen_cons, zlen_app, zlen_cons. pose proof (zlen_nonneg raw). pose proof (zlen_nonneg q). pose proof (zlen_nonneg w). lia. }
  assert (LS : strlen (pre ++ u ++ 0 :: tl) (zlen pre + (zlen u + (zlen raw + 5)) + 1) = OK (zlen q)).
  { rewrite ST. apply strlen_ok; [|exact NFQ]. rewrite !zlen_app, !zlen_cons, zlen_app. change (zlen [0; 32; 61; 32]) with 4. lia. }
  rewrite LS. cbn [bind].
  assert (MQ : forall p, nul_free p -> zlen p <= 6 -> memeq (pre ++ u ++ 0 :: tl) (zlen pre) p = OK (prefixb p u)).
  { intros p NFP LP. rewrite memeq_ok; [|reflexivity|rewrite zlen_app, zlen_cons; pose proof (zlen_nonneg u); lia]. f_equal.
    apply eq_true_iff_eq. rewrite !prefixb_starts. apply starts_nul, NFP. }
  rewrite !MQ by (solve [vm_compute; discriminate]|| (intros I; vm_compute in I; repeat (destruct I as [I|I]; [discriminate|]); exact I)).
  cbn [bind].
  assert (EA : (if prefixb (str "XXH128") u then algo_xxh128 else if prefixb (str "XXH64") u then algo_xxh64 else
     if prefixb (str "XXH32") u then algo_xxh32 else if prefixb (str "XXH3") u then algo_xxh3 else algo_xxh64) = tag_of u).
  { unfold tag_of. destruct (prefixb (str "XXH128") u); [reflexivity|]. destruct (prefixb (str "XXH64") u) eqn:E64; [|reflexivity].
    apply prefixb_starts in E64. pose proof (starts_ne (str "XXH") (str "2") 54 51 u ltac:(discriminate)) as K.
    destruct (prefixb (str "XXH32") u) eqn:E32.
    { exfalso. apply K; [exact (starts_head (str "XXH6") (str "4") u E64)|apply prefixb_starts, E32]. }
    destruct (prefixb (str "XXH3") u) eqn:E3; [|reflexivity].
    exfalso. apply (starts_ne (str "XXH") [] 54 51 u); [discriminate|exact (starts_head (str "XXH6") (str "4") u E64)|apply prefixb_starts, E3]. }
  rewrite EA. clear EA.
  set (lb := containsb (str "_LE") u).
  change (exists r b', finish (pre ++ u ++ 0 :: tl) (zlen pre + zlen u) (zlen pre + (zlen u + (zlen raw + 5)) + 1) (zlen q) (tag_of u) lb needs mask = OK (r, b') /\
    parse_post mask le needs b0 (u ++ 32 :: 40 :: v) r b').
  apply (finish_ok b0 _ _ _ _ (tag_of u) le lb needs mask (u ++ 32 :: 40 :: v)
     (pre ++ u ++ 0 :: 40 :: raw ++ [0; 32; 61; 32]) q (0 :: w) (pre ++ u ++ [0; 40]) raw (32 :: 61 :: 32 :: q ++ 0 :: w)); trivial.
  - rewrite !zlen_app, !zlen_cons, zlen_app. change (zlen [0; 32; 61; 32]) with 4. lia.
  - unfold tl. rewrite <- !app_assoc. reflexivity.
  - rewrite !zlen_app. change (zlen [0; 40]) with 2. lia.
  - intros I. apply NFV'. rewrite EV. apply in_or_app. left. exact I.
  - rewrite <- LB1. unfold b1, tl. rewrite <- !app_assoc. cbn [app]. rewrite <- ?app_assoc. cbn [app].
    rewrite !zlen_app, !zlen_cons, !zlen_app, !zlen_cons, !zlen_app, !zlen_cons. lia.
  - intros a' canon raw'. split.
    + intros [G|G]; [apply gnu_shape in G as [G _]; [congruence|exact NU]|].
      apply bsd_shape in G as (_ & h & d & EV' & T & B & O); [|exact NU]. apply tag_algo_of in T. subst a'.
      assert (H : raw' = raw /\ h = q).
      { pose proof (bsd_no32 _ _ _ B) as NH. assert (EE : (raw' ++ str ") =") ++ 32 :: h = (raw ++ str ") =") ++ 32 :: q).
        { rewrite <- !app_assoc. cbn. rewrite EV in EV'. symmetry. exact EV'. }
        apply last_unique in EE as [E1 E2]; trivial. split; [exact (app_inv_tail _ _ _ E1)|exact E2]. }
      destruct H as [-> ->]. split; [reflexivity|]. split; [reflexivity|]. exists d. split; [exact B|].
      apply (ordered_ord _ lb) in O; [exact O|]. unfold lb. apply containsb_occurs.
    + intros (-> & -> & d & B & ->). right. exists u, q, d. split; [rewrite EV; reflexivity|]. split; [exact NU|]. split; [apply tag_algo_of; reflexivity|].
      split; [exact B|]. apply (ordered_ord _ lb); [|reflexivity]. unfold lb. apply containsb_occurs.
Qed.

Lemma escaped_dec s : escaped_line s \/ ~ escaped_line s.
Proof.
  destruct (lineNeedsUnescape_ok s []) as (b & _ & H). destruct b; [left; apply H; reflexivity|right; intros E; apply H in E; discriminate].
Qed.
Lemma escaped_cons s : escaped_line s -> exists x body, s = x :: body.
Proof. intros ([|y bl] & r & -> & _); cbn [app]; eauto. Qed.
Theorem parseLine_ok s w le mask : nul_free s ->
  exists r b', parseLine (s ++ 0 :: w) le mask = OK (r, b') /\ zlen b' = zlen (s ++ 0 :: w) /\
    match r with
    | Some (a, canon, i) => exists name, cstr b' i = OK name /\ Accepts mask le s a canon name
    | None => forall a canon name, ~ Accepts mask le s a canon name
    end.
Proof.
  intros NF. unfold parseLine. destruct (lineNeedsUnescape_ok s w) as (needs & -> & HN). cbn [bind].
  assert (X : exists pre body, s = pre ++ body /\ zlen pre = (if needs then 1 else 0) /\
     forall a canon name, Accepts mask le s a canon name <-> Z.testbit mask (algo_num a) = true /\ body_ok le needs body a canon name).
  { destruct needs.
    - assert (ES : escaped_line s) by (apply HN; reflexivity). destruct (escaped_cons s ES) as (x & body & ->).
      exists [x], body. split; [reflexivity|]. split; [reflexivity|]. intros a canon name. split.
      + intros (T & body' & raw & L & [(_ & (y & E) & U)|(N & _)]); [|contradiction]. injection E as -> ->. split; [exact T|]. exists raw. auto.
      + intros (T & raw & L & U). split; [exact T|]. exists body, raw. split; [exact L|]. left. eauto.
    - assert (ES : ~ escaped_line s) by (intros E; apply HN in E; discriminate).
      exists [], s. split; [reflexivity|]. split; [reflexivity|]. intros a canon name. split.
      + intros (T & body' & raw & L & [(N & _)|(_ & -> & ->)]); [contradiction|]. split; [exact T|]. exists raw. auto.
      + intros (T & raw & L & ->). split; [exact T|]. exists s, raw. split; [exact L|]. right. auto. }
  destruct X as (pre & body & -> & LP & HA).
  assert (NB : nul_free body) by exact (in_str_app_r _ _ _ NF).
  destruct (parseLine1_ok pre body w le needs mask (pre ++ body ++ 0 :: w) NB eq_refl) as (r & b' & E & LB & H).
  rewrite <- app_assoc. rewrite <- LP, E. exists r, b'. split; [reflexivity|]. split; [exact LB|].
  destruct r as [[[a canon] i]|].
  - destruct H as (T & pre' & name & w' & -> & -> & NN & B). exists name. split; [apply cstr_ok; trivial|]. apply HA. auto.
  - intros a canon name AC. apply HA in AC as [T B]. exact (H a canon name T B).
Qed.

Lemma ordered_det P d c c' : ordered P d c -> ordered P d c' -> c = c'.
Proof. intros [[A ->]|[A ->]] [[B ->]|[B ->]]; try contradiction; reflexivity. Qed.
Lemma body_shape le body a canon raw : gnu_line le body a canon raw \/ bsd_line body a canon raw -> exists u x v, body = u ++ 32 :: x :: v /\ ~ In 32 u.
Proof.
  intros [(h & x & d & -> & _ & G & _)|(tag & h & d & -> & NT & _)].
  - exists h, x, raw. split; [reflexivity|exact (gnu_no32 _ _ _ G)].
  - exists tag, 40, (raw ++ str ") = " ++ h). split; [reflexivity|exact NT].
Qed.
Lemma line_det le body a canon raw a' canon' raw' :
  gnu_line le body a canon raw \/ bsd_line body a canon raw -> gnu_line le body a' canon' raw' \/ bsd_line body a' canon' raw' ->
  a = a' /\ canon = canon' /\ raw = raw'.
Proof.
  intros H. destruct (body_shape _ _ _ _ _ H) as (u & x & v & -> & NU). revert H.
  intros [H|H] [H'|H'].
  - apply gnu_shape in H as (_ & -> & d & G & O), H' as (_ & -> & d' & G' & O'); trivial.
    apply gnu_digest_iff in G as (EA & B & _), G' as (EA' & B' & _). rewrite <- EA' in EA. subst a'.
    assert (d = d') as <- by exact (bsd_digest_det _ _ _ _ B B'). split; [reflexivity|]. split; [exact (ordered_det _ _ _ _ O O')|reflexivity].
  - apply gnu_shape in H as [H _]; trivial. apply bsd_shape in H' as [H' _]; trivial. contradiction.
  - apply bsd_shape in H as [H _]; trivial. apply gnu_shape in H' as [H' _]; trivial. contradiction.
  - apply bsd_shape in H as (_ & h & d & E & T & B & O), H' as (_ & h' & d' & E' & T' & B' & O'); trivial.
    apply tag_algo_of in T, T'. subst a a'.
    assert (EE : (raw ++ str ") =") ++ 32 :: h = (raw' ++ str ") =") ++ 32 :: h').
    { rewrite <- !app_assoc. rewrite E in E'. exact E'. }
    apply last_unique in EE as [E1 <-]; [|exact (bsd_no32 _ _ _ B)|exact (bsd_no32 _ _ _ B')].
    apply app_inv_tail in E1. subst raw'. assert (d = d') as <- by exact (bsd_digest_det _ _ _ _ B B').
    split; [reflexivity|]. split; [exact (ordered_det _ _ _ _ O O')|reflexivity].
Qed.
Theorem Accepts_det mask le s a c n a' c' n' : Accepts mask le s a c n -> Accepts mask le s a' c' n' -> a = a' /\ c = c' /\ n = n'.
Proof.
  intros (T & body & raw & L & H) (T' & body' & raw' & L' & H').
  assert (body = body') as <-.
  { destruct H as [(A & (x & ->) & _)|(A & -> & _)], H' as [(B & (y & E) & _)|(B & E & _)]; try contradiction; congruence. }
  destruct (line_det _ _ _ _ _ _ _ _ L L') as (-> & -> & ->). split; [reflexivity|]. split; [reflexivity|].
  destruct H as [(A & _ & U)|(A & _ & ->)], H' as [(B & _ & U')|(B & _ & ->)]; try contradiction; [exact (Unescaped_det _ _ _ U U')|reflexivity].
Qed.

(* ------------------------------------------------------------------ *)
(** ** Printing *)
Lemma escape_unescaped n : nul_free n -> Unescaped (escape n) n.
Proof.
  induction n as [|x n IH]; intros N; cbn [escape flat_map]; [constructor|].
  assert (NN : nul_free n) by (intros I; apply N; right; exact I).
  destruct (Z.eqb_spec x 92) as [->|N1]; [apply un_bsl, IH, NN|]. destruct (Z.eqb_spec x 10) as [->|N2]; [apply un_lf, IH, NN|].
  destruct (Z.eqb_spec x 13) as [->|N3]; [apply un_cr, IH, NN|].
  apply un_chr; [exact N1|intros ->; apply N; left; reflexivity|apply IH, NN].
Qed.
Lemma escape_no_eol n x : In x (escape n) -> x <> 10 /\ x <> 13.
Proof.
  intros I. apply in_flat_map in I as (y & _ & I).
  destruct (Z.eqb_spec y 92); [|destruct (Z.eqb_spec y 10); [|destruct (Z.eqb_spec y 13)]]; cbn in I; intuition lia.
Qed.
Lemma Unescaped_escape s n : Unescaped s n -> ~ In 10 s -> ~ In 13 s -> s = escape n.
Proof.
  induction 1 as [|s n H IH|s n H IH|s n H IH|x s n A B H IH]; intros N1 N2; cbn [escape flat_map app Z.eqb Pos.eqb].
  - reflexivity.
  - f_equal. f_equal. apply IH; intros I; [apply N1|apply N2]; right; right; exact I.
  - f_equal. f_equal. apply IH; intros I; [apply N1|apply N2]; right; right; exact I.
  - f_equal. f_equal. apply IH; intros I; [apply N1|apply N2]; right; right; exact I.
  - rewrite (proj2 (Z.eqb_neq x 92)) by exact A. rewrite (proj2 (Z.eqb_neq x 10)) by (intros ->; apply N1; left; reflexivity).
    rewrite (proj2 (Z.eqb_neq x 13)) by (intros ->; apply N2; left; reflexivity). cbn [app]. f_equal.
    apply IH; intros I; [apply N1|apply N2]; right; exact I.
Qed.
Lemma printFilename_escape n : printFilename n true = escape n.
Proof.
  unfold printFilename, escape. cbn [negb]. induction n as [|x n IH]; [reflexivity|]. cbn [flat_map]. rewrite IH. f_equal.
  unfold LF, CR, BSL. destruct (Z.eqb_spec x 92) as [->|N1]; [reflexivity|]. destruct (Z.eqb_spec x 10); [reflexivity|].
  destruct (Z.eqb_spec x 13); reflexivity.
Qed.
Lemma needsEscape_spec n : filenameNeedsEscape n = true <-> In 92 n \/ In 10 n \/ In 13 n.
Proof.
  unfold filenameNeedsEscape. rewrite !orb_true_iff, !existsb_exists. unfold BSL, LF, CR. split.
  - intros [[(x & I & E)|(x & I & E)]|(x & I & E)]; apply Z.eqb_eq in E; subst; auto.
  - intros [I|[I|I]]; [left; left; exists 92|left; right; exists 10|right; exists 13]; auto.
Qed.
Lemma display_ok (le : bool) p n : bytes_ok p -> zlen p = n ->
  exists h, (if le then display_LittleEndian else display_BigEndian) p n = OK h /\ HexText h (ord le p).
Proof.
  intros B <-. destruct le; cbn [ord].
  - unfold display_LittleEndian.
    destruct (for_inv (fun k out => exists p1 p2, p = p1 ++ p2 /\ zlen p2 = k /\ HexText out (rev p2))
       (fun k out => let! x := cget p (zlen p - 1 - k) in OK (out ++ hex2 x)) (Z.to_nat (zlen p)) 0 []) as (h & E & p1 & p2 & E2 & L & H).
    + exists p, []. rewrite app_nil_r. repeat split; constructor.
    + intros k out R (p1 & p2 & -> & L & H). destruct (List.rev p1) as [|x q] eqn:ER.
      { apply (f_equal (@List.rev Z)) in ER. rewrite rev_involutive in ER. subst p1. cbn [List.rev app] in *. pose proof (zlen_nonneg p2). lia. }
      apply (f_equal (@List.rev Z)) in ER. rewrite rev_involutive in ER. cbn [List.rev] in ER. subst p1.
      rewrite <- app_assoc. cbn [app]. rewrite cget_at by (rewrite zlen_app, zlen_cons; lia). cbn [bind].
      eexists. split; [reflexivity|]. exists (List.rev q), (x :: p2). split; [rewrite <- ?app_assoc; reflexivity|]. rewrite zlen_cons. split; [lia|].
      cbn [List.rev]. apply HexText_app; [exact H|]. apply hex2_ok.
      apply (proj1 (Forall_forall _ _) B x). apply in_or_app. left. apply in_or_app. right. left. reflexivity.
    + exists h. split; [exact E|]. assert (p1 = []) as ->.
      { destruct p1; [reflexivity|]. rewrite E2, zlen_app, zlen_cons in L. pose proof (zlen_nonneg p1). pose proof (zlen_nonneg p2). lia. }
      cbn [app] in E2. subst p2. exact H.
  - unfold display_BigEndian.
    destruct (for_inv (fun k out => exists p1 p2, p = p1 ++ p2 /\ zlen p1 = k /\ HexText out p1)
       (fun idx out => let! x := cget p idx in OK (out ++ hex2 x)) (Z.to_nat (zlen p)) 0 []) as (h & E & p1 & p2 & E2 & L & H).
    + exists [], p. repeat split; constructor.
    + intros k out R (p1 & p2 & -> & L & H). destruct p2 as [|x p2].
      { rewrite app_nil_r in R. pose proof (zlen_nonneg p1). lia. }
      rewrite cget_at by lia. cbn [bind]. eexists. split; [reflexivity|]. exists (p1 ++ [x]), p2. split; [rewrite <- app_assoc; reflexivity|].
      rewrite zlen_app. change (zlen [x]) with 1. split; [lia|]. apply HexText_app; [exact H|]. apply hex2_ok.
      apply (proj1 (Forall_forall _ _) B x). apply in_or_app. right. left. reflexivity.
    + exists h. split; [exact E|]. assert (p2 = []) as ->.
      { destruct p2; [reflexivity|]. rewrite E2, zlen_app, zlen_cons in L. pose proof (zlen_nonneg p1). pose proof (zlen_nonneg p2). lia. }
      rewrite app_nil_r in E2. subst p1. exact H.
Qed.
Lemma algoLength_size a : algoLength a = digest_size a. Proof. destruct a; reflexivity. Qed.
Definition is_le (e : endianness) : bool := match e with big_endian => false | little_endian => true end.
Lemma ord_len le d : zlen (ord le d) = zlen d.
Proof. destruct le; cbn [ord]; [unfold zlen; rewrite rev_length|]; reflexivity. Qed.
Lemma ord_ord le d : ord le (ord le d) = d.
Proof. destruct le; cbn [ord]; [apply rev_involutive|reflexivity]. Qed.
Lemma HexText_no h d x : HexText h d -> charToHex x = -1 -> ~ In x h.
Proof. intros H E I. apply HexText_hex in H. rewrite Forall_forall in H. specialize (H x I). lia. Qed.

Lemma escape_len n : zlen (escape n) <= 2 * zlen n.
Proof.
  induction n as [|x n IH]; [vm_compute; discriminate|]. unfold escape in *. cbn [flat_map]. rewrite zlen_app, zlen_cons.
  assert (zlen (if x =? 92 then [92; 92] else if x =? 10 then [92; 110] else if x =? 13 then [92; 114] else [x]) <= 2)
    by (destruct (x =? 92); [|destruct (x =? 10); [|destruct (x =? 13)]]; vm_compute; discriminate). lia.
Qed.
(** the line printed, without its end of line, is accepted and gives back its ingredients; it holds no NUL, no CR and no LF *)
Theorem displayLine_ok conv e name canon a mask le : nul_free name -> bytes_ok canon -> zlen canon = digest_size a ->
  Z.testbit mask (algo_num a) = true -> (conv = display_gnu -> le = is_le e) ->
  exists line, displayLine conv e name canon a = OK (line ++ [LF]) /\ Accepts mask le line a canon name /\
    ~ In 0 line /\ ~ In 10 line /\ ~ In 13 line /\ (forall r, line <> 35 :: r) /\ zlen line <= 2 * zlen name + 64 /\ (bytes_ok name -> bytes_ok line).
Proof.
  intros NN B L T HE. set (ne := filenameNeedsEscape name). set (raw := printFilename name ne).
  destruct (display_ok (is_le e) canon (algoLength a) B ltac:(rewrite algoLength_size; exact L)) as (h & EH & H).
  set (dig := match conv with display_gnu => displayPrefix a ++ h | display_bsd => h end).
  set (head := match conv with display_gnu => dig ++ str "  " | display_bsd => (if is_le e then algoLE_name a else algoName a) ++ str " (" end).
  set (body := head ++ raw ++ match conv with display_gnu => [] | display_bsd => str ") = " ++ dig end).
  assert (ED : displayLine conv e name canon a = OK (((if ne then [BSL] else []) ++ body) ++ [LF])).
  { unfold body, head, dig. destruct conv, e; cbn [is_le displayLine] in *; unfold printLine_GNU_internal, printLine_BSD_internal; rewrite EH; cbn [bind];
      fold ne; fold raw; rewrite ?app_nil_r; rewrite <- !app_assoc; reflexivity. }
  assert (LD : zlen (ord (is_le e) canon) = digest_size a) by (rewrite ord_len; exact L).
  assert (BO : gnu_line le body a canon raw \/ bsd_line body a canon raw).
  { unfold body, head, dig. destruct conv.
    - left. exists (displayPrefix a ++ h), 32, (ord (is_le e) canon). split; [rewrite app_nil_r; rewrite <- !app_assoc; reflexivity|]. split; [discriminate|]. split.
      + destruct a; cbn [displayPrefix app gnu_digest]; try (split; assumption). exists h. split; [reflexivity|]. split; assumption.
      + apply (ordered_ord _ le); [reflexivity|]. rewrite (HE eq_refl), ord_ord. reflexivity.
    - right. exists (if is_le e then algoLE_name a else algoName a), h, (ord (is_le e) canon). split; [rewrite <- !app_assoc; reflexivity|].
      split; [destruct e, a; intros I; vm_compute in I; repeat (destruct I as [I|I]; [discriminate|]); exact I|].
      split; [apply tag_algo_of; destruct e, a; reflexivity|]. split; [left; split; assumption|].
      apply (ordered_ord _ (is_le e)); [|rewrite ord_ord; reflexivity]. rewrite <- containsb_occurs. destruct e, a; vm_compute; split; trivial. }
  assert (HF : exists y t, body = y :: t /\ y <> 92 /\ y <> 32 /\ y <> 9 /\ y <> 35).
  { assert (X : exists y t, head = y :: t /\ y <> 92 /\ y <> 32 /\ y <> 9 /\ y <> 35).
    { unfold head, dig. destruct conv; [|destruct e, a; do 2 eexists; (split; [reflexivity|repeat split; discriminate])].
      assert (XH : exists y t, h = y :: t /\ y <> 92 /\ y <> 32 /\ y <> 9 /\ y <> 35).
      { pose proof (HexText_len _ _ H) as LH. destruct h as [|y t]; [change (zlen []) with 0 in LH; destruct a; cbn [digest_size] in LD; lia|].
        exists y, t. split; [reflexivity|]. repeat split; intros ->; revert H; apply (nohex_not []); reflexivity. }
      destruct a; try (destruct XH as (y & t & -> & XH); exists y, (t ++ str "  "); split; [reflexivity|exact XH]).
      do 2 eexists. split; [reflexivity|repeat split; discriminate]. }
    destruct X as (y & t & E & X). unfold body. rewrite E. cbn [app]. do 2 eexists. split; [reflexivity|exact X]. }
  exists ((if ne then [BSL] else []) ++ body). split; [exact ED|]. split.
  { split; [exact T|]. exists body, raw. split; [exact BO|]. destruct ne eqn:EN.
    - left. split; [exists [], body; split; [reflexivity|constructor]|]. split; [exists BSL; reflexivity|].
      unfold raw. rewrite printFilename_escape. apply escape_unescaped, NN.
    - right. split; [|split; [reflexivity|reflexivity]]. destruct HF as (y & t & E & N1 & N2 & N3 & _). cbn [app].
      intros ([|z bl] & r & E2 & F); rewrite E in E2; injection E2 as -> E2; [congruence|]. inversion F; subst. lia. }
  assert (NR : forall x, x = 0 \/ x = 10 \/ x = 13 -> ~ In x raw).
  { intros x X I. unfold raw in I. destruct ne eqn:EN.
    - rewrite printFilename_escape in I. destruct X as [->|X]; [|apply escape_no_eol in I; lia].
      apply in_flat_map in I as (y & Iy & I). destruct (Z.eqb_spec y 92); [|destruct (Z.eqb_spec y 10); [|destruct (Z.eqb_spec y 13)]]; cbn in I; try lia.
      destruct I as [->|[]]. exact (NN Iy).
    - change (In x name) in I. assert (N : ~ (In 92 name \/ In 10 name \/ In 13 name)) by (intros Y; apply needsEscape_spec in Y; unfold ne in EN; congruence).
      destruct X as [->|[->| ->]]; [exact (NN I)|tauto..]. }
  assert (ND : forall x, x = 0 \/ x = 10 \/ x = 13 -> ~ In x dig).
  { intros x X I. assert (NH : ~ In x h) by (apply (HexText_no _ _ _ H); destruct X as [->|[->| ->]]; reflexivity).
    unfold dig in I. destruct conv; [|contradiction]. apply in_app_or in I as [I|I]; [|contradiction].
    destruct a; vm_compute in I; repeat (destruct I as [I|I]; [lia|]); exact I. }
  assert (NA : forall x, x = 0 \/ x = 10 \/ x = 13 -> ~ In x ((if ne then [BSL] else []) ++ body)).
  { intros x X I. apply in_app_or in I as [I|I]; [destruct ne; cbn in I; unfold BSL in I; lia|]. unfold body in I.
    apply in_app_or in I as [I|I].
    - unfold head in I. destruct conv; apply in_app_or in I as [I|I]; try (exact (ND x X I)); [vm_compute in I; lia|destruct e, a; vm_compute in I; lia|vm_compute in I; lia].
    - apply in_app_or in I as [I|I]; [exact (NR x X I)|]. destruct conv; [destruct I|]. apply in_app_or in I as [I|I]; [vm_compute in I; lia|exact (ND x X I)]. }
  split; [apply NA; auto|]. split; [apply NA; auto|]. split; [apply NA; auto|]. split.
  { intros r E. destruct HF as (y & t & EB & _ & _ & _ & N). destruct ne; [discriminate|]. cbn [app] in E. rewrite EB in E. congruence. }
  assert (LR : 0 <= zlen raw <= 2 * zlen name).
  { split; [apply zlen_nonneg|]. unfold raw. destruct ne; [rewrite printFilename_escape; apply escape_len|]. change (printFilename name false) with name. pose proof (zlen_nonneg name). lia. }
  split.
  { pose proof (HexText_len _ _ H) as LH. rewrite LD in LH.
  unfold body, head, dig. rewrite !zlen_app. assert (zlen (if ne then [BSL] else []) <= 1) by (destruct ne; [change (zlen [BSL]) with 1|change (zlen []) with 0]; lia).
  destruct conv.
  - rewrite !zlen_app. change (zlen (str "  ")) with 2. change (zlen []) with 0. assert (zlen (displayPrefix a) <= 5) by (destruct a; vm_compute; discriminate).
    destruct a; cbn [digest_size] in LH; lia.
  - rewrite !zlen_app. change (zlen (str " (")) with 2. change (zlen (str ") = ")) with 4.
    assert (zlen (if is_le e then algoLE_name a else algoName a) <= 20) by (destruct e, a; vm_compute; discriminate).
    destruct a; cbn [digest_size] in LH; lia. }
  intros BN.
  assert (BR : bytes_ok raw).
  { unfold raw. destruct ne; [rewrite printFilename_escape|exact BN]. apply Forall_forall. intros y I. apply in_flat_map in I as (z & Iz & I).
    unfold bytes_ok in BN. rewrite Forall_forall in BN. specialize (BN z Iz). unfold byte_ok in *.
    destruct (Z.eqb_spec z 92); [|destruct (Z.eqb_spec z 10); [|destruct (Z.eqb_spec z 13)]]; cbn in I; lia. }
  assert (BH : bytes_ok h).
  { apply HexText_hex in H. unfold bytes_ok. rewrite Forall_forall in *. intros y I. specialize (H y I). unfold charToHex in H. unfold byte_ok.
    destruct ((48 <=? y) && (y <=? 57)) eqn:Q1; [lia|]. destruct ((65 <=? y) && (y <=? 70)) eqn:Q2; [lia|]. destruct ((97 <=? y) && (y <=? 102)) eqn:Q3; lia. }
  assert (BC : forall l, forallb (fun y => (0 <=? y) && (y <? 256)) l = true -> bytes_ok l).
  { intros l F. apply Forall_forall. intros y I. rewrite forallb_forall in F. specialize (F y I). unfold byte_ok. lia. }
  assert (BD : bytes_ok dig) by (unfold dig; destruct conv; [apply bytes_ok_app; [apply BC; destruct a; reflexivity|]|]; exact BH).
  assert (BHD : bytes_ok head) by (unfold head; destruct conv; [apply bytes_ok_app; [exact BD|apply BC; reflexivity]|apply bytes_ok_app; apply BC; destruct e, a; reflexivity]).
  apply bytes_ok_app; [apply BC; destruct ne; reflexivity|]. unfold body. apply bytes_ok_app; [exact BHD|]. apply bytes_ok_app; [exact BR|].
  destruct conv; [constructor|]. apply bytes_ok_app; [apply BC; reflexivity|exact BD].
Qed.
