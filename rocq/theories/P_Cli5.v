(** Proofs about the command line of xxhsum. *)
From Coq Require Import String Ascii List.
From Verif Require Import Base Mem P_Base M_Cli SpecCli P_Cli M_Cli2 P_Cli2 M_Cli3 SpecCli3.

(** ** Numbers *)
Definition decimal_from (r : Z) (ds : list Z) : Z := fold_left (fun v c => 10 * v + (c - 48)) ds r.
Lemma digit_iff c : digit c = true <-> 48 <= c <= 57.
Proof. unfold digit. rewrite andb_true_iff, !Z.leb_le. tauto. Qed.
Lemma decimal_from_ge ds : forall r, 0 <= r -> Forall (fun c => digit c = true) ds -> r <= decimal_from r ds.
Proof.
  induction ds as [|c ds IH]; intros r R F; [cbn; lia|]. inversion F; subst. apply digit_iff in H1. cbn [decimal_from fold_left]. specialize (IH (10 * r + (c - 48)) ltac:(lia) H2). unfold decimal_from in *. lia.
Qed.
Lemma leading_digits_ok s : exists ds t, leading_digits s = (ds, t) /\ s = ds ++ t /\ Forall (fun c => digit c = true) ds /\ (forall c r, t = c :: r -> digit c = false).
Proof.
  induction s as [|c s IH]; [exists [], []; repeat split; [constructor|discriminate]|]. cbn [leading_digits]. destruct (digit c) eqn:D.
  - destruct IH as (ds & t & E & -> & F & N). rewrite E. exists (c :: ds), t. repeat split; [constructor; assumption|exact N].
  - exists [], (c :: s). repeat split; [constructor|]. intros x r Q. injection Q as <- _. exact D.
Qed.
Lemma digits_loop ds : forall pre c post k r, Forall (fun c => digit c = true) ds -> digit c = false -> (List.length ds < k)%nat -> 0 <= r <= 4294967289 ->
  if decimal_from r ds <=? 4294967289
  then while_ k (fun s => match snd s with None => true | Some _ => false end) (readU32_body (pre ++ ds ++ c :: post)) (zlen pre, r, None) = OK (zlen pre + zlen ds, decimal_from r ds, Some true)
  else exists i r', while_ k (fun s => match snd s with None => true | Some _ => false end) (readU32_body (pre ++ ds ++ c :: post)) (zlen pre, r, None) = OK (i, r', Some false).
Proof.
  induction ds as [|d ds IH]; intros pre c post k r F D K R; destruct k as [|k]; try (cbn in K; lia).
  - cbn [decimal_from fold_left app]. destruct (r <=? 4294967289) eqn:Q; [|lia]. cbn [while_ snd]. unfold readU32_body at 1. rewrite cget_at by reflexivity. cbn [bind].
    unfold digit in D. rewrite D. cbn [bind]. rewrite zlen_nil, Z.add_0_r. destruct k; reflexivity.
  - inversion F as [|? ? Hd F']; subst. pose proof (proj1 (digit_iff d) Hd) as Hd'. cbn [while_ snd app]. unfold readU32_body at 1. unfold readU32_body at 2. rewrite cget_at by reflexivity. cbn [bind].
    unfold digit in Hd. rewrite Hd. change ((2 ^ 32 - 1) / 10 - 1) with 429496728.
    destruct (429496728 <? r) eqn:Q.
    + assert (G := decimal_from_ge ds (10 * r + (d - 48)) ltac:(lia) F'). cbn [decimal_from fold_left] in *. unfold decimal_from in G.
      destruct (fold_left _ ds _ <=? 4294967289) eqn:Q'; [lia|]. exists (zlen pre), r. cbn [bind]. destruct k; reflexivity.
    + cbn [bind]. assert (EV : (r * 10 mod 2 ^ 32 + (d - 48)) mod 2 ^ 32 = 10 * r + (d - 48)) by (rewrite (Z.mod_small (r * 10)) by lia; rewrite Z.mod_small; lia).
      rewrite EV. specialize (IH (pre ++ [d]) c post k (10 * r + (d - 48)) F' D ltac:(cbn in K; lia) ltac:(lia)).
      rewrite <- app_assoc in IH. cbn [app] in IH. rewrite zlen_app in IH. change (zlen [d]) with 1 in IH.
      change (decimal_from r (d :: ds)) with (decimal_from (10 * r + (d - 48)) ds). rewrite zlen_cons. replace (zlen pre + (1 + zlen ds)) with (zlen pre + 1 + zlen ds) by lia. exact IH.
Qed.
Lemma cget_nul pre s post : exists c r, s ++ 0 :: post = c :: r /\ cget (pre ++ s ++ 0 :: post) (zlen pre) = OK c /\ (s = [] /\ c = 0 \/ exists s', s = c :: s').
Proof.
  destruct s as [|c s]; cbn [app]; [exists 0, post|exists c, (s ++ 0 :: post)]; (split; [reflexivity|]; split; [apply cget_at; reflexivity|]); [left; auto|right; eauto].
Qed.
Lemma cget_skip pre s post ch : exists used, s = used ++ skip ch s /\ exists c, cget (pre ++ s ++ 0 :: post) (zlen pre) = OK c /\ (ch <> 0 -> (if c =? ch then zlen pre + 1 else zlen pre) = zlen pre + zlen used).
Proof.
  destruct s as [|c s]; cbn [skip app].
  - exists []. split; [reflexivity|]. exists 0. split; [apply cget_at; reflexivity|]. intros N. destruct (0 =? ch) eqn:Q; [lia|]. rewrite zlen_nil. lia.
  - destruct (c =? ch) eqn:Q; [exists [c]|exists []]; (split; [reflexivity|]); exists c; (split; [apply cget_at; reflexivity|]); intros _; rewrite ?Q; [reflexivity|rewrite zlen_nil; lia].
Qed.
Theorem readU32_ok pre s post : nul_free s ->
  match number s with
  | Some (v, rest) => exists used, s = used ++ rest /\ readU32FromCharChecked (pre ++ s ++ 0 :: post) (zlen pre) = OK (Some v, zlen pre + zlen used) /\ 0 <= v < 2 ^ 32
  | None => exists i, readU32FromCharChecked (pre ++ s ++ 0 :: post) (zlen pre) = OK (None, i)
  end.
Proof.
  intros NF. unfold number. destruct (leading_digits_ok s) as (ds & t & E & -> & F & N). rewrite E.
  assert (HC : exists c r, t ++ 0 :: post = c :: r /\ digit c = false /\ (c = 0 /\ t = [] \/ exists t', t = c :: t' /\ r = t' ++ 0 :: post)).
  { destruct t as [|c t]; [exists 0, post; repeat split; auto|]. exists c, (t ++ 0 :: post). repeat split; [exact (N c t eq_refl)|right; exists t; auto]. }
  destruct HC as (c & r & EC & DC & HT). rewrite <- app_assoc, EC.
  assert (L := digits_loop ds pre c r (S (List.length (pre ++ ds ++ c :: r))) 0 F DC ltac:(rewrite !app_length; cbn; lia) ltac:(lia)).
  unfold readU32FromCharChecked. change (decimal_from 0 ds) with (decimal ds) in L.
  assert (P0 : 0 <= decimal ds) by (apply (decimal_from_ge ds 0); [lia|exact F]).
  destruct (decimal ds <=? 4294967289) eqn:Q.
  2:{ destruct L as (i & r' & L). rewrite L. cbn [bind]. destruct (unit_of t). cbn [andb]. eauto. }
  rewrite L. cbn [bind]. assert (CG : cget (pre ++ ds ++ c :: r) (zlen pre + zlen ds) = OK c) by (rewrite app_assoc; apply cget_at; rewrite zlen_app; reflexivity). rewrite CG. cbn [bind].
  destruct HT as [[-> ->]|(t' & -> & ->)].
  { cbn [Z.eqb orb unit_of andb]. rewrite Z.mul_1_r. destruct (decimal ds <? 2 ^ 32) eqn:Q2; [|lia]. exists ds. rewrite app_nil_r. split; [reflexivity|]. split; [reflexivity|lia]. }
  cbn [unit_of]. destruct (c =? 75) eqn:CK; [|destruct (c =? 77) eqn:CM].
  3:{ cbn [orb andb]. rewrite Z.mul_1_r. destruct (decimal ds <? 2 ^ 32) eqn:Q2; [|lia]. exists ds. split; [reflexivity|]. split; [reflexivity|lia]. }
  - apply Z.eqb_eq in CK. subst c. cbn [orb andb Z.eqb Pos.eqb]. change (Z.shiftr (2 ^ 32 - 1) 10) with 4194303.
    destruct (4194303 <? decimal ds) eqn:Q2.
    { destruct (decimal ds * 2 ^ 10 <? 2 ^ 32) eqn:Q3; [lia|]. eauto. }
    destruct (decimal ds * 2 ^ 10 <? 2 ^ 32) eqn:Q3; [|lia]. rewrite Z.shiftl_mul_pow2 by lia. rewrite (Z.mod_small (decimal ds * 2 ^ 10)) by lia.
    replace (zlen pre + zlen ds + 1) with (zlen (pre ++ ds ++ [75])) by (rewrite !zlen_app; change (zlen [75]) with 1; lia).
    replace (pre ++ ds ++ 75 :: t' ++ 0 :: post) with ((pre ++ ds ++ [75]) ++ t' ++ 0 :: post) by (rewrite <- !app_assoc; reflexivity).
    destruct (cget_skip (pre ++ ds ++ [75]) t' post 105) as (u1 & E1 & c1 & G1 & I1). rewrite G1. cbn [bind]. rewrite I1 by lia.
    destruct (cget_skip ((pre ++ ds ++ [75]) ++ u1) (skip 105 t') post 66) as (u2 & E2 & c2 & G2 & I2).
    replace (((pre ++ ds ++ [75]) ++ u1) ++ skip 105 t' ++ 0 :: post) with ((pre ++ ds ++ [75]) ++ t' ++ 0 :: post) in G2 by (rewrite E1 at 1; rewrite <- !app_assoc; reflexivity).
    rewrite zlen_app in G2, I2. rewrite G2. cbn [bind]. rewrite I2 by lia. exists (ds ++ 75 :: u1 ++ u2). split; [rewrite <- app_assoc; cbn [app]; rewrite <- app_assoc, <- E2, <- E1; reflexivity|]. split; [|lia].
    do 2 f_equal. rewrite !zlen_app, !zlen_cons, zlen_nil, zlen_app. lia.
  - apply Z.eqb_eq in CM. subst c. cbn [orb andb Z.eqb Pos.eqb]. change (Z.shiftr (2 ^ 32 - 1) 10) with 4194303.
    destruct (4194303 <? decimal ds) eqn:Q2.
    { destruct (decimal ds * 2 ^ 20 <? 2 ^ 32) eqn:Q3; [lia|]. eauto. }
    rewrite Z.shiftl_mul_pow2 by lia. rewrite (Z.mod_small (decimal ds * 2 ^ 10)) by lia.
    destruct (4194303 <? decimal ds * 2 ^ 10) eqn:Q4.
    { destruct (decimal ds * 2 ^ 20 <? 2 ^ 32) eqn:Q3; [lia|]. eauto. }
    destruct (decimal ds * 2 ^ 20 <? 2 ^ 32) eqn:Q3; [|lia]. rewrite Z.shiftl_mul_pow2 by lia. rewrite (Z.mod_small (decimal ds * 2 ^ 10 * 2 ^ 10)) by lia.
    replace (zlen pre + zlen ds + 1) with (zlen (pre ++ ds ++ [77])) by (rewrite !zlen_app; change (zlen [77]) with 1; lia).
    replace (pre ++ ds ++ 77 :: t' ++ 0 :: post) with ((pre ++ ds ++ [77]) ++ t' ++ 0 :: post) by (rewrite <- !app_assoc; reflexivity).
    destruct (cget_skip (pre ++ ds ++ [77]) t' post 105) as (u1 & E1 & c1 & G1 & I1). rewrite G1. cbn [bind]. rewrite I1 by lia.
    destruct (cget_skip ((pre ++ ds ++ [77]) ++ u1) (skip 105 t') post 66) as (u2 & E2 & c2 & G2 & I2).
    replace (((pre ++ ds ++ [77]) ++ u1) ++ skip 105 t' ++ 0 :: post) with ((pre ++ ds ++ [77]) ++ t' ++ 0 :: post) in G2 by (rewrite E1 at 1; rewrite <- !app_assoc; reflexivity).
    rewrite zlen_app in G2, I2. rewrite G2. cbn [bind]. rewrite I2 by lia. exists (ds ++ 77 :: u1 ++ u2). split; [rewrite <- app_assoc; cbn [app]; rewrite <- app_assoc, <- E2, <- E1; reflexivity|]. split; [|lia].
    replace (decimal ds * 2 ^ 10 * 2 ^ 10) with (decimal ds * 2 ^ 20) by lia.
    do 2 f_equal. rewrite !zlen_app, !zlen_cons, zlen_nil, zlen_app. lia.
Qed.
Lemma nul_split a b : nul_free (a ++ b) -> nul_free a /\ nul_free b.
Proof. unfold nul_free. intros H. split; intros I; apply H, in_or_app; auto. Qed.
Lemma number_rest s v t : nul_free s -> number s = Some (v, t) -> exists used, s = used ++ t.
Proof. intros NF E. assert (H := readU32_ok [] s [] NF). rewrite E in H. destruct H as (u & H & _). eauto. Qed.

(** ** Benchmark variants *)
Definition ids_list (ids : list Z) : list Z := map (fun k => if existsb (Z.eqb (Z.of_nat k)) ids then 1 else 0) (seq 0 29).
Definition sel_of (ids : list Z) : Z := let l := last ids 0 in if 29 <=? l then 99 else l.
Definition opts_of (mask : Z) (s : settings) : opts :=
  Opts (match g_ids s with [] => false | _ => true end) (g_check s) (g_strict s) (g_status s) (g_warn s) (g_ignore s) mask (g_stdin s) (sel_of (g_ids s)) (g_size s)
    (g_algo s) (g_order s) (g_style s) (g_iter s) (2 - g_quiet s) (ids_list (g_ids s)).
Arguments ids_list ids : simpl never.
Arguments sel_of ids : simpl never.
Lemma ids_list_set ids n : 0 <= n < 29 -> cset (ids_list ids) n 1 = OK (ids_list (ids ++ [n])).
Proof.
  intros N. unfold ids_list.
  assert (S : seq 0 29 = seq 0 (Z.to_nat n) ++ Z.to_nat n :: seq (S (Z.to_nat n)) (28 - Z.to_nat n)).
  { replace 29%nat with (Z.to_nat n + S (28 - Z.to_nat n))%nat by lia. rewrite seq_app. reflexivity. }
  rewrite S, !map_app. cbn [map]. rewrite cset_at by (unfold zlen; rewrite map_length, seq_length; lia). do 2 f_equal.
  - apply map_ext_in. intros k K. apply in_seq in K. rewrite existsb_app. cbn [existsb]. destruct (Z.of_nat k =? n) eqn:Q; [lia|]. rewrite !orb_false_r. reflexivity.
  - f_equal.
    + rewrite existsb_app. cbn [existsb]. rewrite Z2Nat.id, Z.eqb_refl by lia. rewrite orb_true_r. reflexivity.
    + apply map_ext_in. intros k K. apply in_seq in K. rewrite existsb_app. cbn [existsb]. destruct (Z.of_nat k =? n) eqn:Q; [lia|]. rewrite !orb_false_r. reflexivity.
Qed.
Lemma ids_list_big ids n : 29 <= n -> ids_list (ids ++ [n]) = ids_list ids.
Proof.
  intros N. unfold ids_list. apply map_ext_in. intros k K. apply in_seq in K. rewrite existsb_app. cbn [existsb]. destruct (Z.of_nat k =? n) eqn:Q; [lia|]. rewrite !orb_false_r. reflexivity.
Qed.
Lemma bench_snoc mask s n : 0 <= n < 2 ^ 31 ->
  (let! o := set_testID (set_bench (opts_of mask s) n) n in OK o) = OK (opts_of mask (bench [n] s)) /\ n < 29 \/
  set_bench (opts_of mask s) 99 = opts_of mask (bench [n] s) /\ 29 <= n.
Proof.
  intros N. destruct (Z.ltb_spec n 29) as [L|L]; [left|right]; (split; [|lia]).
  - unfold set_testID. change (testIDs (set_bench (opts_of mask s) n)) with (ids_list (g_ids s)). rewrite ids_list_set by lia. cbn [bind].
    unfold set_bench, opts_of, bench. cbn. f_equal. f_equal; [destruct (g_ids s); reflexivity|]. unfold sel_of. rewrite last_last. destruct (29 <=? n) eqn:Q; [lia|reflexivity].
  - unfold set_bench, opts_of, bench. cbn. rewrite ids_list_big by lia. f_equal; [destruct (g_ids s); reflexivity|]. unfold sel_of. rewrite last_last. destruct (29 <=? n) eqn:Q; [reflexivity|lia].
Qed.
Lemma bench_app ns ns' s : bench ns' (bench ns s) = bench (ns ++ ns') s.
Proof. unfold bench. cbn. rewrite app_assoc. reflexivity. Qed.
Definition alike (mask : Z) (o : opts) (s : settings) : Prop := forall x, set_bench o x = set_bench (opts_of mask s) x.
Lemma cget_at' pre s post : cget (pre ++ s ++ 0 :: post) (zlen pre) = OK (hd 0 s).
Proof. destruct s as [|c s]; cbn [app hd]; apply cget_at; reflexivity. Qed.
Lemma bench_step mask pre r post o s b0 : nul_free r -> alike mask o s ->
  match number (skip 44 r) with
  | None => exists i, bench_body (pre ++ r ++ 0 :: post) (zlen pre, o, true, b0) = OK (i, o, false, true)
  | Some (n, t) =>
      (n < 2 ^ 31 -> exists used, r = used ++ t /\ bench_body (pre ++ r ++ 0 :: post) (zlen pre, o, true, b0) = OK (zlen pre + zlen used, opts_of mask (bench [n] s), hd 0 t =? 44, false)) /\
      (2 ^ 31 <= n -> bench_body (pre ++ r ++ 0 :: post) (zlen pre, o, true, b0) = UB)
  end.
Proof.
  intros NF AL. unfold bench_body. destruct (cget_skip pre r post 44) as (u1 & E1 & c1 & G1 & I1). rewrite G1. cbn [bind]. rewrite I1 by lia.
  assert (NF2 : nul_free (skip 44 r)) by (rewrite E1 in NF; apply nul_split in NF; tauto).
  assert (R := readU32_ok (pre ++ u1) (skip 44 r) post NF2). rewrite <- app_assoc, zlen_app in R. rewrite (app_assoc u1), <- E1 in R.
  destruct (number (skip 44 r)) as [[n t]|].
  - destruct R as (u2 & E2 & R & N). rewrite R. cbn [bind]. cbv zeta. unfold alike in AL. rewrite !(AL n).
    assert (G : cget (pre ++ r ++ 0 :: post) (zlen pre + zlen u1 + zlen u2) = OK (hd 0 t)).
    { rewrite E1, E2. replace (pre ++ (u1 ++ u2 ++ t) ++ 0 :: post) with ((pre ++ u1 ++ u2) ++ t ++ 0 :: post) by (rewrite <- !app_assoc; reflexivity).
      replace (zlen pre + zlen u1 + zlen u2) with (zlen (pre ++ u1 ++ u2)) by (rewrite !zlen_app; lia). apply cget_at'. }
    unfold to_int, NB_TESTFUNC. split.
    + intros F. destruct (n <? 2 ^ 31) eqn:Q; [|lia]. exists (u1 ++ u2). split; [rewrite <- app_assoc, <- E2; exact E1|]. rewrite zlen_app, Z.add_assoc.
      destruct (bench_snoc mask s n ltac:(lia)) as [[B L]|[B L]].
      * destruct (n <? 29) eqn:Q2; [|lia]. unfold bind in B at 1. destruct (set_testID _ n); try discriminate. injection B as ->. cbn [bind]. rewrite G. reflexivity.
      * destruct (n <? 29) eqn:Q2; [lia|]. cbn [bind]. replace (set_bench (set_bench (opts_of mask s) n) kBenchAll) with (set_bench (opts_of mask s) 99) by reflexivity. rewrite B, G. reflexivity.
    + intros X. destruct (n <? 2 ^ 31) eqn:Q; [lia|]. destruct (n - 2 ^ 32 <? 29) eqn:Q2; [|lia].
      unfold set_testID, cset, store. change (testIDs (set_bench (opts_of mask s) n)) with (ids_list (g_ids s)).
      assert (L29 : zlen (ids_list (g_ids s)) = 29) by (unfold ids_list, zlen; rewrite map_length; reflexivity). rewrite L29. change (zlen [1]) with 1.
      destruct ((0 <=? n) && (n + 1 <=? 29)) eqn:Q3; [lia|]. reflexivity.
  - destruct R as (i & R). rewrite R. cbn [bind]. eauto.
Qed.
Lemma comma_shorter r n u : nul_free r -> number (skip 44 r) = Some (n, 44 :: u) -> (List.length (44 :: u)%Z < List.length r)%nat.
Proof.
  intros NF E. assert (NF2 : nul_free (skip 44 r)) by (destruct r as [|c r]; [exact NF|]; cbn [skip]; destruct (c =? 44); [|exact NF]; intros I; apply NF; right; exact I).
  destruct (number_rest _ _ _ NF2 E) as (w & E2). destruct r as [|c r].
  { cbn [skip] in E2. apply app_cons_not_nil in E2. contradiction. }
  cbn [skip] in *. destruct (c =? 44) eqn:Q; apply (f_equal (@List.length Z)) in E2 as L; rewrite app_length in L; cbn in L |- *; [lia|].
  destruct w as [|x w]; [|cbn in L; lia]. cbn [app] in E2. injection E2 as -> _. discriminate.
Qed.
Lemma bench_loop mask r ns t : Ids r ns t -> forall pre post k o s b0, nul_free r -> (List.length r < k)%nat -> alike mask o s ->
  forall m, m = while_ k (fun s : Z * opts * bool * bool => snd (fst s)) (bench_body (pre ++ r ++ 0 :: post)) (zlen pre, o, true, b0) ->
  (Forall (fun n => n < 2 ^ 31) ns ->
     match t with
     | Some t => exists used, r = used ++ t /\ m = OK (zlen pre + zlen used, opts_of mask (bench ns s), false, false)
     | None => exists i o', m = OK (i, o', false, true)
     end) /\
  (Exists (fun n => 2 ^ 31 <= n) ns -> m = UB).
Proof.
  intros H. induction H as [r E|r n t E NC|r n u ns t E H IH]; intros pre post k o s b0 NF K AL m M; destruct k as [|k]; try lia; subst m.
  all: cbn [while_ fst snd]; assert (B := bench_step mask pre r post o s b0 NF AL); rewrite E in B.
  - destruct B as (i & B). rewrite B. cbn [bind]. split; [intros _|intros Q; inversion Q]. exists i, o. destruct k; reflexivity.
  - destruct B as [B1 B2]. split.
    + intros F. inversion F as [|? ? F1 _]; subst. destruct (B1 F1) as (w & EW & B). exists w. split; [exact EW|]. rewrite B. cbn [bind].
      assert (H44 : (hd 0 t =? 44) = false) by (destruct t as [|c t]; [reflexivity|]; cbn [hd]; apply Z.eqb_neq; intros ->; exact (NC t eq_refl)). rewrite H44. destruct k; reflexivity.
    + intros X. inversion X as [? ? X1|? ? X1]; subst; [|inversion X1]. rewrite (B2 X1). reflexivity.
  - assert (LR := comma_shorter r n u NF E). destruct B as [B1 B2].
    assert (IH' : n < 2 ^ 31 -> exists w, r = w ++ 44 :: u /\ bench_body (pre ++ r ++ 0 :: post) (zlen pre, o, true, b0) = OK (zlen (pre ++ w), opts_of mask (bench [n] s), true, false) /\ nul_free (44 :: u) /\
              pre ++ r ++ 0 :: post = (pre ++ w) ++ (44 :: u) ++ 0 :: post).
    { intros F. destruct (B1 F) as (w & EW & B). exists w. split; [exact EW|]. split; [rewrite zlen_app; exact B|]. split; [rewrite EW in NF; apply nul_split in NF; tauto|]. rewrite EW, <- !app_assoc. reflexivity. }
    split.
    + intros F. inversion F as [|? ? F1 F2]; subst. destruct (IH' F1) as (w & EW & B & NF3 & EB). rewrite B. cbn [bind]. rewrite EB.
      destruct (IH (pre ++ w) post k (opts_of mask (bench [n] s)) (bench [n] s) false NF3 ltac:(lia) ltac:(intros y; reflexivity) _ eq_refl) as [IH1 _]. specialize (IH1 F2). rewrite bench_app in IH1.
      destruct t as [t|]; [|exact IH1]. destruct IH1 as (w' & EW' & IH1). exists (w ++ w'). split; [rewrite EW, EW' at 1; rewrite app_assoc; reflexivity|]. rewrite IH1. do 4 f_equal. rewrite !zlen_app. lia.
    + intros X. assert (NX : 2 ^ 31 <= n \/ n < 2 ^ 31 /\ Exists (fun n => 2 ^ 31 <= n) ns) by (inversion X; subst; [left; assumption|]; destruct (Z.lt_ge_cases n (2 ^ 31)); auto).
      destruct NX as [X1|[X1 X2]]; [rewrite (B2 X1); reflexivity|]. destruct (IH' X1) as (w & EW & B & NF3 & EB). rewrite B. cbn [bind]. rewrite EB.
      destruct (IH (pre ++ w) post k (opts_of mask (bench [n] s)) (bench [n] s) false NF3 ltac:(lia) ltac:(intros y; reflexivity) _ eq_refl) as [_ IH2]. exact (IH2 X2).
Qed.
Lemma Ids_total r : nul_free r -> exists ns t, Ids r ns t.
Proof.
  remember (List.length r) as k. revert r Heqk. induction k as [k IH] using lt_wf_ind. intros r -> NF. destruct (number (skip 44 r)) as [[n t]|] eqn:E; [|exists [], None; constructor; exact E].
  destruct t as [|c t]; [exists [n], (Some []); apply ids_last; [exact E|discriminate]|]. destruct (Z.eq_dec c 44) as [->|N].
  - assert (NF2 : nul_free (skip 44 r)) by (destruct r as [|c r]; [exact NF|]; cbn [skip]; destruct (c =? 44); [|exact NF]; intros I; apply NF; right; exact I).
    destruct (number_rest _ _ _ NF2 E) as (w & E2). rewrite E2 in NF2. apply nul_split in NF2 as [_ NF2].
    destruct (IH _ (comma_shorter _ _ _ NF E) (44 :: t) eq_refl NF2) as (ns & t' & H). exists (n :: ns), t'. eapply ids_more; eassumption.
  - exists [n], (Some (c :: t)). apply ids_last; [exact E|]. intros u Q. injection Q as -> _. contradiction.
Qed.

(** ** Letters *)
Lemma Ids_rest r ns t : Ids r ns t -> nul_free r -> match t with Some t => nul_free t /\ exists used, r = used ++ t | None => True end.
Proof.
  intros H. induction H as [r E|r n t E NC|r n u ns t E H IH]; intros NF; [trivial| |].
  - assert (S : exists w, r = w ++ skip 44 r) by (destruct (cget_skip [] r [] 44) as (w & E1 & _); eauto). destruct S as (w & S).
    assert (NF2 : nul_free (skip 44 r)) by (rewrite S in NF; apply nul_split in NF; tauto). destruct (number_rest _ _ _ NF2 E) as (w2 & E2). rewrite E2 in NF2. apply nul_split in NF2 as [_ NF2].
    split; [exact NF2|]. exists (w ++ w2). rewrite <- app_assoc, <- E2. exact S.
  - assert (S : exists w, r = w ++ skip 44 r) by (destruct (cget_skip [] r [] 44) as (w & E1 & _); eauto). destruct S as (w & S).
    assert (NF2 : nul_free (skip 44 r)) by (rewrite S in NF; apply nul_split in NF; tauto). destruct (number_rest _ _ _ NF2 E) as (w2 & E2). rewrite E2 in NF2. apply nul_split in NF2 as [_ NF2].
    specialize (IH NF2). destruct t as [t|]; [|trivial]. destruct IH as (NT & w3 & E3). split; [exact NT|]. exists (w ++ w2 ++ w3). rewrite S, E2, E3, <- !app_assoc. reflexivity.
Qed.
Lemma small_or_wild ns : Forall (fun n => n < 2 ^ 31) ns \/ Exists (fun n => 2 ^ 31 <= n) ns.
Proof.
  induction ns as [|n ns [IH|IH]]; [left; constructor| |right; right; exact IH]. destruct (Z.lt_ge_cases n (2 ^ 31)); [left; constructor; assumption|right; left; assumption].
Qed.
Lemma cluster_step mask s c r out : Letter s (c :: r) out -> forall pre post st b0, nul_free (c :: r) -> g_quiet s < 2 ^ 31 + 2 ->
  match out with
  | Next s' t => exists used, c :: r = used ++ t /\ used <> [] /\ cluster_body (pre ++ (c :: r) ++ 0 :: post) (zlen pre, opts_of mask s, st, b0) = OK (zlen pre + zlen used, opts_of mask s', None, true) /\
                   g_quiet s' <= g_quiet s + 1
  | Ends e => exists i o, cluster_body (pre ++ (c :: r) ++ 0 :: post) (zlen pre, opts_of mask s, st, b0) = OK (i, o, Some e, false)
  | Wild => cluster_body (pre ++ (c :: r) ++ 0 :: post) (zlen pre, opts_of mask s, st, b0) = UB
  end.
Proof.
  intros H pre post st b0 NF GQ.
  assert (C0 : (c =? 0) = false) by (apply Z.eqb_neq; intros ->; apply NF; left; reflexivity).
  assert (NR : nul_free r) by (intros I; apply NF; right; exact I).
  assert (BG : cluster_body (pre ++ (c :: r) ++ 0 :: post) (zlen pre, opts_of mask s, st, b0) = cluster_body (pre ++ (c :: r) ++ 0 :: post) (zlen pre, opts_of mask s, st, b0)) by reflexivity.
  unfold cluster_body at 2 in BG. rewrite (cget_at' pre (c :: r) post) in BG. cbn [hd bind] in BG. rewrite C0 in BG.
  assert (RD := readU32_ok (pre ++ [c]) r post NR). rewrite zlen_app, <- app_assoc in RD. change (zlen [c]) with 1 in RD. change ([c] ++ r ++ 0 :: post) with ((c :: r) ++ 0 :: post) in RD.
  rewrite BG. clear BG.
  inversion H; subst; cbn [Z.eqb Pos.eqb]; try match goal with E : number _ = _ |- _ => rewrite E in RD end; try (destruct RD as (u & EU & RD & RV)); try (destruct RD as (i & RD)).
  - eauto.
  - eauto.
  - rewrite RD. cbn [bind]. exists (72 :: u). split; [rewrite EU; reflexivity|]. split; [discriminate|]. rewrite zlen_cons, Z.add_assoc. split; [|cbn; lia].
    match goal with E : hash_type _ = _ |- _ => revert E end. unfold hash_type. repeat (match goal with |- context [if ?b then _ else _] => destruct b end; try (intros Q; injection Q as <-; reflexivity)); discriminate.
  - rewrite RD. cbn [bind]. match goal with E : hash_type _ = _ |- _ => revert E end. unfold hash_type.
    repeat (match goal with |- context [if ?b then _ else _] => destruct b end; try discriminate). intros _. eauto.
  - rewrite RD. cbn [bind]. eauto.
  - exists [99]. repeat split; [discriminate|cbn; lia].
  - exists [119]. repeat split; [discriminate|cbn; lia].
  - exists [113]. split; [reflexivity|]. split; [discriminate|]. split; [|cbn; lia]. unfold dec_logLevel. cbn [opts_of logLevel]. destruct (2 - g_quiet s <=? - 2 ^ 31) eqn:Q; [lia|]. cbn [bind].
    unfold opts_of, quieter. cbn [g_quiet g_ids g_check g_strict g_status g_warn g_ignore g_stdin g_size g_algo g_order g_style g_iter]. replace (2 - (g_quiet s + 1)) with (2 - g_quiet s - 1) by lia. reflexivity.
  - rewrite RD. cbn [bind]. exists (105 :: u). split; [rewrite EU; reflexivity|]. split; [discriminate|]. rewrite zlen_cons, Z.add_assoc. split; [reflexivity|cbn; lia].
  - rewrite RD. cbn [bind]. eauto.
  - rewrite RD. cbn [bind]. exists (66 :: u). split; [rewrite EU; reflexivity|]. split; [discriminate|]. rewrite zlen_cons, Z.add_assoc. split; [reflexivity|cbn; lia].
  - rewrite RD. cbn [bind]. eauto.
  - destruct (bench_loop mask r ns (Some t) ltac:(assumption) (pre ++ [98]) post (S (List.length (pre ++ (98 :: r) ++ 0 :: post))) (set_bench (opts_of mask s) (selectBenchIDs (opts_of mask s))) s false NR
      ltac:(rewrite !app_length; cbn; lia) ltac:(intros x; reflexivity) _ eq_refl) as [B _]. destruct (B ltac:(assumption)) as (u & EU & B').
    rewrite zlen_app, <- app_assoc in B'. change (zlen [98]) with 1 in B'. change ([98] ++ r ++ 0 :: post) with ((98 :: r) ++ 0 :: post) in B'. rewrite B'. cbn [bind].
    exists (98 :: u). split; [rewrite EU; reflexivity|]. split; [discriminate|]. rewrite zlen_cons, Z.add_assoc. split; [reflexivity|cbn; lia].
  - destruct (bench_loop mask r ns None ltac:(assumption) (pre ++ [98]) post (S (List.length (pre ++ (98 :: r) ++ 0 :: post))) (set_bench (opts_of mask s) (selectBenchIDs (opts_of mask s))) s false NR
      ltac:(rewrite !app_length; cbn; lia) ltac:(intros x; reflexivity) _ eq_refl) as [B _]. destruct (B ltac:(assumption)) as (i' & o' & B').
    rewrite zlen_app, <- app_assoc in B'. change (zlen [98]) with 1 in B'. change ([98] ++ r ++ 0 :: post) with ((98 :: r) ++ 0 :: post) in B'. rewrite B'. cbn [bind]. eauto.
  - destruct (bench_loop mask r ns t ltac:(assumption) (pre ++ [98]) post (S (List.length (pre ++ (98 :: r) ++ 0 :: post))) (set_bench (opts_of mask s) (selectBenchIDs (opts_of mask s))) s false NR
      ltac:(rewrite !app_length; cbn; lia) ltac:(intros x; reflexivity) _ eq_refl) as [_ B]. specialize (B ltac:(assumption)).
    rewrite zlen_app, <- app_assoc in B. change (zlen [98]) with 1 in B. change ([98] ++ r ++ 0 :: post) with ((98 :: r) ++ 0 :: post) in B. rewrite B. reflexivity.
  - match goal with I : ~ In c letters |- _ => cbn in I; repeat match goal with |- context [c =? ?k] => let Q := fresh in destruct (c =? k) eqn:Q; [exfalso; apply I; apply Z.eqb_eq in Q; subst; tauto|] end end.
    eauto.
Qed.

Lemma Letter_total s c r : nul_free (c :: r) -> exists out, Letter s (c :: r) out.
Proof.
  intros NF. assert (NR : nul_free r) by (intros I; apply NF; right; exact I).
  destruct (in_dec Z.eq_dec c letters) as [I|I]; [|exists (Ends BadUsage); apply l_unknown; exact I]. cbn in I.
  destruct (number r) as [[n t]|] eqn:E; destruct (Ids_total r NR) as (ns & t' & HI);
  (decompose [or] I; try contradiction; subst c;
   [exists (Ends Version); apply (l_version s r)|exists (Ends Help); apply (l_help s r)| | | | | | | ];
   [ |exists (Next (check s) r); apply (l_check s r)|exists (Next (SpecCli3.warn s) r); apply (l_warn s r)
     |destruct (small_or_wild ns) as [W|W]; [destruct t' as [t'|]; [exists (Next (bench ns s) t'); apply (l_bench s r ns t'); assumption|exists (Ends TooLarge); apply (l_bench_large s r ns); assumption]|exists Wild; apply (l_bench_wild s r ns t'); assumption]
     | | |exists (Next (quieter s) r); apply (l_quiet s r)]).
  - destruct (hash_type n) as [a|] eqn:Q; [exists (Next (hash_with a s) t); apply (l_hash s r n t a E Q)|exists (Ends BadUsage); apply (l_hash_unknown s r n t E Q)].
  - exists (Next (iterations (as_int n) s) t). apply (l_iter s r n t E).
  - exists (Next (sample n s) t). apply (l_sample s r n t E).
  - exists (Ends TooLarge). apply (l_hash_large s r E).
  - exists (Ends TooLarge). apply (l_iter_large s r E).
  - exists (Ends TooLarge). apply (l_sample_large s r E).
Qed.
Lemma Letter_nonempty s r out : Letter s r out -> exists c r', r = c :: r'.
Proof. intros H. destruct H; cbn; eauto. Qed.
Lemma Letters_ok mask s r out : Letters s r out -> forall pre post k st, nul_free r -> (List.length r < k)%nat -> g_quiet s + zlen r < 2 ^ 31 ->
  let m := while_ k (fun s : Z * opts * option stop * bool => snd s) (cluster_body (pre ++ r ++ 0 :: post)) (zlen pre, opts_of mask s, st, true) in
  match out with
  | Next s' t => t = [] /\ g_quiet s' <= g_quiet s + zlen r /\ exists i, m = OK (i, opts_of mask s', None, false)
  | Ends e => exists i o, m = OK (i, o, Some e, false)
  | Wild => m = UB
  end.
Proof.
  intros H. induction H as [s|s r s' t out HL H IH|s r st' HL|s r HL]; intros pre post k st NF K Q; destruct k as [|k]; try lia; cbv zeta; cbn [while_ snd].
  - split; [reflexivity|]. split; [rewrite zlen_nil; lia|]. exists (zlen pre). unfold cluster_body at 1. rewrite cget_at'. cbn [hd bind Z.eqb]. destruct k; reflexivity.
  - destruct (Letter_nonempty _ _ _ HL) as (c & r' & ->). assert (L0 := zlen_nonneg r'). rewrite zlen_cons in Q.
    destruct (cluster_step mask s c r' _ HL pre post st true NF ltac:(lia)) as (u & EU & NE & B & GQ). rewrite B. cbn [bind].
    assert (LU : zlen u + zlen t = 1 + zlen r') by (rewrite <- zlen_app, <- EU, zlen_cons; reflexivity).
    assert (1 <= zlen u) by (destruct u; [congruence|rewrite zlen_cons; assert (0 <= zlen u) by apply zlen_nonneg; lia]).
    assert (NT : nul_free t) by (rewrite EU in NF; apply nul_split in NF; tauto).
    assert (KT : (List.length t < k)%nat) by (unfold zlen in *; cbn in K; lia).
    specialize (IH (pre ++ u) post k None NT KT ltac:(lia)). cbv zeta in IH.
    rewrite EU. replace (pre ++ (u ++ t) ++ 0 :: post) with ((pre ++ u) ++ t ++ 0 :: post) by (rewrite <- !app_assoc; reflexivity). rewrite <- zlen_app.
    destruct out as [s2 t2|e|]; try exact IH. destruct IH as (-> & G2 & IH). split; [reflexivity|]. split; [rewrite zlen_app; lia|exact IH].
  - destruct (Letter_nonempty _ _ _ HL) as (c & r' & ->). rewrite zlen_cons in Q. assert (L0 := zlen_nonneg r'). destruct (cluster_step mask s c r' _ HL pre post st true NF ltac:(lia)) as (i & o & B). rewrite B. cbn [bind]. exists i, o. destruct k; reflexivity.
  - destruct (Letter_nonempty _ _ _ HL) as (c & r' & ->). rewrite zlen_cons in Q. assert (L0 := zlen_nonneg r'). assert (B := cluster_step mask s c r' _ HL pre post st true NF ltac:(lia)). cbv beta iota in B. rewrite B. reflexivity.
Qed.
Lemma Letter_rest s r s' t : nul_free r -> Letter s r (Next s' t) -> nul_free t /\ (List.length t < List.length r)%nat.
Proof.
  intros NF H. destruct (Letter_nonempty _ _ _ H) as (c & r' & ->).
  assert (EU : exists used, c :: r' = used ++ t /\ used <> []).
  { assert (N2 : nul_free r') by (intros I; apply NF; right; exact I). inversion H; subst;
      try (match goal with E : number _ = _ |- _ => destruct (number_rest _ _ _ N2 E) as (u & E2); rewrite E2; eexists (_ :: u); split; [reflexivity|discriminate] end);
      try (match goal with E : Ids _ _ _ |- _ => destruct (Ids_rest _ _ _ E N2) as (_ & u & E2); rewrite E2; eexists (_ :: u); split; [reflexivity|discriminate] end);
      eexists [_]; (split; [reflexivity|discriminate]). }
  destruct EU as (u & EU & NE). rewrite EU in *. apply nul_split in NF as [_ NF]. split; [exact NF|]. rewrite app_length. destruct u; [congruence|cbn; lia].
Qed.
Lemma Letters_total r : nul_free r -> forall s, exists out, Letters s r out.
Proof.
  remember (List.length r) as k. revert r Heqk. induction k as [k IH] using lt_wf_ind. intros r -> NF s. destruct r as [|c r]; [exists (Next s []); constructor|].
  destruct (Letter_total s c r NF) as (out & H). destruct out as [s' t|e|].
  - destruct (Letter_rest _ _ _ _ NF H) as [NT LT]. destruct (IH _ LT t eq_refl NT s') as (out & H2). exists out. eapply ls_next; eassumption.
  - exists (Ends e). apply ls_ends. exact H.
  - exists Wild. apply ls_wild. exact H.
Qed.
Lemma Letters_next s r out : Letters s r out -> match out with Next _ t => t = [] | _ => True end.
Proof. intros H. induction H; trivial. Qed.

(** ** The whole line *)
Definition total (args : list (list Z)) : Z := fold_right (fun a t => zlen a + 1 + t) 0 args.
Lemma total_cons a args : total (a :: args) = zlen a + 1 + total args.
Proof. reflexivity. Qed.
Lemma total_nonneg args : 0 <= total args.
Proof. induction args as [|a args IH]; [cbn; lia|]. change (total (a :: args)) with (zlen a + 1 + total args). assert (0 <= zlen a) by apply zlen_nonneg. lia. Qed.
Lemma opts_word mask : forall w f, In (w, f) words -> forall s rest, g_quiet s < 2 ^ 31 + 2 ->
  options (opts_of mask s) (w :: rest) = options (opts_of mask (f s)) rest /\ g_quiet (f s) <= g_quiet s + 1.
Proof.
  intros w f I s rest G. cbn in I.
  assert (B99 : forall s, set_bench (opts_of mask s) kBenchAll = opts_of mask (bench [99] s)).
  { intros s0. destruct (bench_snoc mask s0 99 ltac:(lia)) as [[_ ?]|[B _]]; [lia|exact B]. }
  decompose [or] I; try contradiction; match goal with E : (_, _) = (w, f) |- _ => injection E as <- <- end; (split; [|cbn; lia]).
  all: try reflexivity.
  - change (options (set_bench (opts_of mask s) kBenchAll) rest = options (opts_of mask (bench [99] s)) rest). rewrite B99. reflexivity.
  - change (options (set_bench (opts_of mask s) kBenchAll) rest = options (opts_of mask (bench [99] s)) rest). rewrite B99. reflexivity.
  - change ((let! o := dec_logLevel (opts_of mask s) in options o rest) = options (opts_of mask (quieter s)) rest).
    unfold dec_logLevel. cbn [opts_of logLevel]. destruct (2 - g_quiet s <=? - 2 ^ 31) eqn:Q; [lia|]. cbn [bind].
    unfold opts_of, quieter. cbn [g_quiet g_ids g_check g_strict g_status g_warn g_ignore g_stdin g_size g_algo g_order g_style g_iter]. replace (2 - (g_quiet s + 1)) with (2 - g_quiet s - 1) by lia. reflexivity.
Qed.
Lemma options_dash mask s r rest : nul_free r -> ~ special (45 :: r) ->
  options (opts_of mask s) ((45 :: r) :: rest) =
  (let! (o, st) := cluster ((45 :: r) ++ [0]) (opts_of mask (match r with [] => standard_input s | _ => s end)) in
   match st with Some st => OK (inl st) | None => options o rest end).
Proof.
  intros NR NS. cbn [options].
  assert (N : forall w, In w (map fst words) \/ In w [str "--help"; str "--version"; str "--"] -> eqb_list (45 :: r) w = false).
  { intros w I. apply not_true_is_false. intros E. apply eqb_list_eq in E. apply NS. rewrite E. exact I. }
  rewrite !N by (cbn; tauto).
  change (cget ((45 :: r) ++ [0]) 0) with (cget ([] ++ (45 :: r) ++ [0]) (zlen (@nil Z))). rewrite cget_at'. cbn [hd bind Z.eqb Pos.eqb negb].
  change (cget ((45 :: r) ++ [0]) 1) with (cget ([45] ++ r ++ [0]) (zlen [45])). rewrite cget_at'. cbn [bind].
  destruct r as [|c r]; cbn [hd]; [reflexivity|]. destruct (c =? 0) eqn:Q; [|reflexivity]. exfalso. apply Z.eqb_eq in Q. subst. apply NR. left. reflexivity.
Qed.
Theorem options_ok mask s args out : Options s args out -> Forall nul_free args -> g_quiet s + total args < 2 ^ 31 ->
  options (opts_of mask s) args =
  match out with
  | Run s' names => OK (inr (opts_of mask s', names))
  | Finish st => OK (inl st)
  | Runaway => UB
  end.
Proof.
  intros H. induction H as [s|s a f rest out I H IH|s rest|s rest|s rest|s a rest NA|s rest out H IH|s r s' rest out NE NS HL H IH|s r st rest NS HL|s r rest NS HL]; intros F Q.
  - reflexivity.
  - inversion F; subst. rewrite total_cons in Q. assert (0 <= zlen a) by apply zlen_nonneg. assert (T := total_nonneg rest).
    destruct (opts_word mask a f I s rest ltac:(lia)) as [-> G]. apply IH; [assumption|lia].
  - reflexivity.
  - reflexivity.
  - reflexivity.
  - cbn [options]. assert (NW : forall w, eqb_list a (45 :: w) = false) by (intros w; apply not_true_is_false; intros E; apply eqb_list_eq in E; exact (NA w E)).
    repeat match goal with |- context [eqb_list a (str ?x)] => let t := eval vm_compute in (str x) in change (str x) with t; rewrite (NW _) end.
    change (cget (a ++ [0]) 0) with (cget ([] ++ a ++ [0]) (zlen (@nil Z))). rewrite cget_at'. cbn [bind].
    destruct (hd 0 a =? 45) eqn:E; [|reflexivity]. exfalso. destruct a as [|c a]; [discriminate|]. cbn [hd] in E. apply Z.eqb_eq in E. subst. exact (NA a eq_refl).
  - inversion F; subst. rewrite total_cons in Q. assert (T := total_nonneg rest). change (zlen (str "-")) with 1 in Q.
    change (str "-") with (45 :: @nil Z). rewrite options_dash; [|intros []|intros S; vm_compute in S; intuition discriminate].
    assert (L := Letters_ok mask (standard_input s) [] (Next (standard_input s) []) (ls_nil _) [45] [] (S (S (S O))) None ltac:(intros []) ltac:(cbn; lia) ltac:(cbn [g_quiet standard_input]; rewrite zlen_nil; lia)).
    destruct L as (_ & _ & i & L). unfold cluster. change (while_ _ _ _ _) with (while_ 3 (fun s : Z * opts * option stop * bool => snd s) (cluster_body ([45] ++ [] ++ [0])) (zlen [45], opts_of mask (standard_input s), None, true)) at 1. rewrite L. cbn [bind]. apply IH; [assumption|cbn [g_quiet standard_input]; lia].
  - change (str "-" ++ r) with (45 :: r) in *. inversion F; subst. rewrite total_cons in Q. assert (T := total_nonneg rest). rewrite zlen_cons in Q.
    assert (NR : nul_free r) by (intros I; match goal with N : nul_free (45 :: r) |- _ => apply N end; right; exact I).
    rewrite options_dash by assumption. replace (match r with [] => standard_input s | _ => s end) with s by (destruct r; [congruence|reflexivity]).
    destruct (Letters_ok mask s r _ HL [45] [] (S (List.length ((45 :: r) ++ [0]))) None NR ltac:(rewrite app_length; cbn; lia) ltac:(lia)) as (_ & G & i & L). unfold cluster.
    change ([45] ++ r ++ [0]) with ((45 :: r) ++ [0]) in L. change (zlen [45]) with 1 in L. rewrite L. cbn [bind]. apply IH; [assumption|lia].
  - change (str "-" ++ r) with (45 :: r) in *. inversion F; subst. rewrite total_cons in Q. assert (T := total_nonneg rest). rewrite zlen_cons in Q.
    assert (NR : nul_free r) by (intros I; match goal with N : nul_free (45 :: r) |- _ => apply N end; right; exact I).
    rewrite options_dash by assumption. replace (match r with [] => standard_input s | _ => s end) with s by (destruct r; [exfalso; inversion HL; match goal with L : Letter _ [] _ |- _ => inversion L end|reflexivity]).
    destruct (Letters_ok mask s r _ HL [45] [] (S (List.length ((45 :: r) ++ [0]))) None NR ltac:(rewrite app_length; cbn; lia) ltac:(lia)) as (i & o & L). unfold cluster.
    change ([45] ++ r ++ [0]) with ((45 :: r) ++ [0]) in L. change (zlen [45]) with 1 in L. rewrite L. reflexivity.
  - change (str "-" ++ r) with (45 :: r) in *. inversion F; subst. rewrite total_cons in Q. assert (T := total_nonneg rest). rewrite zlen_cons in Q.
    assert (NR : nul_free r) by (intros I; match goal with N : nul_free (45 :: r) |- _ => apply N end; right; exact I).
    rewrite options_dash by assumption. replace (match r with [] => standard_input s | _ => s end) with s by (destruct r; [exfalso; inversion HL; match goal with L : Letter _ [] _ |- _ => inversion L end|reflexivity]).
    assert (L := Letters_ok mask s r _ HL [45] [] (S (List.length ((45 :: r) ++ [0]))) None NR ltac:(rewrite app_length; cbn; lia) ltac:(lia)). unfold cluster.
    change ([45] ++ r ++ [0]) with ((45 :: r) ++ [0]) in L. change (zlen [45]) with 1 in L. cbv beta iota zeta in L. rewrite L. reflexivity.
Qed.
Lemma special_dec a : special a \/ ~ special a.
Proof. unfold special. destruct (in_dec (list_eq_dec Z.eq_dec) a (map fst words)); [tauto|]. destruct (in_dec (list_eq_dec Z.eq_dec) a [str "--help"; str "--version"; str "--"]); tauto. Qed.
Lemma Options_total args : Forall nul_free args -> forall s, exists out, Options s args out.
Proof.
  induction args as [|a args IH]; intros F s; [exists (Run s []); constructor|]. inversion F as [|? ? NA F']; subst. specialize (IH F').
  destruct (special_dec a) as [[S|S]|S].
  - apply in_map_iff in S as ([w f] & E & I). cbn in E. subst w. destruct (IH (f s)) as (out & H). exists out. eapply o_word; eassumption.
  - cbn [In] in S. decompose [or] S; try contradiction; subst a; eexists; constructor.
  - destruct a as [|c a]; [exists (Run s ([] :: args)); apply o_name; discriminate|].
    destruct (Z.eq_dec c 45) as [->|N]; [|exists (Run s ((c :: a) :: args)); apply o_name; intros r Q; change (str "-" ++ r) with (45 :: r) in Q; injection Q as -> _; contradiction].
    assert (NR : nul_free a) by (intros I; apply NA; right; exact I).
    destruct a as [|c a]; [destruct (IH (standard_input s)) as (out & H); exists out; apply (o_dash s args out H)|].
    destruct (Letters_total (c :: a) NR s) as (out & HL). assert (HN := Letters_next _ _ _ HL). destruct out as [s' t|e|].
    + subst t. destruct (IH s') as (out & H). exists out. apply (o_letters s (c :: a) s' args out); try assumption. discriminate.
    + exists (Finish e). apply (o_ends s (c :: a) e args S HL).
    + exists Runaway. apply (o_wild s (c :: a) args S HL).
Qed.
