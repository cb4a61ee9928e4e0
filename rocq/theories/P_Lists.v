(** Proofs about checking lists that were put together from what xxhsum printed. *)
From Coq Require Import String List.
From Verif Require Import Base Mem M_Cli M_Cli2 M_Cli3 SpecCli SpecCli2 SpecCli3 P_Base P_Cli P_Cli2 P_Cli3 P_Cli4 P_Cli7.
#[local] Opaque Z.mul Z.pow digest.

(** a line of a list: the state of the file system when it was printed, the algorithm, the name *)
Record entry := Entry { at_ : env; by_ : algo; of_ : list Z }.
Definition opened (e : env) (n : list Z) : bool := negb (e_dir e n) && match e_fs e n with Some _ => true | None => false end.
(** [t] is put together from outputs of xxhsum, each of any run that came to its end, with any options that the check allows for
    ([mask]: the accepted algorithms; [de]: the byte order); from comment lines; and, unless --strict, from lines of no known format; it has the given number of lines *)
Inductive Listing (strict : bool) (mask : Z) (de : endianness) : list Z -> list entry -> Z -> Prop :=
| li_nil : Listing strict mask de [] [] 0
| li_comment c t es k : ~ In 10 c -> zlen c + 2 < 32768 -> Listing strict mask de t es k -> Listing strict mask de (str "#" ++ c ++ [10] ++ t) es (k + 1)
| li_other l t es k : strict = false -> ~ In 10 l -> zlen l + 1 < 32768 -> ~ comment l -> (forall a canon name, ~ Accepts mask (is_le de) (text_of l) a canon name) ->
    Listing strict mask de t es k -> Listing strict mask de (l ++ [10] ++ t) es (k + 1)
| li_run e m ns a order conv r m1 t es k : env_ok e -> file_ok (m_stdin m) -> ~ malloc_fails e -> m_out m = [] -> ns <> [] ->
    Forall nul_free ns -> Forall (fun n => n <> str "stdin" /\ 2 * zlen n + 65 < 32768) ns -> Z.testbit mask (algo_num a) = true -> (conv = display_gnu -> order = de) ->
    hashFiles e m ns a order conv = OK (Some r, m1) ->
    Listing strict mask de t es k -> Listing strict mask de (m_out m1 ++ t) (map (Entry e a) (filter (opened e) ns) ++ es) (k + zlen (filter (opened e) ns)).
(** the file of the entry is there and has the hash it had; it is not there *)
Definition kept (e' : env) (x : entry) : Prop := same_digest (by_ x) (at_ x) e' (of_ x).
Definition gone (e' : env) (x : entry) : Prop := e_fs e' (of_ x) = None.
Definition Good (im : bool) (e' : env) (es : list entry) : Prop :=
  es <> [] /\ Forall (fun x => kept e' x \/ im = true /\ gone e' x) es /\ (im = true -> Exists (kept e') es).

(** the outcome of the line of an entry *)
Definition fits (e' : env) (x : entry) (o : outcome) : Prop :=
  o = OMissing (of_ x) /\ e_fs e' (of_ x) = None \/
  exists f', e_fs e' (of_ x) = Some f' /\ (o = OReadError /\ f_err f' = true \/ f_err f' = false /\ (o = OMatch (of_ x) /\ kept e' x \/ o = OMismatch (of_ x) /\ ~ kept e' x)).
Definition counts (o : outcome) : bool := match o with OComment | OBad => false | _ => true end.
Lemma Outcomes_app fs mask le l1 : forall sin l2 os, Outcomes fs mask le sin (l1 ++ l2) os ->
  exists os1 os2 sin2, os = os1 ++ os2 /\ Outcomes fs mask le sin l1 os1 /\ Outcomes fs mask le sin2 l2 os2.
Proof.
  induction l1 as [|l l1 IH]; intros sin l2 os H; [exists [], os, sin; split; [reflexivity|split; [constructor|exact H]]|].
  cbn [app] in H. inversion H; subst;
    match goal with X : Outcomes _ _ _ _ (app l1 l2) _ |- _ => destruct (IH _ _ _ X) as (os1 & os2 & sin2 & -> & O1 & O2) end;
    eexists (_ :: os1), os2, sin2; (split; [reflexivity|]); (split; [first [solve [eapply oc_long; eassumption]|solve [eapply oc_comment; eassumption]|solve [eapply oc_bad; eassumption]|solve [eapply oc_missing; eassumption]|solve [eapply oc_readerror; eassumption]|solve [eapply oc_match; [..|exact O1]; first [eassumption|reflexivity]]|solve [eapply oc_mismatch; eassumption]]|exact O2]).
Qed.
Lemma lines_of_text_app lines t : Forall (fun l => ~ In 10 l) lines -> lines_of (text lines ++ t) = map (fun l => (l, true)) lines ++ lines_of t.
Proof.
  induction 1 as [|l lines N _ IH]; [reflexivity|]. unfold text in *. cbn [map concat]. rewrite <- !app_assoc. cbn [app]. rewrite lines_of_app by exact N. rewrite IH. reflexivity.
Qed.
Lemma Forall2_map_l {A B C} (f : A -> B) (R : B -> C -> Prop) l l' : Forall2 (fun a => R (f a)) l l' -> Forall2 R (map f l) l'.
Proof. induction 1; constructor; assumption. Qed.
Lemma listing_outcomes e' strict mask de t es k : Listing strict mask de t es k -> forall sin os, Outcomes (e_fs e') mask (is_le de) sin (lines_of t) os ->
  Forall2 (fits e') es (filter counts os) /\ (strict = true -> ~ In OBad os) /\ ~ In OTooLong os.
Proof.
  induction 1 as [|c t es k N10 LC H IH|l t es k ST N10 LL NC NA H IH|e m ns a order conv r m1 t es k EO FS NM OM NE NN NS T HC EH H IH]; intros sin os OC.
  - inversion OC; subst. repeat split; [constructor|intros _ []|intros []].
  - change (str "#" ++ c ++ [10] ++ t) with ((35 :: c) ++ 10 :: t) in OC. rewrite lines_of_app in OC by (intros [Q|Q]; [discriminate|contradiction]).
    apply oc_inv in OC as (o & os' & -> & [(N1 & _)|[(_ & _ & -> & OC)|[(_ & N1 & _)|(_ & N1 & _)]]]).
    + exfalso. apply N1. unfold short_enough. cbn [fst snd]. rewrite zlen_cons. lia.
    + destruct (IH _ _ OC) as (F & B & L). split; [exact F|]. split; [intros S [Q|Q]; [discriminate|exact (B S Q)]|intros [Q|Q]; [discriminate|exact (L Q)]].
    + exfalso. apply N1. exists c. reflexivity.
    + exfalso. apply N1. exists c. reflexivity.
  - cbn [app] in OC. rewrite lines_of_app in OC by exact N10.
    apply oc_inv in OC as (o & os' & -> & [(N1 & _)|[(_ & C1 & _)|[(_ & _ & _ & -> & OC)|(_ & _ & a & cn & nm & A & _)]]]).
    + exfalso. apply N1. unfold short_enough. cbn [fst snd]. lia.
    + contradiction.
    + destruct (IH _ _ OC) as (F & B & L). split; [exact F|]. split; [intros S; congruence|intros [Q|Q]; [discriminate|exact (L Q)]].
    + exfalso. exact (NA _ _ _ A).
  - destruct (hashFiles_loop_ok e a order conv mask EO NM T ns m 0 FS NN (or_introl eq_refl)) as (r' & m1' & E & lines & printed & EOUT & P & D).
    assert (EH' : hashFiles_loop e m ns a order conv 0 = OK (Some r, m1)) by (unfold hashFiles in EH; destruct ns; [congruence|exact EH]).
    rewrite EH' in E. injection E as <- <-. destruct D as (_ & EP & _). rewrite OM in EOUT. cbn [app] in EOUT. change (filter _ ns) with (filter (opened e) ns) in EP. subst printed.
    assert (N10 : Forall (fun l => ~ In 10 l) lines) by (clear - P; induction P as [|n line ns' lines (f & _ & _ & _ & _ & _ & N & _) _ IH]; constructor; assumption).
    rewrite EOUT, (lines_of_text_app _ _ N10) in OC. destruct (Outcomes_app _ _ _ _ _ _ _ OC) as (os1 & os2 & sin2 & -> & OC1 & OC2).
    assert (NS' : Forall (fun n => n <> str "stdin" /\ 2 * zlen n + 65 < 32768) (filter (opened e) ns)).
    { apply Forall_forall. intros n I. apply filter_In in I. rewrite Forall_forall in NS. apply NS, I. }
    destruct (printed_outcomes e e' a order de conv mask sin (fun Q => eq_sym (HC Q)) _ _ _ P NS' OC1) as [F1 _]. destruct (IH _ _ OC2) as (F2 & B & L).
    assert (W : forall o, In o os1 -> counts o = true /\ o <> OBad /\ o <> OTooLong).
    { clear - F1. induction F1 as [|n o ns' os1 Q _ IH]; intros x I; [destruct I|]. destruct I as [<-|I]; [|exact (IH x I)].
      destruct Q as [[-> _]|(f' & _ & [[-> _]|[_ [[-> _]|[-> _]]]])]; repeat split; discriminate. }
    split; [|split].
    + rewrite filter_app. assert (Q : filter counts os1 = os1).
      { clear - W. induction os1 as [|o os1 IH]; [reflexivity|]. cbn [filter]. rewrite (proj1 (W o (or_introl eq_refl))). f_equal. apply IH. intros x I. apply W. right. exact I. }
      rewrite Q. apply Forall2_app; [|exact F2]. apply Forall2_map_l. clear - F1. induction F1; constructor; assumption.
    + intros S I. apply in_app_or in I as [I|I]; [exact (proj1 (proj2 (W _ I)) eq_refl)|exact (B S I)].
    + intros I. apply in_app_or in I as [I|I]; [exact (proj2 (proj2 (W _ I)) eq_refl)|exact (L I)].
Qed.
Lemma Forall2_In_l {A B} (R : A -> B -> Prop) l l' x : Forall2 R l l' -> In x l -> exists y, In y l' /\ R x y.
Proof. induction 1 as [|a b l l' H _ IH]; [intros []|]. intros [<-|I]; [exists b; split; [left; reflexivity|exact H]|]. destruct (IH I) as (y & Y & Q). exists y. split; [right; exact Y|exact Q]. Qed.
Lemma Forall2_In_r {A B} (R : A -> B -> Prop) l l' y : Forall2 R l l' -> In y l' -> exists x, In x l /\ R x y.
Proof. induction 1 as [|a b l l' H _ IH]; [intros []|]. intros [<-|I]; [exists a; split; [left; reflexivity|exact H]|]. destruct (IH I) as (x & X & Q). exists x. split; [right; exact X|exact Q]. Qed.
Lemma listing_verdict e' strict im mask de t es k sin os : Listing strict mask de t es k -> Outcomes (e_fs e') mask (is_le de) sin (lines_of t) os ->
  (Verdict strict im os <-> Good im e' es).
Proof.
  intros H OC. destruct (listing_outcomes e' strict mask de t es k H sin os OC) as (F & B & L).
  assert (IN : forall o, In o (filter counts os) <-> In o os /\ counts o = true) by (intros o; apply filter_In).
  assert (K : forall x, kept e' x -> exists f, e_fs e' (of_ x) = Some f /\ f_err f = false) by (intros x (g & g' & _ & G1 & G2 & _); eauto).
  split.
  - intros (_ & V1 & (o & I & W) & V2 & V3 & _ & V5). split; [|split].
    + intros ->. assert (X : In o (filter counts os)) by (apply IN; split; [exact I|destruct o; try reflexivity; destruct W]). destruct (Forall2_In_r _ _ _ _ F X) as (x & [] & _).
    + apply Forall_forall. intros x X. destruct (Forall2_In_l _ _ _ _ F X) as (y & Y & Q). apply IN in Y as [Y _].
      destruct Q as [[-> G]|(f' & G & [[-> _]|[_ [[-> Q]|[-> _]]]])].
      * destruct im; [right; split; [reflexivity|exact G]|]. exfalso. exact (V3 eq_refl _ Y).
      * contradiction.
      * left. exact Q.
      * exfalso. exact (V2 _ Y).
    + intros M. destruct (V5 M) as (nm & J). assert (X : In (OMatch nm) (filter counts os)) by (apply IN; split; [exact J|reflexivity]).
      destruct (Forall2_In_r _ _ _ _ F X) as (x & X1 & Q). apply Exists_exists. exists x. split; [exact X1|].
      destruct Q as [[Q _]|(f' & _ & [[Q _]|[_ [[_ Q]|[Q _]]]])]; [discriminate|discriminate|exact Q|discriminate].
  - intros (NE & A & X). rewrite Forall_forall in A.
    assert (C : forall o, In o os -> counts o = true -> (exists n, o = OMatch n) \/ im = true /\ exists n, o = OMissing n).
    { intros o I Q. assert (J : In o (filter counts os)) by (apply IN; auto). destruct (Forall2_In_r _ _ _ _ F J) as (x & X1 & R).
      destruct (A x X1) as [KX|[M G]].
      - left. destruct (K x KX) as (f & E1 & E2). destruct R as [[_ R]|(f' & E & [[_ R]|[_ [[-> _]|[_ R]]]])]; [congruence|congruence|eauto|contradiction].
      - right. split; [exact M|]. destruct R as [[-> _]|(f' & E & _)]; [eauto|]. unfold gone in G. congruence. }
    assert (S : forall o, In o os -> counts o = false -> o = OComment \/ o = OBad) by (intros [] _ Q; try discriminate; auto).
    split; [exact L|]. split; [intros I; destruct (C _ I eq_refl) as [(? & Q)|(_ & ? & Q)]; discriminate|]. split; [|split; [|split; [|split]]].
    + destruct es as [|x es]; [congruence|]. inversion F as [|? o ? os0 R F' Q1 Q2]. assert (J : In o os /\ counts o = true) by (apply IN; rewrite <- Q2; left; reflexivity).
      exists o. split; [exact (proj1 J)|]. destruct (C o (proj1 J) (proj2 J)) as [(n & ->)|(_ & n & ->)]; exact Logic.I.
    + intros n I. destruct (C _ I eq_refl) as [(? & Q)|(_ & ? & Q)]; discriminate.
    + intros M n I. destruct (C _ I eq_refl) as [(? & Q)|(Q & _)]; [discriminate|congruence].
    + exact B.
    + intros M. specialize (X M). apply Exists_exists in X as (x & X1 & KX). destruct (Forall2_In_l _ _ _ _ F X1) as (y & Y & R). apply IN in Y as [Y _].
      destruct (K x KX) as (f & E1 & E2). exists (of_ x). destruct R as [[_ R]|(f' & E & [[_ R]|[_ [[-> _]|[_ R]]]])]; [congruence|congruence|exact Y|contradiction].
Qed.
Lemma listing_lines strict mask de t es k : Listing strict mask de t es k -> zlen (lines_of t) = k.
Proof.
  induction 1 as [|c t es k N10 LC H IH|l t es k ST N10 LL NC NA H IH|e m ns a order conv r m1 t es k EO FS NM OM NE NN NS T HC EH H IH].
  - reflexivity.
  - change (str "#" ++ c ++ [10] ++ t) with ((35 :: c) ++ 10 :: t). rewrite lines_of_app by (intros [Q|Q]; [discriminate|contradiction]). rewrite zlen_cons, IH. lia.
  - cbn [app]. rewrite lines_of_app by exact N10. rewrite zlen_cons, IH. lia.
  - destruct (hashFiles_loop_ok e a order conv mask EO NM T ns m 0 FS NN (or_introl eq_refl)) as (r' & m1' & E & lines & printed & EOUT & P & D).
    assert (EH' : hashFiles_loop e m ns a order conv 0 = OK (Some r, m1)) by (unfold hashFiles in EH; destruct ns; [congruence|exact EH]).
    rewrite EH' in E. injection E as <- <-. destruct D as (_ & EP & _). rewrite OM in EOUT. cbn [app] in EOUT. change (filter _ ns) with (filter (opened e) ns) in EP. subst printed.
    assert (N10 : Forall (fun l => ~ In 10 l) lines) by (clear - P; induction P as [|n line ns' lines (f & _ & _ & _ & _ & _ & N & _) _ IH]; constructor; assumption).
    rewrite EOUT, (lines_of_text_app _ _ N10). unfold zlen in *. rewrite app_length, map_length, (Forall2_len _ _ _ P). lia.
Qed.
(** checking such a list *)
Theorem listing_check e' m' list lf de strict st im warn q mask es k : env_ok e' -> file_ok (m_stdin m') -> e_fs e' list = Some lf -> Listing strict mask de (f_content lf) es k ->
  k + 1 < 2 ^ e_ulbits e' ->
  exists r m2, checkFile e' m' (Named list) de strict st im warn q mask = OK (r, m2) /\ (r = Some 1 -> Good im e' es) /\ (~ malloc_fails e' -> Good im e' es -> r = Some 1).
Proof.
  intros EO FS EL H UL. rewrite <- (listing_lines _ _ _ _ _ _ H) in UL. destruct (Outcomes_total (e_fs e') mask (is_le de) (lines_of (f_content lf)) (m_stdin m')) as (os & OC).
  destruct (checkFile_verdict e' m' (Named list) de strict st im warn q mask lf os EO FS EL OC ltac:(discriminate) UL) as (r & m2 & E & S1 & S2).
  pose proof (listing_verdict e' strict im mask de _ es _ _ os H OC) as V. exists r, m2. split; [exact E|]. split; [intros R; apply V, S1, R|]. intros NM G. apply (S2 NM), V, G.
Qed.
(** a run of xxhsum, whose result is then part of a list *)
Lemma run_readable e m ns a de conv : env_ok e -> file_ok (m_stdin m) -> ~ malloc_fails e -> Forall nul_free ns -> ns <> [] -> Forall (readable e) ns ->
  exists m1, hashFiles e m ns a de conv = OK (Some 0, m1) /\ filter (opened e) ns = ns.
Proof.
  intros EO FS NM NN NE RD.
  destruct (hashFiles_loop_ok e a de conv 15 EO NM ltac:(destruct a; reflexivity) ns m 0 FS NN (or_introl eq_refl)) as (r & m1 & E & lines & printed & EOUT & P & D).
  destruct r as [r|].
  2:{ exfalso. destruct D as (pre & n & post & -> & _ & D & _). apply D. rewrite Forall_forall in RD. apply RD, in_or_app. right; left; reflexivity. }
  destruct D as (_ & EP & R0). assert (r = 0) as -> by (apply R0; auto). exists m1. split; [unfold hashFiles; destruct ns; [congruence|exact E]|].
  clear - RD. induction RD as [|n ns (f & D & F & _) _ IH]; [reflexivity|]. cbn [filter]. unfold opened at 1. rewrite D, F. cbn [negb andb]. rewrite IH. reflexivity.
Qed.
