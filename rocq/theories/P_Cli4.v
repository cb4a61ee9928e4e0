(** Proofs about whole runs of xxhsum: printing the checksums of files, checking lists, and one after the other. *)
From Coq Require Import String Ascii List.
From Verif Require Import Base Mem M_XXH32 M_XXH64 M_XXH3 M_Kernels M_Long M_Stream3 M_Util M_Cli M_Cli2 Spec32 Spec64 Spec3 SpecUtil SpecCli SpecCli2
  P_Base P_Util P_Cli P_Cli2 P_Cli3.
#[local] Opaque Z.mul Z.pow digest.

(** the file a name stands for when hashing *)
Definition input (e : env) (m : mach) (n : fname) : option file :=
  match n with Stdin => Some (m_stdin m) | Named n => if e_dir e n then None else e_fs e n end.
Theorem hashFile_ok e m n a de conv mask : env_ok e -> file_ok (m_stdin m) -> nul_free (listname n) -> Z.testbit mask (algo_num a) = true -> ~ malloc_fails e ->
  exists r m', hashFile e m n a de conv = OK (r, m') /\ file_ok (m_stdin m') /\ (n <> Stdin -> m_stdin m' = m_stdin m) /\
    match input e m n with
    | None => r = Some 1 /\ m_out m' = m_out m
    | Some f =>
        if f_err f then r = None /\ m_out m' = m_out m
        else r = Some 0 /\ exists line, m_out m' = m_out m ++ line ++ [10] /\ displayLine conv de (listname n) (digest a (f_content f)) a = OK (line ++ [10]) /\
          (forall le, (conv = display_gnu -> le = is_le de) -> Accepts mask le line a (digest a (f_content f)) (listname n)) /\
          ~ In 0 line /\ ~ In 10 line /\ ~ In 13 line /\ ~ comment line /\ zlen line <= 2 * zlen (listname n) + 64
    end.
Proof.
  intros EO FS NN T NM. unfold hashFile.
  replace (match n with Stdin => Some (m_stdin m, stdinFileName) | Named n => if e_dir e n then None else match e_fs e n with None => None | Some f => Some (f, n) end end)
    with (match input e m n with None => None | Some f => Some (f, listname n) end)
    by (destruct n as [|n]; cbn [input listname]; [reflexivity|destruct (e_dir e n); [|destruct (e_fs e n)]; reflexivity]).
  destruct (input e m n) as [f|] eqn:EI; [|exists (Some 1), m; auto 6].
  assert (FF : file_ok f).
  { destruct n as [|n]; cbn [input] in EI; [injection EI as <-; exact FS|]. destruct (e_dir e n); [discriminate|exact (eo_fs e EO _ _ EI)]. }
  unfold malloc. cbn [fst snd]. destruct (e_malloc e (m_tick m) 65536) as [b|] eqn:M1; [|exfalso; apply NM; do 2 eexists; split; [|exact M1]; lia].
  apply (eo_malloc e EO) in M1; [|lia]. destruct (hashStream_ok e (m_tick (tick m)) f a b 65536 EO ltac:(lia) M1 FF) as (b' & -> & _). cbn [bind].
  set (m' := tick match n with Stdin => Mach (File [] (f_err f)) (m_out (tick m)) (m_tick (tick m)) | _ => tick m end).
  assert (OM : m_out m' = m_out m) by (unfold m'; destruct n; reflexivity).
  assert (SM : n <> Stdin -> m_stdin m' = m_stdin m) by (intros H; unfold m'; destruct n; [congruence|reflexivity]).
  assert (FM : file_ok (m_stdin m')) by (unfold m'; destruct n; [apply file_ok_nil|exact FS]).
  destruct (f_err f); [exists None, m'; auto 6|].
  rewrite (canonicalOf_ok (e_cfg e) a (f_content f)) by reflexivity. cbn [bind].
  destruct (displayLine_ok conv de (listname n) (digest a (f_content f)) a mask (is_le de) NN (digest_bytes _ _) (digest_len _ _) T ltac:(auto))
    as (line & E & AC & N0 & N10 & N13 & NC & LL & _).
  rewrite E. cbn [bind]. exists (Some 0), (output m' (line ++ [LF])). split; [reflexivity|]. split; [exact FM|]. split; [exact SM|]. split; [reflexivity|].
  exists line. split; [unfold output; cbn [m_out]; rewrite OM; reflexivity|]. split; [reflexivity|]. split.
  { intros le H. destruct (displayLine_ok conv de (listname n) (digest a (f_content f)) a mask le NN (digest_bytes _ _) (digest_len _ _) T H)
      as (line' & E' & AC' & _). rewrite E' in E. injection E as Q. apply app_inj_tail in Q as [-> _]. exact AC'. }
  repeat (split; [assumption|]). split; [intros (r & ->); exact (NC r eq_refl)|exact LL].
Qed.

(** ** Printing a list of files *)
(** a printed line for each file *)
Definition Printed (e : env) (a : algo) (de : endianness) (conv : convention) (mask : Z) (n line : list Z) : Prop :=
  exists f, e_dir e n = false /\ e_fs e n = Some f /\ f_err f = false /\
    (forall le, (conv = display_gnu -> le = is_le de) -> Accepts mask le line a (digest a (f_content f)) n) /\
    ~ In 0 line /\ ~ In 10 line /\ ~ In 13 line /\ ~ comment line /\ zlen line <= 2 * zlen n + 64.
Definition readable (e : env) (n : list Z) : Prop := exists f, e_dir e n = false /\ e_fs e n = Some f /\ f_err f = false.
Definition unopenable (e : env) (n : list Z) : Prop := e_dir e n = true \/ e_fs e n = None.
Definition text (lines : list (list Z)) : list Z := concat (map (fun l => l ++ [10]) lines).
Lemma hashFiles_loop_ok e a de conv mask : env_ok e -> ~ malloc_fails e -> Z.testbit mask (algo_num a) = true ->
  forall ns m r0, file_ok (m_stdin m) -> Forall nul_free ns -> r0 = 0 \/ r0 = 1 ->
  exists r m', hashFiles_loop e m ns a de conv r0 = OK (r, m') /\
    exists lines printed, m_out m' = m_out m ++ text lines /\ Forall2 (Printed e a de conv mask) printed lines /\
    match r with
    | None => exists pre n post, ns = pre ++ n :: post /\ Forall (fun x => readable e x \/ unopenable e x) pre /\ ~ readable e n /\ ~ unopenable e n /\
        printed = filter (fun n => negb (e_dir e n) && match e_fs e n with Some _ => true | None => false end) pre
    | Some r => (r = 0 \/ r = 1) /\ printed = filter (fun n => negb (e_dir e n) && match e_fs e n with Some _ => true | None => false end) ns /\
        (r = 0 <-> r0 = 0 /\ Forall (readable e) ns)
    end.
Proof.
  intros EO NM T. induction ns as [|n ns IH]; intros m r0 FS NN R0; cbn [hashFiles_loop].
  - exists (Some r0), m. split; [reflexivity|]. exists [], []. split; [symmetry; apply app_nil_r|]. split; [constructor|]. split; [exact R0|]. split; [reflexivity|].
    split; [intros ->; split; [reflexivity|constructor]|tauto].
  - inversion NN as [|? ? N1 N2]; subst. destruct (hashFile_ok e m (Named n) a de conv mask EO FS N1 T NM) as (r & m1 & -> & FS1 & _ & H). cbn [bind]. cbn [input listname] in H.
    cbn [filter]. unfold readable at 2. destruct (e_dir e n) eqn:ED; cbn [negb andb].
    { destruct H as [-> OM]. destruct (IH m1 (Z.lor r0 1) FS1 N2) as (r' & m' & E & lines & printed & EO' & F & D); [right; destruct R0 as [->| ->]; reflexivity|].
      exists r', m'. split; [exact E|]. exists lines, printed. split; [rewrite EO', OM; reflexivity|]. split; [exact F|]. destruct r' as [r'|].
      - destruct D as (D1 & D2 & D3). split; [exact D1|]. split; [exact D2|]. rewrite D3. split.
        + intros [Q _]. exfalso. destruct R0 as [-> | ->]; discriminate.
        + intros [_ Q]. inversion Q as [|? ? (f & Q1 & _)]; subst. congruence.
      - destruct D as (pre & x & post & -> & D1 & D2 & D3 & D4). exists (n :: pre), x, post. cbn [filter app]. rewrite ED. cbn [negb andb]. repeat split; trivial.
        constructor; [right; left; exact ED|exact D1]. }
    destruct (e_fs e n) as [f|] eqn:EF.
    2:{ destruct H as [-> OM]. destruct (IH m1 (Z.lor r0 1) FS1 N2) as (r' & m' & E & lines & printed & EO' & F & D); [right; destruct R0 as [->| ->]; reflexivity|].
      exists r', m'. split; [exact E|]. exists lines, printed. split; [rewrite EO', OM; reflexivity|]. split; [exact F|]. destruct r' as [r'|].
      - destruct D as (D1 & D2 & D3). split; [exact D1|]. split; [exact D2|]. rewrite D3. split.
        + intros [Q _]. exfalso. destruct R0 as [-> | ->]; discriminate.
        + intros [_ Q]. inversion Q as [|? ? (f & _ & Q1 & _)]; subst. congruence.
      - destruct D as (pre & x & post & -> & D1 & D2 & D3 & D4). exists (n :: pre), x, post. cbn [filter app]. rewrite ED, EF. cbn [negb andb]. repeat split; trivial.
        constructor; [right; right; exact EF|exact D1]. }
    destruct (f_err f) eqn:ER.
    { destruct H as [-> OM]. exists None, m1. split; [reflexivity|]. exists [], []. split; [rewrite OM; symmetry; apply app_nil_r|]. split; [constructor|].
      exists [], n, ns. split; [reflexivity|]. split; [constructor|]. split; [intros (f' & _ & Q & Q2); congruence|]. split; [intros [Q|Q]; congruence|reflexivity]. }
    destruct H as (-> & line & OM & _ & H). destruct (IH m1 (Z.lor r0 0) FS1 N2) as (r' & m' & E & lines & printed & EO' & F & D); [rewrite Z.lor_0_r; exact R0|]. rewrite Z.lor_0_r in D.
    exists r', m'. split; [exact E|]. exists (line :: lines), (n :: printed). split; [rewrite EO', OM; unfold text; cbn [map concat]; rewrite <- !app_assoc; reflexivity|].
    split; [constructor; [exists f; auto|exact F]|]. destruct r' as [r'|].
    + destruct D as (D1 & D2 & D3). split; [exact D1|]. split; [congruence|]. rewrite D3. split; intros [Q1 Q2]; (split; [exact Q1|]).
      * constructor; [exists f; auto|exact Q2].
      * inversion Q2; assumption.
    + destruct D as (pre & x & post & -> & D1 & D2 & D3 & D4). exists (n :: pre), x, post. cbn [filter app]. rewrite ED, EF. cbn [negb andb]. repeat split; trivial; [|congruence].
      constructor; [left; exists f; auto|exact D1].
Qed.

(** ** Checking what was printed *)
Lemma Forall2_len {A B} (R : A -> B -> Prop) l l' : Forall2 R l l' -> List.length l = List.length l'.
Proof. induction 1; cbn; congruence. Qed.
Lemma lines_of_text lines : Forall (fun l => ~ In 10 l) lines -> lines_of (text lines) = map (fun l => (l, true)) lines.
Proof.
  induction 1 as [|l lines N _ IH]; [reflexivity|]. unfold text in *. cbn [map concat]. rewrite <- app_assoc. cbn [app]. rewrite lines_of_app by exact N. rewrite IH. reflexivity.
Qed.
(** the outcome of a printed line *)
Definition same_digest (a : algo) (e e' : env) (n : list Z) : Prop :=
  exists f f', e_fs e n = Some f /\ e_fs e' n = Some f' /\ f_err f' = false /\ digest a (f_content f') = digest a (f_content f).
Lemma printed_outcomes e e' a de de' conv mask sin : (conv = display_gnu -> de' = de) -> forall ns lines os,
  Forall2 (Printed e a de conv mask) ns lines -> Forall (fun n => n <> str "stdin" /\ 2 * zlen n + 65 < 32768) ns ->
  Outcomes (e_fs e') mask (is_le de') sin (map (fun l => (l, true)) lines) os ->
  Forall2 (fun n o => o = OMissing n /\ e_fs e' n = None \/
                      (exists f', e_fs e' n = Some f' /\ (o = OReadError /\ f_err f' = true \/ f_err f' = false /\
                         (o = OMatch n /\ same_digest a e e' n \/ o = OMismatch n /\ ~ same_digest a e e' n)))) ns os /\
  ~ names_stdin mask (is_le de') (map (fun l => (l, true)) lines).
Proof.
  intros HC. induction ns as [|n ns IH]; intros lines os P NS OC; inversion P as [|? line ? lines' P1 P2]; subst.
  - inversion OC; subst. split; [constructor|]. intros (l & al & cn & [] & _).
  - inversion NS as [|? ? [NS1 LN] NS2]; subst. cbn [map] in OC. destruct P1 as (f & ED & EF & ER & AC & N0 & N10 & N13 & NC & LL).
    assert (AC' : Accepts mask (is_le de') line a (digest a (f_content f)) n) by (apply AC; intros H; rewrite (HC H); reflexivity).
    assert (TX : text_of line = line) by (apply text_of_id; exact N0).
    apply oc_inv in OC as (o & os' & -> & [(N1 & _)|[(_ & C1 & _)|[(_ & _ & N1 & _)|(_ & _ & al' & cn' & nm' & A' & OC)]]]).
    { exfalso. apply N1. unfold short_enough. cbn [fst snd]. lia. } { contradiction. } { cbn [fst] in N1. rewrite TX in N1. exfalso. exact (N1 _ _ _ AC'). }
    cbn [fst] in A'. rewrite TX in A'. destruct (Accepts_det _ _ _ _ _ _ _ _ _ AC' A') as (Qa & Qc & Qn). subst al' nm'.
    assert (SA : sin_after sin n = sin) by (unfold sin_after; rewrite eqb_list_neq by exact NS1; reflexivity).
    unfold source in OC. rewrite (eqb_list_neq _ _ NS1) in OC. rewrite SA in OC.
    assert (OC' : Outcomes (e_fs e') mask (is_le de') sin (map (fun l => (l, true)) lines') os') by (destruct (e_fs e' n); [exact (proj2 OC)|exact (proj2 OC)]).
    destruct (IH lines' os' P2 NS2 OC') as [IH1 IH2]. split.
    + constructor; [|exact IH1]. destruct (e_fs e' n) as [f'|] eqn:EF'; [|left; split; [exact (proj1 OC)|reflexivity]].
      right. exists f'. split; [reflexivity|]. destruct OC as [[[E1 ->]|[E1 [[D ->]|[D ->]]]] _]; [left; auto|right; split; [exact E1|left; split; [reflexivity|]]|right; split; [exact E1|right; split; [reflexivity|]]].
      * exists f, f'. repeat split; trivial. congruence.
      * intros (g & g' & G1 & G2 & G3 & G4). apply D. rewrite EF' in G2. rewrite EF in G1. injection G1 as <-. injection G2 as <-. congruence.
    + intros (l & al & cn & [<-|I] & A).
      * cbn [fst] in A. rewrite TX in A. destruct (Accepts_det _ _ _ _ _ _ _ _ _ AC' A) as (_ & _ & Q). exact (NS1 Q).
      * apply IH2. exists l, al, cn. auto.
Qed.
(** [xxhsum files > list; xxhsum -c list]: the check succeeds exactly when every file still has the digest it had.  [e] is the
    state of the file system when the list was made and [e'] when it is checked. *)
Theorem roundtrip e m ns a de conv mask e' m' list lf de' strict st warn q :
  env_ok e -> file_ok (m_stdin m) -> ~ malloc_fails e -> m_out m = [] -> ns <> [] ->
  Forall nul_free ns -> Forall (fun n => n <> str "stdin" /\ 2 * zlen n + 65 < 32768) ns -> Forall (readable e) ns ->
  Z.testbit mask (algo_num a) = true ->
  env_ok e' -> file_ok (m_stdin m') -> (conv = display_gnu -> de' = de) -> e_fs e' list = Some lf -> zlen ns + 1 < 2 ^ e_ulbits e' ->
  exists m1, hashFiles e m ns a de conv = OK (Some 0, m1) /\
  (f_content lf = m_out m1 ->
   exists r m2, checkFile e' m' (Named list) de' strict st false warn q mask = OK (r, m2) /\
     (r = Some 1 -> Forall (same_digest a e e') ns) /\ (~ malloc_fails e' -> Forall (same_digest a e e') ns -> r = Some 1)).
Proof.
  intros EO FS NM OM NE NN NS RD T EO' FS' HC EL UL.
  destruct (hashFiles_loop_ok e a de conv mask EO NM T ns m 0 FS NN (or_introl eq_refl)) as (r & m1 & E & lines & printed & EOUT & P & D).
  destruct r as [r|].
  2:{ exfalso. destruct D as (pre & n & post & -> & _ & D & _). apply D. rewrite Forall_forall in RD. apply RD, in_or_app. right; left; reflexivity. }
  destruct D as (_ & EP & R0). assert (r = 0) as -> by (apply R0; auto).
  assert (printed = ns) as ->.
  { subst printed. clear - RD. induction RD as [|n ns (f & D & F & _) _ IH]; [reflexivity|]. cbn [filter]. rewrite D, F, IH. reflexivity. }
  exists m1. split; [destruct ns; [congruence|exact E]|]. intros EC. rewrite OM in EOUT. cbn [app] in EOUT.
  assert (N10 : Forall (fun l => ~ In 10 l) lines) by (clear - P; induction P as [|n line ns lines (f & _ & _ & _ & _ & _ & N & _) _ IH]; constructor; assumption).
  assert (ELN : lines_of (f_content lf) = map (fun l => (l, true)) lines) by (rewrite EC, EOUT; apply lines_of_text, N10).
  destruct (Outcomes_total (e_fs e') mask (is_le de') (lines_of (f_content lf)) (m_stdin m')) as (os & OC).
  destruct (checkFile_verdict e' m' (Named list) de' strict st false warn q mask lf os EO' FS' EL OC) as (r & m2 & ECK & S1 & S2).
  { discriminate. } { rewrite ELN. unfold zlen. rewrite map_length. rewrite <- (Forall2_len _ _ _ P). exact UL. }
  exists r, m2. split; [exact ECK|]. rewrite ELN in OC. destruct (printed_outcomes e e' a de de' conv mask _ HC ns lines os P NS OC) as [F _].
  assert (V : Verdict strict false os <-> Forall (same_digest a e e') ns).
  { split.
    - intros (_ & V1 & _ & V2 & V3 & _). specialize (V3 eq_refl). clear - F V1 V2 V3. induction F as [|n o ns os H _ IH]; constructor.
      + destruct H as [[-> _]|(f' & _ & [[-> _]|[_ [[_ H]|[-> _]]]])]; [exfalso; apply (V3 n); left; reflexivity|exfalso; apply V1; left; reflexivity|exact H|exfalso; apply (V2 n); left; reflexivity].
      + apply IH; [intros I; apply V1; right; exact I|intros x I; apply (V2 x); right; exact I|intros x I; apply (V3 x); right; exact I].
    - intros S. assert (M : Forall2 (fun n o => o = OMatch n) ns os).
      { clear - F S. induction F as [|n o ns os H _ IH]; constructor.
        - inversion S as [|? ? S1]; subst. destruct H as [[_ H]|(f' & H1 & [[_ H]|[_ [[-> _]|[_ H]]]])]; [| |reflexivity|contradiction]; destruct S1 as (g & g' & _ & G1 & G2 & _); congruence.
        - apply IH. inversion S; assumption. }
      assert (A : forall o, In o os -> exists n, o = OMatch n).
      { clear - M. induction M as [|n o ns os -> _ IH]; intros x I; [destruct I|]. destruct I as [<-|I]; [eauto|exact (IH x I)]. }
      assert (X : exists n, In (OMatch n) os) by (destruct M as [|n o ns' os' -> _]; [congruence|exists n; left; reflexivity]).
      split; [intros I; destruct (A _ I); discriminate|]. split; [intros I; destruct (A _ I); discriminate|]. split; [destruct X as (n & I); exists (OMatch n); split; [exact I|exact Logic.I]|].
      split; [intros n I; destruct (A _ I); discriminate|]. split; [intros _ n I; destruct (A _ I); discriminate|]. split; [intros _ I; destruct (A _ I); discriminate|]. intros _. exact X. }
  split; [intros R; apply V, S1, R|]. intros NM' S. apply (S2 NM'), V, S.
Qed.

(** ** Checking several lists *)
Definition list_ok (e : env) (sin : file) (mask : Z) (le : bool) (strict im : bool) (n : list Z) : Prop :=
  exists f os, e_fs e n = Some f /\ Outcomes (e_fs e) mask le sin (lines_of (f_content f)) os /\ Verdict strict im os.
Definition list_fit (e : env) (mask : Z) (le : bool) (n : list Z) : Prop :=
  forall f, e_fs e n = Some f -> ~ names_stdin mask le (lines_of (f_content f)) /\ zlen (lines_of (f_content f)) + 1 < 2 ^ e_ulbits e.
Lemma checkFiles_loop_ok e de strict st im warn q mask : env_ok e -> forall ns m ok, file_ok (m_stdin m) -> Forall (list_fit e mask (is_le de)) ns -> ok = 0 \/ ok = 1 ->
  exists r m', checkFiles_loop e m ns de strict st im warn q mask ok = OK (r, m') /\ (r = None \/ r = Some 0 \/ r = Some 1) /\
    (r = Some 1 -> ok = 1 /\ Forall (list_ok e (m_stdin m) mask (is_le de) strict im) ns) /\
    (~ malloc_fails e -> ok = 1 -> Forall (list_ok e (m_stdin m) mask (is_le de) strict im) ns -> r = Some 1).
Proof.
  intros EO. induction ns as [|n ns IH]; intros m ok FS FIT OK'; cbn [checkFiles_loop].
  - exists (Some ok), m. split; [reflexivity|]. split; [destruct OK' as [->| ->]; auto|]. split; [intros E; split; [congruence|constructor]|]. intros _ -> _. reflexivity.
  - inversion FIT as [|? ? F1 F2]; subst. destruct (e_fs e n) as [f|] eqn:EF.
    + destruct (F1 f EF) as [NS UL]. destruct (Outcomes_total (e_fs e) mask (is_le de) (lines_of (f_content f)) (m_stdin m)) as (os & OC).
      destruct (checkFile_all e m (Named n) de strict st im warn q mask f os EO FS EF OC ltac:(discriminate) UL) as (r & m1 & E & FS1 & SM & _).
      destruct (checkFile_verdict e m (Named n) de strict st im warn q mask f os EO FS EF OC ltac:(discriminate) UL) as (r2 & m2 & E2 & S1 & S2).
      rewrite E in E2. injection E2 as <- <-. rewrite E. cbn [bind]. specialize (SM ltac:(discriminate) NS).
      assert (RR : r = None \/ r = Some 0 \/ r = Some 1).
      { clear - E. unfold checkFile in E. destruct (e_fs e n) as [f|]; [|injection E as <- <-; auto].
        destruct (malloc e m DEFAULT_LINE_LENGTH) as [lb m1'], (malloc e m1' 65536) as [bb m2']. destruct lb, bb; try (injection E as <- <-; auto).
        destruct (parseFile1 _ _ _ _) as [s| |]; try discriminate. cbn [bind] in E. destruct (p_exit s); [injection E as <- <-; auto|].
        cbv zeta in E. destruct (im && _); [injection E as <- <-; auto|]. injection E as <- <-. destruct (_ && _ && _ && _ && _); auto. }
      destruct RR as [->|RR].
      * exists None, m1. split; [reflexivity|]. split; [auto|]. split; [discriminate|]. intros NM -> F. inversion F as [|? ? (f' & os' & EF' & OC' & V) _]; subst.
        rewrite EF in EF'. injection EF' as <-. rewrite <- (Outcomes_det _ _ _ _ _ _ _ OC OC') in V. apply (S2 NM) in V. discriminate.
      * assert (exists v, r = Some v /\ (v = 0 \/ v = 1)) as (v & -> & HV) by (destruct RR as [->| ->]; eauto).
        destruct (IH m1 (Z.land ok v) FS1 F2) as (r' & m' & E' & R' & H1 & H2); [destruct OK' as [->| ->], HV as [->| ->]; auto|].
        exists r', m'. split; [exact E'|]. split; [exact R'|]. rewrite SM in H1, H2. split.
        -- intros HR. destruct (H1 HR) as [L F]. assert (ok = 1 /\ v = 1) as [-> ->] by (destruct OK' as [->| ->], HV as [->| ->]; try discriminate; auto).
           split; [reflexivity|]. constructor; [|exact F]. exists f, os. auto.
        -- intros NM -> F. inversion F as [|? ? (f' & os' & EF' & OC' & V) F']; subst. rewrite EF in EF'. injection EF' as <-. rewrite <- (Outcomes_det _ _ _ _ _ _ _ OC OC') in V.
           apply (S2 NM) in V. injection V as ->. apply H2; trivial.
    + unfold checkFile at 1. rewrite EF. cbn [bind]. destruct (IH m (Z.land ok 0) FS F2) as (r' & m' & E' & R' & H1 & _); [left; apply Z.land_0_r|].
      exists r', m'. split; [exact E'|]. split; [exact R'|]. split.
      * intros HR. destruct (H1 HR) as [L _]. rewrite Z.land_0_r in L. discriminate.
      * intros _ _ F. inversion F as [|? ? (f' & os' & EF' & _) _]; subst. congruence.
Qed.
(** the exit status is 0 only if every list is fine *)
Theorem checkFiles_ok e m ns de strict st im warn q mask : env_ok e -> file_ok (m_stdin m) -> ns <> [] -> Forall (list_fit e mask (is_le de)) ns ->
  exists r m', checkFiles e m ns de strict st im warn q mask = OK (r, m') /\ (r = None \/ r = Some 0 \/ r = Some 1) /\
    (r = Some 0 -> Forall (list_ok e (m_stdin m) mask (is_le de) strict im) ns) /\
    (~ malloc_fails e -> Forall (list_ok e (m_stdin m) mask (is_le de) strict im) ns -> r = Some 0).
Proof.
  intros EO FS NE FIT. destruct (checkFiles_loop_ok e de strict st im warn q mask EO ns m 1 FS FIT (or_intror eq_refl)) as (r & m' & E & R & H1 & H2).
  unfold checkFiles. destruct ns as [|n ns]; [congruence|]. rewrite E. cbn [bind]. eexists _, m'. split; [reflexivity|].
  destruct R as [->|[->| ->]]; cbn [Z.eqb].
  - split; [auto|]. split; [discriminate|]. intros NM F. specialize (H2 NM eq_refl F). discriminate.
  - split; [auto|]. split; [discriminate|]. intros NM F. specialize (H2 NM eq_refl F). discriminate.
  - split; [auto|]. split; [intros _; apply H1; reflexivity|reflexivity].
Qed.
