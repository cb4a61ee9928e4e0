(** Proofs about what xxhsum writes to stderr. *)
From Coq Require Import String List.
From Verif Require Import Base Mem M_Cli M_Cli2 M_Cli3 M_CliErr SpecCli SpecCli2 SpecErr P_Base P_Cli P_Cli2 P_Cli3 P_Cli4.
#[local] Opaque Z.mul Z.pow digest.
#[local] Open Scope list_scope.

(** ** Without stderr they are the functions of M_Cli2.v *)
Definition erase {A B} (r : res (A * B)) : res A := let! (a, _) := r in OK a.
Lemma erase_hashStream e t f a b n : erase (Err.hashStream e t f a b n) = M_Cli2.hashStream e t f a b n.
Proof. unfold Err.hashStream. destruct (M_Cli2.hashStream e t f a b n) as [[[h b'] f']| |]; reflexivity. Qed.
Lemma hashStream_log e t f a b n : Err.hashStream e t f a b n =
  let! (h, b, f) := M_Cli2.hashStream e t f a b n in OK (h, b, f, match h with None => str "Error: a failure occurred reading the input file." ++ [10] | Some _ => [] end).
Proof. reflexivity. Qed.
Lemma erase_hashFile e m n a de conv : erase (Err.hashFile e m n a de conv) = M_Cli2.hashFile e m n a de conv.
Proof.
  unfold Err.hashFile, M_Cli2.hashFile. destruct n as [|n].
  2: destruct (e_dir e n); [reflexivity|]; destruct (e_fs e n) as [f|]; [|reflexivity].
  all: unfold malloc; cbn [fst snd]; destruct (e_malloc e (m_tick m) 65536) as [b|]; [|reflexivity]; rewrite hashStream_log;
    destruct (M_Cli2.hashStream _ _ _ _ _ _) as [[[h b'] f']| |]; [|reflexivity..]; cbn [bind]; destruct h as [h|]; [|reflexivity];
    destruct (canonicalOf _ _ _ _ _); [|reflexivity..]; cbn [bind]; destruct (displayLine _ _ _ _ _); reflexivity.
Qed.
Lemma erase_hashFiles_loop e a de conv ns : forall m r, erase (Err.hashFiles_loop e m ns a de conv r) = M_Cli2.hashFiles_loop e m ns a de conv r.
Proof.
  induction ns as [|n ns IH]; intros m r; [reflexivity|]. cbn [Err.hashFiles_loop M_Cli2.hashFiles_loop]. rewrite <- erase_hashFile.
  destruct (Err.hashFile e m (Named n) a de conv) as [[[[c|] m'] l]| |]; [|reflexivity..]. cbn [erase bind]. rewrite <- IH.
  destruct (Err.hashFiles_loop e m' ns a de conv (Z.lor r c)) as [[[r' m''] l']| |]; reflexivity.
Qed.
Lemma erase_hashFiles e m ns a de conv : erase (Err.hashFiles e m ns a de conv) = M_Cli2.hashFiles e m ns a de conv.
Proof. destruct ns; [apply erase_hashFile|apply erase_hashFiles_loop]. Qed.
Lemma erase_verifyLine e m b n a c : erase (Err.verifyLine e m b n a c) = M_Cli2.verifyLine e m b n a c.
Proof.
  unfold Err.verifyLine, M_Cli2.verifyLine. destruct (if eqb_list n stdinFileName then Some (m_stdin m) else e_fs e n) as [f|]; [|reflexivity].
  rewrite hashStream_log. destruct (M_Cli2.hashStream _ _ _ _ _ _) as [[[h b'] f']| |]; [|reflexivity..]. cbn [bind]. destruct h as [h|]; [|reflexivity].
  destruct (compare_hash _ _ _ _); reflexivity.
Qed.
Lemma erase_body e a rev s l : erase (Err.parseFile1_body e a rev (s, l)) = M_Cli2.parseFile1_body e a rev s.
Proof.
  unfold Err.parseFile1_body, M_Cli2.parseFile1_body. destruct s as [own lb lm block rep line m br ex]. destruct (incr e line =? 0); [reflexivity|].
  destruct (getLine e m lb lm _) as [[[[[g lb'] lm'] f] m']| |]; [|reflexivity..]. cbn [bind].
  destruct own as [o|]; (destruct g; try reflexivity; destruct lb' as [b|]; [|reflexivity]; destruct (parseLine b rev (a_mask a)) as [[r b']| |]; [|reflexivity..]; cbn [bind];
    destruct r as [[[al c] i]|]; [|reflexivity]; destruct (cstr b' i) as [nm| |]; [|reflexivity..]; cbn [bind]; rewrite <- erase_verifyLine;
    destruct (Err.verifyLine _ _ _ _ _ _) as [[[[st bl] m2] l']| |]; [|reflexivity..]; cbn [erase bind]; destruct st as [st|]; [|reflexivity];
    destruct (lineReport _ _ _ _ _ _ _); reflexivity).
Qed.
Lemma erase_while {A B} k c (b : A -> res A) (b' : A * B -> res (A * B)) : (forall s l, erase (b' (s, l)) = b s) ->
  forall s l, erase (while_ k (fun s => c (fst s)) b' (s, l)) = while_ k c b s.
Proof.
  intros H. induction k as [|k IH]; intros s l; cbn [while_ fst]; destruct (c s); try reflexivity.
  rewrite <- (H s l). destruct (b' (s, l)) as [[s' l']| |]; [|reflexivity..]. cbn [erase bind]. apply IH.
Qed.
Lemma erase_checkFile e m n de st su im w q mask : erase (Err.checkFile e m n de st su im w q mask) = M_Cli2.checkFile e m n de st su im w q mask.
Proof.
  unfold Err.checkFile, M_Cli2.checkFile. destruct n as [|n].
  2: destruct (e_fs e n) as [f|]; [|reflexivity].
  all: unfold malloc; cbn [fst snd]; destruct (e_malloc e (m_tick m) DEFAULT_LINE_LENGTH) as [b|]; [|reflexivity]; destruct (e_malloc e (m_tick (tick m)) 65536) as [bl|]; [|reflexivity];
    unfold Err.parseFile1, parseFile1; rewrite <- (erase_while _ (fun s => negb (quit (p_rep s)) && negb (p_break s)) _ _ (fun s l => erase_body e _ _ s l) _ []);
    destruct (while_ _ _ (Err.parseFile1_body _ _ _) _) as [[s l]| |]; [|reflexivity..]; cbn [erase bind]; destruct (p_exit s); [reflexivity|]; cbv zeta;
    destruct (im && (nMatchedChecksums (p_rep s) =? 0)); reflexivity.
Qed.
Lemma erase_checkFiles_loop e de st su im w q mask ns : forall m ok, erase (Err.checkFiles_loop e m ns de st su im w q mask ok) = M_Cli2.checkFiles_loop e m ns de st su im w q mask ok.
Proof.
  induction ns as [|n ns IH]; intros m r; [reflexivity|]. cbn [Err.checkFiles_loop M_Cli2.checkFiles_loop]. rewrite <- erase_checkFile.
  destruct (Err.checkFile e m (Named n) de st su im w q mask) as [[[[c|] m'] l]| |]; [|reflexivity..]. cbn [erase bind]. rewrite <- IH.
  destruct (Err.checkFiles_loop e m' ns de st su im w q mask (Z.land r c)) as [[[r' m''] l']| |]; reflexivity.
Qed.
Lemma erase_checkFiles e m ns de st su im w q mask : erase (Err.checkFiles e m ns de st su im w q mask) = M_Cli2.checkFiles e m ns de st su im w q mask.
Proof.
  unfold Err.checkFiles, M_Cli2.checkFiles. destruct ns as [|n ns].
  - rewrite <- erase_checkFile. destruct (Err.checkFile e m Stdin de st su im w q mask) as [[[[c|] m'] l]| |]; reflexivity.
  - rewrite <- erase_checkFiles_loop. destruct (Err.checkFiles_loop e m (n :: ns) de st su im w q mask 1) as [[[[c|] m'] l]| |]; reflexivity.
Qed.
Theorem erase_main v u ad e console m argv : erase (Err.XSUM_main v u ad e console m argv) = M_Cli3.XSUM_main e console m argv.
Proof.
  unfold Err.XSUM_main, M_Cli3.XSUM_main. destruct argv as [|exe args]; [reflexivity|]. cbn [hd].
  destruct (command console (exe :: args)) as [a| |] eqn:EC; [|reflexivity..]. cbn [bind].
  unfold command in EC. destruct (lastNameFromPath exe) as [x| |]; [|discriminate..]. cbn [bind]. clear EC.
  destruct a as [[]|? ? ? ?|ns de st su im w q mask|ns a de conv]; try reflexivity.
  - rewrite <- erase_checkFiles. destruct (Err.checkFiles e m ns de st su im w q mask) as [[[r m'] l]| |]; reflexivity.
  - rewrite <- erase_hashFiles. destruct (Err.hashFiles e m ns a de conv) as [[[r m'] l]| |]; reflexivity.
Qed.

(** ** Hashing *)
Lemma hashFile_log e m n a de conv : env_ok e -> file_ok (m_stdin m) -> nul_free (listname n) -> ~ malloc_fails e ->
  exists r m', Err.hashFile e m n a de conv = OK (r, m', match n with Stdin => about_file false (Some (m_stdin m)) [] [] | Named n => about_file (e_dir e n) (e_fs e n) (e_strerror e) n end) /\
    file_ok (m_stdin m') /\ (r = None <-> match n with Stdin => f_err (m_stdin m) = true | Named n => exists f, e_dir e n = false /\ e_fs e n = Some f /\ f_err f = true end).
Proof.
  intros EO FS NN NM. destruct (hashFile_ok e m n a de conv 15 EO FS NN ltac:(destruct a; reflexivity) NM) as (r & m' & E & FS' & _ & D). rewrite <- erase_hashFile in E.
  exists r, m'. assert (X : exists l, Err.hashFile e m n a de conv = OK (r, m', l)).
  { destruct (Err.hashFile e m n a de conv) as [[[r0 m0] l]| |]; [|discriminate..]. cbn [erase bind] in E. injection E as -> ->. eauto. }
  destruct X as (l & X). split; [|split; [exact FS'|]].
  - rewrite X. f_equal. f_equal. unfold Err.hashFile in X. clear E D.
    assert (Y : forall fin name, file_ok fin -> (let '(buffer, m0) := malloc e m 65536 in
       match buffer with
       | Some buffer0 => let! (h, _, f, log) := Err.hashStream e (m_tick m0) fin a buffer0 65536 in
           let m1 := tick match n with Stdin => Mach f (m_out m0) (m_tick m0) | Named _ => m0 end in
           match h with
           | Some h0 => let! canon := canonicalOf (e_cfg e) h0 (repeat 0 4) (repeat 0 8) (repeat 0 16) in let! line := displayLine conv de name canon a in OK (Some 0, output m1 line, log)
           | None => OK (None, m1, log)
           end
       | None => OK (Some 1, m0, [LF] ++ str "Error: Out of memory." ++ [LF])
       end) = OK (r, m', l) -> l = about_file false (Some fin) [] []).
    { intros fin name FF. unfold malloc. destruct (e_malloc e (m_tick m) 65536) as [b|] eqn:EM; [|exfalso; apply NM; do 2 eexists; split; [|exact EM]; lia].
      apply (eo_malloc e EO) in EM; [|lia]. rewrite hashStream_log. destruct (hashStream_ok e (m_tick (tick m)) fin a b 65536 EO ltac:(lia) EM FF) as (b' & -> & _). cbn [bind].
      unfold about_file. destruct (f_err fin); [intros Q; injection Q as _ _ <-; reflexivity|]. destruct (canonicalOf _ _ _ _ _); [|discriminate..]. cbn [bind].
      destruct (displayLine _ _ _ _ _); [|discriminate..]. cbn [bind]. intros Q. injection Q as _ _ <-. reflexivity. }
    destruct n as [|n]; [exact (Y _ _ FS X)|]. destruct (e_dir e n); [injection X as _ _ <-; reflexivity|]. destruct (e_fs e n) as [f|] eqn:EF; [|injection X as _ _ <-; reflexivity].
    exact (Y _ _ (eo_fs e EO _ _ EF) X).
  - unfold input in D. destruct n as [|n].
    + destruct (f_err (m_stdin m)); [destruct D as [-> _]; tauto|]. destruct D as [-> _]. split; discriminate.
    + destruct (e_dir e n); [destruct D as [-> _]; split; [discriminate|intros (f & Q & _); discriminate]|].
      destruct (e_fs e n) as [f|]; [|destruct D as [-> _]; split; [discriminate|intros (f & _ & Q & _); discriminate]].
      destruct (f_err f) eqn:FE; [destruct D as [-> _]; split; [eauto|reflexivity]|]. destruct D as [-> _]. split; [discriminate|intros (f' & _ & Q & Q'); congruence].
Qed.
Theorem hashFiles_log e m ns a de conv : env_ok e -> file_ok (m_stdin m) -> Forall nul_free ns -> ~ malloc_fails e ->
  exists r m', Err.hashFiles e m ns a de conv = OK (r, m', match ns with [] => about_file false (Some (m_stdin m)) [] [] | _ => about_files (e_dir e) (e_fs e) (e_strerror e) ns end).
Proof.
  intros EO FS NN NM. assert (L : forall ns m r0, file_ok (m_stdin m) -> Forall nul_free ns -> exists r m', Err.hashFiles_loop e m ns a de conv r0 = OK (r, m', about_files (e_dir e) (e_fs e) (e_strerror e) ns)).
  { clear m ns FS NN. induction ns as [|n ns IH]; intros m r0 FS NN; [eexists _, _; reflexivity|]. cbn [Err.hashFiles_loop about_files]. inversion NN as [|? ? N1 N2]; subst.
    destruct (hashFile_log e m (Named n) a de conv EO FS N1 NM) as (r & m' & -> & FS' & R). cbn [bind]. destruct r as [r|].
    - destruct (IH m' (Z.lor r0 r) FS' N2) as (r' & m'' & ->). cbn [bind]. eexists _, _. do 3 f_equal.
      destruct (e_fs e n) as [f|] eqn:EF; [|reflexivity]. destruct (e_dir e n) eqn:ED; [reflexivity|]. cbn [negb andb]. destruct (f_err f) eqn:FE; [|reflexivity].
      assert (Some r = None) by (apply R; eauto). discriminate.
    - destruct R as [R _]. destruct (R eq_refl) as (f & ED & EF & FE). rewrite ED, EF, FE. cbn [negb andb]. rewrite app_nil_r. eauto. }
  destruct ns as [|n ns]; [destruct (hashFile_log e m Stdin a de conv EO FS ltac:(intros I; vm_compute in I; lia) NM) as (r & m' & E & _); eauto|]. exact (L (n :: ns) m 0 FS NN).
Qed.

(** ** Checking: the messages about the lines *)
Lemma verifyLine_log e m block name a canon : env_ok e -> zlen block = 65536 -> file_ok (m_stdin m) -> bytes_ok canon -> zlen canon = digest_size a ->
  exists r block' m', Err.verifyLine e m block name a canon = OK (r, block', m', match r with None => str "Error: a failure occurred reading the input file." ++ [10] | Some _ => [] end) /\
    zlen block' = 65536 /\ file_ok (m_stdin m') /\ m_out m' = m_out m /\
    match source (e_fs e) (m_stdin m) name with
    | None => r = Some failedToOpen /\ m_stdin m' = m_stdin m
    | Some f => m_stdin m' = sin_after (m_stdin m) name /\
        (f_err f = true /\ r = None \/ f_err f = false /\ (r = Some hashOk /\ canon = digest a (f_content f) \/ r = Some hashFailed /\ canon <> digest a (f_content f)))
    end.
Proof.
  intros EO LB FS BC LC. destruct (verifyLine_ok e m block name a canon EO LB FS BC LC) as (r & block' & m' & E & H). exists r, block', m'. split; [|exact H]. clear H.
  unfold Err.verifyLine. unfold M_Cli2.verifyLine in E. destruct (if eqb_list name stdinFileName then Some (m_stdin m) else e_fs e name) as [f|]; [|injection E as <- <- <-; reflexivity].
  rewrite hashStream_log. destruct (M_Cli2.hashStream _ _ _ _ _ _) as [[[h b'] f']| |]; [|discriminate..]. cbn [bind] in *. destruct h as [h|]; [|injection E as <- <- <-; reflexivity].
  destruct (compare_hash _ _ _ _); [|discriminate..]. injection E as <- <- <-. reflexivity.
Qed.
Lemma parse_log e a le : env_ok e -> ~ malloc_fails e -> forall k own b block done m sin os log,
  1 <= zlen b <= 32768 -> zlen block = 65536 -> file_ok (m_stdin m) ->
  Outcomes (e_fs e) (a_mask a) le sin (lines_of (f_content (inFile own m))) os ->
  (own <> None -> sin = m_stdin m) -> (own = None -> ~ names_stdin (a_mask a) le (lines_of (f_content (m_stdin m)))) ->
  (List.length (f_content (inFile own m)) < k)%nat -> zlen done + zlen os + 1 < 2 ^ e_ulbits e ->
  exists s', while_ k (fun s => negb (quit (p_rep (fst s))) && negb (p_break (fst s))) (Err.parseFile1_body e a le)
      (PState own (Some b) (zlen b) block (rep_of (a_ignoreMissing a) done false) (zlen done) m false false, log) = OK (s', log ++ about_lines (a_name a) (a_warn a) (zlen done + 1) os).
Proof.
  intros EO NM. induction k as [|k IH]; intros own b block done m sin os log LB LBL FS OC HS NS K UL; [lia|].
  cbn [while_]. cbn [fst p_rep rep_of quit p_break negb andb].
  unfold Err.parseFile1_body at 1. pose proof (zlen_nonneg done) as ZD. pose proof (zlen_nonneg os) as ZO.
  rewrite (incr_small e (zlen done)) by (trivial; lia). rewrite (proj2 (Z.eqb_neq (zlen done + 1) 0)) by lia.
  rewrite numeral_ok by (destruct (eo_ul e EO) as [U|U]; rewrite U in UL; lia).
  change (match own with Some f => f | None => m_stdin m end) with (inFile own m). set (fin := inFile own m) in *.
  destruct (getLine_ok e m b (zlen b) fin EO eq_refl LB) as (g & b' & f' & m' & -> & LB' & IO & ER & (pre & EP) & G). cbn [bind].
  destruct IO as [IOs IOo].
  set (own' := match own with Some _ => Some f' | None => None end). set (m2 := match own with Some _ => m' | None => Mach f' (m_out m') (m_tick m') end).
  replace (match own with Some _ => (Some f', m') | None => (None, Mach f' (m_out m') (m_tick m')) end) with (own', m2) by (unfold own', m2; destruct own; reflexivity).
  assert (FS2 : file_ok (m_stdin m2)).
  { unfold m2. destruct own; [rewrite IOs; exact FS|]. cbn [m_stdin]. exact (file_ok_suffix _ _ _ EP FS). }
  assert (HS2 : own' <> None -> sin = m_stdin m2).
  { intros H. unfold own', m2 in *. destruct own; [|congruence]. rewrite IOs. apply HS. discriminate. }
  (* the continuation *)
  assert (NEXT : forall l os' o block2 m3 sin3 b3 log3, lines_of (f_content fin) = l :: lines_of (f_content f') ->
     (List.length (f_content f') < List.length (f_content fin))%nat -> os = o :: os' -> goes_on o ->
     zlen b3 = zlen b' -> zlen block2 = 65536 -> file_ok (m_stdin m3) -> (own = None -> m_stdin m3 = f') ->
     (own <> None -> sin3 = m_stdin m3) ->
     Outcomes (e_fs e) (a_mask a) le sin3 (lines_of (f_content f')) os' ->
     log3 = log ++ about_line (a_name a) (a_warn a) (zlen done + 1) o ->
     exists s', while_ k (fun s => negb (quit (p_rep (fst s))) && negb (p_break (fst s))) (Err.parseFile1_body e a le)
      (PState own' (Some b3) (zlen b') block2 (rep_of (a_ignoreMissing a) (done ++ [o]) false) (zlen done + 1) m3 false false, log3) =
      OK (s', log ++ about_lines (a_name a) (a_warn a) (zlen done + 1) os)).
  { intros l os' o block2 m3 sin3 b3 log3 EL LT EO' GO LB3 LBL2 FS3 HN3 HS3 OC3 ->.
    assert (EI3 : inFile own' m3 = f') by (unfold own'; destruct own; [reflexivity|exact (HN3 eq_refl)]).
    destruct (IH own' b3 block2 (done ++ [o]) m3 sin3 os' (log ++ about_line (a_name a) (a_warn a) (zlen done + 1) o)) as (s' & E).
    { rewrite LB3. lia. } { exact LBL2. } { exact FS3. } { rewrite EI3. exact OC3. }
    { intros H. apply HS3. unfold own' in H. destruct own; congruence. }
    { intros H. assert (own = None) as EN by (unfold own' in H; destruct own; congruence). rewrite (HN3 EN). intros (l' & al & cn & I & A). apply (NS EN).
      exists l', al, cn. split; [|exact A]. unfold fin in EL. rewrite EN in EL. cbn [inFile] in EL. rewrite EL. right. exact I. }
    { rewrite EI3. lia. }
    { rewrite zlen_app. change (zlen [o]) with 1. rewrite EO', zlen_cons in UL. lia. }
    rewrite LB3 in E. rewrite zlen_app in E. change (zlen [o]) with 1 in E.
    exists s'. rewrite E, EO'. cbn [about_lines]. rewrite <- app_assoc. destruct o; try contradiction; reflexivity. }
  destruct g.
  - (* a line *)
    destruct G as (l & t & w & EL & SH & -> & HC & LT). rewrite EL in OC.
    assert (NC : ~ comment l) by (intros C; apply HC in C; discriminate).
    destruct (text_of_split l w) as (w' & ET). destruct (parseLine_ok (text_of l) w' le (a_mask a) (text_of_nul_free l)) as (r & b3 & EPL & LB3 & HR).
    rewrite ET. rewrite EPL. cbn [bind].
    assert (LB3' : zlen b3 = zlen (l ++ 0 :: w)) by (rewrite ET; exact LB3). rewrite <- ET.
    destruct r as [[[al canon] i]|].
    + destruct HR as (name & -> & HA). cbn [bind].
      destruct (Accepts_canon _ _ _ _ _ _ HA) as [BC LC].
      destruct (verifyLine_log e m2 block name al canon EO LBL FS2 BC LC) as (r & block' & m3 & -> & LBL' & FS3 & OM3 & HV). cbn [bind].
      assert (NST : own = None -> name <> str "stdin").
      { intros EN ->. apply (NS EN). exists (l, t), al, canon. split; [|exact HA]. unfold fin in EL. rewrite EN in EL. cbn [inFile] in EL. rewrite EL. left. reflexivity. }
      assert (SRC : source (e_fs e) (m_stdin m2) name = source (e_fs e) sin name).
      { destruct own; [rewrite <- HS2 by discriminate; reflexivity|]. unfold source. rewrite eqb_list_neq by (apply NST; reflexivity). reflexivity. }
      rewrite SRC in HV.
      assert (AFT : own <> None -> sin_after (m_stdin m2) name = sin_after sin name).
      { intros H. rewrite <- HS2; [reflexivity|]. unfold own'. destruct own; congruence. }
      assert (AFN : own = None -> sin_after (m_stdin m2) name = f').
      { intros EN. unfold sin_after. rewrite eqb_list_neq by (apply NST, EN). unfold m2. rewrite EN. reflexivity. }
      assert (SN : own = None -> m_stdin m2 = f') by (intros EN; unfold m2; rewrite EN; reflexivity).
      apply oc_inv in OC as (o & os' & -> & [(N1 & _)|[(_ & C1 & _)|[(_ & _ & N1 & _)|(_ & _ & al' & cn' & nm' & A' & OC)]]]);
        [contradiction|contradiction|exfalso; exact (N1 _ _ _ HA)|].
      cbn [fst] in A'. destruct (Accepts_det _ _ _ _ _ _ _ _ _ HA A') as (Qa & Qc & Qn). subst al' cn' nm'.
      destruct (source (e_fs e) sin name) as [f0|].
      2:{ destruct OC as [-> OC']. destruct HV as [-> SM3].
        destruct (lineReport_ok e a m3 done (OMissing name) failedToOpen name EO eq_refl ltac:(lia)) as (m4 & -> & SM4 & OM4).
        eapply NEXT; [exact EL|exact LT|reflexivity|exact I|exact LB3'|exact LBL'|rewrite SM4; exact FS3| | |exact OC'|reflexivity].
        -- intros EN. rewrite SM4, SM3. apply SN, EN.
        -- intros H. rewrite SM4, SM3. apply HS2. unfold own'. destruct own; congruence. }
      destruct OC as [[[E' ->]|[E' [[D' ->]|[D' ->]]]] OC'].
      * destruct HV as [SM3 [[_ ->]|[H _]]]; [|congruence]. cbn [bind]; rewrite loop_stop by reflexivity.
        eexists. cbn [about_lines about_line]. rewrite app_nil_r. reflexivity.
      * destruct HV as [SM3 [[H _]|[_ [[-> _]|[_ H]]]]]; [congruence| |congruence].
        destruct (lineReport_ok e a m3 done (OMatch name) hashOk name EO eq_refl ltac:(lia)) as (m4 & -> & SM4 & OM4).
        eapply NEXT; [exact EL|exact LT|reflexivity|exact I|exact LB3'|exact LBL'|rewrite SM4; exact FS3| | |exact OC'|reflexivity].
        -- intros EN. rewrite SM4, SM3. apply AFN, EN.
        -- intros H. rewrite SM4, SM3. symmetry. apply AFT, H.
      * destruct HV as [SM3 [[H _]|[_ [[_ H]|[-> _]]]]]; [congruence|contradiction|].
        destruct (lineReport_ok e a m3 done (OMismatch name) hashFailed name EO eq_refl ltac:(lia)) as (m4 & -> & SM4 & OM4).
        eapply NEXT; [exact EL|exact LT|reflexivity|exact I|exact LB3'|exact LBL'|rewrite SM4; exact FS3| | |exact OC'|reflexivity].
        -- intros EN. rewrite SM4, SM3. apply AFN, EN.
        -- intros H. rewrite SM4, SM3. symmetry. apply AFT, H.
    + apply oc_inv in OC as (o & os' & -> & [(N1 & _)|[(_ & C1 & _)|[(_ & _ & _ & -> & OC')|(_ & _ & al' & cn' & nm' & A' & _)]]]);
        [contradiction|contradiction| |exfalso; exact (HR _ _ _ A')].
      replace (add_improper e (rep_of (a_ignoreMissing a) done false)) with (rep_of (a_ignoreMissing a) (done ++ [OBad]) false).
      2:{ unfold rep_of. rewrite !count_app, !count_1. cbn [is_proper is_bad is_mismatch is_match is_missing orb add_improper]. rewrite !Z.add_0_r.
          pose proof (count_range is_bad done). rewrite incr_small by (trivial; lia). reflexivity. }
      eapply NEXT; [exact EL|exact LT|reflexivity|exact I|exact LB3'|exact LBL|exact FS2| | |exact OC'|reflexivity].
      * intros EN. unfold m2. rewrite EN. reflexivity.
      * intros H. apply HS2. unfold own'. destruct own; congruence.
  - (* a comment *)
    destruct G as (l & t & w & EL & SH & -> & HC & LT). rewrite EL in OC. assert (C : comment l) by (apply HC; reflexivity).
    apply oc_inv in OC as (o & os' & -> & [(N1 & _)|[(_ & _ & -> & OC')|[(_ & N1 & _)|(_ & N1 & _)]]]); try contradiction.
    replace (rep_of (a_ignoreMissing a) done false) with (rep_of (a_ignoreMissing a) (done ++ [OComment]) false)
      by (unfold rep_of; rewrite !count_app, !count_1; cbn [is_proper is_bad is_mismatch is_match is_missing orb]; rewrite !Z.add_0_r; reflexivity).
    eapply NEXT; [exact EL|exact LT|reflexivity|exact I|reflexivity|exact LBL|exact FS2| | |exact OC'|].
    + intros EN. unfold m2. rewrite EN. reflexivity.
    + intros H. apply HS2. unfold own'. destruct own; congruence.
    + cbn [about_line]. rewrite app_nil_r. reflexivity.
  - (* the end *)
    destruct G as [E0 _]. rewrite E0 in OC. assert (os = []) as -> by (inversion OC; reflexivity). cbn [bind]; rewrite loop_stop by reflexivity.
    eexists. cbn [about_lines]. rewrite app_nil_r. reflexivity.
  - (* too long *)
    destruct G as (l & t & ls & EL & SH). rewrite EL in OC. apply oc_inv in OC as (o & os' & -> & [(_ & -> & OC')|[(N1 & _)|[(N1 & _)|(N1 & _)]]]); try contradiction. cbn [bind]; rewrite loop_stop by reflexivity.
    eexists. cbn [about_lines about_line]. rewrite app_nil_r. reflexivity.
  - contradiction.
Qed.
Theorem checkFile_log e m n de strict st im warn q mask f os : env_ok e -> ~ malloc_fails e -> file_ok (m_stdin m) -> listed e m n = Some f ->
  Outcomes (e_fs e) mask (is_le de) (m_stdin m) (lines_of (f_content f)) os ->
  (n = Stdin -> ~ names_stdin mask (is_le de) (lines_of (f_content f))) ->
  zlen (lines_of (f_content f)) + 1 < 2 ^ e_ulbits e ->
  exists r m', Err.checkFile e m n de strict st im warn q mask = OK (r, m', about_list (listname n) warn os).
Proof.
  intros EO NM FS LF' OC NS UL. unfold Err.checkFile.
  set (own := match n with Stdin => None | Named _ => Some f end).
  replace (match n with Stdin => inr (None, stdinFileName) | Named n => match e_fs e n with Some f => inr (Some f, n) | None => inl (str "Error: Could not open '" ++ n ++ str "': " ++ e_strerror e ++ [LF]) end end)
    with (@inr (list Z) (option file * list Z) (own, listname n)) by (unfold own; destruct n as [|nm]; cbn [listed listname] in *; [reflexivity|rewrite LF'; reflexivity]).
  unfold malloc. cbn [fst snd]. set (m2 := tick (tick m)).
  destruct (e_malloc e (m_tick m) DEFAULT_LINE_LENGTH) as [b|] eqn:M1; [|exfalso; apply NM; do 2 eexists; split; [|exact M1]; unfold DEFAULT_LINE_LENGTH; lia].
  destruct (e_malloc e (m_tick (tick m)) 65536) as [block|] eqn:M2; [|exfalso; apply NM; do 2 eexists; split; [|exact M2]; lia].
  apply (eo_malloc e EO) in M1, M2; [|lia|unfold DEFAULT_LINE_LENGTH; lia]. unfold Err.parseFile1. cbn [p_own p_m p_lineBuf p_lineMax p_block].
  set (a := PArgs (listname n) strict st im warn q mask).
  assert (EI : inFile own m2 = f) by (unfold own; destruct n; cbn [listed] in LF'; [injection LF' as <-; reflexivity|reflexivity]).
  change (match own with Some f => f | None => m_stdin m2 end) with (inFile own m2). rewrite EI.
  rewrite <- M1.
  replace (Report 0 0 0 0 0 0 false) with (rep_of (a_ignoreMissing a) [] false) by (unfold rep_of; destruct (a_ignoreMissing a); reflexivity).
  destruct (parse_loop e a (is_le de) EO (S (List.length (f_content f))) own b block [] m2 (m_stdin m) os) as (s' & os1 & os2 & E & EOS & FO & EOUT & FS' & HQ & D).
  { rewrite M1. unfold DEFAULT_LINE_LENGTH. lia. } { exact M2. } { exact FS. } { rewrite EI. exact OC. } { reflexivity. }
  { intros H. replace (m_stdin m2) with f; [|rewrite <- EI, H; reflexivity]. apply NS. unfold own in H. destruct n; [reflexivity|discriminate]. }
  { rewrite EI. lia. } { change (zlen []) with 0. rewrite (Outcomes_len _ _ _ _ _ _ OC). lia. }
  destruct (parse_log e a (is_le de) EO NM (S (List.length (f_content f))) own b block [] m2 (m_stdin m) os []) as (s'' & E').
  { rewrite M1. unfold DEFAULT_LINE_LENGTH. lia. } { exact M2. } { exact FS. } { rewrite EI. exact OC. } { reflexivity. }
  { intros H. replace (m_stdin m2) with f; [|rewrite <- EI, H; reflexivity]. apply NS. unfold own in H. destruct n; [reflexivity|discriminate]. }
  { rewrite EI. lia. } { change (zlen []) with 0. rewrite (Outcomes_len _ _ _ _ _ _ OC). lia. }
  assert (s'' = s') as ->.
  { pose proof (erase_while (S (List.length (f_content f))) (fun s => negb (quit (p_rep s)) && negb (p_break s)) _ _ (fun s l => erase_body e a (is_le de) s l)
      (PState own (Some b) (zlen b) block (rep_of (a_ignoreMissing a) [] false) (zlen (@nil outcome)) m2 false false) []) as X.
    rewrite E, E' in X. cbn [erase bind] in X. injection X as X. exact X. }
  change (match de with big_endian => false | little_endian => true end) with (is_le de). change (zlen []) with 0 in E'. rewrite E'. cbn [bind app]. change (0 + 1) with 1. cbn [a_name a_warn a].
  cbn [app a_ignoreMissing a] in D. destruct (processed_app os1 os2 FO) as [PA AB]. rewrite <- EOS in PA, AB. unfold about_list.
  assert (FIN : forall qq, p_exit s' = false -> p_rep s' = rep_of im os1 qq -> aborts os2 = false -> processed os2 = [] -> exists r m',
    (if p_exit s' then OK (None, p_m s', about_lines (listname n) warn 1 os)
     else let r := p_rep s' in
       let log := if nProperlyFormattedLines r =? 0 then about_lines (listname n) warn 1 os ++ listname n ++ str ": no properly formatted xxHash checksum lines found" ++ [LF] else about_lines (listname n) warn 1 os in
       let m0 := output (p_m s') (summary a r) in
       let result := negb (nProperlyFormattedLines r =? 0) && (nMismatchedChecksums r =? 0) && (nOpenOrReadFailures r =? 0) && (negb strict || (nImproperlyFormattedLines r =? 0)) && negb (quit r) in
       if im && (nMatchedChecksums r =? 0) then OK (Some 0, output m0 (listname n ++ str ": no file was verified" ++ [LF]), log)
       else OK (Some (if result then 1 else 0), m0, log)) =
    OK (r, m', about_lines (listname n) warn 1 os ++ (if negb (aborts os) && (count is_proper (processed os) =? 0) then listname n ++ str ": no properly formatted xxHash checksum lines found" ++ [10] else []))).
  { intros qq HE HR A2 P2. rewrite HE, AB, A2, PA, P2, app_nil_r. cbv zeta. rewrite HR. change (nProperlyFormattedLines (rep_of im os1 qq)) with (count is_proper os1). cbn [negb andb].
    destruct (count is_proper os1 =? 0); rewrite ?app_nil_r; destruct (im && _); eexists _, _; reflexivity. }
  destruct D as [(-> & HE & HR)|[([C|(r & ->)] & HE & HR)|((r & ->) & HE)]].
  - exact (FIN _ HE HR eq_refl eq_refl).
  - contradiction.
  - exact (FIN _ HE HR eq_refl eq_refl).
  - rewrite HE, AB. cbn [aborts negb andb]. rewrite app_nil_r. eexists _, _. reflexivity.
Qed.

(** ** No failure is silent: whatever the environment does *)
Definition wrote (m m' : mach) : Prop := exists t, m_out m' = m_out m ++ t.
Lemma wrote_refl m : wrote m m. Proof. exists []. rewrite app_nil_r. reflexivity. Qed.
Lemma wrote_trans m1 m2 m3 : wrote m1 m2 -> wrote m2 m3 -> wrote m1 m3.
Proof. intros (t & E) (t' & E'). exists (t ++ t'). rewrite E', E, app_assoc. reflexivity. Qed.
Lemma wrote_output m s : wrote m (output m s). Proof. exists s. reflexivity. Qed.
Lemma log_more (x y : list Z) : y <> [] -> x ++ y <> []. Proof. intros N E. apply app_eq_nil in E as [_ E]. contradiction. Qed.
Ltac nonempty := repeat (first [discriminate|apply log_more]).

Lemma hashFile_quiet e m n a de conv r m' l : Err.hashFile e m n a de conv = OK (r, m', l) -> (r = None \/ r = Some 0 \/ r = Some 1) /\ (l = [] <-> r = Some 0).
Proof.
  unfold Err.hashFile. intros H.
  assert (N : forall s : string, forall t, str s ++ t <> [] \/ s = EmptyString) by (intros [|c s] t; [right; reflexivity|left; discriminate]).
  destruct (match n with Stdin => inr (m_stdin m, stdinFileName) | Named _ => _ end) as [log|[fin name]] eqn:EO.
  - injection H as <- <- <-. split; [auto|]. split; [|discriminate]. intros ->. destruct n as [|n]; [discriminate|]. destruct (e_dir e n); [discriminate|]. destruct (e_fs e n); discriminate.
  - unfold malloc in H. destruct (e_malloc e (m_tick m) 65536) as [b|]; [|injection H as <- <- <-; split; [auto|split; discriminate]].
    rewrite hashStream_log in H. destruct (M_Cli2.hashStream _ _ _ _ _ _) as [[[h b'] f']| |]; [|discriminate..]. cbn [bind] in H. destruct h as [h|].
    + destruct (canonicalOf _ _ _ _ _); [|discriminate..]. cbn [bind] in H. destruct (displayLine _ _ _ _ _); [|discriminate..]. injection H as <- <- <-. split; [auto|]. tauto.
    + injection H as <- <- <-. split; [auto|]. split; discriminate.
Qed.
Theorem hashFiles_quiet e m ns a de conv r m' l : Err.hashFiles e m ns a de conv = OK (r, m', l) -> (l = [] <-> r = Some 0).
Proof.
  assert (L : forall ns m r0 r m' l, r0 = 0 \/ r0 = 1 -> Err.hashFiles_loop e m ns a de conv r0 = OK (r, m', l) -> (r = Some 0 <-> r0 = 0 /\ l = [])).
  { clear. induction ns as [|n ns IH]; intros m r0 r m' l R0 H; cbn [Err.hashFiles_loop] in H.
    - injection H as <- <- <-. split; [intros Q; injection Q as ->; auto|intros [-> _]; reflexivity].
    - destruct (Err.hashFile e m (Named n) a de conv) as [[[c m1] l1]| |] eqn:E1; [|discriminate..]. cbn [bind] in H. apply hashFile_quiet in E1 as [C L1]. destruct c as [c|].
      + destruct (Err.hashFiles_loop _ _ _ _ _ _ _) as [[[c2 m2] l2]| |] eqn:E2; [|discriminate..]. injection H as <- <- <-.
        assert (CC : c = 0 \/ c = 1) by (destruct C as [C|[C|C]]; try discriminate; injection C as ->; auto).
        specialize (IH _ (Z.lor r0 c) _ _ _ ltac:(destruct R0 as [->| ->], CC as [->| ->]; cbn; auto) E2). rewrite IH.
        split.
        * intros [Q ->]. destruct R0 as [->| ->], CC as [->| ->]; try discriminate. split; [reflexivity|]. rewrite (proj2 L1 eq_refl). reflexivity.
        * intros [-> Q]. apply app_eq_nil in Q as [Q1 ->]. apply L1 in Q1. injection Q1 as ->. auto.
      + injection H as <- <- <-. split; [discriminate|]. intros [_ ->]. destruct L1 as [L1 _]. specialize (L1 eq_refl). discriminate. }
  destruct ns as [|n ns]; intros H; [cbn [Err.hashFiles] in H; apply hashFile_quiet in H; tauto|]. cbn [Err.hashFiles] in H. rewrite (L (n :: ns) m 0 r m' l (or_introl eq_refl) H). tauto.
Qed.

(** what holds at each round of the loop *)
Definition told (a : pargs) (m : mach) (sl : pstate * list Z) : Prop :=
  let '(s, log) := sl in wrote m (p_m s) /\ (quit (p_rep s) = true \/ p_exit s = true -> log <> []) /\ (a_warn a = false -> quit (p_rep s) = false -> p_exit s = false -> log = []).
Lemma getLine_wrote e m b n f g b' n' f' m' : getLine e m b n f = OK (g, b', n', f', m') -> m_out m' = m_out m.
Proof.
  unfold getLine. set (st := match b with Some _ => _ | None => _ end). assert (S : m_out (snd st) = m_out m).
  { unfold st, malloc. destruct b as [b|]; [destruct (n <? 1)|]; cbn [fst snd]; try reflexivity; destruct (e_malloc e (m_tick m) DEFAULT_LINE_LENGTH); reflexivity. }
  destruct st as [[lb lm] m0]. cbn [snd] in S. destruct lb as [lb|]; [|intros Q; injection Q as _ _ _ _ <-; exact S].
  assert (W : forall k s s', while_ k (fun s => match snd s with None => true | Some _ => false end) (getLine_body e) s = OK s' -> m_out (snd (fst s')) = m_out (snd (fst s))).
  { induction k as [|k IH]; intros s s' H; cbn [while_] in H; destruct (snd s); try discriminate; try (injection H as ->; reflexivity).
    destruct (getLine_body e s) as [s1| |] eqn:E1; [|discriminate..]. cbn [bind] in H. rewrite (IH _ _ H). clear H IH. unfold getLine_body in E1. destruct s as [[[[[b0 lm0] len] f0] m1] o0].
    destruct (fgetc f0) as [[ch|] f1]; [|injection E1 as <-; reflexivity]. cbn [fst snd]. unfold realloc in E1.
    destruct (lm0 <=? len + 1).
    - destruct (_ <=? len + 1); [injection E1 as <-; reflexivity|]. destruct (e_malloc e (m_tick m1) _); [|injection E1 as <-; reflexivity].
      destruct (ch =? LF); [injection E1 as <-; reflexivity|]. destruct (cset _ len ch); [|discriminate..]. injection E1 as <-. reflexivity.
    - destruct (ch =? LF); [injection E1 as <-; reflexivity|]. destruct (cset _ len ch); [|discriminate..]. injection E1 as <-. reflexivity. }
  destruct (while_ _ _ _ _) as [[[[[[b1 lm1] len] f1] m1] stop]| |] eqn:EW; [|discriminate..]. apply W in EW. cbn [fst snd] in EW. cbn [bind].
  destruct stop as [[r|r]|]; [|intros Q; injection Q as _ _ _ _ <-; congruence|discriminate].
  destruct (cset b1 len 0); [|discriminate..]. cbn [bind]. destruct (cget _ 0); [|discriminate..]. intros Q. injection Q as _ _ _ _ <-. congruence.
Qed.
Lemma body_told e a rev m sl sl' : quit (p_rep (fst sl)) = false -> p_exit (fst sl) = false -> told a m sl -> Err.parseFile1_body e a rev sl = OK sl' -> told a m sl'.
Proof.
  destruct sl as [[own lb lm block rep line m0 br ex] log]. cbn [fst p_rep p_exit]. intros Q0 X0 (W & H1 & H2) E. cbn [p_m p_rep p_exit] in *. specialize (fun w => H2 w Q0 X0). unfold Err.parseFile1_body in E.
  assert (RQ : forall r, quit (set_quit r) = true) by (intros []; reflexivity).
  assert (RI : quit (add_improper e rep) = quit rep) by (destruct rep; reflexivity). assert (RP : quit (add_proper e rep) = quit rep) by (destruct rep; reflexivity).
  destruct (incr e line =? 0).
  { injection E as <-. split; [exact W|]. cbn [p_m p_rep p_exit]. rewrite RQ. split; [intros _|discriminate]. nonempty. }
  destruct (getLine e m0 lb lm _) as [[[[[g lb'] lm'] f] m1]| |] eqn:EG; [|discriminate..]. apply getLine_wrote in EG. cbn [bind] in E.
  assert (W1 : wrote m m1) by (destruct W as (t & W); exists t; congruence).
  set (own' := match own with Some _ => Some f | None => None end) in *. set (m2 := match own with Some _ => m1 | None => Mach f (m_out m1) (m_tick m1) end).
  replace (match own with Some _ => (Some f, m1) | None => (None, Mach f (m_out m1) (m_tick m1)) end) with (own', m2) in E by (unfold own', m2; destruct own; reflexivity).
  assert (W2 : wrote m m2) by (unfold m2; destruct own; [exact W1|destruct W1 as (t & W1); exists t; exact W1]). destruct g.
  - destruct lb' as [b|]; [|discriminate]. destruct (parseLine b rev (a_mask a)) as [[r b']| |]; [|discriminate..]. cbn [bind] in E. destruct r as [[[al c] i]|].
    + destruct (cstr b' i) as [nm| |]; [|discriminate..]. cbn [bind] in E. unfold Err.verifyLine in E.
      destruct (if eqb_list nm stdinFileName then Some (m_stdin m2) else e_fs e nm) as [fp|].
      * rewrite hashStream_log in E. destruct (M_Cli2.hashStream _ _ _ _ _ _) as [[[h b1] f1]| |]; [|discriminate..]. cbn [bind] in E. set (m3 := tick _) in E.
        assert (W3 : wrote m m3) by (unfold m3; destruct (eqb_list nm stdinFileName); destruct W2 as (t & W2); exists t; exact W2).
        destruct h as [h|].
        -- destruct (compare_hash _ _ _ _) as [st| |]; [|discriminate..]. cbn [bind] in E. rewrite app_nil_r in E. destruct (lineReport _ _ _ _ _ _ _) as [rep' m4] eqn:ER. injection E as <-.
           assert (X : quit rep' = quit rep /\ wrote m3 m4).
           { unfold lineReport in ER. rewrite <- RP. destruct (add_proper e rep) as [np ni nmm nk no nx qq]. destruct st.
             - destruct (_ && _); injection ER as <- <-; (split; [reflexivity|]); [apply wrote_output|apply wrote_refl].
             - destruct (_ && _); injection ER as <- <-; (split; [reflexivity|]); [apply wrote_output|apply wrote_refl].
             - destruct (a_ignoreMissing a); [injection ER as <- <-; split; [reflexivity|apply wrote_refl]|]. destruct (a_status a); injection ER as <- <-; (split; [reflexivity|]); [apply wrote_refl|apply wrote_output]. }
           destruct X as [X1 X2]. split; [exact (wrote_trans _ _ _ W3 X2)|]. cbn [p_rep p_exit]. rewrite X1, Q0. split; [intros [Q|Q]; discriminate|]. intros w _ _. exact (H2 w).
        -- injection E as <-. split; [exact W3|]. cbn [p_rep p_exit]. split; [intros _; nonempty|]. intros _ _ Q. discriminate.
      * cbn [bind] in E. rewrite app_nil_r in E. destruct (lineReport _ _ _ _ _ _ _) as [rep' m4] eqn:ER. injection E as <-.
           assert (X : quit rep' = quit rep /\ wrote m2 m4).
           { unfold lineReport in ER. rewrite <- RP. destruct (add_proper e rep) as [np ni nmm nk no nx qq].
             destruct (a_ignoreMissing a); [injection ER as <- <-; split; [reflexivity|apply wrote_refl]|]. destruct (a_status a); injection ER as <- <-; (split; [reflexivity|]); [apply wrote_refl|apply wrote_output]. }
           destruct X as [X1 X2]. split; [exact (wrote_trans _ _ _ W2 X2)|]. cbn [p_rep p_exit]. rewrite X1, Q0. split; [intros [Q|Q]; discriminate|]. intros w _ _. exact (H2 w).
    + injection E as <-. split; [exact W2|]. cbn [p_rep p_exit]. rewrite RI, Q0. split; [intros [Q|Q]; discriminate|]. intros w _ _. rewrite w, (H2 w). reflexivity.
  - injection E as <-. split; [exact W2|]. cbn [p_rep p_exit]. split; [intros [Q|Q]; congruence|]. intros w _ _. exact (H2 w).
  - injection E as <-. split; [exact W2|]. cbn [p_rep p_exit]. split; [intros [Q|Q]; congruence|]. intros w _ _. exact (H2 w).
  - injection E as <-. split; [exact W2|]. cbn [p_rep p_exit]. rewrite RQ. split; [intros _; nonempty|]. intros _ Q. discriminate.
  - injection E as <-. split; [exact W2|]. cbn [p_rep p_exit]. rewrite RQ. split; [intros _; nonempty|]. intros _ Q. discriminate.
Qed.
Lemma loop_told e a rev m k : forall sl sl', p_exit (fst sl) = false -> told a m sl ->
  while_ k (fun s => negb (quit (p_rep (fst s))) && negb (p_break (fst s))) (Err.parseFile1_body e a rev) sl = OK sl' -> told a m sl'.
Proof.
  induction k as [|k IH]; intros sl sl' X T E; cbn [while_] in E; destruct (negb (quit (p_rep (fst sl))) && negb (p_break (fst sl))) eqn:C; try discriminate; try (injection E as <-; exact T).
  apply andb_true_iff in C as [C _]. apply negb_true_iff in C. destruct (Err.parseFile1_body e a rev sl) as [s1| |] eqn:E1; [|discriminate..]. cbn [bind] in E.
  pose proof (body_told e a rev m sl s1 C X T E1) as T1. destruct (p_exit (fst s1)) eqn:X1; [|exact (IH s1 sl' X1 T1 E)].
  (* exit only comes with the end of the loop *)
  assert (B : p_break (fst s1) = true).
  { clear - E1 X1. destruct sl as [[own lb lm block rep line m0 br ex] log]. unfold Err.parseFile1_body in E1. destruct (incr e line =? 0); [injection E1 as <-; discriminate|].
    destruct (getLine e m0 lb lm _) as [[[[[g lb'] lm'] f] m1]| |]; [|discriminate..]. cbn [bind] in E1.
    set (om := match own with Some _ => (Some f, m1) | None => _ end) in E1. destruct om as [own' m2]. destruct g; try (injection E1 as <-; discriminate).
    destruct lb' as [b|]; [|discriminate]. destruct (parseLine b rev (a_mask a)) as [[r b']| |]; [|discriminate..]. cbn [bind] in E1. destruct r as [[[al c] i]|]; [|injection E1 as <-; discriminate].
    destruct (cstr b' i) as [nm| |]; [|discriminate..]. cbn [bind] in E1. destruct (Err.verifyLine _ _ _ _ _ _) as [[[[st bl] m3] l']| |]; [|discriminate..]. cbn [bind] in E1.
    destruct st as [st|]; [|injection E1 as <-; reflexivity]. destruct (lineReport _ _ _ _ _ _ _). injection E1 as <-. discriminate. }
  rewrite loop_stop in E by (rewrite B; cbn [negb]; apply andb_false_r). injection E as <-. exact T1.
Qed.
Theorem checkFile_told e m n de strict st im warn q mask r m' l : Err.checkFile e m n de strict st im warn q mask = OK (r, m', l) ->
  (r = None \/ r = Some 0 \/ r = Some 1) /\ wrote m m' /\ (r = Some 1 -> warn = false -> l = []) /\ (st = false -> r <> Some 1 -> l <> [] \/ m_out m' <> m_out m).
Proof.
  unfold Err.checkFile. intros H.
  destruct (match n with Stdin => inr (None, stdinFileName) | Named _ => _ end) as [log|[own name]] eqn:EO.
  { injection H as <- <- <-. split; [auto|]. split; [apply wrote_refl|]. split; [discriminate|]. intros _ _. left. destruct n as [|n]; [discriminate|]. destruct (e_fs e n); [discriminate|]. injection EO as <-. discriminate. }
  clear EO. unfold malloc in H. cbn [fst snd] in H. destruct (e_malloc e (m_tick m) DEFAULT_LINE_LENGTH) as [b|].
  2:{ injection H as <- <- <-. split; [auto|]. split; [exists []; rewrite app_nil_r; reflexivity|]. split; [discriminate|]. intros _ _. left. discriminate. }
  destruct (e_malloc e (m_tick (tick m)) 65536) as [block|].
  2:{ injection H as <- <- <-. split; [auto|]. split; [exists []; rewrite app_nil_r; reflexivity|]. split; [discriminate|]. intros _ _. left. discriminate. }
  set (a := PArgs name strict st im warn q mask) in H. destruct (Err.parseFile1 e a _ _) as [[s log]| |] eqn:EP; [|discriminate..]. cbn [bind] in H. unfold Err.parseFile1 in EP.
  apply (loop_told e a _ m) in EP; [|reflexivity|].
  2:{ split; [exists []; rewrite app_nil_r; reflexivity|]. split; [intros [Q|Q]; discriminate|reflexivity]. }
  destruct EP as (W & T1 & T2). cbn [a_warn a] in T2. destruct (p_exit s) eqn:X.
  { injection H as <- <- <-. split; [auto|]. split; [exact W|]. split; [discriminate|]. intros _ _. left. apply T1. auto. }
  cbv zeta in H. set (rep := p_rep s) in *. set (log2 := if nProperlyFormattedLines rep =? 0 then _ else log) in H.
  assert (G : forall x, x <> [] -> m_out (output (p_m s) x) <> m_out m).
  { intros x N. destruct W as (t & W). unfold output. cbn [m_out]. rewrite W, <- app_assoc. intros Q. rewrite <- (app_nil_r (m_out m)) in Q at 2. apply app_inv_head, app_eq_nil in Q as [_ Q]. contradiction. }
  assert (LN : forall n one many tail, n <> 0 -> (if n =? 0 then [] else dec n ++ (if n =? 1 then one else many) ++ tail ++ [LF]) <> []) by (intros k ? ? ? N; rewrite (proj2 (Z.eqb_neq k 0) N); nonempty).
  destruct (im && (nMatchedChecksums rep =? 0)) eqn:IM.
  - injection H as <- <- <-. split; [auto|]. split; [eapply wrote_trans; [exact W|]; eapply wrote_trans; apply wrote_output|]. split; [discriminate|]. intros _ _. right.
    unfold output at 1. cbn [m_out]. intros Q. destruct W as (t & W). unfold output in Q. cbn [m_out] in Q. rewrite W, <- !app_assoc in Q.
    rewrite <- (app_nil_r (m_out m)) in Q at 2. apply app_inv_head, app_eq_nil in Q as [_ Q]. apply app_eq_nil in Q as [_ Q]. revert Q. nonempty.
  - injection H as <- <- <-. split; [destruct (_ && negb (quit rep)); auto|]. split; [eapply wrote_trans; [exact W|]; apply wrote_output|]. split.
    + intros Q w. destruct (_ && negb (quit rep)) eqn:R; [|discriminate]. rewrite !andb_true_iff, !negb_true_iff in R. destruct R as ((((R1 & _) & _) & _) & R5). unfold log2. rewrite R1. apply T2; first [assumption|reflexivity].
    + intros -> Q. unfold log2, summary. cbn [a_status a]. fold rep. destruct (Z.eqb_spec (nProperlyFormattedLines rep) 0) as [P|P]; [left; nonempty|].
      destruct (quit rep) eqn:QR; [left; apply T1; auto|]. right. apply G. intros S. apply app_eq_nil in S as [S1 S]. apply app_eq_nil in S as [S2 S3]. apply Q.
      destruct (Z.eqb_spec (nImproperlyFormattedLines rep) 0) as [I|I]; [|exfalso; revert S1; nonempty].
      destruct (Z.eqb_spec (nOpenOrReadFailures rep) 0) as [O|O]; [|exfalso; revert S2; nonempty].
      destruct (Z.eqb_spec (nMismatchedChecksums rep) 0) as [M|M]; [|exfalso; revert S3; nonempty]. rewrite orb_true_r. reflexivity.
Qed.
Theorem checkFiles_told e m ns de strict st im warn q mask r m' l : Err.checkFiles e m ns de strict st im warn q mask = OK (r, m', l) ->
  wrote m m' /\ (r = Some 0 -> warn = false -> l = []) /\ (st = false -> r <> Some 0 -> l <> [] \/ m_out m' <> m_out m).
Proof.
  assert (L : forall ns m ok r m' l, ok = 0 \/ ok = 1 -> Err.checkFiles_loop e m ns de strict st im warn q mask ok = OK (r, m', l) ->
    (r = None \/ r = Some 0 \/ r = Some 1) /\ wrote m m' /\ (r = Some 1 -> ok = 1 /\ (warn = false -> l = [])) /\ (st = false -> ok = 1 -> r <> Some 1 -> l <> [] \/ m_out m' <> m_out m)).
  { clear. induction ns as [|n ns IH]; intros m ok r m' l OK1 H; cbn [Err.checkFiles_loop] in H.
    - injection H as <- <- <-. split; [destruct OK1 as [->| ->]; auto|]. split; [apply wrote_refl|]. split; [intros Q; injection Q as ->; auto|]. intros _ -> N. congruence.
    - destruct (Err.checkFile e m (Named n) de strict st im warn q mask) as [[[c m1] l1]| |] eqn:E1; [|discriminate..]. cbn [bind] in H.
      apply checkFile_told in E1 as (C & W1 & Q1 & S1). destruct c as [c|].
      + destruct (Err.checkFiles_loop _ _ _ _ _ _ _ _ _ _ _) as [[[c2 m2] l2]| |] eqn:E2; [|discriminate..]. injection H as <- <- <-.
        assert (CC : c = 0 \/ c = 1) by (destruct C as [C|[C|C]]; try discriminate; injection C as ->; auto).
        destruct (IH _ (Z.land ok c) _ _ _ ltac:(destruct OK1 as [->| ->], CC as [->| ->]; cbn; auto) E2) as (C2 & W2 & Q2 & S2).
        split; [exact C2|]. split; [exact (wrote_trans _ _ _ W1 W2)|]. split.
        * intros Q. destruct (Q2 Q) as [OKC Q3]. destruct OK1 as [->| ->], CC as [->| ->]; try discriminate. split; [reflexivity|]. intros w. rewrite (Q1 eq_refl w), (Q3 w). reflexivity.
        * intros -> -> N. destruct CC as [->| ->].
          -- destruct (S1 eq_refl ltac:(discriminate)) as [D|D]; [left; intros Q; apply app_eq_nil in Q as [Q _]; contradiction|]. right. intros Q. destruct W1 as (t1 & W1), W2 as (t2 & W2).
             rewrite W2, W1, <- app_assoc in Q. rewrite <- (app_nil_r (m_out m)) in Q at 2. apply app_inv_head, app_eq_nil in Q as [-> _]. rewrite app_nil_r in W1. contradiction.
          -- destruct (S2 eq_refl eq_refl N) as [D|D]; [left; intros Q; apply app_eq_nil in Q as [_ Q]; contradiction|]. right. intros Q. destruct W1 as (t1 & W1), W2 as (t2 & W2).
             apply D. rewrite W2. rewrite W2, W1, <- app_assoc in Q. rewrite <- (app_nil_r (m_out m)) in Q at 2. apply app_inv_head, app_eq_nil in Q as [_ ->]. apply app_nil_r.
      + injection H as <- <- <-. split; [auto|]. split; [exact W1|]. split; [discriminate|]. intros -> _ _. apply S1; [reflexivity|discriminate]. }
  unfold Err.checkFiles. destruct ns as [|n ns]; intros H.
  - destruct (Err.checkFile e m Stdin de strict st im warn q mask) as [[[c m1] l1]| |] eqn:E1; [|discriminate..]. cbn [bind] in H. apply checkFile_told in E1 as (C & W1 & Q1 & S1).
    injection H as <- <- <-. split; [exact W1|]. destruct C as [->|[->| ->]]; cbn [Z.land Pos.land Z.eqb] in *.
    + split; [discriminate|]. intros S _. apply S1; [exact S|discriminate].
    + split; [discriminate|]. intros S _. apply S1; [exact S|discriminate].
    + split; [intros _; exact (Q1 eq_refl)|]. intros _ N. exfalso. apply N. reflexivity.
  - destruct (Err.checkFiles_loop e m (n :: ns) de strict st im warn q mask 1) as [[[c m1] l1]| |] eqn:E1; [|discriminate..]. cbn [bind] in H. injection H as <- <- <-.
    destruct (L _ _ _ _ _ _ (or_intror eq_refl) E1) as (C & W1 & Q1 & S1). split; [exact W1|]. destruct C as [->|[->| ->]]; cbn [Z.eqb].
    + split; [discriminate|]. intros S _. apply S1; [exact S|reflexivity|discriminate].
    + split; [discriminate|]. intros S _. apply S1; [exact S|reflexivity|discriminate].
    + split; [intros _ w; apply Q1; [reflexivity|exact w]|]. intros _ N. exfalso. apply N. reflexivity.
Qed.
