(** Proofs about checking a checksum file: the loop over its lines, the verdict and the printed report. *)
From Coq Require Import String Ascii List.
From Verif Require Import Base Mem M_XXH32 M_XXH64 M_XXH3 M_Kernels M_Long M_Stream3 M_Util M_Cli M_Cli2 Spec32 Spec64 Spec3 SpecUtil SpecCli SpecCli2
  P_Base P_Util P_Cli P_Cli2.
#[local] Opaque Z.mul Z.pow digest.

Lemma file_ok_suffix f f' pre : f_content f = pre ++ f_content f' -> file_ok f -> file_ok f'.
Proof. intros E [B L]. rewrite E in *. apply bytes_split in B as [_ B]. rewrite zlen_app in L. pose proof (zlen_nonneg pre). split; [exact B|lia]. Qed.
Lemma file_ok_nil e : file_ok (File [] e). Proof. split; [constructor|]. change (zlen _) with 0. lia. Qed.
Lemma eqb_list_neq a b : a <> b -> eqb_list a b = false.
Proof. intros N. destruct (eqb_list a b) eqn:E; [|reflexivity]. apply eqb_list_eq in E. congruence. Qed.

Lemma verifyLine_ok e m block name a canon : env_ok e -> zlen block = 65536 -> file_ok (m_stdin m) -> bytes_ok canon -> zlen canon = digest_size a ->
  exists r block' m', verifyLine e m block name a canon = OK (r, block', m') /\ zlen block' = 65536 /\ file_ok (m_stdin m') /\ m_out m' = m_out m /\
    match source (e_fs e) (m_stdin m) name with
    | None => r = Some failedToOpen /\ m_stdin m' = m_stdin m
    | Some f => m_stdin m' = sin_after (m_stdin m) name /\
        (f_err f = true /\ r = None \/ f_err f = false /\ (r = Some hashOk /\ canon = digest a (f_content f) \/ r = Some hashFailed /\ canon <> digest a (f_content f)))
    end.
Proof.
  intros EO LB FS BC LC. unfold verifyLine. unfold source, sin_after. change stdinFileName with (str "stdin").
  set (isS := eqb_list name (str "stdin")).
  destruct (if isS then Some (m_stdin m) else e_fs e name) as [fp|] eqn:EF.
  2:{ exists (Some failedToOpen), block, m. split; [reflexivity|]. split; [exact LB|]. split; [exact FS|]. split; [reflexivity|]. split; reflexivity. }
  assert (FP : file_ok fp) by (destruct isS; [injection EF as <-; exact FS|exact (eo_fs e EO _ _ EF)]).
  destruct (hashStream_ok e (m_tick m) fp a block 65536 EO ltac:(lia) LB FP) as (block' & -> & LB'). cbn [bind].
  set (m' := tick (if isS then Mach (File [] (f_err fp)) (m_out m) (m_tick m) else m)).
  assert (OM : m_out m' = m_out m) by (unfold m'; destruct isS; reflexivity).
  assert (SM : m_stdin m' = if isS then File [] (f_err (m_stdin m)) else m_stdin m) by (unfold m'; destruct isS; [injection EF as <-|]; reflexivity).
  assert (FM : file_ok (m_stdin m')) by (rewrite SM; destruct isS; [apply file_ok_nil|exact FS]).
  destruct (f_err fp) eqn:ER.
  - exists None, block', m'. split; [reflexivity|]. split; [exact LB'|]. split; [exact FM|]. split; [exact OM|]. split; [exact SM|]. left. auto.
  - destruct (compare_ok (e_cfg e) a (f_content fp) (e_adr e (m_tick m')) canon (eo_cfg e EO) BC LC) as (st & -> & H). cbn [bind].
    exists (Some st), block', m'. split; [reflexivity|]. split; [exact LB'|]. split; [exact FM|]. split; [exact OM|]. split; [exact SM|]. right.
    split; [reflexivity|]. destruct H as [[-> H]|[-> H]]; auto.
Qed.

(** ** Counting *)
Lemma count_app p a b : count p (a ++ b) = count p a + count p b.
Proof. unfold count. rewrite filter_app, zlen_app. reflexivity. Qed.
Lemma count_1 p o : count p [o] = if p o then 1 else 0.
Proof. unfold count. cbn [filter]. destruct (p o); reflexivity. Qed.
Lemma count_range p os : 0 <= count p os <= zlen os.
Proof.
  induction os as [|o os IH]; [unfold count, zlen; cbn; lia|]. change (o :: os) with ([o] ++ os). rewrite count_app, count_1, zlen_app. change (zlen [o]) with 1. destruct (p o); lia.
Qed.
Lemma count_0 p os : count p os = 0 <-> forall o, In o os -> p o = false.
Proof.
  induction os as [|o os IH]; [split; [intros _ o []|reflexivity]|]. change (o :: os) with ([o] ++ os). rewrite count_app, count_1. pose proof (count_range p os).
  split.
  - intros H' x [<-|I]; [destruct (p o); [lia|reflexivity]|]. apply IH; [destruct (p o); lia|exact I].
  - intros H'. rewrite (H' o) by (left; reflexivity). rewrite (proj2 IH); [reflexivity|]. intros x I. apply H'. right. exact I.
Qed.
Lemma says_app ln se s im q a b n : says ln se s im q n (a ++ b) = says ln se s im q n a ++ says ln se s im q (n + zlen a) b.
Proof.
  revert n; induction a as [|o a IH]; intros n; [cbn [app says]; change (zlen []) with 0; rewrite Z.add_0_r; reflexivity|].
  cbn [app says]. rewrite IH, zlen_cons, app_assoc. do 2 f_equal. lia.
Qed.
Definition rep_of (im : bool) (os : list outcome) (q : bool) : report :=
  Report (count is_proper os) (count is_bad os) (count is_mismatch os) (count is_match os) (if im then 0 else count is_missing os) (if im then count is_missing os else 0) q.
Lemma incr_small e x : env_ok e -> 0 <= x -> x + 1 < 2 ^ e_ulbits e -> incr e x = x + 1.
Proof. intros EO A B. unfold incr. apply Z.mod_small. lia. Qed.
Lemma shown_ok name : (if filenameNeedsEscape name then [BSL] else []) ++ printFilename name (filenameNeedsEscape name) = shown name.
Proof.
  unfold shown. assert (E : filenameNeedsEscape name = existsb (fun x => (x =? 92) || (x =? 10) || (x =? 13)) name).
  { apply eq_true_iff_eq. rewrite needsEscape_spec, existsb_exists. split.
    - intros [I|[I|I]]; [exists 92|exists 10|exists 13]; split; trivial.
    - intros (x & I & E). rewrite !orb_true_iff, !Z.eqb_eq in E. destruct E as [[->| ->]| ->]; auto. }
  rewrite <- E. destruct (filenameNeedsEscape name); [rewrite printFilename_escape; reflexivity|reflexivity].
Qed.

(** printf("%lu") writes the decimal digits *)
Lemma dec_digits m : forall fuel n, (0 < m <= fuel)%nat -> 0 <= n < 10 ^ Z.of_nat m ->
  dec_f fuel n = map (fun k => 48 + n / 10 ^ k mod 10) (rev (filter (fun k => (k =? 0) || (10 ^ k <=? n)) (map Z.of_nat (seq 0 m)))).
Proof.
  induction m as [|m IH]; intros [|fuel] n F R; try lia. cbn [dec_f].
  assert (E : filter (fun k => (k =? 0) || (10 ^ k <=? n)) (map Z.of_nat (seq 0 (S m)))
    = 0 :: filter (fun k => (k =? 0) || (10 ^ k <=? n)) (map (fun k => Z.of_nat k + 1) (seq 0 m))).
  { cbn [seq map filter Z.of_nat Z.eqb orb]. f_equal. f_equal. rewrite <- seq_shift, map_map. apply map_ext. intros k. lia. }
  rewrite E. cbn [rev]. rewrite map_app. cbn [map]. change (10 ^ 0) with 1. rewrite Z.div_1_r. destruct (n <? 10) eqn:L; [apply Z.ltb_lt in L|apply Z.ltb_ge in L].
  - replace (filter (fun k => (k =? 0) || (10 ^ k <=? n)) (map (fun k => Z.of_nat k + 1) (seq 0 m))) with (@nil Z).
    + cbn [rev map app]. rewrite Z.mod_small by lia. reflexivity.
    + symmetry. assert (A : forall l, filter (fun k => (k =? 0) || (10 ^ k <=? n)) (map (fun k => Z.of_nat k + 1) l) = []).
      { induction l as [|k l IHl]; [reflexivity|]. cbn [map filter]. replace (Z.of_nat k + 1 =? 0) with false by lia. cbn [orb].
        rewrite Z.pow_add_r by lia. change (10 ^ 1) with 10. pose proof (Z.pow_pos_nonneg 10 (Z.of_nat k)). replace (10 ^ Z.of_nat k * 10 <=? n) with false by lia. exact IHl. }
      apply A.
  - assert (0 < m)%nat. { destruct m; [change (10 ^ Z.of_nat 1) with 10 in R; lia|lia]. }
    rewrite Nat2Z.inj_succ, Z.pow_succ_r in R by lia.
    rewrite (IH fuel (n / 10)) by lia.
    f_equal. rewrite !map_rev. f_equal. generalize (seq 0 m). intros l. induction l as [|k l IHl]; [reflexivity|]. cbn [map filter].
    replace (Z.of_nat k + 1 =? 0) with false by lia. cbn [orb]. pose proof (Z.pow_pos_nonneg 10 (Z.of_nat k)).
    assert (P : 10 ^ (Z.of_nat k + 1) = 10 * 10 ^ Z.of_nat k) by (rewrite Z.pow_add_r by lia; change (10 ^ 1) with 10; lia). rewrite P.
    assert (D : (Z.of_nat k =? 0) || (10 ^ Z.of_nat k <=? n / 10) = (10 * 10 ^ Z.of_nat k <=? n)).
    { apply eq_true_iff_eq. rewrite orb_true_iff, Z.eqb_eq, !Z.leb_le. split.
      - intros [Q|Q]; [rewrite Q; change (10 ^ 0) with 1; lia|]. pose proof (Z.mul_div_le n 10). lia.
      - intros Q. right. apply Z.div_le_lower_bound; lia. }
    rewrite D. destruct (10 * 10 ^ Z.of_nat k <=? n); [|exact IHl]. cbn [map]. rewrite IHl. f_equal. rewrite P, Z.div_div by lia. reflexivity.
Qed.
Lemma numeral_ok n : 0 <= n < 10 ^ 20 -> dec n = numeral n.
Proof. intros R. unfold dec, numeral, places. rewrite (dec_digits 20) by (trivial; lia). reflexivity. Qed.

(** the report of one line *)
Definition st_of (o : outcome) : option (status * list Z) :=
  match o with OMissing n => Some (failedToOpen, n) | OMatch n => Some (hashOk, n) | OMismatch n => Some (hashFailed, n) | _ => None end.
Lemma lineReport_ok e a m os o st name : env_ok e -> st_of o = Some (st, name) -> zlen os + 1 < 2 ^ e_ulbits e ->
  exists m', lineReport e a m (add_proper e (rep_of (a_ignoreMissing a) os false)) (zlen os + 1) name st = (rep_of (a_ignoreMissing a) (os ++ [o]) false, m') /\
    m_stdin m' = m_stdin m /\ m_out m' = m_out m ++ say (a_name a) (e_strerror e) (a_status a) (a_ignoreMissing a) (a_quiet a) (zlen os + 1) o.
Proof.
  intros EO ST L. unfold rep_of. cbn [add_proper].
  pose proof (count_range is_proper os). pose proof (count_range is_missing os). pose proof (count_range is_match os). pose proof (count_range is_mismatch os).
  rewrite !count_app, !count_1. rewrite (incr_small e (count is_proper os)) by (trivial; lia).
  destruct o; try discriminate; injection ST as <- <-; cbn [is_proper is_bad is_mismatch is_match is_missing orb lineReport say]; rewrite ?Z.add_0_r.
  - rewrite numeral_ok by (pose proof (zlen_nonneg os); destruct (eo_ul e EO) as [U|U]; rewrite U in L; lia). destruct (a_ignoreMissing a); cbn [orb].
    + rewrite incr_small by (trivial; lia). exists m. rewrite app_nil_r. auto.
    + rewrite incr_small by (trivial; lia). eexists. split; [reflexivity|]. destruct (a_status a); [rewrite app_nil_r; auto|]. split; reflexivity.
  - rewrite incr_small by (trivial; lia). destruct (a_ignoreMissing a); (eexists; split; [reflexivity|]); cbn [andb]; destruct (a_quiet a), (a_status a); cbn [negb andb orb];
      rewrite ?app_nil_r; auto; unfold output; cbn [m_stdin m_out]; (split; [reflexivity|]); rewrite <- shown_ok, !app_assoc; reflexivity.
  - rewrite incr_small by (trivial; lia). destruct (a_ignoreMissing a); (eexists; split; [reflexivity|]); cbn [andb negb]; destruct (a_status a); cbn [negb andb orb];
      rewrite ?app_nil_r; auto; unfold output; cbn [m_stdin m_out]; (split; [reflexivity|]); rewrite <- shown_ok, !app_assoc; reflexivity.
Qed.

(** ** The loop *)
Definition inFile (own : option file) (m : mach) : file := match own with Some f => f | None => m_stdin m end.
Lemma loop_stop {A} k c (b : A -> res A) s : c s = false -> while_ k c b s = OK s.
Proof. intros E. destruct k; cbn [while_]; rewrite E; reflexivity. Qed.

Lemma oc_inv fs mask le sin l ls os : Outcomes fs mask le sin (l :: ls) os -> exists o os', os = o :: os' /\
  (~ short_enough l /\ o = OTooLong /\ Outcomes fs mask le sin ls os' \/
   short_enough l /\ comment (fst l) /\ o = OComment /\ Outcomes fs mask le sin ls os' \/
   short_enough l /\ ~ comment (fst l) /\ (forall a canon name, ~ Accepts mask le (text_of (fst l)) a canon name) /\ o = OBad /\ Outcomes fs mask le sin ls os' \/
   short_enough l /\ ~ comment (fst l) /\ exists a canon name, Accepts mask le (text_of (fst l)) a canon name /\
     match source fs sin name with
     | None => o = OMissing name /\ Outcomes fs mask le sin ls os'
     | Some f => (f_err f = true /\ o = OReadError \/ f_err f = false /\ (canon = digest a (f_content f) /\ o = OMatch name \/ canon <> digest a (f_content f) /\ o = OMismatch name))
                 /\ Outcomes fs mask le (sin_after sin name) ls os'
     end).
Proof.
  intros H. inversion H as [|? ? ? os' S OC|? ? ? os' S C OC|? ? ? os' S C N OC|? ? ? os' a canon name S C A F OC|? ? ? os' a canon name f S C A F E OC
    |? ? ? os' a canon name f S C A F E D OC|? ? ? os' a canon name f S C A F E D OC]; subst; do 2 eexists; (split; [reflexivity|]).
  - left. auto.
  - right. left. auto.
  - right. right. left. auto.
  - right. right. right. split; [exact S|]. split; [exact C|]. exists a, canon, name. split; [exact A|]. rewrite F. auto.
  - right. right. right. split; [exact S|]. split; [exact C|]. exists a, canon, name. split; [exact A|]. rewrite F. auto.
  - right. right. right. split; [exact S|]. split; [exact C|]. eexists a, _, name. split; [exact A|]. rewrite F. split; [|exact OC]. right. split; [exact E|]. left. split; reflexivity.
  - right. right. right. split; [exact S|]. split; [exact C|]. exists a, canon, name. split; [exact A|]. rewrite F. auto 6.
Qed.

Lemma parse_loop e a le : env_ok e -> forall k own b block done m sin os,
  1 <= zlen b <= 32768 -> zlen block = 65536 -> file_ok (m_stdin m) ->
  Outcomes (e_fs e) (a_mask a) le sin (lines_of (f_content (inFile own m))) os ->
  (own <> None -> sin = m_stdin m) -> (own = None -> ~ names_stdin (a_mask a) le (lines_of (f_content (m_stdin m)))) ->
  (List.length (f_content (inFile own m)) < k)%nat -> zlen done + zlen os + 1 < 2 ^ e_ulbits e ->
  exists s' os1 os2, while_ k (fun s => negb (quit (p_rep s)) && negb (p_break s)) (parseFile1_body e a le)
      (PState own (Some b) (zlen b) block (rep_of (a_ignoreMissing a) done false) (zlen done) m false false) = OK s' /\
    os = os1 ++ os2 /\ Forall goes_on os1 /\
    m_out (p_m s') = m_out m ++ says (a_name a) (e_strerror e) (a_status a) (a_ignoreMissing a) (a_quiet a) (zlen done + 1) os1 /\
    file_ok (m_stdin (p_m s')) /\ (own <> None -> ~ names_stdin (a_mask a) le (lines_of (f_content (inFile own m))) -> m_stdin (p_m s') = m_stdin m) /\
    (os2 = [] /\ p_exit s' = false /\ p_rep s' = rep_of (a_ignoreMissing a) (done ++ os1) false \/
     (malloc_fails e \/ exists r, os2 = OTooLong :: r) /\ p_exit s' = false /\ p_rep s' = rep_of (a_ignoreMissing a) (done ++ os1) true \/
     (exists r, os2 = OReadError :: r) /\ p_exit s' = true).
Proof.
  intros EO. induction k as [|k IH]; intros own b block done m sin os LB LBL FS OC HS NS K UL; [lia|].
  cbn [while_]. cbn [p_rep rep_of quit p_break negb andb].
  unfold parseFile1_body at 1. pose proof (zlen_nonneg done) as ZD. pose proof (zlen_nonneg os) as ZO.
  rewrite (incr_small e (zlen done)) by (trivial; lia). rewrite (proj2 (Z.eqb_neq (zlen done + 1) 0)) by lia.
  change (match own with Some f => f | None => m_stdin m end) with (inFile own m). set (fin := inFile own m) in *.
  destruct (getLine_ok e m b (zlen b) fin EO eq_refl LB) as (g & b' & f' & m' & -> & LB' & IO & ER & (pre & EP) & G). cbn [bind].
  destruct IO as [IOs IOo].
  set (own' := match own with Some _ => Some f' | None => None end). set (m2 := match own with Some _ => m' | None => Mach f' (m_out m') (m_tick m') end).
  replace (match own with Some _ => (Some f', m') | None => (None, Mach f' (m_out m') (m_tick m')) end) with (own', m2) by (unfold own', m2; destruct own; reflexivity).
  assert (EI : inFile own' m2 = f') by (unfold inFile, own', m2; destruct own; reflexivity).
  assert (OM : m_out m2 = m_out m) by (unfold m2; destruct own; exact IOo).
  assert (FS2 : file_ok (m_stdin m2)).
  { unfold m2. destruct own; [rewrite IOs; exact FS|]. cbn [m_stdin]. exact (file_ok_suffix _ _ _ EP FS). }
  assert (HS2 : own' <> None -> sin = m_stdin m2).
  { intros H. unfold own', m2 in *. destruct own; [|congruence]. rewrite IOs. apply HS. discriminate. }
  assert (SI : own <> None -> m_stdin m2 = m_stdin m) by (intros H; unfold m2; destruct own; [exact IOs|congruence]).
  (* the continuation *)
  assert (NEXT : forall l os' o block2 m3 sin3 b3, lines_of (f_content fin) = l :: lines_of (f_content f') ->
     (List.length (f_content f') < List.length (f_content fin))%nat -> os = o :: os' -> goes_on o ->
     zlen b3 = zlen b' -> zlen block2 = 65536 -> file_ok (m_stdin m3) -> (own = None -> m_stdin m3 = f') ->
     (own <> None -> sin3 = m_stdin m3) ->
     (own <> None -> ~ names_stdin (a_mask a) le (lines_of (f_content (inFile own m))) -> m_stdin m3 = m_stdin m) ->
     Outcomes (e_fs e) (a_mask a) le sin3 (lines_of (f_content f')) os' ->
     m_out m3 = m_out m ++ say (a_name a) (e_strerror e) (a_status a) (a_ignoreMissing a) (a_quiet a) (zlen done + 1) o ->
     exists s' os1 os2, while_ k (fun s => negb (quit (p_rep s)) && negb (p_break s)) (parseFile1_body e a le)
      (PState own' (Some b3) (zlen b') block2 (rep_of (a_ignoreMissing a) (done ++ [o]) false) (zlen done + 1) m3 false false) = OK s' /\
      os = os1 ++ os2 /\ Forall goes_on os1 /\
      m_out (p_m s') = m_out m ++ says (a_name a) (e_strerror e) (a_status a) (a_ignoreMissing a) (a_quiet a) (zlen done + 1) os1 /\
    file_ok (m_stdin (p_m s')) /\ (own <> None -> ~ names_stdin (a_mask a) le (lines_of (f_content (inFile own m))) -> m_stdin (p_m s') = m_stdin m) /\
      (os2 = [] /\ p_exit s' = false /\ p_rep s' = rep_of (a_ignoreMissing a) (done ++ os1) false \/
       (malloc_fails e \/ exists r, os2 = OTooLong :: r) /\ p_exit s' = false /\ p_rep s' = rep_of (a_ignoreMissing a) (done ++ os1) true \/
       (exists r, os2 = OReadError :: r) /\ p_exit s' = true)).
  { intros l os' o block2 m3 sin3 b3 EL LT EO' GO LB3 LBL2 FS3 HN3 HS3 HQ3 OC3 OM3.
    assert (EI3 : inFile own' m3 = f') by (unfold own'; destruct own; [reflexivity|exact (HN3 eq_refl)]).
    destruct (IH own' b3 block2 (done ++ [o]) m3 sin3 os') as (s' & os1 & os2 & E & EOS & FO & EOUT & FS' & HQ & D).
    { rewrite LB3. lia. } { exact LBL2. } { exact FS3. } { rewrite EI3. exact OC3. }
    { intros H. apply HS3. unfold own' in H. destruct own; congruence. }
    { intros H. assert (own = None) as EN by (unfold own' in H; destruct own; congruence). rewrite (HN3 EN). intros (l' & al & cn & I & A). apply (NS EN).
      exists l', al, cn. split; [|exact A]. unfold fin in EL. rewrite EN in EL. cbn [inFile] in EL. rewrite EL. right. exact I. }
    { rewrite EI3. lia. }
    { rewrite zlen_app. change (zlen [o]) with 1. rewrite EO', zlen_cons in UL. lia. }
    rewrite LB3 in E. rewrite zlen_app in E, EOUT. change (zlen [o]) with 1 in E, EOUT.
    exists s', (o :: os1), os2. split; [exact E|]. split; [rewrite EO', EOS; reflexivity|]. split; [constructor; assumption|].
    split; [rewrite EOUT, OM3; cbn [says]; rewrite <- app_assoc; reflexivity|].
    split; [exact FS'|]. split; [|rewrite <- app_assoc in D; exact D].
    intros H HN. rewrite <- HQ3 by assumption. apply HQ; [unfold own'; destruct own; congruence|]. rewrite EI3. intros (l' & al & cn & I & A). apply HN.
    exists l', al, cn. split; [|exact A]. fold fin. rewrite EL. right. exact I. }
  assert (OL : forall l ls', lines_of (f_content fin) = l :: ls' -> exists o os', os = o :: os') by (intros l ls' E; rewrite E in OC; inversion OC; eauto).
  destruct g.
  - (* a line *)
    destruct G as (l & t & w & EL & SH & -> & HC & LT). rewrite EL in OC.
    assert (NC : ~ comment l) by (intros C; apply HC in C; discriminate).
    destruct (text_of_split l w) as (w' & ET). destruct (parseLine_ok (text_of l) w' le (a_mask a) (text_of_nul_free l)) as (r & b3 & EPL & LB3 & HR).
    rewrite ET. rewrite EPL. cbn [bind].
    assert (LB3' : zlen b3 = zlen (l ++ 0 :: w)) by (rewrite ET; exact LB3). rewrite <- ET.
    destruct r as [[[al canon] i]|].
    + destruct HR as (name & -> & HA). cbn [bind].
      destruct (Accepts_canon _ _ _ _ _ _ HA) as [BC LC].
      destruct (verifyLine_ok e m2 block name al canon EO LBL FS2 BC LC) as (r & block' & m3 & -> & LBL' & FS3 & OM3 & HV). cbn [bind].
      assert (NST : own = None -> name <> str "stdin").
      { intros EN ->. apply (NS EN). exists (l, t), al, canon. split; [|exact HA]. unfold fin in EL. rewrite EN in EL. cbn [inFile] in EL. rewrite EL. left. reflexivity. }
      assert (SRC : source (e_fs e) (m_stdin m2) name = source (e_fs e) sin name).
      { destruct own; [rewrite <- HS2 by discriminate; reflexivity|]. unfold source. rewrite eqb_list_neq by (apply NST; reflexivity). reflexivity. }
      rewrite SRC in HV.
      assert (AFT : own <> None -> sin_after (m_stdin m2) name = sin_after sin name).
      { intros H. rewrite <- HS2; [reflexivity|]. unfold own'. destruct own; congruence. }
      assert (AFN : own = None -> sin_after (m_stdin m2) name = f').
      { intros EN. unfold sin_after. rewrite eqb_list_neq by (apply NST, EN). unfold m2. rewrite EN. reflexivity. }
      assert (AFI : own <> None -> ~ names_stdin (a_mask a) le (lines_of (f_content (inFile own m))) -> sin_after (m_stdin m2) name = m_stdin m).
      { intros H HN. unfold sin_after. rewrite eqb_list_neq; [apply SI, H|]. intros ->. apply HN. exists (l, t), al, canon. split; [|exact HA]. fold fin. rewrite EL. left. reflexivity. }
      assert (SN : own = None -> m_stdin m2 = f') by (intros EN; unfold m2; rewrite EN; reflexivity).
      apply oc_inv in OC as (o & os' & -> & [(N1 & _)|[(_ & C1 & _)|[(_ & _ & N1 & _)|(_ & _ & al' & cn' & nm' & A' & OC)]]]);
        [contradiction|contradiction|exfalso; exact (N1 _ _ _ HA)|].
      cbn [fst] in A'. destruct (Accepts_det _ _ _ _ _ _ _ _ _ HA A') as (Qa & Qc & Qn). subst al' cn' nm'.
      destruct (source (e_fs e) sin name) as [f0|].
      2:{ destruct OC as [-> OC']. destruct HV as [-> SM3].
        destruct (lineReport_ok e a m3 done (OMissing name) failedToOpen name EO eq_refl ltac:(lia)) as (m4 & -> & SM4 & OM4).
        eapply NEXT; [exact EL|exact LT|reflexivity|exact I|exact LB3'|exact LBL'|rewrite SM4; exact FS3| | | |exact OC'|].
        -- intros EN. rewrite SM4, SM3. apply SN, EN.
        -- intros H. rewrite SM4, SM3. apply HS2. unfold own'. destruct own; congruence.
        -- intros H _. rewrite SM4, SM3. apply SI, H.
        -- rewrite OM4, OM3, OM. reflexivity. }
      destruct OC as [[[E' ->]|[E' [[D' ->]|[D' ->]]]] OC'].
      * destruct HV as [SM3 [[_ ->]|[H _]]]; [|congruence]. cbn [bind]; rewrite loop_stop by reflexivity.
        do 2 eexists. exists (OReadError :: os'). split; [reflexivity|]. split; [|split; [constructor|]]; [reflexivity|]. cbn [p_m says]. rewrite app_nil_r.
        split; [congruence|]. split; [exact FS3|]. split; [intros H HN; rewrite SM3; apply AFI; assumption|]. right. right. split; [eauto|reflexivity].
      * destruct HV as [SM3 [[H _]|[_ [[-> _]|[_ H]]]]]; [congruence| |congruence].
        destruct (lineReport_ok e a m3 done (OMatch name) hashOk name EO eq_refl ltac:(lia)) as (m4 & -> & SM4 & OM4).
        eapply NEXT; [exact EL|exact LT|reflexivity|exact I|exact LB3'|exact LBL'|rewrite SM4; exact FS3| | | |exact OC'|].
        -- intros EN. rewrite SM4, SM3. apply AFN, EN.
        -- intros H. rewrite SM4, SM3. symmetry. apply AFT, H.
        -- intros H HN. rewrite SM4, SM3. apply AFI; assumption.
        -- rewrite OM4, OM3, OM. reflexivity.
      * destruct HV as [SM3 [[H _]|[_ [[_ H]|[-> _]]]]]; [congruence|contradiction|].
        destruct (lineReport_ok e a m3 done (OMismatch name) hashFailed name EO eq_refl ltac:(lia)) as (m4 & -> & SM4 & OM4).
        eapply NEXT; [exact EL|exact LT|reflexivity|exact I|exact LB3'|exact LBL'|rewrite SM4; exact FS3| | | |exact OC'|].
        -- intros EN. rewrite SM4, SM3. apply AFN, EN.
        -- intros H. rewrite SM4, SM3. symmetry. apply AFT, H.
        -- intros H HN. rewrite SM4, SM3. apply AFI; assumption.
        -- rewrite OM4, OM3, OM. reflexivity.
    + apply oc_inv in OC as (o & os' & -> & [(N1 & _)|[(_ & C1 & _)|[(_ & _ & _ & -> & OC')|(_ & _ & al' & cn' & nm' & A' & _)]]]);
        [contradiction|contradiction| |exfalso; exact (HR _ _ _ A')].
      replace (add_improper e (rep_of (a_ignoreMissing a) done false)) with (rep_of (a_ignoreMissing a) (done ++ [OBad]) false).
      2:{ unfold rep_of. rewrite !count_app, !count_1. cbn [is_proper is_bad is_mismatch is_match is_missing orb add_improper]. rewrite !Z.add_0_r.
          pose proof (count_range is_bad done). rewrite incr_small by (trivial; lia). reflexivity. }
      eapply NEXT; [exact EL|exact LT|reflexivity|exact I|exact LB3'|exact LBL|exact FS2| | | |exact OC'|].
      * intros EN. unfold m2. rewrite EN. reflexivity.
      * intros H. apply HS2. unfold own'. destruct own; congruence.
      * intros H _. apply SI, H.
      * rewrite OM. cbn [say]. rewrite app_nil_r. reflexivity.
  - (* a comment *)
    destruct G as (l & t & w & EL & SH & -> & HC & LT). rewrite EL in OC. assert (C : comment l) by (apply HC; reflexivity).
    apply oc_inv in OC as (o & os' & -> & [(N1 & _)|[(_ & _ & -> & OC')|[(_ & N1 & _)|(_ & N1 & _)]]]); try contradiction.
    replace (rep_of (a_ignoreMissing a) done false) with (rep_of (a_ignoreMissing a) (done ++ [OComment]) false)
      by (unfold rep_of; rewrite !count_app, !count_1; cbn [is_proper is_bad is_mismatch is_match is_missing orb]; rewrite !Z.add_0_r; reflexivity).
    eapply NEXT; [exact EL|exact LT|reflexivity|exact I|reflexivity|exact LBL|exact FS2| | | |exact OC'|].
    + intros EN. unfold m2. rewrite EN. reflexivity.
    + intros H. apply HS2. unfold own'. destruct own; congruence.
    + intros H _. apply SI, H.
    + rewrite OM. cbn [say]. rewrite app_nil_r. reflexivity.
  - (* the end *)
    destruct G as [E0 _]. rewrite E0 in OC. assert (os = []) as -> by (inversion OC; reflexivity). cbn [bind]; rewrite loop_stop by reflexivity.
    do 2 eexists. exists []. split; [reflexivity|]. split; [|split; [constructor|]]; [reflexivity|]. cbn [p_m says]. rewrite app_nil_r. split; [exact OM|]. split; [exact FS2|]. split; [intros H _; apply SI, H|].
    left. rewrite app_nil_r. auto.
  - (* too long *)
    destruct G as (l & t & ls & EL & SH). rewrite EL in OC. apply oc_inv in OC as (o & os' & -> & [(_ & -> & OC')|[(N1 & _)|[(N1 & _)|(N1 & _)]]]); try contradiction. cbn [bind]; rewrite loop_stop by reflexivity.
    do 2 eexists. exists (OTooLong :: os'). split; [reflexivity|]. split; [|split; [constructor|]]; [reflexivity|]. cbn [p_m says]. rewrite app_nil_r. split; [exact OM|]. split; [exact FS2|]. split; [intros H _; apply SI, H|].
    right. left. rewrite app_nil_r. split; [right; eauto|auto].
  - cbn [bind]; rewrite loop_stop by reflexivity.
    do 2 eexists. exists os. split; [reflexivity|]. split; [|split; [constructor|]]; [reflexivity|]. cbn [p_m says]. rewrite app_nil_r. split; [exact OM|]. split; [exact FS2|]. split; [intros H _; apply SI, H|].
    right. left. rewrite app_nil_r. split; [left; exact G|auto].
Qed.

(** ** The verdict *)
Lemma count_pos p os : count p os <> 0 <-> exists o, In o os /\ p o = true.
Proof.
  split.
  - intros H. destruct (existsb p os) eqn:E; [apply existsb_exists in E; exact E|]. exfalso. apply H, count_0. intros o I.
    destruct (p o) eqn:P; [|reflexivity]. assert (existsb p os = true) by (apply existsb_exists; eauto). congruence.
  - intros (o & I & P) E. rewrite count_0 in E. rewrite (E o I) in P. discriminate.
Qed.
Definition success (strict im : bool) (r : report) : bool :=
  negb (nProperlyFormattedLines r =? 0) && (nMismatchedChecksums r =? 0) && (nOpenOrReadFailures r =? 0)
  && (negb strict || (nImproperlyFormattedLines r =? 0)) && negb (quit r) && negb (im && (nMatchedChecksums r =? 0)).
Lemma success_ok strict im os : Forall goes_on os -> (success strict im (rep_of im os false) = true <-> Verdict strict im os).
Proof.
  intros G. unfold success, Verdict, rep_of. cbn [nProperlyFormattedLines nMismatchedChecksums nOpenOrReadFailures nImproperlyFormattedLines nMatchedChecksums quit].
  rewrite !andb_true_iff, !negb_true_iff, orb_true_iff, negb_true_iff, !Z.eqb_eq, Z.eqb_neq. rewrite Forall_forall in G.
  assert (P : count is_proper os <> 0 <-> exists o, In o os /\ well_formed o).
  { rewrite count_pos. split; intros (o & I & H); exists o; (split; [exact I|]); specialize (G o I); destruct o; cbn in *; trivial; try discriminate; contradiction. }
  assert (M : count is_mismatch os = 0 <-> forall name, ~ In (OMismatch name) os).
  { rewrite count_0. split; [intros H name I; specialize (H _ I); discriminate|]. intros H o I. destruct o; try reflexivity. exfalso. exact (H _ I). }
  assert (X : (if im then 0 else count is_missing os) = 0 <-> (im = false -> forall name, ~ In (OMissing name) os)).
  { destruct im; [split; [intros _ ?; discriminate|reflexivity]|]. rewrite count_0. split; [intros H _ name I; specialize (H _ I); discriminate|].
    intros H o I. destruct o; try reflexivity. exfalso. exact (H eq_refl _ I). }
  assert (B : strict = false \/ count is_bad os = 0 <-> (strict = true -> ~ In OBad os)).
  { rewrite count_0. split; [intros [->|H] S I; [discriminate|]; specialize (H _ I); discriminate|]. intros H. destruct strict; [right|left; reflexivity].
    intros o I. destruct o; try reflexivity. exfalso. exact (H eq_refl I). }
  assert (K : im && (count is_match os =? 0) = false <-> (im = true -> exists name, In (OMatch name) os)).
  { destruct im; cbn [andb]; [|split; [intros _ ?; discriminate|reflexivity]]. rewrite Z.eqb_neq, count_pos. split.
    - intros (o & I & H) _. destruct o; try discriminate. eauto.
    - intros H. destruct (H eq_refl) as (n & I). exists (OMatch n). auto. }
  rewrite P, M, X, B, K. split.
  - intros (((((H1 & H2) & H3) & H4) & _) & H5). split; [intros I; exact (G _ I)|]. split; [intros I; exact (G _ I)|]. auto.
  - intros (_ & _ & H1 & H2 & H3 & H4 & H5). auto 8.
Qed.
Lemma processed_app os1 os2 : Forall goes_on os1 -> processed (os1 ++ os2) = os1 ++ processed os2 /\ aborts (os1 ++ os2) = aborts os2.
Proof.
  induction 1 as [|o os1 G _ [IH1 IH2]]; [split; reflexivity|]. cbn [app]. destruct o; try contradiction; cbn [processed aborts]; rewrite IH1, IH2; split; reflexivity.
Qed.
Lemma closing_ok a os q : zlen os < 10 ^ 20 -> summary a (rep_of (a_ignoreMissing a) os q) ++ (if a_ignoreMissing a && (count is_match os =? 0) then a_name a ++ str ": no file was verified" ++ [LF] else [])
  = closing (a_name a) (a_status a) (a_ignoreMissing a) os.
Proof.
  intros L. pose proof (count_range is_bad os). pose proof (count_range is_missing os). pose proof (count_range is_mismatch os).
  unfold summary, closing, rep_of, tally. cbn [nProperlyFormattedLines nMismatchedChecksums nOpenOrReadFailures nImproperlyFormattedLines nMatchedChecksums quit].
  f_equal. destruct (count is_proper os =? 0); [reflexivity|]. cbn [orb]. destruct (a_status a); [reflexivity|]. unfold LF.
  rewrite !numeral_ok by (try destruct (a_ignoreMissing a); lia). f_equal; [|f_equal].
  - destruct (count is_bad os =? 0); [reflexivity|]. destruct (count is_bad os =? 1); reflexivity.
  - destruct ((if a_ignoreMissing a then 0 else count is_missing os) =? 0); [reflexivity|]. destruct (_ =? 1); reflexivity.
  - destruct (count is_mismatch os =? 0); [reflexivity|]. destruct (count is_mismatch os =? 1); reflexivity.
Qed.
Lemma Outcomes_len fs mask le ls : forall sin os, Outcomes fs mask le sin ls os -> zlen os = zlen ls.
Proof. induction ls as [|l ls IH]; intros sin os H; inversion H; subst; rewrite ?zlen_cons; [reflexivity|f_equal; eapply IH; eassumption..]. Qed.

Definition listed (e : env) (m : mach) (n : fname) : option file := match n with Stdin => Some (m_stdin m) | Named n => e_fs e n end.
Definition listname (n : fname) : list Z := match n with Stdin => str "stdin" | Named n => n end.
(** what [checkFile] does, with any behaviour of malloc *)
Theorem checkFile_all e m n de strict st im warn q mask f os : env_ok e -> file_ok (m_stdin m) -> listed e m n = Some f ->
  Outcomes (e_fs e) mask (is_le de) (m_stdin m) (lines_of (f_content f)) os ->
  (n = Stdin -> ~ names_stdin mask (is_le de) (lines_of (f_content f))) ->
  zlen (lines_of (f_content f)) + 1 < 2 ^ e_ulbits e ->
  exists r m', checkFile e m n de strict st im warn q mask = OK (r, m') /\ file_ok (m_stdin m') /\
    (n <> Stdin -> ~ names_stdin mask (is_le de) (lines_of (f_content f)) -> m_stdin m' = m_stdin m) /\
    (malloc_fails e /\ r <> Some 1 \/
     r = (if aborts os then None else Some (if success strict im (rep_of im (processed os) (negb (zlen (processed os) =? zlen os))) then 1 else 0)) /\
     m_out m' = m_out m ++ says (listname n) (e_strerror e) st im q 1 (processed os) ++ (if aborts os then [] else closing (listname n) st im (processed os))).
Proof.
  intros EO FS LF' OC NS UL. unfold checkFile.
  set (own := match n with Stdin => None | Named _ => Some f end).
  replace (match n with Stdin => Some (None, stdinFileName) | Named n => match e_fs e n with None => None | Some f => Some (Some f, n) end end) with (Some (own, listname n))
    by (unfold own; destruct n as [|nm]; cbn [listed listname] in *; [reflexivity|rewrite LF'; reflexivity]).
  unfold malloc. cbn [fst snd]. 
  set (m2 := tick (tick m)).
  destruct (e_malloc e (m_tick m) DEFAULT_LINE_LENGTH) as [b|] eqn:M1.
  2:{ exists None, m2. split; [reflexivity|]. split; [exact FS|]. split; [reflexivity|]. left. split; [do 2 eexists; split; [|exact M1]; unfold DEFAULT_LINE_LENGTH; lia|discriminate]. }
  destruct (e_malloc e (m_tick (tick m)) 65536) as [block|] eqn:M2.
  2:{ exists None, m2. split; [reflexivity|]. split; [exact FS|]. split; [reflexivity|]. left. split; [do 2 eexists; split; [|exact M2]; lia|discriminate]. }
  apply (eo_malloc e EO) in M1, M2; [|lia|unfold DEFAULT_LINE_LENGTH; lia]. unfold parseFile1. cbn [p_own p_m p_lineBuf p_lineMax p_block].
  set (a := PArgs (listname n) strict st im warn q mask).
  assert (EI : inFile own m2 = f) by (unfold own; destruct n; cbn [listed] in LF'; [injection LF' as <-; reflexivity|reflexivity]).
  change (match own with Some f => f | None => m_stdin m2 end) with (inFile own m2). rewrite EI.
  rewrite <- M1. change (Report 0 0 0 0 0 0 false) with (Report 0 0 0 0 0 0 false).
  replace (Report 0 0 0 0 0 0 false) with (rep_of (a_ignoreMissing a) [] false) by (unfold rep_of; destruct (a_ignoreMissing a); reflexivity).
  destruct (parse_loop e a (is_le de) EO (S (List.length (f_content f))) own b block [] m2 (m_stdin m) os) as (s' & os1 & os2 & E & EOS & FO & EOUT & FS' & HQ & D).
  { rewrite M1. unfold DEFAULT_LINE_LENGTH. lia. } { exact M2. } { exact FS. } { rewrite EI. exact OC. } { reflexivity. }
  { intros H. replace (m_stdin m2) with f; [|rewrite <- EI, H; reflexivity]. apply NS. unfold own in H. destruct n; [reflexivity|discriminate]. }
  { rewrite EI. lia. } { change (zlen []) with 0. rewrite (Outcomes_len _ _ _ _ _ _ OC). lia. }
  change (match de with big_endian => false | little_endian => true end) with (is_le de). change (zlen []) with 0 in E. rewrite E. cbn [bind].
  assert (HQ' : n <> Stdin -> ~ names_stdin mask (is_le de) (lines_of (f_content f)) -> m_stdin (p_m s') = m_stdin m).
  { intros H HN. apply HQ; [unfold own; destruct n; [congruence|discriminate]|]. rewrite EI. exact HN. }
  cbn [app] in D. change (zlen [] + 1) with 1 in EOUT. cbn [a_name a_status a_ignoreMissing a_quiet a] in EOUT, D. change (m_out m2) with (m_out m) in EOUT.
  assert (L20 : zlen os1 < 10 ^ 20).
  { pose proof (Outcomes_len _ _ _ _ _ _ OC) as LO. rewrite EOS, zlen_app in LO. pose proof (zlen_nonneg os2).
    destruct (eo_ul e EO) as [U|U]; rewrite U in UL; lia. }
  assert (FIN : forall qq, p_exit s' = false -> p_rep s' = rep_of im os1 qq -> exists m', (if p_exit s' then OK (None, p_m s')
     else let r := p_rep s' in let m := output (p_m s') (summary a r) in
       let result := negb (nProperlyFormattedLines r =? 0) && (nMismatchedChecksums r =? 0) && (nOpenOrReadFailures r =? 0)
          && (negb strict || (nImproperlyFormattedLines r =? 0)) && negb (quit r) in
       if im && (nMatchedChecksums r =? 0) then OK (Some 0, output m (listname n ++ str ": no file was verified" ++ [LF]))
       else OK (Some (if result then 1 else 0), m)) = OK (Some (if success strict im (rep_of im os1 qq) then 1 else 0), m') /\ m_stdin m' = m_stdin (p_m s') /\
       m_out m' = m_out m ++ says (listname n) (e_strerror e) st im q 1 os1 ++ closing (listname n) st im os1).
  { intros qq HE HR. rewrite HE. cbv zeta. pose proof (closing_ok a os1 qq L20) as CL. cbn [a_ignoreMissing a_status a_name a] in CL. rewrite <- CL, HR. clear CL. unfold success.
    change (nMatchedChecksums (rep_of im os1 qq)) with (count is_match os1). destruct (im && (count is_match os1 =? 0)) eqn:EM.
    - eexists. cbn [negb]. rewrite andb_false_r. split; [reflexivity|]. split; [reflexivity|]. unfold output. cbn [m_out]. rewrite EOUT, <- !app_assoc. reflexivity.
    - eexists. cbn [negb]. rewrite andb_true_r. split; [reflexivity|]. split; [reflexivity|]. unfold output. cbn [m_out]. rewrite app_nil_r, EOUT, <- !app_assoc. reflexivity. }
  destruct (processed_app os1 os2 FO) as [PA AB]. rewrite <- EOS in PA, AB.
  destruct D as [(-> & HE & HR)|[(C & HE & HR)|((r & ->) & HE)]].
  - destruct (FIN false HE HR) as (m' & EF & SM & OM). do 2 eexists. split; [exact EF|]. rewrite SM. split; [exact FS'|]. split; [exact HQ'|].
    right. cbn [processed aborts] in PA, AB. rewrite app_nil_r in PA, EOS. rewrite AB, PA, EOS, Z.eqb_refl. cbn [negb]. split; [reflexivity|exact OM].
  - destruct (FIN true HE HR) as (m' & EF & SM & OM). do 2 eexists. split; [exact EF|]. rewrite SM. split; [exact FS'|]. split; [exact HQ'|].
    destruct C as [C|(r & ->)].
    + left. split; [exact C|]. unfold success. cbn [rep_of quit negb]. rewrite andb_false_r. cbn [andb]. discriminate.
    + right. cbn [processed aborts] in PA, AB. rewrite app_nil_r in PA. rewrite AB, PA.
      replace (negb (zlen os1 =? zlen os)) with true; [split; [reflexivity|exact OM]|]. symmetry. apply negb_true_iff, Z.eqb_neq. rewrite EOS, zlen_app, zlen_cons. pose proof (zlen_nonneg r). lia.
  - rewrite HE. do 2 eexists. split; [reflexivity|]. split; [exact FS'|]. split; [exact HQ'|]. right. cbn [processed aborts] in PA, AB. rewrite app_nil_r in PA.
    rewrite AB, PA, app_nil_r. split; [reflexivity|exact EOUT].
Qed.
Lemma processed_all os : (zlen (processed os) = zlen os <-> Forall goes_on os) /\ (Forall goes_on os -> processed os = os) /\ zlen (processed os) <= zlen os.
Proof.
  induction os as [|o os (IH1 & IH2 & IH3)]; [split; [split; [constructor|reflexivity]|split; [reflexivity|cbn; lia]]|].
  pose proof (zlen_nonneg os).
  destruct o; cbn [processed]; rewrite ?zlen_cons; (split; [|split; [|try change (zlen []) with 0; lia]]);
    try (split; [intros E; constructor; [exact I|apply IH1; lia]|intros F; inversion F; subst; f_equal; apply IH1; assumption]);
    try (intros F; inversion F; subst; f_equal; apply IH2; assumption);
    try (intros F; inversion F; contradiction);
    (split; [change (zlen []) with 0; lia|intros F; inversion F; contradiction]).
Qed.
Lemma verdict_goes strict im os : Verdict strict im os -> Forall goes_on os.
Proof. intros (A & B & _). apply Forall_forall. intros o I. destruct o; cbn; trivial; contradiction. Qed.
Lemma success_verdict strict im os :
  success strict im (rep_of im (processed os) (negb (zlen (processed os) =? zlen os))) = true <-> Verdict strict im os.
Proof.
  destruct (processed_all os) as (P1 & P2 & _). destruct (Z.eqb_spec (zlen (processed os)) (zlen os)) as [E|N]; cbn [negb].
  - apply P1 in E. rewrite (P2 E). apply success_ok, E.
  - split; [unfold success; cbn [rep_of quit negb]; rewrite andb_false_r; discriminate|]. intros V. exfalso. apply N, P1. exact (verdict_goes _ _ _ V).
Qed.
Lemma aborts_goes os : Forall goes_on os -> aborts os = false.
Proof. induction 1 as [|o os G _ IH]; [reflexivity|]. destruct o; try contradiction; exact IH. Qed.
(** the result is 1 only if the verdict is good, and it is 1 whenever the verdict is good unless memory ran out *)
Theorem checkFile_verdict e m n de strict st im warn q mask f os : env_ok e -> file_ok (m_stdin m) -> listed e m n = Some f ->
  Outcomes (e_fs e) mask (is_le de) (m_stdin m) (lines_of (f_content f)) os ->
  (n = Stdin -> ~ names_stdin mask (is_le de) (lines_of (f_content f))) ->
  zlen (lines_of (f_content f)) + 1 < 2 ^ e_ulbits e ->
  exists r m', checkFile e m n de strict st im warn q mask = OK (r, m') /\ (r = Some 1 -> Verdict strict im os) /\
    (~ malloc_fails e -> (r = Some 1 <-> Verdict strict im os) /\ (r = None <-> aborts os = true) /\ (r = None \/ r = Some 0 \/ r = Some 1) /\
      m_out m' = m_out m ++ says (listname n) (e_strerror e) st im q 1 (processed os) ++ (if aborts os then [] else closing (listname n) st im (processed os))).
Proof.
  intros EO FS LF' OC NS UL. destruct (checkFile_all e m n de strict st im warn q mask f os EO FS LF' OC NS UL) as (r & m' & E & _ & _ & D).
  exists r, m'. split; [exact E|].
  assert (X : r = (if aborts os then None else Some (if success strict im (rep_of im (processed os) (negb (zlen (processed os) =? zlen os))) then 1 else 0)) ->
     (r = Some 1 <-> Verdict strict im os) /\ (r = None <-> aborts os = true) /\ (r = None \/ r = Some 0 \/ r = Some 1)).
  { intros ->. pose proof (success_verdict strict im os) as SV. destruct (aborts os) eqn:AB.
    - split; [|split; [tauto|auto]]. split; [discriminate|]. intros V. apply verdict_goes, aborts_goes in V. congruence.
    - destruct (success _ _ _); (split; [|split; [split; discriminate|auto]]).
      + split; [tauto|reflexivity].
      + split; [discriminate|]. intros V. apply SV in V. discriminate. }
  destruct D as [[MF NR]|[HR HO]].
  - split; [contradiction|]. intros NM. contradiction.
  - destruct (X HR) as (X1 & X2 & X3). split; [tauto|]. intros _. auto.
Qed.
