(** Property theorems about lists put together from several runs, and the shell scripts of the tests: C102. *)
From Coq Require Import String.
From Verif Require Import Base Mem M_Cli M_Cli2 M_Cli3 SpecCli SpecCli2 SpecCli3 P_Base P_Cli P_Cli2 P_Cli3 P_Cli4 P_Cli5 P_Cli6 P_Cli7 P_Lists Properties8 Properties9.

(** ** C102 *)
(** A checksum file may be put together from the output of any number of runs, made at different times, in different styles and with
    different algorithms, from comment lines and, unless --strict is given, from lines of no known format.  Its check succeeds exactly if at
    least one file is listed, every listed file that is still there (with --ignore-missing) or every listed file (without) has the hash it had, and,
    with --ignore-missing, one of them is there.  This is the whole command, with any options. *)
Theorem C102_lists : forall e' console' m' exe' args' name' a' acc' s' list lf,
  env_ok e' -> file_ok (m_stdin m') -> nul_free exe' -> Forall nul_free args' -> total args' < 2 ^ 31 -> Basename exe' name' -> Personality name' a' acc' ->
  Options (default a') args' (Run s' [list]) -> g_ids s' = [] -> g_check s' = true -> e_fs e' list = Some lf ->
  exists mask, (forall x, Z.testbit mask (algo_num x) = true <-> In x acc') /\
  forall es k, Listing (g_strict s') mask (g_order s') (f_content lf) es k -> k + 1 < 2 ^ e_ulbits e' ->
  exists code m2, XSUM_main e' console' m' (exe' :: args') = OK (Exits code m2) /\
    (code = 0 -> Good (g_ignore s') e' es) /\ (~ malloc_fails e' -> Good (g_ignore s') e' es -> code = 0).
Proof.
  intros e' console' m' exe' args' name' a' acc' s' list lf EO' FS' NE' NA' TO' BN' PE' HO' GI' GC' LF.
  destruct (check_line e' console' m' exe' args' name' a' acc' s' [list] NE' NA' TO' BN' PE' HO' GI' GC' ltac:(left; discriminate)) as (mask & MB & EC).
  exists mask. split; [exact MB|]. intros es k H UL.
  destruct (listing_check e' m' list lf (g_order s') (g_strict s') (g_status s') (g_ignore s') (g_warn s') (0 <? g_quiet s') mask es k EO' FS' LF H UL) as (r & m2 & E & H1 & H2).
  destruct (check_one _ _ _ _ _ _ _ _ _ _ _ _ E) as (m3 & E3). rewrite E3 in EC. cbn [bind fst snd] in EC. eexists _, m3. split; [exact EC|]. split.
  - intros Q. apply H1. destruct (checkFile_codes _ _ _ _ _ _ _ _ _ _ _ _ E) as [->|[->| ->]]; [discriminate|discriminate|reflexivity].
  - intros NM' F. rewrite (H2 NM' F). reflexivity.
Qed.
Print Assumptions C102_lists.

(** ** The scripts *)
(** one command prints checksums, its output is put behind some lines, another command checks the result *)
Definition exits (e : env) (console : bool) (m : mach) (argv : list (list Z)) (code : Z) : Prop := exists m', XSUM_main e console m argv = OK (Exits code m').
Lemma script argv ns a conv argv' list im :
  (forall e console m, XSUM_main e console m argv = let! r := hashFiles e m ns a big_endian conv in OK (Exits match fst r with Some c => c | None => 1 end (snd r))) ->
  (forall e console m, XSUM_main e console m argv' = let! r := checkFiles e m [list] big_endian false false im false false 15 in OK (Exits match fst r with Some c => c | None => 1 end (snd r))) ->
  ns <> [] -> Forall nul_free ns -> Forall (fun n => n <> str "stdin" /\ 2 * zlen n + 65 < 32768) ns -> zlen ns + 3 < 2 ^ 32 ->
  forall e console m head, env_ok e -> file_ok (m_stdin m) -> ~ malloc_fails e -> m_out m = [] -> Forall (readable e) ns ->
  (head = [] \/ exists c, head = str "#" ++ c ++ [10] /\ ~ In 10 c /\ zlen c + 2 < 32768) ->
  exists m1, XSUM_main e console m argv = OK (Exits 0 m1) /\
  forall e' console' m' lf, env_ok e' -> file_ok (m_stdin m') -> ~ malloc_fails e' -> e_fs e' list = Some lf -> f_content lf = head ++ m_out m1 ->
  exists code, exits e' console' m' argv' code /\ (code = 0 <-> Good im e' (map (Entry e a) ns)).
Proof.
  intros A A' NE NN NS LN e console m head EO FS NM OM RD HD. destruct (run_readable e m ns a big_endian conv EO FS NM NN NE RD) as (m1 & EH & FO).
  exists m1. split; [rewrite A, EH; reflexivity|]. intros e' console' m' lf EO' FS' NM' LF C.
  assert (H : exists k, Listing false 15 big_endian (f_content lf) (map (Entry e a) ns) k /\ k + 1 < 2 ^ e_ulbits e').
  { pose proof (li_run false 15 big_endian e m ns a big_endian conv 0 m1 [] [] 0 EO FS NM OM NE NN NS ltac:(destruct a; reflexivity) ltac:(auto) EH (li_nil _ _ _)) as H.
    rewrite FO, !app_nil_r in H. assert (UL : 2 ^ 32 <= 2 ^ e_ulbits e') by (destruct (eo_ul e' EO') as [-> | ->]; [apply Z.le_refl|apply Z.leb_le; reflexivity]).
    rewrite C. destruct HD as [-> | (c & -> & N & L)].
    - exists (0 + zlen ns). split; [exact H|lia].
    - exists (0 + zlen ns + 1). split; [|lia]. rewrite <- !app_assoc. apply li_comment; assumption. }
  destruct H as (k & H & UL). destruct (listing_check e' m' list lf big_endian false false im false false 15 _ _ EO' FS' LF H UL) as (r & m2 & E & H1 & H2).
  destruct (check_one _ _ _ _ _ _ _ _ _ _ _ _ E) as (m3 & E3). eexists. split; [exists m3; rewrite A', E3; reflexivity|]. cbn [fst]. split.
  - intros Q. apply H1. destruct (checkFile_codes _ _ _ _ _ _ _ _ _ _ _ _ E) as [->|[->| ->]]; [discriminate|discriminate|reflexivity].
  - intros F. rewrite (H2 NM' F). reflexivity.
Qed.
Lemma good_one e' x im : Good im e' [x] <-> kept e' x.
Proof.
  split.
  - intros (_ & A & X). inversion A as [|? ? [K|[M G]] _]; subst; [exact K|]. specialize (X eq_refl). inversion X as [? ? K|? ? N]; subst; [exact K|inversion N].
  - intros K. split; [discriminate|]. split; [constructor; [left; exact K|constructor]|]. intros _. left. exact K.
Qed.

(** tests/cli-comment-line.sh:9-25: whatever is in Makefile, the four lists with a comment line in front pass if it does not change *)
Definition comment_runs : list (list (list Z) * algo * list Z) :=
  [([], algo_xxh64, str "./.test.xxh"); ([str "-H32"], algo_xxh32, str "./.test.xxh32"); ([str "-H64"], algo_xxh64, str "./.test.xxh64"); ([str "-H128"], algo_xxh128, str "./.test.xxh128")].
Lemma makefile_names n : In n [str "./Makefile"; str "Makefile"; str "./.test.makefile"; str "filename-escape-foo" ++ [10] ++ str "bar"] ->
  nul_free n /\ n <> str "stdin" /\ 2 * zlen n + 65 < 32768.
Proof. intros [<-|[<-|[<-|[<-|[]]]]]; (split; [intros I; vm_compute in I; lia|split; [discriminate|reflexivity]]). Qed.
Ltac names := repeat constructor; apply makefile_names; cbn [In]; auto.
Theorem C102_comment_line : forall opt a l e console m, In (opt, a, l) comment_runs -> env_ok e -> file_ok (m_stdin m) -> ~ malloc_fails e -> m_out m = [] -> readable e (str "./Makefile") ->
  exists m1, XSUM_main e console m (str "./xxhsum" :: opt ++ [str "./Makefile"]) = OK (Exits 0 m1) /\
  forall e' console' m' lf, env_ok e' -> file_ok (m_stdin m') -> ~ malloc_fails e' -> e_fs e' l = Some lf -> f_content lf = str "# Test comment line" ++ [10] ++ m_out m1 ->
  exists code, exits e' console' m' [str "./xxhsum"; str "--check"; l] code /\ (code = 0 <-> same_digest a e e' (str "./Makefile")).
Proof.
  intros opt a l e console m I EO FS NM OM RD.
  assert (S : exists m1, XSUM_main e console m (str "./xxhsum" :: opt ++ [str "./Makefile"]) = OK (Exits 0 m1) /\
    forall e' console' m' lf, env_ok e' -> file_ok (m_stdin m') -> ~ malloc_fails e' -> e_fs e' l = Some lf -> f_content lf = (str "#" ++ str " Test comment line" ++ [10]) ++ m_out m1 ->
    exists code, exits e' console' m' [str "./xxhsum"; str "--check"; l] code /\ (code = 0 <-> Good false e' (map (Entry e a) [str "./Makefile"]))).
  { apply (script _ _ _ display_gnu).
    - destruct I as [I|[I|[I|[I|[]]]]]; injection I as <- <- <-; reflexivity.
    - destruct I as [I|[I|[I|[I|[]]]]]; injection I as <- <- <-; reflexivity.
    - discriminate.
    - names.
    - names.
    - reflexivity.
    - exact EO.
    - exact FS.
    - exact NM.
    - exact OM.
    - constructor; [exact RD|constructor].
    - right. eexists. split; [reflexivity|]. split; [intros J; vm_compute in J; lia|reflexivity]. }
  destruct S as (m1 & E & H). exists m1. split; [exact E|]. intros e' console' m' lf EO' FS' NM' LF C. destruct (H e' console' m' lf EO' FS' NM' LF C) as (code & X & V).
  exists code. split; [exact X|]. rewrite V. apply good_one.
Qed.
Print Assumptions C102_comment_line.

(** tests/cli-ignore-missing.sh:8-53 *)
Theorem C102_ignore_missing : forall e console m, env_ok e -> file_ok (m_stdin m) -> ~ malloc_fails e -> m_out m = [] ->
  readable e (str "Makefile") -> readable e (str "./Makefile") -> readable e (str "./.test.makefile") ->
  exists m1 m2 m3, XSUM_main e console m [str "./xxhsum"; str "./Makefile"] = OK (Exits 0 m1) /\
    XSUM_main e console m [str "./xxhsum"; str "./.test.makefile"] = OK (Exits 0 m2) /\
    XSUM_main e console m [str "./xxhsum"; str "Makefile"; str "./.test.makefile"] = OK (Exits 0 m3) /\
  forall e' console' m' lf, env_ok e' -> file_ok (m_stdin m') -> ~ malloc_fails e' -> e_fs e' (str "./.test.xxh") = Some lf ->
    (* Normal *)
    (f_content lf = m_out m1 -> e_fs e' (str "./Makefile") = e_fs e (str "./Makefile") -> exits e' console' m' [str "./xxhsum"; str "--check"; str "./.test.xxh"] 0) /\
    (e_fs e' (str "./.test.makefile") = None ->
      (* Missing, expect error *)
      (f_content lf = m_out m2 -> exists code, code <> 0 /\ exits e' console' m' [str "./xxhsum"; str "--check"; str "./.test.xxh"] code) /\
      (* Missing, --ignore-missing *)
      (f_content lf = m_out m3 -> e_fs e' (str "Makefile") = e_fs e (str "Makefile") -> exits e' console' m' [str "./xxhsum"; str "--check"; str "--ignore-missing"; str "./.test.xxh"] 0) /\
      (* Missing, --ignore-missing, expect error *)
      (f_content lf = m_out m2 -> exists code, code <> 0 /\ exits e' console' m' [str "./xxhsum"; str "--check"; str "--ignore-missing"; str "./.test.xxh"] code)).
Proof.
  intros e console m EO FS NM OM R0 R1 R2.
  assert (S1 := script [str "./xxhsum"; str "./Makefile"] [str "./Makefile"] algo_xxh64 display_gnu [str "./xxhsum"; str "--check"; str "./.test.xxh"] (str "./.test.xxh") false
    ltac:(reflexivity) ltac:(reflexivity) ltac:(discriminate) ltac:(names) ltac:(names) ltac:(reflexivity) e console m [] EO FS NM OM ltac:(repeat constructor; assumption) (or_introl eq_refl)).
  assert (S2 := script [str "./xxhsum"; str "./.test.makefile"] [str "./.test.makefile"] algo_xxh64 display_gnu [str "./xxhsum"; str "--check"; str "./.test.xxh"] (str "./.test.xxh") false
    ltac:(reflexivity) ltac:(reflexivity) ltac:(discriminate) ltac:(names) ltac:(names) ltac:(reflexivity) e console m [] EO FS NM OM ltac:(repeat constructor; assumption) (or_introl eq_refl)).
  assert (S3 := script [str "./xxhsum"; str "Makefile"; str "./.test.makefile"] [str "Makefile"; str "./.test.makefile"] algo_xxh64 display_gnu
    [str "./xxhsum"; str "--check"; str "--ignore-missing"; str "./.test.xxh"] (str "./.test.xxh") true
    ltac:(reflexivity) ltac:(reflexivity) ltac:(discriminate) ltac:(names) ltac:(names) ltac:(reflexivity) e console m [] EO FS NM OM ltac:(repeat constructor; assumption) (or_introl eq_refl)).
  assert (S4 := script [str "./xxhsum"; str "./.test.makefile"] [str "./.test.makefile"] algo_xxh64 display_gnu [str "./xxhsum"; str "--check"; str "--ignore-missing"; str "./.test.xxh"] (str "./.test.xxh") true
    ltac:(reflexivity) ltac:(reflexivity) ltac:(discriminate) ltac:(names) ltac:(names) ltac:(reflexivity) e console m [] EO FS NM OM ltac:(repeat constructor; assumption) (or_introl eq_refl)).
  destruct S1 as (m1 & E1 & S1), S2 as (m2 & E2 & S2), S3 as (m3 & E3 & S3), S4 as (m2' & E4 & S4). rewrite E2 in E4. injection E4 as <-.
  exists m1, m2, m3. split; [exact E1|]. split; [exact E2|]. split; [exact E3|]. intros e' console' m' lf EO' FS' NM' LF.
  assert (SAME : forall n, readable e n -> e_fs e' n = e_fs e n -> kept e' (Entry e algo_xxh64 n)) by (intros n (f & _ & F & R) Q; exists f, f; cbn [at_ by_ of_]; rewrite Q; auto).
  split; [|intros G; split; [|split]].
  - intros C Q. destruct (S1 e' console' m' lf EO' FS' NM' LF C) as (code & X & V). assert (code = 0) as <-; [|exact X]. apply V, good_one, SAME; assumption.
  - intros C. destruct (S2 e' console' m' lf EO' FS' NM' LF C) as (code & X & V). exists code. split; [|exact X]. rewrite V. cbn [map]. rewrite good_one. intros (f & f' & _ & F & _). cbn [of_] in F. congruence.
  - intros C Q. destruct (S3 e' console' m' lf EO' FS' NM' LF C) as (code & X & V). assert (code = 0) as <-; [|exact X]. apply V.
    split; [discriminate|]. pose proof (SAME _ R0 Q) as K. split; [|intros _; left; exact K]. constructor; [left; exact K|]. constructor; [right; split; [reflexivity|exact G]|constructor].
  - intros C. destruct (S4 e' console' m' lf EO' FS' NM' LF C) as (code & X & V). exists code. split; [|exact X]. rewrite V. cbn [map]. rewrite good_one. intros (f & f' & _ & F & _). cbn [of_] in F. congruence.
Qed.
Print Assumptions C102_ignore_missing.

(** tests/filename-escape.sh:9-20: a name with a line feed, in both styles *)
Theorem C102_filename_escape : forall tag e console m, let name := str "filename-escape-foo" ++ [10] ++ str "bar" in let l := if tag : bool then str "filename-escape-xxh64-tag.txt" else str "filename-escape-xxh64.txt" in
  env_ok e -> file_ok (m_stdin m) -> ~ malloc_fails e -> m_out m = [] -> readable e name ->
  exists m1, XSUM_main e console m (str "./xxhsum" :: (if tag then [str "--tag"] else []) ++ [name]) = OK (Exits 0 m1) /\
  forall e' console' m' lf, env_ok e' -> file_ok (m_stdin m') -> ~ malloc_fails e' -> e_fs e' l = Some lf -> f_content lf = m_out m1 ->
  exists code, exits e' console' m' [str "./xxhsum"; str "-c"; l] code /\ (code = 0 <-> same_digest algo_xxh64 e e' name).
Proof.
  intros tag e console m name l EO FS NM OM RD.
  destruct (script (str "./xxhsum" :: (if tag then [str "--tag"] else []) ++ [name]) [name] algo_xxh64 (if tag then display_bsd else display_gnu) [str "./xxhsum"; str "-c"; l] l false
    ltac:(destruct tag; reflexivity) ltac:(destruct tag; reflexivity) ltac:(discriminate) ltac:(names) ltac:(names) ltac:(reflexivity) e console m [] EO FS NM OM ltac:(repeat constructor; assumption) (or_introl eq_refl)) as (m1 & E & H).
  exists m1. split; [exact E|]. intros e' console' m' lf EO' FS' NM' LF C. destruct (H e' console' m' lf EO' FS' NM' LF C) as (code & X & V). exists code. split; [exact X|]. rewrite V. apply good_one.
Qed.
Print Assumptions C102_filename_escape.

(** a list of four lines: a comment, a line of no known format, and the outputs of two runs with different algorithms, styles and byte orders; for any content of the file *)
Lemma run_f a de conv content : (bytes_ok content) -> zlen content < 2 ^ 64 -> let e := envE (fsE (File [content] false) (File [] false)) in
  env_ok e /\ ~ malloc_fails e /\ exists m1, hashFiles e (mE []) [str "f"] a de conv = OK (Some 0, m1) /\ bytes_ok (m_out m1) /\ zlen (m_out m1) < 100.
Proof.
  intros B L e. destruct (displayLine_ok conv de (str "f") (digest a content) a 15 (is_le de)) as (line & ED & _ & _ & _ & _ & _ & LL & BN);
    [intros I; vm_compute in I; lia|apply digest_bytes|apply digest_len|destruct a; reflexivity|reflexivity|].
  assert (FO : forall n f, fsE (File [content] false) (File [] false) n = Some f -> file_ok f).
  { intros n f. unfold fsE. destruct (eqb_list n (str "f")); [intros Q; injection Q as <-|destruct (eqb_list n (str "l")); [intros Q; injection Q as <-; apply file_ok_nil|discriminate]].
    unfold file_ok, f_content. cbn [f_chunks concat]. rewrite app_nil_r. auto. }
  destruct (envE_ok _ FO) as [EO NM]. fold e in EO, NM. split; [exact EO|]. split; [exact NM|].
  destruct (hashFile_ok e (mE []) (Named (str "f")) a de conv 15 EO (file_ok_nil false)) as (r & m1 & EH & _ & _ & H);
    [intros I; vm_compute in I; lia|destruct a; reflexivity|exact NM|].
  change (input e (mE []) (Named (str "f"))) with (Some (File [content] false)) in H. cbv beta iota in H. cbn [f_err] in H. destruct H as (-> & line' & OM & E' & _).
  assert (FC : f_content (File [content] false) = content) by (unfold f_content; cbn [f_chunks concat]; apply app_nil_r). rewrite FC in E'. cbn [listname] in E'.
  rewrite ED in E'. injection E' as E'. exists m1. split; [unfold hashFiles; cbn [hashFiles_loop]; rewrite EH; reflexivity|].
  rewrite OM. cbn [mE m_out app]. rewrite <- E'. split; [apply bytes_ok_app; [apply BN|]; repeat constructor; discriminate|]. rewrite zlen_app. change (zlen (str "f")) with 1 in LL. change (zlen [_]) with 1. lia.
Qed.
Example C102_case : forall content, bytes_ok content -> zlen content < 2 ^ 64 -> exists lf e,
  Listing false 15 big_endian (f_content lf) [Entry e algo_xxh3 (str "f"); Entry e algo_xxh64 (str "f")] 4 /\
  let e' := envE (fsE (File [content] false) lf) in let e'' := envE (fun n => if eqb_list n (str "l") then Some lf else None) in
  env_ok e' /\ env_ok e'' /\ exits e' true (mE []) [str "xxhsum"; str "-c"; str "l"] 0 /\
  exists code, code <> 0 /\ exits e'' true (mE []) [str "xxhsum"; str "-c"; str "--ignore-missing"; str "l"] code.
Proof.
  intros content B L. destruct (run_f algo_xxh3 little_endian display_bsd content B L) as (EO & NM & m1 & R1 & B1 & L1).
  destruct (run_f algo_xxh64 big_endian display_gnu content B L) as (_ & _ & m2 & R2 & B2 & L2). set (e := envE _) in *.
  set (t := str "#" ++ str " two runs" ++ [10] ++ str "junk" ++ [10] ++ m_out m1 ++ m_out m2 ++ []). exists (File [t] false), e.
  assert (FC : f_content (File [t] false) = t) by (unfold f_content; cbn [f_chunks concat]; apply app_nil_r).
  assert (FT : file_ok (File [t] false)).
  { unfold file_ok. rewrite FC. unfold t. rewrite app_nil_r. split.
    - repeat apply bytes_ok_app; [| | | | |exact B1|exact B2]; apply Forall_forall; intros x I; vm_compute in I; unfold byte_ok; lia.
    - rewrite !zlen_app. change (zlen (str "#")) with 1. change (zlen (str " two runs")) with 9. change (zlen [10]) with 1. change (zlen (str "junk")) with 4. lia. }
  assert (H : Listing false 15 big_endian t [Entry e algo_xxh3 (str "f"); Entry e algo_xxh64 (str "f")] 4).
  { assert (F : Forall nul_free [str "f"]) by (constructor; [intros I; vm_compute in I; lia|constructor]).
    assert (N : Forall (fun n => n <> str "stdin" /\ 2 * zlen n + 65 < 32768) [str "f"]) by (constructor; [split; [discriminate|reflexivity]|constructor]).
    apply (li_comment false 15 big_endian (str " two runs") _ _ 3); [intros I; vm_compute in I; lia|reflexivity|].
    apply (li_other false 15 big_endian (str "junk") _ _ 2 eq_refl); [intros I; vm_compute in I; lia|reflexivity|intros (r & Q); discriminate| |].
    - destruct (parseLine_ok (str "junk") [] false 15 ltac:(intros I; vm_compute in I; lia)) as (r & b' & P & _ & D). change (text_of (str "junk")) with (str "junk"). change (is_le big_endian) with false.
      vm_compute in P. injection P as <- _. exact D.
    - apply (li_run false 15 big_endian e (mE []) [str "f"] algo_xxh3 little_endian display_bsd 0 m1 _ [Entry e algo_xxh64 (str "f")] 1 EO (file_ok_nil false) NM eq_refl ltac:(discriminate) F N eq_refl ltac:(discriminate) R1).
      exact (li_run false 15 big_endian e (mE []) [str "f"] algo_xxh64 big_endian display_gnu 0 m2 [] [] 0 EO (file_ok_nil false) NM eq_refl ltac:(discriminate) F N eq_refl ltac:(auto) R2 (li_nil _ _ _)). }
  rewrite FC. split; [exact H|]. intros e' e''.
  assert (EO' : env_ok e' /\ ~ malloc_fails e').
  { apply envE_ok. intros n f. unfold fsE. destruct (eqb_list n (str "f")); [intros Q; injection Q as <-|destruct (eqb_list n (str "l")); [intros Q; injection Q as <-; exact FT|discriminate]].
    unfold file_ok, f_content. cbn [f_chunks concat]. rewrite app_nil_r. auto. }
  assert (EO'' : env_ok e'' /\ ~ malloc_fails e'').
  { apply envE_ok. intros n f. destruct (eqb_list n (str "l")); [intros Q; injection Q as <-; exact FT|discriminate]. }
  destruct EO' as [EO' NM'], EO'' as [EO'' NM'']. split; [exact EO'|]. split; [exact EO''|].
  pose proof H as H'. rewrite <- FC in H, H'.
  destruct (listing_check e' (mE []) (str "l") (File [t] false) big_endian false false false false false 15 _ _ EO' (file_ok_nil false) eq_refl H ltac:(reflexivity)) as (r & m3 & C & _ & G).
  destruct (listing_check e'' (mE []) (str "l") (File [t] false) big_endian false false true false false 15 _ _ EO'' (file_ok_nil false) eq_refl H' ltac:(reflexivity)) as (r' & m4 & C' & G' & _).
  destruct (check_one _ _ _ _ _ _ _ _ _ _ _ _ C) as (m5 & E5). destruct (check_one _ _ _ _ _ _ _ _ _ _ _ _ C') as (m6 & E6). split.
  - exists m5. change (XSUM_main e' true (mE []) [str "xxhsum"; str "-c"; str "l"])
      with (let! r := checkFiles e' (mE []) [str "l"] big_endian false false false false false 15 in OK (Exits match fst r with Some c => c | None => 1 end (snd r))).
    rewrite E5, (G NM'); [reflexivity|]. split; [discriminate|]. split; [|discriminate].
    apply Forall_forall; intros x [<-|[<-|[]]]; left; exists (File [content] false), (File [content] false); repeat split.
  - eexists. split; [|exists m6; change (XSUM_main e'' true (mE []) [str "xxhsum"; str "-c"; str "--ignore-missing"; str "l"])
      with (let! r := checkFiles e'' (mE []) [str "l"] big_endian false false true false false 15 in OK (Exits match fst r with Some c => c | None => 1 end (snd r))); rewrite E6; reflexivity].
    cbn [fst]. destruct (checkFile_codes _ _ _ _ _ _ _ _ _ _ _ _ C') as [->|[->| ->]]; [discriminate|discriminate|]. exfalso.
    destruct (G' eq_refl) as (_ & _ & X). specialize (X eq_refl). inversion X as [? ? K|? ? Y]; subst; [destruct K as (f & f' & _ & F & _); discriminate|].
    inversion Y as [? ? K|? ? Z]; subst; [destruct K as (f & f' & _ & F & _); discriminate|inversion Z].
Qed.
