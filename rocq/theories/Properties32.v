(** Property theorems about what xxhsum writes to stderr: C103. *)
From Coq Require Import String.
From Verif Require Import Base Mem M_Cli M_Cli2 M_Cli3 M_CliErr SpecCli SpecCli2 SpecCli3 SpecErr P_Base P_Cli P_Cli2 P_Cli3 P_Cli4 P_Cli5 P_Cli6 P_Cli7 P_CliErr Properties8 Properties9.

(** ** C103 *)
(** The model with stderr is the model without it, plus a text: everything proved of the one holds of the other. *)
Theorem C103_same_program : forall version usage advanced e console m argv,
  (let! (o, _) := Err.XSUM_main version usage advanced e console m argv in OK o) = XSUM_main e console m argv.
Proof. exact erase_main. Qed.
Print Assumptions C103_same_program.

(** Hashing: one message for each name that is a directory or cannot be opened, one for a read error, in order, and nothing else. *)
Theorem C103_hash_text : forall e m ns a de conv, env_ok e -> file_ok (m_stdin m) -> Forall nul_free ns -> ~ malloc_fails e ->
  exists r m', Err.hashFiles e m ns a de conv = OK (r, m', match ns with [] => about_file false (Some (m_stdin m)) [] [] | _ => about_files (e_dir e) (e_fs e) (e_strerror e) ns end).
Proof. exact hashFiles_log. Qed.
Print Assumptions C103_hash_text.

(** Checking: with --warn one message for each line of no known format, with its number; one for a line that is too long, one for a read error;
    one if no line had a known format; and nothing else. *)
Theorem C103_check_text : forall e m n de strict st im warn q mask, env_ok e -> ~ malloc_fails e -> file_ok (m_stdin m) ->
  match listed e m n with
  | None => exists m', Err.checkFile e m n de strict st im warn q mask = OK (Some 0, m', str "Error: Could not open '" ++ listname n ++ str "': " ++ e_strerror e ++ [10])
  | Some f => forall os, Outcomes (e_fs e) mask (is_le de) (m_stdin m) (lines_of (f_content f)) os ->
      (n = Stdin -> ~ names_stdin mask (is_le de) (lines_of (f_content f))) -> zlen (lines_of (f_content f)) + 1 < 2 ^ e_ulbits e ->
      exists r m', Err.checkFile e m n de strict st im warn q mask = OK (r, m', about_list (listname n) warn os)
  end.
Proof.
  intros e m n de strict st im warn q mask EO NM FS. destruct (listed e m n) as [f|] eqn:L; [intros os; apply checkFile_log; assumption|].
  destruct n as [|n]; [discriminate|]. cbn [listed listname] in *. exists m. unfold Err.checkFile. rewrite L. reflexivity.
Qed.
Print Assumptions C103_check_text.

(** No failure is silent, whatever the system does (malloc failing, more lines than an unsigned long counts): an exit code other than 0 comes with
    a text on stderr or on stdout, unless --status was given. *)
Theorem C103_no_silent_failure : forall version usage advanced e console m exe args name a acc out code m' l,
  nul_free exe -> Forall nul_free args -> total args < 2 ^ 31 -> Basename exe name -> Personality name a acc -> Options (default a) args out ->
  Err.XSUM_main version usage advanced e console m (exe :: args) = OK (Exits code m', l) -> code <> 0 ->
  l <> [] \/ m_out m' <> m_out m \/ exists s names, out = Run s names /\ g_check s = true /\ g_status s = true.
Proof.
  intros version usage advanced e console m exe args name a acc out code m' l NE NA TO BN PE HO E N.
  pose proof (command_ok console exe args name a acc out NE NA TO BN PE HO) as C. unfold Err.XSUM_main in E. cbn [hd] in E.
  assert (X : forall st, command console (exe :: args) = OK (Stop st) -> l <> []).
  { intros st Q. rewrite Q in E. cbn [bind] in E. destruct (lastNameFromPath exe) as [x| |]; [|discriminate..]. cbn [bind] in E. destruct st; injection E as <- <- <-; try congruence; discriminate. }
  destruct out as [s names|st|]; [|left; exact (X st C)|rewrite C in E; discriminate].
  destruct C as (act & C & D). destruct act as [st|ids it size ns|ns de strict st im w q mask|ns al de conv]; [left; exact (X st C)| | |]; rewrite C in E; cbn [bind] in E;
    (destruct (lastNameFromPath exe) as [x| |]; [|discriminate..]); cbn [bind] in E.
  - discriminate.
  - destruct (Err.checkFiles e m ns de strict st im w q mask) as [[[r m1] l1]| |] eqn:EC; [|discriminate..]. cbn [bind fst snd] in E. injection E as <- <- <-.
    apply checkFiles_told in EC as (_ & _ & T). destruct st.
    + right. right. exists s, names. split; [reflexivity|]. unfold todo_of in D. destruct (g_ids s); [|destruct names; inversion D].
      destruct names; [destruct (console && negb (g_stdin s)); [inversion D|]|]; destruct (g_check s); inversion D; subst; auto.
    + destruct (T eq_refl) as [T1|T1]; [|left; exact T1|right; left; exact T1]. intros ->. apply N. reflexivity.
  - destruct (Err.hashFiles e m ns al de conv) as [[[r m1] l1]| |] eqn:EC; [|discriminate..]. cbn [bind fst snd] in E. injection E as <- <- <-.
    apply hashFiles_quiet in EC. left. intros Q. apply EC in Q as ->. apply N. reflexivity.
Qed.
Print Assumptions C103_no_silent_failure.

(** And no success is noisy: with the exit code 0 hashing, and checking without --warn, wrote nothing to stderr. *)
Theorem C103_quiet_success : forall version usage advanced e console m exe args name a acc s names m' l,
  nul_free exe -> Forall nul_free args -> total args < 2 ^ 31 -> Basename exe name -> Personality name a acc -> Options (default a) args (Run s names) ->
  Err.XSUM_main version usage advanced e console m (exe :: args) = OK (Exits 0 m', l) -> g_check s = false \/ g_warn s = false -> l = [].
Proof.
  intros version usage advanced e console m exe args name a acc s names m' l NE NA TO BN PE HO E W.
  destruct (command_ok console exe args name a acc (Run s names) NE NA TO BN PE HO) as (act & C & D). unfold Err.XSUM_main in E. cbn [hd] in E. rewrite C in E. cbn [bind] in E.
  destruct (lastNameFromPath exe) as [x| |]; [|discriminate..]. cbn [bind] in E.
  destruct act as [st|ids it size ns|ns de strict st im w q mask|ns al de conv].
  - exfalso. unfold todo_of in D. destruct (g_ids s); [|destruct names; inversion D]. destruct names; [destruct (console && negb (g_stdin s))|]; destruct (g_check s); inversion D; subst; discriminate.
  - discriminate.
  - destruct (Err.checkFiles e m ns de strict st im w q mask) as [[[r m1] l1]| |] eqn:EC; [|discriminate..]. cbn [bind fst snd] in E. injection E as Q <- <-.
    apply checkFiles_told in EC as (_ & T & _). apply T; [destruct r; congruence|]. unfold todo_of in D. destruct (g_ids s); [|destruct names; inversion D].
    destruct names; [destruct (console && negb (g_stdin s)); [inversion D|]|]; destruct (g_check s); inversion D; subst; destruct W; congruence.
  - destruct (Err.hashFiles e m ns al de conv) as [[[r m1] l1]| |] eqn:EC; [|discriminate..]. cbn [bind fst snd] in E. injection E as Q <- <-. apply hashFiles_quiet in EC. apply EC. destruct r; congruence.
Qed.
Print Assumptions C103_quiet_success.

(** --status: a failure of the check can be silent, which is what it is for; but stderr is not silenced ("Don't output anything": cli/xxhsum.c:1134). *)
Theorem C103_status_refuted : exists e m l, env_ok e /\ ~ malloc_fails e /\ file_ok (m_stdin m) /\ l <> [] /\
  forall version usage advanced, exists m', Err.XSUM_main version usage advanced e false m [str "xxhsum"; str "-c"; str "--status"; str "nosuchfile"] = OK (Exits 1 m', l).
Proof.
  destruct (envE_ok (fun _ => None) ltac:(discriminate)) as [EO NM]. exists (envE (fun _ => None)), (mE []). eexists. split; [exact EO|]. split; [exact NM|]. split; [exact (file_ok_nil false)|].
  split; [|intros version usage advanced; eexists; reflexivity]. discriminate.
Qed.
Print Assumptions C103_status_refuted.
(** the texts, on a list of three lines, the second one too strange, with --warn *)
Example C103_texts : about_list (str "l") true [OMatch (str "f"); OBad; OMissing (str "g")] = str "l:2: Error: Improperly formatted checksum line." ++ [10] /\
  about_list (str "l") false [OComment; OBad] = str "l: no properly formatted xxHash checksum lines found" ++ [10] /\
  about_list (str "l") false [OMatch (str "f"); OReadError; OTooLong] = str "Error: a failure occurred reading the input file." ++ [10] /\
  about_list (str "l") false [OComment; OTooLong; OBad] = str "l:2: Error: Line too long." ++ [10] ++ str "l: no properly formatted xxHash checksum lines found" ++ [10].
Proof. repeat split. Qed.
(** a run: the list has one line of no known format *)
Definition junkE : env := envE (fsE (File [] false) (File [str "junk" ++ [10]] false)).
Lemma junk_outcomes : Outcomes (e_fs junkE) 15 false (m_stdin (mE [])) (lines_of (str "junk" ++ [10])) [OBad].
Proof.
  apply (oc_bad _ _ _ _ (str "junk", true) [] []); [reflexivity|intros (r & Q); discriminate| |constructor].
  destruct (parseLine_ok (str "junk") [] false 15 ltac:(intros I; vm_compute in I; lia)) as (r & b' & P & _ & D). change (text_of (fst (str "junk", true))) with (str "junk"). vm_compute in P. injection P as <- _. exact D.
Qed.
Example C103_case : exists r m', Err.checkFile junkE (mE []) (Named (str "l")) big_endian false false false true false 15 =
  OK (r, m', str "l:1: Error: Improperly formatted checksum line." ++ [10] ++ str "l: no properly formatted xxHash checksum lines found" ++ [10]).
Proof.
  destruct (envE_ok (fsE (File [] false) (File [str "junk" ++ [10]] false))) as [EO NM].
  { intros n f. unfold fsE. destruct (eqb_list n (str "f")); [intros Q; injection Q as <-; apply file_ok_nil|]. destruct (eqb_list n (str "l")); [|discriminate]. intros Q. injection Q as <-.
    split; [|reflexivity]. apply Forall_forall. intros x I. vm_compute in I. unfold byte_ok. lia. }
  apply (C103_check_text junkE (mE []) (Named (str "l")) big_endian false false false true false 15 EO NM (file_ok_nil false) [OBad] junk_outcomes ltac:(discriminate) ltac:(reflexivity)).
Qed.
