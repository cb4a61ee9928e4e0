(** Property theorems about the command line of xxhsum (cli/xxhsum.c:1148-1370): numbers (C41), the table of benchmark variants
    (C48), the options (C49), "-" and the program names (C52), hashing then checking by the command line (C54). *)
From Coq Require Import String Ascii List.
From Verif Require Import Base Mem M_Cli M_Cli2 M_Cli3 SpecCli SpecCli2 SpecCli3 P_Base P_Cli P_Cli2 P_Cli3 P_Cli4 P_Cli5 P_Cli6 P_Cli7 Properties8.

(** ** C41 *)
(** A number is read exactly: the value is the decimal value times the unit, never wrapped; just the digits and the unit are
    consumed; the reader stays inside the string. *)
Theorem C41_numbers : forall pre s post, nul_free s ->
  match number s with
  | Some (v, rest) => exists used, s = used ++ rest /\ readU32FromCharChecked (pre ++ s ++ 0 :: post) (zlen pre) = OK (Some v, zlen pre + zlen used) /\ 0 <= v < 2 ^ 32
  | None => exists i, readU32FromCharChecked (pre ++ s ++ 0 :: post) (zlen pre) = OK (None, i)
  end.
Proof. exact readU32_ok. Qed.
Print Assumptions C41_numbers.
Example C41_case : number (str "12MiBx") = Some (12 * 2 ^ 20, str "x") /\ number (str "4294967289,") = Some (4294967289, str ",") /\
  number (str "4294967296") = None /\ number (str "4194304K") = None /\ number (str "4194303K") = Some (4194303 * 1024, []) /\ nul_free (str "12MiBx").
Proof. repeat (split; [reflexivity|]). intros I. vm_compute in I. lia. Qed.
(** The largest six numbers of 32 bits are refused. *)
Theorem C41_largest_refuted : exists s, decimal s = 4294967290 /\ decimal s < 2 ^ 32 /\ decimal_text s /\ readU32FromCharChecked (s ++ [0]) 0 = OK (None, 9).
Proof. exists (str "4294967290"). split; [reflexivity|]. split; [reflexivity|]. split; [split; [discriminate|repeat constructor]|reflexivity]. Qed.
Print Assumptions C41_largest_refuted.

(** ** C48 *)
(** -b with a variant of 2^31 or more writes outside g_testIDs. *)
Theorem C48_bench_table_refuted : exists argv, Forall nul_free argv /\ forall console, command console argv = UB.
Proof.
  exists [str "xxhsum"; str "-b2147483648"]. split; [repeat constructor; intros I; vm_compute in I; lia|]. intros console. vm_compute. reflexivity.
Qed.
Print Assumptions C48_bench_table_refuted.
(** The command line is defined exactly if no such variant is asked for before the options end. *)
Theorem C48_defined : forall console exe args name a acc, nul_free exe -> Forall nul_free args -> total args < 2 ^ 31 -> Basename exe name -> Personality name a acc ->
  ((exists act, command console (exe :: args) = OK act) <-> ~ Options (default a) args Runaway).
Proof.
  intros console exe args name a acc NE NA TO BN PE. split.
  - intros (act & E) H. assert (U := command_ok console exe args name a acc _ NE NA TO BN PE H). cbv beta iota in U. congruence.
  - intros H. destruct (Options_total args NA (default a)) as (out & HO). assert (U := command_ok console exe args name a acc _ NE NA TO BN PE HO).
    destruct out as [s names|st|]; [destruct U as (act & U & _); eauto|eauto|contradiction].
Qed.
Print Assumptions C48_defined.
(** Without a number of 2^31 or more in the arguments it is defined. *)
Theorem C48_small_numbers : forall console exe args, nul_free exe -> Forall nul_free args -> total args < 2 ^ 31 ->
  (forall arg pre w n t, In arg args -> arg = pre ++ w -> number w = Some (n, t) -> n < 2 ^ 31) ->
  exists act, command console (exe :: args) = OK act.
Proof.
  intros console exe args NE NA TO H. destruct (Basename_total exe) as (name & BN). destruct (Personality_total name) as (a & acc & PE).
  apply (C48_defined console exe args name a acc NE NA TO BN PE). intros HO. apply (Options_large _ _ _) in HO; [|reflexivity].
  apply Exists_exists in HO as (arg & I & w & n & t & (pre & E) & EN & L). specialize (H arg pre w n t I E EN). lia.
Qed.
Print Assumptions C48_small_numbers.
Lemma name_xxhsum : nul_free (str "/usr/bin/xxhsum") /\ Basename (str "/usr/bin/xxhsum") (str "xxhsum") /\ Personality (str "xxhsum") algo_xxh64 [algo_xxh32; algo_xxh64; algo_xxh128; algo_xxh3].
Proof.
  split; [intros I; vm_compute in I; lia|]. split.
  - apply (basename _ (str "xxhsum")); [intros I; vm_compute in I; lia|right; exists (str "/usr/bin"); reflexivity|intros I; vm_compute in I; lia|left; reflexivity].
  - assert (F : forall p, containsb p (str "xxhsum") = false -> ~ holds (str "xxhsum") p) by (intros p E H; apply containsb_occurs in H; congruence).
    apply p_xxhsum; apply F; reflexivity.
Qed.
Example C48_case : Options (default algo_xxh64) [str "-b1,3"; str "-c"] (Run (check (bench [1; 3] (default algo_xxh64))) []) /\
  Options (default algo_xxh64) [str "-qb5,2147483648"] Runaway /\ number (str "2147483648") = Some (2 ^ 31, []).
Proof.
  split; [|split; [|reflexivity]].
  - apply (documented_line [str "-b1,3"; str "-c"] _ (check (bench [1; 3] (default algo_xxh64)))); [|constructor].
    eapply t_cons; [apply (doc_bench (str "1,3") [1; 3]); apply (c_more (str "1") (str "3") [3])|eapply t_cons; [apply doc_check|constructor]].
    + split; [discriminate|repeat constructor]. + split; vm_compute; discriminate. + apply (c_one (str "3")); [split; [discriminate|repeat constructor]|split; vm_compute; discriminate].
  - apply (o_wild _ (str "qb5,2147483648")); [apply (not_special 113 (str "b5,2147483648")); discriminate|].
    apply (ls_next _ _ (quieter (default algo_xxh64)) (str "b5,2147483648")); [apply (l_quiet _ (str "b5,2147483648"))|]. apply ls_wild.
    apply (l_bench_wild _ (str "5,2147483648") [5; 2 ^ 31] (Some [])); [|right; left; lia].
    apply (ids_more _ 5 (str "2147483648")); [reflexivity|]. apply ids_last; [reflexivity|discriminate].
Qed.

(** ** C49 *)
(** Every command line is understood as the specification says. *)
Theorem C49_command_line : forall console exe args, nul_free exe -> Forall nul_free args -> total args < 2 ^ 31 ->
  exists name a acc out, Basename exe name /\ Personality name a acc /\ Options (default a) args out /\
  match out with
  | Run s names => exists act, command console (exe :: args) = OK act /\ Does (todo_of console acc s names) act
  | Finish st => command console (exe :: args) = OK (Stop st)
  | Runaway => command console (exe :: args) = UB
  end.
Proof.
  intros console exe args NE NA TO. destruct (Basename_total exe) as (name & BN). destruct (Personality_total name) as (a & acc & PE).
  destruct (Options_total args NA (default a)) as (out & HO). exists name, a, acc, out. repeat (split; [assumption|]). exact (command_ok console exe args name a acc out NE NA TO BN PE HO).
Qed.
Print Assumptions C49_command_line.
(** ... by any reading of it: the specification determines the action *)
Theorem C49_exact : forall console exe args name a acc out, nul_free exe -> Forall nul_free args -> total args < 2 ^ 31 ->
  Basename exe name -> Personality name a acc -> Options (default a) args out ->
  match out with
  | Run s names => exists act, command console (exe :: args) = OK act /\ Does (todo_of console acc s names) act
  | Finish st => command console (exe :: args) = OK (Stop st)
  | Runaway => command console (exe :: args) = UB
  end.
Proof. exact command_ok. Qed.
Print Assumptions C49_exact.
(** The documented options, each in its own argument, followed by names, with or without "--". *)
Theorem C49_documented : forall console exe args names name a acc s, nul_free exe -> Forall nul_free args -> Forall nul_free names ->
  Basename exe name -> Personality name a acc -> Texts args (default a) s ->
  (plain names -> total (args ++ names) < 2 ^ 31 -> exists act, command console (exe :: args ++ names) = OK act /\ Does (todo_of console acc s names) act) /\
  (total (args ++ str "--" :: names) < 2 ^ 31 -> exists act, command console (exe :: args ++ str "--" :: names) = OK act /\ Does (todo_of console acc s names) act).
Proof.
  intros console exe args names name a acc s NE NA NN BN PE T. split; [intros P TO|intros TO].
  - apply (command_ok console exe (args ++ names) name a acc (Run s names) NE); [apply Forall_app; auto|exact TO|exact BN|exact PE|]. apply (documented_line _ _ _ T), plain_names, P.
  - apply (command_ok console exe (args ++ str "--" :: names) name a acc (Run s names) NE); [|exact TO|exact BN|exact PE|apply (documented_line _ _ _ T); constructor].
    apply Forall_app. split; [exact NA|]. constructor; [intros I; vm_compute in I; lia|exact NN].
Qed.
Print Assumptions C49_documented.
Example C49_case : Texts [str "-H128"; str "--tag"; str "-q"] (default algo_xxh64) (quieter (tag (hash_with algo_xxh128 (default algo_xxh64)))) /\ plain [str "a"; str "-c"] /\
  command true [str "/usr/bin/xxhsum"; str "-H128"; str "--tag"; str "-q"; str "a"; str "-c"] = OK (Hash [str "a"; str "-c"] algo_xxh128 big_endian display_bsd).
Proof.
  split; [|split; [|vm_compute; reflexivity]].
  - eapply t_cons; [apply (doc_hash _ algo_xxh128); cbn; tauto|]. eapply t_cons; [apply (doc_word _ tag); cbn [words In]; tauto|]. eapply t_cons; [apply doc_quiet|]. constructor.
  - intros n rest E r Q. injection E as <- <-. discriminate.
Qed.
(** The last -b decides: a variant 0 behind the chosen ones drops them. *)
Theorem C49_bench_selection_refuted : exists argv ids, command false argv = OK (Bench ids 3 102400 []) /\ In (str "-b5,7,0") argv /\ nth 5 ids 0 = 1 /\ nth 7 ids 0 = 0.
Proof. exists [str "xxhsum"; str "-b5,7,0"], k_testIDs_default. split; [reflexivity|]. split; [right; left; reflexivity|]. split; reflexivity. Qed.
Print Assumptions C49_bench_selection_refuted.

(** ** C52 *)
(** "When FILE is -, read standard input": behind a file name, "-" is the name of a file... *)
Theorem C52_dash_refuted : exists e m m', env_ok e /\ ~ malloc_fails e /\ file_ok (m_stdin m) /\ readable e (str "f") /\ f_err (m_stdin m) = false /\
  XSUM_main e false m [str "xxhsum"; str "f"; str "-"] = OK (Exits 1 m').
Proof.
  set (fs := fsE (File [[65]] false) (File [] false)).
  destruct (envE_ok fs) as [EO NM].
  { intros n f. unfold fs, fsE. destruct (eqb_list n (str "f")); [|destruct (eqb_list n (str "l")); [|discriminate]]; intros Q; injection Q as <-; [|apply file_ok_nil].
    split; [repeat constructor; discriminate|vm_compute; reflexivity]. }
  set (e := envE fs) in *. destruct (C53_hash_exit_status e (mE []) [str "f"; str "-"] algo_xxh64 big_endian display_gnu EO (file_ok_nil false) NM) as (r & m' & E & lines & printed & _ & _ & H);
    [discriminate|repeat constructor; intros I; vm_compute in I; lia|].
  assert (r = Some 1) as ->.
  { destruct r as [r|].
    - destruct H as ([-> | ->] & H & _); [|reflexivity]. destruct H as [H _]. specialize (H eq_refl). inversion H as [|? ? _ H2]; subst. inversion H2 as [|? ? (f & _ & F & _) _]; subst. discriminate.
    - destruct H as (pre & n & post & E0 & _ & H1 & H2 & _). assert (I : In n [str "f"; str "-"]) by (rewrite E0; apply in_or_app; right; left; reflexivity).
      destruct I as [<-|[<-|[]]]; [|contradiction H2; right; reflexivity]. contradiction H1. exists (File [[65]] false). repeat split. }
  exists e, (mE []), m'. split; [exact EO|]. split; [exact NM|]. split; [exact (file_ok_nil false)|]. split; [exists (File [[65]] false); repeat split|]. split; [reflexivity|].
  change (XSUM_main e false (mE []) [str "xxhsum"; str "f"; str "-"]) with (let! r := hashFiles e (mE []) [str "f"; str "-"] algo_xxh64 big_endian display_gnu in OK (Exits match fst r with Some c => c | None => 1 end (snd r))).
  rewrite E. reflexivity.
Qed.
Print Assumptions C52_dash_refuted.
(** ... and before one it is ignored, unless in benchmark mode no other name follows. *)
Theorem C52_dash_ignored : forall e console m exe args names name a acc s, nul_free exe -> Forall nul_free args -> Forall nul_free names -> total (args ++ str "-" :: names) < 2 ^ 31 ->
  Basename exe name -> Personality name a acc -> Texts args (default a) s -> plain names -> names <> [] -> g_ids s = [] -> g_check s = false ->
  XSUM_main e console m (exe :: args ++ str "-" :: names) = XSUM_main e console m (exe :: args ++ names).
Proof.
  intros e console m exe args names name a acc s NE NA NN TO BN PE T P NE' GI GC.
  assert (TO' : total (args ++ names) < 2 ^ 31).
  { clear - TO. induction args as [|x args IH]; cbn [app] in *; [rewrite total_cons in TO; assert (0 <= zlen (str "-")) by apply zlen_nonneg; lia|].
    rewrite total_cons in *. assert (forall l l', total (l ++ l') = total l + total l') as A by (induction l as [|y l IL]; intros l'; [reflexivity|]; cbn [app]; rewrite !total_cons, IL; lia).
    rewrite A in *. rewrite total_cons in TO. assert (0 <= zlen (str "-")) by apply zlen_nonneg. lia. }
  rewrite (hash_line e console m exe (args ++ str "-" :: names) name a acc (standard_input s) names); auto.
  - rewrite (hash_line e console m exe (args ++ names) name a acc s names); auto; [apply Forall_app; auto|]. apply (documented_line _ _ _ T), plain_names, P.
  - apply Forall_app. split; [exact NA|]. constructor; [intros I; vm_compute in I; lia|exact NN].
  - apply (documented_line _ _ _ T). apply o_dash. apply plain_names, P.
Qed.
Print Assumptions C52_dash_ignored.
(** Alone behind the options it does stand for standard input, even on a console; and no file at all is refused on a console. *)
Theorem C52_dash_alone : forall e console m exe args name a acc s, nul_free exe -> Forall nul_free args -> total (args ++ [str "-"]) < 2 ^ 31 ->
  Basename exe name -> Personality name a acc -> Texts args (default a) s -> g_ids s = [] -> g_check s = false ->
  XSUM_main e console m (exe :: args ++ [str "-"]) = (let! r := hashFile e m Stdin (g_algo s) (g_order s) (g_style s) in OK (Exits match fst r with Some c => c | None => 1 end (snd r))).
Proof.
  intros e console m exe args name a acc s NE NA TO BN PE T GI GC.
  apply (hash_line e console m exe (args ++ [str "-"]) name a acc (standard_input s) []); auto.
  - apply Forall_app. split; [exact NA|]. constructor; [intros I; vm_compute in I; lia|constructor].
  - apply (documented_line _ _ _ T). apply o_dash. constructor.
Qed.
Print Assumptions C52_dash_alone.
Theorem C52_console : forall e m exe args name a acc s, nul_free exe -> Forall nul_free args -> total args < 2 ^ 31 ->
  Basename exe name -> Personality name a acc -> Texts args (default a) s -> g_ids s = [] ->
  XSUM_main e true m (exe :: args) = OK (Exits 1 m).
Proof.
  intros e m exe args name a acc s NE NA TO BN PE T GI.
  assert (HO : Options (default a) args (Run s [])) by (rewrite <- (app_nil_r args); apply (documented_line _ _ _ T); constructor).
  destruct (command_ok true exe args name a acc _ NE NA TO BN PE HO) as (act & E & D). unfold XSUM_main. rewrite E. cbn [bind].
  assert (GS : g_stdin s = false).
  { clear - T. assert (G : g_stdin (default a) = false) by reflexivity. revert G. generalize (default a) T. clear T. intros s0 T. induction T as [s|w f args s s' D _ IH]; intros G; [exact G|]. apply IH.
    destruct D as [w f I| | | | | | |]; try exact G. cbn [In words] in I. decompose [or] I; try contradiction; match goal with E : (_, _) = _ |- _ => injection E as <- <- end; exact G. }
  unfold todo_of in D. rewrite GI, GS in D. cbn [andb negb] in D. inversion D; subst. reflexivity.
Qed.
Print Assumptions C52_console.
Example C52_case : Texts [str "-H0"] (default algo_xxh64) (hash_with algo_xxh32 (default algo_xxh64)) /\ plain [str "f"] /\ total ([str "-H0"] ++ str "-" :: [str "f"]) < 2 ^ 31 /\
  nul_free (str "/usr/bin/xxhsum") /\ Basename (str "/usr/bin/xxhsum") (str "xxhsum") /\ Personality (str "xxhsum") algo_xxh64 [algo_xxh32; algo_xxh64; algo_xxh128; algo_xxh3].
Proof.
  split; [eapply t_cons; [apply (doc_hash _ algo_xxh32); cbn; tauto|constructor]|]. split; [intros n rest E r Q; injection E as <- <-; discriminate|]. split; [vm_compute; reflexivity|exact name_xxhsum].
Qed.
(** "xxh32sum is equivalent to xxhsum -H0", and so on: true of everything but the algorithms accepted by --check... *)
Theorem C52_aliases : forall console exe exe' name name' a acc a' acc' h args, nul_free exe -> nul_free exe' -> Forall nul_free args -> total args + 10 < 2 ^ 31 ->
  Basename exe name -> Personality name a acc -> Basename exe' name' -> Personality name' a' acc' -> In (h, a) hash_texts ->
  match command console (exe :: args), command console (exe' :: h :: args) with
  | OK (Check names de strict st im w q mask), r => exists mask', (forall x, Z.testbit mask' (algo_num x) = true <-> In x acc') /\ r = OK (Check names de strict st im w q mask')
  | r, r' => r = r'
  end.
Proof. exact alias. Qed.
Print Assumptions C52_aliases.
(** ... which makes the results of a check differ. *)
Theorem C52_aliases_check_refuted : exists e m m1 m2, env_ok e /\ ~ malloc_fails e /\ file_ok (m_stdin m) /\
  XSUM_main e false m [str "xxh32sum"; str "-c"; str "l"] = OK (Exits 1 m1) /\
  XSUM_main e false m [str "xxhsum"; str "-H0"; str "-c"; str "l"] = OK (Exits 0 m2).
Proof.
  destruct (one_line algo_xxh64 display_gnu big_endian false [65] ltac:(repeat constructor; discriminate) ltac:(vm_compute; reflexivity)) as (line & ED & EO & NM & EL & EF & AC & OC).
  set (e := envE _) in *.
  assert (N0 : ~ In 0 line).
  { destruct (displayLine_ok display_gnu big_endian (str "f") (digest algo_xxh64 [65]) algo_xxh64 15 false) as (line' & E & _ & N0 & _);
      [intros I; vm_compute in I; lia|apply digest_bytes|apply digest_len|reflexivity|reflexivity|]. rewrite ED in E. injection E as E. apply app_inj_tail in E as [-> _]. exact N0. }
  assert (EC : lines_of (f_content (File [line ++ [10]] false)) = [(line, true)]) by (unfold f_content; cbn [f_chunks concat]; rewrite app_nil_r; exact EL).
  assert (UL : zlen (lines_of (f_content (File [line ++ [10]] false))) + 1 < 2 ^ e_ulbits e) by (rewrite EC; vm_compute; reflexivity).
  assert (OC15 := OC). rewrite <- EC in OC15. change (File [[]] false) with (m_stdin (mE [])) in OC15.
  destruct (C39_verdict e (mE []) (Named (str "l")) big_endian false false false false false 15 _ _ EO (file_ok_nil false) EF OC15 ltac:(discriminate) UL) as (r & m' & E & _ & H).
  specialize (H NM). rewrite (proj2 (proj1 H) (one_verdict _ _ _)) in E. destruct (check_one _ _ _ _ _ _ _ _ _ _ _ _ E) as (m2 & E2).
  assert (OC1 : Outcomes (e_fs e) 1 (is_le big_endian) (m_stdin (mE [])) (lines_of (f_content (File [line ++ [10]] false))) [OBad]).
  { rewrite EC. apply oc_inv in OC as (o & os' & Q & [(_ & Q1 & _)|[(_ & _ & Q1 & _)|[(_ & _ & _ & Q1 & _)|(S1 & C1 & al & cn & nm & A & _)]]]); try (rewrite Q1 in Q; discriminate).
    apply oc_bad; [exact S1|exact C1| |constructor]. intros a canon name A'.
    assert (T15 : forall a0, Z.testbit 15 (algo_num a0) = true) by (intros []; reflexivity).
    assert (A15 : Accepts 15 (is_le big_endian) (text_of (fst (line, true))) a canon name) by (destruct A' as (_ & A'); split; [apply T15|exact A']).
    assert (L15 : Accepts 15 (is_le big_endian) (text_of (fst (line, true))) algo_xxh64 (digest algo_xxh64 [65]) (str "f")).
    { cbn [fst]. rewrite text_of_id; [exact AC|exact N0]. }
    destruct (Accepts_det _ _ _ _ _ _ _ _ _ A15 L15) as (-> & _). destruct A' as (T & _). discriminate. }
  destruct (C39_verdict e (mE []) (Named (str "l")) big_endian false false false false false 1 _ _ EO (file_ok_nil false) EF OC1 ltac:(discriminate) UL) as (r1 & m1' & E1 & V & H1).
  assert (R1 : r1 = Some 0).
  { destruct (H1 NM) as (_ & AB & [->|[->| ->]] & _); [destruct AB as [AB _]; specialize (AB eq_refl); discriminate|reflexivity|]. destruct (V eq_refl) as (_ & _ & (o & [<-|[]] & []) & _). }
  subst r1. destruct (check_one _ _ _ _ _ _ _ _ _ _ _ _ E1) as (m1 & E1').
  exists e, (mE []), m1, m2. split; [exact EO|]. split; [exact NM|]. split; [exact (file_ok_nil false)|]. split.
  - change (XSUM_main e false (mE []) [str "xxh32sum"; str "-c"; str "l"]) with (let! r := checkFiles e (mE []) [str "l"] big_endian false false false false false 1 in OK (Exits match fst r with Some c => c | None => 1 end (snd r))).
    rewrite E1'. reflexivity.
  - change (XSUM_main e false (mE []) [str "xxhsum"; str "-H0"; str "-c"; str "l"]) with (let! r := checkFiles e (mE []) [str "l"] big_endian false false false false false 15 in OK (Exits match fst r with Some c => c | None => 1 end (snd r))).
    rewrite E2. reflexivity.
Qed.
Print Assumptions C52_aliases_check_refuted.

(** ** C54 *)
(** [xxhsum OPTIONS files > list], later [xxhsum -c OPTIONS list]: the first exits with 0; the second does if and only if every file
    still has the hash it had.  Any options are allowed that do not change what is done, that leave the algorithm among the accepted
    ones, and, unless the lines were printed with --tag, the same byte order in both. *)
Theorem C54_end_to_end : forall e console m exe args name a acc s ns e' console' m' exe' args' name' a' acc' s' list lf,
  env_ok e -> file_ok (m_stdin m) -> ~ malloc_fails e -> m_out m = [] ->
  nul_free exe -> Forall nul_free args -> total args < 2 ^ 31 -> Basename exe name -> Personality name a acc ->
  Options (default a) args (Run s ns) -> g_ids s = [] -> g_check s = false ->
  ns <> [] -> Forall (fun n => n <> str "stdin" /\ 2 * zlen n + 65 < 32768) ns -> Forall (readable e) ns ->
  env_ok e' -> file_ok (m_stdin m') -> nul_free exe' -> Forall nul_free args' -> total args' < 2 ^ 31 -> Basename exe' name' -> Personality name' a' acc' ->
  Options (default a') args' (Run s' [list]) -> g_ids s' = [] -> g_check s' = true -> g_ignore s' = false ->
  In (g_algo s) acc' -> (g_style s = display_gnu -> g_order s' = g_order s) -> e_fs e' list = Some lf -> zlen ns + 1 < 2 ^ e_ulbits e' ->
  exists m1, XSUM_main e console m (exe :: args) = OK (Exits 0 m1) /\
  (f_content lf = m_out m1 ->
   exists code m2, XSUM_main e' console' m' (exe' :: args') = OK (Exits code m2) /\
     (code = 0 -> Forall (same_digest (g_algo s) e e') ns) /\ (~ malloc_fails e' -> Forall (same_digest (g_algo s) e e') ns -> code = 0)).
Proof.
  intros e console m exe args name a acc s ns e' console' m' exe' args' name' a' acc' s' list lf EO FS NM OM NE NA TO BN PE HO GI GC NN FN RD EO' FS' NE' NA' TO' BN' PE' HO' GI' GC' GG IA ST LF UL.
  assert (NAMES : Forall nul_free ns).
  { clear - HO NA. remember (Run s ns) as out. revert ns s Heqout NA. induction HO; intros ns0 s1 Q NA; try discriminate; try (injection Q as <- <-; exact NA).
    all: try (apply Forall_inv_tail in NA; eapply IHHO; eassumption). injection Q as <- <-. exact (Forall_inv_tail NA). }
  destruct (check_line e' console' m' exe' args' name' a' acc' s' [list] NE' NA' TO' BN' PE' HO' GI' GC' ltac:(left; discriminate)) as (mask & MB & EC).
  destruct (roundtrip e m ns (g_algo s) (g_order s) (g_style s) mask e' m' list lf (g_order s') (g_strict s') (g_status s') (g_warn s') (0 <? g_quiet s')) as (m1 & EH & H); auto.
  { apply MB. exact IA. }
  exists m1. split; [rewrite (hash_line e console m exe args name a acc s ns NE NA TO BN PE HO GI GC (or_introl NN)), EH; reflexivity|].
  intros C. destruct (H C) as (r & m2 & E & H1 & H2). rewrite GG in EC. destruct (check_one _ _ _ _ _ _ _ _ _ _ _ _ E) as (m3 & E3). rewrite E3 in EC. cbn [bind fst snd] in EC.
  eexists _, m3. split; [exact EC|]. split.
  - intros Q. apply H1. destruct (checkFile_codes _ _ _ _ _ _ _ _ _ _ _ _ E) as [->|[->| ->]]; [discriminate|discriminate|reflexivity].
  - intros NM' F. rewrite (H2 NM' F). reflexivity.
Qed.
Print Assumptions C54_end_to_end.
Example C54_case : forall content, bytes_ok content -> zlen content < 2 ^ 64 -> exists l,
  let e := envE (fsE (File [content] false) (File [] false)) in let e' := envE (fsE (File [content] false) (File [l] false)) in
  (exists s, Options (default algo_xxh64) [str "-H3"; str "--little-endian"; str "--tag"; str "f"] (Run s [str "f"]) /\ g_ids s = [] /\ g_check s = false /\ g_algo s = algo_xxh3) /\
  (exists s, Options (default algo_xxh64) [str "-c"; str "--strict"; str "--status"; str "-w"; str "-q"; str "l"] (Run s [str "l"]) /\ g_ids s = [] /\ g_check s = true /\ g_ignore s = false) /\
  exists m1 m2, XSUM_main e true (mE []) [str "xxhsum"; str "-H3"; str "--little-endian"; str "--tag"; str "f"] = OK (Exits 0 m1) /\ m_out m1 = l /\
    XSUM_main e' true (mE []) [str "xxhsum"; str "-c"; str "--strict"; str "--status"; str "-w"; str "-q"; str "l"] = OK (Exits 0 m2).
Proof.
  intros content B L. destruct (C50_case content B L) as (l & H). cbv zeta in H. destruct H as (m1 & m2 & EH & EO & EC). exists l. cbv zeta.
  assert (PL : forall c, c <> 45 -> plain [[c]]) by (intros c N n rest E r Q; injection E as <- <-; injection Q as Q _; contradiction).
  split; [|split].
  - eexists. split; [eapply (documented_line [str "-H3"; str "--little-endian"; str "--tag"]); [|apply plain_names, (PL 102); discriminate]|].
    + eapply t_cons; [apply (doc_hash _ algo_xxh3); cbn; tauto|]. eapply t_cons; [apply (doc_word _ little); cbn [words In]; tauto|]. eapply t_cons; [apply (doc_word _ tag); cbn [words In]; tauto|constructor].
    + repeat split.
  - eexists. split; [eapply (documented_line [str "-c"; str "--strict"; str "--status"; str "-w"; str "-q"]); [|apply plain_names, (PL 108); discriminate]|].
    + eapply t_cons; [apply doc_check|]. eapply t_cons; [apply (doc_word _ strict); cbn [words In]; tauto|]. eapply t_cons; [apply (doc_word _ status); cbn [words In]; tauto|].
      eapply t_cons; [apply doc_warn|]. eapply t_cons; [apply doc_quiet|constructor].
    + repeat split.
  - destruct (check_one _ _ _ _ _ _ _ _ _ _ _ _ EC) as (m3 & E3). exists m1, m3. split; [|split; [exact EO|]].
    + set (e := envE _) in *. change (XSUM_main e true (mE []) [str "xxhsum"; str "-H3"; str "--little-endian"; str "--tag"; str "f"])
        with (let! r := hashFiles e (mE []) [str "f"] algo_xxh3 little_endian display_bsd in OK (Exits match fst r with Some c => c | None => 1 end (snd r))). rewrite EH. reflexivity.
    + set (e := envE (fsE (File [content] false) (File [l] false))) in *. change (XSUM_main e true (mE []) [str "xxhsum"; str "-c"; str "--strict"; str "--status"; str "-w"; str "-q"; str "l"])
        with (let! r := checkFiles e (mE []) [str "l"] big_endian true true false true true 15 in OK (Exits match fst r with Some c => c | None => 1 end (snd r))). rewrite E3. reflexivity.
Qed.
