(** Property theorems about the Unicode test and the fuzzing target: C99. *)
From Coq Require Import String.
From Verif Require Import Base Mem M_XXH32 M_XXH64 M_Cli M_Cli2 M_Cli3 M_Progs Spec32 Spec64 SpecUtil SpecCli SpecCli2 SpecCli3 P_Base P_Cli P_Cli2 P_Cli3 P_Cli4 P_Cli7 P_Util
  Properties1 Properties2 Properties8 Properties9.
Import Progs.

(** ** C99 *)
(** the files which the generator wrote are in the file system [e], read in pieces of any size *)
Definition wrote (e : env) (fs : list (path * option (list Z))) : Prop :=
  forall n content, In (Bytes n, Some content) fs -> e_dir e n = false /\ exists f, e_fs e n = Some f /\ f_content f = content /\ f_err f = false.

Definition ref_fs (n : list Z) : option file := if eqb_list n FILENAME then Some (File [str "test" ++ [10]] false) else None.
Lemma ref_ok : env_ok (envE ref_fs) /\ ~ malloc_fails (envE ref_fs).
Proof.
  apply envE_ok. intros n f. unfold ref_fs. destruct (eqb_list n FILENAME); [|discriminate]. intros [= <-]. split; [|reflexivity].
  vm_compute. repeat constructor; discriminate.
Qed.
Lemma filename_ok : nul_free FILENAME /\ FILENAME <> str "stdin" /\ 2 * zlen FILENAME + 65 < 32768.
Proof. split; [intros I; vm_compute in I; lia|]. split; [discriminate|reflexivity]. Qed.

(** the pieces that are computed *)
Lemma list_line : displayLine display_gnu big_endian (listname (Named FILENAME)) (digest algo_xxh64 (f_content (File [str "test" ++ [10]] false))) algo_xxh64
  = OK (str "2d7f1808da1fa63c  " ++ FILENAME ++ [10]).
Proof. vm_compute. reflexivity. Qed.
Lemma main_check e console m : XSUM_main e console m [str "./xxhsum"; str "-c"; str "unicode_test.xxh64"]
  = let! r := checkFiles e m [str "unicode_test.xxh64"] big_endian false false false false false 15 in OK (Exits match fst r with Some c => c | None => 1 end (snd r)).
Proof. reflexivity. Qed.
Lemma main_hash e console m : XSUM_main e console m [str "./xxhsum"; FILENAME]
  = let! r := hashFiles e m [FILENAME] algo_xxh64 big_endian display_gnu in OK (Exits match fst r with Some c => c | None => 1 end (snd r)).
Proof. reflexivity. Qed.
Lemma ref_file : e_fs (envE ref_fs) FILENAME = Some (File [str "test" ++ [10]] false).
Proof. reflexivity. Qed.
Lemma ref_input : input (envE ref_fs) (mE []) (Named FILENAME) = Some (File [str "test" ++ [10]] false).
Proof. reflexivity. Qed.
(** the output for one readable file *)
Lemma output_one e m n f line m1 : env_ok e -> file_ok (m_stdin m) -> ~ malloc_fails e -> nul_free n -> input e m (Named n) = Some f -> f_err f = false ->
  displayLine display_gnu big_endian (listname (Named n)) (digest algo_xxh64 (f_content f)) algo_xxh64 = OK line ->
  hashFiles e m [n] algo_xxh64 big_endian display_gnu = OK (Some 0, m1) -> m_out m1 = m_out m ++ line.
Proof.
  intros RO FS RM N0 I ER L EH. destruct (hashFile_ok e m (Named n) algo_xxh64 big_endian display_gnu 15 RO FS N0 eq_refl RM) as (r & m1' & EH' & _ & _ & H').
  rewrite I, ER in H'. destruct H' as (-> & line' & OM & E' & _). rewrite L in E'. injection E' as E'.
  unfold hashFiles in EH. cbn [hashFiles_loop] in EH. rewrite EH' in EH. cbn [bind] in EH. injection EH as <-. rewrite OM, <- E'. reflexivity.
Qed.
Lemma ref_output m1 : hashFiles (envE ref_fs) (mE []) [FILENAME] algo_xxh64 big_endian display_gnu = OK (Some 0, m1) -> m_out m1 = str "2d7f1808da1fa63c  " ++ FILENAME ++ [10].
Proof.
  destruct ref_ok as (RO & RM). destruct filename_ok as (N0 & _ & _).
  exact (output_one (envE ref_fs) (mE []) FILENAME _ _ m1 RO (file_ok_nil false) RM N0 ref_input eq_refl list_line).
Qed.

(** the check of the generated list: it succeeds if and only if the file can be read and has the hash written in the list *)
Lemma unicode_check e console m lf : env_ok e -> file_ok (m_stdin m) -> ~ malloc_fails e -> e_fs e (str "unicode_test.xxh64") = Some lf ->
  f_content lf = str "2d7f1808da1fa63c  " ++ FILENAME ++ [10] ->
  exists code m', XSUM_main e console m [str "./xxhsum"; str "-c"; str "unicode_test.xxh64"] = OK (Exits code m') /\
    (code = 0 <-> exists f, e_fs e FILENAME = Some f /\ f_err f = false /\ digest algo_xxh64 (f_content f) = digest algo_xxh64 (str "test" ++ [10])).
Proof.
  intros EO FS NM LF C. destruct ref_ok as (RO & RM). destruct filename_ok as (N0 & NS & NL). pose proof ref_file as F0.
  set (e0 := envE ref_fs) in *.
  destruct (C50_print_then_check e0 (mE []) [FILENAME] algo_xxh64 big_endian display_gnu 15 e m (str "unicode_test.xxh64") lf big_endian false false false false
    RO (file_ok_nil false) RM eq_refl ltac:(discriminate)) as (m1 & EH & H).
  { constructor; [exact N0|constructor]. } { constructor; [split; [exact NS|exact NL]|constructor]. } { constructor; [|constructor]. eexists. repeat split. }
  { reflexivity. } { exact EO. } { exact FS. } { reflexivity. } { exact LF. } { destruct (eo_ul e EO) as [-> | ->]; reflexivity. }
  pose proof (ref_output m1 EH) as O.
  destruct H as (r & m2 & EC & H1 & H2); [congruence|].
  destruct (check_one _ _ _ _ _ _ _ _ _ _ _ _ EC) as (m3 & E3).
  eexists _, m3. split.
  { rewrite main_check, E3. reflexivity. }
  cbn [fst]. split.
  - intros Q. assert (R : r = Some 1) by (destruct (checkFile_codes _ _ _ _ _ _ _ _ _ _ _ _ EC) as [->|[->| ->]]; [discriminate|discriminate|reflexivity]).
    specialize (H1 R). apply Forall_inv in H1. destruct H1 as (f0 & f & E0 & E1 & ER & D). rewrite F0 in E0. injection E0 as <-. exists f. auto.
  - intros (f & E1 & ER & D). rewrite (H2 NM); [reflexivity|]. constructor; [|constructor]. exists (File [str "test" ++ [10]] false), f. auto.
Qed.

(** If the generator says that it succeeded, both commands of its script succeed, whatever is in the rest of the file system and however
    the files are read. *)
Theorem C99_unicode_test : forall opens fs e console m, main false opens = (0, fs) -> wrote e fs -> env_ok e -> file_ok (m_stdin m) -> ~ malloc_fails e ->
  Forall (fun argv => exists m', XSUM_main e console m argv = OK (Exits 0 m')) commands.
Proof.
  intros opens fs e console m G W EO FS NM. unfold main in G.
  repeat match type of G with (if ?b then _ else _) = _ => destruct b; [discriminate|] end. injection G as <-.
  destruct (W FILENAME (str "test" ++ [10])) as (D & f & F & C & ER); [left; reflexivity|].
  destruct (W (str "unicode_test.xxh64") (str "2d7f1808da1fa63c  " ++ FILENAME ++ [10])) as (_ & lf & LF & LC & _); [right; left; reflexivity|].
  destruct filename_ok as (N0 & _ & _).
  constructor; [|constructor; [|constructor]].
  - destruct (C53_hash_exit_status e m [FILENAME] algo_xxh64 big_endian display_gnu EO FS NM ltac:(discriminate)) as (r & m' & E & lines & printed & _ & _ & H); [constructor; [exact N0|constructor]|].
    exists m'. rewrite main_hash, E. cbn [bind fst snd]. do 2 f_equal. assert (RD : readable e FILENAME) by (exists f; auto). destruct r as [r|].
    + destruct H as (_ & H & _). apply H. constructor; [exact RD|constructor].
    + destruct H as (pre & n & post & Q & _ & NR & _). destruct pre as [|p pre]; [injection Q as <- _; contradiction|]. destruct pre; discriminate.
  - destruct (unicode_check e console m lf EO FS NM LF LC) as (code & m' & E & H). exists m'. rewrite E. do 2 f_equal. apply H. exists f. rewrite C. auto.
Qed.
Print Assumptions C99_unicode_test.
(** The second command is a test: with any other content in the file, unless it has the same XXH64, or without the file, it fails. *)
Theorem C99_unicode_test_detects : forall e console m lf, env_ok e -> file_ok (m_stdin m) -> ~ malloc_fails e -> e_fs e (str "unicode_test.xxh64") = Some lf ->
  f_content lf = str "2d7f1808da1fa63c  " ++ FILENAME ++ [10] -> (forall f, e_fs e FILENAME = Some f -> X64.hash (f_content f) 0 <> X64.hash (str "test" ++ [10]) 0) ->
  exists code m', XSUM_main e console m [str "./xxhsum"; str "-c"; str "unicode_test.xxh64"] = OK (Exits code m') /\ code <> 0.
Proof.
  intros e console m lf EO FS NM LF C H. destruct (unicode_check e console m lf EO FS NM LF C) as (code & m' & E & Q). exists code, m'. split; [exact E|].
  rewrite Q. intros (f & F & _ & D). apply (H f F). cbn [digest] in D.
  destruct (eo_fs e EO FILENAME f F) as (B & L).
  apply (f_equal (fun l => le_val (rev l))) in D. rewrite !be_val in D by (lia || apply hash64_range'). exact D.
Qed.
Print Assumptions C99_unicode_test_detects.
(** a failure to open a file is reported, and only that *)
Theorem C99_generator_result : forall win opens r fs, main win opens = (r, fs) ->
  (r = 0 \/ r = 1) /\ (r = 0 <-> opens (if win then Wide WFILENAME else Bytes FILENAME) = true /\
    forall n, In n [str "unicode_test.xxh64"; str "unicode_test.bat"; str "unicode_test.sh"] -> opens (Bytes n) = true) /\
  (r = 0 -> map fst fs = [if win then Wide WFILENAME else Bytes FILENAME; Bytes (str "unicode_test.xxh64"); Bytes (str "unicode_test.bat"); Bytes (str "unicode_test.sh")]).
Proof.
  intros win opens r fs G. unfold main in G.
  destruct (opens (if win then Wide WFILENAME else Bytes FILENAME)) eqn:O1; cbn [negb] in G; [|injection G as <- <-; intuition discriminate].
  destruct (opens (Bytes (str "unicode_test.xxh64"))) eqn:O2; cbn [negb] in G.
  2:{ injection G as <- <-. split; [auto|]. split; [|discriminate]. split; [discriminate|]. intros (_ & H). rewrite H in O2; [discriminate|]. left. reflexivity. }
  destruct (opens (Bytes (str "unicode_test.bat"))) eqn:O3; cbn [negb] in G.
  2:{ injection G as <- <-. split; [auto|]. split; [|discriminate]. split; [discriminate|]. intros (_ & H). rewrite H in O3; [discriminate|]. right. left. reflexivity. }
  destruct (opens (Bytes (str "unicode_test.sh"))) eqn:O4; cbn [negb] in G.
  2:{ injection G as <- <-. split; [auto|]. split; [|discriminate]. split; [discriminate|]. intros (_ & H). rewrite H in O4; [discriminate|]. right. right. left. reflexivity. }
  injection G as <- <-. split; [auto|]. split; [|reflexivity]. split; [|reflexivity]. intros _. split; [reflexivity|].
  intros n [<-|[<-|[<-|[]]]]; assumption.
Qed.
Print Assumptions C99_generator_result.
(** The fuzzing target computes both hashes of every input, without undefined behaviour, and reports nothing. *)
Theorem C99_fuzzer : forall c p m, cfg_ok c -> points_to p m -> bytes_ok m -> zlen m < 2 ^ szbits c ->
  LLVMFuzzerTestOneInput c p (zlen m) = OK (0, (X64.hash m 0, X32.hash m 0)).
Proof.
  intros c p m K P B L. unfold LLVMFuzzerTestOneInput. rewrite (C02_xxh64_equals_spec c p m 0 K P B L). cbn [bind]. rewrite (C01_xxh32_equals_spec c p m 0 K P B L). reflexivity.
Qed.
Print Assumptions C99_fuzzer.

(** the two names are the same text: UTF-8 (three-byte and one-byte forms) and UTF-16 *)
Fixpoint utf8 (l : list Z) : list Z :=
  match l with
  | a :: l' => if a <? 128 then a :: utf8 l'
               else match l' with b :: c :: r => ((a - 224) * 4096 + (b - 128) * 64 + (c - 128)) :: utf8 r | _ => [] end
  | [] => []
  end.
Example C99_names : utf8 FILENAME = WFILENAME.
Proof. reflexivity. Qed.
(** the hypotheses are met: all files can be opened, and the files are read byte by byte *)
Example C99_case : exists fs, main false (fun _ => true) = (0, fs) /\
  wrote (envE (fun n => if eqb_list n FILENAME then Some (File [[116]; [101]; [115]; [116]; [10]] false)
                        else if eqb_list n (str "unicode_test.xxh64") then Some (File [str "2d7f1808da1fa63c  "; FILENAME ++ [10]] false) else None)) fs.
Proof.
  eexists. split; [reflexivity|]. intros n content [Q|[Q|[Q|[Q|[]]]]]; try discriminate Q; injection Q as <- <-; (split; [reflexivity|]); eexists; repeat split.
Qed.
