(** Property theorems about the messages of the benchmark of xxhsum: C107. *)
From Coq Require Import String List.
From Verif Require Import Base Mem M_XXH3 M_Stream3 M_Util M_Sanity M_Cli M_Cli2 M_Cli3 M_Bench M_BenchErr SpecCli2 SpecBench SpecBenchErr P_Base P_Cli3 P_Bench P_BenchErr Properties11.

(** ** C107 *)
(** The model with the messages is the model without them, plus the messages. *)
Theorem C107_same_program : forall c a fuel malloc get get1 strerr said ids fs k acc n,
  (let! (b, _) := BErr.benchInternal c a get1 said ids n in OK b) = benchInternal c a get1 ids n /\
  (let! (b, _) := BErr.benchFiles c a fuel malloc get strerr said ids fs k acc in OK b) = benchFiles c a fuel malloc get ids (map snd fs) k acc.
Proof. intros. split; [apply erase_internal|apply erase_files]. Qed.
Print Assumptions C107_same_program.

(** On files: a notice for each file of which only a part is hashed, with the size of that part, and the reason for which it gives up, if it does, in
    order; besides these nothing but what the tests say. *)
Theorem C107_text : forall c a fuel malloc get strerr said ids (fails : Z -> nat) fs,
  cfg_ok c -> calm a -> zlen ids = 29 ->
  Forall (fun f => 0 <= bf_size (snd f) < 2 ^ 63 /\ match bf_open (snd f) with Some d => bytes_ok d | None => True end) fs ->
  (forall i f, nth_error fs i = Some f -> granted (malloc (Z.of_nat i)) (bf_size (snd f)) (fails (Z.of_nat i))) ->
  (forall k, (fails k < fuel)%nat) ->
  exists b, BErr.benchFiles c a fuel malloc get strerr said ids fs 0 [] =
    OK (b, about_bench (fun k => Z.of_nat (fails k)) (fun k n => match get k n with Some _ => true | None => false end) strerr said
             (map (fun f => (fst f, bf_size (snd f), bf_open (snd f))) fs) 0).
Proof.
  intros c a fuel malloc get strerr said ids fails fs C A LI FO MA FU.
  destruct (C56_files c a fuel malloc get ids fails (map snd fs) C A LI) as (b & E & _).
  - rewrite Forall_map. exact FO.
  - intros i f I. rewrite nth_error_map in I. destruct (nth_error fs i) as [x|] eqn:X; [|discriminate]. injection I as <-. exact (MA i x X).
  - exact FU.
  - exists b. rewrite <- (erase_files c a fuel malloc get strerr said ids fs 0 []) in E. destruct (BErr.benchFiles _ _ _ _ _ _ _ _ _ _ _) as [[b' t]| |] eqn:B; [|discriminate..].
    cbn [bind] in E. injection E as ->. f_equal. f_equal. apply (files_text c C a fuel malloc get strerr said ids fails fs 0 [] b t); [|exact MA|exact FU|exact B].
    eapply Forall_impl; [|exact FO]. intros f [H _]. exact H.
Qed.
Print Assumptions C107_text.

(** On the internal sample: what the tests say, or that memory ran out. *)
Theorem C107_internal : forall c a get said ids n, cfg_ok c -> calm a -> zlen ids = 29 -> 0 <= n -> n + 19 < 2 ^ szbits c ->
  exists b, BErr.benchInternal c a get said ids n = OK (b, match get (n + 19) with Some _ => said 0 | None => reason 12 [] [] end).
Proof.
  intros c a get said ids n C A LI H0 H1. pose proof (C56_internal c a get ids n C A LI H0 H1) as E. rewrite <- (erase_internal c a get said ids n) in E.
  unfold BErr.benchInternal in *. assert (U : usz c (usz c (n + 16) + 3) = n + 19) by (unfold usz; rewrite (Z.mod_small (n + 16)) by lia; rewrite Z.mod_small; lia). rewrite U in *.
  destruct (get (n + 19)) as [base|]; [|eexists; reflexivity]. destruct (benchMem _ _ _ _ _ _); [|discriminate..]. eexists. reflexivity.
Qed.
Print Assumptions C107_internal.

(** The whole benchmark mode, whatever malloc and the files do: an exit code other than 0 is 11, 12 or 13, and the last thing on stderr is the reason, with
    the name of one of the files given. *)
Theorem C107_no_silent_failure : forall c a fuel malloc get strerr said file ids size names code t,
  BErr.benchmark c a fuel malloc get strerr said file ids size names = OK (code, t) -> code <> 0 ->
  (code = 11 \/ code = 12 \/ code = 13) /\ exists before name, (names <> [] -> In name names) /\ t = before ++ reason code name strerr.
Proof.
  intros c a fuel malloc get strerr said file ids size names code t E N. unfold BErr.benchmark in E. destruct names as [|n ns].
  - unfold BErr.benchInternal in E. destruct (get 0 _) as [base|].
    + destruct (benchMem _ _ _ _ _ _); [|discriminate..]. cbn [bind] in E. injection E as <- _. congruence.
    + cbn [bind] in E. injection E as <- <-. split; [auto|]. exists [], []. split; [congruence|reflexivity].
  - destruct (BErr.benchFiles _ _ _ _ _ _ _ _ _ _ _) as [[b t']| |] eqn:B; [|discriminate..]. cbn [bind] in E. injection E as <- <-. destruct b as [k|r]; [|congruence].
    apply files_reason in B. destruct B as (CO & before & name & I & ->). split; [exact CO|]. exists before, name. split; [|reflexivity]. intros _.
    rewrite map_map in I. rewrite map_id in I. exact I.
Qed.
Print Assumptions C107_no_silent_failure.

(** a file of 3 GB of which 24 * 64 MB are hashed, and one that cannot be opened *)
Example C107_case : command false [str "xxhsum"; str "-b1"; str "-qq"; str "f"; str "g"] = OK (Bench (0 :: 1 :: repeat 0 27) 3 102400 [str "f"; str "g"]) /\
  about_bench (fun _ => 5) (fun _ _ => true) (str "No such file") (fun _ => str "50000, ") [(str "f", 3000000000, None)] 0 =
    str "Not enough memory for 'f' full size; testing 1536 MB only..." ++ [10] ++ str "Error: Could not open 'f': No such file." ++ [10] /\
  about_bench (fun _ => 0) (fun _ _ => true) (str "No such file") (fun _ => str "50000, ") [(str "f", 2, Some [1; 2]); (str "g", 2, None)] 0 =
    str "50000, Error: Could not open 'g': No such file." ++ [10] /\
  BErr.benchmark b32 quiet 40 (fun _ _ n => n <? 1000) (fun _ _ => Some 64) (str "EIO") (fun _ => []) (fun _ => BFile 300 (Some [1])) (0 :: 1 :: repeat 0 27) 102400 [str "g"] =
    OK (13, str "Not enough memory for 'g' full size; testing 0 MB only..." ++ [10] ++ [10] ++ str "Error: Could not read 'g': EIO." ++ [10]).
Proof. repeat split; vm_compute; reflexivity. Qed.
