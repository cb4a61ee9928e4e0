(** Property theorems about the files and the memory of xxhsum: C104. *)
From Coq Require Import String.
From Verif Require Import Base Mem M_Cli M_Cli2 M_Cli3 M_CliRes SpecRes P_Base P_CliRes Properties8 Properties9.

(** ** C104 *)
(** The model with the calls is the model without them, plus the list of the calls: everything proved of the one holds of the other. *)
Theorem C104_same_program : forall e console m argv, (let! (o, _) := Res.XSUM_main e console m argv in OK o) = XSUM_main e console m argv.
Proof.
  intros e console m argv. pose proof (main_res e console m argv) as H. unfold sim in H. destruct (XSUM_main e console m argv); [destruct H as (l & -> & _)|rewrite H..]; reflexivity.
Qed.
Print Assumptions C104_same_program.

(** Whatever the system does, on every command line: no file is read or closed that is not open, no block is used, moved or freed that is not held
    (so nothing is closed or freed twice); and there are never more than three files open (stdin, the list, one file) and two blocks held, however
    many files are hashed or checked. *)
Theorem C104_allowed : forall e console m argv o l, Res.XSUM_main e console m argv = OK (o, l) ->
  exists s, stands l s /\ (most_opened s <= 3)%nat /\ (most_held s <= 2)%nat.
Proof.
  intros e console m argv o l E. pose proof (main_res e console m argv) as H. unfold sim in H. destruct (XSUM_main e console m argv); [|congruence..].
  destruct H as (l' & E' & s & H & A & B & _). rewrite E in E'. injection E' as _ <-. eauto.
Qed.
Print Assumptions C104_allowed.

(** Everything is given back: with the exit code 0 no block is held and no file but stdin is open; stdin is still open too, unless it was the file to
    be hashed. *)
Theorem C104_given_back : forall e console m argv m' l, Res.XSUM_main e console m argv = OK (Exits 0 m', l) ->
  exists s, stands l s /\ held s = [] /\ (opened s = [Std] \/ opened s = [] /\ exists a de conv, command console argv = OK (Hash [] a de conv)).
Proof.
  intros e console m argv m' l E. pose proof (main_res e console m argv) as H. unfold sim in H. destruct (XSUM_main e console m argv); [|congruence..].
  destruct H as (l' & E' & s & H & _ & _ & D). rewrite E in E'. injection E' as <- <-. eauto.
Qed.
Print Assumptions C104_given_back.

(** The same for the functions, whatever they return, for any history before ([None] is the call of exit(1) after a read error or when memory runs
    out, the only way to leave with a file open or a block held). *)
Theorem C104_hash : forall e m l ns a de conv s r m' l', stands l s -> In Std (opened s) -> Res.hashFiles e m l ns a de conv = OK (Some r, m', l') ->
  exists s', stands l' s' /\ held s' = held s /\ opened s' = match ns with [] => without Std (opened s) | _ => opened s end.
Proof.
  intros e m l ns a de conv s r m' l' H I E. pose proof (hashFiles_res e m l ns a de conv s H I) as S1. unfold sim in S1. destruct (hashFiles e m ns a de conv); [|congruence..].
  destruct S1 as (l1 & E1 & s1 & H1 & _ & D). rewrite E in E1. injection E1 as <- <-. destruct D as [D|[D1 D2]]; [discriminate|]. eauto.
Qed.
Print Assumptions C104_hash.
Theorem C104_check : forall e m l ns de strict status im warn q mask s r m' l', stands l s -> In Std (opened s) ->
  Res.checkFiles e m l ns de strict status im warn q mask = OK (Some r, m', l') -> exists s', stands l' s' /\ held s' = held s /\ opened s' = opened s.
Proof.
  intros e m l ns de strict status im warn q mask s r m' l' H I E. pose proof (checkFiles_res e m l ns de strict status im warn q mask s H I) as S1. unfold sim in S1.
  destruct (checkFiles e m ns de strict status im warn q mask); [|congruence..].
  destruct S1 as (l1 & E1 & s1 & H1 & _ & D). rewrite E in E1. injection E1 as <- <-. destruct D as [D|[D1 D2]]; [discriminate|]. eauto.
Qed.
Print Assumptions C104_check.

(** what is allowed and what is not *)
Example C104_rules : stands [Opened; Allocated; Read (At 0); Used (At 1); Closed (At 0); Freed (At 1)] (Store [Std] [] 2 1) /\
  replay 0 [Closed Std; Read Std] start = None /\ replay 0 [Allocated; Freed (At 0); Freed (At 0)] start = None /\ replay 0 [Allocated; Moved (At 0); Used (At 0)] start = None /\
  replay 0 [Opened; Closed (At 0); Closed (At 0)] start = None.
Proof. repeat split. Qed.
(** a run: the list has one line of no known format *)
Example C104_case : exists m', Res.checkFiles (envE (fsE (File [] false) (File [str "j" ++ [10]] false))) (mE []) [] [str "l"] big_endian false false false true false 15 =
  OK (Some 1, m', [Opened; Allocated; Allocated; Read (At 0); Used (At 1); Read (At 0); Used (At 1); Used (At 1); Read (At 0); Used (At 1); Freed (At 2); Freed (At 1); Closed (At 0)]).
Proof. eexists. vm_compute. reflexivity. Qed.
