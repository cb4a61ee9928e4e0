(** Property theorems about threads that share the x86 dispatcher (C59). *)
From Coq Require Import Permutation.
From Verif Require Import Base Mem M_XXH32 M_XXH64 M_XXH3 M_Kernels M_Long M_Stream3 M_Dispatch M_DispatchMT Spec3 P_Base P_Spec
  P_X3_Base P_X3_Short P_Kernels P_Kernels2 P_X3_Long P_Stream P_Stream3 P_Stream4 History P_History P_Dispatch P_DispatchMT
  Properties1 Properties2 Properties3 Properties6.

(** C59, values: any number of threads run any programs of dispatched calls (each call may depend on what the
    thread's earlier calls returned); in builds that fill the tables on first use, the first calls race.  After any
    interleaving every completed call was made with proper arguments and has returned what the specification says
    ([right] also covers the state an update leaves behind). *)
Theorem C59_racing_calls_are_right : forall c d p prog ts w w', dispatch_ok c d p ->
  (forall t h j, Forall (fun x => proper c (fst x) /\ right c (fst x) (snd x)) h -> prog t h = Some j -> proper c j) ->
  starts c d p w -> steps c d p prog ts w w' ->
  forall t j a, In (j, a) (done (threads w' t)) -> proper c j /\ right c j a.
Proof.
  intros c d p prog ts w w' (C & X & LE & R1 & R2 & V) PROG S0 S t j a I. assert (R : runs d p) by (split; assumption).
  pose proof (steps_ok c d p prog C X LE R V PROG _ _ _ (start_world c d p prog C X LE R V w S0) S) as [_ T].
  destruct (T t) as [H _]. unfold ok_history in H. rewrite Forall_forall in H. exact (H _ I).
Qed.
Print Assumptions C59_racing_calls_are_right.

(** C59, progress: no thread ever waits for another one.  At any moment a thread whose program has a further call
    can take a step, and eleven steps of its own complete the call, whatever the others do in between; completed
    calls stay. *)
Theorem C59_wait_free : forall c d p prog ts w w' t, dispatch_ok c d p ->
  (forall t h j, Forall (fun x => proper c (fst x) /\ right c (fst x) (snd x)) h -> prog t h = Some j -> proper c j) ->
  starts c d p w -> steps c d p prog ts w w' ->
  (prog t (done (threads w' t)) <> None -> exists w2, step c d p prog t w' w2) /\
  forall ts2 w2, steps c d p prog ts2 w' w2 ->
    (length (done (threads w' t)) <= length (done (threads w2 t)))%nat /\
    (11 <= count_occ Nat.eq_dec ts2 t -> length (done (threads w' t)) < length (done (threads w2 t)))%nat.
Proof.
  intros c d p prog ts w w' t (C & X & LE & R1 & R2 & V) PROG S0 S. assert (R : runs d p) by (split; assumption).
  pose proof (steps_ok c d p prog C X LE R V PROG _ _ _ (start_world c d p prog C X LE R V w S0) S) as W. split.
  - apply can_step; assumption.
  - intros ts2 w2 S2. destruct (wait_free c d p prog C X LE R V PROG t _ _ _ W S2) as [A B]. split; [exact A|].
    intros L. apply B. destruct W as [_ T]. destruct (T t) as [_ O]. unfold left_. destruct (at_ (threads w' t)); [lia| |lia].
    destruct O as (_ & _ & _ & O). lia.
Qed.
Print Assumptions C59_wait_free.

(** A case: a build without constructors; every thread hashes 300 zero bytes with XXH3_64bits, then with a seed, then
    ends.  Threads 0 and 1 both find NULL, thread 0 makes one store (the pointer thread 2 needs), and thread 2 gets
    through with the table filled no further. *)
Definition lazy_x64 : dcfg := Dcfg (d_scalar default_x64) (d_avx2 default_x64) (d_avx512 default_x64) (d_gnu_i386 default_x64) true.
Definition zeros300 : list Z := repeat 0 300.
Definition two_calls : program := fun h =>
  match h with [] => Some (Call64 (Ptr zeros300 64 0) 300) | [_] => Some (Call64_seed (Ptr zeros300 64 0) 300 7) | _ => None end.
Definition w_start : world := World g_zero (fun _ => Thread [] Before).
Example C59_case :
  dispatch_ok x64_cfg lazy_x64 big_cpu /\ starts x64_cfg lazy_x64 big_cpu w_start /\
  (forall (t : nat) h j, Forall (fun x => proper x64_cfg (fst x) /\ right x64_cfg (fst x) (snd x)) h -> two_calls h = Some j -> proper x64_cfg j) /\
  exists w, steps x64_cfg lazy_x64 big_cpu (fun _ => two_calls) [0; 1; 0; 2; 2]%nat w_start w /\
    length (done (threads w 2)) = 1%nat /\ t_seed (g64 (shared w)) = None /\ t_default (g64 (shared w)) <> None.
Proof.
  assert (PZ : input_ok (Ptr zeros300 64 0) 300).
  { exists zeros300. split; [exists [], []; split; [rewrite app_nil_r; reflexivity|reflexivity]|]. split; [|reflexivity].
    apply Forall_forall. intros x I. apply repeat_spec in I. subst x. unfold byte_ok; cbn; lia. }
  split; [|split; [|split]].
  - split; [constructor; cbn; auto; lia|]. split; [reflexivity|]. split; [reflexivity|]. split; [right; reflexivity|].
    split; [cbn; lia|]. right. split; [reflexivity|]. split; [cbn; lia|reflexivity].
  - split; [reflexivity|]. intros t. reflexivity.
  - intros t h j _ E. destruct h as [|x [|y h]]; cbn in E; try discriminate; injection E as <-; cbn [proper]; auto. split; [exact PZ|lia].
  - set (r := Globals (row64 x64_cfg (k_avx512 x64_cfg)) (row128 x64_cfg (k_avx512 x64_cfg))).
    eexists. split.
    + eapply Steps_cons. { eapply (Step_null _ _ _ _ 0%nat w_start [] _ r all_slots); [reflexivity..|apply Permutation_refl]. }
      eapply Steps_cons. { eapply (Step_null _ _ _ _ 1%nat _ [] _ r all_slots); [reflexivity..|apply Permutation_refl]. }
      eapply Steps_cons. { eapply (Step_store _ _ _ _ 0%nat _ [] r S64_default); reflexivity. }
      eapply Steps_cons. { eapply (Step_found _ _ _ _ 2%nat _ []); reflexivity. }
      eapply Steps_cons. { eapply (Step_call _ _ _ _ 2%nat _ []); reflexivity. }
      apply Steps_nil.
    + cbn [threads shared set_thread Nat.eqb done app length store g64 t_seed t_default w_start g_zero null_table]. split; [reflexivity|]. split; [reflexivity|discriminate].
Qed.
