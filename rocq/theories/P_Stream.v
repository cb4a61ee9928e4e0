(** Feeding a whole list of chunks to the XXH32 / XXH64 streaming API. *)
From Verif Require Import Base Mem M_XXH32 M_XXH64 Spec32 Spec64 P_Base P_Spec P_XXH32 P_XXH64.

(** the caller's loop: one update call per (pointer, length) pair, stopping on any error code *)
Fixpoint feed {St} (upd : St -> ptr -> Z -> res (errorcode * St)) (st : St) (calls : list (ptr * Z)) : res St :=
  match calls with
  | [] => OK st
  | (p, n) :: rest =>
      let! (e, st') := upd st p n in
      match e with XXH_OK => feed upd st' rest | XXH_ERROR => UB end
  end.

(** each call reads exactly the given chunk; [margin] is the headroom needed below SIZE_MAX *)
Definition chunks_ok (c : cfg) (margin : Z) (calls : list (ptr * Z)) (chunks : list (list Z)) : Prop :=
  Forall2 (fun call d => points_to (fst call) d /\ snd call = zlen d /\ bytes_ok d
                         /\ zlen d + margin <= 2 ^ szbits c) calls chunks.

Lemma feed32_rep c seed calls chunks : cfg_ok c -> chunks_ok c 16 calls chunks ->
  forall m st, rep32 seed m st ->
  exists st', feed (XXH32_update c) st calls = OK st' /\ rep32 seed (m ++ concat chunks) st'.
Proof.
  intros C H. induction H as [|[p n] d calls chunks (P & E & B & S) _ IH]; intros m st R.
  - cbn [concat feed]. rewrite app_nil_r. eauto.
  - cbn [fst snd] in *. subst n. cbn [feed concat].
    destruct (update32_ok c seed m st p d C R P B S) as (st' & -> & R'). cbn [bind].
    rewrite app_assoc. apply IH, R'.
Qed.
Lemma feed64_rep c seed calls chunks : cfg_ok c -> chunks_ok c 32 calls chunks ->
  forall m st, rep64 seed m st ->
  exists st', feed (XXH64_update c) st calls = OK st' /\ rep64 seed (m ++ concat chunks) st'.
Proof.
  intros C H. induction H as [|[p n] d calls chunks (P & E & B & S) _ IH]; intros m st R.
  - cbn [concat feed]. rewrite app_nil_r. eauto.
  - cbn [fst snd] in *. subst n. cbn [feed concat].
    destruct (update64_ok c seed m st p d C R P B S) as (st' & -> & R'). cbn [bind].
    rewrite app_assoc. apply IH, R'.
Qed.

Lemma stream32 c seed calls chunks : cfg_ok c -> chunks_ok c 16 calls chunks ->
  (let! st := feed (XXH32_update c) (XXH32_reset seed) calls in XXH32_digest c st) =
  OK (X32.hash (concat chunks) seed).
Proof.
  intros C H. destruct (feed32_rep c seed calls chunks C H [] _ (reset32_rep seed)) as (st & -> & R).
  cbn [bind]. apply digest32_ok; assumption.
Qed.
Lemma stream64 c seed calls chunks : cfg_ok c -> chunks_ok c 32 calls chunks ->
  zlen (concat chunks) < 2 ^ 64 ->
  (let! st := feed (XXH64_update c) (XXH64_reset seed) calls in XXH64_digest c st) =
  OK (X64.hash (concat chunks) seed).
Proof.
  intros C H L. destruct (feed64_rep c seed calls chunks C H [] _ (reset64_rep seed)) as (st & -> & R).
  cbn [bind]. apply digest64_ok; assumption.
Qed.
