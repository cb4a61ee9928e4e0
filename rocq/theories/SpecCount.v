(** All inputs of a given length, to count the hashes (for C110). *)
From Coq Require Import ZArith List FinFun.
From Verif Require Import Base Spec32.

Fixpoint inputs (n : nat) : list (list Z) :=
  match n with O => [[]] | S n => flat_map (fun b => map (cons b) (inputs n)) (upto 256) end.
Lemma inputs_all n m : In m (inputs n) <-> length m = n /\ Forall (fun b => 0 <= b < 256) m.
Proof.
  revert m. induction n as [|n IH]; intros m; cbn [inputs].
  - split; [intros [<-|[]]; auto|]. intros [L _]. destruct m; [left; reflexivity|discriminate].
  - rewrite in_flat_map. split.
    + intros (b & B & M). apply in_map_iff in M. destruct M as (r & <- & R). apply IH in R. destruct R as [L F]. unfold upto in B. apply in_map_iff in B. destruct B as (i & <- & I). apply in_seq in I.
      split; [cbn [length]; rewrite L; reflexivity|]. constructor; [|exact F]. lia.
    + intros [L F]. destruct m as [|b r]; [discriminate|]. inversion F; subst. exists b. split; [unfold upto; apply in_map_iff; exists (Z.to_nat b); split; [lia|apply in_seq; lia]|].
      apply in_map. apply IH. split; [cbn [length] in L; lia|assumption].
Qed.
Lemma inputs_once n : NoDup (inputs n).
Proof.
  induction n as [|n IH]; cbn [inputs]; [repeat constructor; intros []|]. assert (U : NoDup (upto 256)) by (apply Injective_map_NoDup; [intros x y Q; lia|apply seq_NoDup]).
  induction (upto 256) as [|b l IL]; [constructor|]. inversion U; subst. cbn [flat_map].
  assert (A : forall (x y : list (list Z)), NoDup x -> NoDup y -> (forall m, In m x -> ~ In m y) -> NoDup (x ++ y)).
  { clear. induction x as [|m x IX]; intros y X Y D; [exact Y|]. inversion X; subst. cbn. constructor.
    - rewrite in_app_iff. intros [I|I]; [contradiction|]. apply (D m); [left; reflexivity|exact I].
    - apply IX; trivial. intros k K. apply D. right. exact K. }
  apply A; [apply Injective_map_NoDup; [intros x y Q; congruence|exact IH]|apply IL; assumption|].
  intros m M F. apply in_map_iff in M. destruct M as (r & <- & _). apply in_flat_map in F. destruct F as (b' & B' & F). apply in_map_iff in F. destruct F as (r' & E & _). injection E as -> _. contradiction.
Qed.
Lemma inputs_length n : length (inputs n) = (256 ^ n)%nat.
Proof.
  induction n as [|n IH]; [reflexivity|]. cbn [inputs]. assert (G : forall l : list Z, length (flat_map (fun b => map (cons b) (inputs n)) l) = (length l * 256 ^ n)%nat).
  { induction l as [|b l IL]; [reflexivity|]. cbn [flat_map]. rewrite app_length, map_length, IH, IL. reflexivity. }
  rewrite G. unfold upto. rewrite map_length, seq_length. reflexivity.
Qed.
