(** Proofs about M_Win.v *)
From Coq Require Import String.
From Verif Require Import Base Mem M_Cli M_Cli2 M_Cli3 M_Win P_Base SpecUni.
Import Win.

(** ** The heap *)
Definition ids (l : list (Z * list Z)) : list Z := map fst l.
Definition below (p : Z) (l : list (Z * list Z)) : Prop := Forall (fun q => q < p) (ids l).
Definition away (p : Z) (l : list (Z * list Z)) : Prop := ~ In p (ids l).

Lemma max_ge l : Forall (fun q => q <= fold_right Z.max 0 l) l /\ 0 <= fold_right Z.max 0 l.
Proof.
  induction l as [|x l [F N]]; cbn [fold_right]; split; try constructor; try lia.
  eapply Forall_impl; [|exact F]. cbv beta. intros. lia.
Qed.
Lemma fresh_pos h : 0 < fresh h.
Proof. unfold fresh. pose proof (proj2 (max_ge (map fst (h_blocks h)))). lia. Qed.
Lemma fresh_below h : below (fresh h) (h_blocks h).
Proof. unfold below, ids, fresh. eapply Forall_impl; [|exact (proj1 (max_ge (map fst (h_blocks h))))]. cbv beta. intros. lia. Qed.
Lemma below_away p l : below p l -> away p l.
Proof. unfold below, away. intros B I. rewrite Forall_forall in B. specialize (B p I). lia. Qed.
Lemma remove_at p d l1 l2 : away p l1 -> remove p (l1 ++ (p, d) :: l2) = OK (l1 ++ l2).
Proof.
  unfold away. induction l1 as [|[q e] l1 IH]; cbn [app remove ids map fst In]; intros A; [rewrite Z.eqb_refl; reflexivity|].
  destruct (Z.eqb_spec q p); [subst; tauto|]. rewrite IH by (unfold ids; tauto). reflexivity.
Qed.
Lemma find_at p d l1 l2 : away p l1 -> find p (l1 ++ (p, d) :: l2) = OK d.
Proof.
  unfold away. induction l1 as [|[q e] l1 IH]; cbn [app find ids map fst snd In]; intros A; [rewrite Z.eqb_refl; reflexivity|].
  destruct (Z.eqb_spec q p); [subst; tauto|]. apply IH. unfold ids. tauto.
Qed.
Lemma find_head p d l : find p ((p, d) :: l) = OK d.
Proof. cbn [find fst snd]. rewrite Z.eqb_refl. reflexivity. Qed.
Lemma replace_at p d e l1 l2 : away p l1 -> replace p e (l1 ++ (p, d) :: l2) = l1 ++ (p, e) :: l2.
Proof.
  unfold away. induction l1 as [|[q x] l1 IH]; cbn [app replace ids map fst snd In]; intros A; [rewrite Z.eqb_refl; reflexivity|].
  destruct (Z.eqb_spec q p); [subst; tauto|]. rewrite IH by (unfold ids; tauto). reflexivity.
Qed.
Lemma away_nil p : away p [].
Proof. intros []. Qed.
Lemma free_at p d l1 l2 n : 0 < p -> away p l1 -> free (Heap (l1 ++ (p, d) :: l2) n) p = OK (Heap (l1 ++ l2) n).
Proof. intros P A. unfold free. replace (p =? 0) with false by lia. cbn [h_blocks h_calls]. rewrite remove_at by exact A. reflexivity. Qed.
Lemma free_head p d l n : 0 < p -> free (Heap ((p, d) :: l) n) p = OK (Heap l n).
Proof. intros P. apply (free_at p d [] l n P (away_nil p)). Qed.

Lemma Forall2_length {X Y} (R : X -> Y -> Prop) l m : Forall2 R l m -> List.length l = List.length m.
Proof. induction 1; cbn [List.length]; congruence. Qed.
(** what malloc gives: a block of the size asked for *)
Definition alloc_ok (a : alloc) : Prop := forall k n, 0 <= n -> zlen (a_junk a k n) = n.
Lemma upto_nul_ok s r : ~ In 0 s -> upto_nul (s ++ 0 :: r) = OK s.
Proof.
  induction s as [|x s IH]; cbn [app upto_nul In]; intros N; [reflexivity|]. destruct (Z.eqb_spec x 0); [subst; tauto|].
  rewrite IH by tauto. reflexivity.
Qed.
Lemma put_at p b i d l1 l2 n : away p l1 -> 0 <= i -> i + zlen d <= zlen b ->
  put (Heap (l1 ++ (p, b) :: l2) n) p i d = OK (Heap (l1 ++ (p, zslice b 0 i ++ d ++ zslice b (i + zlen d) (zlen b - i - zlen d)) :: l2) n).
Proof.
  intros A I L. unfold put. cbn [h_blocks h_calls]. rewrite find_at by exact A. cbn [bind]. rewrite store_ok by assumption. cbn [bind].
  rewrite replace_at by exact A. reflexivity.
Qed.

(** every call succeeds *)
Definition generous (a : alloc) : Prop := forall k n, a_ok a k n = true /\ a_again a k = true.

Section Win.
Context (c : cfg) (C : cfg_ok c) (a : alloc) (A : alloc_ok a).

Lemma malloc_cases h size width : (exists m, malloc a h size width = (0, m) /\ h_blocks m = h_blocks h /\ a_ok a (h_calls h) size = false) \/
  malloc a h size width = (fresh h, Heap ((fresh h, a_junk a (h_calls h) (size / width)) :: h_blocks h) (S (h_calls h))).
Proof. unfold malloc. destruct (a_ok a (h_calls h) size); [right; reflexivity|]. left. eexists. split; [reflexivity|]. split; reflexivity. Qed.

Definition converted (f : list Z -> option (list Z)) (h : heap) (s : list Z) (p len : Z) (h' : heap) : Prop :=
  p = 0 /\ h_blocks h' = h_blocks h /\ (generous a -> forall w, f s = Some w -> 2 ^ 31 <= zlen w + 1) \/
  exists w, f s = Some w /\ zlen w + 1 < 2 ^ 31 /\ p = fresh h /\ len = zlen w + 1 /\ h_blocks h' = (p, w ++ [0]) :: h_blocks h.
Lemma convert_ok f width h s : width = 1 \/ width = 2 ->
  exists p len h', convertString c a f width h s = OK (p, len, h') /\ converted f h s p len h'.
Proof.
  intros W. unfold convertString, Convert. destruct (f s) as [w|] eqn:F.
  2: { cbn. do 3 eexists. split; [reflexivity|]. left. split; [reflexivity|]. split; [reflexivity|]. intros _ w E. congruence. }
  zlen_pose. pose proof (zlen_nonneg w). destruct (Z.leb_spec (2 ^ 31) (zlen w + 1)) as [B|B].
  { cbn. do 3 eexists. split; [reflexivity|]. left. split; [reflexivity|]. split; [reflexivity|]. intros _ v E. rewrite F in E. injection E as <-. exact B. }
  cbn [Z.eqb]. replace (zlen w + 1 =? 0) with false by lia.
  assert (U : usz c ((zlen w + 1) * width) = (zlen w + 1) * width).
  { unfold usz. apply Z.mod_small. destruct (ok_sz c C) as [-> | ->]; destruct W as [-> | ->]; lia. }
  rewrite U. destruct (malloc_cases h ((zlen w + 1) * width) width) as [(m & -> & M & N)| ->].
  { cbn [Z.eqb]. do 3 eexists. split; [reflexivity|]. left. split; [reflexivity|]. split; [exact M|]. intros G. destruct (G (h_calls h) ((zlen w + 1) * width)). congruence. }
  pose proof (fresh_pos h). replace (fresh h =? 0) with false by lia. rewrite Z.div_mul by lia. cbn [h_calls].
  set (j := a_junk a (h_calls h) (zlen w + 1)). assert (J : zlen j = zlen w + 1) by (apply A; lia).
  destruct (a_again a (S (h_calls h))) eqn:G.
  - rewrite Z.ltb_irrefl. replace (zlen w + 1 =? 0) with false by lia.
    rewrite (put_at (fresh h) j 0 (w ++ [0]) [] (h_blocks h)) by (try apply away_nil; try lia; rewrite zlen_app; change (zlen [0]) with 1; lia).
    cbn [bind app]. do 3 eexists. split; [reflexivity|]. right. exists w. split; [exact F|]. split; [exact B|]. split; [reflexivity|]. split; [reflexivity|].
    cbn [h_blocks]. f_equal. f_equal. rewrite zlen_app. change (zlen [0]) with 1. replace (zlen j - 0 - (zlen w + 1)) with 0 by lia. unfold zslice. cbn [Z.to_nat firstn app]. apply app_nil_r.
  - rewrite (put_at (fresh h) j 0 [] [] (h_blocks h)) by (try apply away_nil; try lia; change (zlen []) with 0; lia).
    cbn [bind app]. cbn [Z.eqb]. rewrite free_head by lia. cbn [bind]. do 3 eexists. split; [reflexivity|]. left. split; [reflexivity|]. split; [reflexivity|].
    intros GG. destruct (GG (S (h_calls h)) 0). congruence.
Qed.

Lemma heap_eta h l : h_blocks h = l -> h = Heap l (h_calls h).
Proof. intros <-. destruct h. reflexivity. Qed.
Lemma string_at_ok h p w l1 l2 : h_blocks h = l1 ++ (p, w ++ [0]) :: l2 -> away p l1 -> ~ In 0 w -> string_at h p = OK w.
Proof. intros E AW N. unfold string_at. rewrite E, find_at by exact AW. cbn [bind]. apply upto_nul_ok, N. Qed.
Lemma fresh_away h p l : h_blocks h = (p, l) :: tl (h_blocks h) -> away p [(fresh h, @nil Z)].
Proof.
  intros E [Q|[]]. cbn [ids map fst] in Q. pose proof (fresh_below h) as F. rewrite E in F. unfold below, ids in F. cbn [map fst] in F.
  inversion F; subst. lia.
Qed.
Lemma free_first h p d l : 0 < p -> h_blocks h = (p, d) :: l -> exists h', free h p = OK h' /\ h_blocks h' = l.
Proof. intros P E. rewrite (heap_eta h _ E). rewrite free_head by exact P. eexists. split; reflexivity. Qed.

(** the system never puts a NUL into a converted string *)
Definition clean (o : os) : Prop := forall s w, to_wide o s = Some w \/ to_narrow o s = Some w -> ~ In 0 s -> ~ In 0 w.

Lemma fopen_ok o h name mode : clean o -> ~ In 0 name -> ~ In 0 mode ->
  exists r h', XSUM_fopen c a o h name mode = OK (r, h') /\ h_blocks h' = h_blocks h /\
    (r = None \/ exists w m, to_wide o name = Some w /\ to_wide o mode = Some m /\ r = wfopen o w m) /\
    (generous a -> forall w m, to_wide o name = Some w -> to_wide o mode = Some m -> zlen w + 1 < 2 ^ 31 -> zlen m + 1 < 2 ^ 31 -> r = wfopen o w m).
Proof.
  intros CL N1 N2. unfold XSUM_fopen, widenString.
  destruct (convert_ok (to_wide o) 2 h name ltac:(lia)) as (p & len & h1 & -> & [(-> & B & X)|(w & F & S & P & L & B)]); cbn [bind].
  { cbn [Z.eqb]. do 2 eexists. split; [reflexivity|]. split; [exact B|]. split; [left; reflexivity|]. intros G w m E _ Q. specialize (X G w E). lia. }
  pose proof (fresh_pos h). replace (p =? 0) with false by lia.
  destruct (convert_ok (to_wide o) 2 h1 mode ltac:(lia)) as (q & len2 & h2 & -> & [(-> & B2 & X)|(m & F2 & S2 & P2 & L2 & B2)]); cbn [bind].
  { cbn [Z.eqb]. cbn [bind]. rewrite B in B2. destruct (free_first h2 p _ _ ltac:(lia) B2) as (h3 & -> & B3). cbn [bind]. do 2 eexists. split; [reflexivity|].
    split; [exact B3|]. split; [left; reflexivity|]. intros G v m _ E _ Q. specialize (X G m E). lia. }
  pose proof (fresh_pos h1). replace (q =? 0) with false by lia. rewrite B in B2.
  assert (AW : away p [(q, m ++ [0])]).
  { pose proof (fresh_below h1) as FB. rewrite B in FB. unfold below, ids in FB. cbn [map fst] in FB. inversion FB; subst. intros [Q|[]]. cbn [fst] in Q. lia. }
  rewrite (string_at_ok h2 p w [(q, m ++ [0])] (h_blocks h)); [|rewrite B2; reflexivity|exact AW|eapply CL; [left; exact F|exact N1]]. cbn [bind].
  rewrite (string_at_ok h2 q m [] ((p, w ++ [0]) :: h_blocks h)); [|exact B2|apply away_nil|eapply CL; [left; exact F2|exact N2]]. cbn [bind].
  destruct (free_first h2 q _ _ ltac:(lia) B2) as (h3 & -> & B3). cbn [bind]. destruct (free_first h3 p _ _ ltac:(lia) B3) as (h4 & -> & B4). cbn [bind].
  do 2 eexists. split; [reflexivity|]. split; [exact B4|]. split.
  - right. exists w, m. auto.
  - intros _ w' m' E1 E2 _ _. congruence.
Qed.
Lemma isDirectory_ok o h name : clean o -> ~ In 0 name ->
  exists r h', XSUM_isDirectory c a o h name = OK (r, h') /\ h_blocks h' = h_blocks h /\
    (r = true -> exists w, to_wide o name = Some w /\ wstat o w = Some true) /\
    (generous a -> forall w, to_wide o name = Some w -> zlen w + 1 < 2 ^ 31 -> r = true <-> wstat o w = Some true).
Proof.
  intros CL N. unfold XSUM_isDirectory, widenString.
  destruct (convert_ok (to_wide o) 2 h name ltac:(lia)) as (p & len & h1 & -> & [(-> & B & X)|(w & F & S & P & L & B)]); cbn [bind].
  { cbn [Z.eqb]. do 2 eexists. split; [reflexivity|]. split; [exact B|]. split; [discriminate|]. intros G w E Q. specialize (X G w E). lia. }
  pose proof (fresh_pos h). replace (p =? 0) with false by lia.
  rewrite (string_at_ok h1 p w [] (h_blocks h)); [|exact B|apply away_nil|eapply CL; [left; exact F|exact N]]. cbn [bind].
  destruct (free_first h1 p _ _ ltac:(lia) B) as (h2 & -> & B2). cbn [bind]. do 2 eexists. split; [reflexivity|]. split; [exact B2|].
  assert (Q : (match wstat o w with Some d => d | None => false end) = true <-> wstat o w = Some true) by (destruct (wstat o w) as [[|]|]; split; congruence).
  split.
  - intros E. exists w. split; [exact F|]. apply Q, E.
  - intros _ v E _. assert (v = w) by congruence. subst v. exact Q.
Qed.

(** ** The arguments *)
Record inv (argv : Z) (base : list (Z * list Z)) (argc : Z) (h : heap) (S : list (Z * list Z)) (b : list Z) : Prop := {
  i_blocks : h_blocks h = rev S ++ (argv, b) :: base;
  i_pos : 0 < argv;
  i_after : Forall (fun x => argv < fst x) S;
  i_nodup : NoDup (ids S);
  i_len : zlen b = argc + 1;
  i_ids : firstn (List.length S) b = ids S }.
Lemma after_away argv S : Forall (fun x : Z * list Z => argv < fst x) S -> away argv (rev S).
Proof. intros F I. unfold ids in I. rewrite map_rev, <- in_rev in I. apply in_map_iff in I. destruct I as (x & E & I). rewrite Forall_forall in F. specialize (F x I). lia. Qed.
Lemma free_down_ok argv base b : 0 < argv -> forall S h, h_blocks h = rev S ++ (argv, b) :: base -> Forall (fun x => argv < fst x) S ->
  firstn (List.length S) b = ids S -> exists h', free_down h argv (List.length S) = OK h' /\ h_blocks h' = (argv, b) :: base.
Proof.
  intros P. induction S as [|x S IH] using rev_ind; intros h B F I; [exists h; split; [reflexivity|exact B]|].
  assert (F' := F). apply Forall_app in F'. destruct F' as [F1 F2]. apply Forall_inv in F2. rewrite app_length, Nat.add_1_r in *. cbn [free_down]. rewrite B, find_at by (apply after_away, F). cbn [bind].
  assert (LB : (List.length S < List.length b)%nat). { apply (f_equal (@List.length Z)) in I. unfold ids in I. rewrite firstn_length, map_length, app_length in I. cbn [List.length] in I. lia. }
  unfold cget. replace ((0 <=? Z.of_nat (List.length S)) && (Z.of_nat (List.length S) <? zlen b)) with true by (unfold zlen; lia). rewrite Nat2Z.id. cbn [bind].
  assert (E : nth (List.length S) b 0 = fst x).
  { rewrite <- (firstn_skipn (List.length S + 1) b), app_nth1 by (rewrite firstn_length; lia). rewrite Nat.add_1_r, I. unfold ids. rewrite map_app, app_nth2 by (rewrite map_length; lia). rewrite map_length, Nat.sub_diag. reflexivity. }
  rewrite E. rewrite rev_app_distr in B. cbn [rev app] in B. destruct x as [p d]. cbn [fst] in *.
  destruct (free_first h p d _ ltac:(lia) B) as (h1 & -> & B1). cbn [bind]. apply IH; trivial.
  replace (firstn (List.length S) b) with (firstn (List.length S) (firstn (Datatypes.S (List.length S)) b)) by (rewrite firstn_firstn, Nat.min_l by lia; reflexivity). rewrite I.
  unfold ids. rewrite map_app. rewrite firstn_app, map_length, Nat.sub_diag. cbn [firstn]. rewrite app_nil_r, firstn_all2 by (rewrite map_length; lia). reflexivity.
Qed.
Lemma firstn_put (b d : list Z) i : (i <= List.length b)%nat -> firstn i (zslice b 0 (Z.of_nat i) ++ d) = firstn i b.
Proof.
  intros L. unfold zslice. cbn [Z.to_nat skipn]. rewrite Nat2Z.id, firstn_app, firstn_firstn, Nat.min_id, firstn_length, Nat.min_l by lia.
  rewrite Nat.sub_diag. cbn [firstn]. apply app_nil_r.
Qed.
Lemma zlen_put (b : list Z) i x : 0 <= i < zlen b -> zlen (zslice b 0 i ++ [x] ++ zslice b (i + 1) (zlen b - i - 1)) = zlen b.
Proof. intros I. rewrite !zlen_app, !zlen_zslice by lia. change (zlen [x]) with 1. lia. Qed.

Lemma convert_from_ok o argv base argc : forall l h S b, inv argv base argc h S b -> zlen S + zlen l = argc ->
  exists done h', convert_from c a o h argv (List.length S) l = OK (done, h') /\
    (done = false -> h_blocks h' = base /\ (generous a -> Exists (fun s => forall w, to_narrow o s = Some w -> 2 ^ 31 <= zlen w + 1) l)) /\
    (done = true -> exists S2 b', inv argv base argc h' (S ++ S2) b' /\ Forall2 (fun s x => exists w, to_narrow o s = Some w /\ zlen w + 1 < 2 ^ 31 /\ snd x = w ++ [0]) l S2).
Proof.
  induction l as [|s l IH]; intros h S b I L.
  { cbn [convert_from]. do 2 eexists. split; [reflexivity|]. split; [discriminate|]. intros _. exists [], b. rewrite app_nil_r. split; [exact I|constructor]. }
  cbn [convert_from]. unfold narrowString. destruct I as [B P AF ND LB ID]. pose proof (zlen_nonneg l) as NL. unfold zlen in L, NL. cbn [List.length] in L.
  pose proof (fresh_pos h) as FP. pose proof (fresh_below h) as FB. rewrite B in FB.
  destruct (convert_ok (to_narrow o) 1 h s ltac:(lia)) as (p & len & h1 & -> & [(-> & B1 & X)|(w & F & SH & PE & LE & B1)]); cbn [bind].
  - rewrite B in B1. rewrite (heap_eta h1 _ B1). rewrite put_at by (try apply after_away; trivial; try lia; change (zlen [0]) with 1; lia). change (zlen [0]) with 1. cbn [bind Z.eqb].
    edestruct (free_down_ok argv base) as (h2 & -> & B2); [exact P|reflexivity|exact AF| |].
    { rewrite firstn_put by (unfold zlen in LB; lia). exact ID. }
    cbn [bind]. destruct (free_first h2 argv _ _ P B2) as (h3 & -> & B3). cbn [bind]. do 2 eexists. split; [reflexivity|]. split; [|discriminate].
    intros _. split; [exact B3|]. intros G. left. exact (X G).
  - subst p. rewrite B in B1. assert (B1' : h_blocks h1 = rev (S ++ [(fresh h, w ++ [0])]) ++ (argv, b) :: base) by (rewrite rev_app_distr; exact B1).
    assert (AF' : Forall (fun x => argv < fst x) (S ++ [(fresh h, w ++ [0])])).
    { apply Forall_app. split; [exact AF|]. constructor; [|constructor]. cbn [fst]. unfold below, ids in FB. rewrite map_app in FB. apply Forall_app in FB. destruct FB as [_ FB]. cbn [map fst] in FB. inversion FB; subst. assumption. }
    rewrite (heap_eta h1 _ B1'). rewrite put_at by (try apply after_away; trivial; try lia; change (zlen [fresh h]) with 1; lia). change (zlen [fresh h]) with 1. cbn [bind].
    replace (fresh h =? 0) with false by lia.
    edestruct (IH (Heap (rev (S ++ [(fresh h, w ++ [0])]) ++ (argv, zslice b 0 (Z.of_nat (List.length S)) ++ [fresh h] ++ zslice b (Z.of_nat (List.length S) + 1) (zlen b - Z.of_nat (List.length S) - 1)) :: base) (h_calls h1)) (S ++ [(fresh h, w ++ [0])])) as (done & h' & E & H1 & H2).
    + constructor; [reflexivity|exact P|exact AF'| | |].
      * unfold ids. rewrite map_app. cbn [map fst]. apply NoDup_rev in ND. rewrite <- (rev_involutive (map fst S ++ [fresh h])). apply NoDup_rev. rewrite rev_app_distr. cbn [rev app]. constructor; [|exact ND].
        intros IN. unfold below, ids in FB. rewrite map_app, map_rev in FB. apply Forall_app in FB. destruct FB as [FB _]. rewrite Forall_forall in FB. specialize (FB _ IN). lia.
      * rewrite zlen_put by (unfold zlen in *; lia). exact LB.
      * assert (ZS : zslice b 0 (Z.of_nat (List.length S)) = ids S) by (unfold zslice; cbn [Z.to_nat skipn]; rewrite Nat2Z.id; exact ID).
        rewrite ZS, app_assoc, firstn_app. assert (LI : List.length (ids S ++ [fresh h]) = List.length (S ++ [(fresh h, w ++ [0])])) by (unfold ids; rewrite !app_length, map_length; reflexivity).
        rewrite <- LI, firstn_all, Nat.sub_diag. cbn [firstn]. rewrite app_nil_r. unfold ids. rewrite map_app. reflexivity.
    + unfold zlen. rewrite app_length. cbn [List.length]. lia.
    + rewrite app_length in E. cbn [List.length] in E. rewrite Nat.add_1_r in E. rewrite E. exists done, h'. split; [reflexivity|]. split.
      * intros D. destruct (H1 D) as (HB & HG). split; [exact HB|]. intros G. right. exact (HG G).
      * intros D. destruct (H2 D) as (S2 & b' & I' & FF). exists ((fresh h, w ++ [0]) :: S2), b'. rewrite <- app_assoc in I'. split; [exact I'|]. constructor; [|exact FF]. exists w. auto.
Qed.

Lemma free_loop argv base b : 0 < argv -> forall S k h, h_blocks h = rev S ++ (argv, b) :: base -> Forall (fun x => argv < fst x) S -> NoDup (ids S) ->
  firstn (List.length S) (skipn k b) = ids S ->
  exists h', for_ (List.length S) (Z.of_nat k) (fun i h => let! b := find argv (h_blocks h) in let! p := cget b i in free h p) h = OK h' /\ h_blocks h' = (argv, b) :: base.
Proof.
  intros P. induction S as [|[p d] S IH]; intros k h B F N I; [exists h; split; [reflexivity|exact B]|].
  cbn [List.length for_]. rewrite B, find_at by (apply after_away, F). cbn [bind].
  assert (LB : (k < List.length b)%nat). { apply (f_equal (@List.length Z)) in I. unfold ids in I. rewrite firstn_length, map_length, skipn_length in I. cbn [List.length] in I. lia. }
  unfold cget. replace ((0 <=? Z.of_nat k) && (Z.of_nat k <? zlen b)) with true by (unfold zlen; lia). rewrite Nat2Z.id. cbn [bind].
  assert (E : nth k b 0 = p /\ firstn (List.length S) (skipn (Datatypes.S k) b) = ids S).
  { clear - I. revert b I. induction k as [|k IHk]; intros [|y b] I; try discriminate I.
    - cbn in I. injection I as -> I. split; [reflexivity|exact I].
    - cbn [skipn nth] in *. apply IHk. exact I. }
  destruct E as [E I2]. rewrite E. cbn [rev] in B. rewrite <- app_assoc in B. cbn [app] in B. inversion N as [|? ? NI N']; subst. inversion F as [|? ? F1 F2]; subst. cbn [fst] in F1.
  rewrite (heap_eta h _ B). rewrite free_at; [|lia|intros J; apply NI; unfold ids in J |- *; rewrite map_rev, <- in_rev in J; exact J]. cbn [bind].
  replace (Z.of_nat k + 1) with (Z.of_nat (Datatypes.S k)) by lia. apply IH; trivial.
Qed.
Lemma convertArgv_ok o h l : zlen l < 2 ^ 28 ->
  exists p h', convertArgv c a o h l = OK (p, h') /\
    (p = 0 -> h_blocks h' = h_blocks h /\ (generous a -> Exists (fun s => forall w, to_narrow o s = Some w -> 2 ^ 31 <= zlen w + 1) l)) /\
    (p <> 0 -> exists S b h'', inv p (h_blocks h) (zlen l) h' S b /\ Forall2 (fun s x => exists w, to_narrow o s = Some w /\ zlen w + 1 < 2 ^ 31 /\ snd x = w ++ [0]) l S /\
      nth (List.length l) b 1 = 0 /\ freeArgv (zlen l) h' p = OK h'' /\ h_blocks h'' = h_blocks h).
Proof.
  intros L. pose proof (zlen_nonneg l) as NL. unfold convertArgv.
  assert (U : usz c ((zlen l + 1) * (szbits c / 8)) = (zlen l + 1) * (szbits c / 8)).
  { unfold usz. apply Z.mod_small. destruct (ok_sz c C) as [-> | ->]; cbn [Z.div]; [change (32 / 8) with 4|change (64 / 8) with 8]; lia. }
  rewrite U. assert (W : 0 < szbits c / 8) by (destruct (ok_sz c C) as [-> | ->]; reflexivity).
  destruct (malloc_cases h ((zlen l + 1) * (szbits c / 8)) (szbits c / 8)) as [(m & -> & M & N)| ->].
  { cbn [Z.eqb]. do 2 eexists. split; [reflexivity|]. split; [|congruence]. intros _. split; [exact M|]. intros G. destruct (G (h_calls h) ((zlen l + 1) * (szbits c / 8))). congruence. }
  pose proof (fresh_pos h). replace (fresh h =? 0) with false by lia. rewrite Z.div_mul by lia.
  set (j := a_junk a (h_calls h) (zlen l + 1)). assert (J : zlen j = zlen l + 1) by (apply A; lia).
  destruct (convert_from_ok o (fresh h) (h_blocks h) (zlen l) l (Heap ((fresh h, j) :: h_blocks h) (Datatypes.S (h_calls h))) [] j) as (done & h1 & E & H1 & H2).
  { constructor; try reflexivity; try constructor; trivial. }
  { reflexivity. }
  cbn [List.length] in E. rewrite E. cbn [bind]. destruct done.
  - destruct (H2 eq_refl) as (S & b & [B P AF ND LB ID] & FF). cbn [app] in *. assert (LS : List.length S = List.length l) by (symmetry; eapply Forall2_length; exact FF).
    rewrite (heap_eta h1 _ B). rewrite put_at by (try apply after_away; trivial; try lia; change (zlen [0]) with 1; lia). change (zlen [0]) with 1. cbn [bind].
    do 2 eexists. split; [reflexivity|]. split; [lia|]. intros _.
    set (b' := zslice b 0 (zlen l) ++ [0] ++ zslice b (zlen l + 1) (zlen b - zlen l - 1)).
    assert (ID' : firstn (List.length S) b' = ids S).
    { unfold b'. rewrite LS. unfold zlen at 1. rewrite firstn_put by (unfold zlen in *; lia). rewrite <- LS. exact ID. }
    assert (LB' : zlen b' = zlen l + 1) by (unfold b'; rewrite zlen_put by lia; exact LB).
    exists S, b'.
    assert (I' : inv (fresh h) (h_blocks h) (zlen l) (Heap (rev S ++ (fresh h, b') :: h_blocks h) (h_calls h1)) S b') by (constructor; trivial).
    destruct (free_loop (fresh h) (h_blocks h) b' P S 0 (Heap (rev S ++ (fresh h, b') :: h_blocks h) (h_calls h1)) eq_refl AF ND ID') as (h2 & E2 & B2).
    destruct (free_first h2 (fresh h) _ _ P B2) as (h3 & E3 & B3). exists h3. split; [exact I'|]. split; [exact FF|]. split; [|split; [|exact B3]].
    + unfold b'. rewrite app_nth2; unfold zslice; cbn [Z.to_nat skipn]; rewrite firstn_length; unfold zlen in *; [|lia]. rewrite Nat2Z.id, Nat.min_l by lia. rewrite Nat.sub_diag. reflexivity.
    + unfold freeArgv. replace (fresh h =? 0) with false by lia. unfold zlen. rewrite Nat2Z.id, <- LS. change (Z.of_nat 0) with 0 in E2. rewrite E2. cbn [bind]. exact E3.
  - destruct (H1 eq_refl) as (B1 & G1). do 2 eexists. split; [reflexivity|]. split; [|congruence]. intros _. split; [exact B1|exact G1].
Qed.

Lemma strings_ok o h argv base argc S b : inv argv base argc h S b -> clean o -> forall l, Forall (fun s => ~ In 0 s) l ->
  Forall2 (fun s x => exists w, to_narrow o s = Some w /\ zlen w + 1 < 2 ^ 31 /\ snd x = w ++ [0]) l S ->
  exists r, strings_at h (ids S) = OK r /\ Forall2 (fun s w => to_narrow o s = Some w) l r.
Proof.
  intros [B P AF ND LB ID] CL. clear LB ID. assert (G : forall S1 S2, S = S1 ++ S2 -> forall l, Forall (fun s => ~ In 0 s) l ->
    Forall2 (fun s x => exists w, to_narrow o s = Some w /\ zlen w + 1 < 2 ^ 31 /\ snd x = w ++ [0]) l S2 ->
    exists r, strings_at h (ids S2) = OK r /\ Forall2 (fun s w => to_narrow o s = Some w) l r); [|intros l; apply (G [] S eq_refl)].
  intros S1 S2. revert S1. induction S2 as [|[p d] S2 IH]; intros S1 E l N F; inversion F as [|s x l' S2' (w & E1 & _ & E2) F']; subst; [exists []; split; [reflexivity|constructor]|].
  inversion N as [|? ? N1 N2]; subst. cbn [snd] in E2. subst d. cbn [ids map fst strings_at].
  rewrite (string_at_ok h p w (rev S2) (rev S1 ++ (argv, b) :: base)).
  - cbn [bind]. destruct (IH (S1 ++ [(p, w ++ [0])]) ltac:(rewrite <- app_assoc; reflexivity) l' N2 F') as (r & ER & FR). fold (ids S2). rewrite ER. cbn [bind]. eexists. split; [reflexivity|]. constructor; assumption.
  - rewrite B, rev_app_distr. cbn [rev]. rewrite <- !app_assoc. reflexivity.
  - intros J. unfold ids in ND, J. rewrite map_app in ND. apply NoDup_remove_2 in ND. apply ND. rewrite map_rev, <- in_rev in J. apply in_or_app. right. exact J.
  - eapply CL; [right; exact E1|exact N1].
Qed.

Lemma wmain_ok o e console m h l : clean o -> Forall (fun s => ~ In 0 s) l -> zlen l < 2 ^ 28 ->
  (exists h', wmain c a o e console m h l = OK (None, h') /\ h_blocks h' = h_blocks h /\
    (generous a -> Exists (fun s => forall w, to_narrow o s = Some w -> 2 ^ 31 <= zlen w + 1) l)) \/
  exists argv, Forall2 (fun s w => to_narrow o s = Some w) l argv /\
    forall r, XSUM_main (env_on o e) console m argv = OK r -> exists h', wmain c a o e console m h l = OK (Some r, h') /\ h_blocks h' = h_blocks h.
Proof.
  intros CL N L. unfold wmain. destruct (convertArgv_ok o h l L) as (p & h1 & -> & H1 & H2). cbn [bind]. destruct (Z.eqb_spec p 0) as [E|E].
  { left. destruct (H1 E) as (B & G). eexists. split; [reflexivity|]. split; [exact B|exact G]. }
  right. destruct (H2 E) as (S & b & h2 & I & F & _ & E2 & B2). destruct (strings_ok o h1 p _ _ S b I CL l N F) as (r & ER & FR). exists r. split; [exact FR|].
  intros x X. destruct I as [B P AF ND LB ID]. rewrite B, find_at by (apply after_away, AF). cbn [bind].
  rewrite (Forall2_length _ _ _ F), ID, ER. cbn [bind]. rewrite X. cbn [bind]. rewrite E2. cbn [bind]. eexists. split; [reflexivity|exact B2].
Qed.

(** ** Formatted output *)
Definition printed (o : os) (s : stream) (t : list Z) (r : Z) (s' : stream) : Prop :=
  if s_handle s then
    if s_console s then
      (exists w, to_wide o t = Some w /\ zlen w + 1 < 2 ^ 31 /\
         match writeConsole o w with
         | Some n => r = n /\ s' = Stream true true (s_bytes s) (s_units s ++ firstn (Z.to_nat n) w)
         | None => r = -1 /\ s' = s
         end) \/
      (r = -1 /\ s' = s /\ forall w, to_wide o t = Some w -> 2 ^ 31 <= zlen w + 1)
    else r = (if fwrite o t =? 0 then -1 else fwrite o t) /\ s' = Stream true false (s_bytes s ++ firstn (Z.to_nat (fwrite o t)) t) (s_units s)
  else r = -1 /\ s' = s.
Lemma vfprintf_ok o fmt h s l : clean o ->
  exists r s' h', vfprintf c a o true fmt h s (Args l) = OK (r, s', h') /\ h_blocks h' = h_blocks h /\
  ((forall t, fmt l = Some t -> 2 ^ 31 <= zlen t) -> r = -1 /\ s' = s) /\
  (forall t, fmt l = Some t -> zlen t < 2 ^ 31 -> ~ In 0 t -> (r = -1 /\ s' = s \/ printed o s t r s') /\ (generous a -> printed o s t r s')).
Proof.
  intros CL. unfold vfprintf, vasprintf. destruct (fmt l) as [t|] eqn:FT.
  2: { cbn. do 3 eexists. split; [reflexivity|]. split; [reflexivity|]. split; [auto|discriminate]. }
  pose proof (zlen_nonneg t) as NT. destruct (Z.ltb_spec (zlen t) (2 ^ 31)) as [LT|LT].
  2: { cbn. do 3 eexists. split; [reflexivity|]. split; [reflexivity|]. split; [auto|]. intros t' E. injection E as <-. lia. }
  replace (zlen t <? 0) with false by lia. unfold usz. rewrite Z.mod_small by (destruct (ok_sz c C) as [-> | ->]; lia).
  destruct (malloc_cases h (zlen t + 1) 1) as [(m & -> & M & N)| ->].
  { cbn. do 3 eexists. split; [reflexivity|]. split; [exact M|]. split; [auto|]. intros t' E _ _. split; [left; auto|]. intros G. destruct (G (h_calls h) (zlen t + 1)). congruence. }
  pose proof (fresh_pos h) as FP. replace (fresh h =? 0) with false by lia. rewrite Z.div_1_r. cbn [h_calls walk].
  set (j := a_junk a (h_calls h) (zlen t + 1)). assert (J : zlen j = zlen t + 1) by (apply A; lia).
  destruct (a_again a (Datatypes.S (h_calls h))) eqn:G.
  2: { rewrite free_head by exact FP. cbn. do 3 eexists. split; [reflexivity|]. split; [reflexivity|]. split; [auto|]. intros t' E _ _. split; [left; auto|]. intros GG. destruct (GG (Datatypes.S (h_calls h)) 0). congruence. }
  rewrite FT. rewrite (put_at (fresh h) j 0 (t ++ [0]) [] (h_blocks h)) by (try apply away_nil; try lia; rewrite zlen_app; change (zlen [0]) with 1; lia). cbn [bind app].
  assert (EB : zslice j 0 0 ++ (t ++ [0]) ++ zslice j (0 + zlen (t ++ [0])) (zlen j - 0 - zlen (t ++ [0])) = t ++ [0]).
  { rewrite zlen_app. change (zlen [0]) with 1. replace (zlen j - 0 - (zlen t + 1)) with 0 by lia. unfold zslice. cbn [Z.to_nat firstn app]. apply app_nil_r. }
  rewrite EB. clear EB. set (h1 := Heap ((fresh h, t ++ [0]) :: h_blocks h) (Datatypes.S (h_calls h))). replace (zlen t <? 0) with false by lia.
  destruct s as [hd cn by_ un]. cbn [s_handle s_console s_bytes s_units]. destruct hd; cbn [negb].
  2: { cbn [bind]. unfold h1. rewrite free_head by exact FP. cbn [bind]. do 3 eexists. split; [reflexivity|]. split; [reflexivity|]. split; [auto|]. intros t' E _ _. unfold printed. cbn [s_handle]. auto. }
  assert (LD : load (Ptr (t ++ [0]) 0 0) (zlen t) = OK t).
  { unfold load. rewrite zlen_app. change (zlen [0]) with 1. replace ((0 <=? 0) && (0 <=? zlen t) && (0 + zlen t <=? zlen t + 1)) with true by lia. unfold zslice, zlen. cbn [Z.to_nat skipn]. rewrite Nat2Z.id, firstn_app, Nat.sub_diag, firstn_all. cbn [firstn]. rewrite app_nil_r. reflexivity. }
  destruct cn.
  2: { unfold h1. cbn [h_blocks]. rewrite find_head. cbn [bind]. replace (zlen t + 1 - 1) with (zlen t) by lia. rewrite LD. cbn [bind]. rewrite free_head by exact FP. cbn [bind].
    do 3 eexists. split; [reflexivity|]. split; [reflexivity|]. split; [intros X; specialize (X t eq_refl); lia|]. intros t' E _ _. injection E as <-. unfold printed. cbn [s_handle s_console s_bytes s_units]. auto. }
  destruct (in_dec Z.eq_dec 0 t) as [IN|NI].
  - (* the text has a NUL inside: only the heap matters *)
    assert (SA : exists t1, string_at h1 (fresh h) = OK t1 /\ ~ In 0 t1).
    { unfold string_at, h1. cbn [h_blocks]. rewrite find_head. cbn [bind]. clear. induction t as [|x t IH]; [exists []; split; [reflexivity|tauto]|].
      cbn [app upto_nul]. destruct (Z.eqb_spec x 0); [exists []; split; [reflexivity|tauto]|]. destruct IH as (t1 & -> & N). cbn [bind]. exists (x :: t1). split; [reflexivity|]. intros [Q|Q]; [congruence|tauto]. }
    destruct SA as (t1 & -> & N1). cbn [bind]. unfold widenString. destruct (convert_ok (to_wide o) 2 h1 t1 ltac:(lia)) as (p & len & h2 & -> & [(-> & B & X)|(w & F & SH & P & L & B)]); cbn [bind].
    + cbn [Z.eqb bind]. destruct (free_first h2 (fresh h) _ _ FP B) as (h3 & -> & B3). cbn [bind]. do 3 eexists. split; [reflexivity|]. split; [exact B3|]. split; [auto|]. intros t' E _ Q. injection E as <-. contradiction.
    + pose proof (fresh_pos h1). replace (p =? 0) with false by lia. rewrite B. rewrite find_head. cbn [bind]. subst len.
      replace (zlen w + 1 - 1) with (zlen w) by lia. assert (LW : load (Ptr (w ++ [0]) 0 0) (zlen w) = OK w).
      { unfold load. rewrite zlen_app. change (zlen [0]) with 1. pose proof (zlen_nonneg w). replace ((0 <=? 0) && (0 <=? zlen w) && (0 + zlen w <=? zlen w + 1)) with true by lia. unfold zslice, zlen. cbn [Z.to_nat skipn]. rewrite Nat2Z.id, firstn_app, Nat.sub_diag, firstn_all. cbn [firstn]. rewrite app_nil_r. reflexivity. }
      rewrite LW. cbn [bind]. destruct (free_first h2 p _ _ ltac:(lia) B) as (h3 & -> & B3). cbn [bind]. destruct (writeConsole o w); cbn [bind]; destruct (free_first h3 (fresh h) _ _ FP B3) as (h4 & -> & B4); cbn [bind];
        (do 3 eexists; split; [reflexivity|]; split; [exact B4|]; split; [intros Q; specialize (Q t eq_refl); lia|]; intros t' E _ Q; injection E as <-; contradiction).
  - rewrite (string_at_ok h1 (fresh h) t [] (h_blocks h) eq_refl (away_nil _) NI). cbn [bind].
    unfold widenString. destruct (convert_ok (to_wide o) 2 h1 t ltac:(lia)) as (p & len & h2 & -> & [(-> & B & X)|(w & F & SH & P & L & B)]); cbn [bind].
    + cbn [Z.eqb bind]. destruct (free_first h2 (fresh h) _ _ FP B) as (h3 & -> & B3). cbn [bind]. do 3 eexists. split; [reflexivity|]. split; [exact B3|]. split; [auto|]. intros t' E _ Q. injection E as <-.
      split; [left; auto|]. intros GG. unfold printed. cbn [s_handle s_console]. right. split; [reflexivity|]. split; [reflexivity|]. exact (X GG).
    + pose proof (fresh_pos h1). replace (p =? 0) with false by lia. rewrite B. rewrite find_head. cbn [bind]. subst len.
      replace (zlen w + 1 - 1) with (zlen w) by lia. assert (LW : load (Ptr (w ++ [0]) 0 0) (zlen w) = OK w).
      { unfold load. rewrite zlen_app. change (zlen [0]) with 1. pose proof (zlen_nonneg w). replace ((0 <=? 0) && (0 <=? zlen w) && (0 + zlen w <=? zlen w + 1)) with true by lia. unfold zslice, zlen. cbn [Z.to_nat skipn]. rewrite Nat2Z.id, firstn_app, Nat.sub_diag, firstn_all. cbn [firstn]. rewrite app_nil_r. reflexivity. }
      rewrite LW. cbn [bind]. destruct (free_first h2 p _ _ ltac:(lia) B) as (h3 & -> & B3). cbn [bind]. destruct (writeConsole o w) eqn:WC; cbn [bind]; destruct (free_first h3 (fresh h) _ _ FP B3) as (h4 & -> & B4); cbn [bind];
        (do 3 eexists; split; [reflexivity|]; split; [exact B4|]; split; [intros Q; specialize (Q t eq_refl); lia|]; intros t' E _ _; injection E as <-; unfold printed; cbn [s_handle s_console s_bytes s_units];
         assert (PR : exists w0, to_wide o t = Some w0 /\ zlen w0 + 1 < 2 ^ 31 /\ w0 = w) by (exists w; auto); split; [right|intros _]; left; exists w; (split; [exact F|]; split; [exact SH|]; rewrite WC; auto)).
Qed.
Lemma vfprintf_by_reference o fmt h s l t : fmt l = Some t -> zlen t < 2 ^ 31 -> generous a -> vfprintf c a o false fmt h s (Args l) = UB.
Proof.
  intros FT LT G. unfold vfprintf, vasprintf. rewrite FT. pose proof (zlen_nonneg t). replace (zlen t <? 2 ^ 31) with true by lia. replace (zlen t <? 0) with false by lia.
  unfold malloc. rewrite (proj1 (G _ _)). pose proof (fresh_pos h). replace (fresh h =? 0) with false by lia. reflexivity.
Qed.
End Win.
