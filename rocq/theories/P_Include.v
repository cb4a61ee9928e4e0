(** Proofs about M_Include.v. *)
From Coq Require Import String Ascii.
From Verif Require Import Base M_Include SpecInclude.
Import Inc.
Local Open Scope string_scope.

(** ** Names: a prefix and a name can be told apart *)
Definition xxh (s : string) : bool := String.prefix "XXH" s.
Fixpoint inner (s : string) : bool := match s with "" => false | String _ t => xxh t || inner t end.
Definition good (s : string) : bool := xxh s && negb (inner s).
Lemma inner_app p b : xxh b = true -> forall c, inner (String c (p ++ b)) = true.
Proof.
  intros B. induction p as [|d p IH]; intros c; cbn [append].
  - cbn [inner]. rewrite B. reflexivity.
  - change (inner (String c (String d (p ++ b)))) with (xxh (String d (p ++ b)) || inner (String d (p ++ b)))%bool. rewrite IH. apply orb_true_r.
Qed.
Lemma good_inv s : good s = true -> xxh s = true /\ inner s = false.
Proof. unfold good. intros E. apply andb_prop in E. destruct E as [A B]. split; [exact A|]. destruct (inner s); [discriminate|reflexivity]. Qed.
Lemma split_name p q : forall a b, good a = true -> good b = true -> p ++ a = q ++ b -> p = q /\ a = b.
Proof.
  revert q. induction p as [|c p IH]; intros [|d q] a b A B E; cbn [append] in E.
  - split; [reflexivity|exact E].
  - exfalso. subst a. apply good_inv in A, B. rewrite (inner_app q b (proj1 B)) in A. destruct A. discriminate.
  - exfalso. subst b. apply good_inv in A, B. rewrite (inner_app p a (proj1 A)) in B. destruct B. discriminate.
  - injection E as -> E. destruct (IH q a b A B E) as [-> ->]. split; reflexivity.
Qed.

Local Open Scope list_scope.
(** ** Facts about the lists, by computation for the eight sets of switches *)
Lemma mem_In n l : mem n l = true <-> In n l.
Proof.
  unfold mem. rewrite existsb_exists. split; [intros (x & I & E); apply String.eqb_eq in E; subst; exact I|intros I; exists n; split; [exact I|apply String.eqb_refl]].
Qed.
Definition all (P : opts -> bool) : bool :=
  forallb (fun a => forallb (fun b => forallb (fun c => P {| no_stream := a; no_long_long := b; no_xxh3 := c |}) [true; false]) [true; false]) [true; false].
Lemma all_ok P : all P = true -> forall o, P o = true.
Proof.
  intros A [a b c]. unfold all in A. rewrite forallb_forall in A. specialize (A a ltac:(destruct a; cbn; auto)). rewrite forallb_forall in A. specialize (A b ltac:(destruct b; cbn; auto)).
  rewrite forallb_forall in A. exact (A c ltac:(destruct c; cbn; auto)).
Qed.
Lemma all_list (L : opts -> list string) Q : all (fun o => forallb Q (L o)) = true -> forall o n, In n (L o) -> Q n = true.
Proof. intros A o n. pose proof (all_ok _ A o) as H. rewrite forallb_forall in H. apply H. Qed.

Lemma funs_prefixed o n : In n (stable_functions o ++ static_functions o ++ defined_functions o) -> mem n prefixed_names = true.
Proof. revert o n. apply (all_list (fun o => _ ++ _ ++ _)%list). vm_compute. reflexivity. Qed.
Lemma types_renamed o n : In n (stable_types o ++ static_types o) -> mem n renamed_types = true.
Proof. revert o n. apply (all_list (fun o => _ ++ _)%list). vm_compute. reflexivity. Qed.
Definition no_function (n : string) : bool := negb (mem n prefixed_names) && match replacement n with Some _ => false | None => true end.
Lemma types_no_function o n : In n (stable_types o ++ static_types o) -> no_function n = true.
Proof. revert o n. apply (all_list (fun o => _ ++ _)%list). vm_compute. reflexivity. Qed.
Lemma ints_no_function o n : In n (int_types o) -> no_function n = true /\ mem n renamed_types = false.
Proof.
  intros I. assert (H : (no_function n && negb (mem n renamed_types))%bool = true).
  { revert I. revert o n. apply all_list. vm_compute. reflexivity. }
  apply andb_prop in H. split; [apply H|]. destruct (mem n renamed_types); [destruct H; discriminate|reflexivity].
Qed.
Lemma forallb_mem (Q : string -> bool) l : forallb Q l = true -> forall n, In n l -> Q n = true.
Proof. rewrite forallb_forall. auto. Qed.
Lemma renamed_no_function n : In n renamed_types -> no_function n = true.
Proof. revert n. apply forallb_mem. vm_compute. reflexivity. Qed.
Lemma dispatch_no_macro n : In n dispatch_functions -> no_function n = true /\ mem n renamed_types = false.
Proof.
  intros I. assert (H : (no_function n && negb (mem n renamed_types))%bool = true).
  { revert I. revert n. apply forallb_mem. vm_compute. reflexivity. }
  apply andb_prop in H. split; [apply H|]. destruct (mem n renamed_types); [destruct H; discriminate|reflexivity].
Qed.
Lemma prefixed_not_type n : In n prefixed_names -> mem n renamed_types = false.
Proof. intros I. apply negb_true_iff. revert I. revert n. apply forallb_mem. vm_compute. reflexivity. Qed.
Lemma replaced_undefined n x : replacement n = Some x -> mem n undefined_names = true /\ mem n prefixed_names = true /\ In x dispatch_functions.
Proof.
  unfold replacement. destruct (find _ replacements) as [[a b]|] eqn:E; [|discriminate]. cbn. intros H. injection H as <-.
  apply find_some in E. destruct E as [I E]. cbn in E. apply String.eqb_eq in E. subst a.
  assert (Q : forallb (fun r => mem (fst r) undefined_names && mem (fst r) prefixed_names && mem (snd r) dispatch_functions) replacements = true) by (vm_compute; reflexivity).
  rewrite forallb_forall in Q. specialize (Q _ I). cbn [fst snd] in Q. apply andb_prop in Q. destruct Q as [Q C]. apply andb_prop in Q.
  split; [apply Q|]. split; [apply Q|]. exact (proj1 (mem_In _ _) C).
Qed.
Lemma no_function_inv n : no_function n = true -> mem n prefixed_names = false /\ replacement n = None.
Proof. unfold no_function. destruct (mem n prefixed_names); [discriminate|]. destruct (replacement n); [discriminate|]. auto. Qed.

(** ** The states that units without XXH_IMPLEMENTATION reach *)
Section Reach.
Context (o : opts) (ns : option string).
Notation p := (prefix_of ns).

Definition repl (r : bool) (n : string) : option string := if r then replacement n else None.
(** the function name [n] in a unit that does not inline, with ([r]) or without the replacements *)
Definition plain_fun (r : bool) (w : what) (n : string) : decl := match repl r n with Some x => Decl "" x w | None => Decl p n w end.
Definition H_part : list decl :=
  (map (fun n => Decl "" n New_type) (stable_types o) ++ map (fun n => Decl "" n Int_type) (int_types o) ++ map (plain_fun false (Fun Extern false)) (stable_functions o))%list.
Definition S_part (r : bool) : list decl :=
  (map (fun n => Decl "" n New_type) (static_types o) ++ map (plain_fun r (Fun Extern false)) (static_functions o))%list.
Definition D_part (l : linkage) : list decl := map (fun n => Decl "" n (Fun l false)) dispatch_functions.
Definition I_part : list decl :=
  ((map (fun n => Decl "XXH_NAMESPACE" n New_type) (stable_types o) ++ map (fun n => Decl "" n Int_type) (int_types o) ++ map (fun n => Decl "XXH_INLINE_" n (Fun Static false)) (stable_functions o)) ++
   (map (fun n => Decl "XXH_NAMESPACE" n New_type) (static_types o) ++ map (fun n => Decl "XXH_INLINE_" n (Fun Static false)) (static_functions o)) ++
   map (fun n => Decl "XXH_INLINE_" n (Fun Static true)) (defined_functions o))%list.

(** the declarations of a unit that has not inlined yet *)
Inductive plain_decls : bool -> bool -> bool -> bool -> list decl -> Prop :=   (* stable, static, dispatch, replaced *)
| pd0 : plain_decls false false false false nil
| pdH : plain_decls true false false false H_part
| pdHS : plain_decls true true false false (H_part ++ S_part false)
| pdHD r : plain_decls true false true r (H_part ++ D_part Extern)
| pdHSD r : plain_decls true true true r (H_part ++ S_part false ++ D_part Extern)
| pdHDS r : plain_decls true true true r (H_part ++ D_part Extern ++ S_part r).

Lemma pd_static d r l : plain_decls true false d r l -> plain_decls true true d r (l ++ S_part r).
Proof.
  intros D. inversion D; subst; [apply pdHS|]. rewrite <- app_assoc. apply pdHDS.
Qed.
Lemma pd_dispatch s r r' l : plain_decls true s false r l -> plain_decls true s true r' (l ++ D_part Extern).
Proof.
  intros D. inversion D; subst; [apply pdHD|]. rewrite <- app_assoc. apply pdHSD.
Qed.
Definition named : bool := match ns with Some _ => true | None => false end.
Definition plain_macros (stable r : bool) (n : string) : option macro :=
  match repl r n with Some x => Some (Renamed x) | None => if stable && named && mem n prefixed_names then Some Prefixed else None end.
Definition inline_macros (r : bool) (n : string) : option macro :=
  match repl r n with Some x => Some (Renamed x) | None => if mem n prefixed_names then Some Prefixed else if mem n renamed_types then Some Pasted else None end.

(** not inlined yet *)
Record plain (r : bool) (u : unit) : Prop := {
  p_impl : IMPL u = false; p_ns : NAMESPACE u = ns; p_api : API u = if g_stable u then Some Extern else None;
  p_inline : g_inline u = false; p_gimpl : g_impl u = false; p_clash : clash u = false;
  p_macros : forall n, macros u n = plain_macros (g_stable u) r n;
  p_decls : plain_decls (g_stable u) (g_static u) (g_dispatch u) r (decls u) }.
(** inlined, after the declarations [X]; [after]: xxh_x86dispatch.h was included afterwards *)
Record inlined (X : list decl) (before after r : bool) (u : unit) : Prop := {
  i_ns : NAMESPACE u = Some "XXH_INLINE_"; i_api : API u = Some Static;
  i_inline : g_inline u = true; i_stable : g_stable u = true; i_static : g_static u = true; i_gimpl : g_impl u = true;
  i_dispatch : g_dispatch u = (before || after)%bool;
  i_r : after = false -> r = false; i_both : before = true -> after = false;
  i_clash : clash u = false;
  i_macros : forall n, macros u n = inline_macros r n;
  i_decls : (exists st sa rb, plain_decls st sa before rb X) /\ decls u = (X ++ I_part ++ (if after then D_part Static else nil))%list }.

Lemma start_plain : plain false (start ns).
Proof. constructor; try reflexivity. exact pd0. Qed.

(** *** what the names stand for *)
Lemma declare_plain r u w n : NAMESPACE u = ns -> (forall n, macros u n = plain_macros true r n) -> mem n prefixed_names = true -> declare u w n = plain_fun r w n.
Proof.
  intros N M P. unfold declare, expand, plain_fun. rewrite M. unfold plain_macros. destruct (repl r n) as [x|]; [reflexivity|]. rewrite P, N. unfold prefix_of, named.
  destruct ns; reflexivity.
Qed.
Lemma declare_type r u w n : (forall n, macros u n = plain_macros true r n) -> no_function n = true -> declare u w n = Decl "" n w.
Proof.
  intros M P. apply no_function_inv in P. unfold declare, expand. rewrite M. unfold plain_macros, repl. rewrite (proj1 P), (proj2 P), andb_false_r.
  destruct r; reflexivity.
Qed.
Lemma declare_in r u w n : NAMESPACE u = Some "XXH_INLINE_" -> (forall n, macros u n = inline_macros r n) -> repl r n = None -> mem n prefixed_names = true ->
  declare u w n = Decl "XXH_INLINE_" n w.
Proof. intros N M R P. unfold declare, expand. rewrite M. unfold inline_macros. rewrite R, P, N. reflexivity. Qed.
Lemma declare_in_type r u w n : (forall n, macros u n = inline_macros r n) -> no_function n = true -> declare u w n = Decl (if mem n renamed_types then "XXH_NAMESPACE" else "") n w.
Proof.
  intros M P. apply no_function_inv in P. unfold declare, expand. rewrite M. unfold inline_macros, repl. rewrite (proj1 P), (proj2 P).
  destruct r, (mem n renamed_types); reflexivity.
Qed.

Lemma clashes_false b l m : (forall n, In n l -> m n = None \/ m n = Some b) -> clashes b l m = false.
Proof.
  intros A. unfold clashes. apply not_true_is_false. intros E. apply existsb_exists in E. destruct E as (n & I & E). destruct (A n I) as [X|X]; rewrite X in E; [discriminate|].
  destruct b; cbn in E; try discriminate. rewrite String.eqb_refl in E. discriminate.
Qed.

(** *** one inclusion that does not inline *)
Lemma stable_plain r u : plain r u -> (INLINE u || PRIVATE u)%bool = false ->
  plain r (stable_part o u) /\ g_stable (stable_part o u) = true /\ g_static (stable_part o u) = g_static u /\ g_dispatch (stable_part o u) = g_dispatch u /\
  STATIC (stable_part o u) = STATIC u /\ INLINE (stable_part o u) = INLINE u /\ PRIVATE (stable_part o u) = PRIVATE u /\
  (g_stable u = true -> stable_part o u = u).
Proof.
  intros P N. unfold stable_part. destruct (g_stable u) eqn:G; [split; [exact P|]; repeat split; assumption|].
  pose proof (p_decls _ _ P) as D. rewrite G in D.
  assert (Z : r = false /\ g_static u = false /\ g_dispatch u = false /\ decls u = nil) by (inversion D; repeat split; congruence). destruct Z as (-> & Zs & Zd & Zl).
  split; [|cbn; repeat split; congruence].
  pose proof (p_macros _ _ P) as M. rewrite G in M. unfold plain_macros, repl in M. cbn [andb] in M.
  set (m := if match NAMESPACE u with Some _ => true | None => false end then define Prefixed prefixed_names (macros u) else macros u).
  assert (M' : forall n, m n = plain_macros true false n).
  { intros n. unfold m, define, plain_macros, repl. rewrite (p_ns _ _ P). unfold named. destruct ns; cbn [andb]; [|apply M]. cbv beta. destruct (mem n prefixed_names); [reflexivity|apply M]. }
  assert (C : (clash u || negb (INLINE u || PRIVATE u) && match API u with Some Static => true | _ => false end ||
     match NAMESPACE u with Some _ => true | None => false end && clashes Prefixed prefixed_names (macros u))%bool = false).
  { rewrite (p_clash _ _ P), (p_api _ _ P), G, andb_false_r. cbn [orb]. destruct (NAMESPACE u); [|reflexivity]. apply clashes_false. intros n _. left. apply M. }
  constructor; unfold add; cbn [IMPL NAMESPACE API g_inline g_stable g_static g_impl g_dispatch macros clash decls].
  - apply (p_impl _ _ P).
  - apply (p_ns _ _ P).
  - rewrite N. reflexivity.
  - apply (p_inline _ _ P).
  - apply (p_gimpl _ _ P).
  - exact C.
  - exact M'.
  - rewrite Zs, Zd, Zl. cbn [app].
    match goal with |- plain_decls _ _ _ _ ?l => replace l with H_part; [apply pdH|] end. unfold H_part. f_equal; [|f_equal]; apply map_ext_in; intros n I; symmetry.
    + apply (declare_type false); [exact M'|]. apply (types_no_function o). apply in_or_app. left. exact I.
    + apply (declare_type false); [exact M'|]. apply (ints_no_function o n I).
    + unfold api. cbn [API]. rewrite N. apply (declare_plain false); [apply (p_ns _ _ P)|exact M'|]. apply (funs_prefixed o). apply in_or_app. left. exact I.
Qed.
Lemma static_plain r u : plain r u -> (INLINE u || PRIVATE u)%bool = false -> g_stable u = true ->
  plain r (static_part o u) /\ g_stable (static_part o u) = true /\ g_static (static_part o u) = (STATIC u || g_static u)%bool /\ g_dispatch (static_part o u) = g_dispatch u /\
  STATIC (static_part o u) = STATIC u /\ INLINE (static_part o u) = INLINE u /\ PRIVATE (static_part o u) = PRIVATE u.
Proof.
  intros P N G. unfold static_part. destruct (STATIC u) eqn:ST, (g_static u) eqn:GS; cbn [andb negb];
    try (split; [exact P|]; repeat split; assumption).
  split; [|cbn; repeat split; congruence].
  pose proof (p_macros _ _ P) as M. rewrite G in M.
  assert (Y : (map (declare u New_type) (static_types o) ++ map (declare u (Fun (api u) false)) (static_functions o))%list = S_part r).
  { unfold S_part. f_equal; apply map_ext_in; intros n I.
    - apply (declare_type r); [exact M|]. apply (types_no_function o). apply in_or_app. right. exact I.
    - unfold api. rewrite (p_api _ _ P), G. apply declare_plain; [apply (p_ns _ _ P)|exact M|]. apply (funs_prefixed o). apply in_or_app. right. apply in_or_app. left. exact I. }
  constructor; unfold add; cbn [IMPL NAMESPACE API g_inline g_stable g_static g_impl g_dispatch macros clash decls].
  - rewrite (p_impl _ _ P). exact N.
  - apply (p_ns _ _ P).
  - apply (p_api _ _ P).
  - apply (p_inline _ _ P).
  - apply (p_gimpl _ _ P).
  - apply (p_clash _ _ P).
  - rewrite G. exact M.
  - rewrite Y, G. pose proof (p_decls _ _ P) as D. rewrite G, GS in D. apply pd_static, D.
Qed.
Lemma include_plain r u : plain r u -> (INLINE u || PRIVATE u)%bool = false ->
  let u' := include_xxhash o u in
  plain r u' /\ g_stable u' = true /\ g_static u' = (STATIC u || g_static u)%bool /\ g_dispatch u' = g_dispatch u /\
  STATIC u' = STATIC u /\ INLINE u' = INLINE u /\ PRIVATE u' = PRIVATE u.
Proof.
  intros P N. cbv zeta. unfold include_xxhash. replace (inline_part u) with u by (unfold inline_part; rewrite N; reflexivity).
  destruct (stable_plain r u P N) as (P1 & G1 & A1 & B1 & C1 & D1 & E1 & _).
  destruct (static_plain r (stable_part o u) P1) as (P2 & G2 & A2 & B2 & C2 & D2 & E2); [congruence|exact G1|].
  unfold impl_part. rewrite D2, E2, D1, E1, N, (p_impl _ _ P2). cbn [orb andb]. split; [exact P2|]. repeat split; congruence.
Qed.

(** *** one that inlines *)
Lemma include_inline r u : plain r u -> (INLINE u || PRIVATE u)%bool = true ->
  let u' := include_xxhash o u in inlined (decls u) (g_dispatch u) false false u' /\ INLINE u' = INLINE u /\ PRIVATE u' = PRIVATE u.
Proof.
  intros P N. cbv zeta. unfold include_xxhash, inline_part. rewrite N, (p_inline _ _ P). cbn [negb andb].
  set (m0 := undef undefined_names (macros u)). set (m1 := define Pasted renamed_types m0).
  assert (M0 : forall n, m0 n = None \/ (m0 n = Some Prefixed /\ mem n prefixed_names = true)).
  { intros n. unfold m0, undef. rewrite (p_macros _ _ P). unfold plain_macros. destruct (mem n undefined_names) eqn:U; [left; reflexivity|].
    destruct (repl r n) as [x|] eqn:R.
    - exfalso. destruct r; [|discriminate]. apply replaced_undefined in R. destruct R. congruence.
    - destruct (g_stable u && named)%bool; cbn [andb]; [|left; reflexivity]. destruct (mem n prefixed_names); [right; split; reflexivity|left; reflexivity]. }
  assert (C1 : clashes Pasted renamed_types m0 = false).
  { apply clashes_false. intros n I. left. apply renamed_no_function, no_function_inv in I. destruct (M0 n) as [X|[X Y]]; [exact X|]. destruct I. congruence. }
  assert (C2 : clashes Prefixed prefixed_names m1 = false).
  { apply clashes_false. intros n I. unfold m1, define. rewrite (prefixed_not_type n I). destruct (M0 n) as [X|[X Y]]; auto. }
  set (m2 := define Prefixed prefixed_names m1).
  assert (M2 : forall n, m2 n = inline_macros false n).
  { intros n. unfold m2, m1, define, inline_macros, repl. destruct (mem n prefixed_names) eqn:F; [reflexivity|]. destruct (mem n renamed_types); [reflexivity|].
    destruct (M0 n) as [X|[X Y]]; [exact X|congruence]. }
  unfold stable_part. cbn [g_stable INLINE PRIVATE API NAMESPACE STATIC IMPL g_inline g_static g_impl g_dispatch macros clash decls]. rewrite N. cbn [negb andb].
  fold m2. set (v := Unit _ _ _ _ _ _ _ true _ _ _ m2 _ _). unfold add, static_part. cbn [STATIC g_static INLINE PRIVATE IMPL API NAMESPACE g_inline g_stable g_impl g_dispatch macros clash decls negb andb].
  unfold add, impl_part. cbn [STATIC g_static INLINE PRIVATE IMPL API NAMESPACE g_inline g_stable g_impl g_dispatch macros clash decls negb andb].
  cbn [v STATIC g_static INLINE PRIVATE IMPL API NAMESPACE g_inline g_stable g_impl g_dispatch macros clash decls negb andb].
  rewrite N, (p_gimpl _ _ P). cbn [orb negb andb].
  unfold add. cbn [STATIC g_static INLINE PRIVATE IMPL API NAMESPACE g_inline g_stable g_impl g_dispatch macros clash decls negb andb].
  split; [|split; reflexivity].
  assert (Q : forall x l, (forall n, In n l -> mem n prefixed_names = true) -> forall w' : unit, NAMESPACE w' = Some "XXH_INLINE_" -> macros w' = m2 ->
    map (declare w' (Fun Static x)) l = map (fun n => Decl "XXH_INLINE_" n (Fun Static x)) l).
  { intros x l A w' B E. apply map_ext_in. intros n I. apply (declare_in false); [exact B|intros k; rewrite E; apply M2|reflexivity|apply A, I]. }
  assert (T : forall l, (forall n, In n l -> no_function n = true /\ mem n renamed_types = true) -> forall w' : unit, macros w' = m2 -> map (declare w' New_type) l = map (fun n => Decl "XXH_NAMESPACE" n New_type) l).
  { intros l A w' E. apply map_ext_in. intros n I. destruct (A n I) as [F R]. rewrite (declare_in_type false); [rewrite R; reflexivity|intros k; rewrite E; apply M2|exact F]. }
  constructor; cbn [STATIC g_static INLINE PRIVATE IMPL API NAMESPACE g_inline g_stable g_impl g_dispatch macros clash decls]; try reflexivity; try discriminate.
  - rewrite orb_false_r. reflexivity.
  - rewrite (p_clash _ _ P), C1, C2. reflexivity.
  - exact M2.
  - split; [exists (g_stable u), (g_static u), r; apply (p_decls _ _ P)|]. rewrite app_nil_r, <- !app_assoc. f_equal. unfold I_part. rewrite <- !app_assoc.
    unfold api. cbn [API v].
    rewrite !Q; try reflexivity.
    + rewrite !T; try reflexivity.
      * do 2 f_equal. apply map_ext_in. intros n I. destruct (ints_no_function o n I) as [F R]. rewrite (declare_in_type false); [rewrite R; reflexivity|exact M2|exact F].
      * intros n I. split; [apply (types_no_function o)|apply (types_renamed o)]; apply in_or_app; right; exact I.
      * intros n I. split; [apply (types_no_function o)|apply (types_renamed o)]; apply in_or_app; left; exact I.
    + intros n I. apply (funs_prefixed o). apply in_or_app. right. apply in_or_app. right. exact I.
    + intros n I. apply (funs_prefixed o). apply in_or_app. right. apply in_or_app. left. exact I.
    + intros n I. apply (funs_prefixed o). apply in_or_app. left. exact I.
Qed.
Lemma include_inlined X b a r u : inlined X b a r u -> include_xxhash o u = u.
Proof.
  intros I. unfold include_xxhash, inline_part. rewrite (i_inline _ _ _ _ _ I), andb_false_r. unfold stable_part. rewrite (i_stable _ _ _ _ _ I).
  unfold static_part. rewrite (i_static _ _ _ _ _ I), andb_false_r. unfold impl_part. rewrite (i_gimpl _ _ _ _ _ I), andb_false_r. reflexivity.
Qed.

(** *** xxh_x86dispatch.h *)
Definition after_dispatch (d : bool) (v : unit) : unit :=
  let w := add (map (declare v (Fun (api v) false)) dispatch_functions) v in
  Unit (STATIC w) (INLINE w) (PRIVATE w) (IMPL w) (NAMESPACE w) (API w) (g_inline w) (g_stable w) (g_static w) (g_impl w) true
    (if d then macros w else fun n => match replacement n with Some x => Some (Renamed x) | None => macros w n end) (clash w) (decls w).
Lemma include_dispatch_eq d u : include_dispatch d o u = if g_dispatch u then u else after_dispatch d (include_xxhash o u).
Proof. reflexivity. Qed.
Lemma dispatch_plain d v : plain false v -> g_stable v = true -> g_dispatch v = false -> plain (negb d) (after_dispatch d v).
Proof.
  intros P G D. pose proof (p_macros _ _ P) as M. rewrite G in M. pose proof (p_decls _ _ P) as DD.
  assert (Y : map (declare v (Fun (api v) false)) dispatch_functions = D_part Extern).
  { apply map_ext_in. intros n I. unfold api. rewrite (p_api _ _ P), G. apply (declare_type false); [exact M|]. apply dispatch_no_macro, I. }
  unfold after_dispatch, add. cbv zeta. constructor; cbn [STATIC g_static INLINE PRIVATE IMPL API NAMESPACE g_inline g_stable g_impl g_dispatch macros clash decls]; try apply P.
  - intros n. rewrite G. unfold plain_macros. destruct d; cbn [negb repl]; [apply M|]. destruct (replacement n); [reflexivity|apply M].
  - rewrite Y, G. rewrite G, D in DD. apply (pd_dispatch _ false), DD.
Qed.
Lemma dispatch_inlined X d v : inlined X false false false v -> inlined X false true (negb d) (after_dispatch d v).
Proof.
  intros I. pose proof (i_macros _ _ _ _ _ I) as M.
  assert (Y : map (declare v (Fun (api v) false)) dispatch_functions = D_part Static).
  { apply map_ext_in. intros n J. unfold api. rewrite (i_api _ _ _ _ _ I). destruct (dispatch_no_macro n J) as [F R].
    rewrite (declare_in_type false); [rewrite R; reflexivity|exact M|exact F]. }
  unfold after_dispatch, add. cbv zeta. constructor; cbn [STATIC g_static INLINE PRIVATE IMPL API NAMESPACE g_inline g_stable g_impl g_dispatch macros clash decls]; try apply I; try discriminate.
  - reflexivity.
  - intros n. unfold inline_macros. destruct d; cbn [negb repl]; [apply M|]. destruct (replacement n); [reflexivity|apply M].
  - destruct (i_decls _ _ _ _ _ I) as (D & E). split; [exact D|]. rewrite E, Y, app_nil_r, <- app_assoc. reflexivity.
Qed.

(** *** all units without XXH_IMPLEMENTATION *)
Inductive reach (u : unit) : Prop :=
| r_plain r : plain r u -> reach u
| r_inlined X b a r : inlined X b a r u -> reach u.
Lemma set_plain r u s i q : plain r u ->
  plain r (Unit s i q (IMPL u) (NAMESPACE u) (API u) (g_inline u) (g_stable u) (g_static u) (g_impl u) (g_dispatch u) (macros u) (clash u) (decls u)).
Proof. intros P. constructor; cbn [STATIC g_static INLINE PRIVATE IMPL API NAMESPACE g_inline g_stable g_impl g_dispatch macros clash decls]; apply P. Qed.
Lemma set_inlined X b a r u s i q m : inlined X b a r u ->
  inlined X b a r (Unit s i q m (NAMESPACE u) (API u) (g_inline u) (g_stable u) (g_static u) (g_impl u) (g_dispatch u) (macros u) (clash u) (decls u)).
Proof. intros P. constructor; cbn [STATIC g_static INLINE PRIVATE IMPL API NAMESPACE g_inline g_stable g_impl g_dispatch macros clash decls]; apply P. Qed.
Lemma set_impl_plain r u m : plain r u -> m = false ->
  plain r (Unit (STATIC u) (INLINE u) (PRIVATE u) m (NAMESPACE u) (API u) (g_inline u) (g_stable u) (g_static u) (g_impl u) (g_dispatch u) (macros u) (clash u) (decls u)).
Proof. intros P ->. constructor; cbn [STATIC g_static INLINE PRIVATE IMPL API NAMESPACE g_inline g_stable g_impl g_dispatch macros clash decls]; try apply P. reflexivity. Qed.

Lemma plain_step r u l : plain r u -> l <> Set_impl true -> ((INLINE u || PRIVATE u)%bool = false \/ ~ includes l) ->
  exists r', plain r' (step o u l) /\ (l = Include -> r' = r) /\ (r' <> r -> l = Include_dispatch false).
Proof.
  intros P N W. destruct l as [b|b|b|b| |d]; cbn [step].
  1-3: exists r; split; [apply set_plain, P|split; congruence].
  - exists r. split; [|split; congruence]. apply set_impl_plain; [exact P|]. destruct b; congruence.
  - destruct W as [W|W]; [|exfalso; apply W; left; reflexivity]. exists r. split; [apply include_plain; assumption|split; congruence].
  - destruct W as [W|W]; [|exfalso; apply W; right; eexists; reflexivity]. rewrite include_dispatch_eq. destruct (g_dispatch u) eqn:G; [exists r; split; [exact P|split; congruence]|].
    destruct (include_plain r u P W) as (P1 & G1 & A1 & B1 & _). assert (R : r = false).
    { pose proof (p_decls _ _ P) as D. rewrite G in D. inversion D; reflexivity. }
    subst r. exists (negb d). split; [apply dispatch_plain; [exact P1|exact G1|congruence]|]. split; [discriminate|]. destruct d; cbn; congruence.
Qed.
Lemma reach_step u l : reach u -> l <> Set_impl true -> reach (step o u l).
Proof.
  intros [r P|X b a r I] N.
  - destruct (INLINE u || PRIVATE u)%bool eqn:W.
    + destruct l as [x|x|x|x| |d]; try (destruct (plain_step r u _ P N) as (r' & Q & _); [right; intros [Z|[? Z]]; discriminate|exact (r_plain _ r' Q)]).
      * cbn [step]. exact (r_inlined _ _ _ _ _ (proj1 (include_inline r u P W))).
      * cbn [step]. rewrite include_dispatch_eq. destruct (g_dispatch u) eqn:G; [exact (r_plain _ r P)|].
        pose proof (proj1 (include_inline r u P W)) as I. rewrite G in I. exact (r_inlined _ _ _ _ _ (dispatch_inlined _ d _ I)).
    + destruct (plain_step r u l P N) as (r' & Q & _); [left; exact W|exact (r_plain _ r' Q)].
  - destruct l as [x|x|x|x| |d]; cbn [step]; try exact (r_inlined _ _ _ _ _ (set_inlined X b a r u _ _ _ _ I)).
    + rewrite (include_inlined X b a r u I). exact (r_inlined _ _ _ _ _ I).
    + rewrite include_dispatch_eq, (include_inlined X b a r u I). pose proof (i_dispatch _ _ _ _ _ I) as G. destruct (g_dispatch u) eqn:GD; [exact (r_inlined _ _ _ _ _ I)|].
      destruct b, a; try discriminate. rewrite (i_r _ _ _ _ _ I eq_refl) in I. exact (r_inlined _ _ _ _ _ (dispatch_inlined _ d _ I)).
Qed.
Lemma reach_run ls : forall u, reach u -> ~ In (Set_impl true) ls -> reach (fold_left (step o) ls u).
Proof.
  induction ls as [|l ls IH]; intros u R N; [exact R|]. cbn [fold_left]. apply IH; [|intros I; apply N; right; exact I]. apply reach_step; [exact R|]. intros ->. apply N. left. reflexivity.
Qed.

(** ** The declarations stand together *)
Definition fits (c11 : bool) (a b : decl) : Prop := full a = full b -> agree c11 (is a) (is b).
Definition agreeb (c11 : bool) (a b : what) : bool :=
  match a, b with
  | Fun Extern x, Fun Extern y | Fun Static x, Fun Static y => negb (x && y)
  | Int_type, Int_type => c11
  | _, _ => false
  end.
Lemma agreeb_ok c11 a b : agreeb c11 a b = true -> agree c11 a b.
Proof. destruct a as [[] []| |], b as [[] []| |]; cbn; intros E; try discriminate; try (split; [reflexivity|intros [? ?]; discriminate]). exact E. Qed.
Definition fitsb (c11 : bool) (a b : decl) : bool := negb (String.eqb (base a) (base b)) || agreeb c11 (is a) (is b).
Definition goods (l : list decl) : bool := forallb (fun d => good (base d)) l.
Lemma fitsb_ok c11 a b : good (base a) = true -> good (base b) = true -> fitsb c11 a b = true -> fits c11 a b.
Proof.
  intros A B E F. unfold full in F. apply split_name in F; [|assumption|assumption]. destruct F as [_ F]. unfold fitsb in E. rewrite F, String.eqb_refl in E. apply agreeb_ok, E.
Qed.
Fixpoint pairs {A} (f : A -> A -> bool) (l : list A) : bool := match l with nil => true | a :: l => forallb (f a) l && pairs f l end.
Lemma pairs_valid c11 l : goods l = true -> pairs (fitsb c11) l = true -> valid c11 l.
Proof.
  unfold goods, valid. induction l as [|a l IH]; intros G E; [constructor|]. cbn [forallb pairs] in *. apply andb_prop in G, E. destruct G as [Ga G], E as [Ea E]. constructor; [|apply IH; assumption].
  rewrite forallb_forall in G, Ea. apply Forall_forall. intros b I. apply fitsb_ok; [exact Ga|apply G, I|apply Ea, I].
Qed.
Lemma FOP_app {A} (R : A -> A -> Prop) l m : ForallOrdPairs R l -> ForallOrdPairs R m -> (forall a b, In a l -> In b m -> R a b) -> ForallOrdPairs R (l ++ m).
Proof.
  intros L M C. induction L as [|a l F L IH]; [exact M|]. cbn [app]. constructor.
  - apply Forall_app. split; [exact F|]. apply Forall_forall. intros b I. apply C; [left; reflexivity|exact I].
  - apply IH. intros x y I J. apply C; [right; exact I|exact J].
Qed.

Lemma all_opts (P : opts -> Prop) : (forall a b c, P {| no_stream := a; no_long_long := b; no_xxh3 := c |}) -> P o.
Proof. destruct o. auto. Qed.
Lemma goods_H : goods H_part = true.
Proof. unfold H_part. destruct o as [[] [] []]; vm_compute; reflexivity. Qed.
Lemma goods_S r : goods (S_part r) = true.
Proof. unfold S_part. destruct o as [[] [] []], r; vm_compute; reflexivity. Qed.
Lemma goods_D l : goods (D_part l) = true.
Proof. vm_compute. reflexivity. Qed.
Lemma goods_I : goods I_part = true.
Proof. unfold I_part. destruct o as [[] [] []]; vm_compute; reflexivity. Qed.
Lemma goods_app l m : goods (l ++ m) = (goods l && goods m)%bool.
Proof. apply forallb_app. Qed.
Lemma plain_goods a b c r X : plain_decls a b c r X -> goods X = true.
Proof. intros D. inversion D; subst; rewrite ?goods_app, ?goods_H, ?goods_S, ?goods_D; reflexivity. Qed.

Lemma plain_valid c11 a b c r X : plain_decls a b c r X -> valid c11 X.
Proof.
  intros D. apply pairs_valid; [exact (plain_goods _ _ _ _ _ D)|].
  destruct D; [reflexivity|..]; unfold H_part, S_part, D_part; destruct o as [[] [] []]; try destruct r; destruct c11; vm_compute; reflexivity.
Qed.
Lemma I_valid c11 : valid c11 I_part.
Proof. apply pairs_valid; [apply goods_I|]. unfold I_part. destruct o as [[] [] []], c11; vm_compute; reflexivity. Qed.

(** the kind and the prefix of what is declared before and by the inlining *)
Definition same_kind (a b : what) : bool := match a, b with Fun _ _, Fun _ _ | New_type, New_type | Int_type, Int_type => true | _, _ => false end.
Definition okb (a b : decl) : bool := negb (String.eqb (base a) (base b)) || same_kind (is a) (is b).
Definition cross (l m : list decl) : bool := forallb (fun a => forallb (okb a) m) l.
Lemma plain_cross a b c r X : plain_decls a b c r X -> cross X I_part = true.
Proof. intros D. destruct D; [reflexivity|..]; unfold H_part, S_part, D_part, I_part; destruct o as [[] [] []]; try destruct r; vm_compute; reflexivity. Qed.
Definition before_ok (d : decl) : Prop := match is d with Fun _ _ => pre d = p \/ pre d = "" | _ => pre d = "" end.
Definition inline_ok (d : decl) : Prop := match is d with Fun _ _ => pre d = "XXH_INLINE_" | New_type => pre d = "XXH_NAMESPACE" | Int_type => pre d = "" end.
Lemma plain_fun_ok r l b n : before_ok (plain_fun r (Fun l b) n).
Proof. unfold before_ok, plain_fun. destruct (repl r n); cbn; auto. Qed.
Lemma Forall_map_all {A B} (P : B -> Prop) (f : A -> B) l : (forall x, P (f x)) -> Forall P (map f l).
Proof. intros H. induction l; constructor; auto. Qed.
Lemma plain_before a b c r X : plain_decls a b c r X -> Forall before_ok X.
Proof.
  intros D. destruct D; [constructor|..]; unfold H_part, S_part, D_part; repeat (apply Forall_app; split); apply Forall_map_all; intros x; try apply plain_fun_ok; try reflexivity;
    unfold before_ok; cbn; auto.
Qed.
Lemma I_ok : Forall inline_ok I_part.
Proof. unfold I_part. repeat (apply Forall_app; split); apply Forall_map_all; intros x; reflexivity. Qed.

Lemma cross_fits c11 a b c r X : plain_decls a b c r X -> p <> "XXH_INLINE_" -> (c11 = true \/ X = nil) -> forall x y, In x X -> In y I_part -> fits c11 x y.
Proof.
  intros D N C x y IX IY. destruct C as [->| ->]; [|destruct IX]. intros F. unfold full in F.
  pose proof (plain_goods _ _ _ _ _ D) as GX. pose proof goods_I as GI. unfold goods in GX, GI. rewrite forallb_forall in GX, GI.
  destruct (split_name _ _ _ _ (GX x IX) (GI y IY) F) as [Q B].
  pose proof (plain_cross _ _ _ _ _ D) as K. unfold cross in K. rewrite forallb_forall in K. specialize (K x IX). rewrite forallb_forall in K. specialize (K y IY).
  unfold okb in K. rewrite B, String.eqb_refl in K. cbn [negb orb] in K.
  pose proof (plain_before _ _ _ _ _ D) as PB. rewrite Forall_forall in PB. specialize (PB x IX). pose proof I_ok as PI. rewrite Forall_forall in PI. specialize (PI y IY).
  unfold before_ok in PB. unfold inline_ok in PI. destruct (is x), (is y); try discriminate.
  - exfalso. rewrite PI in Q. destruct PB as [PB|PB]; rewrite PB in Q; [apply N, Q|discriminate].
  - reflexivity.
  - rewrite PI, PB in Q. discriminate.
Qed.
Lemma after_fits c11 X a b r : plain_decls a b false r X -> forall x y, In x (X ++ I_part) -> In y (D_part Static) -> fits c11 x y.
Proof.
  intros D x y IX IY.
  assert (K : forallb (fun x => forallb (fitsb c11 x) (D_part Static)) (X ++ I_part) = true).
  { rewrite forallb_app. apply andb_true_intro. split; [inversion D; [reflexivity|..]; unfold H_part, S_part|unfold I_part]; destruct o as [[] [] []]; vm_compute; reflexivity. }
  assert (G : goods (X ++ I_part) = true) by (rewrite goods_app, goods_I, (plain_goods _ _ _ _ _ D); reflexivity).
  pose proof (goods_D Static) as GD. unfold goods in G, GD. rewrite forallb_forall in K, G, GD. specialize (K x IX). rewrite forallb_forall in K.
  apply fitsb_ok; [apply G, IX|apply GD, IY|apply K, IY].
Qed.
Lemma D_valid c11 : valid c11 (D_part Static).
Proof. apply pairs_valid; [apply goods_D|]. destruct c11; vm_compute; reflexivity. Qed.
Lemma inlined_valid c11 X b a r u : inlined X b a r u -> p <> "XXH_INLINE_" -> (c11 = true \/ X = nil) -> compiles c11 u.
Proof.
  intros I N C. split; [apply (i_clash _ _ _ _ _ I)|]. destruct (i_decls _ _ _ _ _ I) as ((st & sa & rb & D) & E). rewrite E, app_assoc. unfold valid.
  assert (V : valid c11 (X ++ I_part)) by (apply FOP_app; [apply (plain_valid c11 _ _ _ _ _ D)|apply I_valid|apply (cross_fits c11 _ _ _ _ _ D); assumption]).
  destruct a; [|rewrite app_nil_r; exact V]. pose proof (i_both _ _ _ _ _ I) as B. destruct b; [discriminate B; reflexivity|].
  apply FOP_app; [exact V|apply D_valid|apply (after_fits c11 X _ _ _ D)].
Qed.
Lemma plain_compiles c11 r u : plain r u -> compiles c11 u.
Proof. intros P. split; [apply (p_clash _ _ P)|apply (plain_valid c11 _ _ _ _ _ (p_decls _ _ P))]. Qed.
Lemma reach_compiles u : reach u -> p <> "XXH_INLINE_" -> compiles true u.
Proof. intros [r P|X b a r I] N; [apply (plain_compiles true r), P|apply (inlined_valid true X b a r); auto]. Qed.
Lemma no_body_plain a b c r X : plain_decls a b c r X -> forall d, In d X -> is d <> Fun Extern true.
Proof.
  intros D d I E. assert (Q : forallb (fun d => match is d with Fun Extern true => false | _ => true end) X = true).
  { inversion D; [reflexivity|..]; unfold H_part, S_part; destruct o as [[] [] []]; try destruct r; vm_compute; reflexivity. }
  rewrite forallb_forall in Q. specialize (Q d I). rewrite E in Q. discriminate.
Qed.
Lemma reach_exports u i : reach u -> ~ exports u i.
Proof.
  intros R (d & I & _ & E). destruct R as [r P|X b a r J]; [apply (no_body_plain _ _ _ _ _ (p_decls _ _ P) d I E)|].
  destruct (i_decls _ _ _ _ _ J) as ((st & sa & rb & D) & Q). rewrite Q in I. apply in_app_or in I. destruct I as [I|I]; [apply (no_body_plain _ _ _ _ _ D d I E)|].
  apply in_app_or in I. destruct I as [I|I].
  - assert (K : forallb (fun d => match is d with Fun Extern true => false | _ => true end) I_part = true) by (unfold I_part; destruct o as [[] [] []]; vm_compute; reflexivity).
    rewrite forallb_forall in K. specialize (K d I). rewrite E in K. discriminate.
  - destruct a; [|destruct I]. apply in_map_iff in I. destruct I as (n & <- & _). discriminate.
Qed.
End Reach.

(** ** The interface *)
Definition offeredb (o : opts) (static : bool) : list string :=
  map (fun e => fst (fst e)) (filter (fun e => present o (snd (fst e)) && implb (snd e) static) interface).
Lemma offered_In o s n : offered o s n <-> In n (offeredb o s).
Proof.
  unfold offered, offeredb. rewrite in_map_iff. split.
  - intros (f & b & I & P & B). exists (n, f, b). split; [reflexivity|]. apply filter_In. split; [exact I|]. cbn. rewrite P. destruct b; [rewrite (B eq_refl)|]; reflexivity.
  - intros ([[m f] b] & <- & I). apply filter_In in I. destruct I as [I E]. cbn in *. apply andb_prop in E. destruct E as [E1 E2]. exists f, b. split; [exact I|]. split; [exact E1|].
    intros ->. exact E2.
Qed.
Definition subset (l m : list string) : bool := forallb (fun n => mem n m) l.
Lemma subset_ok l m : subset l m = true -> forall n, In n l -> In n m.
Proof. unfold subset. rewrite forallb_forall. intros H n I. apply mem_In, H, I. Qed.
Lemma offered_stable o n : offered o false n <-> In n (stable_functions o).
Proof.
  rewrite offered_In. split; [apply (subset_ok (offeredb o false))|apply (subset_ok (stable_functions o) (offeredb o false))]; destruct o as [[] [] []]; vm_compute; reflexivity.
Qed.
Lemma offered_all o n : offered o true n <-> In n (stable_functions o ++ static_functions o).
Proof.
  rewrite offered_In. split; [apply (subset_ok (offeredb o true))|apply (subset_ok _ (offeredb o true))]; destruct o as [[] [] []]; vm_compute; reflexivity.
Qed.
Lemma offered_defined o n : offered o true n <-> In n (defined_functions o).
Proof.
  rewrite offered_In. split; [apply (subset_ok (offeredb o true))|apply (subset_ok _ (offeredb o true))]; destruct o as [[] [] []]; vm_compute; reflexivity.
Qed.
Lemma offered_types o n : offered_type o n -> In n (stable_types o ++ int_types o).
Proof.
  intros (f & I & P). assert (J : In n (map fst (filter (fun e => present o (snd e)) interface_types))).
  { apply in_map_iff. exists (n, f). split; [reflexivity|]. apply filter_In. split; assumption. }
  revert J. apply subset_ok. destruct o as [[] [] []]; vm_compute; reflexivity.
Qed.
Lemma replacement_dispatched n x : replacement n = Some x -> x = dispatched n.
Proof.
  unfold replacement. destruct (find _ replacements) as [[a b]|] eqn:E; [|discriminate]. cbn. intros H. injection H as <-.
  apply find_some in E. destruct E as [I E]. cbn in E. apply String.eqb_eq in E. subst a.
  assert (Q : forallb (fun r => String.eqb (snd r) (dispatched (fst r))) replacements = true) by (vm_compute; reflexivity).
  rewrite forallb_forall in Q. apply String.eqb_eq. exact (Q _ I).
Qed.

(** ** Flags *)
Lemma flags_include o u : INLINE (include_xxhash o u) = INLINE u /\ PRIVATE (include_xxhash o u) = PRIVATE u.
Proof.
  assert (A : forall v, INLINE (inline_part v) = INLINE v /\ PRIVATE (inline_part v) = PRIVATE v) by (intros v; unfold inline_part; destruct (_ && _)%bool; split; reflexivity).
  assert (B : forall v, INLINE (stable_part o v) = INLINE v /\ PRIVATE (stable_part o v) = PRIVATE v) by (intros v; unfold stable_part; destruct (g_stable v); split; reflexivity).
  assert (C : forall v, INLINE (static_part o v) = INLINE v /\ PRIVATE (static_part o v) = PRIVATE v) by (intros v; unfold static_part; destruct (_ && _)%bool; split; reflexivity).
  assert (D : forall v, INLINE (impl_part o v) = INLINE v /\ PRIVATE (impl_part o v) = PRIVATE v) by (intros v; unfold impl_part; destruct (_ && _)%bool; split; reflexivity).
  unfold include_xxhash. split; [rewrite (proj1 (D _)), (proj1 (C _)), (proj1 (B _))|rewrite (proj2 (D _)), (proj2 (C _)), (proj2 (B _))]; apply A.
Qed.
Lemma flags_dispatch o d u : INLINE (include_dispatch d o u) = INLINE u /\ PRIVATE (include_dispatch d o u) = PRIVATE u.
Proof. rewrite include_dispatch_eq. destruct (g_dispatch u); [split; reflexivity|]. apply flags_include. Qed.
Lemma flags_run o ls : forall u a b, INLINE u = a -> PRIVATE u = b ->
  INLINE (fold_left (step o) ls u) = fold_left (fun b l => match (match l with Set_inline b => Some b | _ => None end) with Some x => x | None => b end) ls a /\
  PRIVATE (fold_left (step o) ls u) = fold_left (fun b l => match (match l with Set_private b => Some b | _ => None end) with Some x => x | None => b end) ls b.
Proof.
  induction ls as [|l ls IH]; intros u a b A B; [split; assumption|]. cbn [fold_left]. apply IH; destruct l; cbn [step INLINE PRIVATE]; auto.
  - rewrite (proj1 (flags_include o u)). exact A.
  - rewrite (proj1 (flags_dispatch o _ u)). exact A.
  - rewrite (proj2 (flags_include o u)). exact B.
  - rewrite (proj2 (flags_dispatch o _ u)). exact B.
Qed.
Lemma flags o ns ls : (INLINE (compile o ns ls) || PRIVATE (compile o ns ls))%bool = inlining ls.
Proof. unfold compile, inlining, last_of. destruct (flags_run o ls (start ns) false false eq_refl eq_refl) as [-> ->]. reflexivity. Qed.
Lemma last_false f ls : (forall l, In l ls -> f l <> Some true) -> last_of f ls = false.
Proof.
  intros H. unfold last_of. induction ls as [|l ls IH]; [reflexivity|]. cbn [fold_left].
  replace (match f l with Some x => x | None => false end) with false; [apply IH; intros k K; apply H; right; exact K|].
  specialize (H l (or_introl eq_refl)). destruct (f l) as [[]|]; congruence.
Qed.
Lemma not_inlining ls : (forall l, In l ls -> ~ asks_inline l) -> inlining ls = false.
Proof.
  intros H. unfold inlining. rewrite !last_false; [reflexivity|intros l I..]; specialize (H l I); destruct l as [[]|[]|[]|[]| |]; try discriminate; exfalso; apply H; [right|left]; reflexivity.
Qed.

(** ** Units that never inline *)
Section Plain.
Context (o : opts) (ns : option string).
Lemma plain_run ls : (forall l, In l ls -> ~ asks_inline l) -> ~ In (Set_impl true) ls ->
  exists r, plain o ns r (compile o ns ls) /\ (r = true -> In (Include_dispatch false) ls) /\ g_stable (compile o ns ls) = existsb (fun l => match l with Include | Include_dispatch _ => true | _ => false end) ls.
Proof.
  induction ls as [|l ls IH] using rev_ind; intros A N; [exists false; split; [apply start_plain|split; [discriminate|reflexivity]]|].
  assert (A' : forall l, In l ls -> ~ asks_inline l) by (intros k K; apply A, in_or_app; left; exact K).
  destruct IH as (r & P & R & G); [exact A'|intros I; apply N, in_or_app; left; exact I|].
  assert (W : (INLINE (compile o ns ls) || PRIVATE (compile o ns ls))%bool = false) by (rewrite flags; apply not_inlining, A').
  assert (L : l <> Set_impl true) by (intros ->; apply N, in_or_app; right; left; reflexivity).
  unfold compile in *. rewrite fold_left_app. cbn [fold_left]. set (u := fold_left (step o) ls (start ns)) in *.
  destruct (plain_step o ns r u l P L (or_introl W)) as (r' & P' & R1 & R2). exists r'. split; [exact P'|]. split.
  - intros E. apply in_or_app. destruct r; [left; apply R; reflexivity|]. right. left. apply R2. congruence.
  - rewrite existsb_app. cbn [existsb]. rewrite orb_false_r, <- G. destruct l as [b|b|b|b| |d]; cbn [step g_stable]; rewrite ?orb_false_r, ?orb_true_r; try reflexivity.
    + apply (include_plain o ns r u P W).
    + rewrite include_dispatch_eq. destruct (g_dispatch u) eqn:GD; [pose proof (p_decls _ _ _ _ P) as D; rewrite GD in D; inversion D; reflexivity|].
      unfold after_dispatch, add. cbn [g_stable]. apply (include_plain o ns r u P W).
Qed.
Lemma static_run ls ls' : (forall l, In l (ls ++ Include :: ls') -> ~ asks_inline l) -> ~ In (Set_impl true) (ls ++ Include :: ls') -> static_linking ls = true ->
  g_static (compile o ns (ls ++ Include :: ls')) = true.
Proof.
  intros A N S.
  assert (K : forall ks, (exists t, ls ++ Include :: ls' = ks ++ t) -> STATIC (compile o ns ks) = static_linking ks).
  { induction ks as [|l ks IH] using rev_ind; intros (t & T); [reflexivity|]. unfold compile, static_linking, last_of. rewrite !fold_left_app. cbn [fold_left].
    rewrite <- app_assoc in T. cbn [app] in T. specialize (IH (ex_intro _ _ T)).
    destruct (plain_run ks) as (r & P & _); [intros k J; apply A; rewrite T; apply in_or_app; left; exact J|intros J; apply N; rewrite T; apply in_or_app; left; exact J|].
    assert (W : (INLINE (compile o ns ks) || PRIVATE (compile o ns ks))%bool = false) by (rewrite flags; apply not_inlining; intros k J; apply A; rewrite T; apply in_or_app; left; exact J).
    fold (compile o ns ks). destruct l as [b|b|b|b| |d]; cbn [step STATIC]; try exact IH; [reflexivity| |].
    - destruct (include_plain o ns r _ P W) as (_ & _ & _ & _ & Q & _). rewrite Q. exact IH.
    - rewrite include_dispatch_eq. destruct (g_dispatch _); [exact IH|]. unfold after_dispatch, add. cbn [STATIC].
      destruct (include_plain o ns r _ P W) as (_ & _ & _ & _ & Q & _). rewrite Q. exact IH. }
  assert (M : forall ks, (exists t, ls' = ks ++ t) -> g_static (compile o ns (ls ++ Include :: ks)) = true).
  { induction ks as [|l ks IH] using rev_ind; intros (t & T).
    - assert (T' : ls ++ Include :: ls' = ls ++ Include :: t) by (rewrite T; reflexivity).
      destruct (plain_run ls) as (r & P & _); [intros k J; apply A, in_or_app; left; exact J|intros J; apply N, in_or_app; left; exact J|].
      assert (W : (INLINE (compile o ns ls) || PRIVATE (compile o ns ls))%bool = false) by (rewrite flags; apply not_inlining; intros k J; apply A, in_or_app; left; exact J).
      unfold compile. rewrite fold_left_app. cbn [fold_left step]. fold (compile o ns ls). destruct (include_plain o ns r _ P W) as (_ & _ & Q & _). rewrite Q.
      rewrite (K ls (ex_intro _ _ eq_refl)), S. reflexivity.
    - rewrite <- app_assoc in T. cbn [app] in T. specialize (IH (ex_intro _ _ T)). set (l0 := ls ++ Include :: ks) in *.
      assert (T' : ls ++ Include :: ls' = l0 ++ l :: t) by (unfold l0; rewrite T, <- app_assoc; reflexivity).
      destruct (plain_run l0) as (r & P & _); [intros k J; apply A; rewrite T'; apply in_or_app; left; exact J|intros J; apply N; rewrite T'; apply in_or_app; left; exact J|].
      assert (W : (INLINE (compile o ns l0) || PRIVATE (compile o ns l0))%bool = false) by (rewrite flags; apply not_inlining; intros k J; apply A; rewrite T'; apply in_or_app; left; exact J).
      replace (ls ++ Include :: ks ++ [l]) with (l0 ++ [l]) by (unfold l0; rewrite <- app_assoc; reflexivity).
      unfold compile. rewrite fold_left_app. cbn [fold_left]. fold (compile o ns l0). destruct l as [b|b|b|b| |d]; cbn [step g_static]; try exact IH.
      + destruct (include_plain o ns r _ P W) as (_ & _ & Q & _). rewrite Q, IH. apply orb_true_r.
      + rewrite include_dispatch_eq. destruct (g_dispatch _); [exact IH|]. unfold after_dispatch, add. cbn [g_static].
        destruct (include_plain o ns r _ P W) as (_ & _ & Q & _). rewrite Q, IH. apply orb_true_r. }
  apply (M ls'). exists nil. symmetry. apply app_nil_r.
Qed.
Lemma plain_stands r u n : plain o ns r u -> g_stable u = true -> mem n prefixed_names = true ->
  stands_for u n = match repl r n with Some x => x | None => (prefix_of ns ++ n)%string end.
Proof.
  intros P G M. unfold stands_for, expand. rewrite (p_macros _ _ _ _ P). unfold plain_macros. rewrite G, M. destruct (repl r n); [reflexivity|].
  rewrite (p_ns _ _ _ _ P). unfold named, prefix_of. destruct ns; reflexivity.
Qed.
Lemma dispatch_declared b c r X x : plain_decls o ns b c true r X -> In x dispatch_functions -> In (Decl "" x (Fun Extern false)) X.
Proof.
  intros D I. assert (J : In (Decl "" x (Fun Extern false)) (D_part Extern)) by (apply in_map_iff; exists x; split; [reflexivity|exact I]).
  inversion D; subst; rewrite !in_app_iff; auto.
Qed.
Lemma has_H b c r X : plain_decls o ns true b c r X -> incl (H_part o ns) X.
Proof. intros D d I. inversion D; subst; rewrite ?in_app_iff; auto. Qed.
Lemma has_S a c r X : plain_decls o ns a true c r X -> exists r', (r' = r \/ r' = false) /\ incl (S_part o ns r') X.
Proof.
  intros D. inversion D; subst; [exists false|exists false|exists r]; (split; [auto|]); intros d I; rewrite !in_app_iff; auto.
Qed.
Lemma plain_declared r u n : plain o ns r u -> g_stable u = true ->
  (In n (stable_functions o) \/ (g_static u = true /\ In n (static_functions o))) -> declared u (stands_for u n) (Fun Extern false).
Proof.
  intros P G C.
  assert (M : mem n prefixed_names = true) by (apply (funs_prefixed o); rewrite !in_app_iff; destruct C as [C|[_ C]]; auto).
  rewrite (plain_stands r u n P G M). pose proof (p_decls _ _ _ _ P) as D. destruct (repl r n) as [x|] eqn:R.
  - destruct r; [|discriminate]. destruct (replaced_undefined n x R) as (_ & _ & X). exists (Decl "" x (Fun Extern false)). split; [|split; reflexivity].
    assert (GD : g_dispatch u = true) by (inversion D; congruence). rewrite GD in D. exact (dispatch_declared _ _ _ _ _ D X).
  - exists (Decl (prefix_of ns) n (Fun Extern false)). split; [|split; reflexivity].
    assert (Q : forall l r', repl r' n = None -> In n l -> In (Decl (prefix_of ns) n (Fun Extern false)) (map (plain_fun ns r' (Fun Extern false)) l)).
    { intros l r' E I. apply in_map_iff. exists n. split; [unfold plain_fun; rewrite E; reflexivity|exact I]. }
    assert (HH : In n (stable_functions o) -> In (Decl (prefix_of ns) n (Fun Extern false)) (H_part o ns)).
    { intros I. unfold H_part. rewrite !in_app_iff. right. right. apply Q; [reflexivity|exact I]. }
    assert (SS : forall r', repl r' n = None -> In n (static_functions o) -> In (Decl (prefix_of ns) n (Fun Extern false)) (S_part o ns r')).
    { intros r' E I. unfold S_part. rewrite !in_app_iff. right. apply Q; assumption. }
    destruct C as [C|[GS C]].
    + rewrite G in D. apply (has_H _ _ _ _ D), HH, C.
    + rewrite GS in D. destruct (has_S _ _ _ _ D) as (r' & E & K). apply K, SS; [|exact C]. destruct E as [-> | ->]; [exact R|reflexivity].
Qed.
Lemma plain_declared_type r u n : plain o ns r u -> g_stable u = true -> In n (stable_types o ++ int_types o) -> stands_for u n = n /\ exists w, declared u n w /\ (w = New_type \/ w = Int_type).
Proof.
  intros P G I. pose proof (p_macros _ _ _ _ P) as M. rewrite G in M.
  assert (F : no_function n = true) by (apply in_app_or in I; destruct I as [I|I]; [apply (types_no_function o), in_or_app; left; exact I|apply (ints_no_function o n I)]).
  split.
  - pose proof (f_equal (fun d => (pre d ++ base d)%string) (declare_type ns r u New_type n M F)) as Q. exact Q.
  - assert (Q : exists w, In (Decl "" n w) (H_part o ns) /\ (w = New_type \/ w = Int_type)).
    { unfold H_part. apply in_app_or in I. destruct I as [I|I]; [exists New_type|exists Int_type]; (split; [|auto]); rewrite !in_app_iff.
      - left. apply in_map_iff. exists n. auto.
      - right. left. apply in_map_iff. exists n. auto. }
    destruct Q as (w & Q & K). exists w. split; [|exact K]. exists (Decl "" n w). split; [|split; reflexivity].
    pose proof (p_decls _ _ _ _ P) as D. rewrite G in D. apply (has_H _ _ _ _ D), Q.
Qed.
End Plain.

(** ** Units that inline *)
Section Inline.
Context (o : opts) (ns : option string).
(** inlined, and no name replaced afterwards; or not inlined yet *)
Definition settled (u : unit) : Prop := exists X b a, inlined o ns X b a false u.
Definition on_the_way (u : unit) : Prop := (exists r, plain o ns r u) \/ settled u.
Lemma settled_step u l : settled u -> l <> Include_dispatch false -> settled (step o u l).
Proof.
  intros (X & b & a & I) N. destruct l as [x|x|x|x| |d]; cbn [step]; try (exists X, b, a; exact (set_inlined o ns X b a false u _ _ _ _ I)).
  - rewrite (include_inlined o ns X b a false u I). exists X, b, a. exact I.
  - rewrite include_dispatch_eq, (include_inlined o ns X b a false u I). pose proof (i_dispatch _ _ _ _ _ _ _ I) as G. destruct (g_dispatch u) eqn:GD; [exists X, b, a; exact I|].
    destruct b, a; try discriminate. exists X, false, true. destruct d; [|congruence]. exact (dispatch_inlined o ns X true u I).
Qed.
Lemma on_the_way_step u l : on_the_way u -> l <> Set_impl true -> l <> Include_dispatch false -> on_the_way (step o u l).
Proof.
  intros [(r & P)|S] N D; [|right; apply settled_step; assumption].
  destruct (INLINE u || PRIVATE u)%bool eqn:W.
  - destruct l as [x|x|x|x| |d]; try (destruct (plain_step o ns r u _ P N) as (r' & Q & _); [right; intros [Z|[? Z]]; discriminate|left; exists r'; exact Q]).
    + right. cbn [step]. eexists _, _, _. exact (proj1 (include_inline o ns r u P W)).
    + cbn [step]. rewrite include_dispatch_eq. destruct (g_dispatch u) eqn:G; [left; exists r; exact P|]. right.
      pose proof (proj1 (include_inline o ns r u P W)) as I. rewrite G in I. destruct d; [|congruence]. eexists _, _, _. exact (dispatch_inlined o ns _ true _ I).
  - destruct (plain_step o ns r u l P N) as (r' & Q & _); [left; exact W|left; exists r'; exact Q].
Qed.
Lemma on_the_way_run ls : forall u, on_the_way u -> ~ In (Set_impl true) ls -> ~ In (Include_dispatch false) ls -> on_the_way (fold_left (step o) ls u).
Proof.
  induction ls as [|l ls IH]; intros u R N D; [exact R|]. cbn [fold_left]. apply IH; [|intros I; apply N; right; exact I|intros I; apply D; right; exact I].
  apply on_the_way_step; [exact R| |]; intros ->; [apply N|apply D]; left; reflexivity.
Qed.
Lemma settled_run ls : forall u, settled u -> ~ In (Include_dispatch false) ls -> settled (fold_left (step o) ls u).
Proof.
  induction ls as [|l ls IH]; intros u R D; [exact R|]. cbn [fold_left]. apply IH; [|intros I; apply D; right; exact I].
  apply settled_step; [exact R|]. intros ->; apply D; left; reflexivity.
Qed.
Lemma inline_run la lb1 lb2 : (forall l, In l la -> ~ asks_inline l) -> ~ In (Set_impl true) (la ++ lb1 ++ Include :: lb2) -> ~ In (Include_dispatch false) (lb1 ++ lb2) ->
  inlining (la ++ lb1) = true -> settled (compile o ns (la ++ lb1 ++ Include :: lb2)).
Proof.
  intros A N D W. destruct (plain_run o ns la A) as (r & P & _); [intros I; apply N, in_or_app; left; exact I|].
  assert (Q : on_the_way (compile o ns (la ++ lb1))).
  { unfold compile. rewrite fold_left_app. apply on_the_way_run; [left; exists r; exact P|intros I; apply N; rewrite !in_app_iff; auto|intros I; apply D; rewrite in_app_iff; auto]. }
  rewrite app_assoc. unfold compile. rewrite fold_left_app. cbn [fold_left]. fold (compile o ns (la ++ lb1)). apply settled_run; [|intros I; apply D; rewrite in_app_iff; auto].
  destruct Q as [(r' & Q)|Q]; [|apply settled_step; [exact Q|discriminate]]. cbn [step]. rewrite <- (flags o ns) in W. eexists _, _, _. exact (proj1 (include_inline o ns r' _ Q W)).
Qed.
Lemma in_I n w : (In n (defined_functions o) /\ w = Decl "XXH_INLINE_" n (Fun Static true)) \/
  (In n (stable_types o) /\ w = Decl "XXH_NAMESPACE" n New_type) \/ (In n (int_types o) /\ w = Decl "" n Int_type) -> In w (I_part o).
Proof.
  intros C. unfold I_part. rewrite !in_app_iff. destruct C as [[I ->]|[[I ->]|[I ->]]].
  - right. right. apply in_map_iff. exists n. auto.
  - left. left. apply in_map_iff. exists n. auto.
  - left. right. left. apply in_map_iff. exists n. auto.
Qed.
Lemma settled_function u n : settled u -> In n (defined_functions o) -> stands_for u n = ("XXH_INLINE_" ++ n)%string /\ declared u (stands_for u n) (Fun Static true).
Proof.
  intros (X & b & a & I) J. assert (M : mem n prefixed_names = true) by (apply (funs_prefixed o); rewrite !in_app_iff; auto).
  assert (E : stands_for u n = ("XXH_INLINE_" ++ n)%string).
  { exact (f_equal full (declare_in false u New_type n (i_ns _ _ _ _ _ _ _ I) (i_macros _ _ _ _ _ _ _ I) eq_refl M)). }
  split; [exact E|]. rewrite E. exists (Decl "XXH_INLINE_" n (Fun Static true)). split; [|split; reflexivity].
  destruct (i_decls _ _ _ _ _ _ _ I) as (_ & Q). rewrite Q, !in_app_iff. right. left. apply (in_I n). auto.
Qed.
Lemma settled_type u n : settled u -> In n (stable_types o ++ int_types o) -> exists w, declared u (stands_for u n) w /\ (w = New_type \/ w = Int_type).
Proof.
  intros (X & b & a & I) J.
  assert (F : no_function n = true) by (apply in_app_or in J; destruct J as [J|J]; [apply (types_no_function o), in_or_app; left; exact J|apply (ints_no_function o n J)]).
  assert (E : stands_for u n = ((if mem n renamed_types then "XXH_NAMESPACE" else "") ++ n)%string).
  { exact (f_equal full (declare_in_type false u New_type n (i_macros _ _ _ _ _ _ _ I) F)). }
  destruct (i_decls _ _ _ _ _ _ _ I) as (_ & Q). apply in_app_or in J. destruct J as [J|J].
  - rewrite (types_renamed o n (proj2 (in_app_iff _ _ _) (or_introl J))) in E. exists New_type. split; [|auto]. exists (Decl "XXH_NAMESPACE" n New_type). split; [|split; [symmetry; exact E|reflexivity]].
    rewrite Q, !in_app_iff. right. left. apply (in_I n). auto.
  - rewrite (proj2 (ints_no_function o n J)) in E. exists Int_type. split; [|auto]. exists (Decl "" n Int_type). split; [|split; [symmetry; exact E|reflexivity]].
    rewrite Q, !in_app_iff. right. left. apply (in_I n). auto.
Qed.
End Inline.

(** ** xxhash.c *)
Section Library.
Context (o : opts) (ns : option string).
Definition L_part : list decl := H_part o ns ++ S_part o ns false ++ map (plain_fun ns false (Fun Extern true)) (defined_functions o).
Record library (d : bool) (u : unit) : Prop := {
  l_ns : NAMESPACE u = ns; l_api : API u = Some Extern;
  l_stable : g_stable u = true; l_static : g_static u = true; l_impl : g_impl u = true; l_dispatch : g_dispatch u = d; l_clash : clash u = false;
  l_macros : exists r, (d = false -> r = false) /\ forall n, macros u n = plain_macros ns true r n;
  l_decls : decls u = (L_part ++ if d then D_part Extern else nil) }.
Lemma library_start : library false (compile o ns xxhash_c).
Proof.
  change (compile o ns xxhash_c) with (include_xxhash o (Unit true false false true ns None false false false false false (fun _ => None) false nil)).
  set (u0 := Unit true false false true ns None false false false false false (fun _ => None) false nil). unfold include_xxhash. change (inline_part u0) with u0. unfold stable_part. cbn [u0 start g_stable INLINE PRIVATE API NAMESPACE STATIC IMPL g_inline g_static g_impl g_dispatch macros clash decls orb negb andb].
  set (m := if match ns with Some _ => true | None => false end then define Prefixed prefixed_names (fun _ => None) else fun _ => None).
  assert (M : forall n, m n = plain_macros ns true false n).
  { intros n. unfold m, plain_macros, repl, named, define. destruct ns; reflexivity. }
  assert (C : (match ns with Some _ => true | None => false end && clashes Prefixed prefixed_names (fun _ => None))%bool = false).
  { destruct ns; [|reflexivity]. apply clashes_false. auto. }
  rewrite C. set (v := Unit _ _ _ _ _ _ _ true _ _ _ m _ _). set (v' := add _ v).
  assert (T : forall w l, (forall n, In n l -> no_function n = true) -> forall u : unit, macros u = m -> map (declare u w) l = map (fun n => Decl "" n w) l).
  { intros w l A u E. apply map_ext_in. intros n I. apply (declare_type ns false); [intros k; rewrite E; apply M|apply A, I]. }
  assert (F : forall w l, (forall n, In n l -> mem n prefixed_names = true) -> forall u : unit, NAMESPACE u = ns -> macros u = m -> map (declare u w) l = map (plain_fun ns false w) l).
  { intros w l A u B E. apply map_ext_in. intros n I. apply (declare_plain ns false); [exact B|intros k; rewrite E; apply M|apply A, I]. }
  assert (V : decls v' = H_part o ns).
  { unfold v', add. cbn [decls v app]. unfold H_part, api. cbn [API v]. f_equal; [|f_equal].
    - apply T; [|reflexivity]. intros n I. apply (types_no_function o), in_or_app. left. exact I.
    - apply T; [|reflexivity]. intros n I. apply (ints_no_function o n I).
    - apply F; try reflexivity. intros n I. apply (funs_prefixed o). rewrite !in_app_iff. auto. }
  unfold static_part. change (STATIC v' && negb (g_static v'))%bool with true. cbv iota.
  assert (S : map (declare v' New_type) (static_types o) ++ map (declare v' (Fun (api v') false)) (static_functions o) = S_part o ns false).
  { unfold S_part. f_equal.
    - apply T; [|reflexivity]. intros n I. apply (types_no_function o), in_or_app. right. exact I.
    - apply F; try reflexivity. intros n I. apply (funs_prefixed o). rewrite !in_app_iff. auto. }
  rewrite S. set (w := add _ _). unfold impl_part. change ((INLINE w || PRIVATE w || IMPL w) && negb (g_impl w))%bool with true. cbv iota.
  assert (Q : map (declare w (Fun (api w) true)) (defined_functions o) = map (plain_fun ns false (Fun Extern true)) (defined_functions o)).
  { apply F; try reflexivity. intros n I. apply (funs_prefixed o). rewrite !in_app_iff. auto. }
  rewrite Q. constructor; try reflexivity.
  - exists false. split; [reflexivity|]. exact M.
  - unfold add at 1. cbn [decls]. unfold w, add at 1. cbn [decls]. rewrite V, app_nil_r. unfold L_part. rewrite <- app_assoc. reflexivity.
Qed.
Lemma library_include d u : library d u -> (INLINE u || PRIVATE u)%bool = false -> include_xxhash o u = u.
Proof.
  intros L W. unfold include_xxhash, inline_part. rewrite W. cbn [andb]. unfold stable_part. rewrite (l_stable _ _ L). unfold static_part. rewrite (l_static _ _ L), andb_false_r.
  unfold impl_part. rewrite (l_impl _ _ L), andb_false_r. reflexivity.
Qed.
Lemma library_step d u l : library d u -> (INLINE u || PRIVATE u)%bool = false -> exists d', library d' (step o u l).
Proof.
  intros L W. destruct l as [x|x|x|x| |b]; cbn [step]; try (exists d; constructor; apply L).
  - rewrite (library_include d u L W). exists d. exact L.
  - rewrite include_dispatch_eq, (library_include d u L W), (l_dispatch _ _ L). destruct d; [exists true; exact L|]. exists true.
    destruct (l_macros _ _ L) as (r & R & M). rewrite (R eq_refl) in M.
    assert (Y : map (declare u (Fun (api u) false)) dispatch_functions = D_part Extern).
    { apply map_ext_in. intros n I. unfold api. rewrite (l_api _ _ L). apply (declare_type ns false); [exact M|]. apply dispatch_no_macro, I. }
    unfold after_dispatch, add. cbv zeta. constructor; cbn [STATIC g_static INLINE PRIVATE IMPL API NAMESPACE g_inline g_stable g_impl g_dispatch macros clash decls]; try apply L; try reflexivity.
    + exists (negb b). split; [discriminate|]. intros n. unfold plain_macros. destruct b; cbn [negb repl]; [apply M|]. destruct (replacement n); [reflexivity|apply M].
    + rewrite Y, (l_decls _ _ L), app_nil_r. reflexivity.
Qed.
Lemma library_run ls : (forall l, In l ls -> ~ asks_inline l) -> exists d, library d (compile o ns (xxhash_c ++ ls)).
Proof.
  induction ls as [|l ls IH] using rev_ind; intros A; [exists false; rewrite app_nil_r; apply library_start|].
  assert (A' : forall l, In l ls -> ~ asks_inline l) by (intros k K; apply A, in_or_app; left; exact K).
  destruct (IH A') as (d & L). rewrite app_assoc. unfold compile. rewrite fold_left_app. cbn [fold_left]. fold (compile o ns (xxhash_c ++ ls)).
  apply (library_step d); [exact L|]. rewrite flags. apply not_inlining. intros k K. apply in_app_or in K. destruct K as [K|K]; [|apply A', K].
  intros [->| ->]; cbn in K; intuition discriminate.
Qed.
Lemma library_compiles c11 d u : library d u -> compiles c11 u.
Proof.
  intros L. split; [apply (l_clash _ _ L)|]. rewrite (l_decls _ _ L). apply pairs_valid.
  - unfold L_part. rewrite !goods_app, goods_H, goods_S. apply andb_true_intro. split; [|destruct d; [apply goods_D|reflexivity]]. destruct o as [[] [] []]; vm_compute; reflexivity.
  - unfold L_part, H_part, S_part, D_part. destruct o as [[] [] []], d, c11; vm_compute; reflexivity.
Qed.
Lemma library_exports d u i : library d u -> (exports u i <-> exists n, In n (defined_functions o) /\ i = (prefix_of ns ++ n)%string).
Proof.
  intros L. unfold exports, declared. rewrite (l_decls _ _ L). split.
  - intros (x & I & <- & E). apply in_app_or in I. destruct I as [I|I].
    + unfold L_part in I. rewrite app_assoc in I. apply in_app_or in I. destruct I as [I|I].
      * exfalso. apply (no_body_plain o ns true true false false _ (pdHS o ns) x I E).
      * apply in_map_iff in I. destruct I as (n & <- & I). exists n. split; [exact I|reflexivity].
    + destruct d; [|destruct I]. apply in_map_iff in I. destruct I as (n & <- & I). discriminate.
  - intros (n & I & ->). exists (Decl (prefix_of ns) n (Fun Extern true)). split; [|split; reflexivity]. unfold L_part. rewrite !in_app_iff. left. right. right.
    apply in_map_iff. exists n. split; [reflexivity|exact I].
Qed.
End Library.
