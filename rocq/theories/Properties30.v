(** Property theorems about including xxhash.h: C101 (xxhash.h:326-520 and its guards, xxh_x86dispatch.h, xxhash.c, xxh3.h). *)
From Coq Require Import String.
From Verif Require Import Base M_Include SpecInclude P_Include.
Import Inc.
Local Open Scope string_scope.
Local Open Scope list_scope.

(** ** C101 *)
(** xxhash.h and xxh_x86dispatch.h can be included any number of times in any order, with the switches set and cleared in between:
    the declarations never clash (in C11 and C++), and the unit exports nothing *)
Theorem C101_any_order : forall o ns ls, prefix_of ns <> "XXH_INLINE_" -> ~ In (Set_impl true) ls ->
  compiles true (compile o ns ls) /\ forall i, ~ exports (compile o ns ls) i.
Proof.
  intros o ns ls P N. assert (R : reach o ns (compile o ns ls)) by (apply reach_run; [exact (r_plain _ _ _ _ (start_plain o ns))|exact N]).
  split; [apply (reach_compiles o ns); assumption|intros i; apply (reach_exports o ns), R].
Qed.
Print Assumptions C101_any_order.
(** also in C90 and C99 if the unit does not inline, or inlines from the first inclusion on *)
Theorem C101_older_c_plain : forall o ns ls, (forall l, In l ls -> ~ asks_inline l) -> ~ In (Set_impl true) ls -> compiles false (compile o ns ls).
Proof. intros o ns ls A N. destruct (plain_run o ns ls A N) as (r & P & _). exact (plain_compiles o ns false r _ P). Qed.
Print Assumptions C101_older_c_plain.
Lemma settled_nil o ns ls : forall u, (exists b a r, inlined o ns nil b a r u) -> exists b a r, inlined o ns nil b a r (fold_left (step o) ls u).
Proof.
  induction ls as [|l ls IH]; intros u (b & a & r & I); [exists b, a, r; exact I|]. cbn [fold_left]. apply IH.
  destruct l as [x|x|x|x| |d]; cbn [step]; try (exists b, a, r; exact (set_inlined o ns nil b a r u _ _ _ _ I)).
  - rewrite (include_inlined o ns nil b a r u I). exists b, a, r. exact I.
  - rewrite include_dispatch_eq, (include_inlined o ns nil b a r u I). pose proof (i_dispatch _ _ _ _ _ _ _ I) as G. destruct (g_dispatch u) eqn:GD; [exists b, a, r; exact I|].
    destruct b, a; try discriminate. rewrite (i_r _ _ _ _ _ _ _ I eq_refl) in I. exists false, true, (negb d). exact (dispatch_inlined o ns nil d u I).
Qed.
Theorem C101_older_c_inline : forall o ns l1 l2, prefix_of ns <> "XXH_INLINE_" -> (forall l, In l l1 -> ~ includes l) -> ~ In (Set_impl true) l1 -> inlining l1 = true ->
  compiles false (compile o ns (l1 ++ Include :: l2)).
Proof.
  intros o ns l1 l2 NS NI N W.
  assert (Q : forall ls, (forall l, In l ls -> ~ includes l) -> ~ In (Set_impl true) ls -> forall u, plain o ns false u -> decls u = nil ->
    plain o ns false (fold_left (step o) ls u) /\ decls (fold_left (step o) ls u) = nil).
  { induction ls as [|l ls IH]; intros A B u P E; [split; assumption|]. cbn [fold_left].
    assert (L : l <> Set_impl true) by (intros ->; apply B; left; reflexivity). assert (K : ~ includes l) by (apply A; left; reflexivity).
    destruct (plain_step o ns false u l P L (or_intror K)) as (r' & P' & _ & R).
    assert (r' = false) by (destruct r'; [exfalso; apply K; right; exists false; apply R; discriminate|reflexivity]). subst r'.
    apply IH; [intros k I; apply A; right; exact I|intros I; apply B; right; exact I|exact P'|].
    destruct l; cbn [step decls]; try exact E; exfalso; apply K; [left; reflexivity|right; eexists; reflexivity]. }
  destruct (Q l1 NI N (start ns) (start_plain o ns) eq_refl) as [P E]. unfold compile. rewrite fold_left_app. cbn [fold_left step]. fold (compile o ns l1) in *.
  assert (F : (INLINE (compile o ns l1) || PRIVATE (compile o ns l1))%bool = true) by (rewrite flags; exact W).
  pose proof (proj1 (include_inline o ns false _ P F)) as I. rewrite E in I.
  destruct (settled_nil o ns l2 _ (ex_intro _ _ (ex_intro _ _ (ex_intro _ _ I)))) as (b & a & r & J). apply (inlined_valid o ns false nil b a r _ J NS). right. reflexivity.
Qed.
Print Assumptions C101_older_c_inline.

(** after an inclusion with XXH_INLINE_ALL or XXH_PRIVATE_API every function of the interface, those for static linking included, is a
    static function with its body in the unit, whatever was included before (also xxh_x86dispatch.h, with its replacements) and
    whatever is set and included afterwards; and so for the types *)
Theorem C101_inline : forall o ns la lb1 lb2, (forall l, In l la -> ~ asks_inline l) -> ~ In (Set_impl true) (la ++ lb1 ++ Include :: lb2) -> ~ In (Include_dispatch false) (lb1 ++ lb2) ->
  inlining (la ++ lb1) = true ->
  let u := compile o ns (la ++ lb1 ++ Include :: lb2) in
  (forall n, offered o true n -> stands_for u n = ("XXH_INLINE_" ++ n)%string /\ declared u (stands_for u n) (Fun Static true)) /\
  (forall n, offered_type o n -> exists w, declared u (stands_for u n) w /\ (w = New_type \/ w = Int_type)).
Proof.
  intros o ns la lb1 lb2 A N D W u. pose proof (inline_run o ns la lb1 lb2 A N D W) as S. split; intros n I.
  - apply (settled_function o ns u n S). apply offered_defined, I.
  - apply (settled_type o ns u n S), offered_types, I.
Qed.
Print Assumptions C101_inline.
(** without them every function is declared under its name with the namespace in front, or under the name of the dispatcher *)
Theorem C101_plain : forall o ns ls static, (forall l, In l ls -> ~ asks_inline l) -> ~ In (Set_impl true) ls -> (exists l, In l ls /\ includes l) ->
  (static = true -> exists l1 l2, ls = l1 ++ Include :: l2 /\ static_linking l1 = true) ->
  let u := compile o ns ls in
  (forall n, offered o static n -> declared u (stands_for u n) (Fun Extern false) /\
     (stands_for u n = (prefix_of ns ++ n)%string \/ (In (Include_dispatch false) ls /\ stands_for u n = dispatched n))) /\
  (forall n, offered_type o n -> stands_for u n = n /\ exists w, declared u n w /\ (w = New_type \/ w = Int_type)).
Proof.
  intros o ns ls static A N (l & IL & L) ST u. destruct (plain_run o ns ls A N) as (r & P & R & G). fold u in P, G.
  assert (GS : g_stable u = true).
  { rewrite G. apply existsb_exists. exists l. split; [exact IL|]. destruct L as [-> | (d & ->)]; reflexivity. }
  split; intros n I; [|apply (plain_declared_type o ns r u n P GS), offered_types, I]. split.
  - apply (plain_declared o ns r u n P GS). destruct static.
    + destruct (ST eq_refl) as (l1 & l2 & -> & S). apply offered_all, in_app_or in I. destruct I as [I|I]; [left; exact I|right].
      split; [apply static_run; assumption|exact I].
    + left. apply offered_stable, I.
  - assert (M : mem n prefixed_names = true).
    { apply (funs_prefixed o). destruct static; [apply offered_all, in_app_or in I|apply offered_stable in I]; rewrite !in_app_iff; intuition. }
    rewrite (plain_stands o ns r u n P GS M). destruct (repl r n) as [x|] eqn:E; [|left; reflexivity]. right. destruct r; [|discriminate].
    split; [apply R; reflexivity|apply replacement_dispatched, E].
Qed.
Print Assumptions C101_plain.

(** xxhash.c offers exactly the interface, with the namespace in front *)
Theorem C101_library : forall o ns ls c11, (forall l, In l ls -> ~ asks_inline l) ->
  let u := compile o ns (xxhash_c ++ ls) in compiles c11 u /\ forall i, exports u i <-> exists n, offered o true n /\ i = (prefix_of ns ++ n)%string.
Proof.
  intros o ns ls c11 A u. destruct (library_run o ns ls A) as (d & L). split; [exact (library_compiles o ns c11 d u L)|]. intros i. rewrite (library_exports o ns d u i L).
  split; intros (n & I & E); exists n; (split; [apply offered_defined, I|exact E]).
Qed.
Print Assumptions C101_library.
Lemma dispatch_exports o ns x : In x dispatch_functions -> exports (dispatch_c o ns) x.
Proof.
  intros I. exists (Decl "" x (Fun Extern true)). split; [|split; reflexivity]. unfold dispatch_c, add. cbn [decls]. apply in_or_app. right. apply in_map_iff. exists x. split; [|exact I].
  destruct (plain_run o ns nil) as (r & P & _); [intros ? []|intros []|].
  assert (S : settled o ns (compile o ns [Set_inline true; Include])).
  { apply (inline_run o ns nil [Set_inline true] nil); [intros ? []|intros [Z|[Z|[]]]; discriminate|intros [Z|[]]; discriminate|reflexivity]. }
  destruct S as (X & b & a & J). destruct (dispatch_no_macro x I) as [F Q]. rewrite (declare_in_type false _ _ x (i_macros _ _ _ _ _ _ _ J) F), Q. reflexivity.
Qed.
(** so every function that a unit uses is in a library compiled with the same switches and namespace, or in xxh_x86dispatch.c *)
Theorem C101_links : forall o ns ls static, (forall l, In l ls -> ~ asks_inline l) -> ~ In (Set_impl true) ls -> (exists l, In l ls /\ includes l) ->
  (static = true -> exists l1 l2, ls = l1 ++ Include :: l2 /\ static_linking l1 = true) ->
  forall n, offered o static n -> let i := stands_for (compile o ns ls) n in exports (compile o ns xxhash_c) i \/ exports (dispatch_c o ns) i.
Proof.
  intros o ns ls static A N L ST n I i. destruct (plain_run o ns ls A N) as (r & P & R & G).
  assert (GS : g_stable (compile o ns ls) = true).
  { rewrite G. destruct L as (l & IL & L). apply existsb_exists. exists l. split; [exact IL|]. destruct L as [-> | (d & ->)]; reflexivity. }
  assert (J : offered o true n) by (destruct I as (f & b & I & Q & _); exists f, b; auto).
  assert (M : mem n prefixed_names = true) by (apply (funs_prefixed o); apply offered_all, in_app_or in J; rewrite !in_app_iff; intuition).
  unfold i. rewrite (plain_stands o ns r _ n P GS M). destruct (repl r n) as [x|] eqn:E.
  - right. destruct r; [|discriminate]. apply dispatch_exports. apply (replaced_undefined n x E).
  - left. replace xxhash_c with (xxhash_c ++ nil) by apply app_nil_r. apply (C101_library o ns nil true (fun _ X => match X with end)). exists n. split; [exact J|reflexivity].
Qed.
Print Assumptions C101_links.
(** libraries with different namespaces share no symbol *)
Theorem C101_namespaces : forall o o' ns ns' i, prefix_of ns <> prefix_of ns' -> exports (compile o ns xxhash_c) i -> ~ exports (compile o' ns' xxhash_c) i.
Proof.
  intros o o' ns ns' i N E E'. replace xxhash_c with (xxhash_c ++ nil) in E, E' by apply app_nil_r.
  apply (C101_library o ns nil true (fun _ X => match X with end)) in E. apply (C101_library o' ns' nil true (fun _ X => match X with end)) in E'.
  destruct E as (n & I & ->), E' as (m & J & E). apply N.
  assert (G : forall o n, offered o true n -> good n = true).
  { clear. intros o n I. apply offered_defined in I. revert o n I. apply (all_list (fun o => defined_functions o)). vm_compute. reflexivity. }
  apply (split_name _ _ n m (G o n I) (G o' m J) E).
Qed.
Print Assumptions C101_namespaces.

(** what does not hold *)
Definition all_of_it : opts := {| no_stream := false; no_long_long := false; no_xxh3 := false |}.
Definition agreeb (c11 : bool) (a b : what) : bool :=
  match a, b with Fun Extern x, Fun Extern y | Fun Static x, Fun Static y => negb (x && y) | Int_type, Int_type => c11 | _, _ => false end.
Fixpoint bad (c11 : bool) (l : list decl) : bool :=
  match l with nil => false | x :: r => existsb (fun y => String.eqb (full x) (full y) && negb (agreeb c11 (is x) (is y)))%bool r || bad c11 r end.
Lemma bad_invalid c11 l : bad c11 l = true -> ~ valid c11 l.
Proof.
  induction l as [|x r IH]; cbn; [discriminate|]. intros B V. inversion V as [|? ? F G]; subst. apply orb_prop in B. destruct B as [B|B]; [|exact (IH B G)].
  apply existsb_exists in B. destruct B as (y & I & B). apply andb_prop in B. destruct B as [E B]. apply String.eqb_eq in E.
  rewrite Forall_forall in F. specialize (F y I E). destruct (is x) as [[] []| |], (is y) as [[] []| |], c11; cbn in *; intuition discriminate.
Qed.
Lemma good_valid c11 l : bad c11 l = false -> valid c11 l.
Proof.
  induction l as [|x r IH]; cbn; intros B; [constructor|]. apply orb_false_elim in B. destruct B as [B C]. constructor; [|exact (IH C)].
  apply Forall_forall. intros y I E. destruct (agreeb c11 (is x) (is y)) eqn:A.
  - destruct (is x) as [[] []| |], (is y) as [[] []| |]; cbn in *; try discriminate; try exact A; split; try reflexivity; intros [? ?]; discriminate.
  - exfalso. assert (T : existsb (fun y => (String.eqb (full x) (full y) && negb (agreeb c11 (is x) (is y)))%bool) r = true)
      by (apply existsb_exists; exists y; split; [exact I|rewrite E, String.eqb_refl, A; reflexivity]). rewrite T in B. discriminate.
Qed.
(** in C99 a unit cannot include xxhash.h and then inline: the integer types are typedef'd twice *)
Theorem C101_older_c_refuted : exists ls, ~ In (Set_impl true) ls /\ ~ compiles false (compile all_of_it None ls).
Proof. exists [Include; Set_inline true; Include]. split; [intros [H|[H|[H|[]]]]; discriminate|intros [_ V]; revert V; apply bad_invalid; vm_compute; reflexivity]. Qed.
Print Assumptions C101_older_c_refuted.
(** the namespace XXH_INLINE_ is taken: such a unit cannot go on to inline in any version of C *)
Theorem C101_namespace_refuted : exists ls ns, ~ In (Set_impl true) ls /\ ~ compiles true (compile all_of_it ns ls).
Proof.
  exists [Include; Set_inline true; Include], (Some "XXH_INLINE_"). split; [intros [H|[H|[H|[]]]]; discriminate|intros [_ V]; revert V; apply bad_invalid; vm_compute; reflexivity].
Qed.
Print Assumptions C101_namespace_refuted.
Lemma not_declared u i w : forallb (fun d => negb (String.eqb (full d) i && match is d, w with Fun Extern x, Fun Extern y | Fun Static x, Fun Static y => eqb x y | _, _ => false end)) (decls u) = true ->
  (exists l b, w = Fun l b) -> ~ declared u i w.
Proof.
  intros F (l & b & ->) (d & I & E & W). rewrite forallb_forall in F. specialize (F d I). rewrite E, W, String.eqb_refl in F. destruct l, b; discriminate.
Qed.
Lemma is_declared u i l b : existsb (fun d => String.eqb (full d) i && match is d with Fun m x => match l, m with Extern, Extern | Static, Static => eqb x b | _, _ => false end | _ => false end)%bool (decls u) = true ->
  declared u i (Fun l b).
Proof.
  intros E. apply existsb_exists in E. destruct E as (d & I & E). apply andb_prop in E. destruct E as [E F]. exists d. split; [exact I|]. split; [apply String.eqb_eq, E|].
  destruct (is d) as [m x| |]; try discriminate. destruct l, m; try discriminate; apply eqb_prop in F; subst; reflexivity.
Qed.
Ltac no_decl := apply not_declared; [vm_compute; reflexivity|eauto].
(** after the implementation has been compiled in the unit for other units (XXH_IMPLEMENTATION), XXH_INLINE_ALL leaves functions without a body:
    the guard of the implementation part, unlike those of the other parts, is not undefined *)
Theorem C101_implementation_first_refuted : exists ls n, ls = [Set_impl true; Include] ++ [Set_inline true; Include] /\ offered all_of_it false n /\
  let u := compile all_of_it None ls in compiles true u /\ stands_for u n = ("XXH_INLINE_" ++ n)%string /\ declared u (stands_for u n) (Fun Static false) /\ ~ callable u (stands_for u n).
Proof.
  eexists _, "XXH32". split; [reflexivity|]. split; [exists Any, false; split; [right; left; reflexivity|split; [reflexivity|discriminate]]|]. cbv zeta.
  split; [|split; [vm_compute; reflexivity|split]].
  - split; [vm_compute; reflexivity|]. apply good_valid. vm_compute. reflexivity.
  - apply is_declared. vm_compute. reflexivity.
  - change (stands_for _ "XXH32") with "XXH_INLINE_XXH32". intros [H|([] & H)]; revert H; no_decl.
Qed.
Print Assumptions C101_implementation_first_refuted.
(** xxh_x86dispatch.h after XXH_INLINE_ALL takes the inlined functions away: their names stand for static functions that have no body *)
Theorem C101_dispatch_after_inline_refuted : exists ls n, ls = [Set_inline true; Include; Include_dispatch false] /\ offered all_of_it false n /\
  let u := compile all_of_it None ls in stands_for u n = dispatched n /\ declared u (stands_for u n) (Fun Static false) /\ ~ callable u (stands_for u n).
Proof.
  eexists _, "XXH3_64bits". split; [reflexivity|]. split; [exists F3, false; split; [vm_compute; tauto|split; [reflexivity|discriminate]]|]. cbv zeta.
  split; [vm_compute; reflexivity|split].
  - apply is_declared. vm_compute. reflexivity.
  - change (stands_for _ "XXH3_64bits") with "XXH3_64bits_dispatch". intros [H|([] & H)]; revert H; no_decl.
Qed.
Print Assumptions C101_dispatch_after_inline_refuted.
(** the dispatcher's functions get no namespace: two libraries with different namespaces that both contain xxh_x86dispatch.c share symbols *)
Theorem C101_dispatch_namespaces_refuted : exists o ns ns' i, prefix_of ns <> prefix_of ns' /\ exports (dispatch_c o ns) i /\ exports (dispatch_c o ns') i.
Proof.
  exists all_of_it, (Some "A_"), (Some "B_"), "XXH3_64bits_dispatch". split; [discriminate|]. split; apply dispatch_exports; left; reflexivity.
Qed.
Print Assumptions C101_dispatch_namespaces_refuted.

(** the cases *)
(** tests/multiInclude.c *)
Example C101_multi_include :
  let ls := [Include; Include; Set_static true; Include; Set_inline true; Include; Set_inline true; Include] in
  compiles true (compile all_of_it (Some "TESTN_") ls) /\ stands_for (compile all_of_it (Some "TESTN_") ls) "XXH3_generateSecret" = "XXH_INLINE_XXH3_generateSecret".
Proof.
  cbv zeta. split.
  - apply C101_any_order; [discriminate|intros H; repeat (destruct H as [H|H]; [discriminate|]); exact H].
  - apply (C101_inline all_of_it (Some "TESTN_") [Include; Include; Set_static true; Include] [Set_inline true] [Set_inline true; Include]).
    + intros l H [E|E]; subst; repeat (destruct H as [H|H]; [discriminate|]); exact H.
    + intros H; repeat (destruct H as [H|H]; [discriminate|]); exact H.
    + intros H; repeat (destruct H as [H|H]; [discriminate|]); exact H.
    + reflexivity.
    + exists F3, true. split; [vm_compute; tauto|split; reflexivity].
Qed.
(** a program that uses the dispatcher, then inlines *)
Example C101_dispatch_then_inline :
  let u := compile all_of_it None [Include_dispatch false; Set_inline true; Include] in
  stands_for (compile all_of_it None [Include_dispatch false]) "XXH128" = "XXH3_128bits_withSeed_dispatch" /\ stands_for u "XXH128" = "XXH_INLINE_XXH128".
Proof. vm_compute. split; reflexivity. Qed.
Example C101_exports : exports (compile all_of_it (Some "LZ4_") xxhash_c) "LZ4_XXH64_digest" /\ ~ exports (compile all_of_it (Some "LZ4_") xxhash_c) "XXH64_digest".
Proof.
  split; [|no_decl]. apply (C101_library all_of_it (Some "LZ4_") nil true); [intros ? []|]. exists "XXH64_digest". split; [|reflexivity].
  exists F64_stream, false. split; [vm_compute; tauto|split; [reflexivity|discriminate]].
Qed.
