(** The command line: numbers of 2^31 or more, the documented options, what the actions do. *)
From Coq Require Import String Ascii List.
From Verif Require Import Base Mem M_Cli M_Cli2 M_Cli3 SpecCli SpecCli2 SpecCli3 P_Base P_Cli P_Cli2 P_Cli3 P_Cli4 P_Cli5 P_Cli6.

(** ** Only a number of 2^31 or more leads out of the table *)
Definition suffix (t s : list Z) : Prop := exists u, s = u ++ t.
Lemma suffix_refl s : suffix s s.
Proof. exists []. reflexivity. Qed.
Lemma suffix_trans a b c : suffix a b -> suffix b c -> suffix a c.
Proof. intros (u & ->) (v & ->). exists (v ++ u). rewrite app_assoc. reflexivity. Qed.
Lemma suffix_cons c s : suffix s (c :: s).
Proof. exists [c]. reflexivity. Qed.
Lemma skip_suffix c s : suffix (skip c s) s.
Proof. destruct s as [|x s]; [apply suffix_refl|]. cbn [skip]. destruct (x =? c); [apply suffix_cons|apply suffix_refl]. Qed.
Lemma leading_suffix s : suffix (snd (leading_digits s)) s.
Proof. induction s as [|c s IH]; [apply suffix_refl|]. cbn [leading_digits]. destruct (digit c); cbn [snd]; [|apply suffix_refl]. eapply suffix_trans; [exact IH|apply suffix_cons]. Qed.
Lemma number_suffix s v t : number s = Some (v, t) -> suffix t s.
Proof.
  unfold number. pose proof (leading_suffix s) as L. destruct (leading_digits s) as [ds t0]. cbn [snd] in L. destruct (unit_of t0) as [mult rest] eqn:U.
  destruct (_ && _); [|discriminate]. intros E. injection E as <- <-. eapply suffix_trans; [|exact L].
  destruct t0 as [|u r]; cbn [unit_of] in U; [injection U as <- <-; apply suffix_refl|].
  assert (S : suffix (skip 66 (skip 105 r)) (u :: r)) by (eapply suffix_trans; [apply skip_suffix|]; eapply suffix_trans; [apply skip_suffix|apply suffix_cons]).
  destruct (u =? 75); [injection U as <- <-; exact S|]. destruct (u =? 77); injection U as <- <-; [exact S|apply suffix_refl].
Qed.
Definition large_in (s : list Z) : Prop := exists w n t, suffix w s /\ number w = Some (n, t) /\ 2 ^ 31 <= n.
Lemma large_suffix s t : suffix t s -> large_in t -> large_in s.
Proof. intros S (w & n & u & H & E). exists w, n, u. split; [eapply suffix_trans; eassumption|exact E]. Qed.
Lemma Ids_large r ns t : Ids r ns t -> Exists (fun n => 2 ^ 31 <= n) ns -> large_in r.
Proof.
  induction 1 as [r E|r n t E N|r n u ns t E H IH]; intros X.
  - inversion X.
  - inversion X as [? ? L|? ? L]; subst; [|inversion L]. exists (skip 44 r), n, t. split; [apply skip_suffix|auto].
  - inversion X as [? ? L|? ? L]; subst.
    + exists (skip 44 r), n, (44 :: u)%Z. split; [apply skip_suffix|auto].
    + apply (large_suffix _ (44 :: u)); [|exact (IH L)]. eapply suffix_trans; [exact (number_suffix _ _ _ E)|apply skip_suffix].
Qed.
Lemma Ids_suffix r ns t : Ids r ns t -> forall t', t = Some t' -> suffix t' r.
Proof.
  induction 1 as [r E|r n t E N|r n u ns t E H IH]; intros t' Q; [discriminate| |].
  - injection Q as <-. eapply suffix_trans; [exact (number_suffix _ _ _ E)|apply skip_suffix].
  - eapply suffix_trans; [exact (IH t' Q)|]. eapply suffix_trans; [exact (number_suffix _ _ _ E)|apply skip_suffix].
Qed.
Lemma Letter_suffix s r out : Letter s r out -> match out with Next _ t => suffix t r | Wild => large_in r | Ends _ => True end.
Proof.
  intros H. destruct H; trivial; try apply suffix_cons.
  all: try (eapply suffix_trans; [eapply number_suffix; eassumption|apply suffix_cons]).
  - eapply suffix_trans; [eapply Ids_suffix; [eassumption|reflexivity]|apply suffix_cons].
  - apply (large_suffix _ r); [apply suffix_cons|]. eapply Ids_large; eassumption.
Qed.
Lemma Letters_large s r out : Letters s r out -> out = Wild -> large_in r.
Proof.
  induction 1 as [s|s r s' t out H _ IH|s r st H|s r H]; intros Q; try discriminate.
  - apply (large_suffix _ t); [exact (Letter_suffix _ _ _ H)|exact (IH Q)].
  - exact (Letter_suffix _ _ _ H).
Qed.
Lemma Options_large s args out : Options s args out -> out = Runaway -> Exists large_in args.
Proof.
  induction 1; intros Q; try discriminate; try (right; auto; fail).
  left. apply (large_suffix _ r); [apply suffix_cons|]. eapply Letters_large; [eassumption|reflexivity].
Qed.

(** ** The documented options *)
Lemma not_special c r : c <> 45 -> ~ special (str "-" ++ c :: r).
Proof.
  intros N H. assert (forall a, special a -> exists x, a = 45 :: 45 :: x) as P.
  { clear. intros a [H|H]; [apply in_map_iff in H as ([w f] & <- & H)|]; cbn [In words] in H; decompose [or] H; try contradiction;
    try match goal with E : (_, _) = (_, _) |- _ => injection E as <- <- end; subst; eexists; reflexivity. }
  destruct (P _ H) as (x & E). change (str "-" ++ c :: r) with (45 :: c :: r) in E. injection E as E _. contradiction.
Qed.
Lemma leading_all ds t : Forall (fun c => digit c = true) ds -> (forall c r, t = c :: r -> digit c = false) -> leading_digits (ds ++ t) = (ds, t).
Proof.
  intros F N. induction F as [|c ds D F IH]; cbn [app leading_digits].
  - destruct t as [|c t]; [reflexivity|]. cbn [leading_digits]. rewrite (N c t eq_refl). reflexivity.
  - rewrite D, IH. reflexivity.
Qed.
Lemma number_decimal ds t : Forall (fun c => digit c = true) ds -> (t = [] \/ exists r, t = 44 :: r) -> decimal ds <= 4294967289 -> number (ds ++ t) = Some (decimal ds, t).
Proof.
  intros F T L. unfold number. rewrite leading_all by first [exact F|destruct T as [->|(r & ->)]; intros c u Q; [discriminate|]; injection Q as <- _; reflexivity].
  assert (U : unit_of t = (1, t)) by (destruct T as [->|(r & ->)]; reflexivity). rewrite U, Z.mul_1_r.
  rewrite (proj2 (Z.leb_le _ _)) by lia. rewrite (proj2 (Z.ltb_lt _ _)) by lia. reflexivity.
Qed.
Lemma skip_decimal ds t : decimal_text ds -> skip 44 (ds ++ t) = ds ++ t.
Proof.
  intros [N F]. destruct ds as [|c ds]; [congruence|]. inversion F as [|? ? D _]; subst. cbn [app skip]. destruct (Z.eqb_spec c 44) as [->|]; [discriminate|reflexivity].
Qed.
Lemma Commas_ids r ns : Commas r ns -> Ids r ns (Some []) /\ Ids (44 :: r) ns (Some []).
Proof.
  induction 1 as [ds D R|ds r ns D R H [_ IH]].
  - assert (E : number ds = Some (decimal ds, [])) by (rewrite <- (app_nil_r ds) at 1; apply number_decimal; [apply D|auto|lia]).
    split; apply ids_last; try discriminate; [rewrite <- (app_nil_r ds), skip_decimal, app_nil_r by exact D; exact E|exact E].
  - assert (E : number (ds ++ 44 :: r) = Some (decimal ds, 44 :: r)) by (apply number_decimal; [apply D|eauto|lia]).
    split; (eapply ids_more; [|exact IH]); [rewrite skip_decimal by exact D; exact E|exact E].
Qed.
Lemma Commas_small r ns : Commas r ns -> Forall (fun n => n < 2 ^ 31) ns.
Proof. induction 1; constructor; try lia; trivial. Qed.
Lemma documented_option s w f rest out : Documented w f -> Options (f s) rest out -> Options s (w :: rest) out.
Proof.
  intros D H.
  assert (one : forall c r s', c <> 45 -> Letter s (c :: r) (Next s' []) -> Options s' rest out -> Options s ((str "-" ++ c :: r) :: rest) out).
  { intros c r s' N HL HO. apply (o_letters s (c :: r) s'); [discriminate|apply not_special; exact N| |exact HO]. eapply ls_next; [exact HL|constructor]. }
  destruct D as [w f I|w a I| | | |r ns C|ds D L|ds D L].
  - eapply o_word; eassumption.
  - cbn [In hash_texts] in I. decompose [or] I; try contradiction;
    match goal with E : (str ?w, ?a) = _ |- _ => injection E as <- <-;
      let r := eval vm_compute in (skipn 2 (str w)) in change (str w) with (str "-" ++ 72 :: r); apply (one 72 r (hash_with a s)); [discriminate| |exact H]; eapply (l_hash s r); reflexivity end.
  - apply (one 99 [] (check s)); [discriminate|apply (l_check s [])|exact H].
  - apply (one 113 [] (quieter s)); [discriminate|apply (l_quiet s [])|exact H].
  - apply (one 119 [] (warn s)); [discriminate|apply (l_warn s [])|exact H].
  - apply (one 98 r (bench ns s)); [discriminate| |exact H]. apply (l_bench s r ns []); [exact (proj1 (Commas_ids _ _ C))|exact (Commas_small _ _ C)].
  - assert (E : number ds = Some (decimal ds, [])) by (rewrite <- (app_nil_r ds) at 1; apply number_decimal; [apply D|auto|lia]).
    apply (one 105 ds (iterations (decimal ds) s)); [discriminate| |exact H].
    replace (decimal ds) with (as_int (decimal ds)) by (unfold as_int; rewrite (proj2 (Z.ltb_lt _ _)) by exact L; reflexivity). apply (l_iter s ds _ []). exact E.
  - assert (E : number ds = Some (decimal ds, [])) by (rewrite <- (app_nil_r ds) at 1; apply number_decimal; [apply D|auto|lia]).
    apply (one 66 ds (sample (decimal ds) s)); [discriminate| |exact H]. apply (l_sample s ds _ []). exact E.
Qed.
Lemma documented_line args s s' : Texts args s s' -> forall rest out, Options s' rest out -> Options s (args ++ rest) out.
Proof. induction 1 as [s|w f args s s' D _ IH]; intros rest out H; [exact H|]. cbn [app]. eapply documented_option; [exact D|]. apply IH, H. Qed.
Lemma plain_names s names : plain names -> Options s names (Run s names).
Proof. destruct names as [|n rest]; intros P; [constructor|]. apply o_name. intros r. exact (P n rest eq_refl r). Qed.

(** ** What is done *)
Lemma hash_line e console m exe args name a acc s names : nul_free exe -> Forall nul_free args -> total args < 2 ^ 31 -> Basename exe name -> Personality name a acc ->
  Options (default a) args (Run s names) -> g_ids s = [] -> g_check s = false -> names <> [] \/ console = false \/ g_stdin s = true ->
  XSUM_main e console m (exe :: args) = let! r := hashFiles e m names (g_algo s) (g_order s) (g_style s) in OK (Exits match fst r with Some c => c | None => 1 end (snd r)).
Proof.
  intros NE NA TO BN PE HO GI GC W. destruct (command_ok console exe args name a acc _ NE NA TO BN PE HO) as (act & E & D). unfold XSUM_main. rewrite E. cbn [bind].
  unfold todo_of in D. rewrite GI, GC in D. destruct names as [|n names].
  - assert (console && negb (g_stdin s) = false) as Q by (destruct W as [W|[-> | ->]]; [congruence|reflexivity|apply andb_false_r]). rewrite Q in D. inversion D; subst. reflexivity.
  - inversion D; subst. reflexivity.
Qed.
Lemma check_line e console m exe args name a acc s names : nul_free exe -> Forall nul_free args -> total args < 2 ^ 31 -> Basename exe name -> Personality name a acc ->
  Options (default a) args (Run s names) -> g_ids s = [] -> g_check s = true -> names <> [] \/ console = false \/ g_stdin s = true ->
  exists mask, (forall x, Z.testbit mask (algo_num x) = true <-> In x acc) /\
  XSUM_main e console m (exe :: args) = let! r := checkFiles e m names (g_order s) (g_strict s) (g_status s) (g_ignore s) (g_warn s) (0 <? g_quiet s) mask in
    OK (Exits match fst r with Some c => c | None => 1 end (snd r)).
Proof.
  intros NE NA TO BN PE HO GI GC W. destruct (command_ok console exe args name a acc _ NE NA TO BN PE HO) as (act & E & D). unfold XSUM_main. rewrite E. cbn [bind].
  unfold todo_of in D. rewrite GI, GC in D. destruct names as [|n names].
  - assert (console && negb (g_stdin s) = false) as Q by (destruct W as [W|[-> | ->]]; [congruence|reflexivity|apply andb_false_r]). rewrite Q in D. inversion D; subst. exists mask. auto.
  - inversion D; subst. exists mask. auto.
Qed.
Lemma alias console exe exe' name name' a acc a' acc' h args : nul_free exe -> nul_free exe' -> Forall nul_free args -> total args + 10 < 2 ^ 31 ->
  Basename exe name -> Personality name a acc -> Basename exe' name' -> Personality name' a' acc' -> In (h, a) hash_texts ->
  match command console (exe :: args), command console (exe' :: h :: args) with
  | OK (Check names de strict st im w q mask), r => exists mask', (forall x, Z.testbit mask' (algo_num x) = true <-> In x acc') /\ r = OK (Check names de strict st im w q mask')
  | r, r' => r = r'
  end.
Proof.
  intros NE NE' NA TO BN PE BN' PE' IH.
  assert (NH : nul_free h /\ zlen h <= 5).
  { cbn [In hash_texts] in IH. decompose [or] IH; try contradiction; match goal with E : (_, _) = _ |- _ => injection E as <- <- end; (split; [intros I; vm_compute in I; lia|vm_compute; discriminate]). }
  destruct NH as [NH LH].
  unfold command. rewrite (lastName_ok _ _ BN NE), (lastName_ok _ _ BN' NE'). cbn [bind]. rewrite (named_ok _ _ _ PE), (named_ok _ _ _ PE').
  destruct (Options_total args NA (default a)) as (out & HO).
  assert (HO' : Options (default a') (h :: args) out) by (eapply documented_option; [apply doc_hash; exact IH|exact HO]).
  assert (0 <= total args) by apply total_nonneg.
  rewrite (options_ok (mask_of acc) _ _ _ HO NA) by (cbn [default g_quiet]; lia).
  rewrite (options_ok (mask_of acc') _ _ _ HO') by first [constructor; assumption|cbn [default g_quiet]; rewrite total_cons; lia].
  destruct out as [s names|st|]; [|reflexivity|reflexivity]. cbn [bind]. unfold choose. cbn [opts_of benchmarkMode selectBenchIDs testIDs nbIterations keySize explicitStdin fileCheckMode displayEndianness strictMode statusOnly ignoreMissing M_Cli3.warn logLevel algoBitmask o_algo o_convention].
  destruct (match g_ids s with [] => false | _ => true end); [reflexivity|]. destruct (_ && _ && _); [reflexivity|]. destruct (g_check s); [|reflexivity].
  exists (mask_of acc'). split; [apply mask_of_bit|reflexivity].
Qed.
(** one list *)
Lemma check_one e m l de strict st im w q mask r m2 : checkFile e m (Named l) de strict st im w q mask = OK (r, m2) ->
  exists m3, checkFiles e m [l] de strict st im w q mask = OK (match r with None => None | Some r => Some (if Z.land 1 r =? 0 then 1 else 0) end, m3).
Proof. intros E. unfold checkFiles. cbn [checkFiles_loop]. rewrite E. cbn [bind]. exists m2. destruct r; reflexivity. Qed.
Lemma checkFile_codes e m n de strict st im w q mask r m1 : checkFile e m (Named n) de strict st im w q mask = OK (r, m1) -> r = None \/ r = Some 0 \/ r = Some 1.
Proof.
  intros E. unfold checkFile in E. destruct (e_fs e n) as [f|]; [|injection E as <- <-; auto].
  destruct (malloc e m DEFAULT_LINE_LENGTH) as [lb m1'], (malloc e m1' 65536) as [bb m2']. destruct lb, bb; try (injection E as <- <-; auto).
  destruct (parseFile1 _ _ _ _) as [s| |]; try discriminate. cbn [bind] in E. destruct (p_exit s); [injection E as <- <-; auto|].
  cbv zeta in E. destruct (im && _); [injection E as <- <-; auto|]. injection E as <- <-. destruct (_ && _ && _ && _ && _); auto.
Qed.
