(** Proofs about the benchmark library of tests/bench (M_BenchFn.v) *)
From Verif Require Import Base Mem P_Base M_BenchFn.

Import BF.
(** ** Specification *)
(** one block: source, its size, destination, its capacity *)
Record block := Block { b_src : ptr; b_size : Z; b_dst : ptr; b_cap : Z }.
(** the arrays of the parameters describe the blocks [bl] *)
Definition describes {W} (p : params W) (bl : list block) : Prop :=
  p_blockCount p = zlen bl /\
  forall i b, nth_error bl i = Some b ->
    nth_error (p_srcBuffers p) i = Some (b_src b) /\ nth_error (p_srcSizes p) i = Some (b_size b) /\
    nth_error (p_dstBuffers p) i = Some (b_dst b) /\ nth_error (p_dstCapacities p) i = Some (b_cap b).
(** calling the function on the blocks of the list one after the other, from world [w], returns [rs] and ends in [w'] *)
Inductive calls {W} (fn : ptr -> Z -> ptr -> Z -> W -> res (W * Z)) : list block -> W -> list Z -> W -> Prop :=
| calls_nil w : calls fn [] w [] w
| calls_cons b bl w w1 r rs w2 : fn (b_src b) (b_size b) (b_dst b) (b_cap b) w = OK (w1, r) -> calls fn bl w1 rs w2 -> calls fn (b :: bl) w (r :: rs) w2.
(** erasing the destinations one after the other *)
Inductive erased {W} (e : env W) : list block -> W -> W -> Prop :=
| erased_nil w : erased e [] w w
| erased_cons b bl w w1 w2 : e_memset e (b_dst b) (b_cap b) w = OK w1 -> erased e bl w1 w2 -> erased e (b :: bl) w w2.
(** the error function accepts a result *)
Definition accepted {W} (p : params W) (r : Z) : Prop := match p_errorFn p with None => True | Some f => f r = 0 end.
(** the array of results after the results [rs] were written at its start *)
Definition written (br : option (list Z)) (rs : list Z) : option (list Z) := option_map (fun l => rs ++ skipn (length rs) l) br.
Definition zsum (l : list Z) : Z := fold_right Z.add 0 l.
Definition started {W} (p : params W) (w : W) : W := match p_initFn p with None => w | Some f => f w end.

Lemma zsum_app a b : zsum (a ++ b) = zsum a + zsum b.
Proof. induction a as [|x a IH]; [reflexivity|]. cbn [app zsum fold_right]. change (fold_right Z.add 0 (a ++ b)) with (zsum (a ++ b)). change (fold_right Z.add 0 a) with (zsum a). lia. Qed.

Lemma calls_app {W} fn a : forall b (w : W) ra w1 rb w2, calls fn a w ra w1 -> calls fn b w1 rb w2 -> calls fn (a ++ b) w (ra ++ rb) w2.
Proof.
  induction a as [|x a IH]; intros b w ra w1 rb w2 CA CB; inversion CA; subst; [exact CB|]. cbn [app]. econstructor; [eassumption|]. eapply IH; eassumption.
Qed.
Lemma calls_split {W} fn a : forall b (w : W) r w2, calls fn (a ++ b) w r w2 -> exists ra w1 rb, r = ra ++ rb /\ calls fn a w ra w1 /\ calls fn b w1 rb w2.
Proof.
  induction a as [|x a IH]; intros b w r w2 C.
  - exists [], w, r. repeat split; [constructor|exact C].
  - cbn [app] in C. inversion C as [|? ? ? w1 r0 rs' ? EF C']; subst. destruct (IH _ _ _ _ C') as (ra & wm & rb & -> & A & B). exists (r0 :: ra), wm, rb. repeat split; [econstructor; eassumption|exact B].
Qed.
Lemma calls_len {W} fn a : forall (w : W) r w2, calls fn a w r w2 -> length r = length a.
Proof. induction a as [|x a IH]; intros w r w2 C; inversion C; subst; cbn; [reflexivity|]. f_equal. eapply IH; eassumption. Qed.

Lemma at_ok {A} (l : list A) i a : nth_error l i = Some a -> at_ l (Z.of_nat i) = OK a.
Proof. intros E. unfold at_. replace (Z.of_nat i <? 0) with false by lia. rewrite Nat2Z.id, E. reflexivity. Qed.

Lemma usz_add c x y : usz c (usz c x + y) = usz c (x + y).
Proof. unfold usz. apply Zplus_mod_idemp_l. Qed.

Lemma skipn_skipn1 {A} n : forall l : list A, skipn 1 (skipn n l) = skipn (n + 1) l.
Proof. induction n as [|n IH]; intros l; [reflexivity|]. destruct l as [|x l]; [reflexivity|]. cbn [skipn Nat.add]. apply IH. Qed.
Lemma written_store l d r : (length d < length l)%nat -> store (d ++ skipn (length d) l) (zlen d) [r] = OK ((d ++ [r]) ++ skipn (length (d ++ [r])) l).
Proof.
  intros L. unfold store. change (zlen [r]) with 1. unfold zlen. rewrite app_length, skipn_length.
  replace (0 <=? Z.of_nat (length d)) with true by lia. replace (Z.of_nat (length d) + 1 <=? _) with true by lia. cbn [andb].
  rewrite Nat2Z.id. rewrite firstn_app, firstn_all, Nat.sub_diag, firstn_O, app_nil_r. f_equal.
  replace (Z.to_nat (Z.of_nat (length d) + 1)) with (length d + 1)%nat by lia. rewrite skipn_app, skipn_all2 by lia.
  replace (length d + 1 - length d)%nat with 1%nat by lia. rewrite skipn_skipn1, app_length. cbn [length app]. rewrite <- app_assoc. reflexivity.
Qed.

Section Fn.
Context {W : Type} (c : cfg) (e : env W) (p : params W).
Let fn := p_benchFn p.

Lemma u32_small x : 0 <= x < 2 ^ 32 -> u32 x = x.
Proof. intros B. unfold u32. apply Z.mod_small. exact B. Qed.

(** what one step of the loop over the blocks does *)
Lemma nth_mid {A} (a : list A) x b : nth_error (a ++ x :: b) (length a) = Some x.
Proof. rewrite nth_error_app2 by lia. rewrite Nat.sub_diag. reflexivity. Qed.

Definition cond_ : W * option (list Z) * Z * Z * option Z -> bool := fun '(_, _, _, blockNb, err) => match err with Some _ => false | None => blockNb <? p_blockCount p end.
Definition body_ (loopNb : Z) : W * option (list Z) * Z * Z * option Z -> res (W * option (list Z) * Z * Z * option Z) := fun '(w, br, dstSize, blockNb, _) =>
      let! src := at_ (p_srcBuffers p) blockNb in
      let! srcSize := at_ (p_srcSizes p) blockNb in
      let! dst := at_ (p_dstBuffers p) blockNb in
      let! cap := at_ (p_dstCapacities p) blockNb in
      let! (w, r) := p_benchFn p src srcSize dst cap w in
      if loopNb =? 0 then
        let! br := match br with None => OK None | Some l => let! l := store l blockNb [r] in OK (Some l) end in
        if match p_errorFn p with None => false | Some f => negb (f r =? 0) end then OK (w, br, dstSize, blockNb, Some r)
        else OK (w, br, usz c (dstSize + r), u32 (blockNb + 1), None)
      else OK (w, br, dstSize, u32 (blockNb + 1), None).
Lemma benchBlocks_eq fuel loopNb w br ds : benchBlocks c fuel p loopNb (w, br, ds) =
  let! (w, br, dstSize, _, err) := while_ fuel cond_ (body_ loopNb) (w, br, ds, 0, None) in OK (w, br, dstSize, err).
Proof. reflexivity. Qed.

Lemma body_call bl1 b bl2 loopNb w br ds : describes p (bl1 ++ b :: bl2) ->
  body_ loopNb (w, br, ds, zlen bl1, None) =
  let! (w, r) := fn (b_src b) (b_size b) (b_dst b) (b_cap b) w in
  if loopNb =? 0 then
    let! br := match br with None => OK None | Some l => let! l := store l (zlen bl1) [r] in OK (Some l) end in
    if match p_errorFn p with None => false | Some f => negb (f r =? 0) end then OK (w, br, ds, zlen bl1, Some r)
    else OK (w, br, usz c (ds + r), u32 (zlen bl1 + 1), None)
  else OK (w, br, ds, u32 (zlen bl1 + 1), None).
Proof.
  intros (_ & D). destruct (D (length bl1) b (nth_mid bl1 b bl2)) as (A1 & A2 & A3 & A4).
  unfold body_, zlen. rewrite (at_ok _ _ _ A1), (at_ok _ _ _ A2), (at_ok _ _ _ A3), (at_ok _ _ _ A4). reflexivity.
Qed.

Definition fits (br : option (list Z)) (bl : list block) : Prop := match br with None => True | Some l => zlen bl <= zlen l end.

Lemma written_step br d r bl1 (b : block) bl2 : fits br (bl1 ++ b :: bl2) -> length d = length bl1 ->
  match written br d with None => OK None | Some l => let! l := store l (zlen bl1) [r] in OK (Some l) end = OK (written br (d ++ [r])).
Proof.
  intros F L. destruct br as [l|]; [|reflexivity]. cbn [written option_map fits] in *. unfold zlen in *. rewrite app_length in F. cbn [length] in F.
  rewrite <- L. change (Z.of_nat (length d)) with (zlen d). rewrite written_store by lia. reflexivity.
Qed.

Lemma zlen_snoc {A} (l : list A) x : zlen (l ++ [x]) = zlen l + 1.
Proof. unfold zlen. rewrite app_length. cbn [length]. lia. Qed.

Lemma first_ok bl2 : forall bl1 w d rs w' br fuel, describes p (bl1 ++ bl2) -> calls fn bl2 w rs w' -> Forall (accepted p) rs -> length d = length bl1 ->
  fits br (bl1 ++ bl2) -> zlen (bl1 ++ bl2) < 2 ^ 32 -> (length bl2 <= fuel)%nat ->
  while_ fuel cond_ (body_ 0) (w, written br d, usz c (zsum d), zlen bl1, None) = OK (w', written br (d ++ rs), usz c (zsum (d ++ rs)), zlen (bl1 ++ bl2), None).
Proof.
  induction bl2 as [|b bl2 IH]; intros bl1 w d rs w' br fuel D C A L F B FU.
  - inversion C; subst. rewrite !app_nil_r in *. destruct D as (D & _). destruct fuel; cbn [while_ cond_]; rewrite D; replace (zlen bl1 <? zlen bl1) with false by lia; reflexivity.
  - inversion C as [|? ? ? w1 r rs' ? EF C']; subst. inversion A as [|? ? A1 A2]; subst. destruct fuel as [|fuel]; [cbn in FU; lia|].
    pose proof D as (DL & _). assert (LT : zlen bl1 < zlen (bl1 ++ b :: bl2)) by (unfold zlen; rewrite app_length; cbn [length]; lia).
    cbn [while_]. replace (cond_ _) with true by (cbn [cond_]; rewrite DL; lia). rewrite (body_call bl1 b bl2) by exact D.
    rewrite EF. cbn [bind]. replace (0 =? 0) with true by reflexivity. rewrite (written_step br d r bl1 b bl2) by assumption. cbn [bind].
    replace (match p_errorFn p with None => false | Some f => negb (f r =? 0) end) with false.
    2:{ unfold accepted in A1. destruct (p_errorFn p) as [f|]; [|reflexivity]. rewrite A1. reflexivity. }
    cbn [bind]. rewrite usz_add. replace (zsum d + r) with (zsum (d ++ [r])) by (rewrite zsum_app; cbn; lia).
    rewrite u32_small by (unfold zlen in *; lia). rewrite <- (zlen_snoc bl1 b).
    replace (bl1 ++ b :: bl2) with ((bl1 ++ [b]) ++ bl2) in * by (rewrite <- app_assoc; reflexivity).
    rewrite (IH (bl1 ++ [b]) w1 (d ++ [r]) rs' w' br fuel) by (try assumption; rewrite ?app_length; cbn [length] in *; lia).
    rewrite <- !app_assoc. reflexivity.
Qed.

Lemma first_err bl2 : forall bl1 w d rs r w' br fuel k, describes p (bl1 ++ bl2) -> calls fn (firstn (S k) bl2) w (rs ++ [r]) w' -> length rs = k ->
  Forall (accepted p) rs -> ~ accepted p r -> length d = length bl1 ->
  fits br (bl1 ++ bl2) -> zlen (bl1 ++ bl2) < 2 ^ 32 -> (length bl2 <= fuel)%nat ->
  exists ds b', while_ fuel cond_ (body_ 0) (w, written br d, usz c (zsum d), zlen bl1, None) = OK (w', written br (d ++ rs ++ [r]), ds, b', Some r).
Proof.
  induction bl2 as [|b bl2 IH]; intros bl1 w d rs r w' br fuel k D C LR A NA L F B FU.
  - exfalso. apply calls_len in C. rewrite firstn_nil, app_length in C. cbn in C. lia.
  - destruct fuel as [|fuel]; [cbn in FU; lia|].
    pose proof D as (DL & _). assert (LT : zlen bl1 < zlen (bl1 ++ b :: bl2)) by (unfold zlen; rewrite app_length; cbn [length]; lia).
    cbn [while_]. replace (cond_ _) with true by (cbn [cond_]; rewrite DL; lia). rewrite (body_call bl1 b bl2) by exact D.
    destruct rs as [|r0 rs].
    + cbn [length] in LR. subst k. cbn [firstn app] in C. inversion C as [|? ? ? w1 ? rs' ? EF C']; subst. inversion C'; subst.
      rewrite EF. cbn [bind]. replace (0 =? 0) with true by reflexivity. rewrite (written_step br d r bl1 b bl2) by assumption. cbn [bind].
      replace (match p_errorFn p with None => false | Some f => negb (f r =? 0) end) with true.
      2:{ unfold accepted in NA. destruct (p_errorFn p) as [f|]; [|tauto]. destruct (Z.eqb_spec (f r) 0); [contradiction|reflexivity]. }
      cbn [bind app]. do 2 eexists. destruct fuel; reflexivity.
    + destruct k as [|k]; [discriminate|]. cbn [length] in LR. injection LR as LR. change (firstn (S (S k)) (b :: bl2)) with (b :: firstn (S k) bl2) in C. cbn [app] in C.
      inversion C as [|? ? ? w1 ? rs' ? EF C']; subst. inversion A as [|? ? A1 A2]; subst.
      rewrite EF. cbn [bind]. replace (0 =? 0) with true by reflexivity. rewrite (written_step br d r0 bl1 b bl2) by assumption. cbn [bind].
      replace (match p_errorFn p with None => false | Some f => negb (f r0 =? 0) end) with false.
      2:{ unfold accepted in A1. destruct (p_errorFn p) as [f|]; [|reflexivity]. rewrite A1. reflexivity. }
      cbn [bind]. rewrite usz_add. replace (zsum d + r0) with (zsum (d ++ [r0])) by (rewrite zsum_app; cbn; lia).
      rewrite u32_small by (unfold zlen in *; lia). rewrite <- (zlen_snoc bl1 b).
      replace (bl1 ++ b :: bl2) with ((bl1 ++ [b]) ++ bl2) in * by (rewrite <- app_assoc; reflexivity).
      destruct (IH (bl1 ++ [b]) w1 (d ++ [r0]) rs r w' br fuel (length rs)) as (ds & b' & E); try assumption; try reflexivity.
      { rewrite !app_length. cbn [length]. lia. }
      { cbn in FU. lia. }
      exists ds, b'. rewrite E. rewrite <- !app_assoc. reflexivity.
Qed.

Lemma later_ok loopNb bl2 : loopNb <> 0 -> forall bl1 w rs w' br ds fuel, describes p (bl1 ++ bl2) -> calls fn bl2 w rs w' -> zlen (bl1 ++ bl2) < 2 ^ 32 -> (length bl2 <= fuel)%nat ->
  while_ fuel cond_ (body_ loopNb) (w, br, ds, zlen bl1, None) = OK (w', br, ds, zlen (bl1 ++ bl2), None).
Proof.
  intros NZ. induction bl2 as [|b bl2 IH]; intros bl1 w rs w' br ds fuel D C B FU.
  - inversion C; subst. rewrite !app_nil_r in *. destruct D as (D & _). destruct fuel; cbn [while_ cond_]; rewrite D; replace (zlen bl1 <? zlen bl1) with false by lia; reflexivity.
  - inversion C as [|? ? ? w1 r rs' ? EF C']; subst. destruct fuel as [|fuel]; [cbn in FU; lia|].
    pose proof D as (DL & _). assert (LT : zlen bl1 < zlen (bl1 ++ b :: bl2)) by (unfold zlen; rewrite app_length; cbn [length]; lia).
    cbn [while_]. replace (cond_ _) with true by (cbn [cond_]; rewrite DL; lia). rewrite (body_call bl1 b bl2) by exact D.
    rewrite EF. cbn [bind]. replace (loopNb =? 0) with false by lia. cbn [bind].
    rewrite u32_small by (unfold zlen in *; lia). rewrite <- (zlen_snoc bl1 b).
    replace (bl1 ++ b :: bl2) with ((bl1 ++ [b]) ++ bl2) in * by (rewrite <- app_assoc; reflexivity).
    apply (IH (bl1 ++ [b]) w1 rs' w' br ds fuel); try assumption. cbn in FU. lia.
Qed.

Lemma erase_ok bl2 : forall bl1 w w', describes p (bl1 ++ bl2) -> erased e bl2 w w' ->
  for_ (length bl2) (zlen bl1) (fun i w => let! dst := at_ (p_dstBuffers p) i in let! cap := at_ (p_dstCapacities p) i in e_memset e dst cap w) w = OK w'.
Proof.
  induction bl2 as [|b bl2 IH]; intros bl1 w w' D E; inversion E; subst; [reflexivity|].
  pose proof D as (_ & D'). destruct (D' (length bl1) b (nth_mid bl1 b bl2)) as (_ & _ & A3 & A4).
  cbn [length for_]. unfold zlen at 1 2. rewrite (at_ok _ _ _ A3), (at_ok _ _ _ A4). cbn [bind]. rewrite H1. cbn [bind].
  rewrite <- (zlen_snoc bl1 b). apply IH; [|assumption]. rewrite <- app_assoc. exact D.
Qed.

Lemma repeat_ok bl : describes p bl -> zlen bl < 2 ^ 32 -> forall n i fuel w rs w' br ds, 0 < i -> calls fn (concat (repeat bl n)) w rs w' -> (length bl <= fuel)%nat ->
  for_ n i (fun loopNb '(w, br, dstSize, err) => match err with Some _ => OK (w, br, dstSize, err) | None => benchBlocks c fuel p loopNb (w, br, dstSize) end) (w, br, ds, None) = OK (w', br, ds, None).
Proof.
  intros D B. induction n as [|n IH]; intros i fuel w rs w' br ds I C FU; [inversion C; subst; reflexivity|].
  cbn [repeat concat] in C. apply calls_split in C. destruct C as (ra & w1 & rb & -> & CA & CB). cbn [for_].
  rewrite benchBlocks_eq. pose proof (later_ok i bl ltac:(lia) [] w ra w1 br ds fuel D CA B FU) as E. change (zlen (@nil block)) with 0 in E. rewrite E. cbn [bind].
  apply IH with (rs := rb); trivial. lia.
Qed.
Lemma stopped n : forall i fuel (w : W) br ds r, for_ n i (fun loopNb '(w, br, dstSize, err) => match err with Some _ => OK (w, br, dstSize, err) | None => benchBlocks c fuel p loopNb (w, br, dstSize) end) (w, br, ds, Some r) = OK (w, br, ds, Some r).
Proof. induction n as [|n IH]; intros; [reflexivity|]. cbn [for_ bind]. apply IH. Qed.

Lemma nbLoops_eq n : 0 <= n < 2 ^ 32 -> u32 (n + (if n =? 0 then 1 else 0)) = Z.max 1 n.
Proof. intros B. rewrite u32_small; destruct (Z.eqb_spec n 0); lia. Qed.

(** a benchmark without error *)
Lemma benchFunction_ok bl fuel n w br w0 rs w1 rs' w2 : describes p bl -> zlen bl < 2 ^ 32 -> (length bl <= fuel)%nat -> 0 <= n < 2 ^ 32 -> fits br bl ->
  erased e bl w w0 -> let w0' := fst (e_getTime e w0) in
  calls fn bl (started p w0') rs w1 -> Forall (accepted p) rs -> calls fn (concat (repeat bl (Z.to_nat (n - 1)))) w1 rs' w2 ->
  benchFunction c e fuel p n w br =
  let! t := getSpanTimeNano (snd (e_getTime e w0)) (snd (e_getTime e w2)) in
  OK (fst (e_getTime e w2), written br rs, Valid (RunTime t (Z.max 1 n) (usz c (zsum rs)))).
Proof.
  intros D B FU N F ER w0' C A C'. unfold benchFunction. pose proof D as (DL & _).
  rewrite DL. unfold zlen. rewrite Nat2Z.id. pose proof (erase_ok bl [] w w0 D ER) as E. change (zlen (@nil block)) with 0 in E. rewrite E. cbn [bind].
  subst w0'. destruct (e_getTime e w0) as [wt clk]. cbn [fst snd] in *. rewrite nbLoops_eq by exact N.
  replace (Z.to_nat (Z.max 1 n)) with (S (Z.to_nat (n - 1))) by lia. cbn [for_]. rewrite benchBlocks_eq.
  assert (W0 : br = written br []) by (destruct br; reflexivity).
  pose proof (first_ok bl [] (started p wt) [] rs w1 br fuel D C A eq_refl F B FU) as E1. cbn [app zsum fold_right] in E1. rewrite <- W0 in E1. change (zlen (@nil block)) with 0 in E1.
  change (usz c 0) with (0 mod 2 ^ szbits c) in E1. rewrite Zmod_0_l in E1.
  unfold started in E1 at 1. rewrite E1. cbn [bind].
  rewrite (repeat_ok bl D B (Z.to_nat (n - 1)) (0 + 1) fuel w1 rs' w2) by (try assumption; lia). cbn [bind].
  destruct (e_getTime e w2) as [w3 clk2]. reflexivity.
Qed.
(** a benchmark stopped by an error *)
Lemma benchFunction_err bl fuel n w br w0 rs r w1 : describes p bl -> zlen bl < 2 ^ 32 -> (length bl <= fuel)%nat -> 0 <= n < 2 ^ 32 -> fits br bl ->
  erased e bl w w0 -> calls fn (firstn (S (length rs)) bl) (started p (fst (e_getTime e w0))) (rs ++ [r]) w1 -> Forall (accepted p) rs -> ~ accepted p r ->
  benchFunction c e fuel p n w br = OK (w1, written br (rs ++ [r]), Error r).
Proof.
  intros D B FU N F ER C A NA. unfold benchFunction. pose proof D as (DL & _).
  rewrite DL. unfold zlen. rewrite Nat2Z.id. pose proof (erase_ok bl [] w w0 D ER) as E. change (zlen (@nil block)) with 0 in E. rewrite E. cbn [bind].
  destruct (e_getTime e w0) as [wt clk]. cbn [fst snd] in *. rewrite nbLoops_eq by exact N.
  replace (Z.to_nat (Z.max 1 n)) with (S (Z.to_nat (n - 1))) by lia. cbn [for_]. rewrite benchBlocks_eq.
  assert (W0 : br = written br []) by (destruct br; reflexivity).
  destruct (first_err bl [] (started p wt) [] rs r w1 br fuel (length rs) D C eq_refl A NA eq_refl F B FU) as (ds & b' & E1). cbn [app zsum fold_right] in E1. rewrite <- W0 in E1. change (zlen (@nil block)) with 0 in E1.
  change (usz c 0) with (0 mod 2 ^ szbits c) in E1. rewrite Zmod_0_l in E1.
  unfold started in E1 at 1. rewrite E1. cbn [bind]. rewrite stopped. reflexivity.
Qed.
End Fn.
