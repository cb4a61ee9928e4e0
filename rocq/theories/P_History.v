(** Every history of API calls refines its specification. *)
From Verif Require Import Base Mem M_XXH32 M_XXH64 M_XXH3 M_Kernels M_Long M_Stream3 Spec32 Spec64 Spec3 P_Base P_Spec P_XXH32 P_XXH64 P_X3_Base P_X3_Short
  P_Kernels P_Kernels2 P_X3_Long P_Stream P_Stream3 P_Stream4 History.

Section Simulation.
Context {Arg Kind Val St Par : Type}.
Variable reset : Arg -> St -> res (errorcode * St).
Variable update : St -> ptr -> Z -> res (errorcode * St).
Variable digest : Kind -> St -> res Val.
Variable copy : St -> St -> St.
Variable sreset : Arg -> obj Par -> errorcode * obj Par.
Variable sdigest : Kind -> Par -> list Z -> Val.
Variable arg_ok : Arg -> Prop.
Variable len_ok total_ok : Z -> Prop.
Variable R : obj Par -> St -> Prop.
Hypothesis HR : forall x o st, arg_ok x -> R o st -> exists st', reset x st = OK (fst (sreset x o), st') /\ R (snd (sreset x o)) st'.
Hypothesis HU : forall P m st p d, R (Some (P, m)) st -> points_to p d -> bytes_ok d -> len_ok (zlen d) ->
  exists st', update st p (zlen d) = OK (XXH_OK, st') /\ R (Some (P, m ++ d)) st'.
Hypothesis HD : forall k P m st, R (Some (P, m)) st -> total_ok (zlen m) -> digest k st = OK (sdigest k P m).
Hypothesis HC : forall o1 o2 d s, R o1 d -> R o2 s -> R o2 (copy d s).

Lemma simulation ops : forall w a, (forall h, R (a h) (w h)) -> valid sreset arg_ok len_ok total_ok a ops ->
  run reset update digest copy w ops = OK (srun sreset sdigest a ops).
Proof.
  assert (SET : forall (w : nat -> St) (a : nat -> obj Par) h st o, (forall k, R (a k) (w k)) -> R o st -> forall k, R (set a h o k) (set w h st k)).
  { intros w a h st o H H1 k. unfold set. destruct (Nat.eqb k h); auto. }
  induction ops as [|o ops IH]; intros w a H V; [reflexivity|].
  destruct o as [h x|h p d|h k|dst src]; cbn [valid run srun] in *.
  - destruct V as [V1 V2]. destruct (HR x (a h) (w h) V1 (H h)) as (st' & -> & R').
    cbn [bind]. rewrite (IH _ (set a h (snd (sreset x (a h))))) by auto. reflexivity.
  - destruct V as (V1 & V2 & V3 & V4 & V5). pose proof (H h) as Hh. destruct (a h) as [[P m]|] eqn:E; [|congruence].
    destruct (HU P m (w h) p d Hh V2 V3 V4) as (st' & -> & R').
    cbn [bind]. rewrite (IH _ (set a h (feed1 (Some (P, m)) d))) by auto. reflexivity.
  - pose proof (H h) as Hh. destruct (a h) as [[P m]|] eqn:E; [|contradiction]. destruct V as [V1 V2].
    rewrite (HD k P m (w h) Hh V1). cbn [bind]. rewrite (IH w a) by auto. reflexivity.
  - apply IH; [|assumption]. apply SET; [assumption|]. eapply HC; apply H.
Qed.
End Simulation.

Lemma history32 c w ops : cfg_ok c -> valid32 c (fun _ => None) ops -> run32 c w ops = OK (srun32 (fun _ => None) ops).
Proof.
  intros C V. unfold run32, srun32. eapply (simulation _ _ _ _ _ _ _ _ _
    (fun o st => match o with None => True | Some (seed, m) => rep32 seed m st end)); try exact V; auto.
  - intros x o st _ _. eexists. split; [reflexivity|]. cbn. apply reset32_rep.
  - intros P m st p d HRep PP B L. eapply update32_ok; eassumption.
  - intros k P m st HRep _. apply digest32_ok; assumption.
Qed.
Lemma history64 c w ops : cfg_ok c -> valid64 c (fun _ => None) ops -> run64 c w ops = OK (srun64 (fun _ => None) ops).
Proof.
  intros C V. unfold run64, srun64. eapply (simulation _ _ _ _ _ _ _ _ _
    (fun o st => match o with None => True | Some (seed, m) => rep64 seed m st end)); try exact V; auto.
  - intros x o st _ _. eexists. split; [reflexivity|]. cbn. apply reset64_rep.
  - intros P m st p d HRep PP B L. eapply update64_ok; eassumption.
  - intros k P m st HRep T. apply digest64_ok; assumption.
Qed.

(** ** XXH3 *)
Definition link3 (P : par3) (s : list Z) (us : bool) (seed : Z) : Prop :=
  match P with
  | PDefault => s = X3.default_secret /\ us = false /\ seed = 0
  | PSeed sd => if sd =? 0 then s = X3.default_secret /\ us = false /\ seed = 0 else s = X3.deriveSecret sd /\ us = true /\ seed = sd
  | PSecret s' => s = s' /\ us = false /\ seed = 0
  | PBoth s' sd => s = s' /\ us = true /\ seed = sd
  end.
Definition R3 (c : cfg) (o : option (par3 * list Z)) (st : state3) : Prop :=
  raw3 st /\ cache3 st /\
  match o with None => True | Some (P, m) => exists s us seed K, link3 P s us seed /\ rep3 c s us seed m K st end.
Lemma R3_rep c P m s us seed K st : link3 P s us seed -> rep3 c s us seed m K st -> R3 c (Some (P, m)) st.
Proof. intros L Rp. split; [apply Rp|]. split; [apply Rp|]. eauto 8. Qed.

Lemma copy_raw dst st : raw3 dst -> raw3 st -> raw3 (XXH3_copyState dst st).
Proof. intros [A1 A2 A3 A4] [B1 B2 B3 B4]. constructor; cbn; trivial. Qed.
Lemma copy_rep c s us seed m K dst st : raw3 dst -> rep3 c s us seed m K st -> rep3 c s us seed m K (XXH3_copyState dst st).
Proof.
  intros W R. destruct R as [RW RC RS RSO RL RN RSD RWS RU RT RK RLen RSZ RM RA RSF RB RTL].
  constructor; cbn [XXH3_copyState s3_adr s3_acc s3_customSecret s3_buffer s3_bufferedSize s3_useSeed
      s3_nbStripesSoFar s3_totalLen s3_nbStripesPerBlock s3_secretLimit s3_seed s3_extSecret]; trivial.
  - apply copy_raw; trivial.
  - unfold state_secret in *. cbn. destruct (is_null (s3_extSecret st)); exact RS.
Qed.

Lemma link_digest c k P m s us seed K st : cfg_ok c -> link3 P s us seed -> rep3 c s us seed m K st -> zlen m < 2 ^ 64 ->
  do_digest3 c k st = OK (sdigest3 k P m).
Proof.
  intros C L Rp T. unfold do_digest3.
  assert (D0 : X3.deriveSecret 0 = X3.default_secret) by (rewrite derive_0; apply kSecret_default).
  assert (D : forall sd : Z, (sd =? 0) = true -> sd = 0) by (intros sd E; apply Z.eqb_eq; exact E).
  destruct k; [rewrite (digest64_ok' c s us seed m K st C Rp T)|rewrite (digest128_ok' c s us seed m K st C Rp T)]; cbn [bind];
    unfold sdigest3, X3.XXH3_64, X3.XXH3_64_withSeed, X3.XXH3_64_withSecret, X3.XXH3_64_withSecretandSeed,
      X3.XXH3_128, X3.XXH3_128_withSeed, X3.XXH3_128_withSecret, X3.XXH3_128_withSecretandSeed, link3 in *;
    (destruct P as [|sd|s'|s' sd]; [|destruct (sd =? 0) eqn:E; [apply D in E; subst sd; rewrite D0|]| |];
     destruct L as (-> & -> & ->); reflexivity).
Qed.

Lemma reset3_ok c wr st o : cfg_ok c -> arg3_ok c wr -> R3 c o st ->
  exists st', do_reset3 c wr st = OK (fst (sreset3 wr o), st') /\ R3 c (snd (sreset3 wr o)) st'.
Proof.
  intros C A R. pose proof R as (RW & RC & _). destruct wr as [w r]. unfold do_reset3, on_some, arg3_ok, sreset3 in *. cbn [snd] in *.
  destruct r as [|sd|p s|p s sd|n|p n sd].
  - destruct (reset_rep c st C RW) as (st' & E & Rp & _).
    replace (match w with W64 => _ | W128 => _ end) with (XXH3_64bits_reset c (Some st)) by (destruct w; reflexivity).
    rewrite E. cbn [bind]. eexists. split; [reflexivity|]. eapply R3_rep; [|exact Rp]. cbn. auto.
  - replace (match w with W64 => _ | W128 => _ end) with (XXH3_64bits_reset_withSeed c (Some st) sd) by (destruct w; reflexivity).
    destruct (Z.eq_dec sd 0) as [->|N].
    + change (XXH3_64bits_reset_withSeed c (Some st) 0) with (XXH3_64bits_reset c (Some st)).
      destruct (reset_rep c st C RW) as (st' & E & Rp & _).
      rewrite E. cbn [bind]. eexists. split; [reflexivity|]. eapply R3_rep; [|exact Rp]. cbn. auto.
    + destruct (reset_withSeed_rep c st C RW sd RC A N) as (st' & E & Rp & _).
      rewrite E. cbn [bind]. eexists. split; [reflexivity|]. eapply R3_rep; [|exact Rp]. cbn. replace (sd =? 0) with false by lia. auto.
  - destruct A as (PS & SO). destruct (reset_withSecret_rep c st C RW p s PS SO) as (st' & E & Rp & _).
    replace (match w with W64 => _ | W128 => _ end) with (XXH3_64bits_reset_withSecret c (Some st) p (zlen s)) by (destruct w; reflexivity).
    rewrite E. cbn [bind]. eexists. split; [reflexivity|]. eapply R3_rep; [|exact Rp]. cbn. auto.
  - destruct A as (PS & BS & S1 & S2 & W).
    destruct (reset_withSecretandSeed_rep c st C RW p s sd PS) as (st' & E & Rp & _); [repeat split; trivial|assumption|].
    replace (match w with W64 => _ | W128 => _ end) with (XXH3_64bits_reset_withSecretandSeed c (Some st) p (zlen s) sd) by (destruct w; reflexivity).
    rewrite E. cbn [bind]. eexists. split; [reflexivity|]. eapply R3_rep; [|exact Rp]. cbn. auto.
  - replace (match w with W64 => _ | W128 => _ end) with (XXH3_64bits_reset_withSecret c (Some st) Null n) by (destruct w; reflexivity).
    unfold XXH3_64bits_reset_withSecret, XXH3_reset_internal, SECRET_SIZE_MIN. replace (136 <=? n) with true by lia. cbn [assert_ bind is_null].
    eexists. split; [reflexivity|]. destruct RW. split; [constructor; cbn; trivial|]. split; [|exact I].
    intros _ N. cbn in N. congruence.
  - replace (match w with W64 => _ | W128 => _ end) with (XXH3_64bits_reset_withSecretandSeed c (Some st) p n sd) by (destruct w; reflexivity).
    unfold XXH3_64bits_reset_withSecretandSeed, SECRET_SIZE_MIN.
    assert (E : is_null p = true \/ (n <? 136) = true) by (destruct A as [->|A]; [left; reflexivity|right; lia]).
    destruct (is_null p); [|destruct E as [E|E]; [discriminate|rewrite E]]; cbn [bind]; (eexists; split; [reflexivity|exact R]).
Qed.

Lemma update3_R c P m st p d : cfg_ok c -> R3 c (Some (P, m)) st -> points_to p d -> bytes_ok d -> zlen d < 2 ^ szbits c ->
  exists st', XXH3_64bits_update c st p (zlen d) = OK (XXH_OK, st') /\ R3 c (Some (P, m ++ d)) st'.
Proof.
  intros C (RW & RC & s & us & seed & K & L & Rp) PP B LD. pose proof (update_adr_aligned c st RW) as A.
  destruct (update3_ok c s us seed m K st p d (accumulate c) (scrambleAcc c)) as (K' & st' & E & R' & Ad); trivial.
  + apply accumulate_ok; trivial.
  + apply scrambleAcc_ok; trivial.
  + unfold XXH3_64bits_update. rewrite E. eexists. split; [reflexivity|]. eapply R3_rep; eassumption.
Qed.

Lemma history3_gen c w ops a : cfg_ok c -> (forall h, R3 c (a h) (w h)) -> valid3 c a ops -> run3 c w ops = OK (srun3 a ops).
Proof.
  intros C H V. unfold run3, srun3. eapply (simulation _ _ _ _ _ _ _ _ _ (R3 c)); try exact V; try exact H.
  - intros x o st A R. apply reset3_ok; assumption.
  - intros P m st p d R PP B L. eapply update3_R; eassumption.
  - intros k P m st (RW & RC & s & us & seed & K & L & Rp) T. eapply link_digest; eassumption.
  - intros o1 o2 d s (RW1 & RC1 & _) (RW & RC & R). split; [apply copy_raw; trivial|]. split.
    + exact RC.
    + destruct o2 as [[P m]|]; [|exact I]. destruct R as (s0 & us & seed & K & L & Rp).
      exists s0, us, seed, K. split; [assumption|]. apply copy_rep; assumption.
Qed.
Lemma created_R3 c st : created3 st -> R3 c None st.
Proof.
  intros [A B1 B2 CU S E]. split; [constructor; trivial|]. split; [|exact I]. intros _ N. congruence.
Qed.
Lemma history3 c w ops : cfg_ok c -> (forall h, created3 (w h)) -> valid3 c (fun _ => None) ops ->
  run3 c w ops = OK (srun3 (fun _ => None) ops).
Proof. intros C H V. apply history3_gen; trivial. intros h. apply created_R3, H. Qed.
