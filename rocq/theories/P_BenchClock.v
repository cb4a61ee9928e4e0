(** The timing in the benchmark of xxhsum: the invariant of the loop, and when it ends. *)
From Verif Require Import Base Mem M_Bench M_BenchClock SpecClock P_Base.

Lemma LIMIT_val : LIMIT = 4194304000. Proof. reflexivity. Qed.
Lemma perSecond_zero d : perSecond (Fin 0 d) = OK LIMIT.
Proof. reflexivity. Qed.
Lemma perSecond_pos n d : 0 < n -> 0 < d -> perSecond (Fin n d) = OK (Z.min LIMIT (d / n + 1)).
Proof.
  intros N D. unfold perSecond, inverse, plus1. rewrite (proj2 (Z.ltb_lt 0 n) N). cbn [lt].
  pose proof (Z.div_mod d n ltac:(lia)). pose proof (Z.mod_pos_bound d n N). assert (0 <= d / n) by (apply Z.div_pos; lia).
  destruct (Z.ltb_spec (LIMIT * n) ((d + n) * 1)) as [L|L].
  - rewrite Z.min_l by nia. reflexivity.
  - rewrite Z.min_r by nia. unfold to_unsigned. cbv zeta. rewrite Z.quot_div_nonneg by lia. replace (d + n) with (d + 1 * n) by lia. rewrite Z.div_add by lia.
    rewrite (proj2 (Z.leb_le 0 _)) by lia. rewrite (proj2 (Z.ltb_lt _ (2 ^ 32))) by (rewrite LIMIT_val in L; nia). reflexivity.
Qed.
Lemma perSecond_ok n d : 0 <= n -> 0 < d -> exists r, perSecond (Fin n d) = OK r /\ 1 <= r <= LIMIT.
Proof.
  intros N D. destruct (Z.eq_dec n 0) as [->|Z0]; [exists LIMIT; split; [apply perSecond_zero|rewrite LIMIT_val; lia]|].
  eexists. split; [apply perSecond_pos; lia|]. assert (0 <= d / n) by (apply Z.div_pos; lia). rewrite LIMIT_val. lia.
Qed.

Section Rounds.
Context (T g : Z) (ticks : nat -> Z -> Z) (first : Z).
Context (T2 : 2 <= T) (G : 0 <= g < 2 ^ 31 - 1) (TK : forall j n, 0 <= ticks j n) (F : 1 <= first < 2 ^ 32).
Let N := g + (if g =? 0 then 1 else 0).
Lemma N_max : N = Z.max 1 g. Proof. unfold N. destruct (Z.eqb_spec g 0); lia. Qed.

Definition Sound (s : timing) : Prop :=
  iterationNb s = 1 + zlen (filter (counts T g) (made s)) /\ iterationNb s <= N + 1 /\ 0 <= nbh_perIteration s < 2 ^ 32 /\
  (made s = [] -> nbh_perIteration s = first) /\
  (made s = [] \/ exists later, map fst (made s) = first :: later /\ Forall (fun n => 0 <= n < 2 ^ 32) later) /\
  (g = 0 -> made s = [] -> 1 <= nbh_perIteration s) /\
  (exists p q, fastestH s = Fin p q /\ 0 <= p /\ shortest T g (made s) p q) /\
  (forall n t, In (n, t) (made s) -> exists j, t = ticks j n).
Lemma Sound_start : Sound (Timing 1 first (Fin 100000000 1) []).
Proof.
  pose proof N_max. unfold Sound. cbn [iterationNb nbh_perIteration fastestH made filter]. change (zlen (@nil (Z * Z))) with 0.
  split; [lia|]. split; [lia|]. split; [lia|]. split; [reflexivity|]. split; [left; reflexivity|]. split; [lia|]. split; [|intros n t []].
  exists 100000000, 1. split; [reflexivity|]. split; [lia|]. split; [lia|]. split; [intros n t []|]. left. split; reflexivity.
Qed.
Lemma round_sound s : Sound s -> iterationNb s <= N -> exists s', round T g ticks s = OK s' /\ Sound s'.
Proof.
  intros (I & IN & NB & M0 & ML & G0 & (p & q & FH & P & Q & LE & AT) & TI) IT. unfold round. set (n := nbh_perIteration s) in *. set (t := ticks (length (made s)) n).
  assert (T0 : 0 <= t) by apply TK. pose proof N_max as NM.
  assert (ML' : exists later, map fst (made s ++ [(n, t)]) = first :: later /\ Forall (fun n => 0 <= n < 2 ^ 32) later).
  { rewrite map_app. cbn [map fst]. destruct ML as [E|(la & E & FA)]; [rewrite E, (M0 E); exists []; split; [reflexivity|constructor]|].
    rewrite E. exists (la ++ [n]). split; [reflexivity|]. apply Forall_app. split; [exact FA|]. constructor; [exact NB|constructor]. }
  assert (TI' : forall a b, In (a, b) (made s ++ [(n, t)]) -> exists j, b = ticks j a).
  { intros a b H. apply in_app_or in H. destruct H as [H|[H|[]]]; [exact (TI a b H)|]. inversion H; subst a b. eexists. reflexivity. }
  assert (NE : made s ++ [(n, t)] <> []) by (destruct (made s); discriminate).
  assert (X : exists k, (if t <? T / 2 then if t =? 0 then OK (u32 (n * 100)) else perSecond (ticksPerHash T t n) else OK n) = OK k /\ 0 <= k < 2 ^ 32).
  { destruct (t <? T / 2); [|eauto]. destruct (Z.eqb_spec t 0) as [E|E]; [eexists; split; [reflexivity|]; apply Z.mod_pos_bound; reflexivity|].
    unfold ticksPerHash. destruct (Z.ltb_spec 0 n) as [L|L].
    - destruct (perSecond_ok t (T * n)) as (r & R & B); [lia|nia|]. exists r. split; [exact R|]. rewrite LIMIT_val in B. lia.
    - rewrite (proj2 (Z.ltb_lt 0 t)) by lia. exists 1. split; [reflexivity|lia]. }
  destruct X as (k & -> & K). cbn [bind].
  assert (C : counts T g (n, t) = negb ((t <? T / 2) && (0 <? g))).
  { unfold counts. cbn [snd]. rewrite negb_andb, <- Z.leb_antisym, <- Z.leb_antisym, orb_comm. f_equal. destruct (Z.eqb_spec g 0), (Z.leb_spec g 0); lia. }
  assert (FL : filter (counts T g) (made s ++ [(n, t)]) = filter (counts T g) (made s) ++ (if counts T g (n, t) then [(n, t)] else [])).
  { rewrite filter_app. f_equal. }
  destruct ((t <? T / 2) && (0 <? g)) eqn:SH; cbn [negb] in C.
  - eexists. split; [reflexivity|]. unfold Sound. cbn [iterationNb nbh_perIteration fastestH made]. rewrite FL, C, app_nil_r.
    split; [exact I|]. split; [exact IN|]. split; [exact K|]. split; [congruence|]. split; [right; exact ML'|]. split; [intros; congruence|]. split; [|exact TI'].
    exists p, q. split; [exact FH|]. split; [exact P|]. split; [exact Q|]. split.
    + intros a b H CA A. apply in_app_or in H. destruct H as [H|[H|[]]]; [apply LE; assumption|]. inversion H; subst a b. congruence.
    + destruct AT as [AT|(a & b & H & AT)]; [left; exact AT|right]. exists a, b. split; [apply in_or_app; left; exact H|exact AT].
  - assert (Y : exists p' q', (if lt (ticksPerHash T t n) (fastestH s) then ticksPerHash T t n else fastestH s) = Fin p' q' /\ 0 <= p' /\ shortest T g (made s ++ [(n, t)]) p' q').
    { rewrite FH. unfold ticksPerHash. destruct (Z.ltb_spec 0 n) as [L|L].
      - cbn [lt]. assert (0 < T * n) by nia. destruct (Z.ltb_spec (t * q) (p * (T * n))) as [W|W].
        + exists t, (T * n). split; [reflexivity|]. split; [exact T0|]. split; [lia|]. split; [|right; exists n, t; repeat split; auto; apply in_or_app; right; now left].
          intros a b H' CA A. apply in_app_or in H'. destruct H' as [H'|[H'|[]]]; [|inversion H'; subst a b; lia].
          pose proof (LE a b H' CA A) as LL. assert (0 < T * a) by nia. nia.
        + exists p, q. split; [reflexivity|]. split; [exact P|]. split; [exact Q|]. split.
          * intros a b H' CA A. apply in_app_or in H'. destruct H' as [H'|[H'|[]]]; [apply LE; assumption|]. inversion H'; subst a b. lia.
          * destruct AT as [AT|(a & b & H' & AT)]; [left; exact AT|right]. exists a, b. split; [apply in_or_app; left; exact H'|exact AT].
      - exists p, q. split; [destruct (0 <? t); [reflexivity|]; rewrite (proj2 (Z.ltb_ge t 0)) by lia; reflexivity|]. split; [exact P|]. split; [exact Q|]. split.
        + intros a b H' CA A. apply in_app_or in H'. destruct H' as [H'|[H'|[]]]; [apply LE; assumption|]. inversion H'; subst a b. lia.
        + destruct AT as [AT|(a & b & H' & AT)]; [left; exact AT|right]. exists a, b. split; [apply in_or_app; left; exact H'|exact AT]. }
    destruct Y as (p' & q' & -> & P' & SHO). destruct (perSecond_ok p' q' P' (proj1 SHO)) as (r & -> & R). cbn [bind].
    rewrite (proj2 (Z.ltb_lt _ _)) by lia. cbn [assert_ bind]. eexists. split; [reflexivity|]. unfold Sound. cbn [iterationNb nbh_perIteration fastestH made].
    rewrite FL, C. rewrite zlen_app. change (zlen [(n, t)]) with 1.
    split; [lia|]. split; [lia|]. split; [rewrite LIMIT_val in R; lia|]. split; [congruence|]. split; [right; exact ML'|]. split; [intros; congruence|]. split; [|exact TI'].
    exists p', q'. auto.
Qed.
Lemma while_sound : forall fuel s, Sound s -> match while_ fuel (fun s => iterationNb s <=? N) (round T g ticks) s with OK s' => Sound s' /\ iterationNb s' = N + 1 | UB => False | NoFuel => True end.
Proof.
  induction fuel as [|fuel IH]; intros s S; cbn [while_]; destruct (Z.leb_spec (iterationNb s) N) as [L|L].
  - exact I.
  - split; [exact S|]. destruct S as (_ & U & _). lia.
  - destruct (round_sound s S L) as (s' & -> & S'). cbn [bind]. apply IH, S'.
  - split; [exact S|]. destruct S as (_ & U & _). lia.
Qed.

(** ** when it ends *)
Context (p1 p2 q : Z) (P1 : 0 < p1) (P2 : p2 <= 2 * p1) (Q0 : 0 < q) (CAP : q * T <= 2 * p1 * LIMIT).
Context (COST : forall j n, 0 < n -> p1 * n <= q * ticks j n <= p2 * n).
Definition Good (s : timing) : Prop := 1 <= nbh_perIteration s /\ q * T <= 2 * p1 * nbh_perIteration s.
Lemma good_time a b : 0 < a -> 0 < b -> q * T * a <= p2 * b -> q * T <= 2 * p1 * Z.min LIMIT (b / a + 1).
Proof.
  intros A B H. destruct (Z.min_spec LIMIT (b / a + 1)) as [[_ ->]|[_ ->]]; [exact CAP|].
  pose proof (Z.div_mod b a ltac:(lia)). pose proof (Z.mod_pos_bound b a A). assert (0 <= b / a) by (apply Z.div_pos; lia). set (d := b / a) in *.
  assert (b < a * (d + 1)) by nia. assert (q * T * a <= p2 * (a * (d + 1))) by (assert (0 < p2) by nia; nia).
  assert (q * T <= p2 * (d + 1)) by nia. nia.
Qed.
Lemma tick_pos j n : 0 < n -> 0 < ticks j n.
Proof. intros L. destruct (COST j n L). nia. Qed.
Lemma round_good s : Sound s -> iterationNb s <= N -> 1 <= nbh_perIteration s ->
  exists s', round T g ticks s = OK s' /\ Sound s' /\ Good s' /\ zlen (made s') = zlen (made s) + 1 /\
    (Good s -> iterationNb s' = iterationNb s + 1).
Proof.
  intros S IT NB. destruct (round_sound s S IT) as (s' & E & S'). exists s'. split; [exact E|]. split; [exact S'|]. revert E.
  destruct S as (_ & _ & _ & _ & _ & _ & (p & q' & FH & P & (Q & _ & AT)) & TI). unfold round. set (n := nbh_perIteration s) in *. set (t := ticks (length (made s)) n).
  pose proof (tick_pos (length (made s)) n ltac:(lia)) as T0. destruct (COST (length (made s)) n ltac:(lia)) as [C1 C2]. fold t in T0, C1, C2.
  assert (PP : 0 < p).
  { destruct AT as [[-> _]|(a & b & H & _ & A & -> & _)]; [reflexivity|]. destruct (TI a b H) as (j & ->). apply tick_pos, A. }
  assert (TN : q * T * t <= p2 * (T * n)) by nia. assert (TN0 : 0 < T * n) by nia.
  rewrite (proj2 (Z.eqb_neq t 0)) by lia. unfold ticksPerHash. rewrite (proj2 (Z.ltb_lt 0 n)) by lia. rewrite (perSecond_pos t (T * n)) by lia.
  assert (BG : forall a b, 0 < a -> 0 < b -> 1 <= Z.min LIMIT (b / a + 1)).
  { intros a b A B. assert (0 <= b / a) by (apply Z.div_pos; lia). rewrite LIMIT_val. lia. }
  assert (GO : Good s -> t <? T / 2 = false).
  { intros [_ GD]. fold n in GD. apply Z.ltb_ge. pose proof (Z.div_mod T 2 ltac:(lia)). pose proof (Z.mod_pos_bound T 2 ltac:(lia)). assert (q * T <= q * (2 * t)) by nia. nia. }
  destruct (t <? T / 2) eqn:SH; cbn [andb]; cbn [bind].
  - destruct (0 <? g) eqn:GG.
    + intros [= <-]. split; [split; cbn [nbh_perIteration]; [apply BG; assumption|apply good_time; assumption]|]. cbn [made iterationNb]. rewrite zlen_app. split; [reflexivity|].
      intros GD. specialize (GO GD). congruence.
    + rewrite FH. cbn [lt]. destruct (Z.ltb_spec (t * q') (p * (T * n))) as [W|W].
      * rewrite (perSecond_pos t (T * n)) by lia. cbn [bind]. destruct (assert_ _); [|discriminate..]. cbn [bind]. intros [= <-]. cbn [made iterationNb]. rewrite zlen_app.
        split; [split; cbn [nbh_perIteration]; [apply BG; assumption|apply good_time; assumption]|]. split; [reflexivity|reflexivity].
      * rewrite (perSecond_pos p q') by lia. cbn [bind]. destruct (assert_ _); [|discriminate..]. cbn [bind]. intros [= <-]. cbn [made iterationNb]. rewrite zlen_app.
        split; [split; cbn [nbh_perIteration]; [apply BG; assumption|apply good_time; try assumption]|]; [|split; reflexivity].
        assert (0 < p2) by nia. assert (q * T * p * (T * n) <= p2 * q' * (T * n)) by nia. nia.
  - rewrite FH. cbn [lt]. destruct (Z.ltb_spec (t * q') (p * (T * n))) as [W|W].
    + rewrite (perSecond_pos t (T * n)) by lia. cbn [bind]. destruct (assert_ _); [|discriminate..]. cbn [bind]. intros [= <-]. cbn [made iterationNb]. rewrite zlen_app.
      split; [split; cbn [nbh_perIteration]; [apply BG; assumption|apply good_time; assumption]|]. split; [reflexivity|reflexivity].
    + rewrite (perSecond_pos p q') by lia. cbn [bind]. destruct (assert_ _); [|discriminate..]. cbn [bind]. intros [= <-]. cbn [made iterationNb]. rewrite zlen_app.
      split; [split; cbn [nbh_perIteration]; [apply BG; assumption|apply good_time; try assumption]|]; [|split; reflexivity].
      assert (0 < p2) by nia. assert (q * T * p * (T * n) <= p2 * q' * (T * n)) by nia. nia.
Qed.
Lemma while_good : forall fuel s, Sound s -> Good s -> N + 1 - iterationNb s <= Z.of_nat fuel ->
  exists s', while_ fuel (fun s => iterationNb s <=? N) (round T g ticks) s = OK s' /\ zlen (made s') = zlen (made s) + (N + 1 - iterationNb s).
Proof.
  induction fuel as [|fuel IH]; intros s S GD FU; cbn [while_]; pose proof S as (_ & U & _); destruct (Z.leb_spec (iterationNb s) N) as [L|L].
  - lia.
  - exists s. split; [reflexivity|lia].
  - destruct (round_good s S L (proj1 GD)) as (s' & -> & S' & GD' & LE & IT). cbn [bind]. specialize (IT GD). destruct (IH s' S' GD' ltac:(lia)) as (s2 & E & LE2). exists s2. split; [exact E|]. lia.
  - exists s. split; [reflexivity|lia].
Qed.
Lemma while_ends fuel : N + 1 <= Z.of_nat fuel ->
  exists s', while_ fuel (fun s => iterationNb s <=? N) (round T g ticks) (Timing 1 first (Fin 100000000 1) []) = OK s' /\ zlen (made s') <= N + 1.
Proof.
  intros FU. pose proof N_max as NM. destruct fuel as [|fuel]; [lia|]. cbn [while_ iterationNb]. rewrite (proj2 (Z.leb_le 1 N)) by lia.
  destruct (round_good _ Sound_start ltac:(cbn; lia) ltac:(cbn; lia)) as (s' & -> & S' & GD & LE & _). cbn [bind].
  pose proof S' as (I & _). assert (1 <= iterationNb s') by (unfold zlen in I; lia).
  destruct (while_good fuel s' S' GD ltac:(lia)) as (s2 & E & L2). exists s2. split; [exact E|]. cbn [made] in LE. change (zlen (@nil (Z * Z))) with 0 in LE. lia.
Qed.
End Rounds.

(** a clock that does not move: after every round the number of calls is multiplied by 100 *)
Lemma stuck T g fuel : 2 <= T -> 0 < g -> forall s, iterationNb s <= g -> while_ fuel (fun s => iterationNb s <=? g + (if g =? 0 then 1 else 0)) (round T g (fun _ _ => 0)) s = NoFuel.
Proof.
  intros T2 G. rewrite (proj2 (Z.eqb_neq g 0)) by lia. rewrite Z.add_0_r. assert (H : 0 <? T / 2 = true) by (apply Z.ltb_lt; apply Z.div_str_pos; lia).
  induction fuel as [|fuel IH]; intros s I; cbn [while_]; rewrite (proj2 (Z.leb_le _ _) I); [reflexivity|].
  assert (R : round T g (fun _ _ => 0) s = OK (Timing (iterationNb s) (u32 (nbh_perIteration s * 100)) (fastestH s) (made s ++ [(nbh_perIteration s, 0)]))).
  { unfold round. rewrite H. cbn [Z.eqb bind andb]. rewrite (proj2 (Z.ltb_lt 0 g) G). reflexivity. }
  rewrite R. cbn [bind]. apply IH. exact I.
Qed.
