(** Every execution of the thread pool is finite: a potential that every step lowers. *)
From Coq Require Import Permutation.
From Verif Require Import Base Mem P_Base M_Pool P_Pool1 P_Pool2 P_Pool3 P_Pool4 P_Pool5.
Import Pool.

Section Potential.
Variables (N : Z) (progs : list (list op)).
(** threads still to be created *)
Definition spo (o : op) : Z := match o with Resize n => Z.max 0 n | _ => 0 end.
Definition spc (p : cpc) : Z := match p with C_lock o => spo o | C_resize n => Z.max 0 n | C_spawn n i => n - i | _ => 0 end.
Definition sp (c : client) : Z := sumf spo (c_prog c) + spc (c_pc c).
Definition so (p : opc) : Z := match p with O_create i => N - i | _ => 0 end.
(** no more threads than this are ever created *)
Definition threads : Z := N + sumf (sumf spo) progs.
(** what waking all of them adds to the potential *)
Definition K : Z := 4 * (threads + Z.of_nat (length progs)).
(** the weight of a job in the queue *)
Definition Q : Z := 11 + 2 * K.
Definition rw (p : wpc) : Z :=
  match p with
  | W_exited | W_waiting => 0 | W_sleep | W_bye => 1 | W_test | W_pop => 2 | W_check => 3 | W_top | W_relock => 4 | W_unlock2 => 5 | W_signal2 => 6 + K
  | W_dec => 7 + K | W_lock2 => 8 + K | W_run _ => 9 + K | W_unlock _ => 10 + K | W_signal _ => 11 + 2 * K
  end.
Definition rop (o : op) : Z := match o with Add _ | TryAdd _ => 8 + K + Q | Resize n => 6 + K + 5 * Z.max 0 n end.
Definition rpc (p : cpc) : Z :=
  match p with
  | C_idle => 0 | C_unlock _ _ => 1 | C_signal _ => 2 + K | C_insert _ _ => 3 + K + Q | C_waiting _ => 4 + K + Q | C_sleep _ => 5 + K + Q
  | C_full _ | C_try _ => 6 + K + Q | C_relock _ => 7 + K + Q | C_lock o => rop o - 1 | C_bcast _ _ => 2 + K | C_spawn n i => 3 + K + 5 * (n - i) | C_resize n => 4 + K + 5 * Z.max 0 n
  end.
Definition rc (c : client) : Z := sumf rop (c_prog c) + rpc (c_pc c).
Definition ro (p : opc) : Z :=
  match p with
  | O_done => 0 | O_free => 1 | O_join i => 2 + threads - i | O_bpop => 3 + threads + K | O_bpush => 4 + threads + 2 * K | O_unlock => 5 + threads + 2 * K
  | O_shutdown => 6 + threads + 2 * K | O_lock => 7 + threads + 2 * K | O_ready => 8 + threads + 2 * K | O_limit => 9 + threads + 2 * K
  | O_capacity => 10 + threads + 2 * K | O_create i => 11 + threads + 2 * K + 5 * (N - i)
  end.
Definition phi (g : ctx) (ws : list wpc) (cs : list client) (p : opc) : Z :=
  Q * (Z.of_nat (length (added g)) - Z.of_nat (length (started g))) + sumf rw ws + sumf rc cs + ro p.
Record B (g : ctx) (ws : list wpc) (cs : list client) (p : opc) : Prop := {
  b_cap : 0 <= capacity g;
  b_len : length cs = length progs;
  b_thr : Z.of_nat (length ws) + sumf sp cs + so p <= threads
}.

Lemma woke_up {A} (f : A -> Z) (wake : A -> A) d l l' : (forall x, f (wake x) <= f x + d) -> 0 <= d -> woke wake l l' -> sumf f l' <= sumf f l + d * Z.of_nat (length l).
Proof. intros F D W. induction W as [|x x' l l' [-> | ->] W IH]; cbn [sumf length]; [lia| |specialize (F x)]; lia. Qed.
Lemma rw_wake p : rw (wwake p) <= rw p + 4.
Proof. destruct p; cbn [wwake rw]; lia. Qed.
Lemma rc_wake c : rc (cwake c) <= rc c + 4.
Proof. unfold rc, cwake. destruct c as [? []]; cbn [c_pc c_prog at_pc rpc]; lia. Qed.
Lemma sp_wake c : sp (cwake c) = sp c.
Proof. unfold sp, cwake. destruct c as [? []]; reflexivity. Qed.
Lemma spo_nonneg o : 0 <= spo o.
Proof. destruct o; cbn; lia. Qed.
Lemma sumf_spo l : 0 <= sumf spo l.
Proof. apply sumf_pos. exact spo_nonneg. Qed.
Lemma threads_nonneg : 0 <= N -> 0 <= threads.
Proof. intros H. unfold threads. pose proof (sumf_pos (sumf spo) progs sumf_spo). lia. Qed.
Lemma sp_nonneg g nw c : cfact g nw c -> 0 <= sp c.
Proof. unfold cfact, sp. pose proof (sumf_spo (c_prog c)). destruct (c_pc c) as [|[]| | | | | | | | | | |]; cbn [spc spo]; lia. Qed.
Lemma sp_sum g ws cs p : inv N progs g ws cs p -> 0 <= sumf sp cs.
Proof.
  intros I. pose proof (i_c _ _ _ _ _ _ I) as CF. clear I. induction cs as [|c cs IH]; cbn; [lia|]. pose proof (sp_nonneg _ _ _ (CF 0%nat c eq_refl)). specialize (IH (fun k => CF (S k))). lia.
Qed.
Lemma so_nonneg g ws cs p : inv N progs g ws cs p -> 0 <= so p.
Proof. intros I. pose proof (i_o _ _ _ _ _ _ I) as O. destruct p; cbn in *; lia. Qed.
Lemma workers_bound g ws cs p : inv N progs g ws cs p -> B g ws cs p -> Z.of_nat (length ws) <= threads.
Proof. intros I [b1 b2 b3]. pose proof (sp_sum _ _ _ _ I). pose proof (so_nonneg _ _ _ _ I). lia. Qed.

(** ** the potential is not negative *)
Lemma K_nonneg : 0 <= N -> 0 <= K.
Proof. intros H. pose proof (threads_nonneg H). unfold K. lia. Qed.
Lemma rw_nonneg p : 0 <= K -> 0 <= rw p.
Proof. intros H. destruct p; cbn [rw]; lia. Qed.
Lemma rop_nonneg o : 0 <= K -> 0 <= rop o.
Proof. intros H. unfold rop, Q. destruct o; lia. Qed.
Lemma rc_nonneg g nw c : 0 <= K -> cfact g nw c -> 0 <= rc c.
Proof.
  intros H CF. unfold rc, cfact in *. assert (0 <= sumf rop (c_prog c)) by (apply sumf_pos; intros x; apply rop_nonneg; exact H). unfold rop, Q, rpc in *. destruct (c_pc c) as [|[]| | | | | | | | | | |]; cbn [rpc rop]; unfold rop, Q; try lia.
Qed.
Lemma phi_nonneg g ws cs p : 1 <= N -> inv N progs g ws cs p -> B g ws cs p -> 0 <= phi g ws cs p.
Proof.
  intros N1 I HB. assert (KN : 0 <= K) by (apply K_nonneg; lia). assert (TN : 0 <= threads) by (apply threads_nonneg; lia). unfold phi.
  destruct (i_ring _ _ _ _ _ _ I) as (q & AQ & _). rewrite AQ, app_length.
  assert (0 <= sumf rw ws) by (apply sumf_pos; intros x; apply rw_nonneg; exact KN).
  assert (0 <= sumf rc cs). { pose proof (i_c _ _ _ _ _ _ I) as CF. clear - CF KN. induction cs as [|c cs IH]; cbn; [lia|]. pose proof (rc_nonneg _ _ _ KN (CF 0%nat c eq_refl)). specialize (IH (fun k => CF (S k))). lia. }
  assert (0 <= ro p). { pose proof (i_o _ _ _ _ _ _ I) as O. pose proof (workers_bound _ _ _ _ I HB). pose proof (b_cap _ _ _ _ HB). destruct p; cbn [ro ofact] in *; try lia. pose proof (i_capw _ _ _ _ _ _ I eq_refl). lia. }
  assert (0 <= Q) by (unfold Q; lia). nia.
Qed.

(** ** one step *)
Definition bump (e : effect) : Z := match e with E_none => 0 | E_spawn => 4 | _ => K end.
Lemma affects_phi e g ws cs p ws' cs' : affects e ws cs ws' cs' -> Z.of_nat (length ws) <= threads -> length cs = length progs -> 0 <= threads -> phi g ws' cs' p <= phi g ws cs p + bump e.
Proof.
  intros A LW LC T0. unfold phi. destruct (match e with E_none | E_spawn => true | _ => false end) eqn:SE.
  - destruct e; try discriminate; destruct A as [-> ->]; cbn [bump]; [lia|]. rewrite sumf_app. cbn. lia.
  - destruct (affects_woke _ _ _ _ _ A) as [WW WC]; [intros ->; discriminate|]. pose proof (woke_up rw wwake 4 _ _ rw_wake ltac:(lia) WW). pose proof (woke_up rc cwake 4 _ _ rc_wake ltac:(lia) WC).
    assert (BE : bump e = K) by (destruct e; trivial; discriminate). rewrite BE. unfold K. lia.
Qed.
Lemma affects_B e g ws cs p ws' cs' : affects e ws cs ws' cs' -> B g (grown e ws) cs p -> B g ws' cs' p.
Proof.
  intros A HB. destruct (match e with E_spawn => true | _ => false end) eqn:SE.
  - destruct e; try discriminate. destruct A as [-> ->]. exact HB.
  - destruct (affects_woke _ _ _ _ _ A) as [WW WC]; [intros ->; discriminate|]. assert (GE : grown e ws = ws) by (destruct e; trivial; discriminate). rewrite GE in HB. destruct HB as [b1 b2 b3].
    constructor; [exact b1|rewrite (woke_length _ _ _ WC); exact b2|]. rewrite (woke_length _ _ _ WW), (woke_sumf sp cwake _ _ sp_wake WC). exact b3.
Qed.
Lemma worker_phi g ws cs p i w g' w' e : 0 <= K -> nth_error ws i = Some w -> wstep i g w = Go g' w' e -> phi g' (set_nth ws i w') cs p + bump e < phi g ws cs p.
Proof.
  intros KN Hn E. unfold phi. rewrite (sumf_set rw _ _ _ w' Hn). assert (QD : Q = 11 + 2 * K) by reflexivity. unfold wstep in E. destruct w; unfold_step E; cbn [bump rw added started with_mutex with_busy with_finished]; try rewrite app_length; cbn [length]; try lia.
Qed.
Lemma worker_B g ws cs p i w g' w' e : nth_error ws i = Some w -> wstep i g w = Go g' w' e -> B g ws cs p -> B g' (grown e (set_nth ws i w')) cs p.
Proof.
  intros Hn E [b1 b2 b3]. assert (CE : capacity g' = capacity g /\ e <> E_spawn) by (clear - E; unfold wstep in E; destruct w; unfold_step E; split; trivial; discriminate). destruct CE as [CE NS].
  constructor; [rewrite CE; exact b1|exact b2|]. replace (grown e (set_nth ws i w')) with (set_nth ws i w') by (destruct e; trivial; congruence). rewrite set_nth_length. exact b3.
Qed.
Lemma client_phi g ws cs p ok k c g' c' e : 0 <= K -> 0 <= capacity g -> cfact g (Z.of_nat (length ws)) c -> nth_error cs k = Some c -> cstep ok k g c = Go g' c' e -> phi g' ws (set_nth cs k c') p + bump e < phi g ws cs p.
Proof.
  intros KN CN CF Hn E. unfold phi. rewrite (sumf_set rc _ _ _ c' Hn). assert (QD : Q = 11 + 2 * K) by reflexivity. unfold cstep, cfact in *. unfold rc. destruct (c_pc c) eqn:EP; unfold_step E; cbn [bump c_prog c_pc at_pc rpc rop sumf added started with_mutex with_capacity with_limit]; rewrite ?EP; cbn [rpc]; try rewrite app_length; cbn [length]; try lia.
  all: try (match goal with H : c_prog _ = _ |- _ => rewrite H; cbn [sumf]; lia end).
Qed.
Lemma client_B g ws cs p ok k c g' c' e : cfact g (Z.of_nat (length ws)) c -> nth_error cs k = Some c -> cstep ok k g c = Go g' c' e -> B g ws cs p -> B g' (grown e ws) (set_nth cs k c') p.
Proof.
  intros CF Hn E [b1 b2 b3]. constructor.
  - clear - CF E b1. unfold cstep, cfact in *. destruct (c_pc c) eqn:EP; unfold_step E; cbn; trivial; lia.
  - rewrite set_nth_length. exact b2.
  - rewrite (sumf_set sp _ _ _ c' Hn), grown_len. assert (X : sp c' + (if match e with E_spawn => true | _ => false end then 1 else 0) <= sp c); [|lia].
    clear - CF E b1. unfold sp, cstep, cfact in *. destruct (c_pc c) eqn:EP; unfold_step E; cbn [c_prog c_pc at_pc spc spo sumf]; rewrite ?EP; cbn [spc]; try lia.
    all: try (match goal with H : c_prog _ = _ |- _ => rewrite H; cbn [sumf]; lia end).
Qed.
Lemma owner_phi g ws cs p ok idle g' p' e : 1 <= N -> inv N progs g ws cs p -> B g ws cs p -> ostep N ok idle ws g p = Go g' p' e -> phi g' ws cs p' + bump e < phi g ws cs p.
Proof.
  intros N1 I HB E. assert (KN : 0 <= K) by (apply K_nonneg; lia). assert (TN : 0 <= threads) by (apply threads_nonneg; lia). pose proof (workers_bound _ _ _ _ I HB) as WB. pose proof (i_o _ _ _ _ _ _ I) as O.
  pose proof (i_capw _ _ _ _ _ _ I) as CW. unfold phi. unfold ostep in E. destruct p; unfold_step E; cbn [bump ro ofact early added started with_mutex with_capacity with_limit with_shutdown with_freed] in *; try lia.
Qed.
Lemma owner_B g ws cs p ok idle g' p' e : 1 <= N -> inv N progs g ws cs p -> B g ws cs p -> ostep N ok idle ws g p = Go g' p' e -> B g' (grown e ws) cs p'.
Proof.
  intros N1 I [b1 b2 b3] E. pose proof (i_o _ _ _ _ _ _ I) as O. constructor; [|exact b2|rewrite grown_len]; clear I; unfold ostep in E; destruct p; unfold_step E; cbn in *; trivial; lia.
Qed.
Lemma step_phi s s' : 1 <= N -> inv N progs (sh s) (ws s) (cs s) (ow s) -> B (sh s) (ws s) (cs s) (ow s) -> step N s s' ->
  B (sh s') (ws s') (cs s') (ow s') /\ phi (sh s') (ws s') (cs s') (ow s') < phi (sh s) (ws s) (cs s) (ow s).
Proof.
  intros N1 I HB HS. assert (KN : 0 <= K) by (apply K_nonneg; lia). assert (TN : 0 <= threads) by (apply threads_nonneg; lia). pose proof (workers_bound _ _ _ _ I HB) as WB. pose proof (b_len _ _ _ _ HB) as LB.
  destruct HS as [s i p g p' e ws' cs' Hn E A|s ok k c g c' e ws' cs' R Hn E A|s ok g p' e ws' cs' E A]; cbn [sh ws cs ow].
  - split; [exact (affects_B _ _ _ _ _ _ _ A (worker_B _ _ _ _ _ _ _ _ _ Hn E HB))|]. pose proof (worker_phi _ _ (cs s) (ow s) _ _ _ _ _ KN Hn E) as D.
    assert (LW : Z.of_nat (length (set_nth (ws s) i p')) <= threads) by (rewrite set_nth_length; exact WB). pose proof (affects_phi _ g _ _ (ow s) _ _ A LW LB TN). lia.
  - pose proof (i_c _ _ _ _ _ _ I k c Hn) as CF. split; [exact (affects_B _ _ _ _ _ _ _ A (client_B _ _ _ _ _ _ _ _ _ _ CF Hn E HB))|].
    pose proof (client_phi _ _ _ (ow s) _ _ _ _ _ _ KN (b_cap _ _ _ _ HB) CF Hn E) as D. assert (LC : length (set_nth (cs s) k c') = length progs) by (rewrite set_nth_length; exact LB). pose proof (affects_phi _ g _ _ (ow s) _ _ A WB LC TN). lia.
  - split; [exact (affects_B _ _ _ _ _ _ _ A (owner_B _ _ _ _ _ _ _ _ _ N1 I HB E))|]. pose proof (owner_phi _ _ _ _ _ _ _ _ _ N1 I HB E) as D. pose proof (affects_phi _ g _ _ p' _ _ A WB LB TN). lia.
Qed.
Lemma spurious_phi s s' : B (sh s) (ws s) (cs s) (ow s) -> spurious s s' -> B (sh s') (ws s') (cs s') (ow s') /\ phi (sh s') (ws s') (cs s') (ow s') <= phi (sh s) (ws s) (cs s) (ow s) + 4.
Proof.
  intros [b1 b2 b3] HS. unfold phi. destruct HS as [s i Hn|s k c Hn NE]; cbn [sh ws cs ow].
  - split; [constructor; rewrite ?set_nth_length; assumption|]. rewrite (sumf_set rw _ _ _ W_relock Hn). cbn [rw]. lia.
  - split; [constructor; rewrite ?set_nth_length; trivial; rewrite (sumf_set sp _ _ _ _ Hn), sp_wake; lia|]. rewrite (sumf_set rc _ _ _ _ Hn). pose proof (rc_wake c). lia.
Qed.
Definition phi0 : Z := sumf (sumf rop) progs + ro (O_create 0).
Lemma init_B queueSize junk : 1 <= N -> let s := init queueSize junk progs in B (sh s) (ws s) (cs s) (ow s) /\ phi (sh s) (ws s) (cs s) (ow s) = phi0.
Proof.
  intros N1. split.
  - constructor; cbn; [lia|apply map_length|]. assert (X : sumf sp (map (fun p => Cl p C_idle []) progs) = sumf (sumf spo) progs) by (clear; induction progs as [|p l IH]; cbn; [reflexivity|]; unfold sp at 1; cbn; lia).
    unfold threads. lia.
  - unfold phi, phi0. cbn [sh ws cs ow init added started length sumf]. assert (X : sumf rc (map (fun p => Cl p C_idle []) progs) = sumf (sumf rop) progs); [|lia].
    clear. induction progs as [|p l IH]; [reflexivity|]. cbn [map sumf]. rewrite IH. unfold rc at 1. cbn [c_prog c_pc rpc]. lia.
Qed.
Lemma exec_phi n m queueSize junk s : 1 <= N -> 0 <= queueSize -> zlen junk = queueSize + 1 -> progs_ok progs -> exec N n m (init queueSize junk progs) s ->
  B (sh s) (ws s) (cs s) (ow s) /\ Z.of_nat n + phi (sh s) (ws s) (cs s) (ow s) <= phi0 + 4 * Z.of_nat m.
Proof.
  intros N1 Q0 Jk PO E. remember (init queueSize junk progs) as s0 eqn:E0. induction E as [s|n m s s' s'' E IH HS|n m s s' s'' E IH HS].
  - subst s. destruct (init_B queueSize junk N1) as [b1 b2]. split; [exact b1|]. rewrite b2. lia.
  - subst s. destruct (IH eq_refl) as [b1 b2]. destruct (step_phi _ _ N1 (exec_inv _ _ _ _ _ _ _ N1 Q0 Jk PO E) b1 HS) as [c1 c2]. split; [exact c1|lia].
  - destruct (IH E0) as [b1 b2]. destruct (spurious_phi _ _ b1 HS) as [c1 c2]. split; [exact c1|lia].
Qed.
Lemma exec_bound n m queueSize junk s : 1 <= N -> 0 <= queueSize -> zlen junk = queueSize + 1 -> progs_ok progs -> exec N n m (init queueSize junk progs) s -> Z.of_nat n <= phi0 + 4 * Z.of_nat m.
Proof.
  intros N1 Q0 Jk PO E. destruct (exec_phi _ _ _ _ _ N1 Q0 Jk PO E) as [b1 b2]. pose proof (phi_nonneg _ _ _ _ N1 (exec_inv _ _ _ _ _ _ _ N1 Q0 Jk PO E) b1). lia.
Qed.
(** every execution can be continued to the end *)
Lemma exec_end n m queueSize junk s : 1 <= N -> 0 <= queueSize -> zlen junk = queueSize + 1 -> progs_ok progs -> exec N n m (init queueSize junk progs) s ->
  exists n' s', (n <= n')%nat /\ exec N n' m (init queueSize junk progs) s' /\ ow s' = O_done.
Proof.
  intros N1 Q0 Jk PO E. assert (G : forall f n s, (Z.to_nat (phi0 + 4 * Z.of_nat m - Z.of_nat n) <= f)%nat -> exec N n m (init queueSize junk progs) s -> exists n' s', (n <= n')%nat /\ exec N n' m (init queueSize junk progs) s' /\ ow s' = O_done).
  { clear n s E. induction f as [|f IH]; intros n s L E.
    - pose proof (exec_inv _ _ _ _ _ _ _ N1 Q0 Jk PO E) as I. destruct (no_deadlock _ _ _ I (exec_J _ _ _ _ _ _ _ N1 Q0 Jk PO E)) as [D|(s' & HS)]; [exists n, s; auto|].
      pose proof (exec_bound _ _ _ _ _ N1 Q0 Jk PO (Exec_step _ _ _ _ _ _ E HS)). lia.
    - pose proof (exec_inv _ _ _ _ _ _ _ N1 Q0 Jk PO E) as I. destruct (no_deadlock _ _ _ I (exec_J _ _ _ _ _ _ _ N1 Q0 Jk PO E)) as [D|(s' & HS)]; [exists n, s; auto|].
      destruct (IH (S n) s') as (n' & s1 & L1 & E1 & D1); [lia|exact (Exec_step _ _ _ _ _ _ E HS)|]. exists n', s1. split; [lia|auto]. }
  exact (G _ n s (Nat.le_refl _) E).
Qed.
End Potential.
