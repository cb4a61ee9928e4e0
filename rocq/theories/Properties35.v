(** Property theorems about the timing in the benchmark of xxhsum: C106. *)
From Coq Require Import String.
From Verif Require Import Base Mem M_Util M_Cli M_Cli3 M_Bench M_BenchClock SpecBench SpecClock P_Base P_Bench P_BenchClock Properties11.

(** ** C106 *)
(** Every test makes as many rounds of half a second or more as -i asks for, at least one; its first round makes the calls of the first 10 MB, and
    every other one less than 2^32 (as C56 assumes); and what is reported is the shortest time of a call in these rounds. *)
Theorem C106_report : forall fuel T g level ticks c size l x shown,
  cfg_ok c -> 0 <= size -> size + 1 < 2 ^ szbits c -> 2 <= T -> 0 <= g < 2 ^ 31 - 1 -> (forall j n, 0 <= ticks j n) ->
  (let! first := firstRound c size in benchRounds fuel T g level ticks first) = OK (l, x, shown) ->
  (exists later, map fst l = first_count size :: later /\ Forall counted later) /\
  zlen (filter (counts T g) l) = Z.max 1 g /\ (forall n t, In (n, t) l -> exists j, t = ticks j n) /\
  exists p q, x = Fin p q /\ shortest T g l p q /\ (level < 1 -> shown = Some (q / p)).
Proof.
  intros fuel T g level ticks c size l x shown C S0 S1 T2 G TK E.
  assert (D : 0 <= 10 * 2 ^ 20 / (size + 1) <= 10 * 2 ^ 20).
  { split; [apply Z.div_pos; lia|]. apply Z.div_le_upper_bound; [lia|]. nia. }
  assert (F : firstRound c size = OK (first_count size)).
  { unfold firstRound, usz, first_count. rewrite Z.mod_small by lia. rewrite (proj2 (Z.eqb_neq _ 0)) by lia. unfold SPEED_TARGET, MB, u32.
    rewrite !Z.mod_small; try reflexivity; rewrite ?Z.mod_small; lia. }
  rewrite F in E. cbn [bind] in E. assert (FC : 1 <= first_count size < 2 ^ 32) by (unfold first_count; lia).
  unfold benchRounds in E. pose proof (while_sound T g ticks (first_count size) T2 G TK fuel _ (Sound_start T g ticks (first_count size) G TK FC)) as W.
  destruct (while_ _ _ _ _) as [s| |]; [|discriminate..]. destruct W as [(I & _ & _ & _ & ML & _ & (p & q & FH & P & SH) & TI) IN]. cbn [bind] in E.
  rewrite (N_max g ticks G TK) in IN.
  assert (NM : 1 <= zlen (filter (counts T g) (made s))) by lia.
  destruct (if level <? 1 then _ else _) as [sh| |] eqn:SHO; [|discriminate..]. cbn [bind] in E. injection E as <- <- <-.
  split.
  { destruct ML as [ML|(later & ML & FA)]; [rewrite ML in NM; cbn in NM; lia|]. exists later. split; [exact ML|]. exact FA. }
  split; [lia|]. split; [exact TI|]. exists p, q. split; [exact FH|]. split; [exact SH|]. intros LV. rewrite (proj2 (Z.ltb_lt level 1) LV) in SHO.
  rewrite FH in SHO. destruct SH as [Q _]. unfold inverse in SHO. destruct (Z.ltb_spec 0 p) as [PP|PP].
  - unfold to_unsigned in SHO. rewrite Z.quot_div_nonneg in SHO by lia. destruct (_ && _); [|discriminate]. cbn [bind] in SHO. injection SHO as <-. reflexivity.
  - rewrite (proj2 (Z.ltb_ge p 0)) in SHO by lia. discriminate.
Qed.
Print Assumptions C106_report.

(** Whatever the clock says, nothing in it is undefined; when the results are printed in short (-q twice), if no round is shorter than 2^-32 seconds for each call. *)
Theorem C106_defined : forall fuel T g level ticks first, 2 <= T -> 0 <= g < 2 ^ 31 - 1 -> (forall j n, 0 <= ticks j n) -> 1 <= first < 2 ^ 32 ->
  (level < 1 -> forall j n, 0 < n -> T * n < 2 ^ 32 * ticks j n) -> benchRounds fuel T g level ticks first <> UB.
Proof.
  intros fuel T g level ticks first T2 G TK F LV. unfold benchRounds. pose proof (while_sound T g ticks first T2 G TK fuel _ (Sound_start T g ticks first G TK F)) as W.
  destruct (while_ _ _ _ _) as [s| |]; [|contradiction|discriminate]. destruct W as [(_ & _ & _ & _ & _ & _ & (p & q & FH & P & Q & _ & AT) & TI) _]. cbn [bind].
  destruct (Z.ltb_spec level 1) as [L|L]; [|discriminate]. specialize (LV L). rewrite FH.
  assert (X : 0 < p /\ q < 2 ^ 32 * p).
  { destruct AT as [[-> ->]|(n & t & H & _ & N & -> & ->)]; [lia|]. destruct (TI n t H) as (j & ->). specialize (LV j n N). assert (0 < T * n) by nia. lia. }
  unfold inverse. rewrite (proj2 (Z.ltb_lt 0 p)) by lia. unfold to_unsigned. rewrite Z.quot_div_nonneg by lia.
  assert (0 <= q / p) by (apply Z.div_pos; lia). assert (q / p < 2 ^ 32) by (apply Z.div_lt_upper_bound; lia).
  rewrite (proj2 (Z.leb_le 0 _)) by lia. rewrite (proj2 (Z.ltb_lt _ (2 ^ 32))) by lia. discriminate.
Qed.
Print Assumptions C106_defined.

(** It ends, with at most one round too short, if the times of a call differ by no more than a factor of 2 (between p1/q and p2/q ticks) and are not
    below 1 / (2 * 4000 * 2^20) seconds. *)
Theorem C106_ends : forall fuel T g level ticks first p1 p2 q, 2 <= T -> 0 <= g < 2 ^ 31 - 1 -> (forall j n, 0 <= ticks j n) -> 1 <= first < 2 ^ 32 -> 1 <= level ->
  0 < p1 -> p2 <= 2 * p1 -> 0 < q -> q * T <= 2 * p1 * (4000 * 2 ^ 20) -> (forall j n, 0 < n -> p1 * n <= q * ticks j n <= p2 * n) ->
  Z.max 1 g + 1 <= Z.of_nat fuel -> exists l x, benchRounds fuel T g level ticks first = OK (l, x, None) /\ zlen l <= Z.max 1 g + 1.
Proof.
  intros fuel T g level ticks first p1 p2 q T2 G TK F LV P1 P2 Q0 CAP CO FU. unfold benchRounds. rewrite <- (N_max g ticks G TK) in *.
  destruct (while_ends T g ticks first T2 G TK F p1 p2 q P1 P2 Q0 CAP CO fuel FU) as (s & -> & L). cbn [bind]. rewrite (proj2 (Z.ltb_ge level 1)) by lia. cbn [bind]. eauto.
Qed.
Print Assumptions C106_ends.

(** a clock of 10^6 ticks, a hash of 20 microseconds on the sample of 100 KB, -i3: one round too short, then three *)
Example C106_case : cfg_ok b32 /\ firstRound b32 102400 = OK 103 /\
  benchRounds 4 1000000 3 2 (fun _ n => 20 * n) 103 = OK ([(103, 2060); (50001, 1000020); (50001, 1000020); (50001, 1000020)], Fin 1000020 50001000000, None) /\
  benchRounds 4 1000000 0 0 (fun _ n => 20 * n) 103 = OK ([(103, 2060)], Fin 2060 103000000, Some 50000).
Proof. split; [exact b32_ok|]. repeat split. Qed.

(** Without these assumptions all three are false.  A clock that shows no time passing: the loop never ends, and from the 17th round on no hash is
    computed at all, since 100^16 is 0 modulo 2^32. *)
Theorem C106_ends_refuted : exists T g first ticks, 2 <= T /\ 0 <= g < 2 ^ 31 - 1 /\ (forall j n, 0 <= ticks j n) /\ 1 <= first < 2 ^ 32 /\
  (forall fuel level, benchRounds fuel T g level ticks first = NoFuel) /\
  forall s, u32 (Nat.iter 16 (fun n => u32 (n * 100)) s) = 0.
Proof.
  exists 1000000, 3, 103, (fun _ _ => 0). split; [lia|]. split; [lia|]. split; [intros; lia|]. split; [lia|]. split.
  - intros fuel level. unfold benchRounds. rewrite (stuck 1000000 3 fuel); [reflexivity|lia|lia|cbn; lia].
  - intros s. assert (H : forall k s, u32 (Nat.iter k (fun n => u32 (n * 100)) s) = u32 (s * 100 ^ Z.of_nat k)).
    { clear s. induction k as [|k IH]; intros s; [cbn; rewrite Z.mul_1_r; reflexivity|]. change (Nat.iter (S k) _ s) with (u32 (Nat.iter k (fun n => u32 (n * 100)) s * 100)).
      unfold u32 in *. rewrite Z.mod_mod by lia. rewrite <- Z.mul_mod_idemp_l by lia. rewrite IH. rewrite Z.mul_mod_idemp_l by lia. f_equal. rewrite Nat2Z.inj_succ, Z.pow_succ_r by lia. ring. }
    rewrite H. unfold u32. replace (s * 100 ^ Z.of_nat 16) with (s * 25 ^ 16 * 2 ^ 32) by (change (Z.of_nat 16) with 16; change (100 ^ 16) with (25 ^ 16 * 2 ^ 32); ring). apply Z.mod_mul. lia.
Qed.
Print Assumptions C106_ends_refuted.
(** A quick evaluation printed in short (-i0 -q -q) that takes no tick: infinity is converted to unsigned. *)
Theorem C106_defined_refuted : exists ids T first ticks, command false [str "xxhsum"; str "-b1"; str "-i0"; str "-q"; str "-q"] = OK (Bench ids 0 102400 []) /\
  2 <= T /\ (forall j n, 0 <= ticks j n) /\ firstRound b32 102400 = OK first /\ benchRounds 1 T 0 0 ticks first = UB.
Proof. eexists _, 1000, 103, (fun _ _ => 0). split; [vm_compute; reflexivity|]. split; [lia|]. split; [intros; lia|]. split; reflexivity. Qed.
Print Assumptions C106_defined_refuted.
(** -i accepts numbers that are negative as an int; then no round is made, no hash is computed, and the time reported is the initial 10^8 seconds. *)
Theorem C106_report_refuted : exists argv ids g, command false argv = OK (Bench ids g 102400 []) /\ In (str "-i3000000000") argv /\ nth 1 ids 0 = 1 /\
  forall fuel T ticks, benchRounds fuel T g 2 ticks 103 = OK ([], Fin 100000000 1, None).
Proof.
  exists [str "xxhsum"; str "-b1"; str "-i3000000000"]. eexists _, (-1294967296). split; [vm_compute; reflexivity|]. split; [right; right; left; reflexivity|]. split; [reflexivity|].
  intros [|fuel] T ticks; reflexivity.
Qed.
Print Assumptions C106_report_refuted.
