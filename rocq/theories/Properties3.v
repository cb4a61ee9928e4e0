(** Property theorems about the XXH3 streaming API and about histories of API calls
    (C07, C08, C09, C10, C11, C22, C23, C30, C31, C32). *)
From Verif Require Import Base Mem M_XXH32 M_XXH64 M_XXH3 M_Kernels M_Long M_Stream3 Spec32 Spec64 Spec3 P_Base P_Spec P_XXH32 P_XXH64
  P_X3_Base P_X3_Short P_Kernels P_Kernels2 P_X3_Long P_Stream P_Stream3 P_Stream4 History P_History Vectors Vectors3 Properties1 Properties2.

(** the caller's session: reset, updates, digest; any error code stops it *)
Definition session {V} (r : res (errorcode * option state3)) (upd : state3 -> ptr -> Z -> res (errorcode * state3))
    (calls : list (ptr * Z)) (dig : state3 -> res V) : res V :=
  let! (e, o) := r in
  match e, o with XXH_OK, Some st => let! st := feed upd st calls in dig st | _, _ => UB end.

Section Sessions.
Context (c : cfg) (C : cfg_ok c) (st : state3) (calls : list (ptr * Z)) (chunks : list (list Z)) (HC : chunks_ok c 1 calls chunks)
  (T : zlen (concat chunks) < 2 ^ 64).
Let m := concat chunks.
Lemma session64 r s us seed : (exists st', r = OK (XXH_OK, Some st') /\ rep3 c s us seed [] 0 st' /\ s3_adr st' = s3_adr st) ->
  session r (XXH3_64bits_update c) calls (XXH3_64bits_digest c) =
  OK (X3.hash64 (if us then X3.default_secret else s) (if us then seed else 0) s m).
Proof.
  intros (st' & -> & R & _). unfold session. cbn [bind].
  destruct (feed3_rep c s us seed calls chunks C HC [] 0 st' R) as (K & st2 & -> & R2 & _). cbn [bind].
  apply (digest64_ok' c s us seed m K st2 C R2 T).
Qed.
Lemma session128 r s us seed : (exists st', r = OK (XXH_OK, Some st') /\ rep3 c s us seed [] 0 st' /\ s3_adr st' = s3_adr st) ->
  session r (XXH3_128bits_update c) calls (XXH3_128bits_digest c) =
  OK (X3.hash128 (if us then X3.default_secret else s) (if us then seed else 0) s m).
Proof.
  intros (st' & -> & R & _). unfold session. cbn [bind].
  destruct (feed3_rep c s us seed calls chunks C HC [] 0 st' R) as (K & st2 & E & R2 & _).
  change (feed (XXH3_128bits_update c)) with (feed (XXH3_64bits_update c)). rewrite E. cbn [bind].
  apply (digest128_ok' c s us seed m K st2 C R2 T).
Qed.
End Sessions.
Lemma derive_00 : X3.deriveSecret 0 = X3.default_secret.
Proof. rewrite derive_0. apply kSecret_default. Qed.
Lemma created_raw st : created3 st -> raw3 st.
Proof. intros []. constructor; trivial. Qed.
Lemma created_cache st : created3 st -> cache3 st.
Proof. intros [A B1 B2 CU S E] _ N. congruence. Qed.

(** C07, C08: each reset mode, any split.  The state may hold anything left by an earlier use, except for
    reset_withSeed, which trusts a cache (see C11) and is stated here for a state just created. *)
Theorem C07_xxh3_64_stream : forall c st calls chunks p m,
  cfg_ok c -> raw3 st -> chunks_ok c 1 calls chunks -> m = concat chunks -> zlen m < 2 ^ 64 -> points_to p m -> bytes_ok m ->
  session (XXH3_64bits_reset c (Some st)) (XXH3_64bits_update c) calls (XXH3_64bits_digest c) = OK (X3.XXH3_64 m) /\
  session (XXH3_64bits_reset c (Some st)) (XXH3_64bits_update c) calls (XXH3_64bits_digest c) = XXH3_64bits c p (zlen m).
Proof.
  intros c st calls chunks p m C RW HC -> T P B. rewrite C03_xxh3_64_equals_spec by trivial.
  rewrite (session64 c C st calls chunks HC T _ _ _ _ (reset_rep c st C RW)). split; reflexivity.
Qed.
Print Assumptions C07_xxh3_64_stream.
Theorem C07_xxh3_64_withSeed_stream : forall c st seed calls chunks p m,
  cfg_ok c -> created3 st -> 0 <= seed < 2 ^ 64 -> chunks_ok c 1 calls chunks -> m = concat chunks -> zlen m < 2 ^ 64 -> points_to p m -> bytes_ok m ->
  session (XXH3_64bits_reset_withSeed c (Some st) seed) (XXH3_64bits_update c) calls (XXH3_64bits_digest c) = OK (X3.XXH3_64_withSeed seed m) /\
  session (XXH3_64bits_reset_withSeed c (Some st) seed) (XXH3_64bits_update c) calls (XXH3_64bits_digest c) = XXH3_64bits_withSeed c p (zlen m) seed.
Proof.
  intros c st seed calls chunks p m C RW W HC -> T P B. rewrite C03_xxh3_64_withSeed_equals_spec by trivial.
  destruct (Z.eq_dec seed 0) as [->|N].
  - change (XXH3_64bits_reset_withSeed c (Some st) 0) with (XXH3_64bits_reset c (Some st)).
    rewrite (session64 c C st calls chunks HC T _ _ _ _ (reset_rep c st C (created_raw st RW))).
    unfold X3.XXH3_64_withSeed. rewrite derive_00. split; reflexivity.
  - rewrite (session64 c C st calls chunks HC T _ _ _ _ (reset_withSeed_rep c st C (created_raw st RW) seed (created_cache st RW) W N)).
    split; reflexivity.
Qed.
Print Assumptions C07_xxh3_64_withSeed_stream.
Theorem C07_xxh3_64_withSecret_stream : forall c st ps s calls chunks p m,
  cfg_ok c -> raw3 st -> points_to ps s -> bytes_ok s -> 136 <= zlen s -> zlen s < 2 ^ szbits c ->
  chunks_ok c 1 calls chunks -> m = concat chunks -> zlen m < 2 ^ 64 -> points_to p m -> bytes_ok m ->
  session (XXH3_64bits_reset_withSecret c (Some st) ps (zlen s)) (XXH3_64bits_update c) calls (XXH3_64bits_digest c) = OK (X3.XXH3_64_withSecret s m) /\
  ((240 < zlen m -> 8 * (zlen s - 64) < 2 ^ szbits c) ->
   session (XXH3_64bits_reset_withSecret c (Some st) ps (zlen s)) (XXH3_64bits_update c) calls (XXH3_64bits_digest c) = XXH3_64bits_withSecret c p (zlen m) ps (zlen s)).
Proof.
  intros c st ps s calls chunks p m C RW PS BS S1 S2 HC -> T P B. assert (SO : secret_fits c s) by (repeat split; trivial).
  rewrite (session64 c C st calls chunks HC T _ _ _ _ (reset_withSecret_rep c st C RW ps s PS SO)). split; [reflexivity|].
  intros FIT. rewrite (C03_xxh3_64_withSecret_equals_spec c p _ ps s) by trivial. reflexivity.
Qed.
Print Assumptions C07_xxh3_64_withSecret_stream.
Theorem C07_xxh3_64_withSecretandSeed_stream : forall c st ps s seed calls chunks p m,
  cfg_ok c -> raw3 st -> points_to ps s -> bytes_ok s -> 136 <= zlen s -> zlen s < 2 ^ szbits c -> 0 <= seed < 2 ^ 64 ->
  chunks_ok c 1 calls chunks -> m = concat chunks -> zlen m < 2 ^ 64 -> points_to p m -> bytes_ok m ->
  session (XXH3_64bits_reset_withSecretandSeed c (Some st) ps (zlen s) seed) (XXH3_64bits_update c) calls (XXH3_64bits_digest c) =
    OK (X3.XXH3_64_withSecretandSeed s seed m) /\
  ((240 < zlen m -> 8 * (zlen s - 64) < 2 ^ szbits c) ->
   session (XXH3_64bits_reset_withSecretandSeed c (Some st) ps (zlen s) seed) (XXH3_64bits_update c) calls (XXH3_64bits_digest c) =
    XXH3_64bits_withSecretandSeed c p (zlen m) ps (zlen s) seed).
Proof.
  intros c st ps s seed calls chunks p m C RW PS BS S1 S2 W HC -> T P B. assert (SO : secret_fits c s) by (repeat split; trivial).
  rewrite (session64 c C st calls chunks HC T _ _ _ _ (reset_withSecretandSeed_rep c st C RW ps s seed PS SO W)). split; [reflexivity|].
  intros FIT. rewrite (C03_xxh3_64_withSecretandSeed_equals_spec c p _ ps s) by trivial. reflexivity.
Qed.
Print Assumptions C07_xxh3_64_withSecretandSeed_stream.

Theorem C08_xxh3_128_stream : forall c st calls chunks p m,
  cfg_ok c -> raw3 st -> chunks_ok c 1 calls chunks -> m = concat chunks -> zlen m < 2 ^ 64 -> points_to p m -> bytes_ok m ->
  session (XXH3_128bits_reset c (Some st)) (XXH3_128bits_update c) calls (XXH3_128bits_digest c) = OK (X3.XXH3_128 m) /\
  session (XXH3_128bits_reset c (Some st)) (XXH3_128bits_update c) calls (XXH3_128bits_digest c) = XXH3_128bits c p (zlen m).
Proof.
  intros c st calls chunks p m C RW HC -> T P B. rewrite C04_xxh3_128_equals_spec by trivial.
  rewrite (session128 c C st calls chunks HC T (XXH3_128bits_reset c (Some st)) _ _ _ (reset_rep c st C RW)). split; reflexivity.
Qed.
Print Assumptions C08_xxh3_128_stream.
Theorem C08_xxh3_128_withSeed_stream : forall c st seed calls chunks p m,
  cfg_ok c -> created3 st -> 0 <= seed < 2 ^ 64 -> chunks_ok c 1 calls chunks -> m = concat chunks -> zlen m < 2 ^ 64 -> points_to p m -> bytes_ok m ->
  session (XXH3_128bits_reset_withSeed c (Some st) seed) (XXH3_128bits_update c) calls (XXH3_128bits_digest c) = OK (X3.XXH3_128_withSeed seed m) /\
  session (XXH3_128bits_reset_withSeed c (Some st) seed) (XXH3_128bits_update c) calls (XXH3_128bits_digest c) = XXH3_128bits_withSeed c p (zlen m) seed.
Proof.
  intros c st seed calls chunks p m C RW W HC -> T P B. destruct (C04_xxh3_128_withSeed_equals_spec c p (concat chunks) seed C P B W) as [-> _].
  unfold XXH3_128bits_reset_withSeed. destruct (Z.eq_dec seed 0) as [->|N].
  - change (XXH3_64bits_reset_withSeed c (Some st) 0) with (XXH3_64bits_reset c (Some st)).
    rewrite (session128 c C st calls chunks HC T _ _ _ _ (reset_rep c st C (created_raw st RW))).
    unfold X3.XXH3_128_withSeed. rewrite derive_00. split; reflexivity.
  - rewrite (session128 c C st calls chunks HC T _ _ _ _ (reset_withSeed_rep c st C (created_raw st RW) seed (created_cache st RW) W N)).
    split; reflexivity.
Qed.
Print Assumptions C08_xxh3_128_withSeed_stream.
Theorem C08_xxh3_128_withSecret_stream : forall c st ps s calls chunks p m,
  cfg_ok c -> raw3 st -> points_to ps s -> bytes_ok s -> 136 <= zlen s -> zlen s < 2 ^ szbits c ->
  chunks_ok c 1 calls chunks -> m = concat chunks -> zlen m < 2 ^ 64 -> points_to p m -> bytes_ok m ->
  session (XXH3_128bits_reset_withSecret c (Some st) ps (zlen s)) (XXH3_128bits_update c) calls (XXH3_128bits_digest c) = OK (X3.XXH3_128_withSecret s m) /\
  ((240 < zlen m -> 8 * (zlen s - 64) < 2 ^ szbits c) ->
   session (XXH3_128bits_reset_withSecret c (Some st) ps (zlen s)) (XXH3_128bits_update c) calls (XXH3_128bits_digest c) = XXH3_128bits_withSecret c p (zlen m) ps (zlen s)).
Proof.
  intros c st ps s calls chunks p m C RW PS BS S1 S2 HC -> T P B. assert (SO : secret_fits c s) by (repeat split; trivial).
  rewrite (session128 c C st calls chunks HC T (XXH3_128bits_reset_withSecret c (Some st) ps (zlen s)) _ _ _ (reset_withSecret_rep c st C RW ps s PS SO)). split; [reflexivity|].
  intros FIT. rewrite (C04_xxh3_128_withSecret_equals_spec c p _ ps s) by trivial. reflexivity.
Qed.
Print Assumptions C08_xxh3_128_withSecret_stream.
Theorem C08_xxh3_128_withSecretandSeed_stream : forall c st ps s seed calls chunks p m,
  cfg_ok c -> raw3 st -> points_to ps s -> bytes_ok s -> 136 <= zlen s -> zlen s < 2 ^ szbits c -> 0 <= seed < 2 ^ 64 ->
  chunks_ok c 1 calls chunks -> m = concat chunks -> zlen m < 2 ^ 64 -> points_to p m -> bytes_ok m ->
  session (XXH3_128bits_reset_withSecretandSeed c (Some st) ps (zlen s) seed) (XXH3_128bits_update c) calls (XXH3_128bits_digest c) =
    OK (X3.XXH3_128_withSecretandSeed s seed m) /\
  ((240 < zlen m -> 8 * (zlen s - 64) < 2 ^ szbits c) ->
   session (XXH3_128bits_reset_withSecretandSeed c (Some st) ps (zlen s) seed) (XXH3_128bits_update c) calls (XXH3_128bits_digest c) =
    XXH3_128bits_withSecretandSeed c p (zlen m) ps (zlen s) seed).
Proof.
  intros c st ps s seed calls chunks p m C RW PS BS S1 S2 W HC -> T P B. assert (SO : secret_fits c s) by (repeat split; trivial).
  rewrite (session128 c C st calls chunks HC T (XXH3_128bits_reset_withSecretandSeed c (Some st) ps (zlen s) seed) _ _ _ (reset_withSecretandSeed_rep c st C RW ps s seed PS SO W)). split; [reflexivity|].
  intros FIT. rewrite (C04_xxh3_128_withSecretandSeed_equals_spec c p _ ps s) by trivial. reflexivity.
Qed.
Print Assumptions C08_xxh3_128_withSecretandSeed_stream.

(** C09: a stream of updates with digests taken before the first and after each update.
    [digests] are all the values seen; digest functions get the state by value (const in C) *)
Fixpoint watch {St V} (upd : St -> ptr -> Z -> res (errorcode * St)) (dig : St -> res V) (st : St) (calls : list (ptr * Z)) : res (list V) :=
  let! v := dig st in
  match calls with
  | [] => OK [v]
  | (p, n) :: r =>
      let! (e, st) := upd st p n in
      match e with XXH_OK => let! l := watch upd dig st r in OK (v :: l) | XXH_ERROR => UB end
  end.
(** all prefixes of the stream: m, m ++ chunk 1, m ++ chunk 1 ++ chunk 2, ... *)
Fixpoint prefixes (m : list Z) (chunks : list (list Z)) : list (list Z) :=
  m :: match chunks with [] => [] | d :: r => prefixes (m ++ d) r end.
Theorem C09_xxh32_intermediate_digests : forall c seed calls chunks,
  cfg_ok c -> chunks_ok c 16 calls chunks ->
  watch (XXH32_update c) (XXH32_digest c) (XXH32_reset seed) calls = OK (map (fun m => X32.hash m seed) (prefixes [] chunks)).
Proof.
  intros c seed calls chunks C H. generalize (reset32_rep seed). generalize (XXH32_reset seed), (@nil Z).
  induction H as [|[p n] d calls chunks (P & E & B & S) _ IH]; intros st m R; cbn [watch prefixes map].
  - rewrite (digest32_ok c seed m st) by trivial. reflexivity.
  - rewrite (digest32_ok c seed m st) by trivial. cbn [fst snd bind] in *. subst n.
    destruct (update32_ok c seed m st p d C R P B S) as (st' & -> & R'). cbn [bind]. rewrite (IH _ _ R'). reflexivity.
Qed.
Print Assumptions C09_xxh32_intermediate_digests.
Lemma zlen_app_le {A} (a b : list A) : zlen a <= zlen (a ++ b).
Proof. rewrite zlen_app. pose proof (zlen_nonneg b). lia. Qed.
Theorem C09_xxh64_intermediate_digests : forall c seed calls chunks,
  cfg_ok c -> chunks_ok c 32 calls chunks -> zlen (concat chunks) < 2 ^ 64 ->
  watch (XXH64_update c) (XXH64_digest c) (XXH64_reset seed) calls = OK (map (fun m => X64.hash m seed) (prefixes [] chunks)).
Proof.
  intros c seed calls chunks C H. change (concat chunks) with ([] ++ concat chunks).
  generalize (reset64_rep seed). generalize (XXH64_reset seed), (@nil Z).
  induction H as [|[p n] d calls chunks (P & E & B & S) _ IH]; intros st m R T; cbn [watch prefixes map concat] in *.
  - rewrite app_nil_r in T. rewrite (digest64_ok c seed m st) by trivial. reflexivity.
  - pose proof (zlen_app_le m (d ++ concat chunks)). rewrite (digest64_ok c seed m st) by (trivial; lia). cbn [fst snd bind] in *. subst n.
    destruct (update64_ok c seed m st p d C R P B S) as (st' & -> & R'). cbn [bind].
    rewrite app_assoc in T. rewrite (IH _ _ R' T). reflexivity.
Qed.
Print Assumptions C09_xxh64_intermediate_digests.
(** XXH3: both widths are digested at every point of the same stream, for every reset mode *)
Theorem C09_xxh3_intermediate_digests : forall c st w arg P calls chunks,
  cfg_ok c -> created3 st -> arg3_ok c (w, arg) -> snd (sreset3 (w, arg) None) = Some (P, []) ->
  chunks_ok c 1 calls chunks -> zlen (concat chunks) < 2 ^ 64 ->
  (let! (_, st) := do_reset3 c (w, arg) st in
   watch (XXH3_64bits_update c) (fun st => let! a := XXH3_64bits_digest c st in let! b := XXH3_128bits_digest c st in OK (V64 a, V128 b)) st calls) =
  OK (map (fun m => (sdigest3 W64 P m, sdigest3 W128 P m)) (prefixes [] chunks)).
Proof.
  intros c st w arg P calls chunks C CR A E HC T.
  destruct (reset3_ok c (w, arg) st None C A (created_R3 c st CR)) as (st' & -> & R). rewrite E in R. cbn [bind].
  clear - C HC T R. revert R T. change (concat chunks) with ([] ++ concat chunks). generalize st', (@nil Z). clear st'.
  assert (D : forall st m, R3 c (Some (P, m)) st -> zlen m < 2 ^ 64 ->
    (let! a := XXH3_64bits_digest c st in let! b := XXH3_128bits_digest c st in OK (V64 a, V128 b)) = OK (sdigest3 W64 P m, sdigest3 W128 P m)).
  { intros st m (_ & _ & s & us & seed & K & L & Rp) T.
    pose proof (link_digest c W64 P m s us seed K st C L Rp T) as E1. pose proof (link_digest c W128 P m s us seed K st C L Rp T) as E2.
    unfold do_digest3 in *. destruct (XXH3_64bits_digest c st); try discriminate. destruct (XXH3_128bits_digest c st); try discriminate.
    cbn [bind] in *. congruence. }
  induction HC as [|[p n] d calls chunks (PP & En & B & S) _ IH]; intros st m R T; cbn [watch prefixes map concat] in *.
  - rewrite app_nil_r in T. rewrite (D st m) by trivial. reflexivity.
  - pose proof (zlen_app_le m (d ++ concat chunks)). rewrite (D st m) by (trivial; lia). cbn [fst snd bind] in *. subst n.
    destruct (update3_R c P m st p d C R PP B ltac:(lia)) as (st2 & -> & R'). cbn [bind].
    rewrite app_assoc in T. rewrite (IH _ _ R' T). reflexivity.
Qed.
Print Assumptions C09_xxh3_intermediate_digests.

(** C10 *)
Theorem C10_xxh32_history : forall c w ops, cfg_ok c -> valid32 c (fun _ => None) ops ->
  run32 c w ops = OK (srun32 (fun _ => None) ops).
Proof. exact history32. Qed.
Print Assumptions C10_xxh32_history.
Theorem C10_xxh64_history : forall c w ops, cfg_ok c -> valid64 c (fun _ => None) ops ->
  run64 c w ops = OK (srun64 (fun _ => None) ops).
Proof. exact history64. Qed.
Print Assumptions C10_xxh64_history.
Theorem C10_xxh3_history : forall c w ops, cfg_ok c -> (forall h, created3 (w h)) -> valid3 c (fun _ => None) ops ->
  run3 c w ops = OK (srun3 (fun _ => None) ops).
Proof. exact history3. Qed.
Print Assumptions C10_xxh3_history.
(** no interference: what is done with other objects does not change what is seen of object [h] *)
Definition touches {A K} (h : nat) (o : op A K) : bool :=
  match o with OpReset k _ | OpUpdate k _ _ | OpDigest k _ => Nat.eqb k h | OpCopy d _ => Nat.eqb d h end.
Lemma srun_no_interference {Arg Kind Val Par} (sreset : Arg -> obj Par -> errorcode * obj Par) (sdigest : Kind -> Par -> list Z -> Val) ao lo tt ops1 ops2 h k :
  Forall (fun o => touches h o = false) ops2 -> forall a,
  valid sreset ao lo tt a (ops1 ++ [OpDigest h k]) -> valid sreset ao lo tt a (ops1 ++ ops2 ++ [OpDigest h k]) ->
  exists l1 l2 v, srun sreset sdigest a (ops1 ++ [OpDigest h k]) = l1 ++ [Digest v] /\
                  srun sreset sdigest a (ops1 ++ ops2 ++ [OpDigest h k]) = l1 ++ l2 ++ [Digest v].
Proof.
  intros F. induction ops1 as [|o ops1 IH]; intros a V1 V2.
  - cbn [app valid srun] in *. destruct (a h) as [[P m]|] eqn:E; [|contradiction]. clear V1.
    enough (G : exists l2, srun sreset sdigest a (ops2 ++ [OpDigest h k]) = l2 ++ [Digest (sdigest k P m)]).
    { destruct G as (l2 & ->). exists [], l2, (sdigest k P m). split; reflexivity. }
    revert a E V2. induction F as [|o ops2 N F IH2]; intros a E V.
    + exists []. cbn [app srun dig1]. rewrite E. reflexivity.
    + assert (S : forall j (v : obj Par), Nat.eqb j h = false -> set a j v h = Some (P, m)).
      { intros j v Nj. unfold set. rewrite Nat.eqb_sym, Nj. exact E. }
      destruct o as [j x|j p d|j kk|dst src]; cbn [touches] in N; cbn [app valid srun] in *.
      * destruct V as [_ V]. destruct (IH2 _ (S _ _ N) V) as (l2 & ->). eexists (_ :: l2). reflexivity.
      * destruct V as (_ & _ & _ & _ & V). destruct (IH2 _ (S _ _ N) V) as (l2 & ->). eexists (_ :: l2). reflexivity.
      * destruct (a j) as [[Pj mj]|]; [|contradiction]. destruct V as [_ V]. destruct (IH2 _ E V) as (l2 & ->). eexists (_ :: l2). reflexivity.
      * apply IH2; auto.
  - destruct o as [j x|j p d|j kk|dst src]; cbn [app valid srun] in *.
    + destruct V1 as [_ V1], V2 as [_ V2]. destruct (IH _ V1 V2) as (l1 & l2 & v & -> & ->). eexists (_ :: l1), l2, v. split; reflexivity.
    + destruct V1 as (_ & _ & _ & _ & V1), V2 as (_ & _ & _ & _ & V2). destruct (IH _ V1 V2) as (l1 & l2 & v & -> & ->).
      eexists (_ :: l1), l2, v. split; reflexivity.
    + destruct (a j) as [[Pj mj]|]; [|contradiction]. destruct V1 as [_ V1], V2 as [_ V2].
      destruct (IH _ V1 V2) as (l1 & l2 & v & -> & ->). eexists (_ :: l1), l2, v. split; reflexivity.
    + destruct (IH _ V1 V2) as (l1 & l2 & v & -> & ->). exists l1, l2, v. split; reflexivity.
Qed.
Theorem C10_xxh32_no_interference : forall c w ops1 ops2 h, cfg_ok c ->
  Forall (fun o => touches h o = false) ops2 ->
  valid32 c (fun _ => None) (ops1 ++ [OpDigest h tt]) -> valid32 c (fun _ => None) (ops1 ++ ops2 ++ [OpDigest h tt]) ->
  exists l1 l2 v, run32 c w (ops1 ++ [OpDigest h tt]) = OK (l1 ++ [Digest v]) /\
                  run32 c w (ops1 ++ ops2 ++ [OpDigest h tt]) = OK (l1 ++ l2 ++ [Digest v]).
Proof.
  intros c w ops1 ops2 h C F V1 V2. rewrite !history32 by trivial.
  destruct (srun_no_interference _ (fun (_ : unit) seed m => X32.hash m seed) _ _ _ ops1 ops2 h tt F _ V1 V2) as (l1 & l2 & v & E1 & E2).
  exists l1, l2, v. unfold srun32. rewrite E1, E2. split; reflexivity.
Qed.
Print Assumptions C10_xxh32_no_interference.
Theorem C10_xxh64_no_interference : forall c w ops1 ops2 h, cfg_ok c ->
  Forall (fun o => touches h o = false) ops2 ->
  valid64 c (fun _ => None) (ops1 ++ [OpDigest h tt]) -> valid64 c (fun _ => None) (ops1 ++ ops2 ++ [OpDigest h tt]) ->
  exists l1 l2 v, run64 c w (ops1 ++ [OpDigest h tt]) = OK (l1 ++ [Digest v]) /\
                  run64 c w (ops1 ++ ops2 ++ [OpDigest h tt]) = OK (l1 ++ l2 ++ [Digest v]).
Proof.
  intros c w ops1 ops2 h C F V1 V2. rewrite !history64 by trivial.
  destruct (srun_no_interference _ (fun (_ : unit) seed m => X64.hash m seed) _ _ _ ops1 ops2 h tt F _ V1 V2) as (l1 & l2 & v & E1 & E2).
  exists l1, l2, v. unfold srun64. rewrite E1, E2. split; reflexivity.
Qed.
Print Assumptions C10_xxh64_no_interference.
Theorem C10_xxh3_no_interference : forall c w ops1 ops2 h k, cfg_ok c -> (forall h, created3 (w h)) ->
  Forall (fun o => touches h o = false) ops2 ->
  valid3 c (fun _ => None) (ops1 ++ [OpDigest h k]) -> valid3 c (fun _ => None) (ops1 ++ ops2 ++ [OpDigest h k]) ->
  exists l1 l2 v, run3 c w (ops1 ++ [OpDigest h k]) = OK (l1 ++ [Digest v]) /\
                  run3 c w (ops1 ++ ops2 ++ [OpDigest h k]) = OK (l1 ++ l2 ++ [Digest v]).
Proof.
  intros c w ops1 ops2 h k C CR F V1 V2. rewrite !history3 by trivial.
  destruct (srun_no_interference sreset3 sdigest3 _ _ _ ops1 ops2 h k F _ V1 V2) as (l1 & l2 & v & E1 & E2).
  exists l1, l2, v. unfold srun3. rewrite E1, E2. split; reflexivity.
Qed.
Print Assumptions C10_xxh3_no_interference.

(** C11: whatever was done before (any valid history over all objects, failing resets included), what
    happens from a reset on is what happens on fresh objects *)
Theorem C11_state_reuse : forall c w w0 before arg ops h, cfg_ok c ->
  (forall k, created3 (w k)) -> (forall k, created3 (w0 k)) ->
  valid3 c (fun _ => None) before -> arg3_ok c arg -> fst (sreset3 arg None) = XXH_OK ->
  Forall (fun o => match o with OpReset k _ | OpUpdate k _ _ | OpDigest k _ => k = h | OpCopy _ _ => False end) ops ->
  valid3 c (fun _ => None) (OpReset h arg :: ops) ->
  exists seen l, run3 c w0 (OpReset h arg :: ops) = OK l /\ run3 c w (before ++ OpReset h arg :: ops) = OK (seen ++ l).
Proof.
  intros c w w0 before arg ops h C CR CR0 VB A E F V.
  assert (IND : forall ops a1 a2, Forall (fun o : op (width * reset3) width => match o with OpReset k _ | OpUpdate k _ _ | OpDigest k _ => k = h | OpCopy _ _ => False end) ops ->
     a1 h = a2 h -> valid3 c a1 ops -> valid3 c a2 ops /\ srun3 a1 ops = srun3 a2 ops).
  { assert (S : forall (a1 a2 : nat -> option (par3 * list Z)) v, set a1 h v h = set a2 h v h) by (intros; unfold set; rewrite Nat.eqb_refl; reflexivity).
    clear - S. unfold valid3, srun3. induction ops as [|o ops IH]; intros a1 a2 F E V; [split; [exact I|reflexivity]|].
    inversion F as [|? ? F1 F2]; subst. destruct o as [j x|j p d|j kk|dst src]; cbn [valid srun] in *; [subst j..|contradiction].
    - destruct V as [V1 V]. rewrite E in *. destruct (IH _ (set a2 h (snd (sreset3 x (a2 h)))) F2 (S _ _ _) V) as [V' ->]. auto.
    - destruct V as (V1 & V2 & V3 & V4 & V). rewrite E in *. destruct (IH _ (set a2 h (feed1 (a2 h) d)) F2 (S _ _ _) V) as [V' ->]. repeat split; auto.
    - rewrite E in *. destruct (a2 h) as [[P m]|] eqn:E2; [|contradiction]. destruct V as [V1 V].
      destruct (IH a1 a2 F2 ltac:(congruence) V) as [V' ->]. auto. }
  rewrite (history3 c w0) by trivial.
  enough (G : forall a, valid3 c a before -> valid3 c a (before ++ OpReset h arg :: ops) /\
            exists seen, srun3 a (before ++ OpReset h arg :: ops) = seen ++ srun3 (fun _ => None) (OpReset h arg :: ops)).
  { destruct (G _ VB) as [V2 [seen E2]]. exists seen. eexists. split; [reflexivity|]. rewrite history3 by trivial. rewrite E2. reflexivity. }
  clear VB. induction before as [|o before IH]; intros a VB.
  - cbn [app]. destruct V as [_ V].
    assert (Q : snd (sreset3 arg (a h)) = snd (sreset3 arg None) /\ fst (sreset3 arg (a h)) = fst (sreset3 arg None)).
    { unfold sreset3 in *. destruct (snd arg); auto. discriminate. }
    destruct Q as [Q1 Q2].
    destruct (IND ops (set (fun _ => None) h (snd (sreset3 arg None))) (set a h (snd (sreset3 arg (a h)))) F) as [V' E']; trivial.
    { unfold set. rewrite Nat.eqb_refl. auto. }
    split; [split; assumption|]. exists []. unfold srun3 in *. cbn [app srun]. rewrite E', Q2. reflexivity.
  - unfold valid3, srun3 in *. destruct o as [j x|j p d|j kk|dst src]; cbn [app valid srun] in *.
    + destruct VB as [V1 VB]. destruct (IH _ VB) as [V2 [seen ->]]. split; [auto|]. eexists (_ :: seen). reflexivity.
    + destruct VB as (V1 & V2 & V3 & V4 & VB). destruct (IH _ VB) as [V5 [seen ->]]. split; [auto|]. eexists (_ :: seen). reflexivity.
    + destruct (a j) as [[P m]|]; [|contradiction]. destruct VB as [V1 VB]. destruct (IH _ VB) as [V2 [seen ->]]. split; [auto|]. eexists (_ :: seen). reflexivity.
    + destruct (IH _ VB) as [V2 [seen ->]]. split; [auto|]. exists seen. reflexivity.
Qed.
Print Assumptions C11_state_reuse.

(** without XXH3_INITSTATE the cache of reset_withSeed cannot be trusted: a state whose memory happens to
    hold the right seed and a NULL external secret is hashed with whatever lies in customSecret *)
Definition dirty : state3 := State3 0 (repeat 0 8) (repeat 0 192) (repeat 0 256) 0 0 0 0 0 0 5 Null.
Theorem C11_without_INITSTATE_refuted : exists c st seed p m, cfg_ok c /\ raw3 st /\ 0 <= seed < 2 ^ 64 /\ points_to p m /\ bytes_ok m /\
  exists v, session (XXH3_64bits_reset_withSeed c (Some st) seed) (XXH3_64bits_update c) [(p, zlen m)] (XXH3_64bits_digest c) = OK v /\
            v <> X3.XXH3_64_withSeed seed m.
Proof.
  exists c1, dirty, 5, (Ptr (pre 241) 0 0), (pre 241).
  split; [constructor; cbn; auto; try lia; discriminate|].
  split; [constructor; try (vm_compute; reflexivity); apply Forall_forall; intros x Hx; apply repeat_spec in Hx; subst x; split; [apply Z.leb_le|apply Z.ltb_lt]; reflexivity|].
  split; [lia|]. split; [apply points_to_buf|].
  split; [vm_compute; repeat constructor; discriminate|].
  eexists. split; [vm_compute; reflexivity|]. vm_compute. discriminate.
Qed.
Print Assumptions C11_without_INITSTATE_refuted.

(** C22 *)
Theorem C22_withSecretandSeed_split : forall c p m ps s seed,
  cfg_ok c -> points_to p m -> bytes_ok m -> points_to ps s -> bytes_ok s -> 136 <= zlen s -> (240 < zlen m -> 8 * (zlen s - 64) < 2 ^ szbits c) -> 0 <= seed < 2 ^ 64 ->
  (zlen m <= 240 ->
     XXH3_64bits_withSecretandSeed c p (zlen m) ps (zlen s) seed = XXH3_64bits_withSeed c p (zlen m) seed /\
     XXH3_128bits_withSecretandSeed c p (zlen m) ps (zlen s) seed = XXH3_128bits_withSeed c p (zlen m) seed) /\
  (240 < zlen m ->
     XXH3_64bits_withSecretandSeed c p (zlen m) ps (zlen s) seed = XXH3_64bits_withSecret c p (zlen m) ps (zlen s) /\
     XXH3_128bits_withSecretandSeed c p (zlen m) ps (zlen s) seed = XXH3_128bits_withSecret c p (zlen m) ps (zlen s)).
Proof.
  intros c p m ps s seed C P B PS BS S1 S2 W.
  rewrite C03_xxh3_64_withSeed_equals_spec, C03_xxh3_64_withSecret_equals_spec, C03_xxh3_64_withSecretandSeed_equals_spec,
    C04_xxh3_128_withSecret_equals_spec, C04_xxh3_128_withSecretandSeed_equals_spec by assumption.
  destruct (C04_xxh3_128_withSeed_equals_spec c p m seed C P B W) as [-> _].
  unfold X3.XXH3_64_withSeed, X3.XXH3_64_withSecret, X3.XXH3_64_withSecretandSeed, X3.XXH3_128_withSeed, X3.XXH3_128_withSecret,
    X3.XXH3_128_withSecretandSeed, X3.hash64, X3.hash128. change (len m) with (zlen m).
  split; intros H; (destruct (Z.leb_spec (zlen m) 240); [|try lia]); try lia; split; reflexivity.
Qed.
Print Assumptions C22_withSecretandSeed_split.
(** the boundary written in the header for the one-shot functions (xxhash.h:1940-1941: "< 240" seed, ">= 240" secret)
    is wrong at 240 itself *)
Theorem C22_header_boundary_refuted : exists c p m ps s seed v,
  cfg_ok c /\ points_to p m /\ bytes_ok m /\ points_to ps s /\ bytes_ok s /\ 136 <= zlen s /\ 8 * (zlen s - 64) < 2 ^ szbits c /\ 0 <= seed < 2 ^ 64 /\
  zlen m = 240 /\ XXH3_64bits_withSecret c p (zlen m) ps (zlen s) = OK v /\
  XXH3_64bits_withSecretandSeed c p (zlen m) ps (zlen s) seed <> OK v.
Proof.
  exists c1, (Ptr (pre 240) 0 0), (pre 240), (Ptr (pre 136) 0 0), (pre 136), 1. eexists.
  split; [constructor; cbn; auto; try lia; discriminate|].
  split; [apply points_to_buf|]. split; [vm_compute; repeat constructor; discriminate|].
  split; [apply points_to_buf|]. split; [vm_compute; repeat constructor; discriminate|].
  split; [vm_compute; discriminate|]. split; [vm_compute; reflexivity|]. split; [lia|]. split; [reflexivity|].
  split; [vm_compute; reflexivity|]. vm_compute. discriminate.
Qed.
Print Assumptions C22_header_boundary_refuted.

(** C23 *)
Theorem C23_seed_zero_oneshot : forall c p m seed, cfg_ok c -> points_to p m -> bytes_ok m -> 0 <= seed < 2 ^ 64 ->
  XXH3_64bits_withSeed c p (zlen m) 0 = XXH3_64bits c p (zlen m) /\
  XXH3_128bits_withSeed c p (zlen m) 0 = XXH3_128bits c p (zlen m) /\
  XXH128 c p (zlen m) seed = XXH3_128bits_withSeed c p (zlen m) seed.
Proof.
  intros c p m seed C P B W. rewrite C03_xxh3_64_equals_spec, C03_xxh3_64_withSeed_equals_spec, C04_xxh3_128_equals_spec by (trivial; lia).
  destruct (C04_xxh3_128_withSeed_equals_spec c p m 0 C P B ltac:(lia)) as [-> _].
  unfold X3.XXH3_64_withSeed, X3.XXH3_128_withSeed, X3.XXH3_64, X3.XXH3_128. rewrite derive_00. repeat split; reflexivity.
Qed.
Print Assumptions C23_seed_zero_oneshot.
Theorem C23_seed_zero_stream : forall c st calls chunks, cfg_ok c -> raw3 st -> chunks_ok c 1 calls chunks -> zlen (concat chunks) < 2 ^ 64 ->
  session (XXH3_64bits_reset_withSeed c (Some st) 0) (XXH3_64bits_update c) calls (XXH3_64bits_digest c) = OK (X3.XXH3_64 (concat chunks)) /\
  session (XXH3_128bits_reset_withSeed c (Some st) 0) (XXH3_128bits_update c) calls (XXH3_128bits_digest c) = OK (X3.XXH3_128 (concat chunks)).
Proof.
  intros c st calls chunks C RW HC T. unfold XXH3_128bits_reset_withSeed.
  change (XXH3_64bits_reset_withSeed c (Some st) 0) with (XXH3_64bits_reset c (Some st)).
  rewrite (session64 c C st calls chunks HC T _ _ _ _ (reset_rep c st C RW)), (session128 c C st calls chunks HC T _ _ _ _ (reset_rep c st C RW)).
  split; reflexivity.
Qed.
Print Assumptions C23_seed_zero_stream.

(** C30 is false: a secret below 136 bytes violates XXH_ASSERT (undefined behaviour in a release build) before
    any check, whatever the state and the pointer *)
Theorem C30_short_secret_is_undefined : forall c st p n, n < 136 ->
  XXH3_64bits_reset_withSecret c (Some st) p n = UB /\ XXH3_128bits_reset_withSecret c (Some st) p n = UB.
Proof.
  intros c st p n H. unfold XXH3_128bits_reset_withSecret, XXH3_64bits_reset_withSecret, XXH3_reset_internal, SECRET_SIZE_MIN.
  replace (136 <=? n) with false by lia. split; reflexivity.
Qed.
Print Assumptions C30_short_secret_is_undefined.
Theorem C30_short_secret_error_refuted : exists c st p s, cfg_ok c /\ created3 st /\ points_to p s /\ bytes_ok s /\ zlen s = 135 /\
  forall e o, XXH3_64bits_reset_withSecret c (Some st) p (zlen s) <> OK (e, o).
Proof.
  exists c1, (State3 0 [] (repeat 170 192) (repeat 170 256) 0 0 0 0 0 0 0 Null), (Ptr (pre 135) 0 0), (pre 135).
  split; [constructor; cbn; auto; try lia; discriminate|].
  split. { constructor; try reflexivity. apply Forall_forall. intros x Hx. apply repeat_spec in Hx. subst x. split; [apply Z.leb_le|apply Z.ltb_lt]; reflexivity. }
  split; [apply points_to_buf|]. split; [vm_compute; repeat constructor; discriminate|]. split; [reflexivity|].
  intros e o. vm_compute. discriminate.
Qed.
Print Assumptions C30_short_secret_error_refuted.
(** ... and a NULL secret is reported only after the stream in progress has been destroyed *)
Theorem C30_null_secret_destroys_state : forall c st n, 136 <= n -> exists st',
  XXH3_64bits_reset_withSecret c (Some st) Null n = OK (XXH_ERROR, Some st') /\
  s3_totalLen st' = 0 /\ s3_bufferedSize st' = 0 /\ s3_extSecret st' = Null /\ s3_seed st' = 0.
Proof.
  intros c st n H. unfold XXH3_64bits_reset_withSecret, XXH3_reset_internal, SECRET_SIZE_MIN.
  replace (136 <=? n) with true by lia. cbn [assert_ bind is_null]. eexists. split; [reflexivity|]. repeat split.
Qed.
Print Assumptions C30_null_secret_destroys_state.

(** C31 *)
Theorem C31_failing_withSecretandSeed_keeps_state : forall c st p n seed, p = Null \/ n < 136 ->
  XXH3_64bits_reset_withSecretandSeed c (Some st) p n seed = OK (XXH_ERROR, Some st) /\
  XXH3_128bits_reset_withSecretandSeed c (Some st) p n seed = OK (XXH_ERROR, Some st).
Proof.
  intros c st p n seed H. unfold XXH3_128bits_reset_withSecretandSeed, XXH3_64bits_reset_withSecretandSeed, SECRET_SIZE_MIN.
  destruct H as [->|H]; [split; reflexivity|]. destruct (is_null p); [split; reflexivity|].
  replace (n <? 136) with true by lia. split; reflexivity.
Qed.
Print Assumptions C31_failing_withSecretandSeed_keeps_state.
Theorem C31_null_state_is_error : forall c p n seed,
  XXH3_64bits_reset c None = OK (XXH_ERROR, None) /\ XXH3_128bits_reset c None = OK (XXH_ERROR, None) /\
  XXH3_64bits_reset_withSeed c None seed = OK (XXH_ERROR, None) /\ XXH3_128bits_reset_withSeed c None seed = OK (XXH_ERROR, None) /\
  XXH3_64bits_reset_withSecret c None p n = OK (XXH_ERROR, None) /\ XXH3_128bits_reset_withSecret c None p n = OK (XXH_ERROR, None) /\
  XXH3_64bits_reset_withSecretandSeed c None p n seed = OK (XXH_ERROR, None) /\
  XXH3_128bits_reset_withSecretandSeed c None p n seed = OK (XXH_ERROR, None).
Proof. intros. repeat split. Qed.
Print Assumptions C31_null_state_is_error.

(** C32: in any history, updates of no bytes can be dropped *)
Definition is_empty_update {A K} (o : op A K) : bool := match o with OpUpdate _ _ [] => true | _ => false end.
Definition nonempty {A K} (ops : list (op A K)) : list (op A K) := filter (fun o => negb (is_empty_update o)) ops.
(** what is seen without the return codes *)
Definition digests {V} (l : list (out V)) : list (out V) := filter (fun x => match x with Digest _ => true | Code _ => false end) l.

Lemma srun_nonempty {Arg Kind Val Par} (sreset : Arg -> obj Par -> errorcode * obj Par) (sdigest : Kind -> Par -> list Z -> Val) ao lo tt ops :
  forall a a', (forall h, a h = a' h) -> valid sreset ao lo tt a ops ->
  valid sreset ao lo tt a' (nonempty ops) /\ digests (srun sreset sdigest a ops) = digests (srun sreset sdigest a' (nonempty ops)).
Proof.
  assert (S : forall (a a' : nat -> obj Par) h v, (forall h, a h = a' h) -> forall k, set a h v k = set a' h v k).
  { intros a a' h v H k. unfold set. destruct (Nat.eqb k h); auto. }
  induction ops as [|o ops IH]; intros a a' E V; [split; [exact I|reflexivity]|].
  destruct o as [h x|h p d|h k|dst src]; cbn [nonempty filter is_empty_update negb valid srun digests] in *.
  - destruct V as [V1 V]. rewrite <- E. destruct (IH _ (set a' h (snd (sreset x (a h)))) (S _ _ _ _ E) V) as [V' D]. split; [split; assumption|exact D].
  - destruct V as (V1 & V2 & V3 & V4 & V). destruct d as [|b d]; cbn [is_empty_update negb].
    + apply IH; [|exact V]. intros k. unfold set. destruct (Nat.eqb_spec k h) as [->|]; [|apply E].
      rewrite <- E. destruct (a h) as [[P m]|]; cbn [feed1]; [rewrite app_nil_r|]; reflexivity.
    + cbn [valid srun filter digests]. rewrite <- E.
      destruct (IH _ (set a' h (feed1 (a h) (b :: d))) (S _ _ _ _ E) V) as [V' D]. split; [repeat split; assumption|exact D].
  - rewrite <- E. destruct (a h) as [[P m]|]; [|contradiction]. destruct V as [V1 V]. destruct (IH _ a' E V) as [V' D].
    split; [split; assumption|]. cbn [dig1 filter]. unfold digests in D. rewrite D. reflexivity.
  - rewrite <- E. apply IH; [apply S, E|exact V].
Qed.
Theorem C32_empty_updates_change_nothing :
  (forall c w ops, cfg_ok c -> valid32 c (fun _ => None) ops ->
     exists l l', run32 c w ops = OK l /\ run32 c w (nonempty ops) = OK l' /\ digests l = digests l') /\
  (forall c w ops, cfg_ok c -> valid64 c (fun _ => None) ops ->
     exists l l', run64 c w ops = OK l /\ run64 c w (nonempty ops) = OK l' /\ digests l = digests l') /\
  (forall c w ops, cfg_ok c -> (forall h, created3 (w h)) -> valid3 c (fun _ => None) ops ->
     exists l l', run3 c w ops = OK l /\ run3 c w (nonempty ops) = OK l' /\ digests l = digests l').
Proof.
  split; [|split]; intros.
  - destruct (srun_nonempty (fun (seed : Z) (_ : obj Z) => (XXH_OK, Some (seed, @nil Z))) (fun (_ : unit) seed m => X32.hash m seed) _ _ _ ops _ (fun _ => None) (fun _ => eq_refl) H0) as [V D].
    rewrite !history32 by assumption. eauto.
  - destruct (srun_nonempty (fun (seed : Z) (_ : obj Z) => (XXH_OK, Some (seed, @nil Z))) (fun (_ : unit) seed m => X64.hash m seed) _ _ _ ops _ (fun _ => None) (fun _ => eq_refl) H0) as [V D].
    rewrite !history64 by assumption. eauto.
  - destruct (srun_nonempty sreset3 sdigest3 _ _ _ ops _ (fun _ => None) (fun _ => eq_refl) H1) as [V D].
    rewrite !history3 by assumption. eauto.
Qed.
Print Assumptions C32_empty_updates_change_nothing.
(** in particular a single such call returns XXH_OK; with NULL the state is bit for bit the same *)
Theorem C32_null_update : forall c s32 s64 s3,
  XXH32_update c s32 Null 0 = OK (XXH_OK, s32) /\ XXH64_update c s64 Null 0 = OK (XXH_OK, s64) /\
  XXH3_64bits_update c s3 Null 0 = OK (XXH_OK, s3) /\ XXH3_128bits_update c s3 Null 0 = OK (XXH_OK, s3).
Proof. intros. repeat split. Qed.
Print Assumptions C32_null_update.

(** the hypotheses are met by a real history over three objects in a 32-bit big-endian build: a failing reset in
    the middle, a copy, an empty update, 403 bytes fed in pieces, a 147-byte secret *)
Definition created_ex (h : nat) : state3 := State3 (64 * Z.of_nat h) [] (repeat 170 192) (repeat 170 256) 77 1 3 99 0 0 0 Null.
Definition history_ex : list (op (width * reset3) width) :=
  [ OpReset 0 (W64, RSeed 7); OpUpdate 0 (Ptr sanity 1 0) sanity; OpReset 1 (W128, RSecret tsecret_ptr tsecret);
    OpUpdate 0 (Ptr sanity 1 0) []; OpReset 0 (W64, RBothBad Null 200 9); OpDigest 0 W64; OpCopy 2 0; OpUpdate 1 (Ptr sanity 1 0) sanity;
    OpDigest 1 W128; OpUpdate 2 (Ptr sanity 1 0) sanity; OpReset 0 (W64, RSecretNull 500); OpDigest 2 W128 ].
Example hyps3_inhabited : (forall h, created3 (created_ex h)) /\ cfg_ok c1 /\ valid3 c1 (fun _ => None) history_ex.
Proof.
  destruct hyps2_inhabited as (_ & P & B & S1 & _ & PS & BS & _).
  split; [|split].
  - intros h. constructor; try reflexivity.
    + cbn [s3_adr created_ex]. rewrite Z.mul_comm. apply Z.mod_mul. lia.
    + cbn [s3_buffer created_ex]. apply Forall_forall. intros x Hx. apply repeat_spec in Hx. subst x. split; [apply Z.leb_le|apply Z.ltb_lt]; reflexivity.
  - constructor; cbn; auto; try lia; discriminate.
  - unfold history_ex, valid3. cbn [valid sreset3 snd arg3_ok feed1 set Nat.eqb app].
    assert (L : zlen sanity < 2 ^ szbits c1) by (vm_compute; reflexivity).
    assert (T : zlen sanity < 2 ^ 64) by (vm_compute; reflexivity).
    assert (T2 : zlen (sanity ++ sanity) < 2 ^ 64) by (vm_compute; reflexivity).
    assert (Q : zlen tsecret < 2 ^ szbits c1) by (vm_compute; reflexivity).
    assert (P0 : points_to (Ptr sanity 1 0) []) by (exists [], sanity; split; reflexivity).
    repeat split; try assumption; try discriminate; try (rewrite !app_nil_r; assumption); try (left; reflexivity); try constructor; try lia;
      try (vm_compute; reflexivity).
Qed.
