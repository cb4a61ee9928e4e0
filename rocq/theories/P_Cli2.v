(** Proofs about the file side of xxhsum: streams, hashing a stream, reading lines. *)
From Coq Require Import String Ascii List.
From Verif Require Import Base Mem M_XXH32 M_XXH64 M_XXH3 M_Kernels M_Long M_Stream3 M_Util M_Cli M_Cli2 Spec32 Spec64 Spec3 SpecUtil SpecCli SpecCli2
  P_Base P_Spec P_XXH32 P_XXH64 P_X3_Base P_X3_Short P_Kernels P_Kernels2 P_X3_Long P_Stream P_Stream3 P_Stream4 P_Util P_Inj P_Cli.
Import Util.
#[local] Opaque Z.mul Z.pow.

Lemma bytes_split l1 l2 : bytes_ok (l1 ++ l2) -> bytes_ok l1 /\ bytes_ok l2.
Proof. apply Forall_app. Qed.
Definition file_ok (f : file) : Prop := bytes_ok (f_content f) /\ zlen (f_content f) < 2 ^ 64.
Record env_ok (e : env) : Prop := EnvOk {
  eo_cfg : cfg_ok (e_cfg e);
  eo_st3 : forall t, raw3 (e_state3 e t);
  eo_malloc : forall t n b, 0 <= n -> e_malloc e t n = Some b -> zlen b = n;
  eo_fs : forall name f, e_fs e name = Some f -> file_ok f;
  eo_ul : e_ulbits e = 32 \/ e_ulbits e = 64
}.

(* ------------------------------------------------------------------ *)
(** ** Streams *)
Lemma next_chunk_spec l : match next_chunk l with
  | None => concat l = []
  | Some (d, r) => d <> [] /\ concat l = d ++ concat r
  end.
Proof.
  induction l as [|d l IH]; [reflexivity|]. cbn [next_chunk]. destruct d as [|x d]; [exact IH|]. split; [discriminate|reflexivity].
Qed.
Lemma fread_spec n f : 0 < n -> exists data f', fread n f = (data, f') /\ f_content f = data ++ f_content f' /\ f_err f' = f_err f /\
  zlen data <= n /\ (data = [] -> f' = File [] (f_err f)).
Proof.
  intros N. unfold fread. pose proof (next_chunk_spec (f_chunks f)) as H. destruct (next_chunk (f_chunks f)) as [[d r]|].
  - destruct H as [D E]. do 2 eexists. split; [reflexivity|]. unfold f_content in *. cbn [f_chunks f_err concat]. split.
    { rewrite E, app_assoc, firstn_skipn. reflexivity. } split; [reflexivity|]. split; [unfold zlen; rewrite firstn_length; lia|].
    intros E0. exfalso. apply D. destruct d as [|x d]; [reflexivity|]. destruct (Z.to_nat n) eqn:EN; [lia|]. discriminate.
  - exists [], (File [] (f_err f)). split; [reflexivity|]. unfold f_content in *. cbn. split; [exact H|]. split; [reflexivity|]. split; [lia|reflexivity].
Qed.
Lemma fgetc_spec f : exists f', f_err f' = f_err f /\
  ((f_content f = [] /\ fgetc f = (None, f') /\ f_content f' = []) \/ exists x, fgetc f = (Some x, f') /\ f_content f = x :: f_content f').
Proof.
  unfold fgetc. pose proof (next_chunk_spec (f_chunks f)) as H. destruct (next_chunk (f_chunks f)) as [[[|x d] r]|].
  - destruct H as [H _]. congruence.
  - destruct H as [_ E]. eexists. split; [|right; exists x; split; [reflexivity|]]; [reflexivity|]. unfold f_content. cbn [f_chunks concat]. exact E.
  - eexists. split; [|left; split; [exact H|]; split; reflexivity]. reflexivity.
Qed.

(* ------------------------------------------------------------------ *)
(** ** Hashing a stream *)
Definition mhash_of (a : algo) (m : list Z) : mhash :=
  match a with
  | algo_xxh32 => H32 (X32.hash m 0)
  | algo_xxh64 => H64 (X64.hash m 0)
  | algo_xxh128 => H128 (X3.XXH3_128 m)
  | algo_xxh3 => H64 (X3.XXH3_64 m)
  end.
Definition hs_inv (e : env) (a : algo) (bs : Z) (all : list Z) (err : bool) (s : state32 * state64 * state3 * list Z * file * bool) : Prop :=
  let '(s32, s64, s3, buf, f, go) := s in
  zlen buf = bs /\ f_err f = err /\ (go = false -> f_chunks f = []) /\
  exists m, all = m ++ f_content f /\
    match a with
    | algo_xxh32 => rep32 0 m s32
    | algo_xxh64 => rep64 0 m s64
    | _ => exists K, rep3 (e_cfg e) X3.default_secret false 0 m K s3
    end.
Lemma hs_body_ok e a adr bs all err s : env_ok e -> 0 < bs <= 65536 -> bytes_ok all -> hs_inv e a bs all err s -> snd s = true ->
  exists s', hashStream_body e a adr bs s = OK s' /\ hs_inv e a bs all err s' /\
    (snd s' = true -> (List.length (f_content (snd (fst s'))) < List.length (f_content (snd (fst s))))%nat).
Proof.
  intros EO BS B. destruct s as [[[[[s32 s64] s3] buf] f] go]. intros (LB & EE & _ & m & EA & R) _. unfold hashStream_body.
  destruct (fread_spec bs f ltac:(lia)) as (data & f' & EF & EC & EE' & LD & END). rewrite EF.
  rewrite store_ok by (cbn; lia). rewrite Z.add_0_l. cbn [bind]. set (post := zslice buf (zlen data) (zlen buf - 0 - zlen data)).
  change (zslice buf 0 0) with (@nil Z). cbn [app].
  pose proof (zlen_nonneg data) as ZD.
  assert (LB' : zlen (data ++ post) = bs) by (unfold post; rewrite zlen_app, zlen_zslice by lia; lia).
  destruct (Z.eqb_spec (zlen data) 0) as [E0|N0].
  { assert (data = []) as -> by (destruct data; [reflexivity|rewrite zlen_cons in E0; pose proof (zlen_nonneg data); lia]).
    eexists. split; [reflexivity|]. split; [|discriminate]. split; [exact LB'|]. split; [congruence|]. split; [intros _; rewrite (END eq_refl); reflexivity|].
    exists m. split; [rewrite EA, EC; reflexivity|exact R]. }
  assert (P : points_to (Ptr (data ++ post) adr 0) data) by (exists [], post; split; reflexivity).
  assert (BD : bytes_ok data) by (rewrite EA, EC in B; apply bytes_split in B as [_ B]; apply bytes_split in B as [B _]; exact B).
  assert (SZ : zlen data + 32 <= 2 ^ szbits (e_cfg e)) by (destruct (ok_sz _ (eo_cfg e EO)) as [-> | ->]; lia).
  assert (LL : (List.length (f_content f') < List.length (f_content f))%nat) by (rewrite EC, app_length; unfold zlen in N0; lia).
  destruct a.
  - destruct (update32_ok (e_cfg e) 0 m s32 _ data (eo_cfg e EO) R P BD ltac:(lia)) as (st' & -> & R'). cbn [ignore_err bind].
    eexists. split; [reflexivity|]. split; [|intros _; exact LL]. split; [exact LB'|]. split; [congruence|]. split; [discriminate|].
    exists (m ++ data). split; [rewrite EA, EC, app_assoc; reflexivity|exact R'].
  - destruct (update64_ok (e_cfg e) 0 m s64 _ data (eo_cfg e EO) R P BD ltac:(lia)) as (st' & -> & R'). cbn [ignore_err bind].
    eexists. split; [reflexivity|]. split; [|intros _; exact LL]. split; [exact LB'|]. split; [congruence|]. split; [discriminate|].
    exists (m ++ data). split; [rewrite EA, EC, app_assoc; reflexivity|exact R'].
  - destruct R as (K & R). pose proof (update_adr_aligned (e_cfg e) s3 (r3_raw _ _ _ _ _ _ _ R)) as A.
    destruct (update3_ok (e_cfg e) _ false 0 m K s3 _ data (accumulate (e_cfg e)) (scrambleAcc (e_cfg e)) (eo_cfg e EO)
      (accumulate_ok _ _ (eo_cfg e EO) A) (scrambleAcc_ok _ _ (eo_cfg e EO) A) R P BD ltac:(lia)) as (K' & st' & E & R' & _).
    unfold XXH3_128bits_update. unfold XXH3_64bits_update. rewrite E. cbn [ignore_err bind].
    eexists. split; [reflexivity|]. split; [|intros _; exact LL]. split; [exact LB'|]. split; [congruence|]. split; [discriminate|].
    exists (m ++ data). split; [rewrite EA, EC, app_assoc; reflexivity|]. exists K'. exact R'.
  - destruct R as (K & R). pose proof (update_adr_aligned (e_cfg e) s3 (r3_raw _ _ _ _ _ _ _ R)) as A.
    destruct (update3_ok (e_cfg e) _ false 0 m K s3 _ data (accumulate (e_cfg e)) (scrambleAcc (e_cfg e)) (eo_cfg e EO)
      (accumulate_ok _ _ (eo_cfg e EO) A) (scrambleAcc_ok _ _ (eo_cfg e EO) A) R P BD ltac:(lia)) as (K' & st' & E & R' & _).
    unfold XXH3_64bits_update. rewrite E. cbn [ignore_err bind].
    eexists. split; [reflexivity|]. split; [|intros _; exact LL]. split; [exact LB'|]. split; [congruence|]. split; [discriminate|].
    exists (m ++ data). split; [rewrite EA, EC, app_assoc; reflexivity|]. exists K'. exact R'.
Qed.
Lemma hs_loop e a adr bs all err : env_ok e -> 0 < bs <= 65536 -> bytes_ok all -> forall k s, hs_inv e a bs all err s ->
  (snd s = true -> (List.length (f_content (snd (fst s))) < k)%nat) ->
  exists s', while_ k (fun s => snd s) (hashStream_body e a adr bs) s = OK s' /\ hs_inv e a bs all err s' /\ snd s' = false.
Proof.
  intros EO BS B. induction k as [|k IH]; intros s I L; cbn [while_].
  - destruct (snd s) eqn:G; [specialize (L eq_refl); lia|]. exists s. auto.
  - destruct (snd s) eqn:G; [|exists s; auto].
    destruct (hs_body_ok e a adr bs all err s EO BS B I G) as (s' & -> & I' & L'). cbn [bind]. apply IH; [exact I'|].
    intros G'. specialize (L' G'). specialize (L eq_refl). lia.
Qed.
Theorem hashStream_ok e t f a buf bs : env_ok e -> 0 < bs <= 65536 -> zlen buf = bs -> file_ok f ->
  exists buf', hashStream e t f a buf bs = OK (if f_err f then None else Some (mhash_of a (f_content f)), buf', File [] (f_err f)) /\
    zlen buf' = bs.
Proof.
  intros EO BS LB (B & L64). unfold hashStream. unfold XXH3_128bits_reset.
  destruct (reset_rep (e_cfg e) (e_state3 e t) (eo_cfg e EO) (eo_st3 e EO t)) as (st' & -> & R3 & _). cbn [bind].
  destruct (hs_loop e a (e_adr e t) bs (f_content f) (f_err f) EO BS B (S (S (List.length (f_content f))))
     (XXH32_reset 0, XXH64_reset 0, st', buf, f, true)) as (s' & E & I & G).
  { split; [exact LB|]. split; [reflexivity|]. split; [discriminate|]. exists []. split; [reflexivity|].
    destruct a; [apply reset32_rep|apply reset64_rep|exists 0; exact R3|exists 0; exact R3]. }
  { cbn. lia. }
  rewrite E. cbn [bind]. destruct s' as [[[[[s32 s64] s3] buf'] f'] go]. cbn [snd] in G. destruct I as (LB' & EE & END & m & EA & R).
  specialize (END G). destruct f' as [ch er]. cbn [f_chunks f_err] in *. unfold f_content in EA at 2. cbn [f_chunks] in EA. subst ch er.
  cbn [concat] in EA. rewrite app_nil_r in EA. subst m. exists buf'.
  destruct (f_err f) eqn:ER; [split; [reflexivity|auto]|].
  split; [|auto].
  destruct a; cbn [mhash_of].
  - rewrite (digest32_ok _ _ _ _ (eo_cfg e EO) R). reflexivity.
  - rewrite (digest64_ok _ _ _ _ (eo_cfg e EO) R L64). reflexivity.
  - destruct R as (K & R). rewrite (digest128_ok' _ _ _ _ _ _ _ (eo_cfg e EO) R L64). reflexivity.
  - destruct R as (K & R). rewrite (digest64_ok' _ _ _ _ _ _ _ (eo_cfg e EO) R L64). reflexivity.
Qed.

(** canonical forms *)
Lemma xorshift32_range x s : 0 <= s -> 0 <= x < 2 ^ 32 -> 0 <= xorshift x s < 2 ^ 32.
Proof. intros S W. apply (xorshift_wd 32); [lia|lia|exact W]. Qed.
Lemma hash32_range m seed : w32 (X32.hash m seed).
Proof. unfold X32.hash, X32.avalanche. cbv zeta. apply xorshift32_range; [lia|]. apply Z.mod_pos_bound. unfold X32.W. lia. Qed.
Lemma hash64_range' m seed : w64 (X64.hash m seed).
Proof. unfold X64.hash, X64.avalanche. cbv zeta. apply xorshift_range; [lia|]. apply Z.mod_pos_bound. unfold X64.W. lia. Qed.
Lemma digest_bytes a m : bytes_ok (digest a m).
Proof. destruct a; apply be_bytes. Qed.
Lemma digest_len a m : zlen (digest a m) = digest_size a.
Proof. destruct a; cbn [digest digest_size]; apply be_len; lia. Qed.
Lemma canonicalOf_ok c a m d4 d8 d16 : zlen d4 = 4 -> zlen d8 = 8 -> zlen d16 = 16 -> canonicalOf c (mhash_of a m) d4 d8 d16 = OK (digest a m).
Proof.
  intros L4 L8 L16. destruct a; cbn [mhash_of canonicalOf digest].
  - apply canonical32_ok; [apply hash32_range|exact L4].
  - apply canonical64_ok; [apply hash64_range'|exact L8].
  - destruct (hash128_range X3.default_secret 0 X3.default_secret m). apply canonical128_ok; assumption.
  - apply canonical64_ok; [apply hash64_range|exact L8].
Qed.
Lemma be_inj_val n b x : 0 <= n -> 0 <= x < 2 ^ (8 * n) -> bytes_ok b -> zlen b = n -> (x = le_val (rev b) <-> b = be n x).
Proof.
  intros N X B L. split.
  - intros ->. subst n. symmetry. apply be_le_val, B.
  - intros ->. symmetry. apply be_val; assumption.
Qed.
Lemma compare_ok c a m adr canon : cfg_ok c -> bytes_ok canon -> zlen canon = digest_size a ->
  exists st, compare_hash c (mhash_of a m) adr canon = OK st /\ (st = hashOk /\ canon = digest a m \/ st = hashFailed /\ canon <> digest a m).
Proof.
  intros C B L. unfold compare_hash. set (p := Ptr (canon ++ repeat 0 (16 - List.length canon)) adr 0).
  assert (P : points_to p canon) by (exists [], (repeat 0 (16 - List.length canon)); split; reflexivity).
  destruct a; cbn [mhash_of digest digest_size] in *.
  - rewrite (fromcanon32 c p canon C P B L). cbn [bind]. pose proof (be_inj_val 4 canon (X32.hash m 0) ltac:(lia) (hash32_range m 0) B L) as H.
    eexists. split; [reflexivity|]. destruct (Z.eqb_spec (X32.hash m 0) (le_val (rev canon))) as [E|N]; [left|right]; split; try reflexivity; tauto.
  - rewrite (fromcanon64 c p canon C P B L). cbn [bind]. pose proof (be_inj_val 8 canon (X64.hash m 0) ltac:(lia) (hash64_range' m 0) B L) as H.
    eexists. split; [reflexivity|]. destruct (Z.eqb_spec (X64.hash m 0) (le_val (rev canon))) as [E|N]; [left|right]; split; try reflexivity; tauto.
  - destruct (zsplit canon 8) as (hi & lo & EC & L8); [lia|]. subst canon. rewrite zlen_app in L.
    apply bytes_split in B as [B1 B2].
    rewrite (fromcanon128 c p hi lo C P B1 B2) by lia. cbn [bind].
    pose proof (hash128_range X3.default_secret 0 X3.default_secret m) as [W1 W2]. fold (X3.XXH3_128 m) in W1, W2.
    assert (LL : zlen lo = 8) by lia.
    pose proof (le_val_bound (rev lo) (bytes_ok_rev _ B2)) as R2. pose proof (le_val_bound (rev hi) (bytes_ok_rev _ B1)) as R1.
    rewrite zlen_rev in R1, R2. rewrite L8 in R1. rewrite LL in R2. change (8 * 8) with 64 in R1, R2.
    rewrite isEqual_ok by (split; assumption). destruct (X3.XXH3_128 m) as [x1 x2] eqn:EX. unfold w64 in *. cbn [fst snd] in *. unfold Util.val128, val128 in *; cbn [fst snd] in *.
    pose proof (be_inj_val 8 hi x2 ltac:(lia) W2 B1 L8) as H2. pose proof (be_inj_val 8 lo x1 ltac:(lia) W1 B2 LL) as H1.
    pose proof (be16 x1 x2 W1 W2) as E16. unfold val128 in E16; cbn [fst snd] in E16. rewrite E16.
    eexists. split; [reflexivity|].
    destruct (Z.eqb_spec (x1 + 2 ^ 64 * x2) (le_val (rev lo) + 2 ^ 64 * le_val (rev hi))) as [E|N]; cbn [Z.eqb negb]; [left|right]; split; try reflexivity.
    + assert (x1 = le_val (rev lo) /\ x2 = le_val (rev hi)) as [E1 E2] by lia. apply H1 in E1. apply H2 in E2. congruence.
    + intros E. apply app_inv_len in E as [E1 E2]; [|rewrite be_len; lia]. apply H2 in E1. apply H1 in E2. apply N. congruence.
  - rewrite (fromcanon64 c p canon C P B L). cbn [bind]. pose proof (be_inj_val 8 canon (X3.XXH3_64 m) ltac:(lia) (hash64_range _ _ _ m) B L) as H.
    eexists. split; [reflexivity|]. destruct (Z.eqb_spec (X3.XXH3_64 m) (le_val (rev canon))) as [E|N]; [left|right]; split; try reflexivity; tauto.
Qed.

(* ------------------------------------------------------------------ *)
(** ** Lines *)
Lemma lines_of_lf r : lines_of (10 :: r) = ([], true) :: lines_of r. Proof. reflexivity. Qed.
Lemma lines_of_app l r : ~ In 10 l -> lines_of (l ++ 10 :: r) = (l, true) :: lines_of r.
Proof.
  induction l as [|x l IH]; intros N; [reflexivity|]. cbn [app lines_of]. destruct (Z.eqb_spec x 10) as [->|_]; [cbn in N; tauto|].
  rewrite IH by (cbn in N; tauto). reflexivity.
Qed.
Lemma lines_of_last l : ~ In 10 l -> l <> [] -> lines_of l = [(l, false)].
Proof.
  induction l as [|x l IH]; intros N E; [congruence|]. cbn [lines_of]. destruct (Z.eqb_spec x 10) as [->|_]; [cbn in N; tauto|].
  destruct l as [|y l]; [reflexivity|]. rewrite IH; [reflexivity|cbn in *; tauto|discriminate].
Qed.
Lemma lines_of_first l x r : x <> 10 -> ~ In 10 l -> exists l' t ls, lines_of (l ++ x :: r) = (l ++ x :: l', t) :: ls.
Proof.
  intros N NI. induction l as [|y l IH].
  - cbn [app lines_of]. rewrite (proj2 (Z.eqb_neq _ _) N). destruct (lines_of r) as [|[l t] ls]; [exists [], false, []|exists l, t, ls]; reflexivity.
  - destruct IH as (l' & t & ls & E); [cbn in NI; tauto|]. cbn [app lines_of]. destruct (Z.eqb_spec y 10) as [->|_]; [cbn in NI; tauto|].
    rewrite E. exists l', t, ls. reflexivity.
Qed.
Lemma realloc_ok e m b n : env_ok e -> zlen b <= n ->
  fst (realloc e m b n) = None /\ e_malloc e (m_tick m) n = None \/ exists w, fst (realloc e m b n) = Some (b ++ w) /\ zlen (b ++ w) = n.
Proof.
  intros EO L. unfold realloc. cbn [fst]. destruct (e_malloc e (m_tick m) n) as [g|] eqn:E; [right|left; auto].
  pose proof (zlen_nonneg b). apply (eo_malloc e EO) in E; [|lia]. exists (skipn (List.length b) g). unfold zlen in *. rewrite firstn_all2 by lia. split; [reflexivity|].
  rewrite app_length, skipn_length. lia.
Qed.
Definition same_io (m m' : mach) : Prop := m_stdin m' = m_stdin m /\ m_out m' = m_out m.
Lemma same_io_refl m : same_io m m. Proof. split; reflexivity. Qed.
Lemma same_io_trans m m' m'' : same_io m m' -> same_io m' m'' -> same_io m m''. Proof. unfold same_io. intros [] []. split; congruence. Qed.
Definition malloc_fails (e : env) : Prop := exists t n, 0 <= n <= 65536 /\ e_malloc e t n = None.
(** how the loop ends *)
Definition gl_done (e : env) (all : list Z) (l b : list Z) (f' : file) (stop : left) : Prop :=
  match stop with
  | Break GetLine_eof => l = [] /\ all = [] /\ f_content f' = []
  | Break GetLine_ok => zlen l < zlen b /\ exists t, lines_of all = (l, t) :: lines_of (f_content f') /\ short_enough (l, t) /\
      (List.length (f_content f') < List.length all)%nat
  | Return GetLine_exceedMaxLineLength => exists l t ls, lines_of all = (l, t) :: ls /\ ~ short_enough (l, t)
  | Return GetLine_outOfMemory => malloc_fails e
  | _ => False
  end.
Lemma getLine_loop e m0 err : env_ok e -> forall k l w lm f m all, zlen (l ++ w) = lm -> zlen l < lm <= 32768 -> ~ In 10 l -> all = l ++ f_content f ->
  (List.length (f_content f) < k)%nat -> same_io m0 m -> f_err f = err ->
  exists l' w' f' m' stop, while_ k (fun s => match snd s with None => true | Some _ => false end) (getLine_body e) (l ++ w, lm, zlen l, f, m, None)
     = OK (l' ++ w', zlen (l' ++ w'), zlen l', f', m', Some stop) /\ zlen l' < zlen (l' ++ w') <= 32768 /\ lm <= zlen (l' ++ w') /\ same_io m0 m' /\ f_err f' = err /\
     (exists pre, f_content f = pre ++ f_content f') /\ gl_done e all l' (l' ++ w') f' stop.
Proof.
  intros EO. induction k as [|k IH]; intros l w lm f m all LM LL NL EA K IO ER; [lia|]. cbn [while_ snd]. cbv beta iota. cbn [snd].
  unfold getLine_body at 1. destruct (fgetc_spec f) as (f' & ER' & [(E0 & -> & E1)|(x & -> & EC)]).
  { cbn [bind]. exists l, w, f', m, (Break (if zlen l =? 0 then GetLine_eof else GetLine_ok)).
    rewrite LM. split; [destruct k; reflexivity|]. split; [exact LL|]. split; [lia|]. split; [exact IO|]. split; [congruence|].
    split; [exists []; rewrite E0, E1; reflexivity|]. rewrite E0, app_nil_r in EA. subst all. cbn [gl_done].
    destruct (Z.eqb_spec (zlen l) 0) as [E|N]; cbn [gl_done].
    - assert (l = []) as -> by (destruct l; [reflexivity|rewrite zlen_cons in E; pose proof (zlen_nonneg l); lia]). auto.
    - split; [lia|]. exists false. assert (l <> []) by (intros ->; apply N; reflexivity). rewrite lines_of_last, E1 by assumption.
      split; [reflexivity|]. split; [unfold short_enough; cbn [fst snd]; lia|]. destruct l; [congruence|cbn; lia]. }
  set (n := if MAX_LINE_LENGTH <? lm + (lm / 2 + 1) then MAX_LINE_LENGTH else lm + (lm / 2 + 1)).
  assert (HN : n = 32768 \/ lm < n <= 32768).
  { unfold n. change MAX_LINE_LENGTH with 32768. destruct (Z.ltb_spec 32768 (lm + (lm / 2 + 1))); [lia|]. right. pose proof (zlen_nonneg l). pose proof (Z.div_pos lm 2 ltac:(lia) ltac:(lia)). lia. }
  assert (G : exists w2 lm2 m2 stop, (if lm <=? zlen l + 1 then
       if n <=? zlen l + 1 then (l ++ w, lm, m, Some (Return GetLine_exceedMaxLineLength))
       else match realloc e m (l ++ w) n with (None, m) => (l ++ w, lm, m, Some (Return GetLine_outOfMemory)) | (Some b, m) => (b, n, m, None) end
     else (l ++ w, lm, m, None)) = (l ++ w2, lm2, m2, stop) /\ zlen (l ++ w2) = lm2 /\ lm <= lm2 <= 32768 /\ same_io m0 m2 /\
     match stop with None => zlen l + 1 < lm2 | Some (Return GetLine_exceedMaxLineLength) => zlen l = 32767
       | Some (Return GetLine_outOfMemory) => malloc_fails e | _ => False end).
  { destruct (Z.leb_spec lm (zlen l + 1)) as [H|H]; [|do 4 eexists; split; [reflexivity|]; split; [exact LM|]; split; [lia|]; split; [exact IO|exact H]].
    destruct (Z.leb_spec n (zlen l + 1)) as [H2|H2]; [do 4 eexists; split; [reflexivity|]; split; [exact LM|]; split; [lia|]; split; [exact IO|lia]|].
    pose proof (realloc_ok e m (l ++ w) n EO ltac:(lia)) as R. assert (SI : same_io m0 (snd (realloc e m (l ++ w) n))) by exact IO.
    destruct (realloc e m (l ++ w) n) as [[b|] m2]; cbn [fst snd] in *.
    - destruct R as [[? _]|(g & E & L)]; [discriminate|]. injection E as ->. exists (w ++ g), n, m2, None. rewrite app_assoc. split; [reflexivity|].
      split; [exact L|]. split; [lia|]. split; [exact SI|]. lia.
    - destruct R as [[_ R]|(g & E & L)]; [|discriminate]. exists w, lm, m2. eexists. split; [reflexivity|]. split; [exact LM|]. split; [lia|]. split; [exact SI|].
      do 2 eexists. split; [|exact R]. pose proof (zlen_nonneg l). lia. }
  fold n. destruct G as (w2 & lm2 & m2 & stop & -> & LM2 & LL2 & IO2 & HS). cbv beta iota.
  assert (PR : exists pre, f_content f = pre ++ f_content f') by (exists [x]; exact EC).
  destruct stop as [stop|].
  { cbn [bind]. exists l, w2, f', m2, stop. rewrite LM2. split; [destruct k; reflexivity|]. split; [lia|]. split; [lia|]. split; [exact IO2|]. split; [congruence|].
    split; [exact PR|]. destruct stop as [|[]]; try contradiction; cbn [gl_done]; [|exact HS]. subst all. rewrite EC.
    destruct (Z.eq_dec x 10) as [->|N].
    - rewrite lines_of_app by assumption. do 3 eexists. split; [reflexivity|]. unfold short_enough. cbn [fst snd]. lia.
    - destruct (lines_of_first l x (f_content f') N NL) as (l' & t & ls & E). do 3 eexists. split; [exact E|]. unfold short_enough. cbn [fst snd].
      rewrite zlen_app, zlen_cons. pose proof (zlen_nonneg l'). destruct t; lia. }
  destruct (Z.eqb_spec x LF) as [->|N].
  { cbn [bind]. exists l, w2, f', m2, (Break GetLine_ok). rewrite LM2. split; [destruct k; reflexivity|]. split; [lia|]. split; [lia|]. split; [exact IO2|].
    split; [congruence|]. split; [exact PR|]. cbn [gl_done]. split; [lia|]. exists true. subst all. rewrite EC. unfold LF. rewrite lines_of_app by assumption.
    split; [reflexivity|]. split; [unfold short_enough; cbn [fst snd]; lia|]. rewrite app_length. cbn. lia. }
  destruct w2 as [|y w2]; [rewrite app_nil_r in LM2; lia|].
  rewrite (cset_at l y w2) by reflexivity. cbn [bind].
  destruct (IH (l ++ [x]) w2 lm2 f' m2 all) as (l' & w' & f2 & m' & stop & E & L' & LMM & IO' & ER2 & (pre & EP) & D).
  { rewrite <- LM2, !zlen_app, !zlen_cons. change (zlen []) with 0. lia. }
  { rewrite zlen_app. change (zlen [x]) with 1. lia. }
  { intros I. apply in_app_or in I as [I|[I|[]]]; [tauto|]. unfold LF in N. congruence. }
  { subst all. rewrite EC, <- app_assoc. reflexivity. }
  { rewrite EC in K. cbn in K. lia. }
  { exact IO2. } { congruence. }
  rewrite <- app_assoc, zlen_app in E. cbn [app] in E. change (zlen [x]) with 1 in E.
  exists l', w', f2, m', stop. split; [exact E|]. split; [exact L'|]. split; [lia|]. split; [exact IO'|]. split; [exact ER2|].
  split; [exists (x :: pre); rewrite EC, EP; reflexivity|exact D].
Qed.
Theorem getLine_ok e m b lm f : env_ok e -> zlen b = lm -> 1 <= lm <= 32768 ->
  exists g b' f' m', getLine e m (Some b) lm f = OK (g, Some b', zlen b', f', m') /\ lm <= zlen b' <= 32768 /\ same_io m m' /\ f_err f' = f_err f /\
    (exists pre, f_content f = pre ++ f_content f') /\
    match g with
    | GetLine_eof => f_content f = [] /\ f_content f' = []
    | GetLine_ok | GetLine_comment => exists l t w, lines_of (f_content f) = (l, t) :: lines_of (f_content f') /\ short_enough (l, t) /\
        b' = l ++ 0 :: w /\ (g = GetLine_comment <-> comment l) /\ (List.length (f_content f') < List.length (f_content f))%nat
    | GetLine_exceedMaxLineLength => exists l t ls, lines_of (f_content f) = (l, t) :: ls /\ ~ short_enough (l, t)
    | GetLine_outOfMemory => malloc_fails e
    end.
Proof.
  intros EO LB L. unfold getLine. rewrite (proj2 (Z.ltb_ge lm 1)) by lia.
  destruct (getLine_loop e m (f_err f) EO (S (List.length (f_content f))) [] b lm f m (f_content f)) as (l & w & f' & m' & stop & E & L' & LMM & IO & ER & PR & D);
    [exact LB|change (zlen []) with 0; lia|intros []|reflexivity|lia|apply same_io_refl|reflexivity|].
  cbn [app] in E. change (zlen []) with 0 in E. rewrite E. cbn [bind]. destruct stop as [r|r].
  2:{ exists r, (l ++ w), f', m'. split; [reflexivity|]. split; [lia|]. split; [exact IO|]. split; [exact ER|]. split; [exact PR|].
      destruct r; cbn [gl_done] in D; try contradiction; exact D. }
  destruct w as [|y w]; [rewrite app_nil_r in L'; lia|]. rewrite (cset_at l y w) by reflexivity. cbn [bind].
  assert (LE : zlen (l ++ y :: w) = zlen (l ++ 0 :: w)) by (rewrite !zlen_app, !zlen_cons; reflexivity). rewrite LE in *.
  assert (C0 : exists ch, cget (l ++ 0 :: w) 0 = OK ch /\ ((0 <? zlen l) && (ch =? 35) = true <-> comment l)).
  { destruct l as [|x l].
    - exists 0. split; [apply (cget_at []); reflexivity|]. split; [discriminate|intros (r' & Q); discriminate].
    - exists x. split; [apply (cget_at []); reflexivity|]. rewrite zlen_cons. pose proof (zlen_nonneg l). rewrite (proj2 (Z.ltb_lt 0 _)) by lia. cbn [andb].
      rewrite Z.eqb_eq. split; [intros ->; eexists; reflexivity|intros (r' & Q); congruence]. }
  destruct C0 as (ch & -> & HC). cbn [bind].
  destruct r; cbn [gl_done] in D; try contradiction.
  - destruct D as (_ & t & EL & SH & LT). set (g := if _ && _ then GetLine_comment else GetLine_ok). exists g, (l ++ 0 :: w), f', m'. split; [reflexivity|].
    split; [lia|]. split; [exact IO|]. split; [exact ER|]. split; [exact PR|].
    assert (X : exists l0 t0 w0, lines_of (f_content f) = (l0, t0) :: lines_of (f_content f') /\ short_enough (l0, t0) /\
        l ++ 0 :: w = l0 ++ 0 :: w0 /\ (g = GetLine_comment <-> comment l0) /\ (List.length (f_content f') < List.length (f_content f))%nat).
    { exists l, t, w. split; [exact EL|]. split; [exact SH|]. split; [reflexivity|]. split; [|exact LT]. rewrite <- HC. unfold g.
      destruct ((0 <? zlen l) && (ch =? 35)); split; congruence. }
    destruct g eqn:EG; [exact X|exact X|exfalso..]; unfold g in EG; destruct (_ && _) in EG; discriminate.
  - exists GetLine_eof, (l ++ 0 :: w), f', m'. split; [reflexivity|]. split; [lia|]. split; [exact IO|]. split; [exact ER|]. split; [exact PR|]. destruct D as (_ & D1 & D2). auto.
Qed.

(* ------------------------------------------------------------------ *)
(** ** Outcomes of lines *)
Lemma text_of_nul_free l : nul_free (text_of l).
Proof. unfold nul_free. induction l as [|x l IH]; [exact id|]. cbn [text_of]. destruct (Z.eqb_spec x 0); [exact id|]. intros [E|I]; [congruence|exact (IH I)]. Qed.
Lemma text_of_split l w : exists w', l ++ 0 :: w = text_of l ++ 0 :: w'.
Proof.
  induction l as [|x l (w' & IH)]; [exists w; reflexivity|]. cbn [text_of]. destruct (Z.eqb_spec x 0) as [->|].
  - exists (l ++ 0 :: w). reflexivity.
  - exists w'. cbn [app]. rewrite IH. reflexivity.
Qed.
Lemma text_of_id l : nul_free l -> text_of l = l.
Proof. unfold nul_free. induction l as [|x l IH]; intros N; [reflexivity|]. cbn [text_of]. destruct (Z.eqb_spec x 0) as [->|]; [cbn in N; tauto|]. rewrite IH by (cbn in N; tauto). reflexivity. Qed.
Lemma ordered_bytes P d c : ordered P d c -> bytes_ok d -> bytes_ok c /\ zlen c = zlen d.
Proof. intros [[_ ->]|[_ ->]] B; [split; [apply bytes_ok_rev, B|apply zlen_rev]|auto]. Qed.
Lemma Accepts_canon mask le s a canon name : Accepts mask le s a canon name -> bytes_ok canon /\ zlen canon = digest_size a.
Proof.
  intros (_ & body & raw & [(h & x & d & _ & _ & G & O)|(tag & h & d & _ & _ & _ & G & O)] & _).
  - assert (B : bytes_ok d /\ zlen d = digest_size a).
    { destruct a; cbn [gnu_digest] in G; try (destruct G as [H L]; split; [exact (HexText_bytes _ _ H)|exact L]).
      destruct G as (h' & _ & H & L). split; [exact (HexText_bytes _ _ H)|exact L]. }
    destruct B as [B L]. destruct (ordered_bytes _ _ _ O B). split; [assumption|congruence].
  - assert (B : bytes_ok d /\ zlen d = digest_size a).
    { destruct G as [[H L]|(-> & h' & _ & H & L)]; (split; [exact (HexText_bytes _ _ H)|exact L]). }
    destruct B as [B L]. destruct (ordered_bytes _ _ _ O B). split; [assumption|congruence].
Qed.
Lemma Accepts_dec mask le s : nul_free s -> (exists a canon name, Accepts mask le s a canon name) \/ (forall a canon name, ~ Accepts mask le s a canon name).
Proof.
  intros N. destruct (parseLine_ok s [] le mask N) as (r & b' & _ & _ & H). destruct r as [[[a canon] i]|]; [|right; exact H].
  destruct H as (name & _ & H). left. eauto.
Qed.
Lemma comment_dec l : comment l \/ ~ comment l.
Proof. destruct l as [|x l]; [right; intros (r & E); discriminate|]. destruct (Z.eq_dec x 35) as [->|N]; [left; exists l; reflexivity|right; intros (r & E); congruence]. Qed.
Lemma short_dec l : short_enough l \/ ~ short_enough l. Proof. unfold short_enough. lia. Qed.
Lemma list_dec (a b : list Z) : a = b \/ a <> b. Proof. destruct (list_eq_dec Z.eq_dec a b); auto. Qed.
Lemma Outcomes_total fs mask le ls : forall sin, exists os, Outcomes fs mask le sin ls os.
Proof.
  induction ls as [|l ls IH]; intros sin; [exists []; constructor|].
  destruct (short_dec l) as [S|S]; [|destruct (IH sin) as (os & H); eexists; apply oc_long; eassumption].
  destruct (comment_dec (fst l)) as [C|C]; [destruct (IH sin) as (os & H); eexists; apply oc_comment; eassumption|].
  destruct (Accepts_dec mask le (text_of (fst l)) (text_of_nul_free _)) as [(a & canon & name & A)|A];
    [|destruct (IH sin) as (os & H); eexists; apply oc_bad; eassumption].
  destruct (source fs sin name) as [f|] eqn:F; [|destruct (IH sin) as (os & H); eexists; eapply oc_missing; eassumption].
  destruct (IH (sin_after sin name)) as (os & H).
  destruct (f_err f) eqn:ER; [eexists; eapply oc_readerror; eassumption|].
  destruct (list_dec canon (digest a (f_content f))) as [E|E]; eexists; [eapply oc_match|eapply oc_mismatch]; eassumption.
Qed.
Lemma Outcomes_det fs mask le ls : forall sin os os', Outcomes fs mask le sin ls os -> Outcomes fs mask le sin ls os' -> os = os'.
Proof.
  induction ls as [|l ls IH]; intros sin os os' H H'; inversion H; inversion H'; subst os os'; try contradiction; try reflexivity;
    try (match goal with A : Accepts _ _ _ _ _ _, N : forall a c n, ~ Accepts _ _ _ a c n |- _ => exfalso; exact (N _ _ _ A) end);
    try (match goal with A : Accepts _ _ _ ?a ?c ?n, A' : Accepts _ _ _ ?a' ?c' ?n' |- _ =>
      destruct (Accepts_det _ _ _ _ _ _ _ _ _ A A') as (Ea & Ec & En); subst a' c' n' end);
    try (match goal with A : source _ _ _ = Some ?f, A' : source _ _ _ = Some ?f' |- _ => assert (f = f') as <- by congruence end);
    try congruence;
    try (f_equal; eapply IH; eassumption).
Qed.
