(** The self-test: each test function accepts exactly the specified hash; the tables hold the specified hashes. *)
From Verif Require Import Base Mem M_XXH32 M_XXH64 M_XXH3 M_Kernels M_Long M_Stream3 M_Util Spec32 Spec64 Spec3 SpecUtil
  P_Base P_Spec P_XXH32 P_XXH64 P_X3_Long P_Util History P_History Properties1 Properties2 Properties3 Properties4 M_Sanity P_Cli P_Rand.

(** ** The test buffer *)
Fixpoint gen_bytes (n : nat) (g : Z) : list Z :=
  match n with O => [] | S n' => (g / 2 ^ 56) mod 256 :: gen_bytes n' (g * TPRIME64 mod 2 ^ 64) end.
Lemma gen_len n : forall g, zlen (gen_bytes n g) = Z.of_nat n.
Proof. induction n as [|n IH]; intros g; [reflexivity|]. cbn [gen_bytes]. rewrite zlen_cons, IH. lia. Qed.
Lemma gen_ok n : forall g, bytes_ok (gen_bytes n g).
Proof. induction n as [|n IH]; intros g; cbn [gen_bytes]; constructor; [apply Z.mod_pos_bound; lia|apply IH]. Qed.
Lemma store_at pr old post d : zlen old = zlen d -> store (pr ++ old ++ post) (zlen pr) d = OK (pr ++ d ++ post).
Proof. intros L. pose proof (zlen_nonneg pr). rewrite store_ok by llia. f_equal. list_eq. Qed.
Lemma fill_loop n : forall pr old post g, zlen old = Z.of_nat n ->
  exists g', for_ n (zlen pr) (fun i '(buffer, byteGen) =>
    let! buffer := store buffer i [(byteGen / 2 ^ 56) mod 256] in
    OK (buffer, byteGen * TPRIME64 mod 2 ^ 64)) (pr ++ old ++ post, g) = OK (pr ++ gen_bytes n g ++ post, g').
Proof.
  induction n as [|n IH]; intros pr old post g L.
  - destruct old; [|rewrite zlen_cons in L; pose proof (zlen_nonneg old); lia]. cbn. eauto.
  - destruct old as [|x old]; [cbn in L; lia|]. rewrite zlen_cons in L. cbn [for_].
    change (pr ++ (x :: old) ++ post) with (pr ++ [x] ++ (old ++ post)). rewrite store_at by reflexivity. cbn [bind gen_bytes].
    rewrite app_assoc.
    replace (zlen pr + 1) with (zlen (pr ++ [(g / 2 ^ 56) mod 256])) by llia.
    destruct (IH (pr ++ [(g / 2 ^ 56) mod 256]) old post (g * TPRIME64 mod 2 ^ 64)) as (g' & ->); [lia|].
    exists g'. f_equal. f_equal. rewrite <- app_assoc. reflexivity.
Qed.
Definition buffer := gen_bytes (Z.to_nat SANITY_BUFFER_SIZE) TPRIME32.
Lemma fill_ok b : zlen b = SANITY_BUFFER_SIZE -> fillTestBuffer b SANITY_BUFFER_SIZE = OK buffer.
Proof.
  intros L. unfold fillTestBuffer. destruct (fill_loop (Z.to_nat SANITY_BUFFER_SIZE) [] b [] TPRIME32) as (g & E).
  { rewrite L. reflexivity. }
  change (zlen []) with 0 in E. cbn [app] in E. rewrite app_nil_r in E. rewrite E. cbn [bind]. rewrite app_nil_r. reflexivity.
Qed.

(** the sizes considered *)
Definition small := 2 ^ 24.
(** ** Feeding a buffer in pieces *)
Section Pieces.
Context {St : Type} (upd : St -> ptr -> Z -> res (errorcode * St)) (I : list Z -> St -> Prop) (data : ptr) (d : list Z).
Context (PT : points_to data d) (BD : bytes_ok d) (SM : zlen d <= small).
Context (UP : forall m st p x, I m st -> points_to p x -> bytes_ok x -> zlen x <= small ->
  exists st', upd st p (zlen x) = OK (XXH_OK, st') /\ I (m ++ x) st').
Lemma piece m st k n : I m st -> 0 <= k -> 0 <= n -> k + n <= zlen d -> m = zslice d 0 k ->
  exists st', void (upd st (padd data k) n) = OK st' /\ I (zslice d 0 (k + n)) st'.
Proof.
  intros H K N L E. destruct (UP m st (padd data k) (zslice d k n) H) as (st' & U & I').
  - apply points_to_sub; trivial.
  - apply bytes_ok_zslice, BD.
  - rewrite zlen_zslice by lia. lia.
  - rewrite zlen_zslice in U by lia. unfold void. rewrite U. exists st'. split; [reflexivity|].
    subst m. replace (zslice d 0 (k + n)) with (zslice d 0 k ++ zslice d k n); [exact I'|]. list_eq.
Qed.
Lemma whole_ok st : I [] st -> exists st', void (upd st data (zlen d)) = OK st' /\ I d st'.
Proof.
  intros H. destruct (UP [] st data d H PT BD SM) as (st' & U & I'). unfold void. rewrite U. exists st'. split; [reflexivity|exact I'].
Qed.
Lemma bytewise_ok st : I [] st -> exists st', bytewise upd data (zlen d) st = OK st' /\ I d st'.
Proof.
  intros H. unfold bytewise. pose proof (zlen_nonneg d).
  destruct (for_inv (fun i st => 0 <= i /\ I (zslice d 0 i) st) (fun pos st => void (upd st (padd data pos) 1))
    (Z.to_nat (zlen d)) 0 st) as (st' & E & _ & H').
  - split; [lia|exact H].
  - intros i s R (Hi & Hs). destruct (piece _ s i 1 Hs) as (s' & E' & H'); try lia; [reflexivity|].
    exists s'. split; [exact E'|]. split; [lia|exact H'].
  - exists st'. split; [exact E|]. rewrite Z.add_0_l, Z2Nat.id in H' by lia.
    replace (zslice d 0 (zlen d)) with d in H'; [exact H'|list_eq].
Qed.
End Pieces.

Lemma random_ok rounds c upd (I : list Z -> state3 -> Prop) data d rnd rnd' : cfg_ok c -> points_to data d -> bytes_ok d -> zlen d <= small ->
  (forall m st p x, I m st -> points_to p x -> bytes_ok x -> zlen x <= small ->
     exists st', upd st p (zlen x) = OK (XXH_OK, st') /\ I (m ++ x) st') ->
  drawn rounds (zlen d) 0 rnd = Some rnd' ->
  forall st, I [] st -> exists st', randomUpdate rounds c upd st data (zlen d) rnd = OK (st', rnd') /\ I d st'.
Proof.
  intros C PT BD SM UP. unfold randomUpdate. rename rounds into fuel. intros DR st H.
  assert (S32 : 2 ^ 32 <= 2 ^ szbits c) by (destruct C; destruct ok_sz as [-> | ->]; lia).
  assert (G : forall fuel p rnd st, 0 <= p <= zlen d -> drawn fuel (zlen d) p rnd = Some rnd' -> I (zslice d 0 p) st ->
    exists st', while_ fuel (fun '(_, p, _) => p <? zlen d) (fun '(st, p, rnd) =>
      let modulo := if 2 <? zlen d then zlen d else 2 in
      let '(v, rnd) := rand rnd in
      let l := v mod modulo in
      let l := if zlen d <? usz c (p + l) then zlen d - p else l in
      let! st := void (upd st (padd data p) l) in
      OK (st, usz c (p + l), rnd)) (st, p, rnd) = OK (st', zlen d, rnd') /\ I d st').
  { clear - PT BD SM UP S32. induction fuel as [|f IH]; intros p rnd st P DR H; cbn [while_ drawn] in *.
    - destruct (Z.ltb_spec p (zlen d)); [discriminate|]. injection DR as ->. assert (p = zlen d) by lia. subst p.
      replace (zslice d 0 (zlen d)) with d in H by list_eq. eauto.
    - destruct (Z.ltb_spec p (zlen d)).
      + cbv zeta. destruct (rand rnd) as [v rnd1]. set (mo := if 2 <? zlen d then zlen d else 2) in *.
        assert (MO : 2 <= mo <= 2 ^ 31) by (subst mo; unfold small in SM; destruct (2 <? zlen d) eqn:E2; lia).
        pose proof (Z.mod_pos_bound v mo ltac:(lia)) as L. set (l := v mod mo) in *. clearbody l mo.
        unfold small in SM.
        assert (EU : usz c (p + l) = p + l) by (unfold usz; apply Z.mod_small; lia). rewrite EU.
        set (l' := if zlen d <? p + l then zlen d - p else l) in *.
        assert (L' : 0 <= l' /\ p + l' <= zlen d) by (subst l'; destruct (zlen d <? p + l) eqn:E3; lia). clearbody l'.
        destruct (piece upd I data d PT BD SM UP _ st p l' H) as (st' & -> & H'); try lia; [reflexivity|]. cbn [bind].
        replace (usz c (p + l')) with (p + l') by (symmetry; unfold usz; apply Z.mod_small; lia).
        apply IH; [lia|exact DR|exact H'].
      + injection DR as ->. assert (p = zlen d) by lia. subst p.
        replace (zslice d 0 (zlen d)) with d in H by list_eq. eauto. }
  destruct (G fuel 0 rnd st) as (st' & E & H'); [pose proof (zlen_nonneg d); lia|exact DR|exact H|].
  exists st'. split; [|exact H']. cbv zeta in E. rewrite E. reflexivity.
Qed.

(** ** XXH3 sessions *)
Section Sessions.
Context (c : cfg) (C : cfg_ok c).
Lemma small32 : 2 ^ 32 <= 2 ^ szbits c.
Proof. destruct C as [[-> | ->] _ _]; lia. Qed.
Lemma void3_on f st e st' : on_some f st = OK (e, st') -> void3 (f (Some st)) = OK st'.
Proof.
  unfold on_some, void3. destruct (f (Some st)) as [[e' [s|]]| |]; cbn [bind]; try discriminate.
  intros E. injection E as -> ->. reflexivity.
Qed.
Lemma vreset_seed o st sd : R3 c o st -> 0 <= sd < 2 ^ 64 ->
  exists st', void3 (XXH3_64bits_reset_withSeed c (Some st) sd) = OK st' /\ R3 c (Some (PSeed sd, [])) st'.
Proof.
  intros R W. destruct (reset3_ok c (W64, RSeed sd) st o C W R) as (st' & E & R'). exists st'. split; [|exact R'].
  apply (void3_on _ _ _ _ E).
Qed.
Lemma vreset_secret o st p s : R3 c o st -> points_to p s -> bytes_ok s -> 136 <= zlen s <= 192 ->
  exists st', void3 (XXH3_64bits_reset_withSecret c (Some st) p (zlen s)) = OK st' /\ R3 c (Some (PSecret s, [])) st'.
Proof.
  intros R PS B L. pose proof small32. destruct (reset3_ok c (W64, RSecret p s) st o C) as (st' & E & R'); trivial.
  { unfold arg3_ok; cbn [snd]. repeat split; trivial; lia. }
  exists st'. split; [|exact R']. apply (void3_on _ _ _ _ E).
Qed.
Lemma vreset_both o st p s sd : R3 c o st -> points_to p s -> bytes_ok s -> 136 <= zlen s <= 192 -> 0 <= sd < 2 ^ 64 ->
  exists st', void3 (XXH3_64bits_reset_withSecretandSeed c (Some st) p (zlen s) sd) = OK st' /\ R3 c (Some (PBoth s sd, [])) st'.
Proof.
  intros R PS B L W. pose proof small32. destruct (reset3_ok c (W64, RBoth p s sd) st o C) as (st' & E & R'); trivial.
  { unfold arg3_ok; cbn [snd]. repeat split; trivial; lia. }
  exists st'. split; [|exact R']. apply (void3_on _ _ _ _ E).
Qed.
Lemma update_R P m st p x : R3 c (Some (P, m)) st -> points_to p x -> bytes_ok x -> zlen x <= small ->
  exists st', XXH3_64bits_update c st p (zlen x) = OK (XXH_OK, st') /\ R3 c (Some (P, m ++ x)) st'.
Proof. intros. pose proof small32. apply update3_R; trivial. unfold small in *. lia. Qed.
Lemma digest_64 P m st : R3 c (Some (P, m)) st -> zlen m <= small ->
  XXH3_64bits_digest c st = OK (match P with PDefault => X3.XXH3_64 m | PSeed sd => X3.XXH3_64_withSeed sd m
    | PSecret s => X3.XXH3_64_withSecret s m | PBoth s sd => X3.XXH3_64_withSecretandSeed s sd m end).
Proof.
  intros (RW & RC & s & us & seed & K & L & Rp) T.
  pose proof (link_digest c W64 P m s us seed K st C L Rp ltac:(unfold small in T; lia)) as E.
  unfold do_digest3 in E. destruct (XXH3_64bits_digest c st); cbn [bind] in E; try discriminate. injection E as ->. reflexivity.
Qed.
Lemma digest_128 P m st : R3 c (Some (P, m)) st -> zlen m <= small ->
  XXH3_128bits_digest c st = OK (match P with PDefault => X3.XXH3_128 m | PSeed sd => X3.XXH3_128_withSeed sd m
    | PSecret s => X3.XXH3_128_withSecret s m | PBoth s sd => X3.XXH3_128_withSecretandSeed s sd m end).
Proof.
  intros (RW & RC & s & us & seed & K & L & Rp) T.
  pose proof (link_digest c W128 P m s us seed K st C L Rp ltac:(unfold small in T; lia)) as E.
  unfold do_digest3 in E. destruct (XXH3_128bits_digest c st); cbn [bind] in E; try discriminate. injection E as ->. reflexivity.
Qed.

(** ** The test functions *)
Lemma check_eq x k : checkResult x x k = k.
Proof. unfold checkResult. rewrite Z.eqb_refl. reflexivity. Qed.
Lemma check_neq x y k : x <> y -> checkResult x y k = OK None.
Proof. intros N. unfold checkResult. apply Z.eqb_neq in N. rewrite N. reflexivity. Qed.
Lemma check_eq128 x k : checkResult128 x x k = k.
Proof. unfold checkResult128. rewrite !Z.eqb_refl. reflexivity. Qed.
Lemma check_neq128 x y k : x <> y -> checkResult128 x y k = OK None.
Proof.
  intros N. unfold checkResult128. destruct x as [a b], y as [a' b']. cbn [fst snd].
  destruct (Z.eqb_spec a a'), (Z.eqb_spec b b'); subst; try reflexivity. congruence.
Qed.

Context (data : ptr) (d : list Z) (BD : bytes_ok d) (SM : zlen d <= small) (PT : points_to (data_of data (zlen d)) d).

Lemma test32_right seed rnd : testXXH32 c data (zlen d, seed, X32.hash d seed) rnd = OK (Some rnd).
Proof.
  pose proof small32 as S32. unfold small in SM. unfold testXXH32. cbv zeta.
  assert (UP : forall m st p x, rep32 seed m st -> points_to p x -> bytes_ok x -> zlen x <= small ->
    exists st', XXH32_update c st p (zlen x) = OK (XXH_OK, st') /\ rep32 seed (m ++ x) st').
  { intros. apply update32_ok; trivial. unfold small in *. lia. }
  rewrite C01_xxh32_equals_spec with (m := d) by (trivial; lia). cbn [bind]. rewrite check_eq.
  destruct (whole_ok _ _ _ d PT BD SM UP _ (reset32_rep seed)) as (st & -> & R). cbn [bind].
  rewrite (digest32_ok c seed d st C R). cbn [bind]. rewrite check_eq.
  destruct (bytewise_ok _ _ _ d PT BD SM UP _ (reset32_rep seed)) as (st2 & -> & R2). cbn [bind].
  rewrite (digest32_ok c seed d st2 C R2). cbn [bind]. rewrite check_eq. reflexivity.
Qed.
Lemma test32_wrong seed N rnd : X32.hash d seed <> N -> testXXH32 c data (zlen d, seed, N) rnd = OK None.
Proof.
  intros NE. pose proof small32 as S32. unfold small in SM. unfold testXXH32. cbv zeta.
  rewrite C01_xxh32_equals_spec with (m := d) by (trivial; lia). cbn [bind]. apply check_neq, NE.
Qed.
Lemma test64_right seed rnd : testXXH64 c data (zlen d, seed, X64.hash d seed) rnd = OK (Some rnd).
Proof.
  pose proof small32 as S32. unfold small in SM. unfold testXXH64. cbv zeta.
  assert (UP : forall m st p x, rep64 seed m st -> points_to p x -> bytes_ok x -> zlen x <= small ->
    exists st', XXH64_update c st p (zlen x) = OK (XXH_OK, st') /\ rep64 seed (m ++ x) st').
  { intros. apply update64_ok; trivial. unfold small in *. lia. }
  rewrite C02_xxh64_equals_spec with (m := d) by (trivial; lia). cbn [bind]. rewrite check_eq.
  destruct (whole_ok _ _ _ d PT BD SM UP _ (reset64_rep seed)) as (st & -> & R). cbn [bind].
  rewrite (digest64_ok c seed d st C R) by lia. cbn [bind]. rewrite check_eq.
  destruct (bytewise_ok _ _ _ d PT BD SM UP _ (reset64_rep seed)) as (st2 & -> & R2). cbn [bind].
  rewrite (digest64_ok c seed d st2 C R2) by lia. cbn [bind]. rewrite check_eq. reflexivity.
Qed.
Lemma test64_wrong seed N rnd : X64.hash d seed <> N -> testXXH64 c data (zlen d, seed, N) rnd = OK None.
Proof.
  intros NE. pose proof small32 as S32. unfold small in SM. unfold testXXH64. cbv zeta.
  rewrite C02_xxh64_equals_spec with (m := d) by (trivial; lia). cbn [bind]. apply check_neq, NE.
Qed.

Lemma short64 s0 sd s s' m : zlen m <= MIDSIZE_MAX -> X3.hash64 s0 sd s m = X3.hash64 s0 sd s' m.
Proof.
  unfold MIDSIZE_MAX. intros M. unfold X3.hash64. change (len m) with (zlen m).
  repeat (match goal with |- context [if ?b then _ else _] => destruct b eqn:?; [reflexivity|] end); lia.
Qed.
Lemma short128 s0 sd s s' m : zlen m <= MIDSIZE_MAX -> X3.hash128 s0 sd s m = X3.hash128 s0 sd s' m.
Proof.
  unfold MIDSIZE_MAX. intros M. unfold X3.hash128. change (len m) with (zlen m).
  repeat (match goal with |- context [if ?b then _ else _] => destruct b eqn:?; [reflexivity|] end); lia.
Qed.
Lemma long64 s0 sd s m s0' sd' : MIDSIZE_MAX < zlen m -> X3.hash64 s0 sd s m = X3.hash64 s0' sd' s m.
Proof.
  unfold MIDSIZE_MAX. intros M. unfold X3.hash64. change (len m) with (zlen m).
  repeat (match goal with |- context [zlen m <=? ?k] => replace (zlen m <=? k) with false by lia end); reflexivity.
Qed.
Lemma long128 s0 sd s m s0' sd' : MIDSIZE_MAX < zlen m -> X3.hash128 s0 sd s m = X3.hash128 s0' sd' s m.
Proof.
  unfold MIDSIZE_MAX. intros M. unfold X3.hash128. change (len m) with (zlen m).
  repeat (match goal with |- context [zlen m <=? ?k] => replace (zlen m <=? k) with false by lia end); reflexivity.
Qed.
Lemma buf_split (b : list Z) : zlen b = 193 -> exists x old, b = [x] ++ old ++ [] /\ zlen old = 192.
Proof.
  destruct b as [|x old]; [discriminate|]. rewrite zlen_cons. intros L. exists x, old. rewrite app_nil_r. split; [reflexivity|lia].
Qed.
Lemma secret_at x seed adr : points_to (Ptr ([x] ++ X3.deriveSecret seed ++ []) adr (zlen [x])) (X3.deriveSecret seed) /\
  bytes_ok (X3.deriveSecret seed) /\ zlen (X3.deriveSecret seed) = 192.
Proof. split; [exists [x], []; split; reflexivity|]. split; [apply derive_bytes|apply derive_len]. Qed.
Lemma memset_at x seed adr : exists s', store ([x] ++ X3.deriveSecret seed ++ []) (zlen [x]) (repeat 0x99 9) = OK ([x] ++ s' ++ []) /\
  points_to (Ptr ([x] ++ s' ++ []) adr (zlen [x])) s' /\ bytes_ok s' /\ zlen s' = 192.
Proof.
  pose proof (derive_len seed) as L. pose proof (derive_bytes seed) as B. set (s := X3.deriveSecret seed) in *. clearbody s.
  exists (repeat 0x99 9 ++ zslice s 9 183). split; [|split; [eexists _, _; split; reflexivity|split]].
  - replace ([x] ++ s ++ []) with ([x] ++ zslice s 0 9 ++ zslice s 9 183) by list_eq.
    rewrite store_at by (rewrite zlen_zslice by lia; reflexivity). rewrite app_nil_r. reflexivity.
  - apply bytes_ok_app; [repeat constructor; lia|apply bytes_ok_zslice, B].
  - rewrite zlen_app, zlen_zslice by lia. reflexivity.
Qed.
Context (rounds : nat) (g : garbage) (G : created3 (g_state g) /\ zlen (g_buf1 g) = 193 /\ zlen (g_buf2 g) = 193).

Lemma testXXH3_right seed rnd rnd' : 0 <= seed < 2 ^ 64 -> drawn rounds (zlen d) 0 rnd = Some rnd' ->
  testXXH3 rounds c g data (zlen d, seed, X3.XXH3_64_withSeed seed d) rnd = OK (Some rnd').
Proof.
  intros W DR. pose proof G as (CR & L1 & L2). pose proof small32 as S32.
  unfold testXXH3. cbv zeta. rewrite C03_xxh3_64_withSeed_equals_spec with (m := d) by trivial. cbn [bind]. rewrite check_eq.
  set (N := X3.XXH3_64_withSeed seed d) in *.
  assert (NS : forall k : go, (if seed =? 0 then let! Dresult := XXH3_64bits c (data_of data (zlen d)) (zlen d) in
     checkResult Dresult N k else k) = k).
  { intros k. destruct (Z.eqb_spec seed 0) as [E|]; [|reflexivity]. subst seed. rewrite C03_xxh3_64_equals_spec by trivial. cbn [bind].
    replace (X3.XXH3_64 d) with N; [apply check_eq|]. subst N. unfold X3.XXH3_64_withSeed, X3.XXH3_64. rewrite derive_00. reflexivity. }
  rewrite NS. clear NS.
  destruct (buf_split _ L1) as (x & old & EB & LO). rewrite EB.
  change 1 with (zlen [x]). rewrite (fromSeed_ok c [x] old [] (g_adr1 g) seed C LO W). cbn [bind].
  destruct (secret_at x seed (g_adr1 g)) as (PS & BS & LS).
  change SECRET_DEFAULT_SIZE with 192. rewrite <- LS.
  rewrite (C03_xxh3_64_withSecretandSeed_equals_spec c _ d _ (X3.deriveSecret seed)) by (trivial; lia). cbn [bind].
  change (X3.XXH3_64_withSecretandSeed (X3.deriveSecret seed) seed d) with N. rewrite check_eq.
  destruct (memset_at x seed (g_adr1 g)) as (s' & ES & PS' & BS' & LS'). rewrite ES. cbn [bind].
  assert (AS : forall k : go, (if zlen d <=? MIDSIZE_MAX then
      let! Dresult := XXH3_64bits_withSecretandSeed c (data_of data (zlen d)) (zlen d) (Ptr ([x] ++ s' ++ []) (g_adr1 g) (zlen [x]))
         (zlen (X3.deriveSecret seed)) seed in checkResult Dresult N k else k) = k).
  { intros k. destruct (Z.leb_spec (zlen d) MIDSIZE_MAX) as [M|]; [|reflexivity]. rewrite LS, <- LS'.
    rewrite (C03_xxh3_64_withSecretandSeed_equals_spec c _ d _ s') by (trivial; lia). cbn [bind].
    unfold X3.XXH3_64_withSecretandSeed. rewrite (short64 _ _ s' (X3.deriveSecret seed) d M). apply check_eq. }
  rewrite AS. clear AS.
  
  destruct (vreset_seed _ _ seed (created_R3 c _ CR) W) as (s1 & -> & R1). cbn [bind].
  destruct (whole_ok _ _ _ d PT BD SM (update_R (PSeed seed)) _ R1) as (s2 & -> & R2). cbn [bind].
  rewrite (digest_64 _ _ _ R2 SM). cbn [bind]. fold N. rewrite check_eq.
  destruct (vreset_seed _ _ seed R2 W) as (s3 & -> & R3'). cbn [bind].
  destruct (random_ok rounds c _ _ _ d rnd rnd' C PT BD SM (update_R (PSeed seed)) DR _ R3') as (s4 & -> & R4). cbn [bind].
  rewrite (digest_64 _ _ _ R4 SM). cbn [bind]. fold N. rewrite check_eq.
  destruct (vreset_seed _ _ seed R4 W) as (s5 & -> & R5). cbn [bind].
  destruct (bytewise_ok _ _ _ d PT BD SM (update_R (PSeed seed)) _ R5) as (s6 & -> & R6). cbn [bind].
  rewrite (digest_64 _ _ _ R6 SM). cbn [bind]. fold N. rewrite check_eq.
  destruct (buf_split _ L2) as (x2 & old2 & EB2 & LO2). rewrite EB2.
  change (zlen [x]) with (zlen [x2]). rewrite (fromSeed_ok c [x2] old2 [] (g_adr2 g) seed C LO2 W). cbn [bind].
  destruct (secret_at x2 seed (g_adr2 g)) as (PS2 & BS2 & _).
  destruct (vreset_both _ _ _ _ seed R6 PS2 BS2 ltac:(lia) W) as (s7 & -> & R7). cbn [bind].
  destruct (whole_ok _ _ _ d PT BD SM (update_R (PBoth _ seed)) _ R7) as (s8 & -> & R8). cbn [bind].
  rewrite (digest_64 _ _ _ R8 SM). cbn [bind]. change (X3.XXH3_64_withSecretandSeed (X3.deriveSecret seed) seed d) with N. rewrite check_eq.
  destruct (Z.leb_spec (zlen d) MIDSIZE_MAX) as [M|]; [|reflexivity].
  destruct (memset_at x2 seed (g_adr2 g)) as (s'2 & ES2 & PS'2 & BS'2 & LS'2). rewrite ES2. cbn [bind].
  rewrite LS, <- LS'2.
  destruct (vreset_both _ _ _ _ seed R8 PS'2 BS'2 ltac:(lia) W) as (s9 & -> & R9). cbn [bind].
  destruct (whole_ok _ _ _ d PT BD SM (update_R (PBoth _ seed)) _ R9) as (s10 & -> & R10). cbn [bind].
  rewrite (digest_64 _ _ _ R10 SM). cbn [bind].
  unfold X3.XXH3_64_withSecretandSeed. rewrite (short64 _ _ s'2 (X3.deriveSecret seed) d M). apply check_eq.
Qed.
Lemma testXXH3_wrong seed N rnd : 0 <= seed < 2 ^ 64 -> X3.XXH3_64_withSeed seed d <> N ->
  testXXH3 rounds c g data (zlen d, seed, N) rnd = OK None.
Proof. intros W NE. unfold testXXH3. cbv zeta. rewrite C03_xxh3_64_withSeed_equals_spec with (m := d) by trivial. cbn [bind]. apply check_neq, NE. Qed.

Lemma testXXH3_withSecret_right ps s sd rnd rnd' : points_to ps s -> bytes_ok s -> 136 <= zlen s <= 192 ->
  drawn rounds (zlen d) 0 rnd = Some rnd' ->
  testXXH3_withSecret rounds c g data ps (zlen s) (zlen d, sd, X3.XXH3_64_withSecret s d) rnd = OK (Some rnd').
Proof.
  intros PS BS LS DR. pose proof G as (CR & L1 & L2). pose proof small32 as S32.
  unfold testXXH3_withSecret. cbv zeta.
  rewrite C03_xxh3_64_withSecret_equals_spec with (m := d) (s := s) by (trivial; lia). cbn [bind]. rewrite check_eq.
  set (N := X3.XXH3_64_withSecret s d) in *.
  assert (AS : forall k : go, (if MIDSIZE_MAX <? zlen d then
      let! Dresult := XXH3_64bits_withSecretandSeed c (data_of data (zlen d)) (zlen d) ps (zlen s) 0 in
         checkResult Dresult N k else k) = k).
  { intros k. destruct (Z.ltb_spec MIDSIZE_MAX (zlen d)) as [M|]; [|reflexivity].
    rewrite (C03_xxh3_64_withSecretandSeed_equals_spec c _ d _ s) by (trivial; lia). cbn [bind].
    unfold X3.XXH3_64_withSecretandSeed. rewrite (long64 _ 0 s d s 0 M). apply check_eq. }
  rewrite AS. clear AS.
  
  destruct (vreset_secret _ _ _ s (created_R3 c _ CR) PS BS LS) as (s1 & -> & R1). cbn [bind].
  destruct (whole_ok _ _ _ d PT BD SM (update_R (PSecret s)) _ R1) as (s2 & -> & R2). cbn [bind].
  rewrite (digest_64 _ _ _ R2 SM). cbn [bind]. fold N. rewrite check_eq.
  destruct (vreset_secret _ _ _ s R2 PS BS LS) as (s3 & -> & R3'). cbn [bind].
  destruct (random_ok rounds c _ _ _ d rnd rnd' C PT BD SM (update_R (PSecret s)) DR _ R3') as (s4 & -> & R4). cbn [bind].
  rewrite (digest_64 _ _ _ R4 SM). cbn [bind]. fold N. rewrite check_eq.
  destruct (vreset_secret _ _ _ s R4 PS BS LS) as (s5 & -> & R5). cbn [bind].
  destruct (bytewise_ok _ _ _ d PT BD SM (update_R (PSecret s)) _ R5) as (s6 & -> & R6). cbn [bind].
  rewrite (digest_64 _ _ _ R6 SM). cbn [bind]. fold N. rewrite check_eq.
  destruct (Z.ltb_spec MIDSIZE_MAX (zlen d)) as [M|]; [|reflexivity].
  destruct (vreset_both _ _ _ s 17 R6 PS BS LS ltac:(lia)) as (s7 & -> & R7). cbn [bind].
  destruct (whole_ok _ _ _ d PT BD SM (update_R (PBoth s _)) _ R7) as (s8 & -> & R8). cbn [bind].
  rewrite (digest_64 _ _ _ R8 SM). cbn [bind].
  unfold X3.XXH3_64_withSecretandSeed. rewrite (long64 _ _ s d s 0 M). apply check_eq.
Qed.
Lemma testXXH3_withSecret_wrong ps s sd N rnd : points_to ps s -> bytes_ok s -> 136 <= zlen s <= 192 ->
  X3.XXH3_64_withSecret s d <> N ->
  testXXH3_withSecret rounds c g data ps (zlen s) (zlen d, sd, N) rnd = OK None.
Proof.
  intros PS BS LS NE. pose proof small32 as S32. unfold testXXH3_withSecret. cbv zeta.
  rewrite C03_xxh3_64_withSecret_equals_spec with (m := d) (s := s) by (trivial; lia). cbn [bind]. apply check_neq, NE.
Qed.

Lemma testXXH128_right seed rnd rnd' : 0 <= seed < 2 ^ 64 -> drawn rounds (zlen d) 0 rnd = Some rnd' ->
  testXXH128 rounds c g data (zlen d, seed, X3.XXH3_128_withSeed seed d) rnd = OK (Some rnd').
Proof.
  intros W DR. pose proof G as (CR & L1 & L2). pose proof small32 as S32.
  unfold testXXH128. cbv zeta. destruct (C04_xxh3_128_withSeed_equals_spec c _ d seed C PT BD W) as [E1 E2]. rewrite E1. cbn [bind]. rewrite check_eq128. rewrite E2. cbn [bind]. rewrite check_eq128.
  set (N := X3.XXH3_128_withSeed seed d) in *.
  assert (NS : forall k : go, (if seed =? 0 then let! Dresult := XXH3_128bits c (data_of data (zlen d)) (zlen d) in
     checkResult128 Dresult N k else k) = k).
  { intros k. destruct (Z.eqb_spec seed 0) as [E|]; [|reflexivity]. subst seed. rewrite C04_xxh3_128_equals_spec by trivial. cbn [bind].
    replace (X3.XXH3_128 d) with N; [apply check_eq128|]. subst N. unfold X3.XXH3_128_withSeed, X3.XXH3_128. rewrite derive_00. reflexivity. }
  rewrite NS. clear NS.
  destruct (buf_split _ L1) as (x & old & EB & LO). rewrite EB.
  change 1 with (zlen [x]). rewrite (fromSeed_ok c [x] old [] (g_adr1 g) seed C LO W). cbn [bind].
  destruct (secret_at x seed (g_adr1 g)) as (PS & BS & LS).
  change SECRET_DEFAULT_SIZE with 192. rewrite <- LS.
  rewrite (C04_xxh3_128_withSecretandSeed_equals_spec c _ d _ (X3.deriveSecret seed)) by (trivial; lia). cbn [bind].
  change (X3.XXH3_128_withSecretandSeed (X3.deriveSecret seed) seed d) with N. rewrite check_eq128.
  destruct (memset_at x seed (g_adr1 g)) as (s' & ES & PS' & BS' & LS'). rewrite ES. cbn [bind].
  assert (AS : forall k : go, (if zlen d <=? MIDSIZE_MAX then
      let! Dresult := XXH3_128bits_withSecretandSeed c (data_of data (zlen d)) (zlen d) (Ptr ([x] ++ s' ++ []) (g_adr1 g) (zlen [x]))
         (zlen (X3.deriveSecret seed)) seed in checkResult128 Dresult N k else k) = k).
  { intros k. destruct (Z.leb_spec (zlen d) MIDSIZE_MAX) as [M|]; [|reflexivity]. rewrite LS, <- LS'.
    rewrite (C04_xxh3_128_withSecretandSeed_equals_spec c _ d _ s') by (trivial; lia). cbn [bind].
    unfold X3.XXH3_128_withSecretandSeed. rewrite (short128 _ _ s' (X3.deriveSecret seed) d M). apply check_eq128. }
  rewrite AS. clear AS.
  change (XXH3_128bits_update c) with (XXH3_64bits_update c). unfold XXH3_128bits_reset_withSeed, XXH3_128bits_reset_withSecretandSeed, XXH3_128bits_reset_withSecret in *. 
  destruct (vreset_seed _ _ seed (created_R3 c _ CR) W) as (s1 & -> & R1). cbn [bind].
  destruct (whole_ok _ _ _ d PT BD SM (update_R (PSeed seed)) _ R1) as (s2 & -> & R2). cbn [bind].
  rewrite (digest_128 _ _ _ R2 SM). cbn [bind]. fold N. rewrite check_eq128.
  destruct (vreset_seed _ _ seed R2 W) as (s3 & -> & R3'). cbn [bind].
  destruct (random_ok rounds c _ _ _ d rnd rnd' C PT BD SM (update_R (PSeed seed)) DR _ R3') as (s4 & -> & R4). cbn [bind].
  rewrite (digest_128 _ _ _ R4 SM). cbn [bind]. fold N. rewrite check_eq128.
  destruct (vreset_seed _ _ seed R4 W) as (s5 & -> & R5). cbn [bind].
  destruct (bytewise_ok _ _ _ d PT BD SM (update_R (PSeed seed)) _ R5) as (s6 & -> & R6). cbn [bind].
  rewrite (digest_128 _ _ _ R6 SM). cbn [bind]. fold N. rewrite check_eq128.
  destruct (buf_split _ L2) as (x2 & old2 & EB2 & LO2). rewrite EB2.
  change (zlen [x]) with (zlen [x2]). rewrite (fromSeed_ok c [x2] old2 [] (g_adr2 g) seed C LO2 W). cbn [bind].
  destruct (secret_at x2 seed (g_adr2 g)) as (PS2 & BS2 & _).
  destruct (vreset_both _ _ _ _ seed R6 PS2 BS2 ltac:(lia) W) as (s7 & -> & R7). cbn [bind].
  destruct (whole_ok _ _ _ d PT BD SM (update_R (PBoth _ seed)) _ R7) as (s8 & -> & R8). cbn [bind].
  rewrite (digest_128 _ _ _ R8 SM). cbn [bind]. change (X3.XXH3_128_withSecretandSeed (X3.deriveSecret seed) seed d) with N. rewrite check_eq128.
  destruct (Z.leb_spec (zlen d) MIDSIZE_MAX) as [M|]; [|reflexivity].
  destruct (memset_at x2 seed (g_adr2 g)) as (s'2 & ES2 & PS'2 & BS'2 & LS'2). rewrite ES2. cbn [bind].
  rewrite LS, <- LS'2.
  destruct (vreset_both _ _ _ _ seed R8 PS'2 BS'2 ltac:(lia) W) as (s9 & -> & R9). cbn [bind].
  destruct (whole_ok _ _ _ d PT BD SM (update_R (PBoth _ seed)) _ R9) as (s10 & -> & R10). cbn [bind].
  rewrite (digest_128 _ _ _ R10 SM). cbn [bind].
  unfold X3.XXH3_128_withSecretandSeed. rewrite (short128 _ _ s'2 (X3.deriveSecret seed) d M). apply check_eq128.
Qed.
Lemma testXXH128_wrong seed N rnd : 0 <= seed < 2 ^ 64 -> X3.XXH3_128_withSeed seed d <> N ->
  testXXH128 rounds c g data (zlen d, seed, N) rnd = OK None.
Proof. intros W NE. unfold testXXH128. cbv zeta. destruct (C04_xxh3_128_withSeed_equals_spec c _ d seed C PT BD W) as [E1 E2]. rewrite E1. cbn [bind]. apply check_neq128, NE. Qed.

Lemma testXXH128_withSecret_right ps s sd rnd rnd' : points_to ps s -> bytes_ok s -> 136 <= zlen s <= 192 ->
  drawn rounds (zlen d) 0 rnd = Some rnd' ->
  testXXH128_withSecret rounds c g data ps (zlen s) (zlen d, sd, X3.XXH3_128_withSecret s d) rnd = OK (Some rnd').
Proof.
  intros PS BS LS DR. pose proof G as (CR & L1 & L2). pose proof small32 as S32.
  unfold testXXH128_withSecret. cbv zeta.
  rewrite C04_xxh3_128_withSecret_equals_spec with (m := d) (s := s) by (trivial; lia). cbn [bind]. rewrite check_eq128.
  set (N := X3.XXH3_128_withSecret s d) in *.
  assert (AS : forall k : go, (if MIDSIZE_MAX <? zlen d then
      let! Dresult := XXH3_128bits_withSecretandSeed c (data_of data (zlen d)) (zlen d) ps (zlen s) 0 in
         checkResult128 Dresult N k else k) = k).
  { intros k. destruct (Z.ltb_spec MIDSIZE_MAX (zlen d)) as [M|]; [|reflexivity].
    rewrite (C04_xxh3_128_withSecretandSeed_equals_spec c _ d _ s) by (trivial; lia). cbn [bind].
    unfold X3.XXH3_128_withSecretandSeed. rewrite (long128 _ 0 s d s 0 M). apply check_eq128. }
  rewrite AS. clear AS.
  change (XXH3_128bits_update c) with (XXH3_64bits_update c). unfold XXH3_128bits_reset_withSeed, XXH3_128bits_reset_withSecretandSeed, XXH3_128bits_reset_withSecret in *. 
  destruct (vreset_secret _ _ _ s (created_R3 c _ CR) PS BS LS) as (s1 & -> & R1). cbn [bind].
  destruct (whole_ok _ _ _ d PT BD SM (update_R (PSecret s)) _ R1) as (s2 & -> & R2). cbn [bind].
  rewrite (digest_128 _ _ _ R2 SM). cbn [bind]. fold N. rewrite check_eq128.
  destruct (vreset_secret _ _ _ s R2 PS BS LS) as (s3 & -> & R3'). cbn [bind].
  destruct (random_ok rounds c _ _ _ d rnd rnd' C PT BD SM (update_R (PSecret s)) DR _ R3') as (s4 & -> & R4). cbn [bind].
  rewrite (digest_128 _ _ _ R4 SM). cbn [bind]. fold N. rewrite check_eq128.
  destruct (vreset_secret _ _ _ s R4 PS BS LS) as (s5 & -> & R5). cbn [bind].
  destruct (bytewise_ok _ _ _ d PT BD SM (update_R (PSecret s)) _ R5) as (s6 & -> & R6). cbn [bind].
  rewrite (digest_128 _ _ _ R6 SM). cbn [bind]. fold N. rewrite check_eq128.
  destruct (Z.ltb_spec MIDSIZE_MAX (zlen d)) as [M|]; [|reflexivity].
  destruct (vreset_both _ _ _ s 0 R6 PS BS LS ltac:(lia)) as (s7 & -> & R7). cbn [bind].
  destruct (whole_ok _ _ _ d PT BD SM (update_R (PBoth s _)) _ R7) as (s8 & -> & R8). cbn [bind].
  rewrite (digest_128 _ _ _ R8 SM). cbn [bind].
  unfold X3.XXH3_128_withSecretandSeed. rewrite (long128 _ _ s d s 0 M). apply check_eq128.
Qed.
Lemma testXXH128_withSecret_wrong ps s sd N rnd : points_to ps s -> bytes_ok s -> 136 <= zlen s <= 192 ->
  X3.XXH3_128_withSecret s d <> N ->
  testXXH128_withSecret rounds c g data ps (zlen s) (zlen d, sd, N) rnd = OK None.
Proof.
  intros PS BS LS NE. pose proof small32 as S32. unfold testXXH128_withSecret. cbv zeta.
  rewrite C04_xxh3_128_withSecret_equals_spec with (m := d) (s := s) by (trivial; lia). cbn [bind]. apply check_neq128, NE.
Qed.
End Sessions.

(** ** The secret generator *)
Import Util.
Definition sampled (size : Z) (s : list Z) : list Z :=
  map (fun i => nth i (generateSecret size s) 0) [0; 62; 131; 191; 241]%nat.
Lemma load8_nth b adr i : 0 <= i < zlen b -> load8 (Ptr b adr i) = OK (nth (Z.to_nat i) b 0).
Proof.
  intros L. unfold load8, load. replace ((0 <=? i) && (0 <=? 1) && (i + 1 <=? zlen b)) with true by lia. cbn [bind]. f_equal.
  unfold zslice. change (Z.to_nat 1) with 1%nat. generalize (Z.to_nat i) as n. clear L i. intros n. revert b.
  induction n as [|n IH]; intros [|x b]; try reflexivity. cbn [skipn nth]. apply IH.
Qed.
Lemma nth_zeros (l : list Z) k : forall n, nth n (l ++ repeat 0 k) 0 = nth n l 0.
Proof.
  induction l as [|x l IH]; intros n.
  - cbn [app]. transitivity 0; [|destruct n; reflexivity]. revert n. induction k as [|k IH]; intros [|n]; try reflexivity. apply IH.
  - destruct n; [reflexivity|]. apply IH.
Qed.
Lemma sample_loop b adr l : Forall (fun i => 0 <= i < zlen b) l -> forall byte, List.length byte = List.length l ->
  fold_right (fun '(s, b) k => let! s := s in if s =? b then k else OK true) (OK false)
    (combine (map (fun i => load8 (Ptr b adr i)) l) byte) =
  OK (if list_eq_dec Z.eq_dec (map (fun i => nth (Z.to_nat i) b 0) l) byte then false else true).
Proof.
  induction 1 as [|i l Hi _ IH]; intros byte E.
  - destruct byte; [reflexivity|discriminate].
  - destruct byte as [|x byte]; [discriminate|]. cbn [map combine fold_right]. rewrite load8_nth by exact Hi. cbn [bind].
    rewrite IH by (cbn in E; lia).
    destruct (Z.eqb_spec (nth (Z.to_nat i) b 0) x) as [Ex|Nx];
      destruct (list_eq_dec Z.eq_dec (nth (Z.to_nat i) b 0 :: map (fun i0 => nth (Z.to_nat i0) b 0) l) (x :: byte)) as [H|H];
      destruct (list_eq_dec Z.eq_dec (map (fun i0 => nth (Z.to_nat i0) b 0) l) byte) as [H'|H']; try reflexivity; exfalso; congruence.
Qed.
Lemma generator_exact c adr p s size byte rnd : cfg_ok c -> (zlen s = 0 \/ points_to p s) -> bytes_ok s -> zlen s <= small ->
  136 <= size <= SECRET_SIZE_MAX -> List.length byte = 5%nat ->
  testSecretGenerator c adr p (zlen s, size, byte) rnd =
  OK (if list_eq_dec Z.eq_dec (sampled size s) byte then Some rnd else None).
Proof.
  intros C PT B L SZ LB. pose proof (small32 c C) as S32. unfold small in L.
  unfold testSecretGenerator, assert_. replace (size <=? SECRET_SIZE_MAX) with true by lia. cbn [bind].
  unfold SECRET_SIZE_MAX in *.
  assert (LO : zlen (repeat 0 (Z.to_nat size)) = size) by (rewrite zlen_repeat; lia).
  replace (repeat 0 (Z.to_nat 9867)) with ([] ++ repeat 0 (Z.to_nat size) ++ repeat 0 (Z.to_nat (9867 - size)))
    by (cbn [app]; rewrite <- repeat_app; f_equal; lia).
  change 0 with (zlen (@nil Z)) at 3. rewrite <- LO at 3. 
  destruct (C19_generateSecret c [] (repeat 0 (Z.to_nat size)) (repeat 0 (Z.to_nat (9867 - size))) adr p s) as [E LG]; trivial; try lia.
  rewrite E. cbn [bind app]. rewrite LO in LG |- *. rewrite sample_loop; [|repeat constructor; llia|exact LB]. cbn [bind].
  replace (map (fun i => nth (Z.to_nat i) (generateSecret size s ++ repeat 0 (Z.to_nat (9867 - size))) 0) [0; 62; 131; 191; 241])
    with (sampled size s) by (unfold sampled; cbn [map]; rewrite !nth_zeros; reflexivity).
  destruct (list_eq_dec Z.eq_dec (sampled size s) byte); reflexivity.
Qed.

(** ** The tables *)
Definition first (n : Z) : list Z := zslice buffer 0 n.
Definition tsec : list Z := zslice buffer 7 147.
Definition in_buf (n : Z) : bool := (0 <=? n) && (n <=? SANITY_BUFFER_SIZE).
Definition w64 (n : Z) : bool := (0 <=? n) && (n <? 2 ^ 64).
Definition eqb2 (x y : Z * Z) : bool := (fst x =? fst y) && (snd x =? snd y).
Fixpoint draws (fuel : nat) (l : list Z) (rnd : Z) : option Z :=
  match l with [] => Some rnd | n :: l => match drawn fuel n 0 rnd with Some rnd => draws fuel l rnd | None => None end end.

Lemma table32 : forallb (fun '(n, sd, N) => in_buf n && (X32.hash (first n) sd =? N)) XXH32_testdata = true.
Proof. vm_compute. reflexivity. Qed.
Lemma table64 : forallb (fun '(n, sd, N) => in_buf n && (X64.hash (first n) sd =? N)) XXH64_testdata = true.
Proof. vm_compute. reflexivity. Qed.
Lemma table3 : forallb (fun '(n, sd, N) => in_buf n && w64 sd && (X3.XXH3_64_withSeed sd (first n) =? N)) XXH3_testdata = true.
Proof. vm_compute. reflexivity. Qed.
Lemma table3s : forallb (fun '(n, sd, N) => in_buf n && (X3.XXH3_64_withSecret tsec (first n) =? N)) XXH3_withSecret_testdata = true.
Proof. vm_compute. reflexivity. Qed.
Lemma table128 : forallb (fun '(n, sd, N) => in_buf n && w64 sd && eqb2 (X3.XXH3_128_withSeed sd (first n)) N) XXH128_testdata = true.
Proof. vm_compute. reflexivity. Qed.
Lemma table128s : forallb (fun '(n, sd, N) => in_buf n && eqb2 (X3.XXH3_128_withSecret tsec (first n)) N) XXH128_withSecret_testdata = true.
Proof. vm_compute. reflexivity. Qed.
(** the sampled bytes without the rest of the secret *)
Definition quick (size : Z) (s : list Z) : list Z :=
  let seed := if zlen s =? 0 then X3.default_secret else s in
  let h := X3.XXH3_128 seed in
  map (fun i => if size <=? i then 0 else
    Z.lxor
      (Z.lxor (X3.byte seed (i mod zlen seed))
              (if i / 16 <? size / 16 then X3.byte (le 16 (val128 (X3.XXH3_128_withSeed (i / 16) (be 16 (val128 h))))) (i mod 16) else 0))
      (if size - 16 <=? i then X3.byte (le 16 (val128 h)) (i - (size - 16)) else 0)) [0; 62; 131; 191; 241].
Lemma nth_tab n f i : 0 <= n -> nth i (tab n f) 0 = if n <=? Z.of_nat i then 0 else f (Z.of_nat i).
Proof.
  intros N. pose proof (tab_len n f N) as L. destruct (Z.leb_spec n (Z.of_nat i)).
  - apply nth_overflow. unfold zlen in L. lia.
  - pose proof (zn_tab n f (Z.of_nat i) ltac:(lia)) as E. unfold zn in E. replace (Z.of_nat i <? 0) with false in E by lia.
    rewrite Nat2Z.id in E. apply nth_error_nth with (d := 0) in E. exact E.
Qed.
Lemma quick_ok size s : 0 <= size -> quick size s = sampled size s.
Proof. intros N. unfold sampled, generateSecret. cbn [map]. rewrite !nth_tab by exact N. reflexivity. Qed.
Lemma table_gen : forallb (fun '(n, size, byte) => in_buf n && (136 <=? size) && (size <=? SECRET_SIZE_MAX) && (zlen byte =? 5) &&
   (if list_eq_dec Z.eq_dec (quick size (first n)) byte then true else false)) XXH3_generateSecret_testdata = true.
Proof. vm_compute. reflexivity. Qed.
Lemma draws_end l : Forall (fun n => 0 <= n) l -> forall s, good s -> exists n s', good s' /\ forall fuel, (n <= fuel)%nat -> draws fuel l s = Some s'.
Proof.
  induction 1 as [|n l N _ IH]; intros s G.
  - exists 0%nat, s. split; [exact G|]. reflexivity.
  - destruct (random_cut_ends n s N G) as (k & s1 & G1 & D1). destruct (IH s1 G1) as (k2 & s2 & G2 & D2).
    exists (Nat.max k k2), s2. split; [exact G2|]. intros fuel F. cbn [draws]. rewrite D1 by lia. apply D2. lia.
Qed.
Definition lens {T} (l : list (Z * Z * T)) : list Z := map (fun t => fst (fst t)) l.
Lemma table_draws s : good s -> exists n s', good s' /\ forall fuel, (n <= fuel)%nat ->
  draws fuel (lens XXH3_testdata ++ lens XXH3_withSecret_testdata ++ lens XXH128_testdata ++ lens XXH128_withSecret_testdata) s = Some s'.
Proof.
  apply draws_end. apply Forall_forall. intros n I.
  assert (F : forallb (fun n => 0 <=? n) (lens XXH3_testdata ++ lens XXH3_withSecret_testdata ++ lens XXH128_testdata ++ lens XXH128_withSecret_testdata) = true) by reflexivity.
  apply Z.leb_le. exact (proj1 (forallb_forall _ _) F n I).
Qed.

(** ** The whole self-test *)
Lemma tests_plain {T} (test : Z -> T -> Z -> go) l (k : Z -> go) : (forall i t rnd, In t l -> test i t rnd = OK (Some rnd)) ->
  forall i rnd, tests test i l rnd k = k rnd.
Proof.
  induction l as [|t l IH]; intros H i rnd; [reflexivity|]. cbn [tests]. rewrite H by (left; reflexivity). cbn [bind].
  apply IH. intros. apply H. right. assumption.
Qed.
Lemma tests_draw {T} fuel (n : T -> Z) (test : Z -> T -> Z -> go) l (k : Z -> go) :
  (forall i t rnd rnd', In t l -> drawn fuel (n t) 0 rnd = Some rnd' -> test i t rnd = OK (Some rnd')) ->
  forall i rnd rest rnd', draws fuel (map n l ++ rest) rnd = Some rnd' ->
  exists rnd1, draws fuel rest rnd1 = Some rnd' /\ tests test i l rnd k = k rnd1.
Proof.
  induction l as [|t l IH]; intros H i rnd rest rnd' D; [exists rnd; split; [exact D|reflexivity]|].
  cbn [map app draws] in D. destruct (drawn fuel (n t) 0 rnd) as [r|] eqn:E; [|discriminate]. cbn [tests].
  rewrite (H i t rnd r) by first [left; reflexivity|exact E]. cbn [bind]. apply IH; [|exact D]. intros. apply H; [right|]; assumption.
Qed.
Lemma buffer_len : zlen buffer = SANITY_BUFFER_SIZE.
Proof. unfold buffer. rewrite gen_len. reflexivity. Qed.
Lemma buffer_ok : bytes_ok buffer.
Proof. apply gen_ok. Qed.
Opaque buffer.
Lemma first_gen (b : list Z) adr n : zlen b = 2367 -> bytes_ok b -> 0 <= n <= 2367 -> zlen (zslice b 0 n) = n /\ bytes_ok (zslice b 0 n) /\
  points_to (data_of (Ptr b adr 0) n) (zslice b 0 n) /\ points_to (Ptr b adr 0) (zslice b 0 n).
Proof.
  intros L B R.
  assert (P : points_to (Ptr b adr 0) (zslice b 0 n)).
  { exists [], (zslice b n (2367 - n)). split; [|reflexivity]. list_eq. }
  split; [apply zlen_zslice; lia|]. split; [apply bytes_ok_zslice, B|]. split; [|exact P].
  unfold data_of. destruct (Z.eqb_spec n 0); [subst n; reflexivity|exact P].
Qed.
Lemma first_at adr n : in_buf n = true -> zlen (first n) = n /\ bytes_ok (first n) /\
  points_to (data_of (Ptr buffer adr 0) n) (first n) /\ points_to (Ptr buffer adr 0) (first n).
Proof. intros R. apply first_gen; [exact buffer_len|exact buffer_ok|]. unfold in_buf, SANITY_BUFFER_SIZE in R. lia. Qed.
Lemma tsec_gen (b : list Z) adr : zlen b = 2367 -> bytes_ok b ->
  zlen (zslice b 7 147) = 147 /\ bytes_ok (zslice b 7 147) /\ points_to (Ptr b adr 7) (zslice b 7 147).
Proof.
  intros L B.
  split; [apply zlen_zslice; lia|]. split; [apply bytes_ok_zslice, B|].
  exists (zslice b 0 7), (zslice b 154 (2367 - 154)). split; [list_eq|rewrite zlen_zslice by lia; reflexivity].
Qed.
Lemma tsec_at adr : zlen tsec = 147 /\ bytes_ok tsec /\ points_to (Ptr buffer adr 7) tsec.
Proof. apply tsec_gen; [exact buffer_len|exact buffer_ok]. Qed.
Definition garbage_ok (g : garbage) : Prop := created3 (g_state g) /\ zlen (g_buf1 g) = 193 /\ zlen (g_buf2 g) = 193.

Lemma eqb2_eq x y : eqb2 x y = true -> x = y.
Proof. unfold eqb2. destruct x, y. cbn [fst snd]. rewrite andb_true_iff, !Z.eqb_eq. intros [-> ->]. reflexivity. Qed.

Ltac in_small R := unfold in_buf, SANITY_BUFFER_SIZE, small in *; lia.
Ltac entry T H := let A := fresh in pose proof (proj1 (forallb_forall _ _) T _ H) as A; cbv beta iota in A;
  rewrite ?andb_true_iff in A; revert A.
Lemma sanity_ok c b adr g s : cfg_ok c -> zlen b = SANITY_BUFFER_SIZE -> (forall k i, garbage_ok (g k i)) -> good s ->
  exists n s', good s' /\ forall rounds, (n <= rounds)%nat -> sanityCheck rounds c b adr g s = OK (Some s').
Proof.
  intros C L G GS. destruct (table_draws s GS) as (nr & rnd' & G' & D0). exists nr, rnd'. split; [exact G'|]. intros rounds NR.
  pose proof (D0 rounds NR) as D. clear D0 NR. unfold sanityCheck. rewrite fill_ok by exact L. cbn [bind].
  destruct (tsec_at adr) as (LT & BT & PT). change (SECRET_SIZE_MIN + 11) with 147. unfold assert_.
  rewrite buffer_len. change (7 + 147 <=? SANITY_BUFFER_SIZE) with true. cbv iota. cbn [bind].
  rewrite tests_plain.
  2:{ intros i [[n sd] N] rnd H. entry table32 H. rewrite Z.eqb_eq. intros (R & <-).
      destruct (first_at adr n R) as (E & B & P & _). rewrite <- E at 1. apply test32_right; rewrite ?E; trivial.
      in_small R. }
  rewrite tests_plain.
  2:{ intros i [[n sd] N] rnd H. entry table64 H. rewrite Z.eqb_eq. intros (R & <-).
      destruct (first_at adr n R) as (E & B & P & _). rewrite <- E at 1. apply test64_right; rewrite ?E; trivial.
      in_small R. }
  edestruct (tests_draw rounds (fun t : Z * Z * Z => fst (fst t)) (fun i => testXXH3 rounds c (g 0 i) (Ptr buffer adr 0))) as (r1 & D1 & ->);
    [|exact D|].
  { intros i [[n sd] N] rnd rnd1 H DR. cbn [fst] in DR. entry table3 H. rewrite Z.eqb_eq. intros ((R & W) & <-).
    destruct (first_at adr n R) as (E & B & P & _). rewrite <- E at 1. apply testXXH3_right; rewrite ?E; trivial.
    - in_small R.
    - apply G.
    - unfold w64 in W. lia. }
  edestruct (tests_draw rounds (fun t : Z * Z * Z => fst (fst t)) (fun i => testXXH3_withSecret rounds c (g 1 i) (Ptr buffer adr 0) (Ptr buffer adr 7) 147)) as (r2 & D2 & ->);
    [|exact D1|].
  { intros i [[n sd] N] rnd rnd1 H DR. cbn [fst] in DR. entry table3s H. rewrite Z.eqb_eq. intros (R & <-).
    destruct (first_at adr n R) as (E & B & P & _). rewrite <- LT, <- E at 1. apply testXXH3_withSecret_right; rewrite ?E; trivial.
    - in_small R.
    - apply G.
    - lia. }
  edestruct (tests_draw rounds (fun t : Z * Z * (Z * Z) => fst (fst t)) (fun i => testXXH128 rounds c (g 2 i) (Ptr buffer adr 0))) as (r3 & D3 & ->);
    [|exact D2|].
  { intros i [[n sd] N] rnd rnd1 H DR. cbn [fst] in DR. entry table128 H. intros ((R & W) & Q). apply eqb2_eq in Q. subst N.
    destruct (first_at adr n R) as (E & B & P & _). rewrite <- E at 1. apply testXXH128_right; rewrite ?E; trivial.
    - in_small R.
    - apply G.
    - unfold w64 in W. lia. }
  rewrite <- (app_nil_r (lens XXH128_withSecret_testdata)) in D3.
  edestruct (tests_draw rounds (fun t : Z * Z * (Z * Z) => fst (fst t)) (fun i => testXXH128_withSecret rounds c (g 3 i) (Ptr buffer adr 0) (Ptr buffer adr 7) 147)) as (r4 & D4 & ->);
    [|exact D3|].
  { intros i [[n sd] N] rnd rnd1 H DR. cbn [fst] in DR. entry table128s H. intros (R & Q). apply eqb2_eq in Q. subst N.
    destruct (first_at adr n R) as (E & B & P & _). rewrite <- LT, <- E at 1. apply testXXH128_withSecret_right; rewrite ?E; trivial.
    - in_small R.
    - apply G.
    - lia. }
  rewrite tests_plain; [cbn [draws] in D4; congruence|].
  intros i [[n size] byte] rnd H. entry table_gen H. intros ((((R & S1) & S2) & LB) & Q). cbn [fst].
  replace (n <=? SANITY_BUFFER_SIZE) with true by (in_small R). cbn [bind].
  destruct (first_at adr n R) as (E & B & P & P'). rewrite <- E at 1.
  rewrite generator_exact; trivial.
  - rewrite quick_ok in Q by lia. destruct (list_eq_dec Z.eq_dec (sampled size (first n)) byte); [reflexivity|discriminate].
  - right. exact P'.
  - rewrite E. in_small R.
  - lia.
  - unfold zlen in LB. lia.
Qed.
