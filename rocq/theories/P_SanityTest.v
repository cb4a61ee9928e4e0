(** The test program and the generator of its vectors. *)
From Verif Require Import Base Mem M_XXH32 M_XXH64 M_XXH3 M_Kernels M_Long M_Stream3 M_Util Spec32 Spec64 Spec3 SpecUtil
  P_Base P_Spec P_XXH32 P_XXH64 P_X3_Long P_Util History P_History Properties1 Properties2 Properties3 Properties4 M_Cli M_Sanity P_Cli P_Rand P_Sanity
  M_SanityTest SpecVec.

(** ** The test functions *)
Lemma check_eq x k : ST.checkResult x x k = k.
Proof. unfold ST.checkResult. rewrite Z.eqb_refl. reflexivity. Qed.
Lemma check_neq x y k : x <> y -> ST.checkResult x y k = OK None.
Proof. intros N. unfold ST.checkResult. apply Z.eqb_neq in N. rewrite N. reflexivity. Qed.
Lemma check_eq128 x k : ST.checkResult128 x x k = k.
Proof. unfold ST.checkResult128. rewrite !Z.eqb_refl. reflexivity. Qed.
Lemma check_neq128 x y k : x <> y -> ST.checkResult128 x y k = OK None.
Proof.
  intros N. unfold ST.checkResult128. destruct x as [a b], y as [a' b']. cbn [fst snd].
  destruct (Z.eqb_spec a a'), (Z.eqb_spec b b'); subst; try reflexivity. congruence.
Qed.
Section Functions.
Context (c : cfg) (C : cfg_ok c).
Context (data : ptr) (d : list Z) (BD : bytes_ok d) (SM : zlen d <= small) (PT : points_to (data_of data (zlen d)) d).
Lemma st32_right seed rnd : ST.testXXH32 c data (zlen d, seed, X32.hash d seed) rnd = OK (Some rnd).
Proof.
  pose proof (small32 c C) as S32. unfold small in SM. unfold ST.testXXH32. cbv zeta. change ST.randomUpdate with randomUpdate.
  assert (UP : forall m st p x, rep32 seed m st -> points_to p x -> bytes_ok x -> zlen x <= small ->
    exists st', XXH32_update c st p (zlen x) = OK (XXH_OK, st') /\ rep32 seed (m ++ x) st').
  { intros. apply update32_ok; trivial. unfold small in *. lia. }
  rewrite C01_xxh32_equals_spec with (m := d) by (trivial; lia). cbn [bind]. rewrite check_eq.
  destruct (whole_ok _ _ _ d PT BD SM UP _ (reset32_rep seed)) as (st & -> & R). cbn [bind].
  rewrite (digest32_ok c seed d st C R). cbn [bind]. rewrite check_eq.
  destruct (bytewise_ok _ _ _ d PT BD SM UP _ (reset32_rep seed)) as (st2 & -> & R2). cbn [bind].
  rewrite (digest32_ok c seed d st2 C R2). cbn [bind]. rewrite check_eq. reflexivity.
Qed.
Lemma st32_wrong seed N rnd : X32.hash d seed <> N -> ST.testXXH32 c data (zlen d, seed, N) rnd = OK None.
Proof.
  intros NE. pose proof (small32 c C) as S32. unfold small in SM. unfold ST.testXXH32. cbv zeta. change ST.randomUpdate with randomUpdate.
  rewrite C01_xxh32_equals_spec with (m := d) by (trivial; lia). cbn [bind]. apply check_neq, NE.
Qed.
Lemma st64_right seed rnd : ST.testXXH64 c data (zlen d, seed, X64.hash d seed) rnd = OK (Some rnd).
Proof.
  pose proof (small32 c C) as S32. unfold small in SM. unfold ST.testXXH64. cbv zeta. change ST.randomUpdate with randomUpdate.
  assert (UP : forall m st p x, rep64 seed m st -> points_to p x -> bytes_ok x -> zlen x <= small ->
    exists st', XXH64_update c st p (zlen x) = OK (XXH_OK, st') /\ rep64 seed (m ++ x) st').
  { intros. apply update64_ok; trivial. unfold small in *. lia. }
  rewrite C02_xxh64_equals_spec with (m := d) by (trivial; lia). cbn [bind]. rewrite check_eq.
  destruct (whole_ok _ _ _ d PT BD SM UP _ (reset64_rep seed)) as (st & -> & R). cbn [bind].
  rewrite (digest64_ok c seed d st C R) by lia. cbn [bind]. rewrite check_eq.
  destruct (bytewise_ok _ _ _ d PT BD SM UP _ (reset64_rep seed)) as (st2 & -> & R2). cbn [bind].
  rewrite (digest64_ok c seed d st2 C R2) by lia. cbn [bind]. rewrite check_eq. reflexivity.
Qed.
Lemma st64_wrong seed N rnd : X64.hash d seed <> N -> ST.testXXH64 c data (zlen d, seed, N) rnd = OK None.
Proof.
  intros NE. pose proof (small32 c C) as S32. unfold small in SM. unfold ST.testXXH64. cbv zeta. change ST.randomUpdate with randomUpdate.
  rewrite C02_xxh64_equals_spec with (m := d) by (trivial; lia). cbn [bind]. apply check_neq, NE.
Qed.
Context (rounds : nat) (g : garbage) (G : garbage_ok g).
Lemma st3_right ps s seed rnd rnd' : points_to ps s -> bytes_ok s -> 136 <= zlen s <= 192 -> 0 <= seed < 2 ^ 64 -> drawn rounds (zlen d) 0 rnd = Some rnd' ->
  ST.testXXH3 rounds c g data ps (zlen s) (zlen d, seed, X3.XXH3_64_withSeed seed d) rnd = OK (Some rnd').
Proof.
  intros PSS BSS LSS W DR. pose proof G as (CR & L1 & L2). pose proof (small32 c C) as S32.
  unfold ST.testXXH3. cbv zeta. change ST.randomUpdate with randomUpdate. rewrite C03_xxh3_64_withSeed_equals_spec with (m := d) by trivial. cbn [bind]. rewrite check_eq.
  set (N := X3.XXH3_64_withSeed seed d) in *.
  assert (NS : forall k : go, (if seed =? 0 then let! Dresult := XXH3_64bits c (data_of data (zlen d)) (zlen d) in
     ST.checkResult Dresult N k else k) = k).
  { intros k. destruct (Z.eqb_spec seed 0) as [E|]; [|reflexivity]. subst seed. rewrite C03_xxh3_64_equals_spec by trivial. cbn [bind].
    replace (X3.XXH3_64 d) with N; [apply check_eq|]. subst N. unfold X3.XXH3_64_withSeed, X3.XXH3_64. rewrite derive_00. reflexivity. }
  rewrite NS. clear NS.
  destruct (buf_split _ L1) as (x & old & EB & LO). rewrite EB.
  change 1 with (zlen [x]). rewrite (fromSeed_ok c [x] old [] (g_adr1 g) seed C LO W). cbn [bind].
  destruct (secret_at x seed (g_adr1 g)) as (PS & BS & LS).
  change SECRET_DEFAULT_SIZE with 192. rewrite <- LS.
  rewrite (C03_xxh3_64_withSecretandSeed_equals_spec c _ d _ (X3.deriveSecret seed)) by (trivial; lia). cbn [bind].
  change (X3.XXH3_64_withSecretandSeed (X3.deriveSecret seed) seed d) with N. rewrite check_eq.
  assert (AS : forall k : go, (if zlen d <=? MIDSIZE_MAX then
      let! Dresult := XXH3_64bits_withSecretandSeed c (data_of data (zlen d)) (zlen d) ps (zlen s) seed in ST.checkResult Dresult N k else k) = k).
  { intros k. destruct (Z.leb_spec (zlen d) MIDSIZE_MAX) as [M|]; [|reflexivity]. 
    rewrite (C03_xxh3_64_withSecretandSeed_equals_spec c _ d _ s) by (trivial; lia). cbn [bind].
    unfold X3.XXH3_64_withSecretandSeed. rewrite (short64 _ _ s (X3.deriveSecret seed) d M). apply check_eq. }
  rewrite AS. clear AS.
  
  destruct (vreset_seed c C _ _ seed (created_R3 c _ CR) W) as (s1 & -> & R1). cbn [bind].
  destruct (whole_ok _ _ _ d PT BD SM (update_R c C (PSeed seed)) _ R1) as (s2 & -> & R2). cbn [bind].
  rewrite (digest_64 c C _ _ _ R2 SM). cbn [bind]. fold N. rewrite check_eq.
  destruct (vreset_seed c C _ _ seed R2 W) as (s3 & -> & R3'). cbn [bind].
  destruct (random_ok rounds c _ _ _ d rnd rnd' C PT BD SM (update_R c C (PSeed seed)) DR _ R3') as (s4 & -> & R4). cbn [bind].
  rewrite (digest_64 c C _ _ _ R4 SM). cbn [bind]. fold N. rewrite check_eq.
  destruct (vreset_seed c C _ _ seed R4 W) as (s5 & -> & R5). cbn [bind].
  destruct (bytewise_ok _ _ _ d PT BD SM (update_R c C (PSeed seed)) _ R5) as (s6 & -> & R6). cbn [bind].
  rewrite (digest_64 c C _ _ _ R6 SM). cbn [bind]. fold N. rewrite check_eq.
  destruct (buf_split _ L2) as (x2 & old2 & EB2 & LO2). rewrite EB2.
  change (zlen [x]) with (zlen [x2]). rewrite (fromSeed_ok c [x2] old2 [] (g_adr2 g) seed C LO2 W). cbn [bind].
  destruct (secret_at x2 seed (g_adr2 g)) as (PS2 & BS2 & _).
  destruct (vreset_both c C _ _ _ _ seed R6 PS2 BS2 ltac:(lia) W) as (s7 & -> & R7). cbn [bind].
  destruct (whole_ok _ _ _ d PT BD SM (update_R c C (PBoth _ seed)) _ R7) as (s8 & -> & R8). cbn [bind].
  rewrite (digest_64 c C _ _ _ R8 SM). cbn [bind]. change (X3.XXH3_64_withSecretandSeed (X3.deriveSecret seed) seed d) with N. rewrite check_eq.
  destruct (Z.leb_spec (zlen d) MIDSIZE_MAX) as [M|]; [|reflexivity].
  destruct (vreset_both c C _ _ _ _ seed R8 PSS BSS LSS W) as (s9 & -> & R9). cbn [bind].
  destruct (whole_ok _ _ _ d PT BD SM (update_R c C (PBoth _ seed)) _ R9) as (s10 & -> & R10). cbn [bind].
  rewrite (digest_64 c C _ _ _ R10 SM). cbn [bind].
  unfold X3.XXH3_64_withSecretandSeed. rewrite (short64 _ _ s (X3.deriveSecret seed) d M). apply check_eq.
Qed.
Lemma st3_wrong ps (s : list Z) seed N rnd : 0 <= seed < 2 ^ 64 -> X3.XXH3_64_withSeed seed d <> N ->
  ST.testXXH3 rounds c g data ps (zlen s) (zlen d, seed, N) rnd = OK None.
Proof. intros W NE. unfold ST.testXXH3. cbv zeta. change ST.randomUpdate with randomUpdate. rewrite C03_xxh3_64_withSeed_equals_spec with (m := d) by trivial. cbn [bind]. apply check_neq, NE. Qed.
Lemma st3s_right ps s sd rnd rnd' : points_to ps s -> bytes_ok s -> 136 <= zlen s <= 192 ->
  drawn rounds (zlen d) 0 rnd = Some rnd' ->
  ST.testXXH3_withSecret rounds c g data ps (zlen s) (zlen d, sd, X3.XXH3_64_withSecret s d) rnd = OK (Some rnd').
Proof.
  intros PS BS LS DR. pose proof G as (CR & L1 & L2). pose proof (small32 c C) as S32.
  unfold ST.testXXH3_withSecret. cbv zeta. change ST.randomUpdate with randomUpdate.
  rewrite C03_xxh3_64_withSecret_equals_spec with (m := d) (s := s) by (trivial; lia). cbn [bind]. rewrite check_eq.
  set (N := X3.XXH3_64_withSecret s d) in *.
  assert (AS : forall k : go, (if MIDSIZE_MAX <? zlen d then
      let! Dresult := XXH3_64bits_withSecretandSeed c (data_of data (zlen d)) (zlen d) ps (zlen s) 0 in
         ST.checkResult Dresult N k else k) = k).
  { intros k. destruct (Z.ltb_spec MIDSIZE_MAX (zlen d)) as [M|]; [|reflexivity].
    rewrite (C03_xxh3_64_withSecretandSeed_equals_spec c _ d _ s) by (trivial; lia). cbn [bind].
    unfold X3.XXH3_64_withSecretandSeed. rewrite (long64 _ 0 s d s 0 M). apply check_eq. }
  rewrite AS. clear AS.
  
  destruct (vreset_secret c C _ _ _ s (created_R3 c _ CR) PS BS LS) as (s1 & -> & R1). cbn [bind].
  destruct (whole_ok _ _ _ d PT BD SM (update_R c C (PSecret s)) _ R1) as (s2 & -> & R2). cbn [bind].
  rewrite (digest_64 c C _ _ _ R2 SM). cbn [bind]. fold N. rewrite check_eq.
  destruct (vreset_secret c C _ _ _ s R2 PS BS LS) as (s3 & -> & R3'). cbn [bind].
  destruct (random_ok rounds c _ _ _ d rnd rnd' C PT BD SM (update_R c C (PSecret s)) DR _ R3') as (s4 & -> & R4). cbn [bind].
  rewrite (digest_64 c C _ _ _ R4 SM). cbn [bind]. fold N. rewrite check_eq.
  destruct (vreset_secret c C _ _ _ s R4 PS BS LS) as (s5 & -> & R5). cbn [bind].
  destruct (bytewise_ok _ _ _ d PT BD SM (update_R c C (PSecret s)) _ R5) as (s6 & -> & R6). cbn [bind].
  rewrite (digest_64 c C _ _ _ R6 SM). cbn [bind]. fold N. rewrite check_eq.
  destruct (Z.ltb_spec MIDSIZE_MAX (zlen d)) as [M|]; [|reflexivity].
  destruct (vreset_both c C _ _ _ s 0 R6 PS BS LS ltac:(lia)) as (s7 & -> & R7). cbn [bind].
  destruct (whole_ok _ _ _ d PT BD SM (update_R c C (PBoth s _)) _ R7) as (s8 & -> & R8). cbn [bind].
  rewrite (digest_64 c C _ _ _ R8 SM). cbn [bind].
  unfold X3.XXH3_64_withSecretandSeed. rewrite (long64 _ _ s d s 0 M). apply check_eq.
Qed.
Lemma st3s_wrong ps s sd N rnd : points_to ps s -> bytes_ok s -> 136 <= zlen s <= 192 ->
  X3.XXH3_64_withSecret s d <> N ->
  ST.testXXH3_withSecret rounds c g data ps (zlen s) (zlen d, sd, N) rnd = OK None.
Proof.
  intros PS BS LS NE. pose proof (small32 c C) as S32. unfold ST.testXXH3_withSecret. cbv zeta. change ST.randomUpdate with randomUpdate.
  rewrite C03_xxh3_64_withSecret_equals_spec with (m := d) (s := s) by (trivial; lia). cbn [bind]. apply check_neq, NE.
Qed.
Lemma st128_right ps s seed rnd rnd' : points_to ps s -> bytes_ok s -> 136 <= zlen s <= 192 -> 0 <= seed < 2 ^ 64 -> drawn rounds (zlen d) 0 rnd = Some rnd' ->
  ST.testXXH128 rounds c g data ps (zlen s) (zlen d, seed, X3.XXH3_128_withSeed seed d) rnd = OK (Some rnd').
Proof.
  intros PSS BSS LSS W DR. pose proof G as (CR & L1 & L2). pose proof (small32 c C) as S32.
  unfold ST.testXXH128. cbv zeta. change ST.randomUpdate with randomUpdate. destruct (C04_xxh3_128_withSeed_equals_spec c _ d seed C PT BD W) as [E1 E2]. rewrite E1. cbn [bind]. rewrite check_eq128. rewrite E2. cbn [bind]. rewrite check_eq128.
  set (N := X3.XXH3_128_withSeed seed d) in *.
  assert (NS : forall k : go, (if seed =? 0 then let! Dresult := XXH3_128bits c (data_of data (zlen d)) (zlen d) in
     ST.checkResult128 Dresult N k else k) = k).
  { intros k. destruct (Z.eqb_spec seed 0) as [E|]; [|reflexivity]. subst seed. rewrite C04_xxh3_128_equals_spec by trivial. cbn [bind].
    replace (X3.XXH3_128 d) with N; [apply check_eq128|]. subst N. unfold X3.XXH3_128_withSeed, X3.XXH3_128. rewrite derive_00. reflexivity. }
  rewrite NS. clear NS.
  destruct (buf_split _ L1) as (x & old & EB & LO). rewrite EB.
  change 1 with (zlen [x]). rewrite (fromSeed_ok c [x] old [] (g_adr1 g) seed C LO W). cbn [bind].
  destruct (secret_at x seed (g_adr1 g)) as (PS & BS & LS).
  change SECRET_DEFAULT_SIZE with 192. rewrite <- LS.
  rewrite (C04_xxh3_128_withSecretandSeed_equals_spec c _ d _ (X3.deriveSecret seed)) by (trivial; lia). cbn [bind].
  change (X3.XXH3_128_withSecretandSeed (X3.deriveSecret seed) seed d) with N. rewrite check_eq128.
  assert (AS : forall k : go, (if zlen d <=? MIDSIZE_MAX then
      let! Dresult := XXH3_128bits_withSecretandSeed c (data_of data (zlen d)) (zlen d) ps (zlen s) seed in ST.checkResult128 Dresult N k else k) = k).
  { intros k. destruct (Z.leb_spec (zlen d) MIDSIZE_MAX) as [M|]; [|reflexivity]. 
    rewrite (C04_xxh3_128_withSecretandSeed_equals_spec c _ d _ s) by (trivial; lia). cbn [bind].
    unfold X3.XXH3_128_withSecretandSeed. rewrite (short128 _ _ s (X3.deriveSecret seed) d M). apply check_eq128. }
  rewrite AS. clear AS.
  change (XXH3_128bits_update c) with (XXH3_64bits_update c). unfold XXH3_128bits_reset_withSeed, XXH3_128bits_reset_withSecretandSeed, XXH3_128bits_reset_withSecret in *. 
  destruct (vreset_seed c C _ _ seed (created_R3 c _ CR) W) as (s1 & -> & R1). cbn [bind].
  destruct (whole_ok _ _ _ d PT BD SM (update_R c C (PSeed seed)) _ R1) as (s2 & -> & R2). cbn [bind].
  rewrite (digest_128 c C _ _ _ R2 SM). cbn [bind]. fold N. rewrite check_eq128.
  destruct (vreset_seed c C _ _ seed R2 W) as (s3 & -> & R3'). cbn [bind].
  destruct (random_ok rounds c _ _ _ d rnd rnd' C PT BD SM (update_R c C (PSeed seed)) DR _ R3') as (s4 & -> & R4). cbn [bind].
  rewrite (digest_128 c C _ _ _ R4 SM). cbn [bind]. fold N. rewrite check_eq128.
  destruct (vreset_seed c C _ _ seed R4 W) as (s5 & -> & R5). cbn [bind].
  destruct (bytewise_ok _ _ _ d PT BD SM (update_R c C (PSeed seed)) _ R5) as (s6 & -> & R6). cbn [bind].
  rewrite (digest_128 c C _ _ _ R6 SM). cbn [bind]. fold N. rewrite check_eq128.
  destruct (buf_split _ L2) as (x2 & old2 & EB2 & LO2). rewrite EB2.
  change (zlen [x]) with (zlen [x2]). rewrite (fromSeed_ok c [x2] old2 [] (g_adr2 g) seed C LO2 W). cbn [bind].
  destruct (secret_at x2 seed (g_adr2 g)) as (PS2 & BS2 & _).
  destruct (vreset_both c C _ _ _ _ seed R6 PS2 BS2 ltac:(lia) W) as (s7 & -> & R7). cbn [bind].
  destruct (whole_ok _ _ _ d PT BD SM (update_R c C (PBoth _ seed)) _ R7) as (s8 & -> & R8). cbn [bind].
  rewrite (digest_128 c C _ _ _ R8 SM). cbn [bind]. change (X3.XXH3_128_withSecretandSeed (X3.deriveSecret seed) seed d) with N. rewrite check_eq128.
  destruct (Z.leb_spec (zlen d) MIDSIZE_MAX) as [M|]; [|reflexivity].
  destruct (vreset_both c C _ _ _ _ seed R8 PSS BSS LSS W) as (s9 & -> & R9). cbn [bind].
  destruct (whole_ok _ _ _ d PT BD SM (update_R c C (PBoth _ seed)) _ R9) as (s10 & -> & R10). cbn [bind].
  rewrite (digest_128 c C _ _ _ R10 SM). cbn [bind].
  unfold X3.XXH3_128_withSecretandSeed. rewrite (short128 _ _ s (X3.deriveSecret seed) d M). apply check_eq128.
Qed.
Lemma st128_wrong ps (s : list Z) seed N rnd : 0 <= seed < 2 ^ 64 -> X3.XXH3_128_withSeed seed d <> N ->
  ST.testXXH128 rounds c g data ps (zlen s) (zlen d, seed, N) rnd = OK None.
Proof. intros W NE. unfold ST.testXXH128. cbv zeta. change ST.randomUpdate with randomUpdate. destruct (C04_xxh3_128_withSeed_equals_spec c _ d seed C PT BD W) as [E1 E2]. rewrite E1. cbn [bind]. apply check_neq128, NE. Qed.
Lemma st128s_right ps s sd rnd rnd' : points_to ps s -> bytes_ok s -> 136 <= zlen s <= 192 ->
  drawn rounds (zlen d) 0 rnd = Some rnd' ->
  ST.testXXH128_withSecret rounds c g data ps (zlen s) (zlen d, sd, X3.XXH3_128_withSecret s d) rnd = OK (Some rnd').
Proof.
  intros PS BS LS DR. pose proof G as (CR & L1 & L2). pose proof (small32 c C) as S32.
  unfold ST.testXXH128_withSecret. cbv zeta. change ST.randomUpdate with randomUpdate.
  rewrite C04_xxh3_128_withSecret_equals_spec with (m := d) (s := s) by (trivial; lia). cbn [bind]. rewrite check_eq128.
  set (N := X3.XXH3_128_withSecret s d) in *.
  assert (AS : forall k : go, (if MIDSIZE_MAX <? zlen d then
      let! Dresult := XXH3_128bits_withSecretandSeed c (data_of data (zlen d)) (zlen d) ps (zlen s) 0 in
         ST.checkResult128 Dresult N k else k) = k).
  { intros k. destruct (Z.ltb_spec MIDSIZE_MAX (zlen d)) as [M|]; [|reflexivity].
    rewrite (C04_xxh3_128_withSecretandSeed_equals_spec c _ d _ s) by (trivial; lia). cbn [bind].
    unfold X3.XXH3_128_withSecretandSeed. rewrite (long128 _ 0 s d s 0 M). apply check_eq128. }
  rewrite AS. clear AS.
  change (XXH3_128bits_update c) with (XXH3_64bits_update c). unfold XXH3_128bits_reset_withSeed, XXH3_128bits_reset_withSecretandSeed, XXH3_128bits_reset_withSecret in *. 
  destruct (vreset_secret c C _ _ _ s (created_R3 c _ CR) PS BS LS) as (s1 & -> & R1). cbn [bind].
  destruct (whole_ok _ _ _ d PT BD SM (update_R c C (PSecret s)) _ R1) as (s2 & -> & R2). cbn [bind].
  rewrite (digest_128 c C _ _ _ R2 SM). cbn [bind]. fold N. rewrite check_eq128.
  destruct (vreset_secret c C _ _ _ s R2 PS BS LS) as (s3 & -> & R3'). cbn [bind].
  destruct (random_ok rounds c _ _ _ d rnd rnd' C PT BD SM (update_R c C (PSecret s)) DR _ R3') as (s4 & -> & R4). cbn [bind].
  rewrite (digest_128 c C _ _ _ R4 SM). cbn [bind]. fold N. rewrite check_eq128.
  destruct (vreset_secret c C _ _ _ s R4 PS BS LS) as (s5 & -> & R5). cbn [bind].
  destruct (bytewise_ok _ _ _ d PT BD SM (update_R c C (PSecret s)) _ R5) as (s6 & -> & R6). cbn [bind].
  rewrite (digest_128 c C _ _ _ R6 SM). cbn [bind]. fold N. rewrite check_eq128.
  destruct (Z.ltb_spec MIDSIZE_MAX (zlen d)) as [M|]; [|reflexivity].
  destruct (vreset_both c C _ _ _ s 0 R6 PS BS LS ltac:(lia)) as (s7 & -> & R7). cbn [bind].
  destruct (whole_ok _ _ _ d PT BD SM (update_R c C (PBoth s _)) _ R7) as (s8 & -> & R8). cbn [bind].
  rewrite (digest_128 c C _ _ _ R8 SM). cbn [bind].
  unfold X3.XXH3_128_withSecretandSeed. rewrite (long128 _ _ s d s 0 M). apply check_eq128.
Qed.
Lemma st128s_wrong ps s sd N rnd : points_to ps s -> bytes_ok s -> 136 <= zlen s <= 192 ->
  X3.XXH3_128_withSecret s d <> N ->
  ST.testXXH128_withSecret rounds c g data ps (zlen s) (zlen d, sd, N) rnd = OK None.
Proof.
  intros PS BS LS NE. pose proof (small32 c C) as S32. unfold ST.testXXH128_withSecret. cbv zeta. change ST.randomUpdate with randomUpdate.
  rewrite C04_xxh3_128_withSecret_equals_spec with (m := d) (s := s) by (trivial; lia). cbn [bind]. apply check_neq128, NE.
Qed.
End Functions.

(** ** The data *)
Lemma gen_powers k : forall i, 0 <= i -> gen_bytes k (Vec.P32 * Vec.P64 ^ i mod 2 ^ 64) = map (fun j => Vec.test_byte (i + Z.of_nat j)) (seq 0 k).
Proof.
  induction k as [|k IH]; intros i I; [reflexivity|]. cbn [gen_bytes seq map]. f_equal.
  - rewrite Z.add_0_r. unfold Vec.test_byte. apply Z.mod_small. pose proof (Z.mod_pos_bound (Vec.P32 * Vec.P64 ^ i) (2 ^ 64) ltac:(lia)).
    split; [apply Z.div_pos; lia|]. apply Z.div_lt_upper_bound; lia.
  - rewrite Z.mul_mod_idemp_l by lia. change TPRIME64 with Vec.P64.
    replace (Vec.P32 * Vec.P64 ^ i * Vec.P64) with (Vec.P32 * Vec.P64 ^ (i + 1)) by (rewrite Z.pow_add_r by lia; ring).
    rewrite IH by lia. rewrite <- seq_shift, map_map. apply map_ext. intros j. f_equal. lia.
Qed.
Lemma gen_data n : gen_bytes (Z.to_nat n) TPRIME32 = Vec.data n.
Proof.
  change TPRIME32 with (Vec.P32 * Vec.P64 ^ 0 mod 2 ^ 64). rewrite gen_powers by lia. unfold Vec.data, upto. rewrite map_map. apply map_ext.
  intros j. f_equal.
Qed.
Lemma data_len n : 0 <= n -> zlen (Vec.data n) = n.
Proof. intros N. rewrite <- gen_data, gen_len. lia. Qed.
Lemma data_bytes n : bytes_ok (Vec.data n).
Proof. rewrite <- gen_data. apply gen_ok. Qed.
Lemma secret_eq : Vec.secret = map Vec.test_byte (map Z.of_nat (seq 7 147)).
Proof.
  unfold Vec.secret, upto. change (Z.to_nat 147) with 147%nat. replace (seq 7 147) with (map (Nat.add 7) (seq 0 147)) by reflexivity.
  rewrite !map_map. apply map_ext. intros j. f_equal. lia.
Qed.
Lemma secret_len : zlen Vec.secret = 147.
Proof. reflexivity. Qed.
Lemma data_app n m : 0 <= n <= m -> exists r, Vec.data m = Vec.data n ++ r.
Proof.
  intros N. unfold Vec.data, upto. replace (Z.to_nat m) with (Z.to_nat n + Z.to_nat (m - n))%nat by lia. rewrite seq_app, !map_app. eauto.
Qed.
Lemma data_secret m : 154 <= m -> exists r, Vec.data m = Vec.data 7 ++ Vec.secret ++ r.
Proof.
  intros M. rewrite secret_eq. unfold Vec.data, upto. replace (Z.to_nat m) with (7 + (147 + Z.to_nat (m - 154)))%nat by lia.
  rewrite seq_app, (seq_app 147), !map_app. eauto.
Qed.
Lemma secret_bytes : bytes_ok Vec.secret.
Proof.
  destruct (data_secret 154 ltac:(lia)) as (r & E). pose proof (data_bytes 154) as B. rewrite E in B. unfold bytes_ok in *. apply Forall_app in B. destruct B as [_ B].
  apply Forall_app in B. apply B.
Qed.
#[local] Opaque Vec.data Vec.secret.
Lemma at_data m adr n : 0 <= n <= m -> points_to (Ptr (Vec.data m) adr 0) (Vec.data n).
Proof. intros N. destruct (data_app n m N) as (r & E). exists [], r. split; [exact E|reflexivity]. Qed.
Lemma at_data0 m adr n : 0 <= n <= m -> points_to (data_of (Ptr (Vec.data m) adr 0) n) (Vec.data n).
Proof.
  intros N. unfold data_of. destruct (Z.eqb_spec n 0) as [E|]; [subst n; reflexivity|]. apply at_data, N.
Qed.
Lemma at_secret m adr : 154 <= m -> points_to (Ptr (Vec.data m) adr 7) Vec.secret.
Proof. intros M. destruct (data_secret m M) as (r & E). exists (Vec.data 7), r. split; [exact E|]. rewrite data_len by lia. reflexivity. Qed.
Lemma filled b m : 0 <= m -> zlen b = m -> ST.fillTestBuffer b m = OK (Vec.data m).
Proof.
  intros M L. unfold ST.fillTestBuffer. destruct (fill_loop (Z.to_nat m) [] b [] TPRIME32) as (g & E); [lia|].
  change (zlen []) with 0 in E. cbn [app] in E. rewrite app_nil_r in E.
  change ST.PRIME32 with TPRIME32. change ST.PRIME64 with TPRIME64. rewrite E. cbn [bind]. rewrite app_nil_r, gen_data. reflexivity.
Qed.

(** ** The samples *)
Lemma sampled5 b adr : 242 <= zlen b ->
  for_ 5 0 (fun i samples => let! x := load8 (Ptr b adr (nth (Z.to_nat i) [0; 62; 131; 191; 241] 0)) in OK (samples ++ [x])) [] =
  OK (map (fun i => nth i b 0) [0; 62; 131; 191; 241]%nat).
Proof.
  intros L. cbn [for_].
  repeat match goal with |- context [nth (Z.to_nat ?i) ?l 0] => let v := eval compute in (nth (Z.to_nat i) l 0) in change (nth (Z.to_nat i) l 0) with v end.
  rewrite !load8_nth by lia. cbn [bind app map]. reflexivity.
Qed.
Lemma made c adr size p s : cfg_ok c -> (zlen s = 0 \/ points_to p s) -> bytes_ok s -> zlen s <= small -> 136 <= size <= 9867 ->
  XXH3_generateSecret c (Ptr (repeat 0 (Z.to_nat SECRET_SIZE_MAX)) adr 0) size p (zlen s) =
  OK (XXH_OK, Util.generateSecret size s ++ repeat 0 (Z.to_nat (9867 - size))) /\ zlen (Util.generateSecret size s) = size.
Proof.
  intros C PT B L SZ. pose proof (small32 c C) as S32. unfold small in L. unfold SECRET_SIZE_MAX.
  assert (LO : zlen (repeat 0 (Z.to_nat size)) = size) by (rewrite zlen_repeat; lia).
  replace (repeat 0 (Z.to_nat 9867)) with ([] ++ repeat 0 (Z.to_nat size) ++ repeat 0 (Z.to_nat (9867 - size)))
    by (cbn [app]; rewrite <- repeat_app; f_equal; lia).
  destruct (C19_generateSecret c [] (repeat 0 (Z.to_nat size)) (repeat 0 (Z.to_nat (9867 - size))) adr p s) as [E LG]; trivial; try lia.
  rewrite LO in *. split; [exact E|exact LG].
Qed.
Lemma made_sample size n : map (fun i => nth i (Util.generateSecret size (Vec.data n) ++ repeat 0 (Z.to_nat (9867 - size))) 0) [0; 62; 131; 191; 241]%nat = Vec.sample n size.
Proof. unfold Vec.sample. cbn [map]. rewrite !nth_zeros. reflexivity. Qed.

(** ** The loops of main *)
(** from some bound on, the value is [r] *)
Definition ev {A} (f : nat -> A) (r : A) : Prop := exists n, forall rounds, (n <= rounds)%nat -> f rounds = r.
Lemma loop {T} c step (P : Z -> Prop) (ok : T -> Prop) (dec : forall t, {ok t} + {~ ok t}) (test : nat -> Z -> T -> Z -> go) l (K : nat -> Z -> res (option Z)) :
  cfg_ok c ->
  (forall t, In t l -> forall i s, P s -> exists n s', P s' /\ forall rounds, (n <= rounds)%nat ->
     test rounds i t s = OK (if dec t then Some s' else None)) ->
  forall i s cnt, P s -> 0 <= cnt < 2 ^ szbits c ->
  exists n, forall rounds, (n <= rounds)%nat ->
    ST.tests c step (test rounds) i l s cnt (K rounds) =
    if Forall_dec ok dec l then K rounds ((cnt + step * Vec.count l) mod 2 ^ szbits c) else OK None.
Proof.
  intros C. induction l as [|t l IH]; intros HT i s cnt PS CR.
  - exists 0%nat. intros rounds _. cbn [ST.tests]. destruct (Forall_dec ok dec []) as [_|N]; [|destruct N; constructor].
    f_equal. symmetry. unfold Vec.count. cbn [List.length]. rewrite Z.mul_0_r, Z.add_0_r. apply Z.mod_small, CR.
  - destruct (HT t (or_introl eq_refl) i s PS) as (n & s' & PS' & E).
    assert (CR' : 0 <= usz c (cnt + step) < 2 ^ szbits c) by (apply Z.mod_pos_bound; pose proof (small32 c C); lia).
    destruct (IH (fun t I => HT t (or_intror I)) (i + 1) s' (usz c (cnt + step)) PS' CR') as (n2 & E2).
    exists (Nat.max n n2). intros rounds N. cbn [ST.tests]. rewrite E by lia. cbn [bind].
    destruct (dec t) as [D|D].
    + rewrite E2 by lia. unfold usz.
      destruct (Forall_dec ok dec l) as [F|F]; destruct (Forall_dec ok dec (t :: l)) as [F'|F'].
      * rewrite Z.add_mod_idemp_l by (pose proof (small32 c C); lia). do 2 f_equal. unfold Vec.count. cbn [List.length]. lia.
      * destruct F'. constructor; trivial.
      * inversion F'; subst. contradiction.
      * reflexivity.
    + destruct (Forall_dec ok dec (t :: l)) as [F|F]; [inversion F; subst; contradiction|]. reflexivity.
Qed.
Lemma ev_loop {T} c step (P : Z -> Prop) (ok : T -> Prop) (dec : forall t, {ok t} + {~ ok t}) (test : nat -> Z -> T -> Z -> go) l (K : nat -> Z -> res (option Z)) i s cnt R :
  cfg_ok c -> P s -> 0 <= cnt < 2 ^ szbits c ->
  (forall t, In t l -> forall i s, P s -> exists n s', P s' /\ forall rounds, (n <= rounds)%nat ->
     test rounds i t s = OK (if dec t then Some s' else None)) ->
  (~ Forall ok l -> R = OK None) ->
  (Forall ok l -> 0 <= (cnt + step * Vec.count l) mod 2 ^ szbits c < 2 ^ szbits c -> ev (fun rounds => K rounds ((cnt + step * Vec.count l) mod 2 ^ szbits c)) R) ->
  ev (fun rounds => ST.tests c step (test rounds) i l s cnt (K rounds)) R.
Proof.
  intros C PS CR HT HN HY. destruct (loop c step P ok dec test l K C HT i s cnt PS CR) as (n & E).
  destruct (Forall_dec ok dec l) as [F|F].
  - assert (W : 0 < 2 ^ szbits c) by (pose proof (small32 c C); lia). destruct (HY F (Z.mod_pos_bound _ _ W)) as (n2 & E2). exists (Nat.max n n2). intros rounds N. rewrite E, E2 by lia. reflexivity.
  - exists n. intros rounds N. rewrite E, HN by trivial. reflexivity.
Qed.
(** a test function that does not draw *)
Definition any (s : Z) : Prop := True.

Definition right_dec h t : {Vec.right h t} + {~ Vec.right h t}.
Proof. destruct t as [[n sd] r]. apply Z.eq_dec. Defined.
Definition right128_dec h t : {Vec.right128 h t} + {~ Vec.right128 h t}.
Proof. destruct t as [[n sd] r]. cbn. decide equality; apply Z.eq_dec. Defined.
Definition right_sample_dec t : {Vec.right_sample t} + {~ Vec.right_sample t}.
Proof. destruct t as [[n sd] r]. apply (list_eq_dec Z.eq_dec). Defined.
Lemma all_right_dec v : {Vec.all_right v} + {~ Vec.all_right v}.
Proof.
  unfold Vec.all_right.
  repeat match goal with |- {?A /\ ?B} + {_} => let H := fresh in assert (H : {A} + {~ A}); [|destruct H; [|right; tauto]; assert (H : {B} + {~ B}); [|destruct H; [left|right]; tauto]] end;
  apply Forall_dec; first [apply right_dec|apply right128_dec|apply right_sample_dec].
Qed.
Lemma seed_good step : exists s, ST.computeRandSeed step = OK s /\ good s.
Proof.
  unfold ST.computeRandSeed. destruct (for_inv (fun _ s => good s) (fun _ s => OK (snd (ST.rand s))) (Z.to_nat step) 0 ST.PRIME32) as (s & E & G).
  - split; [unfold ST.PRIME32; lia|reflexivity].
  - intros i s _ G. eexists. split; [reflexivity|]. apply good_next, G.
  - exists s. split; [exact E|exact G].
Qed.

Section Main.
Context (c : cfg) (C : cfg_ok c) (b : list Z) (L : zlen b = 4161) (adr : Z) (g : Z -> Z -> garbage) (G : forall k i, garbage_ok (g k i)).
Notation buf := (Ptr (Vec.data 4161) adr 0).
Notation sec := (Ptr (Vec.data 4161) adr 7).
Lemma entry_data n : 0 <= n <= 4161 -> zlen (Vec.data n) = n /\ bytes_ok (Vec.data n) /\ zlen (Vec.data n) <= small /\ points_to (data_of buf (zlen (Vec.data n))) (Vec.data n).
Proof.
  intros N. pose proof (data_len n ltac:(lia)) as E. split; [exact E|]. split; [apply data_bytes|]. rewrite E. split; [unfold small; lia|]. apply at_data0, N.
Qed.
Lemma e32 t : Vec.fits t -> forall (i : Z) s, any s -> exists n s', any s' /\ forall rounds : nat, (n <= rounds)%nat ->
  ST.testXXH32 c buf t s = OK (if right_dec (fun s m => X32.hash m s) t then Some s' else None).
Proof.
  destruct t as [[n sd] r]. intros [N S] i s _. cbn [fst snd] in *. destruct (entry_data n N) as (E & B & SM & P).
  exists 0%nat, s. split; [exact I|]. intros _ _. unfold right_dec. destruct (Z.eq_dec r (X32.hash (Vec.data n) sd)) as [->|NE].
  - rewrite <- E at 1. apply st32_right; trivial.
  - rewrite <- E at 1. apply st32_wrong; trivial. congruence.
Qed.
Lemma e64 t : Vec.fits t -> forall (i : Z) s, any s -> exists n s', any s' /\ forall rounds : nat, (n <= rounds)%nat ->
  ST.testXXH64 c buf t s = OK (if right_dec (fun s m => X64.hash m s) t then Some s' else None).
Proof.
  destruct t as [[n sd] r]. intros [N S] i s _. cbn [fst snd] in *. destruct (entry_data n N) as (E & B & SM & P).
  exists 0%nat, s. split; [exact I|]. intros _ _. unfold right_dec. destruct (Z.eq_dec r (X64.hash (Vec.data n) sd)) as [->|NE].
  - rewrite <- E at 1. apply st64_right; trivial.
  - rewrite <- E at 1. apply st64_wrong; trivial. congruence.
Qed.
Lemma sec_ok : points_to sec Vec.secret /\ bytes_ok Vec.secret /\ 136 <= zlen Vec.secret <= 192.
Proof. split; [apply at_secret; lia|]. split; [exact secret_bytes|]. rewrite secret_len. lia. Qed.
Lemma e3 k t : Vec.fits t -> forall i s, good s -> exists n s', good s' /\ forall rounds : nat, (n <= rounds)%nat ->
  ST.testXXH3 rounds c (g k i) buf sec 147 t s = OK (if right_dec X3.XXH3_64_withSeed t then Some s' else None).
Proof.
  destruct t as [[n sd] r]. intros [N S] i s GS. cbn [fst snd] in *. destruct (entry_data n N) as (E & B & SM & P).
  destruct sec_ok as (PS & BS & LS). destruct (random_cut_ends n s ltac:(lia) GS) as (f & s' & GS' & D).
  exists f, s'. split; [exact GS'|]. intros rounds R. rewrite <- secret_len. unfold right_dec. destruct (Z.eq_dec r (X3.XXH3_64_withSeed sd (Vec.data n))) as [->|NE].
  - rewrite <- E at 1. apply st3_right; trivial; try apply G; rewrite E; apply D, R.
  - rewrite <- E at 1. apply st3_wrong; trivial. congruence.
Qed.
Lemma e3s k t : Vec.fits t -> forall i s, good s -> exists n s', good s' /\ forall rounds : nat, (n <= rounds)%nat ->
  ST.testXXH3_withSecret rounds c (g k i) buf sec 147 t s = OK (if right_dec (fun _ => X3.XXH3_64_withSecret Vec.secret) t then Some s' else None).
Proof.
  destruct t as [[n sd] r]. intros [N S] i s GS. cbn [fst snd] in *. destruct (entry_data n N) as (E & B & SM & P).
  destruct sec_ok as (PS & BS & LS). destruct (random_cut_ends n s ltac:(lia) GS) as (f & s' & GS' & D).
  exists f, s'. split; [exact GS'|]. intros rounds R. rewrite <- secret_len. unfold right_dec. destruct (Z.eq_dec r (X3.XXH3_64_withSecret Vec.secret (Vec.data n))) as [->|NE].
  - rewrite <- E at 1. apply st3s_right; trivial; try apply G; rewrite E; apply D, R.
  - rewrite <- E at 1. apply st3s_wrong; trivial. congruence.
Qed.
Lemma e128 k t : Vec.fits t -> forall i s, good s -> exists n s', good s' /\ forall rounds : nat, (n <= rounds)%nat ->
  ST.testXXH128 rounds c (g k i) buf sec 147 t s = OK (if right128_dec X3.XXH3_128_withSeed t then Some s' else None).
Proof.
  destruct t as [[n sd] r]. intros [N S] i s GS. cbn [fst snd] in *. destruct (entry_data n N) as (E & B & SM & P).
  destruct sec_ok as (PS & BS & LS). destruct (random_cut_ends n s ltac:(lia) GS) as (f & s' & GS' & D).
  exists f, s'. split; [exact GS'|]. intros rounds R. rewrite <- secret_len. destruct (right128_dec _ _) as [Q|NE]; [unfold Vec.right128 in Q; subst r|unfold Vec.right128 in NE].
  - rewrite <- E at 1. apply st128_right; trivial; try apply G; rewrite E; apply D, R.
  - rewrite <- E at 1. apply st128_wrong; trivial. congruence.
Qed.
Lemma e128s k t : Vec.fits t -> forall i s, good s -> exists n s', good s' /\ forall rounds : nat, (n <= rounds)%nat ->
  ST.testXXH128_withSecret rounds c (g k i) buf sec 147 t s = OK (if right128_dec (fun _ => X3.XXH3_128_withSecret Vec.secret) t then Some s' else None).
Proof.
  destruct t as [[n sd] r]. intros [N S] i s GS. cbn [fst snd] in *. destruct (entry_data n N) as (E & B & SM & P).
  destruct sec_ok as (PS & BS & LS). destruct (random_cut_ends n s ltac:(lia) GS) as (f & s' & GS' & D).
  exists f, s'. split; [exact GS'|]. intros rounds R. rewrite <- secret_len. destruct (right128_dec _ _) as [Q|NE]; [unfold Vec.right128 in Q; subst r|unfold Vec.right128 in NE].
  - rewrite <- E at 1. apply st128s_right; trivial; try apply G; rewrite E; apply D, R.
  - rewrite <- E at 1. apply st128s_wrong; trivial. congruence.
Qed.
Lemma esample k t : Vec.fits_sample t -> forall (i : Z) s, any s -> exists n s', any s' /\ forall rounds : nat, (n <= rounds)%nat ->
  (let! _ := assert_ (fst (fst t) <=? ST.SANITY_BUFFER_SIZE) in ST.testSecretGenerator c (g_adr1 (g k i)) buf t s) =
  OK (if right_sample_dec t then Some s' else None).
Proof.
  destruct t as [[n size] r]. intros [N S] i s _. cbn [fst snd] in *. destruct (entry_data n N) as (E & B & SM & P).
  exists 0%nat, s. split; [exact I|]. intros _ _. change ST.SANITY_BUFFER_SIZE with 4161. unfold assert_.
  replace (n <=? 4161) with true by lia. cbn [bind]. unfold ST.testSecretGenerator, assert_.
  replace (size <=? SECRET_SIZE_MAX) with true by (unfold SECRET_SIZE_MAX; lia). cbn [bind].
  destruct (made c (g_adr1 (g k i)) size buf (Vec.data n) C) as [M LM]; trivial.
  { right. apply at_data, N. }
  rewrite E in M. rewrite M. cbn [bind]. rewrite sampled5 by (rewrite zlen_app, LM, zlen_repeat; lia). cbn [bind]. rewrite made_sample.
  unfold ST.checkResultTestDataSample. destruct (right_sample_dec _) as [Q|NE]; [unfold Vec.right_sample in Q; subst r|unfold Vec.right_sample in NE].
  - replace (eqb_list _ _) with true; [reflexivity|]. symmetry. apply eqb_list_eq. reflexivity.
  - destruct (eqb_list (Vec.sample n size) r) eqn:Q; [|reflexivity]. apply eqb_list_eq in Q. congruence.
Qed.
Lemma main_ok v : Vec.in_range v ->
  ev (fun rounds => ST.main rounds c b adr g v)
     (OK (if all_right_dec v then Some ((Vec.number v + Vec.count (ST.XXH3_withSecret_testdata v)) mod 2 ^ szbits c) else None)).
Proof.
  intros (R1 & R2 & R3 & R4 & R5 & R6 & R7). unfold ST.main. change ST.SANITY_BUFFER_SIZE with 4161. rewrite filled by (trivial; lia). cbn [bind].
  change (SECRET_SIZE_MIN + 11) with 147. unfold assert_ at 1. change (7 + 147 <=? 4161) with true. cbv iota. cbn [bind].
  destruct (seed_good 0) as (s3 & -> & G3). destruct (seed_good 22730) as (s3s & -> & G3s).
  destruct (seed_good 34068) as (s128 & -> & G128). destruct (seed_good 68019) as (s128s & -> & G128s). cbn [bind].
  pose proof (small32 c C) as S32.
  set (R := OK _). assert (HR : ~ Vec.all_right v -> R = OK None) by (intros N; subst R; destruct (all_right_dec v); [contradiction|reflexivity]).
  assert (IN : forall T (F : T -> Prop) l, Forall F l -> forall t, In t l -> F t) by (intros T F l; apply Forall_forall).
  eapply (ev_loop c 1 any _ (right_dec (fun s m => X32.hash m s)) (fun _ _ => ST.testXXH32 c buf)); [exact C|exact I|lia| | |].
  { intros t H. apply e32, (IN _ _ _ R1 t H). }
  { intros N. apply HR. unfold Vec.all_right. tauto. }
  intros F1 C1. cbv beta.
  eapply (ev_loop c 1 any _ (right_dec (fun s m => X64.hash m s)) (fun _ _ => ST.testXXH64 c buf)); [exact C|exact I|exact C1| | |].
  { intros t H. apply e64, (IN _ _ _ R2 t H). }
  { intros N. apply HR. unfold Vec.all_right. tauto. }
  intros F2 C2. cbv beta.
  eapply (ev_loop c 1 good _ (right_dec _) (fun rounds i => ST.testXXH3 rounds c (g 0 i) buf sec 147)); [exact C|exact G3|exact C2| | |].
  { intros t H. apply (e3 0), (IN _ _ _ R3 t H). }
  { intros N. apply HR. unfold Vec.all_right. tauto. }
  intros F3 C3. cbv beta.
  eapply (ev_loop c 2 good _ (right_dec _) (fun rounds i => ST.testXXH3_withSecret rounds c (g 1 i) buf sec 147)); [exact C|exact G3s|exact C3| | |].
  { intros t H. apply (e3s 1), (IN _ _ _ R4 t H). }
  { intros N. apply HR. unfold Vec.all_right. tauto. }
  intros F4 C4. cbv beta.
  eapply (ev_loop c 1 good _ (right128_dec _) (fun rounds i => ST.testXXH128 rounds c (g 2 i) buf sec 147)); [exact C|exact G128|exact C4| | |].
  { intros t H. apply (e128 2), (IN _ _ _ R5 t H). }
  { intros N. apply HR. unfold Vec.all_right. tauto. }
  intros F5 C5. cbv beta.
  eapply (ev_loop c 1 good _ (right128_dec _) (fun rounds i => ST.testXXH128_withSecret rounds c (g 3 i) buf sec 147)); [exact C|exact G128s|exact C5| | |].
  { intros t H. apply (e128s 3), (IN _ _ _ R6 t H). }
  { intros N. apply HR. unfold Vec.all_right. tauto. }
  intros F6 C6. cbv beta.
  eapply (ev_loop c 1 any _ right_sample_dec); [exact C|exact I|exact C6| | |].
  { intros t H. apply (esample 4), (IN _ _ _ R7 t H). }
  { intros N. apply HR. unfold Vec.all_right. tauto. }
  intros F7 _. cbv beta. exists 0%nat. intros _ _. subst R. destruct (all_right_dec v) as [_|N]; [|destruct N; repeat split; assumption].
  do 2 f_equal. unfold Vec.number. repeat (rewrite <- ?Z.add_assoc; rewrite Z.add_mod_idemp_l by lia). f_equal. clear.
  repeat match goal with |- context [Vec.count ?l] => generalize (Vec.count l); intro end. ring.
Qed.
End Main.
