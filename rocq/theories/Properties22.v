(** The test program tests/sanity_test.c and the generator of its vectors (C86-C89). *)
From Coq Require Import String.
From Verif Require Import Base Mem M_XXH32 M_XXH64 M_XXH3 M_Kernels M_Long M_Stream3 M_Util Spec32 Spec64 Spec3 SpecUtil
  P_Base History M_Cli M_Sanity P_Rand P_Sanity M_SanityTest SpecVec P_SanityTest P_SanityTest2 Properties10.
Import Vec.

(** what the test functions find in their locals and get from the allocator *)
Definition locals_ok (g : Z -> Z -> garbage) : Prop :=
  forall k i, created3 (g_state (g k i)) /\ zlen (g_buf1 (g k i)) = 193 /\ zlen (g_buf2 (g k i)) = 193.

(** C86: the test program accepts tables exactly when every entry is right; then it prints the number of entries plus once
    more that of the entries of the XXH3_withSecret table.  Otherwise it exits with 1.  It always ends ([rounds] bounds the
    loop of the model and makes no difference beyond some bound) and never meets undefined behaviour *)
Theorem C86_tester_exact : forall c b adr g v, cfg_ok c -> zlen b = 4161 -> locals_ok g -> in_range v ->
  exists n, forall rounds, (n <= rounds)%nat ->
    (all_right v -> ST.main rounds c b adr g v = OK (Some ((number v + count (ST.XXH3_withSecret_testdata v)) mod 2 ^ szbits c))) /\
    (~ all_right v -> ST.main rounds c b adr g v = OK None).
Proof.
  intros c b adr g v C L G R. destruct (main_ok c C b L adr g G v R) as (n & E). exists n. intros rounds N. specialize (E rounds N).
  destruct (all_right_dec v); split; intros; try contradiction; exact E.
Qed.
Print Assumptions C86_tester_exact.

(** C86: the test program draws the same lengths as the self-test of xxhsum, from the state after [step] calls *)
Theorem C86_random_lengths : (forall rnd, ST.rand rnd = rand rnd) /\ forall step, 0 <= step -> ST.computeRandSeed step = OK (2654435761 * 0x9E3779B185EBCA8D ^ step mod 2 ^ 64).
Proof.
  split; [reflexivity|]. intros step N. unfold ST.computeRandSeed.
  destruct (P_Cli.for_inv (fun i s => s = 2654435761 * 0x9E3779B185EBCA8D ^ i mod 2 ^ 64) (fun _ s => OK (snd (ST.rand s))) (Z.to_nat step) 0 ST.PRIME32) as (s & E & I).
  - reflexivity.
  - intros i s H ->. eexists. split; [reflexivity|]. unfold ST.rand. cbn [snd]. rewrite Z.mul_mod_idemp_l by lia. f_equal. rewrite Z.pow_add_r by lia. rewrite Z.pow_1_r. unfold ST.PRIME64. ring.
  - rewrite E. rewrite I. do 3 f_equal. f_equal. lia.
Qed.
Print Assumptions C86_random_lengths.

(** C86, refuted: the number printed is not the number of tests *)
Theorem C86_count_refuted : exists c b adr g v, cfg_ok c /\ zlen b = 4161 /\ locals_ok g /\ in_range v /\ all_right v /\
  exists n, forall rounds, (n <= rounds)%nat -> exists k, ST.main rounds c b adr g v = OK (Some k) /\ k <> number v.
Proof.
  set (c := Cfg true 0 false false false 0 64 true false V_AVX2 true false).
  assert (C : cfg_ok c) by (constructor; cbn; auto; try lia; discriminate).
  set (v := ST.Vectors [] [] [] [(0, 0, X3.XXH3_64_withSecret secret (data 0))] [] [] []).
  exists c, (repeat 0 (Z.to_nat 4161)), 0, (fun _ _ => fresh_garbage), v. split; [exact C|].
  assert (L : zlen (repeat 0 (Z.to_nat 4161)) = 4161) by (rewrite zlen_repeat; reflexivity). split; [exact L|].
  assert (G : locals_ok (fun _ _ => fresh_garbage)).
  { intros _ _. split; [constructor; try reflexivity; cbn; repeat constructor; lia|]. split; reflexivity. }
  split; [exact G|].
  assert (R : in_range v) by (unfold in_range, v; cbn [ST.XXH32_testdata ST.XXH64_testdata ST.XXH3_testdata ST.XXH3_withSecret_testdata ST.XXH128_testdata ST.XXH128_withSecret_testdata ST.XXH3_generateSecret_testdata];
    repeat match goal with |- _ /\ _ => split end; repeat constructor; cbn [fst snd]; lia).
  split; [exact R|].
  assert (A : all_right v) by (unfold all_right, v; cbn [ST.XXH32_testdata ST.XXH64_testdata ST.XXH3_testdata ST.XXH3_withSecret_testdata ST.XXH128_testdata ST.XXH128_withSecret_testdata ST.XXH3_generateSecret_testdata];
    repeat match goal with |- _ /\ _ => split end; constructor; constructor).
  split; [exact A|].
  destruct (C86_tester_exact c _ 0 _ v C L G R) as (n & E). exists n. intros rounds N. destruct (E rounds N) as [E1 _].
  exists ((number v + count (ST.XXH3_withSecret_testdata v)) mod 2 ^ szbits c). split; [exact (E1 A)|].
  unfold number, count, v. cbn [ST.XXH32_testdata ST.XXH64_testdata ST.XXH3_testdata ST.XXH3_withSecret_testdata ST.XXH128_testdata ST.XXH128_withSecret_testdata ST.XXH3_generateSecret_testdata List.length].
  discriminate.
Qed.
Print Assumptions C86_count_refuted.

(** C87: the generator computes the specified tables; with a size_t of 32 bits the second seed of the XXH3 table is cut *)
Theorem C87_generator_exact : forall c mem sb m, cfg_ok c -> 692 <= m <= 2 ^ 24 -> (forall k, zlen (fst (mem k)) = m) ->
  TG.generate c mem sb m = OK (tables (P64 mod 2 ^ szbits c) m).
Proof. exact generate_ok. Qed.
Print Assumptions C87_generator_exact.

(** C87: and the text it writes defines these tables for a C compiler *)
Theorem C87_header_text : forall c mem sb, cfg_ok c -> (forall k, zlen (fst (mem k)) = 4161) ->
  exists t, TG.main c mem sb = OK t /\ header t (tables (P64 mod 2 ^ szbits c) 4161).
Proof.
  intros c mem sb C L. unfold TG.main. rewrite generate_ok by (trivial; cbv; split; congruence). cbn [bind]. apply arrays_ok, tables_printable; [lia|].
  pose proof (Z.mod_pos_bound P64 (2 ^ szbits c)). destruct C as [[Q|Q] _ _]; rewrite Q in *; lia.
Qed.
Print Assumptions C87_header_text.

(** C88: the test program built for one platform accepts the tables generated on any other *)
Theorem C88_generated_accepted : forall c1 c2 mem sb m v b adr g,
  cfg_ok c1 -> cfg_ok c2 -> 692 <= m <= 4161 -> (forall k, zlen (fst (mem k)) = m) -> zlen b = 4161 -> locals_ok g ->
  TG.generate c1 mem sb m = OK v ->
  exists n, forall rounds, (n <= rounds)%nat -> ST.main rounds c2 b adr g v = OK (Some (12 * m + 16)).
Proof.
  intros c1 c2 mem sb m v b adr g C1 C2 M LM LB G E. rewrite generate_ok in E by (trivial; unfold small; lia). injection E as <-.
  assert (S3 : 0 <= P64 mod 2 ^ szbits c1 < 2 ^ 64).
  { pose proof (Z.mod_pos_bound P64 (2 ^ szbits c1)). destruct C1 as [[Q|Q] _ _]; rewrite Q in *; lia. }
  destruct (C86_tester_exact c2 b adr g _ C2 LB G (tables_range _ m ltac:(lia) S3)) as (n & H). exists n. intros rounds N.
  destruct (H rounds N) as [H1 _]. rewrite H1 by apply tables_right. destruct (tables_number (P64 mod 2 ^ szbits c1) m ltac:(lia)) as [-> ->].
  do 2 f_equal. replace (11 * m + 16 + m) with (12 * m + 16) by ring. apply Z.mod_small. destruct C2 as [[-> | ->] _ _]; lia.
Qed.
Print Assumptions C88_generated_accepted.

(** C89, refuted: the header does not depend on the platform it is generated on *)
Theorem C89_portable_header_refuted : exists c1 c2 mem sb v1 v2, cfg_ok c1 /\ cfg_ok c2 /\ (forall k, zlen (fst (mem k)) = 4161) /\
  TG.generate c1 mem sb 4161 = OK v1 /\ TG.generate c2 mem sb 4161 = OK v2 /\ v1 <> v2.
Proof.
  exists (Cfg true 0 false false false 0 64 true false V_AVX2 true false), (Cfg true 0 false false false 0 32 true false V_SCALAR true false),
    (fun _ => (repeat 0 (Z.to_nat 4161), 0)), 0, (tables P64 4161), (tables (P64 mod 2 ^ 32) 4161).
  split; [constructor; cbn; auto; try lia; discriminate|]. split; [constructor; cbn; auto; try lia; discriminate|].
  assert (L : forall k : Z, zlen (repeat 0 (Z.to_nat 4161)) = 4161) by (intros; rewrite zlen_repeat; reflexivity). split; [exact L|].
  split; [apply generate_ok; [constructor; cbn; auto; try lia; discriminate|cbv; split; congruence|exact L]|].
  split; [apply generate_ok; [constructor; cbn; auto; try lia; discriminate|cbv; split; congruence|exact L]|].
  intros E. apply (f_equal ST.XXH3_testdata) in E. unfold tables in E. cbn [ST.XXH3_testdata] in E.
  apply (f_equal (fun l => nth 1 (map (fun t => snd (fst t)) l) 0)) in E. unfold seeded in E.
  change (upto 4161) with (0 :: tl (upto 4161)) in E. cbn [flat_map map app fst snd nth] in E. discriminate E.
Qed.
Print Assumptions C89_portable_header_refuted.

(** C89: it depends on nothing but the width of size_t *)
Theorem C89_portable_header : forall c1 c2 mem1 mem2 sb1 sb2 m, cfg_ok c1 -> cfg_ok c2 -> szbits c1 = szbits c2 -> 692 <= m <= 2 ^ 24 ->
  (forall k, zlen (fst (mem1 k)) = m) -> (forall k, zlen (fst (mem2 k)) = m) -> TG.generate c1 mem1 sb1 m = TG.generate c2 mem2 sb2 m.
Proof. intros c1 c2 mem1 mem2 sb1 sb2 m C1 C2 S M L1 L2. rewrite !generate_ok by trivial. rewrite S. reflexivity. Qed.
Print Assumptions C89_portable_header.

(** cases: an entry of the header as it is printed, and read *)
Example case_c87 : TG.text32 (12, 2654435761, 0xABCD) = OK (str "{   12, 0x9E3779B1U, 0x0000ABCDU },").
Proof. reflexivity. Qed.
Example case_c87_strip : strip Code (str "    {   12, 0x1U }, /* a[0] */") = str "{12,0x1U},".
Proof. reflexivity. Qed.
Example case_c87_constant : constant (str "10") 10.
Proof. apply c_dec; [|discriminate]. change (str "10") with ([49] ++ [48]). change 10 with (10 * 1 + 0) at 2. apply d_more; [apply d_one|reflexivity|]; reflexivity. Qed.
(** the tables of the smallest buffer have entries of every kind, and the first bytes of the data are not zeros only *)
Example case_c88 : in_range (tables P64 692) /\ all_right (tables P64 692) /\ number (tables P64 692) = 7628 /\ data 4 = [0; 82; 146; 155].
Proof.
  split; [apply tables_range; [lia|cbv; split; congruence]|]. split; [apply tables_right|]. split; [|reflexivity].
  apply (tables_number P64 692). lia.
Qed.
(** a wrong entry *)
Example case_c86 : ~ all_right (ST.Vectors [(0, 0, 1)] [] [] [] [] [] []).
Proof. intros (H & _). inversion H as [|x l R _]; subst. vm_compute in R. discriminate R. Qed.
