(** The benchmark of xxhsum (C56, C57). *)
From Coq Require Import String.
From Verif Require Import Base Mem M_XXH32 M_XXH64 M_XXH3 M_Kernels M_Long M_Stream3 M_Util Spec32 Spec64 Spec3 SpecUtil SpecCli SpecBench
  P_Base History M_Sanity M_Cli M_Cli3 M_Bench P_Bench.

(** [calm a]: fresh memory has the size asked for, the uninitialised states have the sizes of their arrays, the later rounds make
    fewer than 2^32 calls, and g_benchSecretBuf has its 136 bytes. *)

(** C56: on its own sample, the benchmark either finds no memory or, for every selected variant, hashes exactly [keySize]
    zero bytes, aligned and unaligned, with the documented hash; it never leaves its buffer *)
Theorem C56_internal : forall c a get ids keySize,
  cfg_ok c -> calm a -> zlen ids = 29 -> 0 <= keySize -> keySize + 19 < 2 ^ szbits c ->
  benchInternal c a get ids keySize = OK (match get (keySize + 19) with
    | None => BExit 12
    | Some _ => let m := repeat 0 (Z.to_nat keySize) in BDone [bench_result ids m m (fun i => first_count keySize :: a_later a 0 i)]
    end).
Proof. intros c a get ids keySize C. apply benchInternal_ok, C. Qed.
Print Assumptions C56_internal.

(** C56: on files, it exits with 11, 12 or 13 for the first file that cannot be opened, held or read, and otherwise hashes
    the documented part of each file *)
Theorem C56_files : forall c a fuel malloc get ids fails fs,
  cfg_ok c -> calm a -> zlen ids = 29 ->
  Forall (fun f => 0 <= bf_size f < 2 ^ 63 /\ match bf_open f with Some d => bytes_ok d | None => True end) fs ->
  (forall i f, nth_error fs i = Some f -> granted (malloc (Z.of_nat i)) (bf_size f) (fails (Z.of_nat i))) ->
  (forall k, (fails k < fuel)%nat) ->
  exists b, benchFiles c a fuel malloc get ids fs 0 [] = OK b /\
    as_end b = files_result ids (a_later a) (fun k => Z.of_nat (fails k)) (fun k n => match get k n with Some _ => true | None => false end)
                 (map (fun f => (bf_size f, bf_open f)) fs) 0.
Proof.
  intros c a fuel malloc get ids fails fs C CA LI F M FU. destruct (benchFiles_ok c C a fuel malloc get ids fails CA LI fs 0 [] F M FU) as (b & E & R).
  exists b. split; [exact E|]. rewrite R. destruct (files_result _ _ _ _ _ _); reflexivity.
Qed.
Print Assumptions C56_files.

(** C56: with memory at hand, a file is hashed whole up to 1856 MB *)
Theorem C56_whole_file : forall size, 0 <= size -> bench_size size 0 = Z.min size (29 * 2 ^ 26).
Proof.
  intros size S. unfold bench_size, offered, chunks. assert (0 <= size / 2 ^ 26) by (apply Z.div_pos; lia).
  pose proof (Z.div_mod size (2 ^ 26) ltac:(lia)). pose proof (Z.mod_pos_bound size (2 ^ 26) ltac:(lia)).
  rewrite (proj2 (Z.leb_le _ _)) by lia. destruct (Z.le_gt_cases 28 (size / 2 ^ 26)); [rewrite (Z.min_l 31) by lia; reflexivity|].
  rewrite (Z.min_r 31) by lia. rewrite !Z.min_l by lia. reflexivity.
Qed.
Print Assumptions C56_whole_file.

(** A build and a machine for the cases *)
Definition b32 : cfg := Cfg true 0 false false false 0 32 true false V_SCALAR false false.
Definition some_state : state3 := State3 64 (repeat 1 8) (repeat 3 192) (repeat 9 256) 17 1 99 5 0 0 123 Null.
Definition quiet : ambience := Ambience (fun n => repeat 7 (Z.to_nat n)) (fun _ _ _ _ => some_state) (fun _ _ => [5]) (repeat 9 136) 64.
Lemma b32_ok : cfg_ok b32.
Proof. constructor; cbn; auto; lia. Qed.
Lemma quiet_calm : calm quiet.
Proof.
  split; [intros n N; cbn; unfold zlen; rewrite repeat_length; lia|]. split; [intros; constructor; cbn; first [reflexivity|repeat constructor; discriminate]|]. split; [|reflexivity].
  intros k i. repeat constructor; discriminate.
Qed.
Example C56_case : cfg_ok b32 /\ calm quiet /\ zlen k_testIDs_default = 29 /\ (102400 + 19 < 2 ^ szbits b32) /\
  selected k_testIDs_default = [1; 3; 5; 11] /\ bench_size 100000000 0 = 100000000 /\ bench_size 3000000000 5 = 24 * 2 ^ 26 /\ offered 3 4 = 2 ^ 23 /\ granted (fun j _ => Nat.leb 2 j) 3000000000 2.
Proof. split; [exact b32_ok|]. split; [exact quiet_calm|]. repeat split; try (vm_compute; reflexivity).
  intros [|[|j]] J; [reflexivity|reflexivity|lia].
Qed.

(** C56 is false of sample sizes within 19 bytes of SIZE_MAX: where size_t has 32 bits, the command line accepts them, the
    size of the buffer wraps to a few bytes, and the first hash reads 4 GB from it *)
Theorem C56_internal_refuted : exists c a get ids keySize,
  cfg_ok c /\ calm a /\ szbits c = 32 /\ command false [str "xxhsum"; str "-b1"; str "-B4294967289"] = OK (Bench ids 3 keySize []) /\
  get (usz c (keySize + 19)) <> None /\ benchInternal c a get ids keySize = UB.
Proof.
  exists b32, quiet, (fun _ => Some 64), (0 :: 1 :: repeat 0 27), 4294967289.
  split; [exact b32_ok|]. split; [exact quiet_calm|]. split; [reflexivity|]. split; [vm_compute; reflexivity|].
  split; [discriminate|]. unfold benchInternal. change (usz b32 (usz b32 (4294967289 + 16) + 3)) with 12. unfold benchMem.
  lazy. reflexivity.
Qed.
Print Assumptions C56_internal_refuted.

(** C57: the probe of the memory ends as soon as one request is granted, with an amount below 2 GB *)
Theorem C57_probe_ends : forall c malloc size f fuel,
  cfg_ok c -> 0 <= size < 2 ^ 63 -> malloc f (offered (chunks size) (Z.of_nat f)) = true -> (f < fuel)%nat ->
  exists n, findMaxMem c fuel malloc size = OK n /\ 0 <= n < 2 ^ 31.
Proof.
  intros c malloc size f fuel C S Y F.
  assert (G : exists g, (g <= f)%nat /\ (forall j, (j < g)%nat -> malloc j (offered (chunks size) (Z.of_nat j)) = false) /\ malloc g (offered (chunks size) (Z.of_nat g)) = true).
  { clear F. induction f as [f IH] using (well_founded_induction lt_wf).
    destruct (forallb (fun j => negb (malloc j (offered (chunks size) (Z.of_nat j)))) (seq 0 f)) eqn:A.
    - exists f. split; [lia|]. split; [|exact Y]. intros j J. rewrite forallb_forall in A.
      specialize (A j ltac:(apply in_seq; lia)). destruct (malloc j _); [discriminate|reflexivity].
    - assert (exists j, (j < f)%nat /\ malloc j (offered (chunks size) (Z.of_nat j)) = true) as (j & J & M).
      { clear - A. assert (H : exists x, In x (seq 0 f) /\ negb (malloc x (offered (chunks size) (Z.of_nat x))) = false).
        { induction (seq 0 f) as [|x l IH]; cbn [forallb] in A; [discriminate|]. destruct (negb (malloc x _)) eqn:Q; [|exists x; split; [left; reflexivity|exact Q]].
          destruct (IH A) as (y & I & E). exists y. split; [right; exact I|exact E]. }
        destruct H as (x & I & E). exists x. apply in_seq in I. split; [lia|]. destruct (malloc x _); [reflexivity|discriminate]. }
      destruct (IH j J M) as (g & G & R). exists g. split; [lia|exact R]. }
  destruct G as (g & G & N & M). eexists. split; [apply (findMaxMem_ok c C malloc size g fuel S N M); lia|].
  pose proof (offered_bound (chunks size) (Z.of_nat g + 1) (chunks_bound size ltac:(lia)) ltac:(lia)). lia.
Qed.
Print Assumptions C57_probe_ends.
Example C57_case : findMaxMem b32 40 (fun j n => n <? 1000) 5 = OK 256 /\ findMaxMem b32 3 (fun j n => n <? 1000) 5 = NoFuel.
Proof. split; vm_compute; reflexivity. Qed.

(** C57 in general is false: malloc may answer NULL to every request, also to the requests for 0 bytes the probe falls to, and
    then the benchmark never ends, even on an empty file *)
Theorem C57_ends_refuted : exists c a malloc get ids f,
  cfg_ok c /\ calm a /\ zlen ids = 29 /\ bf_size f = 0 /\ bf_open f = Some [] /\
  forall fuel, benchFiles c a fuel malloc get ids [f] 0 [] = NoFuel.
Proof.
  exists b32, quiet, (fun _ _ _ => false), (fun _ _ => Some 64), k_testIDs_default, (BFile 0 (Some [])).
  split; [exact b32_ok|]. split; [exact quiet_calm|]. split; [reflexivity|]. split; [reflexivity|]. split; [reflexivity|].
  intros fuel. cbn [benchFiles]. unfold selectBenchedSize. rewrite findMaxMem_never by reflexivity. reflexivity.
Qed.
Print Assumptions C57_ends_refuted.
