(** Property theorems about definedness: the allocator (C33), valid calls (C18), pointer formation (C34), huge secrets
    on 32-bit targets (C45) and the SVE build of a big-endian target (C47). *)
From Verif Require Import Base Mem M_XXH32 M_XXH64 M_XXH3 M_Kernels M_Long M_Stream3 M_Alloc M_Strict Spec32 Spec64 Spec3 P_Base P_Spec
  P_XXH32 P_XXH64 P_X3_Base P_X3_Short P_Kernels P_X3_Long P_Stream P_Stream3 P_Stream4 History P_History P_Alloc P_Strict
  Properties1 Properties2 Properties3.

(** ** C33 *)
(** For every alignment 2^k from 8 to 128, every size and every answer of malloc (a block of the requested
    s + align bytes disjoint from the live ones, or NULL): the pointer is aligned, the s bytes at it lie inside the block and do not include
    its first byte, and after any history in which the rest of the program writes into the object or into other
    blocks, allocates and frees other blocks, XXH_alignedFree passes to free() the pointer malloc returned. *)
Theorem C33_aligned_allocator : forall c h s k, cfg_ok c -> 3 <= k <= 7 -> 0 < s -> s + 2 ^ k < 2 ^ szbits c ->
  alignedMalloc c h s (2 ^ k) None = OK (0, h) /\
  forall base content, zlen content = s + 2 ^ k -> heap_ok c (Block base content :: h) ->
  exists ptr h', alignedMalloc c h s (2 ^ k) (Some (base, content)) = OK (ptr, h') /\
    ptr mod 2 ^ k = 0 /\ base < ptr /\ ptr + s <= base + (s + 2 ^ k) /\
    forall h'', hsteps c ptr s base h' h'' -> exists h3, alignedFree h'' ptr = OK (base, h3) /\ hfree h'' base = OK h3.
Proof.
  intros c h s k C K S F. split; [exact (alignedMalloc_null c h s k K S F)|].
  intros base content L HO. destruct (alignedMalloc_some c C h s k K S F base content L HO) as (ptr & h' & data & E & A & B1 & B2 & B3 & EH & HO' & LD & NT).
  exists ptr, h'. split; [exact E|]. split; [exact A|]. split; [exact B1|]. split; [lia|].
  intros h'' ST. assert (P0 : 0 < base /\ 0 < zlen content).
  { inversion HO as [|? ? BK _ _]; subst. destruct BK as (X & Y & _). cbn [b_base b_data] in *. lia. }
  assert (OW : owned ptr base h').
  { exists data. subst h'. split; [left; reflexivity|]. split; [lia|]. split; [|exact NT].
    unfold inside. cbn [b_base b_data]. lia. }
  destruct (hsteps_inv c ptr s base h' h'' ST HO' OW) as [HO2 OW2].
  destruct (alignedFree_ok c ptr base h'' HO2 OW2 ltac:(lia) B1) as (h3 & d & E3 & _ & E4 & _). eauto.
Qed.
Print Assumptions C33_aligned_allocator.

(** XXH3_createState returns NULL when malloc does, else an object every streaming theorem accepts ([created3]), inside
    the block; XXH3_freeState gives the block back. *)
Theorem C33_createState_freeState : forall c h garbage, cfg_ok c ->
  zlen (s3_buffer garbage) = 256 -> bytes_ok (s3_buffer garbage) -> zlen (s3_customSecret garbage) = 192 ->
  XXH3_createState c h None garbage = OK (None, h) /\
  forall base content, zlen content = 640 -> heap_ok c (Block base content :: h) ->
  exists st h', XXH3_createState c h (Some (base, content)) garbage = OK (Some st, h') /\ created3 st /\
    base < s3_adr st /\ s3_adr st + 576 <= base + 640 /\
    forall h'', hsteps c (s3_adr st) 576 base h' h'' ->
      exists h3, XXH3_freeState h'' (s3_adr st) = OK (XXH_OK, base, h3) /\ hfree h'' base = OK h3.
Proof.
  intros c h g C G1 G2 G3. assert (SB : szbits c = 32 \/ szbits c = 64) by apply C.
  assert (F : 576 + 2 ^ 6 < 2 ^ szbits c) by (destruct SB as [-> | ->]; lia).
  destruct (C33_aligned_allocator c h 576 6 C ltac:(lia) ltac:(lia) F) as [EN ES].
  unfold XXH3_createState, SIZEOF_STATE3. change (2 ^ 6) with 64 in *. rewrite EN. split; [reflexivity|].
  intros base content L HO. destruct (ES base content L HO) as (ptr & h' & E & A & B1 & B2 & FR).
  rewrite E. cbn [bind]. assert (0 < base).
  { inversion HO as [|? ? BK _ _]; subst. apply BK. }
  replace (ptr =? 0) with false by lia. eexists. exists h'. split; [reflexivity|].
  cbn [XXH3_INITSTATE s3_adr]. split; [constructor; cbn; trivial|]. split; [exact B1|]. split; [lia|].
  intros h'' ST. destruct (FR h'' ST) as (h3 & E3 & E4). exists h3. unfold XXH3_freeState. rewrite E3. split; [reflexivity|exact E4].
Qed.
Print Assumptions C33_createState_freeState.

(** the states of XXH32 (48 bytes) and XXH64 (88 bytes): NULL when malloc answers NULL; else a block of the size of the state, which
    freeState gives back after any history, and it alone; freeing NULL does nothing *)
Theorem C33_plain_states : forall c h libc, cfg_ok c -> (forall n base content, libc n = Some (base, content) -> zlen content = n /\ heap_ok c (Block base content :: h)) ->
  (XXH32_createState h libc = (0, h) \/ exists base content h', XXH32_createState h libc = (base, h') /\ 0 < base /\ h' = Block base content :: h /\ zlen content = 48 /\
     forall h'', hsteps c base 48 base h' h'' -> exists h3, XXH32_freeState h'' base = OK (XXH_OK, h3) /\ hfree h'' base = OK h3) /\
  (XXH64_createState h libc = (0, h) \/ exists base content h', XXH64_createState h libc = (base, h') /\ 0 < base /\ h' = Block base content :: h /\ zlen content = 88 /\
     forall h'', hsteps c base 88 base h' h'' -> exists h3, XXH64_freeState h'' base = OK (XXH_OK, h3) /\ hfree h'' base = OK h3) /\
  XXH32_freeState h 0 = OK (XXH_OK, h) /\ XXH64_freeState h 0 = OK (XXH_OK, h).
Proof.
  intros c h libc C LC.
  assert (G : forall n, match libc n with None => True | Some (base, content) => 0 < base /\ zlen content = n /\ forall h'', hsteps c base n base (Block base content :: h) h'' -> exists h3, XXH_free h'' base = OK h3 /\ hfree h'' base = OK h3 end).
  { intros n. destruct (libc n) as [[base content]|] eqn:E; [|exact I]. destruct (LC n base content E) as (L & HO). assert (B0 : 0 < base) by (inversion HO as [|? ? BK _ _]; subst; apply BK).
    split; [exact B0|]. split; [exact L|]. intros h'' ST. destruct (hsteps_live c base n _ h'' ST HO) as (H2 & data & I & _); [exists content; split; [left; reflexivity|exact L]|].
    destruct (hfree_hit c h'' _ H2 I) as (h3 & E3 & _). cbn [b_base] in E3. exists h3. unfold XXH_free. replace (base =? 0) with false by lia. auto. }
  split; [|split; [|split; reflexivity]].
  - specialize (G 48). unfold XXH32_createState, malloc_sized, XXH_malloc, SIZEOF_STATE32, XXH32_freeState. destruct (libc 48) as [[base content]|]; [right|left; reflexivity].
    destruct G as (B0 & L & FR). exists base, content. eexists. split; [reflexivity|]. split; [exact B0|]. split; [reflexivity|]. split; [exact L|].
    intros h'' ST. destruct (FR h'' ST) as (h3 & E1 & E2). exists h3. rewrite E1. auto.
  - specialize (G 88). unfold XXH64_createState, malloc_sized, XXH_malloc, SIZEOF_STATE64, XXH64_freeState. destruct (libc 88) as [[base content]|]; [right|left; reflexivity].
    destruct G as (B0 & L & FR). exists base, content. eexists. split; [reflexivity|]. split; [exact B0|]. split; [reflexivity|]. split; [exact L|].
    intros h'' ST. destruct (FR h'' ST) as (h3 & E1 & E2). exists h3. rewrite E1. auto.
Qed.
Print Assumptions C33_plain_states.
Example C33_plain_ex : XXH32_createState [] (fun n => Some (4096, repeat 5 (Z.to_nat n))) = (4096, [Block 4096 (repeat 5 48)]) /\
  XXH32_freeState [Block 4096 (repeat 5 48)] 4096 = OK (XXH_OK, []) /\ XXH32_freeState [Block 4096 (repeat 5 48)] 4100 = UB.
Proof. repeat split. Qed.

(** ** C18 *)
Definition defined {A} (r : res A) : Prop := exists v, r = OK v.
(** every one-shot function: [UB] stands for an out-of-bounds or misaligned access and for a violated XXH_ASSERT *)
Theorem C18_oneshot_defined : forall c p m seed ps s, cfg_ok c -> points_to p m -> bytes_ok m -> zlen m < 2 ^ szbits c ->
  points_to ps s -> bytes_ok s -> 136 <= zlen s -> (240 < zlen m -> 8 * (zlen s - 64) < 2 ^ szbits c) -> 0 <= seed < 2 ^ 64 ->
  defined (XXH32 c p (zlen m) (seed mod 2 ^ 32)) /\ defined (XXH64 c p (zlen m) seed) /\
  defined (XXH3_64bits c p (zlen m)) /\ defined (XXH3_64bits_withSeed c p (zlen m) seed) /\
  defined (XXH3_64bits_withSecret c p (zlen m) ps (zlen s)) /\ defined (XXH3_64bits_withSecretandSeed c p (zlen m) ps (zlen s) seed) /\
  defined (XXH3_128bits c p (zlen m)) /\ defined (XXH3_128bits_withSeed c p (zlen m) seed) /\ defined (XXH128 c p (zlen m) seed) /\
  defined (XXH3_128bits_withSecret c p (zlen m) ps (zlen s)) /\ defined (XXH3_128bits_withSecretandSeed c p (zlen m) ps (zlen s) seed).
Proof.
  intros c p m seed ps s C P B L PS BS S1 S2 W. unfold defined.
  split. { eexists. apply XXH32_spec; trivial. }
  split. { eexists. apply XXH64_spec; trivial. }
  split. { eexists. apply C03_xxh3_64_equals_spec; trivial. }
  split. { eexists. apply C03_xxh3_64_withSeed_equals_spec; trivial. }
  split. { eexists. apply C03_xxh3_64_withSecret_equals_spec; trivial. }
  split. { eexists. apply C03_xxh3_64_withSecretandSeed_equals_spec; trivial. }
  split. { eexists. apply C04_xxh3_128_equals_spec; trivial. }
  destruct (C04_xxh3_128_withSeed_equals_spec c p m seed C P B W) as [E1 E2].
  split. { eexists. exact E1. }
  split. { eexists. exact E2. }
  split. { eexists. apply C04_xxh3_128_withSecret_equals_spec; trivial. }
  eexists. apply C04_xxh3_128_withSecretandSeed_equals_spec; trivial.
Qed.
Print Assumptions C18_oneshot_defined.
(** every history of calls that keeps the documented rules, on any number of objects *)
Theorem C18_histories_defined : forall c, cfg_ok c ->
  (forall w ops, valid32 c (fun _ => None) ops -> defined (run32 c w ops)) /\
  (forall w ops, valid64 c (fun _ => None) ops -> defined (run64 c w ops)) /\
  (forall w ops, (forall h, created3 (w h)) -> valid3 c (fun _ => None) ops -> defined (run3 c w ops)).
Proof.
  intros c C. split; [|split]; intros; eexists.
  - apply C10_xxh32_history; trivial.
  - apply C10_xxh64_history; trivial.
  - apply C10_xxh3_history; trivial.
Qed.
Print Assumptions C18_histories_defined.
(** the length margin in [valid32]/[valid64] is needed: [memsize + len] wraps (xxhash.h:3160, 3604).  With one byte buffered,
    an update of SIZE_MAX readable bytes overflows the state's buffer, in every build. *)
Theorem C18_xxh32_huge_update_refuted : forall c, cfg_ok c -> exists st p m,
  XXH32_update c (XXH32_reset 0) (Ptr [0] 0 0) 1 = OK (XXH_OK, st) /\
  points_to p m /\ bytes_ok m /\ zlen m = 2 ^ szbits c - 1 /\ XXH32_update c st p (zlen m) = UB.
Proof.
  intros c C. assert (SB : szbits c = 32 \/ szbits c = 64) by apply C.
  set (m := repeat 0 (Z.to_nat (2 ^ szbits c - 1))).
  assert (L : zlen m = 2 ^ szbits c - 1) by (subst m; rewrite zlen_repeat; destruct SB as [-> | ->]; lia).
  eexists. exists (Ptr m 0 0), m. split.
  { unfold XXH32_update. cbn [is_null XXH32_reset s32_memsize]. replace (usz c (0 + 1)) with 1 by (unfold usz; destruct SB as [-> | ->]; reflexivity).
    reflexivity. }
  split. { exact (points_to_buf m). }
  split. { subst m. apply Forall_forall. intros x I. apply repeat_spec in I. subst x. unfold byte_ok. lia. }
  split; [exact L|]. unfold XXH32_update. cbn [is_null s32_memsize]. rewrite L.
  change (u32 (0 + u32 1)) with 1. replace (usz c (1 + (2 ^ szbits c - 1))) with 0 by (unfold usz; destruct SB as [-> | ->]; reflexivity).
  cbn [Z.ltb Z.compare]. rewrite (load_at0 (Ptr m 0 0) m) by (try discriminate; try apply points_to_buf; destruct SB as [E | E]; rewrite E in *; lia).
  cbn [bind]. unfold store. rewrite zlen_zslice by (destruct SB as [E | E]; rewrite E in *; lia).
  cbn [s32_mem]. replace (_ && _) with false; [reflexivity|]. symmetry. apply andb_false_iff. right. apply Z.leb_gt.
  change (zlen _) with 16 at 1. destruct SB as [-> | ->]; lia.
Qed.
Print Assumptions C18_xxh32_huge_update_refuted.
Theorem C18_xxh64_huge_update_refuted : forall c, cfg_ok c -> exists st p m,
  XXH64_update c (XXH64_reset 0) (Ptr [0] 0 0) 1 = OK (XXH_OK, st) /\
  points_to p m /\ bytes_ok m /\ zlen m = 2 ^ szbits c - 1 /\ XXH64_update c st p (zlen m) = UB.
Proof.
  intros c C. assert (SB : szbits c = 32 \/ szbits c = 64) by apply C.
  set (m := repeat 0 (Z.to_nat (2 ^ szbits c - 1))).
  assert (L : zlen m = 2 ^ szbits c - 1) by (subst m; rewrite zlen_repeat; destruct SB as [-> | ->]; lia).
  eexists. exists (Ptr m 0 0), m. split.
  { unfold XXH64_update. cbn [is_null XXH64_reset s64_memsize]. replace (usz c (0 + 1)) with 1 by (unfold usz; destruct SB as [-> | ->]; reflexivity).
    reflexivity. }
  split. { exact (points_to_buf m). }
  split. { subst m. apply Forall_forall. intros x I. apply repeat_spec in I. subst x. unfold byte_ok. lia. }
  split; [exact L|]. unfold XXH64_update. cbn [is_null s64_memsize]. rewrite L.
  change (u32 (0 + u32 1)) with 1. replace (usz c (1 + (2 ^ szbits c - 1))) with 0 by (unfold usz; destruct SB as [-> | ->]; reflexivity).
  cbn [Z.ltb Z.compare]. rewrite (load_at0 (Ptr m 0 0) m) by (try discriminate; try apply points_to_buf; destruct SB as [E | E]; rewrite E in *; lia).
  cbn [bind]. unfold store. rewrite zlen_zslice by (destruct SB as [E | E]; rewrite E in *; lia).
  cbn [s64_mem]. replace (_ && _) with false; [reflexivity|]. symmetry. apply andb_false_iff. right. apply Z.leb_gt.
  change (zlen _) with 32 at 1. destruct SB as [-> | ->]; lia.
Qed.
Print Assumptions C18_xxh64_huge_update_refuted.

(** ** C34: which updates form a pointer outside the object.  [b] is the whole object the input lies in, [o] the offset of
    the input in it.  XXH32_update forms [bEnd - 16], XXH64_update forms [p + 32] (p after completing the buffer): each is defined
    under ISO C exactly when the call stays in the buffer or that pointer lies in the object; then it computes what
    the plain model computes. *)
Theorem C34_xxh32_exact : forall c seed m st b a o d r, cfg_ok c -> rep32 seed m st ->
  points_to (Ptr b a o) d -> bytes_ok d -> zlen d + 16 <= 2 ^ szbits c ->
  XXH32_update c st (Ptr b a o) (zlen d) = OK r ->
  XXH32_update_s c st (Ptr b a o) (zlen d) =
    if (zlen m mod 16 + zlen d <? 16) || (16 <=? o + zlen d) then OK r else UB.
Proof.
  intros c seed m st b a o d r C R P B SZ E. assert (MS : s32_memsize st = zlen m mod 16) by apply R.
  assert (0 <= zlen m mod 16 < 16) by (apply Z.mod_pos_bound; lia).
  destruct P as (pre & post & -> & ->). pose proof (zlen_nonneg pre). pose proof (zlen_nonneg d). pose proof (zlen_nonneg post).
  rewrite (update32_s c st _ a _ (zlen d) r) by (trivial; rewrite ?zlen_app; lia).
  rewrite MS. unfold usz. rewrite Z.mod_small by lia. reflexivity.
Qed.
Print Assumptions C34_xxh32_exact.
Theorem C34_xxh64_exact : forall c seed m st b a o d r, cfg_ok c -> rep64 seed m st ->
  points_to (Ptr b a o) d -> bytes_ok d -> zlen d + 32 <= 2 ^ szbits c ->
  XXH64_update c st (Ptr b a o) (zlen d) = OK r ->
  XXH64_update_s c st (Ptr b a o) (zlen d) =
    if (zlen m mod 32 + zlen d <? 32) || (o + (- zlen m) mod 32 + 32 <=? zlen b) then OK r else UB.
Proof.
  intros c seed m st b a o d r C R P B SZ E. assert (MS : s64_memsize st = zlen m mod 32) by apply R.
  assert (0 <= zlen m mod 32 < 32) by (apply Z.mod_pos_bound; lia).
  destruct P as (pre & post & -> & ->). pose proof (zlen_nonneg pre). pose proof (zlen_nonneg d). pose proof (zlen_nonneg post).
  rewrite (update64_s c st _ a _ (zlen d) r) by (trivial; rewrite ?zlen_app; lia).
  rewrite MS. unfold usz. rewrite Z.mod_small by lia.
  replace (if zlen m mod 32 =? 0 then 0 else 32 - zlen m mod 32) with ((- zlen m) mod 32); [reflexivity|].
  destruct (Z.eqb_spec (zlen m mod 32) 0) as [Q|Q]; [apply Z.mod_opp_l_z|apply Z.mod_opp_l_nz]; lia.
Qed.
Print Assumptions C34_xxh64_exact.
Definition c64 : cfg := Cfg true 0 false false false 0 64 true false V_SCALAR false false.
Lemma c64_ok : cfg_ok c64.
Proof. constructor; cbn; try lia; discriminate. Qed.
(** hence the claim is false: a 1-byte object after 15 buffered bytes, a 32-byte object after 31 *)
Theorem C34_xxh32_refuted : exists c st b, cfg_ok c /\ XXH32_update c (XXH32_reset 0) (Ptr (repeat 0 15) 0 0) 15 = OK (XXH_OK, st) /\
  zlen b = 1 /\ bytes_ok b /\ defined (XXH32_update c st (Ptr b 0 0) 1) /\ XXH32_update_s c st (Ptr b 0 0) 1 = UB.
Proof.
  exists c64. eexists. exists [7]. split; [exact c64_ok|]. split; [vm_compute; reflexivity|]. split; [reflexivity|].
  split; [repeat constructor; unfold byte_ok; lia|]. split; [eexists|]; vm_compute; reflexivity.
Qed.
Print Assumptions C34_xxh32_refuted.
Theorem C34_xxh64_refuted : exists c st b, cfg_ok c /\ XXH64_update c (XXH64_reset 0) (Ptr (repeat 0 31) 0 0) 31 = OK (XXH_OK, st) /\
  zlen b = 32 /\ bytes_ok b /\ defined (XXH64_update c st (Ptr b 0 0) 32) /\ XXH64_update_s c st (Ptr b 0 0) 32 = UB.
Proof.
  exists c64. eexists. exists (repeat 7 32). split; [exact c64_ok|]. split; [vm_compute; reflexivity|]. split; [reflexivity|].
  split; [repeat constructor; unfold byte_ok; lia|]. split; [eexists|]; vm_compute; reflexivity.
Qed.
Print Assumptions C34_xxh64_refuted.
(** XXH3: the accumulation loop over n >= 1 stripes forms [in + XXH_PREFETCH_DIST]; it is defined under ISO C exactly when the
    object extends that far beyond the last stripe's start, although only 64 bytes are read there. *)
Theorem C34_xxh3_accumulate_exact : forall c dist adr acc b a o ps n acc',
  0 <= dist -> 0 <= o -> 0 <= n -> accumulate_template (accumulate_512 c) adr acc (Ptr b a o) ps n = OK acc' ->
  accumulate_template_s dist (accumulate_512 c) adr acc (Ptr b a o) ps n =
    if (n =? 0) || (o + (n - 1) * 64 + dist <=? zlen b) then OK acc' else UB.
Proof.
  intros c dist adr acc b a o ps n acc' D O N E. unfold accumulate_template in E. unfold accumulate_template_s.
  rewrite (template_s dist (accumulate_512 c) adr b a o ps D O _ _ _ _ E ltac:(lia)).
  destruct (Z.to_nat n) as [|k] eqn:K.
  - replace (n =? 0) with true by lia. reflexivity.
  - replace (n =? 0) with false by lia. cbn [orb]. replace (0 + Z.of_nat k) with (n - 1) by lia. reflexivity.
Qed.
Print Assumptions C34_xxh3_accumulate_exact.
Definition new3 : state3 := State3 64 (repeat 0 8) (repeat 0 192) (repeat 0 256) 0 0 0 0 0 0 0 Null.
Theorem C34_xxh3_refuted : exists c st b, cfg_ok c /\ XXH3_64bits_reset c (Some new3) = OK (XXH_OK, Some st) /\
  zlen b = 512 /\ bytes_ok b /\ defined (XXH3_64bits_update c st (Ptr b 0 0) 512) /\ XXH3_64bits_update_s c 384 st (Ptr b 0 0) 512 = UB.
Proof.
  exists c64. eexists. exists (repeat 7 512). split; [exact c64_ok|]. split; [vm_compute; reflexivity|]. split; [reflexivity|].
  split; [apply Forall_forall; intros x I; apply repeat_spec in I; subst x; unfold byte_ok; lia|]. split; [eexists|]; vm_compute; reflexivity.
Qed.
Print Assumptions C34_xxh3_refuted.

(** ** C45: on a 32-bit target a secret of 2^29 + 64 bytes makes [block_len] wrap to 0 (xxhash.h:5841-5842): every long
    hash divides by zero, in every build, for every input. *)
Theorem C45_huge_secret_refuted : forall c p m ps s, cfg_ok c -> szbits c = 32 -> points_to p m -> bytes_ok m -> 240 < zlen m ->
  points_to ps s -> zlen s = 2 ^ 29 + 64 ->
  XXH3_64bits_withSecret c p (zlen m) ps (zlen s) = UB /\ XXH3_128bits_withSecret c p (zlen m) ps (zlen s) = UB.
Proof.
  intros c p m ps s C S P B L PS SL. rewrite SL.
  assert (HL : forall adr acc fa fs, hashLong_internal_loop c adr acc p (zlen m) ps (2 ^ 29 + 64) fa fs = UB).
  { intros. unfold hashLong_internal_loop, usz. rewrite S. reflexivity. }
  assert (NN : (zlen m <=? 16) = false /\ (zlen m <=? 128) = false /\ (zlen m <=? 240) = false) by lia. destruct NN as (N1 & N2 & N3).
  split.
  - unfold XXH3_64bits_withSecret, XXH3_64bits_internal. rewrite N1, N2. unfold MIDSIZE_MAX. rewrite N3.
    unfold hashLong_64b_withSecret, hashLong_64b_internal. rewrite HL. reflexivity.
  - unfold XXH3_128bits_withSecret, XXH3_128bits_internal. rewrite N1, N2. unfold MIDSIZE_MAX. rewrite N3.
    unfold hashLong_128b_withSecret, hashLong_128b_internal. rewrite HL. reflexivity.
Qed.
Print Assumptions C45_huge_secret_refuted.
Example C45_hyps : exists m s, bytes_ok m /\ 240 < zlen m /\ points_to (Ptr m 0 0) m /\ points_to (Ptr s 0 0) s /\ zlen s = 2 ^ 29 + 64.
Proof.
  exists (repeat 0 241), (repeat 0 (Z.to_nat (2 ^ 29 + 64))). rewrite !zlen_repeat.
  split; [apply Forall_forall; intros x I; apply repeat_spec in I; subst x; unfold byte_ok; lia|]. split; [lia|].
  split; [apply points_to_buf|]. split; [apply points_to_buf|lia].
Qed.

(** ** C47: XXH_VECTOR = XXH_SVE is selected without looking at the byte order (xxhash.h:3896), but its loads are native: a
    big-endian SVE build that is well formed in every other respect returns another hash. *)
Definition be_sve : cfg := Cfg false 0 false false false 0 64 true false (V_SVE 2 0) false false.
Definition be_scalar : cfg := Cfg false 0 false false false 0 64 true false V_SCALAR false false.
Theorem C47_sve_big_endian_refuted : cfg_ok be_scalar /\ exists b x y, zlen b = 241 /\ bytes_ok b /\
  XXH3_64bits be_scalar (Ptr b 0 0) 241 = OK x /\ XXH3_64bits be_sve (Ptr b 0 0) 241 = OK y /\ x <> y.
Proof.
  split; [constructor; cbn; try lia; discriminate|]. exists (map (fun i => Z.of_nat i) (seq 0 241)). do 2 eexists.
  split; [reflexivity|]. split.
  { apply Forall_forall. intros x I. apply in_map_iff in I. destruct I as (i & <- & I). apply in_seq in I. unfold byte_ok. lia. }
  split; [vm_compute; reflexivity|]. split; [vm_compute; reflexivity|]. discriminate.
Qed.
Print Assumptions C47_sve_big_endian_refuted.

(** ** the hypotheses of C33 and C34 can be met *)
Example hyps7_inhabited :
  heap_ok c64 [Block 1001 (repeat 170 640); Block 4096 [1; 2; 3]] /\
  (exists st h', XXH3_createState c64 [Block 4096 [1; 2; 3]] (Some (1001, repeat 170 640)) new3 = OK (Some st, h') /\ s3_adr st = 1024 /\
     exists h'', hstore h' 1024 99 = OK h'' /\ XXH3_freeState h'' 1024 = OK (XXH_OK, 1001, [Block 4096 [1; 2; 3]])) /\
  XXH32_update_s c64 (XXH32_reset 0) (Ptr (repeat 1 40) 0 3) 35 = XXH32_update c64 (XXH32_reset 0) (Ptr (repeat 1 40) 0 3) 35 /\
  defined (XXH32_update c64 (XXH32_reset 0) (Ptr (repeat 1 40) 0 3) 35).
Proof.
  split. { repeat constructor; unfold apart, block_ok; cbn; lia. }
  split. { do 2 eexists. split; [vm_compute; reflexivity|]. split; [reflexivity|]. eexists. split; vm_compute; reflexivity. }
  split; [vm_compute; reflexivity|]. eexists. vm_compute. reflexivity.
Qed.
