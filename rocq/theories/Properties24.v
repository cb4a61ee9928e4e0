(** C45, exactly: which secrets the one-shot functions can use with which inputs. *)
From Verif Require Import Base Mem M_XXH3 M_Long M_Stream3 Spec3 P_Base P_X3_Long P_Stream P_Stream3 Properties2 Properties3 Properties7 P_HugeSecret.

(** For a secret of [n] bytes the block has 64 * ((n - 64) / 8) bytes; the code keeps it in a size_t.  If it fits, or if the input
    fits what is left of it after wrapping, the hash is the specified one.  Otherwise the call is undefined: it divides by zero
    or reads beyond the object the input is in (an object is assumed to leave 64 bytes of the address space to others). *)
Theorem C45_exact : forall c b adr off m ps s, cfg_ok c -> points_to (Ptr b adr off) m -> bytes_ok m -> 240 < zlen m -> 0 <= off -> zlen b <= 2 ^ szbits c - 64 ->
  points_to ps s -> bytes_ok s -> 136 <= zlen s < 2 ^ szbits c ->
  let block := 64 * ((zlen s - 64) / 8) in
  let hash64 := XXH3_64bits_withSecret c (Ptr b adr off) (zlen m) ps (zlen s) in
  let hash128 := XXH3_128bits_withSecret c (Ptr b adr off) (zlen m) ps (zlen s) in
  (block < 2 ^ szbits c \/ zlen m <= block mod 2 ^ szbits c ->
     hash64 = OK (X3.XXH3_64_withSecret s m) /\ hash128 = OK (X3.XXH3_128_withSecret s m)) /\
  (~ (block < 2 ^ szbits c \/ zlen m <= block mod 2 ^ szbits c) -> ~ defined hash64 /\ ~ defined hash128).
Proof.
  intros c b adr off m ps s C P BM L OFF BL PS BS S12 block hash64 hash128. destruct S12 as [S1 S2]. subst hash64 hash128.
  destruct (Z.lt_ge_cases block (2 ^ szbits c)) as [FIT|BIG].
  - split; [|intros N; exfalso; apply N; left; exact FIT]. intros _. assert (S3 : 8 * (zlen s - 64) < 2 ^ szbits c).
    { unfold block in FIT. pose proof (Z.div_mod (zlen s - 64) 8 ltac:(lia)). pose proof (Z.mod_pos_bound (zlen s - 64) 8 ltac:(lia)). assert (E : exists k, 2 ^ szbits c = 64 * k) by (destruct (ok_sz c C) as [-> | ->]; [exists (2 ^ 26)|exists (2 ^ 58)]; reflexivity). destruct E as (k & E). rewrite E in *. lia. }
    split; [apply C03_xxh3_64_withSecret_equals_spec|apply C04_xxh3_128_withSecret_equals_spec]; trivial.
  - split.
    + intros [F|F]; [lia|]. apply huge64; trivial.
    + intros N. assert (LONG : wrapped c s < zlen m) by (destruct (Z.lt_ge_cases (wrapped c s) (zlen m)) as [X|X]; [exact X|exfalso; apply N; right; exact X]).
      destruct (huge_undefined c (Ptr b adr off) ps m s C S1 S2 L BIG LONG) as (U1 & U2); [cbn; lia|]. split; intros (v & V); [exact (U1 v V)|exact (U2 v V)].
Qed.
Print Assumptions C45_exact.

(** A case: with a 32-bit size_t a secret of 2^29 + 100 bytes hashes 256 bytes of input and is undefined for 257. *)
Definition c32 : cfg := Cfg true 0 false false false 0 32 true false V_SCALAR false false.
Lemma zeros_ok n : bytes_ok (repeat 0 n).
Proof. apply Forall_forall. intros x I. apply repeat_spec in I. subst x. unfold byte_ok. lia. Qed.
Example C45_exact_case : cfg_ok c32 /\ (exists s, bytes_ok s /\ zlen s = 2 ^ 29 + 100) /\
  forall s, bytes_ok s -> zlen s = 2 ^ 29 + 100 -> let m := repeat 7 256 in let m' := repeat 7 257 in
  XXH3_64bits_withSecret c32 (Ptr m 0 0) 256 (Ptr s 0 0) (zlen s) = OK (X3.XXH3_64_withSecret s m) /\
  ~ defined (XXH3_64bits_withSecret c32 (Ptr m' 0 0) 257 (Ptr s 0 0) (zlen s)).
Proof.
  assert (C : cfg_ok c32) by (constructor; cbn; try lia; discriminate). split; [exact C|]. split.
  { exists (repeat 0 (Z.to_nat (2 ^ 29 + 100))). split; [apply zeros_ok|]. rewrite zlen_repeat. lia. }
  assert (R : forall n, bytes_ok (repeat 7 n)) by (intros n; apply Forall_forall; intros x I; apply repeat_spec in I; subst x; unfold byte_ok; lia).
  intros s BS E m m'.
  assert (S1 : 136 <= zlen s < 2 ^ szbits c32) by (rewrite E; split; [apply Z.leb_le|apply Z.ltb_lt]; reflexivity).
  destruct (C45_exact c32 m 0 0 m (Ptr s 0 0) s C (points_to_buf m) (R _) ltac:(reflexivity) ltac:(lia) ltac:(apply Z.leb_le; reflexivity) (points_to_buf s) BS S1) as (G & _).
  destruct (C45_exact c32 m' 0 0 m' (Ptr s 0 0) s C (points_to_buf m') (R _) ltac:(reflexivity) ltac:(lia) ltac:(apply Z.leb_le; reflexivity) (points_to_buf s) BS S1) as (_ & U).
  rewrite E in *. change (zlen m) with 256 in G. change (zlen m') with 257 in U. change ((64 * ((2 ^ 29 + 100 - 64) / 8)) mod 2 ^ szbits c32) with 256 in G, U.
  split; [apply G; right; lia|]. apply U. change (64 * ((2 ^ 29 + 100 - 64) / 8)) with (2 ^ 32 + 256). change (szbits c32) with 32. lia.
Qed.

(** The streaming functions never multiply by 64: where the one-shot functions are undefined they still return the specified hash. *)
Theorem C45_streaming : forall c st ps s calls chunks m, cfg_ok c -> raw3 st -> points_to ps s -> bytes_ok s -> 136 <= zlen s < 2 ^ szbits c ->
  chunks_ok c 1 calls chunks -> m = concat chunks -> zlen m < 2 ^ 64 ->
  session (XXH3_64bits_reset_withSecret c (Some st) ps (zlen s)) (XXH3_64bits_update c) calls (XXH3_64bits_digest c) = OK (X3.XXH3_64_withSecret s m) /\
  session (XXH3_128bits_reset_withSecret c (Some st) ps (zlen s)) (XXH3_128bits_update c) calls (XXH3_128bits_digest c) = OK (X3.XXH3_128_withSecret s m).
Proof.
  intros c st ps s calls chunks m C R PS BS [S1 S2] HC E L.
  assert (B : bytes_ok m) by (subst m; clear - HC; induction HC as [|x y l l' (_ & _ & B & _) _ IH]; [constructor|apply bytes_ok_app; assumption]).
  split.
  - exact (proj1 (C07_xxh3_64_withSecret_stream c st ps s calls chunks (Ptr m 0 0) m C R PS BS S1 S2 HC E L (points_to_buf m) B)).
  - exact (proj1 (C08_xxh3_128_withSecret_stream c st ps s calls chunks (Ptr m 0 0) m C R PS BS S1 S2 HC E L (points_to_buf m) B)).
Qed.
Print Assumptions C45_streaming.
(** with the secret of the case above the stream hashes the 257 bytes that the one-shot function cannot *)
Example C45_streaming_case : forall s, bytes_ok s -> zlen s = 2 ^ 29 + 100 -> let m := repeat 7 257 in
  session (XXH3_64bits_reset_withSecret c32 (Some (created_ex 0)) (Ptr s 0 0) (zlen s)) (XXH3_64bits_update c32) [(Ptr m 0 0, 257)] (XXH3_64bits_digest c32) =
    OK (X3.XXH3_64_withSecret s m) /\
  ~ defined (XXH3_64bits_withSecret c32 (Ptr m 0 0) 257 (Ptr s 0 0) (zlen s)).
Proof.
  intros s BS E m. destruct C45_exact_case as (C & _ & K). split; [|apply (K s BS E)].
  destruct hyps3_inhabited as (CR & _).
  apply (C45_streaming c32 (created_ex 0) (Ptr s 0 0) s [(Ptr m 0 0, 257)] [m] m C (created_raw _ (CR O)) (points_to_buf s) BS).
  - rewrite E. change (szbits c32) with 32. lia.
  - constructor; [|constructor]. split; [apply points_to_buf|]. split; [reflexivity|].
    split; [apply Forall_forall; intros x I; apply repeat_spec in I; subst x; unfold byte_ok; lia|]. change (szbits c32) with 32. cbn [snd]. change (zlen m) with 257. lia.
  - cbn [concat]. rewrite app_nil_r. reflexivity.
  - change (zlen m) with 257. lia.
Qed.
