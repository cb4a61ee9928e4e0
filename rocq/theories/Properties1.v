(** Property theorems about XXH32 and XXH64 (C01, C02, C05, C06). *)
From Verif Require Import Base Mem M_XXH32 M_XXH64 Spec32 Spec64 P_Base P_XXH32 P_XXH64 P_Stream Vectors.

(** C01 *)
Theorem C01_xxh32_equals_spec : forall c p m seed,
  cfg_ok c -> points_to p m -> bytes_ok m -> zlen m < 2 ^ szbits c ->
  XXH32 c p (zlen m) seed = OK (X32.hash m seed).
Proof. exact XXH32_spec. Qed.
Print Assumptions C01_xxh32_equals_spec.

(** C02 *)
Theorem C02_xxh64_equals_spec : forall c p m seed,
  cfg_ok c -> points_to p m -> bytes_ok m -> zlen m < 2 ^ szbits c ->
  XXH64 c p (zlen m) seed = OK (X64.hash m seed).
Proof. exact XXH64_spec. Qed.
Print Assumptions C02_xxh64_equals_spec.

Lemma chunks_bytes c k calls chunks : chunks_ok c k calls chunks -> bytes_ok (concat chunks).
Proof. induction 1 as [|x d calls chunks (_ & _ & B & _) _ IH]; [constructor|]. cbn [concat]. apply bytes_ok_app; assumption. Qed.
(** C05: however the data is cut into calls (empty chunks included), the digest is the specified hash of the whole, and
    so equals the one-shot call, of any build, on the concatenation wherever that fits in memory. *)
Theorem C05_xxh32_stream_equals_oneshot : forall c seed calls chunks,
  cfg_ok c -> chunks_ok c 16 calls chunks ->
  let streamed := let! st := feed (XXH32_update c) (XXH32_reset seed) calls in XXH32_digest c st in
  streamed = OK (X32.hash (concat chunks) seed) /\
  (forall c' p, cfg_ok c' -> points_to p (concat chunks) -> zlen (concat chunks) < 2 ^ szbits c' ->
     streamed = XXH32 c' p (zlen (concat chunks)) seed).
Proof.
  intros c seed calls chunks C H streamed. assert (E := stream32 c seed calls chunks C H). split; [exact E|].
  intros c' p C' P S. rewrite C01_xxh32_equals_spec by (trivial; apply (chunks_bytes c 16 calls); assumption). exact E.
Qed.
Print Assumptions C05_xxh32_stream_equals_oneshot.

(** C06 *)
Theorem C06_xxh64_stream_equals_oneshot : forall c seed calls chunks,
  cfg_ok c -> chunks_ok c 32 calls chunks -> zlen (concat chunks) < 2 ^ 64 ->
  let streamed := let! st := feed (XXH64_update c) (XXH64_reset seed) calls in XXH64_digest c st in
  streamed = OK (X64.hash (concat chunks) seed) /\
  (forall c' p, cfg_ok c' -> points_to p (concat chunks) -> zlen (concat chunks) < 2 ^ szbits c' ->
     streamed = XXH64 c' p (zlen (concat chunks)) seed).
Proof.
  intros c seed calls chunks C H T streamed. assert (E := stream64 c seed calls chunks C H T). split; [exact E|].
  intros c' p C' P S. rewrite C02_xxh64_equals_spec by (trivial; apply (chunks_bytes c 32 calls); assumption). exact E.
Qed.
Print Assumptions C06_xxh64_stream_equals_oneshot.

(** the hypotheses hold of concrete, non-trivial data: a big-endian 32-bit build hashing 40 bytes in the
    middle of a larger block, in chunks of 5, 0, 33 and 2 bytes *)
Example hyps_inhabited :
  cfg_ok c1 /\ points_to (Ptr ([9; 9; 9] ++ pre 40 ++ [7]) 5 3) (pre 40) /\ bytes_ok (pre 40) /\
  zlen (pre 40) + 32 <= 2 ^ szbits c1 /\
  chunks_ok c1 32 [(Ptr (pre 40) 0 0, 5); (Null, 0); (Ptr (pre 40) 0 5, 33); (Ptr (pre 40) 0 38, 2)]
                  [zslice (pre 40) 0 5; []; zslice (pre 40) 5 33; zslice (pre 40) 38 2].
Proof.
  assert (B : bytes_ok (pre 40)) by (vm_compute; repeat constructor; discriminate).
  assert (P : points_to (Ptr (pre 40) 0 0) (pre 40)) by apply points_to_buf.
  split; [constructor; cbn; auto; try lia; discriminate|].
  split; [apply (points_to_intro [9; 9; 9] (pre 40) [7])|].
  split; [exact B|]. split; [vm_compute; discriminate|].
  repeat constructor; cbn [fst snd]; try (apply bytes_ok_zslice, B); try (vm_compute; discriminate).
  - apply (points_to_sub _ _ 0 5 P); try (vm_compute; discriminate).
  - apply (points_to_sub _ _ 5 33 P); try (vm_compute; discriminate).
  - apply (points_to_sub _ _ 38 2 P); try (vm_compute; discriminate).
Qed.
