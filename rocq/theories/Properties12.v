(** Property theorems about the other descriptions of the algorithms and about concurrent use (C58). *)
From Verif Require Import Base Mem M_XXH32 M_XXH64 Spec32 Spec64 P_Base P_XXH32 P_XXH64 M_Cry P_Cry Vectors Properties1 Properties2.

(** C58: the C functions compute what the Cryptol definition computes, bit for bit *)
Lemma bytes_Is m : bytes_ok m -> Forall2 (Is 8) (map (Cry.word 8) m) m.
Proof. induction 1 as [|b m B _ IH]; cbn [map]; constructor; [apply Is_lit, B|exact IH]. Qed.
Theorem C58_xxh32_equals_cryptol : forall c p m seed, cfg_ok c -> points_to p m -> bytes_ok m -> zlen m < 2 ^ szbits c -> 0 <= seed < 2 ^ 32 ->
  exists h, XXH32 c p (zlen m) seed = OK h /\ Cry.XXH32 (map (Cry.word 8) m) (Cry.word 32 seed) = Cry.word 32 h /\ 0 <= h < 2 ^ 32.
Proof.
  intros c p m seed C P B L S. exists (X32.hash m seed). split; [apply C01_xxh32_equals_spec; trivial|].
  pose proof (cry32_ok _ _ _ _ (bytes_Is m B) (Is_lit 32 seed S)) as H. split; [apply Is_eq, H|exact (Is_range _ _ _ H)].
Qed.
Print Assumptions C58_xxh32_equals_cryptol.
Theorem C58_xxh64_equals_cryptol : forall c p m seed, cfg_ok c -> points_to p m -> bytes_ok m -> zlen m < 2 ^ szbits c -> 0 <= seed < 2 ^ 64 ->
  exists h, XXH64 c p (zlen m) seed = OK h /\ Cry.XXH64 (map (Cry.word 8) m) (Cry.word 64 seed) = Cry.word 64 h /\ 0 <= h < 2 ^ 64.
Proof.
  intros c p m seed C P B L S. exists (X64.hash m seed). split; [apply C02_xxh64_equals_spec; trivial|].
  pose proof (cry64_ok _ _ _ _ (bytes_Is m B) (Is_lit 64 seed S)) as H. split; [apply Is_eq, H|exact (Is_range _ _ _ H)].
Qed.
Print Assumptions C58_xxh64_equals_cryptol.
(** the two documents agree: on every sequence of bytes and seed of the Cryptol types, whatever the length *)
Theorem C58_documents_agree : forall input seed32 seed64, Forall (fun b => length b = 8%nat) input -> length seed32 = 32%nat -> length seed64 = 64%nat ->
  Cry.XXH32 input seed32 = Cry.word 32 (X32.hash (map Cry.val input) (Cry.val seed32)) /\
  Cry.XXH64 input seed64 = Cry.word 64 (X64.hash (map Cry.val input) (Cry.val seed64)).
Proof.
  intros input seed32 seed64 F L1 L2. assert (Q : Forall2 (Is 8) input (map Cry.val input)) by (induction F; cbn [map]; constructor; [split; trivial|assumption]).
  split; apply Is_eq; [apply cry32_ok|apply cry64_ok]; trivial; split; trivial.
Qed.
Print Assumptions C58_documents_agree.
(** the two properties stated in doc/xxhash.cry:55-60 and 132-137 *)
Fixpoint read_bits (n : nat) (x : Z) : Cry.bits := match n with O => [] | S n => read_bits n (x / 10) ++ [Z.odd x] end.
Example C58_primes_as_bits :
  Cry.PRIME32_1 = read_bits 32 10011110001101110111100110110001 /\ Cry.PRIME32_2 = read_bits 32 10000101111010111100101001110111 /\
  Cry.PRIME32_3 = read_bits 32 11000010101100101010111000111101 /\ Cry.PRIME32_4 = read_bits 32 00100111110101001110101100101111 /\
  Cry.PRIME32_5 = read_bits 32 00010110010101100110011110110001 /\
  Cry.PRIME64_1 = read_bits 64 1001111000110111011110011011000110000101111010111100101010000111 /\
  Cry.PRIME64_2 = read_bits 64 1100001010110010101011100011110100100111110101001110101101001111 /\
  Cry.PRIME64_3 = read_bits 64 0001011001010110011001111011000110011110001101110111100111111001 /\
  Cry.PRIME64_4 = read_bits 64 1000010111101011110010100111011111000010101100101010111001100011 /\
  Cry.PRIME64_5 = read_bits 64 0010011111010100111010110010111100010110010101100110011111000101.
Proof. vm_compute. repeat split. Qed.
(** a real case: 14 bytes and a seed, value from the project's test vectors (cli/xsum_sanity_check.c) *)
Example C58_case : Cry.XXH32 (map (Cry.word 8) (pre 14)) (Cry.word 32 PRIME32') = Cry.word 32 0x6AF1D1FE /\
  Cry.XXH64 (map (Cry.word 8) (pre 14)) (Cry.word 64 PRIME32') = Cry.word 64 0xC3BD6BF63DEB6DF0 /\ bytes_ok (pre 14) /\ cfg_ok c1.
Proof.
  split; [vm_compute; reflexivity|]. split; [vm_compute; reflexivity|]. split; [repeat constructor; vm_compute; discriminate|constructor; cbn; auto; try lia; discriminate].
Qed.
