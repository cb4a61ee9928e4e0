(** The self-test of xxhsum (C55). *)
From Verif Require Import Base Mem M_XXH32 M_XXH64 M_XXH3 M_Kernels M_Long M_Stream3 M_Util Spec32 Spec64 Spec3 SpecUtil
  P_Base History M_Sanity P_Rand P_Sanity.
Import Util.

(** C55: in every build, whatever the stack and the allocator held, the self-test runs to its end without undefined
    behaviour and never takes the exit(1) path; [rounds] only bounds the loop of the model, and beyond some bound it
    makes no difference.  [rnd] is the static state of the generator of random lengths, odd at the start (2654435761) and
    after every run. *)
Theorem C55_selftest_passes : forall c b adr g rnd,
  cfg_ok c -> zlen b = 2367 ->
  (forall k i, created3 (g_state (g k i)) /\ zlen (g_buf1 (g k i)) = 193 /\ zlen (g_buf2 (g k i)) = 193) ->
  0 <= rnd < 2 ^ 64 -> Z.odd rnd = true ->
  exists n rnd', 0 <= rnd' < 2 ^ 64 /\ Z.odd rnd' = true /\
    forall rounds, (n <= rounds)%nat -> sanityCheck rounds c b adr g rnd = OK (Some rnd').
Proof.
  intros c b adr g rnd C L G R O. destruct (sanity_ok c b adr g rnd C L G (conj R O)) as (n & s' & [R' O'] & E). exists n, s'. auto.
Qed.
Print Assumptions C55_selftest_passes.

(** C55: the lengths of the pieces come from a multiplicative generator: the n-th call of XSUM_rand gives the upper 24 bits of
    rnd * 0x9E3779B185EBCA8D^n mod 2^64 *)
Theorem C55_random_lengths : forall n rnd, let s := rnd * 0x9E3779B185EBCA8D ^ (Z.of_nat n + 1) mod 2 ^ 64 in
  rand (Nat.iter n (fun r => snd (rand r)) rnd) = (s / 2 ^ 40, s) /\ 0 <= s / 2 ^ 40 < 2 ^ 24.
Proof.
  intros n rnd s. assert (B : 0 <= s < 2 ^ 64) by (apply Z.mod_pos_bound; lia).
  assert (V : 0 <= s / 2 ^ 40 < 2 ^ 24) by (split; [apply Z.div_pos|apply Z.div_lt_upper_bound]; lia).
  split; [|exact V]. assert (S : snd (rand (Nat.iter n (fun r => snd (rand r)) rnd)) = s).
  { clear B V. subst s. induction n as [|n IH]; [reflexivity|].
    change (Nat.iter (S n) (fun r => snd (rand r)) rnd) with (snd (rand (Nat.iter n (fun r => snd (rand r)) rnd))). rewrite IH. unfold rand at 1. cbn [snd].
    rewrite Z.mul_mod_idemp_l by lia. f_equal. replace (Z.of_nat (S n) + 1) with ((Z.of_nat n + 1) + 1) by lia.
    rewrite (Z.pow_add_r _ (Z.of_nat n + 1) 1) by lia. rewrite Z.pow_1_r. symmetry. apply Z.mul_assoc. }
  set (r := Nat.iter n _ rnd) in *. clearbody r. revert S. unfold rand. cbn [snd]. intros ->. f_equal. apply Z.mod_small. lia.
Qed.
Print Assumptions C55_random_lengths.
Example C55_random_lengths_case : fst (rand TPRIME32) = 5417816 /\ fst (rand (snd (rand TPRIME32))) = (TPRIME32 * 0x9E3779B185EBCA8D ^ 2 mod 2 ^ 64) / 2 ^ 40.
Proof. split; reflexivity. Qed.

(** C55: a table entry other than the specified hash is always caught *)
Theorem C55_selftest_detects : forall rounds c g data d seed rnd,
  cfg_ok c -> bytes_ok d -> zlen d <= 2 ^ 24 -> points_to (if zlen d =? 0 then Null else data) d -> 0 <= seed < 2 ^ 64 ->
  (forall N, X32.hash d seed <> N -> testXXH32 c data (zlen d, seed, N) rnd = OK None) /\
  (forall N, X64.hash d seed <> N -> testXXH64 c data (zlen d, seed, N) rnd = OK None) /\
  (forall N, X3.XXH3_64_withSeed seed d <> N -> testXXH3 rounds c g data (zlen d, seed, N) rnd = OK None) /\
  (forall N, X3.XXH3_128_withSeed seed d <> N -> testXXH128 rounds c g data (zlen d, seed, N) rnd = OK None) /\
  (forall ps s, points_to ps s -> bytes_ok s -> 136 <= zlen s <= 192 ->
     (forall N, X3.XXH3_64_withSecret s d <> N -> testXXH3_withSecret rounds c g data ps (zlen s) (zlen d, seed, N) rnd = OK None) /\
     (forall N, X3.XXH3_128_withSecret s d <> N -> testXXH128_withSecret rounds c g data ps (zlen s) (zlen d, seed, N) rnd = OK None)).
Proof.
  intros rounds c g data d seed rnd C B L P W.
  split; [intros; apply test32_wrong; trivial|]. split; [intros; apply test64_wrong; trivial|].
  split; [intros; apply testXXH3_wrong; trivial|]. split; [intros; apply testXXH128_wrong; trivial|].
  intros ps s PS BS LS. split; intros; [apply testXXH3_withSecret_wrong|apply testXXH128_withSecret_wrong]; trivial.
Qed.
Print Assumptions C55_selftest_detects.

(** C55: and the specified hash is accepted for any data: cutting it into pieces of random lengths comes to an end *)
Theorem C55_selftest_accepts : forall c data d rnd,
  cfg_ok c -> bytes_ok d -> zlen d <= 2 ^ 24 -> points_to (if zlen d =? 0 then Null else data) d ->
  0 <= rnd < 2 ^ 64 -> Z.odd rnd = true ->
  exists n rnd', 0 <= rnd' < 2 ^ 64 /\ Z.odd rnd' = true /\ forall rounds g seed, (n <= rounds)%nat ->
  created3 (g_state g) /\ zlen (g_buf1 g) = 193 /\ zlen (g_buf2 g) = 193 -> 0 <= seed < 2 ^ 64 ->
  testXXH32 c data (zlen d, seed, X32.hash d seed) rnd = OK (Some rnd) /\
  testXXH64 c data (zlen d, seed, X64.hash d seed) rnd = OK (Some rnd) /\
  testXXH3 rounds c g data (zlen d, seed, X3.XXH3_64_withSeed seed d) rnd = OK (Some rnd') /\
  testXXH128 rounds c g data (zlen d, seed, X3.XXH3_128_withSeed seed d) rnd = OK (Some rnd') /\
  (forall ps s, points_to ps s -> bytes_ok s -> 136 <= zlen s <= 192 ->
     testXXH3_withSecret rounds c g data ps (zlen s) (zlen d, seed, X3.XXH3_64_withSecret s d) rnd = OK (Some rnd') /\
     testXXH128_withSecret rounds c g data ps (zlen s) (zlen d, seed, X3.XXH3_128_withSecret s d) rnd = OK (Some rnd')).
Proof.
  intros c data d rnd C B L P R O. destruct (random_cut_ends (zlen d) rnd (zlen_nonneg d) (conj R O)) as (n & rnd' & [R' O'] & D0).
  exists n, rnd'. split; [exact R'|]. split; [exact O'|]. intros rounds g seed NR G W. pose proof (D0 rounds NR) as D.
  split; [apply test32_right; trivial|]. split; [apply test64_right; trivial|].
  split; [apply testXXH3_right; trivial|]. split; [apply testXXH128_right; trivial|].
  intros ps s PS BS LS. split; [apply testXXH3_withSecret_right|apply testXXH128_withSecret_right]; trivial.
Qed.
Print Assumptions C55_selftest_accepts.

(** C55: the secret generator's test accepts a table entry exactly when the five sampled bytes are those of the specified
    secret followed by zeros *)
Theorem C55_generator_test : forall c adr p s size byte rnd,
  cfg_ok c -> (zlen s = 0 \/ points_to p s) -> bytes_ok s -> zlen s <= 2 ^ 24 -> 136 <= size <= 9867 -> List.length byte = 5%nat ->
  testSecretGenerator c adr p (zlen s, size, byte) rnd = OK (Some rnd) <->
  byte = map (fun i => nth i (generateSecret size s) 0) [0; 62; 131; 191; 241]%nat.
Proof.
  intros c adr p s size byte rnd C P B L S LB. rewrite generator_exact by trivial. unfold sampled.
  destruct (list_eq_dec Z.eq_dec _ byte) as [E|E]; split; intros H; congruence.
Qed.
Print Assumptions C55_generator_test.

(** a case: the memory an actual process could have *)
Definition fresh_state : state3 := State3 0 (repeat 0 8) (repeat 7 192) (repeat 9 256) 0 0 0 0 0 0 0 Null.
Definition fresh_garbage : garbage := Garbage fresh_state (repeat 5 193) 3 (repeat 6 193) 1000.
Example case_c55 : cfg_ok (Cfg true 0 false false false 0 64 true false V_AVX2 true false) /\ zlen (repeat 1 2367) = 2367 /\
  (created3 fresh_state /\ zlen (g_buf1 fresh_garbage) = 193 /\ zlen (g_buf2 fresh_garbage) = 193) /\
  0 <= 2654435761 < 2 ^ 64 /\ Z.odd 2654435761 = true.
Proof.
  split; [constructor; cbn; auto; try lia; discriminate|]. split; [reflexivity|]. split.
  - split; [constructor; try reflexivity; cbn; repeat constructor; lia|]. split; reflexivity.
  - split; [lia|reflexivity].
Qed.
