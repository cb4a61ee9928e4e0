(** Property theorems about how often each digest occurs: C110. *)
From Verif Require Import Base Mem M_XXH32 M_XXH64 M_XXH3 M_Long Spec32 Spec64 SpecCount P_Base P_Spec P_Count Vectors Properties1 Properties17 Properties38.

Definition is_hash (r : res Z) (h : Z) : bool := match r with OK x => x =? h | _ => false end.
Lemma is_hash_true r h : is_hash r h = true <-> r = OK h.
Proof. destruct r as [x| |]; cbn; [|split; discriminate..]. rewrite Z.eqb_eq. split; [intros ->; reflexivity|intros [= ->]; reflexivity]. Qed.

(** ** C110 *)
(** XXH32: among all inputs of [n] bytes, 4 or more, every digest occurs equally often, 256^(n-4) times.  [place m]: where the input [m] lies. *)
Theorem C110_xxh32_uniform : forall c seed n h (place : list Z -> ptr), cfg_ok c -> (forall m, points_to (place m) m) -> (4 <= n)%nat -> Z.of_nat n < 2 ^ szbits c -> 0 <= h < 2 ^ 32 ->
  length (filter (fun m => is_hash (XXH32 c (place m) (Z.of_nat n) seed) h) (inputs n)) = (256 ^ (n - 4))%nat.
Proof.
  intros c seed n h place C P N S H. set (f := fun m => _).
  enough (G : length (filter f (inputs (0 + 4 + (n - 4)))) = (256 ^ (0 + (n - 4)))%nat) by (replace (0 + 4 + (n - 4))%nat with n in G by lia; exact G). unfold f. apply count_words.
  - intros a b Ba Bb La Lb. destruct a; [|discriminate]. destruct (C72_xxh32_word [] b seed h) as (w & Bw & Lw & E & _); trivial. change (zlen []) with 0 in E.
    exists w. split; [exact Bw|]. split; [unfold zlen in Lw; lia|]. apply is_hash_true. replace (Z.of_nat n) with (0 + 4 + zlen b) by (unfold zlen; lia). apply E; trivial. unfold zlen; lia.
  - intros a b w w' Ba Bb Bw Bw' La Lb Lw Lw' E E'. destruct a; [|discriminate]. apply is_hash_true in E, E'.
    destruct (C72_xxh32_word [] b seed h) as (u & _ & _ & _ & U); trivial. change (zlen []) with 0 in U. replace (Z.of_nat n) with (0 + 4 + zlen b) in E, E' by (unfold zlen; lia).
    transitivity u; [|symmetry]; (eapply (U c); [exact C|unfold zlen; lia|assumption|unfold zlen; lia|apply P|eassumption]).
Qed.
Print Assumptions C110_xxh32_uniform.
(** XXH64: the same where at least 8 bytes follow the last full stripe of 32 bytes *)
Theorem C110_xxh64_uniform : forall c seed n h (place : list Z -> ptr), cfg_ok c -> (forall m, points_to (place m) m) -> (8 <= n mod 32)%nat -> Z.of_nat n < 2 ^ szbits c -> 0 <= h < 2 ^ 64 ->
  length (filter (fun m => is_hash (XXH64 c (place m) (Z.of_nat n) seed) h) (inputs n)) = (256 ^ (n - 8))%nat.
Proof.
  intros c seed n h place C P N S H. set (o := (32 * (n / 32))%nat). set (r := (n mod 32 - 8)%nat). pose proof (Nat.div_mod n 32 ltac:(lia)) as D.
  assert (D1 : (o + 8 + r = n)%nat) by (unfold o, r; lia). assert (D2 : (n mod 32 < 32)%nat) by (apply Nat.mod_upper_bound; lia).
  assert (Q : forall a b : list Z, length a = o -> length b = r -> zlen a mod 8 = 0 /\ (zlen a + 8 + zlen b) / 32 * 32 <= zlen a /\ Z.of_nat n = zlen a + 8 + zlen b).
  { intros a b La Lb. unfold zlen. rewrite La, Lb. split; [|split; [|lia]].
    - unfold o. replace (Z.of_nat (32 * (n / 32))) with (4 * Z.of_nat (n / 32) * 8) by lia. apply Z.mod_mul. lia.
    - replace (Z.of_nat o + 8 + Z.of_nat r) with (Z.of_nat n) by lia. unfold o. change 32 with (Z.of_nat 32) at 1. rewrite <- Nat2Z.inj_div. lia. }
  set (f := fun m => _). enough (G : length (filter f (inputs (o + 8 + r))) = (256 ^ (o + r))%nat) by (rewrite D1 in G; replace (o + r)%nat with (n - 8)%nat in G by lia; exact G).
  unfold f. apply count_words.
  - intros a b Ba Bb La Lb. destruct (Q a b La Lb) as (Q1 & Q2 & ->). destruct (C72_xxh64_word a b seed h) as (w & Bw & Lw & E & _); trivial.
    exists w. split; [exact Bw|]. split; [unfold zlen in Lw; lia|]. apply is_hash_true. apply E; trivial. unfold zlen; lia.
  - intros a b w w' Ba Bb Bw Bw' La Lb Lw Lw' E E'. destruct (Q a b La Lb) as (Q1 & Q2 & Q3). apply is_hash_true in E, E'. rewrite Q3 in E, E'.
    destruct (C72_xxh64_word a b seed h) as (u & _ & _ & _ & U); trivial.
    transitivity u; [|symmetry]; (eapply (U c); [exact C|unfold zlen; lia|assumption|unfold zlen; lia|apply P|eassumption]).
Qed.
Print Assumptions C110_xxh64_uniform.

(** XXH3 128-bit is not uniform in this sense: for each length from 17 to 240 bytes and each seed some digest does not occur at all, although there are
    at least 256 times as many inputs as digests. *)
Theorem C110_xxh3_128_uniform_refuted : forall n seed, (17 <= n <= 240)%nat -> 0 <= seed < 2 ^ 64 -> exists h, 0 <= fst h < 2 ^ 64 /\ 0 <= snd h < 2 ^ 64 /\
  forall c (place : list Z -> ptr), cfg_ok c -> (forall m, points_to (place m) m) ->
    filter (fun m => match XXH3_128bits_withSeed c (place m) (Z.of_nat n) seed with OK d => (fst d =? fst h) && (snd d =? snd h) | _ => false end) (inputs n) = [].
Proof.
  intros n seed N S. destruct (C109_every_digest_refuted (Z.of_nat n) seed 0) as (high & H & F); [lia|exact S|lia|]. exists (0, high). cbn [fst snd]. split; [lia|]. split; [exact H|].
  intros c place C P. set (f := fun m => _). destruct (filter f (inputs n)) as [|m l] eqn:E; [reflexivity|].
  assert (I : In m (filter f (inputs n))) by (rewrite E; left; reflexivity). apply filter_In in I. destruct I as [I T]. apply inputs_all in I. destruct I as [L B]. exfalso.
  apply (F c (place m) m C (P m) B); [unfold zlen; lia|]. unfold f in T. destruct (XXH3_128bits_withSeed c (place m) (Z.of_nat n) seed) as [[d1 d2]| |]; [|discriminate..].
  cbn [fst snd] in T. apply andb_prop in T. destruct T as [T1 T2]. apply Z.eqb_eq in T1, T2. rewrite T1, T2. reflexivity.
Qed.
Print Assumptions C110_xxh3_128_uniform_refuted.

(** inputs can lie anywhere; 5 bytes with XXH32: each digest 256 times; 40 bytes with XXH64: 8 of them after the stripe *)
Example C110_case : (forall m, points_to (Ptr (7 :: m) 64 1) m) /\ length (inputs 1) = 256%nat /\ (8 <= 40 mod 32)%nat /\
  length (filter (fun m => is_hash (XXH32 c0 (Ptr (7 :: m) 64 1) 5 0) 12345) (inputs 5)) = 256%nat.
Proof.
  assert (P : forall m, points_to (Ptr (7 :: m) 64 1) m) by (intros m; exists [7], []; split; [rewrite app_nil_r; reflexivity|reflexivity]).
  split; [exact P|]. split; [rewrite inputs_length; reflexivity|]. split; [cbn; lia|]. apply (C110_xxh32_uniform c0 0 5 12345 (fun m => Ptr (7 :: m) 64 1)); [constructor; cbn; auto; discriminate|exact P|lia|reflexivity|lia].
Qed.
