(** An injective map of a finite range into itself reaches every value (proofs for C72). *)
From Verif Require Import Base Mem Spec32 Spec64 Spec3 P_Base P_Spec P_X3_Base P_Inj P_Inj32 P_Inj64 P_Inj3.
From Coq Require Import FinFun.

Lemma inj_surj N (f : Z -> Z) : (forall x, 0 <= x < N -> 0 <= f x < N) -> (forall x y, 0 <= x < N -> 0 <= y < N -> f x = f y -> x = y) ->
  forall y, 0 <= y < N -> exists x, 0 <= x < N /\ f x = y.
Proof.
  intros R I y Hy.
  assert (U : forall x, In x (upto N) <-> 0 <= x < N).
  { intros x. unfold upto. rewrite in_map_iff. split; [intros (k & <- & Hk); apply in_seq in Hk; lia|]. intros H. exists (Z.to_nat x). split; [lia|]. apply in_seq. lia. }
  assert (ND : NoDup (upto N)) by (apply Injective_map_NoDup; [intros a b E; lia|apply seq_NoDup]).
  assert (NM : forall l, NoDup l -> incl l (upto N) -> NoDup (map f l)).
  { induction l as [|x l IH]; intros HN HI; [constructor|]. inversion HN as [|? ? Nx Nl]; subst. cbn [map]. constructor.
    - intros Q. apply in_map_iff in Q. destruct Q as (z & Ez & Hz). apply Nx. replace x with z; trivial. apply I; trivial; apply U, HI; [right|left]; trivial.
    - apply IH; trivial. intros z Hz. apply HI. right. exact Hz. }
  assert (IN : incl (upto N) (map f (upto N))).
  { apply NoDup_length_incl; [apply NM; [exact ND|apply incl_refl]|rewrite map_length; reflexivity|].
    intros z Hz. apply in_map_iff in Hz. destruct Hz as (x & <- & Hx). apply U, R, U, Hx. }
  apply U, IN, in_map_iff in Hy. destruct Hy as (x & E & Hx). exists x. split; [apply U; exact Hx|exact E].
Qed.
(** words of [n] bytes *)
Lemma word_surj n (g : list Z -> Z) : (forall w, bytes_ok w -> zlen w = Z.of_nat n -> 0 <= g w < 2 ^ (8 * Z.of_nat n)) ->
  (forall w w', bytes_ok w -> bytes_ok w' -> zlen w = Z.of_nat n -> zlen w' = Z.of_nat n -> g w = g w' -> w = w') ->
  forall h, 0 <= h < 2 ^ (8 * Z.of_nat n) -> exists w, bytes_ok w /\ zlen w = Z.of_nat n /\ g w = h.
Proof.
  intros R I h Hh.
  destruct (inj_surj (2 ^ (8 * Z.of_nat n)) (fun x => g (le_bytes n x))) with (y := h) as (x & _ & E); trivial.
  - intros x Hx. apply R; [apply le_bytes_ok|apply le_bytes_len].
  - intros x y Hx Hy E. apply I in E; try apply le_bytes_ok; try apply le_bytes_len.
    apply (f_equal le_val) in E. rewrite !le_bytes_val, !Z.mod_small in E by lia. exact E.
  - exists (le_bytes n x). split; [apply le_bytes_ok|]. split; [apply le_bytes_len|exact E].
Qed.
(** digests are words *)
Lemma hash32_wd m seed : bytes_ok m -> wd 32 (X32.hash m seed).
Proof. intros B. rewrite hash32_unfold. unfold X32.avalanche. apply (xorshift_wd 32); try lia; try (apply (mod_wd 32); lia). Qed.
Lemma hash64_wd m seed : bytes_ok m -> wd 64 (X64.hash m seed).
Proof. intros B. rewrite hash64_unfold. unfold X64.avalanche. apply (xorshift_wd 64); try lia; try (apply (mod_wd 64); lia). Qed.
Lemma aval3_wd x : wd 64 (X3.avalanche x).
Proof. unfold X3.avalanche. apply (xorshift_wd 64); try lia; try (apply (mod_wd 64); lia). Qed.
Lemma aval64_wd x : wd 64 (X64.avalanche x).
Proof. unfold X64.avalanche. apply (xorshift_wd 64); try lia; try (apply (mod_wd 64); lia). Qed.
Lemma short64_wd s seed m : zlen m <= 8 -> wd 64 (X3.short64 s seed m).
Proof.
  intros L. unfold X3.short64. change (len m) with (zlen m). destruct (zlen m =? 0); [apply aval64_wd|]. destruct (zlen m <=? 3); [apply aval64_wd|].
  replace (zlen m <=? 8) with true by lia. unfold X3.h4to8_64. apply (xorshift_wd 64); try lia. apply (mod_wd 64); lia.
Qed.
Lemma short128_wd s seed m : zlen m = 16 -> wd 64 (fst (X3.short128 s seed m)) /\ wd 64 (snd (X3.short128 s seed m)).
Proof.
  intros L. unfold X3.short128. change (len m) with (zlen m). rewrite L. cbn [Z.eqb Z.leb Z.compare Pos.compare Pos.compare_cont].
  unfold X3.h9to16_128. cbn [fst snd]. split; apply aval3_wd.
Qed.
Lemma short128_surj s seed h : bytes_ok s -> wd 64 (fst h) -> wd 64 (snd h) -> exists m, bytes_ok m /\ zlen m = 16 /\ X3.short128 s seed m = h.
Proof.
  intros Bs H1 H2. destruct h as [h1 h2]. cbn [fst snd] in *. unfold wd in *.
  destruct (word_surj 16 (fun m => fst (X3.short128 s seed m) + 2 ^ 64 * snd (X3.short128 s seed m))) with (h := h1 + 2 ^ 64 * h2) as (m & B & L & E).
  - intros w B L. destruct (short128_wd s seed w L) as [W1 W2]. unfold wd in *. change (8 * Z.of_nat 16) with 128. lia.
  - intros w w' B B' L L' E. apply (short128_inj s seed); trivial; try lia. destruct (short128_wd s seed w L) as [W1 W2]. destruct (short128_wd s seed w' L') as [W1' W2'].
    unfold wd in *. rewrite (surjective_pairing (X3.short128 s seed w)), (surjective_pairing (X3.short128 s seed w')). f_equal; lia.
  - change (8 * Z.of_nat 16) with 128. lia.
  - exists m. split; [exact B|]. split; [exact L|]. destruct (short128_wd s seed m L) as [W1 W2]. unfold wd in *.
    rewrite (surjective_pairing (X3.short128 s seed m)). f_equal; lia.
Qed.
