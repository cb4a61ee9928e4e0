(** Property theorems about long inputs with a chosen XXH3 hash: C112. *)
From Verif Require Import Base Mem M_XXH32 M_XXH64 M_XXH3 M_Kernels M_Long Spec32 Spec64 Spec3 P_Base P_Spec P_X3_Base P_X3_Long P_Inj P_Inj3 P_Inj128 P_Told P_Forge3 P_Forge4
  Vectors Vectors3 Properties1 Properties2 Properties4 Properties5 Properties19.

Lemma large128_low s m : exists high, X3.large128 s m = (X3.large64 s m, high).
Proof. unfold X3.large128, X3.large64. eexists. reflexivity. Qed.

(** ** C112 *)
(** Above 240 bytes, if the bytes before the last 32 fill at most half of a stripe after the last full one, then whatever they are some last 32 bytes give any
    chosen 64-bit hash, and the 128-bit hash with any chosen low half, for any seed and under any secret. *)
Theorem C112_xxh3_long : forall r h, bytes_ok r -> 208 < zlen r -> zlen r mod 64 <= 32 -> 0 <= h < 2 ^ 64 ->
  (forall seed, 0 <= seed < 2 ^ 64 -> exists q, bytes_ok q /\ zlen q = 32 /\
     forall c p, cfg_ok c -> points_to p (r ++ q) ->
     XXH3_64bits_withSeed c p (zlen r + 32) seed = OK h /\ exists high, XXH3_128bits_withSeed c p (zlen r + 32) seed = OK (h, high)) /\
  (forall s, bytes_ok s -> 136 <= zlen s -> exists q, bytes_ok q /\ zlen q = 32 /\
     forall c p ps, cfg_ok c -> points_to p (r ++ q) -> points_to ps s -> 8 * (zlen s - 64) < 2 ^ szbits c ->
     XXH3_64bits_withSecret c p (zlen r + 32) ps (zlen s) = OK h /\ exists high, XXH3_128bits_withSecret c p (zlen r + 32) ps (zlen s) = OK (h, high)).
Proof.
  intros r h B R M H. assert (F : 31 <= (zlen r + 32 - 1) mod 64) by (clear - M; Z.div_mod_to_equations; lia). split.
  - intros seed S. destruct (forge_large64 (X3.deriveSecret seed) r (derive_bytes seed) ltac:(rewrite derive_len; lia) ltac:(lia) F h H) as (q & Bq & Lq & E). exists q. split; [exact Bq|]. split; [exact Lq|].
    intros c p C P. assert (LL : zlen r + 32 = zlen (r ++ q)) by (rewrite zlen_app; lia). assert (BB : bytes_ok (r ++ q)) by (apply bytes_ok_app; trivial). rewrite LL. split.
    + rewrite C03_xxh3_64_withSeed_equals_spec by trivial. unfold X3.XXH3_64_withSeed. rewrite hash64_large, E by lia. reflexivity.
    + destruct (C04_xxh3_128_withSeed_equals_spec c p (r ++ q) seed C P BB S) as [-> _]. unfold X3.XXH3_128_withSeed. rewrite hash128_large by lia. destruct (large128_low (X3.deriveSecret seed) (r ++ q)) as (high & ->). rewrite E. exists high. reflexivity.
  - intros s Bs Ls. destruct (forge_large64 s r Bs Ls ltac:(lia) F h H) as (q & Bq & Lq & E). exists q. split; [exact Bq|]. split; [exact Lq|].
    intros c p ps C P PS SZ. assert (LL : zlen r + 32 = zlen (r ++ q)) by (rewrite zlen_app; lia). assert (BB : bytes_ok (r ++ q)) by (apply bytes_ok_app; trivial). rewrite LL. split.
    + rewrite C03_xxh3_64_withSecret_equals_spec by trivial. unfold X3.XXH3_64_withSecret. rewrite hash64_large, E by lia. reflexivity.
    + rewrite C04_xxh3_128_withSecret_equals_spec by trivial. unfold X3.XXH3_128_withSecret. rewrite hash128_large by lia. destruct (large128_low s (r ++ q)) as (high & ->). rewrite E. exists high. reflexivity.
Qed.
Print Assumptions C112_xxh3_long.

(** So any data at all can be followed by bytes that give it any chosen 64-bit hash; 63 bytes are enough if there are 209 or more. *)
Theorem C112_any_data : forall m h seed, bytes_ok m -> 0 <= h < 2 ^ 64 -> 0 <= seed < 2 ^ 64 ->
  exists q, bytes_ok q /\ (208 < zlen m -> zlen q <= 63) /\
  forall c p, cfg_ok c -> points_to p (m ++ q) -> XXH3_64bits_withSeed c p (zlen (m ++ q)) seed = OK h.
Proof.
  intros m h seed B H S. pose proof (zlen_nonneg m).
  assert (K : exists k, 0 <= k /\ 208 < zlen m + k /\ (zlen m + k) mod 64 <= 32 /\ (208 < zlen m -> k <= 31)).
  { set (l := zlen m) in *. clearbody l. clear - H0. destruct (Z.leb_spec l 208) as [A|A].
    - exists (256 - l). replace (l + (256 - l)) with 256 by lia. split; [lia|]. split; [lia|]. split; [discriminate|lia].
    - pose proof (Z.mod_pos_bound l 64 ltac:(lia)) as U. pose proof (Z.div_mod l 64 ltac:(lia)) as V. destruct (Z.leb_spec (l mod 64) 32) as [D|D].
      + exists 0. rewrite Z.add_0_r. split; [lia|]. split; [exact A|]. split; [exact D|lia].
      + exists (64 - l mod 64). assert (E : (l + (64 - l mod 64)) mod 64 = 0).
        { replace (l + (64 - l mod 64)) with (0 + (l / 64 + 1) * 64); [rewrite Z_mod_plus_full; reflexivity|]. set (u := l mod 64) in *. set (v := l / 64) in *. clearbody u v. lia. }
        rewrite E. set (u := l mod 64) in *. clearbody u. clear E V. repeat split; lia. }
  destruct K as (k & K0 & K1 & K2 & K3). set (pad := repeat 0 (Z.to_nat k)). assert (Lp : zlen pad = k) by (unfold pad, zlen; rewrite repeat_length; lia).
  assert (Bp : bytes_ok pad) by (unfold pad; apply Forall_forall; intros x I; apply repeat_spec in I; subst x; split; [discriminate|reflexivity]).
  destruct (C112_xxh3_long (m ++ pad) h) as [F _]; try (rewrite zlen_app, Lp; trivial); trivial; [apply bytes_ok_app; trivial|]. destruct (F seed S) as (q & Bq & Lq & E).
  exists (pad ++ q). split; [apply bytes_ok_app; trivial|]. split; [rewrite zlen_app; lia|]. intros c p C P. rewrite app_assoc in P |- *. destruct (E c p C P) as [<- _]. f_equal. rewrite zlen_app, Lq. reflexivity.
Qed.
Print Assumptions C112_any_data.

(** 256 bytes, then 32 that give the hash 0x123456789ABCDEF: the lengths are in the range and the bytes exist *)
Example C112_case : exists q : list Z, zlen q = 32 /\ bytes_ok q /\ X3.XXH3_64 (repeat 65 256 ++ q) = 0x123456789ABCDEF.
Proof.
  destruct (forge_large64 X3.default_secret (repeat 65 256) ltac:(apply default_bytes) ltac:(vm_compute; discriminate) ltac:(vm_compute; reflexivity) ltac:(vm_compute; discriminate) 0x123456789ABCDEF ltac:(split; [discriminate|reflexivity])) as (q & B & L & E).
  exists q. split; [exact L|]. split; [exact B|]. unfold X3.XXH3_64. rewrite hash64_large; [exact E|]. rewrite zlen_app, L. reflexivity.
Qed.
