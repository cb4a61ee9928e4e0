(** The generator of the test vectors: its tables and their text. *)
From Coq Require Import String.
From Verif Require Import Base Mem M_XXH32 M_XXH64 M_XXH3 M_Kernels M_Long M_Stream3 M_Util Spec32 Spec64 Spec3 SpecUtil
  P_Base P_Spec P_XXH32 P_XXH64 P_X3_Long P_Util Properties1 Properties2 Properties3 Properties4 M_Cli M_Cli2 M_Sanity P_Cli P_Cli2 P_Cli3 P_Sanity
  M_SanityTest SpecVec P_SanityTest P_Inj3 P_X3_Base P_X3_Base.
#[local] Opaque Vec.data Vec.secret.

(** ** The tables *)
Lemma entries_ok {A T} (f : A -> res T) (h : A -> T) l : (forall x, In x l -> f x = OK (h x)) -> TG.entries f l = OK (map h l).
Proof.
  induction l as [|x l IH]; intros H; [reflexivity|]. cbn [TG.entries map]. rewrite H by (left; reflexivity). cbn [bind].
  rewrite IH; [reflexivity|]. intros y Hy. apply H. right. exact Hy.
Qed.
Lemma entries2_ok {T} (f : Z -> Z -> res T) (h : Z -> Z -> T) l m : (forall x y, In x l -> In y m -> f x y = OK (h x y)) ->
  TG.entries2 f l m = OK (flat_map (fun x => map (h x) m) l).
Proof.
  intros H. unfold TG.entries2. rewrite (entries_ok _ (fun x => map (h x) m)).
  - cbn [bind]. rewrite flat_map_concat_map. reflexivity.
  - intros x X. apply entries_ok. intros y Y. apply H; assumption.
Qed.
Lemma in_upto n x : In x (upto n) -> 0 <= x < n.
Proof. unfold upto. intros H. apply in_map_iff in H. destruct H as (k & <- & K). apply in_seq in K. lia. Qed.
Lemma seeded1 {T} (h : Z -> list Z -> T) m : Vec.seeded h [0] m = map (fun n => (n, 0, h 0 (Vec.data n))) (upto m).
Proof. unfold Vec.seeded. induction (upto m) as [|x l IH]; [reflexivity|]. cbn [flat_map]. rewrite IH. reflexivity. Qed.

Section Generate.
Context (c : cfg) (C : cfg_ok c) (m : Z) (M : 692 <= m <= small).
Lemma word32 : 2 ^ 32 <= 2 ^ szbits c.
Proof. exact (small32 c C). Qed.
Context (b : list Z) (L : zlen b = m) (adr : Z).
Lemma entry_at n : 0 <= n < m -> u32 n = n /\ zlen (Vec.data n) = n /\ n < 2 ^ szbits c /\ points_to (Ptr (Vec.data m) adr 0) (Vec.data n).
Proof.
  intros N. unfold small in M. pose proof word32. split; [apply Z.mod_small; lia|]. split; [apply data_len; lia|]. split; [lia|]. apply at_data. lia.
Qed.
Lemma usz_small x : 0 <= x < 2 ^ 32 -> usz c x = x.
Proof. intros X. pose proof word32. apply Z.mod_small. lia. Qed.
Lemma gen32 : TG.xxh32 c b adr m = OK (Vec.seeded (fun s d => X32.hash d s) [0; Vec.P32] m).
Proof.
  unfold TG.xxh32, small in *. rewrite filled by lia. cbn [bind]. apply entries2_ok. intros n s N S. apply in_upto in N.
  destruct (entry_at n N) as (U & LN & W & P). unfold TG.tvgen_XXH32.
  assert (E : u32 (usz c s) = s) by (destruct S as [<-|[<-|[]]]; rewrite usz_small by (cbv; split; congruence); reflexivity). rewrite E.
  rewrite <- LN at 1. rewrite C01_xxh32_equals_spec with (m := Vec.data n) by (trivial; first [apply data_bytes|rewrite LN; exact W]). cbn [bind]. rewrite U. reflexivity.
Qed.
Lemma gen64 : TG.xxh64 c b adr m = OK (Vec.seeded (fun s d => X64.hash d s) [0; Vec.P32] m).
Proof.
  unfold TG.xxh64, small in *. rewrite filled by lia. cbn [bind]. apply entries2_ok. intros n s N S. apply in_upto in N.
  destruct (entry_at n N) as (U & LN & W & P). unfold TG.tvgen_XXH64.
  assert (E : usz c s = s) by (destruct S as [<-|[<-|[]]]; apply usz_small; cbv; split; congruence). rewrite E.
  rewrite <- LN at 1. rewrite C02_xxh64_equals_spec with (m := Vec.data n) by (trivial; first [apply data_bytes|rewrite LN; exact W]). cbn [bind]. rewrite U. reflexivity.
Qed.
Lemma gen3 : TG.xxh3 c b adr m = OK (Vec.seeded X3.XXH3_64_withSeed [0; Vec.P64 mod 2 ^ szbits c] m).
Proof.
  unfold TG.xxh3, small in *. rewrite filled by lia. cbn [bind].
  replace (TG.entries2 _ _ _) with (TG.entries2 (fun len seed => TG.tvgen_XXH3_64bits_withSeed c (Ptr (Vec.data m) adr 0) len seed) (TG.upto m) [0; Vec.P64 mod 2 ^ szbits c]).
  2:{ unfold TG.entries2. f_equal. }
  apply entries2_ok. intros n s N S. apply in_upto in N.
  destruct (entry_at n N) as (U & LN & W & P). unfold TG.tvgen_XXH3_64bits_withSeed.
  assert (E : 0 <= s < 2 ^ 64).
  { destruct S as [<-|[<-|[]]]; [lia|]. pose proof (Z.mod_pos_bound Vec.P64 (2 ^ szbits c) ltac:(pose proof word32; lia)).
    destruct C as [[Q|Q] _ _]; rewrite Q in *; lia. }
  rewrite <- LN at 1. rewrite C03_xxh3_64_withSeed_equals_spec with (m := Vec.data n) by (trivial; apply data_bytes). cbn [bind]. rewrite U. reflexivity.
Qed.
Lemma gen128 : TG.xxh128 c b adr m = OK (Vec.seeded X3.XXH3_128_withSeed [0; Vec.P32; Vec.P64] m).
Proof.
  unfold TG.xxh128, small in *. rewrite filled by lia. cbn [bind]. apply entries2_ok. intros n s N S. apply in_upto in N.
  destruct (entry_at n N) as (U & LN & W & P). unfold TG.tvgen_XXH3_128bits_withSeed.
  assert (E : 0 <= s < 2 ^ 64) by (destruct S as [<-|[<-|[<-|[]]]]; cbv; split; congruence).
  rewrite <- LN at 1. destruct (C04_xxh3_128_withSeed_equals_spec c _ (Vec.data n) s C P (data_bytes n) E) as [-> _]. cbn [bind]. rewrite U. reflexivity.
Qed.
Lemma gen3s : TG.xxh3_withSecret c b adr m = OK (Vec.seeded (fun _ => X3.XXH3_64_withSecret Vec.secret) [0] m).
Proof.
  unfold TG.xxh3_withSecret, small in *. rewrite filled by lia. cbn [bind]. change (SECRET_SIZE_MIN + 11) with 147. unfold assert_.
  replace (7 + 147 <=? m) with true by lia. cbn [bind]. rewrite seeded1. apply entries_ok. intros n N. apply in_upto in N.
  destruct (entry_at n N) as (U & LN & W & P). unfold TG.tvgen_XXH3_64bits_withSecret. pose proof word32.
  rewrite <- LN at 1. rewrite <- secret_len at 1.
  rewrite (C03_xxh3_64_withSecret_equals_spec c _ (Vec.data n) _ Vec.secret); trivial; rewrite ?secret_len; try lia; [|apply data_bytes|apply at_secret; lia|apply secret_bytes].
  cbn [bind]. rewrite U. reflexivity.
Qed.
Lemma gen128s : TG.xxh128_withSecret c b adr m = OK (Vec.seeded (fun _ => X3.XXH3_128_withSecret Vec.secret) [0] m).
Proof.
  unfold TG.xxh128_withSecret, small in *. rewrite filled by lia. cbn [bind]. change (SECRET_SIZE_MIN + 11) with 147. unfold assert_.
  replace (7 + 147 <=? m) with true by lia. cbn [bind]. rewrite seeded1. apply entries_ok. intros n N. apply in_upto in N.
  destruct (entry_at n N) as (U & LN & W & P). unfold TG.tvgen_XXH3_128bits_withSecret. pose proof word32.
  rewrite <- LN at 1. rewrite <- secret_len at 1.
  rewrite (C04_xxh3_128_withSecret_equals_spec c _ (Vec.data n) _ Vec.secret); trivial; rewrite ?secret_len; try lia; [|apply data_bytes|apply at_secret; lia|apply secret_bytes].
  cbn [bind]. rewrite U. reflexivity.
Qed.
Lemma gen_sample sb : TG.xxh3_generateSecret c b adr sb m =
  OK (flat_map (fun n => map (fun size => (n, size, Vec.sample n size)) [192; 240; 277; 9867]) [0; 1; 135; 692]).
Proof.
  unfold TG.xxh3_generateSecret, small in *. rewrite filled by lia. cbn [bind]. change TG.seedLens with [0; 1; 135; 692]. change TG.secretLens with [192; 240; 277; 9867].
  apply entries2_ok. intros n size N S.
  assert (RN : 0 <= n <= 692) by (destruct N as [<-|[<-|[<-|[<-|[]]]]]; lia).
  assert (RS : 136 <= size <= 9867) by (destruct S as [<-|[<-|[<-|[<-|[]]]]]; lia).
  unfold assert_. replace (n <=? m) with true by lia. replace (size <=? SECRET_SIZE_MAX) with true by (unfold SECRET_SIZE_MAX; lia). cbn [bind].
  unfold TG.tvgen_XXH3_generateSecret.
  destruct (made c sb size (Ptr (Vec.data m) adr 0) (Vec.data n) C) as [MD LM]; trivial.
  { right. apply at_data. lia. }
  { apply data_bytes. }
  { rewrite data_len by lia. unfold small. lia. }
  rewrite data_len in MD by lia. rewrite MD. cbn [bind]. rewrite sampled5 by (rewrite zlen_app, LM, zlen_repeat; lia). cbn [bind]. rewrite made_sample.
  replace (u32 n) with n by (symmetry; apply Z.mod_small; lia). replace (u32 size) with size by (symmetry; apply Z.mod_small; lia). reflexivity.
Qed.
End Generate.
Lemma generate_ok c mem sb m : cfg_ok c -> 692 <= m <= small -> (forall k, zlen (fst (mem k)) = m) ->
  TG.generate c mem sb m = OK (Vec.tables (Vec.P64 mod 2 ^ szbits c) m).
Proof.
  intros C M Z. unfold TG.generate. rewrite gen32, gen64, gen3, gen3s, gen128, gen128s, gen_sample by trivial. reflexivity.
Qed.

(** ** They are right, in range and so many *)
Lemma forall_seeded {T} (Q : Z * Z * T -> Prop) (h : Z -> list Z -> T) seeds m :
  (forall n s, 0 <= n < m -> In s seeds -> Q (n, s, h s (Vec.data n))) -> Forall Q (Vec.seeded h seeds m).
Proof.
  intros H. apply Forall_forall. intros t I. unfold Vec.seeded in I. apply in_flat_map in I. destruct I as (n & N & I).
  apply in_map_iff in I. destruct I as (s & <- & S). apply H; [apply in_upto, N|exact S].
Qed.
Lemma forall_samples (Q : Z * Z * list Z -> Prop) : (forall n size, 0 <= n <= 692 -> 136 <= size <= 9867 -> Q (n, size, Vec.sample n size)) ->
  Forall Q (flat_map (fun n => map (fun size => (n, size, Vec.sample n size)) [192; 240; 277; 9867]) [0; 1; 135; 692]).
Proof.
  intros H. apply Forall_forall. intros t I. apply in_flat_map in I. destruct I as (n & N & I).
  apply in_map_iff in I. destruct I as (s & <- & S). apply H; [destruct N as [<-|[<-|[<-|[<-|[]]]]]; lia|destruct S as [<-|[<-|[<-|[<-|[]]]]]; lia].
Qed.
Lemma tables_right s3 m : Vec.all_right (Vec.tables s3 m).
Proof.
  unfold Vec.all_right, Vec.tables. cbn [ST.XXH32_testdata ST.XXH64_testdata ST.XXH3_testdata ST.XXH3_withSecret_testdata ST.XXH128_testdata ST.XXH128_withSecret_testdata ST.XXH3_generateSecret_testdata].
  repeat split; try (apply forall_seeded; intros; reflexivity). apply forall_samples. intros; reflexivity.
Qed.
Lemma tables_range s3 m : m <= 4162 -> 0 <= s3 < 2 ^ 64 -> Vec.in_range (Vec.tables s3 m).
Proof.
  intros M S3. unfold Vec.in_range, Vec.tables. cbn [ST.XXH32_testdata ST.XXH64_testdata ST.XXH3_testdata ST.XXH3_withSecret_testdata ST.XXH128_testdata ST.XXH128_withSecret_testdata ST.XXH3_generateSecret_testdata].
  assert (P1 : 0 <= Vec.P32 < 2 ^ 64) by (cbv; split; congruence). assert (P2 : 0 <= Vec.P64 < 2 ^ 64) by (cbv; split; congruence).
  repeat match goal with |- _ /\ _ => split end;
    try (apply forall_seeded; intros n s N I; split; cbn [fst snd]; [lia|]; cbn [In] in I; intuition (subst; trivial; lia)).
  apply forall_samples. intros n size N S. split; cbn [fst snd]; lia.
Qed.
Lemma seeded_count {T} (h : Z -> list Z -> T) seeds m : 0 <= m -> Vec.count (Vec.seeded h seeds m) = m * Vec.count seeds.
Proof.
  intros M. unfold Vec.count, Vec.seeded, upto. replace m with (Z.of_nat (Z.to_nat m)) at 2 by lia. generalize (Z.to_nat m) as k, 0%nat as a. clear m M.
  induction k as [|k IH]; intros a; [reflexivity|]. cbn [seq map flat_map]. rewrite app_length, map_length. rewrite Nat2Z.inj_add, IH. lia.
Qed.
Lemma tables_number s3 m : 0 <= m -> Vec.number (Vec.tables s3 m) = 11 * m + 16 /\ Vec.count (ST.XXH3_withSecret_testdata (Vec.tables s3 m)) = m.
Proof.
  intros M. unfold Vec.number, Vec.tables. cbn [ST.XXH32_testdata ST.XXH64_testdata ST.XXH3_testdata ST.XXH3_withSecret_testdata ST.XXH128_testdata ST.XXH128_withSecret_testdata ST.XXH3_generateSecret_testdata].
  rewrite !seeded_count by exact M. unfold Vec.count. cbn [flat_map map app List.length]. lia.
Qed.

(** ** The text *)
Lemma dec_digits10 : forall fuel n, (1 <= fuel)%nat -> 0 <= n < 10 ^ Z.of_nat fuel -> Vec.digits 10 (dec_f fuel n) n /\ (0 < n -> hd 48 (dec_f fuel n) <> 48).
Proof.
  induction fuel as [|fuel IH]; intros n F N; [lia|]. cbn [dec_f].
  assert (D : forall k, 0 <= k < 10 -> Vec.digit (48 + k) = Some k).
  { intros k K. unfold Vec.digit. replace ((48 <=? 48 + k) && (48 + k <=? 57)) with true by lia. f_equal. lia. }
  destruct (Z.ltb_spec n 10) as [S|S].
  - split; [apply Vec.d_one; [apply D|]; lia|]. cbn [hd]. lia.
  - destruct fuel as [|f]; [cbn in N; lia|].
    assert (N' : 0 <= n / 10 < 10 ^ Z.of_nat (Datatypes.S f)).
    { split; [apply Z.div_pos; lia|]. apply Z.div_lt_upper_bound; [lia|]. rewrite <- Z.pow_succ_r by lia. rewrite <- Nat2Z.inj_succ. apply N. }
    destruct (IH (n / 10) ltac:(lia) N') as [D1 D2]. pose proof (Z.mod_pos_bound n 10 ltac:(lia)). split.
    + replace n with (10 * (n / 10) + n mod 10) at 3 by (pose proof (Z.div_mod n 10); lia). apply Vec.d_more; [exact D1|apply D; lia|lia].
    + intros _. assert (P : 0 < n / 10) by (apply Z.div_str_pos; lia). specialize (D2 P).
      destruct (dec_f (Datatypes.S f) (n / 10)) as [|x l] eqn:E; [cbn [hd] in D2; congruence|exact D2].
Qed.
Lemma dec_constant n : 0 <= n < 2 ^ 31 -> Vec.constant (dec n) n.
Proof.
  intros N. destruct (Z.eq_dec n 0) as [->|P]; [exact Vec.c_zero|]. unfold dec.
  destruct (dec_digits10 40 n ltac:(lia)) as [D1 D2]; [split; [lia|]; apply Z.lt_trans with (2 ^ 31); [lia|reflexivity]|].
  apply Vec.c_dec; [exact D1|apply D2; lia].
Qed.
Definition hexchar (d : Z) : Z := if d <? 10 then 48 + d else 55 + d.
Lemma hexchar_ok d : 0 <= d < 16 -> Vec.digit (hexchar d) = Some d.
Proof.
  intros D. unfold hexchar, Vec.digit. destruct (Z.ltb_spec d 10).
  - replace ((48 <=? 48 + d) && (48 + d <=? 57)) with true by lia. f_equal. lia.
  - replace ((48 <=? 55 + d) && (55 + d <=? 57)) with false by lia. replace ((65 <=? 55 + d) && (55 + d <=? 70)) with true by lia. f_equal. lia.
Qed.
Lemma hexX_S w v : TG.hexX (S w) v = TG.hexX w (v / 16) ++ [hexchar (v mod 16)].
Proof.
  unfold TG.hexX. rewrite <- cons_seq, <- seq_shift. cbn [rev]. rewrite map_app. f_equal.
  - rewrite <- map_rev, map_map. apply map_ext. intros k. cbv zeta. rewrite Nat2Z.inj_succ, Z.pow_succ_r by lia.
    rewrite Z.div_div by (try lia; apply Z.pow_pos_nonneg; lia). reflexivity.
  - cbn [map]. change (16 ^ Z.of_nat 0) with 1. rewrite Z.div_1_r. reflexivity.
Qed.
Lemma hexX_digits : forall w v, 0 <= v < 16 ^ Z.of_nat (S w) -> Vec.digits 16 (TG.hexX (S w) v) v.
Proof.
  induction w as [|w IH]; intros v V; rewrite hexX_S; pose proof (Z.mod_pos_bound v 16 ltac:(lia)).
  - change (TG.hexX 0 (v / 16)) with (@nil Z). cbn [app]. change (16 ^ Z.of_nat 1) with 16 in V. rewrite Z.mod_small by lia.
    apply Vec.d_one; [apply hexchar_ok|]; lia.
  - replace v with (16 * (v / 16) + v mod 16) at 3 by (pose proof (Z.div_mod v 16); lia).
    apply Vec.d_more; [|apply hexchar_ok; lia|lia]. apply IH. split; [apply Z.div_pos; lia|].
    apply Z.div_lt_upper_bound; [lia|]. rewrite <- Z.pow_succ_r, <- Nat2Z.inj_succ by lia. apply V.
Qed.

(** what is left of a text without slashes *)
Definition blank (x : Z) : bool := (x =? 32) || (x =? 10).
Definition bare (t : list Z) : list Z := filter (fun x => negb (blank x)) t.
Definition noslash (t : list Z) : Prop := Forall (fun x => x <> 47) t.
Definition nostar (t : list Z) : Prop := Forall (fun x => x <> 42) t.
Lemma bare_app a b : bare (a ++ b) = bare a ++ bare b.
Proof. apply filter_app. Qed.
Lemma strip_plain t r : noslash t -> Vec.strip Vec.Code (t ++ r) = bare t ++ Vec.strip Vec.Code r.
Proof.
  induction 1 as [|x t X _ IH]; [reflexivity|]. cbn [app Vec.strip bare filter]. apply Z.eqb_neq in X. rewrite X. unfold blank.
  destruct ((x =? 32) || (x =? 10)); cbn [negb]; rewrite IH; reflexivity.
Qed.
Lemma strip_comment t r : nostar t -> Vec.strip Vec.Comment (t ++ r) = Vec.strip Vec.Comment r.
Proof. induction 1 as [|x t X _ IH]; [reflexivity|]. cbn [app Vec.strip]. apply Z.eqb_neq in X. rewrite X. exact IH. Qed.
(** digits are neither blanks, slashes nor stars *)
Definition solid (t : list Z) : Prop := Forall (fun x => 48 <= x) t.
Lemma solid_noslash t : solid t -> noslash t.
Proof. apply Forall_impl. lia. Qed.
Lemma solid_nostar t : solid t -> nostar t.
Proof. apply Forall_impl. lia. Qed.
Lemma solid_bare t : solid t -> bare t = t.
Proof.
  induction 1 as [|x t X _ IH]; [reflexivity|]. unfold bare in *. cbn [filter]. replace (blank x) with false by (unfold blank; lia). cbn [negb]. rewrite IH. reflexivity.
Qed.
Lemma dec_solid : forall fuel n, 0 <= n -> solid (dec_f fuel n).
Proof.
  induction fuel as [|f IH]; intros n N; cbn [dec_f]; [constructor|]. destruct (n <? 10).
  - repeat constructor. lia.
  - apply Forall_app. split; [apply IH, Z.div_pos; lia|]. pose proof (Z.mod_pos_bound n 10). repeat constructor. lia.
Qed.
Lemma hexX_solid w v : solid (TG.hexX w v).
Proof.
  apply Forall_forall. intros x I. apply in_map_iff in I. destruct I as (k & <- & _). cbv zeta.
  pose proof (Z.mod_pos_bound (v / 16 ^ Z.of_nat k) 16 ltac:(lia)). destruct (_ <? 10); lia.
Qed.
Lemma pad4_ok v : 0 <= v < 2 ^ 31 -> exists t, TG.pad4 v = OK t /\ noslash t /\ bare t = dec v.
Proof.
  intros V. unfold TG.pad4, assert_. replace (v <? 2 ^ 31) with true by lia. cbn [bind]. eexists. split; [reflexivity|].
  pose proof (dec_solid 40 v ltac:(lia)) as S. fold (dec v) in S. split.
  - apply Forall_app. split; [|apply solid_noslash, S]. apply Forall_forall. intros x I. apply repeat_spec in I. lia.
  - rewrite bare_app, (solid_bare _ S). generalize (4 - List.length (dec v))%nat as k. induction k as [|k IH]; [reflexivity|exact IH].
Qed.

(** an entry: its text ends with a comma and, without blanks, is the text of a tree *)
Definition writes {T} (text : T -> res (list Z)) (tr : T -> Vec.tree) (v : T) : Prop :=
  exists t r, text v = OK t /\ noslash t /\ bare t = r ++ str "," /\ Vec.reads r (tr v).
Ltac plain := repeat first [apply Forall_app; split | apply solid_noslash, hexX_solid | assumption | (repeat constructor; discriminate)].
Ltac bares E := rewrite ?bare_app, ?(solid_bare (TG.hexX _ _)) by apply hexX_solid; rewrite ?E.
Lemma items2 a b va vb : Vec.reads a va -> Vec.reads b vb -> Vec.items (a ++ str "," ++ b) [va; vb].
Proof. intros A B. apply Vec.i_more; [exact A|]. apply Vec.i_last, B. Qed.
Definition word (bits : Z) (x : Z) : Prop := 0 <= x < 2 ^ bits.
Lemma writes32 n s r : 0 <= n < 2 ^ 31 -> word 32 s -> word 32 r -> writes TG.text32 Vec.tree3 (n, s, r).
Proof.
  intros N S R. destruct (pad4_ok n N) as (l & E & NS & B). unfold writes, TG.text32. rewrite E. cbn [bind].
  eexists _, (str "{" ++ (dec n ++ str "," ++ (str "0x" ++ TG.hexX 8 s ++ str "U") ++ str "," ++ (str "0x" ++ TG.hexX 8 r ++ str "U")) ++ str "}").
  split; [reflexivity|]. split; [plain|]. split.
  - bares B. cbn [str app]. rewrite <- ?app_assoc. cbn [app]. rewrite <- ?app_assoc. reflexivity.
  - apply Vec.r_braces. apply Vec.i_more; [constructor; apply dec_constant, N|]. apply items2; constructor; apply Vec.c_hex_U; try apply S; try apply R; apply hexX_digits; assumption.
Qed.
Lemma writes64 n s r : 0 <= n < 2 ^ 31 -> word 64 s -> word 64 r -> writes TG.text64 Vec.tree3 (n, s, r).
Proof.
  intros N S R. destruct (pad4_ok n N) as (l & E & NS & B). unfold writes, TG.text64. rewrite E. cbn [bind].
  eexists _, (str "{" ++ (dec n ++ str "," ++ (str "0x" ++ TG.hexX 16 s ++ str "ULL") ++ str "," ++ (str "0x" ++ TG.hexX 16 r ++ str "ULL")) ++ str "}").
  split; [reflexivity|]. split; [plain|]. split.
  - bares B. cbn [str app]. rewrite <- ?app_assoc. cbn [app]. rewrite <- ?app_assoc. reflexivity.
  - apply Vec.r_braces. apply Vec.i_more; [constructor; apply dec_constant, N|]. apply items2; constructor; apply Vec.c_hex_ULL; try apply S; try apply R; apply hexX_digits; assumption.
Qed.
Lemma writes128 n s r : 0 <= n < 2 ^ 31 -> word 64 s -> word 64 (fst r) -> word 64 (snd r) -> writes TG.text128 Vec.tree128 (n, s, r).
Proof.
  destruct r as [lo hi]. cbn [fst snd]. intros N S R R'. destruct (pad4_ok n N) as (l & E & NS & B). unfold writes, TG.text128. rewrite E. cbn [bind].
  eexists _, (str "{" ++ (dec n ++ str "," ++ (str "0x" ++ TG.hexX 16 s ++ str "ULL") ++ str "," ++
     (str "{" ++ ((str "0x" ++ TG.hexX 16 lo ++ str "ULL") ++ str "," ++ (str "0x" ++ TG.hexX 16 hi ++ str "ULL")) ++ str "}")) ++ str "}").
  split; [reflexivity|]. split; [plain|]. split.
  - bares B. cbn [str app]. rewrite <- ?app_assoc. cbn [app]. rewrite <- ?app_assoc. cbn [app]. rewrite <- ?app_assoc. reflexivity.
  - apply Vec.r_braces. apply Vec.i_more; [constructor; apply dec_constant, N|].
    apply items2; [|apply Vec.r_braces, items2]; constructor; apply Vec.c_hex_ULL; try apply S; try apply R; try apply R'; apply hexX_digits; assumption.
Qed.
Lemma writes_sample n s r : 0 <= n < 2 ^ 31 -> 0 <= s < 2 ^ 31 -> List.length r = 5%nat -> bytes_ok r -> writes TG.text_sample Vec.tree_sample (n, s, r).
Proof.
  intros N S LR BR. destruct (pad4_ok n N) as (l & E & NS & B). destruct (pad4_ok s S) as (l' & E' & NS' & B').
  do 5 (destruct r as [|? r]; [discriminate|]). destruct r; [|discriminate].
  unfold writes, TG.text_sample. rewrite E, E'. cbn [bind nth].
  assert (H : forall x, 0 <= x < 256 -> Vec.reads (str "0x" ++ TG.hexX 2 x) (Vec.Num x)) by (intros x X; constructor; apply Vec.c_hex, hexX_digits, X).
  eexists _, (str "{" ++ (dec n ++ str "," ++ dec s ++ str "," ++ (str "{" ++ ((str "0x" ++ TG.hexX 2 z) ++ str "," ++ (str "0x" ++ TG.hexX 2 z0) ++ str "," ++
      (str "0x" ++ TG.hexX 2 z1) ++ str "," ++ (str "0x" ++ TG.hexX 2 z2) ++ str "," ++ (str "0x" ++ TG.hexX 2 z3)) ++ str "}")) ++ str "}").
  split; [reflexivity|]. split; [plain|]. split.
  - bares B. rewrite B'. cbn [str app]. rewrite <- ?app_assoc. cbn [app]. rewrite <- ?app_assoc. cbn [app]. rewrite <- ?app_assoc. reflexivity.
  - repeat match goal with H : bytes_ok (_ :: _) |- _ => inversion H; clear H; subst end.
    repeat match goal with H : Forall _ (_ :: _) |- _ => inversion H; clear H; subst end.
    apply Vec.r_braces. apply Vec.i_more; [constructor; apply dec_constant, N|]. apply items2; [constructor; apply dec_constant, S|].
    apply Vec.r_braces. cbn [map]. repeat (apply Vec.i_more; [apply H; assumption|]). apply Vec.i_last, H. assumption.
Qed.

Lemma lines_ok {T} (text : T -> res (list Z)) tr name l : nostar name -> Forall (writes text tr) l -> forall i, 0 <= i ->
  exists t r, TG.lines text name i l = OK t /\ Vec.items r (map tr l) /\ forall u, Vec.strip Vec.Code (t ++ u) = r ++ Vec.strip Vec.Code u.
Proof.
  intros NN. induction 1 as [|v l (t & r & E & NS & B & R) _ IH]; intros i I.
  - exists [], []. split; [reflexivity|]. split; [constructor|]. reflexivity.
  - destruct (IH (i + 1) ltac:(lia)) as (t' & r' & E' & R' & S'). cbn [TG.lines]. rewrite E. cbn [bind]. rewrite E'. cbn [bind].
    eexists _, (r ++ str "," ++ r'). split; [reflexivity|]. split; [apply Vec.i_more; assumption|]. intros u.
    rewrite <- !app_assoc. rewrite strip_plain by (repeat constructor; discriminate). change (bare (str "    ")) with (@nil Z). cbn [app].
    rewrite strip_plain by exact NS. rewrite B, <- !app_assoc. f_equal. f_equal.
    match goal with |- Vec.strip Vec.Code (str " /* " ++ ?x) = _ => change (Vec.strip Vec.Code (str " /* " ++ x)) with (Vec.strip Vec.Comment x) end.
    rewrite strip_comment by exact NN.
    match goal with |- Vec.strip Vec.Comment (str "[" ++ ?x) = _ => change (Vec.strip Vec.Comment (str "[" ++ x)) with (Vec.strip Vec.Comment x) end.
    rewrite strip_comment by (apply solid_nostar, dec_solid, I).
    match goal with |- Vec.strip Vec.Comment (str "] */" ++ TG.NL ++ ?x) = _ => change (Vec.strip Vec.Comment (str "] */" ++ TG.NL ++ x)) with (Vec.strip Vec.Code x) end.
    apply S'.
Qed.
Lemma array_ok {T} (text : T -> res (list Z)) tr type name l : nostar name -> Forall (writes text tr) l ->
  exists t, TG.array text type name l = OK t /\ Vec.defines t type name (map tr l).
Proof.
  intros NN F. destruct (lines_ok text tr name l NN F 0 ltac:(lia)) as (t & r & E & R & S). unfold TG.array. rewrite E. cbn [bind]. eexists. split; [reflexivity|].
  exists (str "{" ++ TG.NL ++ t ++ str "}"). split.
  - change (str "[] = {") with (str "[] = " ++ str "{"). change (str "};") with (str "}" ++ str ";"). rewrite <- !app_assoc. reflexivity.
  - change (str "{" ++ TG.NL ++ t ++ str "}") with ((str "{" ++ TG.NL) ++ (t ++ str "}")). rewrite strip_plain by (repeat constructor; discriminate).
    rewrite S. change (Vec.strip Vec.Code (str "}")) with (str "}"). change (bare (str "{" ++ TG.NL)) with (str "{"). apply Vec.r_braces, R.
Qed.
(** the tables that can be written *)
Definition printable (v : ST.vectors) : Prop :=
  let len n := 0 <= n < 2 ^ 31 in
  Forall (fun '(n, s, r) => len n /\ word 32 s /\ word 32 r) (ST.XXH32_testdata v) /\
  Forall (fun '(n, s, r) => len n /\ word 64 s /\ word 64 r) (ST.XXH64_testdata v) /\
  Forall (fun '(n, s, r) => len n /\ word 64 s /\ word 64 r) (ST.XXH3_testdata v) /\
  Forall (fun '(n, s, r) => len n /\ word 64 s /\ word 64 r) (ST.XXH3_withSecret_testdata v) /\
  Forall (fun '(n, s, r) => len n /\ word 64 s /\ word 64 (fst r) /\ word 64 (snd r)) (ST.XXH128_testdata v) /\
  Forall (fun '(n, s, r) => len n /\ word 64 s /\ word 64 (fst r) /\ word 64 (snd r)) (ST.XXH128_withSecret_testdata v) /\
  Forall (fun '(n, s, r) => len n /\ len s /\ List.length r = 5%nat /\ bytes_ok r) (ST.XXH3_generateSecret_testdata v).
Lemma arrays_ok v : printable v -> exists t, TG.arrays v = OK t /\ Vec.header t v.
Proof.
  intros (P1 & P2 & P3 & P4 & P5 & P6 & P7). unfold TG.arrays.
  destruct (array_ok TG.text32 Vec.tree3 (str "XSUM_testdata32_t") (str "XSUM_XXH32_testdata") (ST.XXH32_testdata v)) as (t1 & -> & D1);
    [repeat constructor; discriminate|revert P1; apply Forall_impl; intros [[n s] r]; intuition auto using writes32|]. cbn [bind].
  destruct (array_ok TG.text64 Vec.tree3 (str "XSUM_testdata64_t") (str "XSUM_XXH64_testdata") (ST.XXH64_testdata v)) as (t2 & -> & D2);
    [repeat constructor; discriminate|revert P2; apply Forall_impl; intros [[n s] r]; intuition auto using writes64|]. cbn [bind].
  destruct (array_ok TG.text64 Vec.tree3 (str "XSUM_testdata64_t") (str "XSUM_XXH3_testdata") (ST.XXH3_testdata v)) as (t3 & -> & D3);
    [repeat constructor; discriminate|revert P3; apply Forall_impl; intros [[n s] r]; intuition auto using writes64|]. cbn [bind].
  destruct (array_ok TG.text64 Vec.tree3 (str "XSUM_testdata64_t") (str "XSUM_XXH3_withSecret_testdata") (ST.XXH3_withSecret_testdata v)) as (t4 & -> & D4);
    [repeat constructor; discriminate|revert P4; apply Forall_impl; intros [[n s] r]; intuition auto using writes64|]. cbn [bind].
  destruct (array_ok TG.text128 Vec.tree128 (str "XSUM_testdata128_t") (str "XSUM_XXH128_testdata") (ST.XXH128_testdata v)) as (t5 & -> & D5);
    [repeat constructor; discriminate|revert P5; apply Forall_impl; intros [[n s] r] (?&?&?&?); apply writes128; assumption|]. cbn [bind].
  destruct (array_ok TG.text128 Vec.tree128 (str "XSUM_testdata128_t") (str "XSUM_XXH128_withSecret_testdata") (ST.XXH128_withSecret_testdata v)) as (t6 & -> & D6);
    [repeat constructor; discriminate|revert P6; apply Forall_impl; intros [[n s] r] (?&?&?&?); apply writes128; assumption|]. cbn [bind].
  destruct (array_ok TG.text_sample Vec.tree_sample (str "XSUM_testdata_sample_t") (str "XSUM_XXH3_generateSecret_testdata") (ST.XXH3_generateSecret_testdata v)) as (t7 & -> & D7);
    [repeat constructor; discriminate|revert P7; apply Forall_impl; intros [[n s] r] (?&?&?&?); apply writes_sample; assumption|]. cbn [bind].
  eexists. split; [reflexivity|]. exists t1, t2, t3, t4, t5, t6, t7. repeat split; assumption.
Qed.
Lemma nth_byte (l : list Z) i : bytes_ok l -> byte_ok (nth i l 0).
Proof. intros B. destruct (nth_in_or_default i l 0) as [I|E]; [exact (proj1 (Forall_forall _ _) B _ I)|rewrite E; unfold byte_ok; lia]. Qed.
Lemma x3_byte l i : bytes_ok l -> byte_ok (X3.byte l i).
Proof. intros B. pose proof (P_Inj3.byte_wd8 l i B) as W. exact W. Qed.
Lemma secret_byte size s : bytes_ok s -> bytes_ok (Util.generateSecret size s).
Proof.
  intros B. unfold Util.generateSecret. apply tab_bytes_ok. intros i I.
  assert (D : bytes_ok X3.default_secret) by (rewrite <- kSecret_default; apply kSecret_bytes).
  repeat apply lxor_byte.
  - apply x3_byte. destruct (len s =? 0); assumption.
  - destruct (_ <? _); [|unfold byte_ok; lia]. apply x3_byte, tab_bytes_ok. intros j J. apply Z.mod_pos_bound. lia.
  - destruct (_ <=? _); [|unfold byte_ok; lia]. apply x3_byte, tab_bytes_ok. intros j J. apply Z.mod_pos_bound. lia.
Qed.
Lemma tables_printable s3 m : m <= 2 ^ 31 -> 0 <= s3 < 2 ^ 64 -> printable (Vec.tables s3 m).
Proof.
  intros M S3. unfold printable, Vec.tables. cbn [ST.XXH32_testdata ST.XXH64_testdata ST.XXH3_testdata ST.XXH3_withSecret_testdata ST.XXH128_testdata ST.XXH128_withSecret_testdata ST.XXH3_generateSecret_testdata].
  assert (P1 : word 32 Vec.P32) by (cbv; split; congruence). assert (P2 : word 64 Vec.P64) by (cbv; split; congruence).
  assert (P4 : word 64 s3) by exact S3. assert (P3 : word 64 Vec.P32) by (cbv; split; congruence). assert (P0 : word 64 0) by (cbv; split; congruence). assert (P00 : word 32 0) by (cbv; split; congruence).
  split; [|split; [|split; [|split; [|split; [|split]]]]];
    try (apply forall_seeded; intros n s N I; cbv beta iota; split; [lia|]; split; [repeat (destruct I as [I|I]; [subst s; assumption|]); destruct I|]).
  - apply hash32_range.
  - apply hash64_range'.
  - unfold X3.XXH3_64_withSeed. apply hash64_range.
  - cbv beta. unfold X3.XXH3_64_withSecret. apply hash64_range.
  - unfold X3.XXH3_128_withSeed. apply hash128_range.
  - cbv beta. unfold X3.XXH3_128_withSecret. apply hash128_range.
  - apply forall_samples. intros n size N S. cbv beta iota. split; [lia|]. split; [lia|]. split; [reflexivity|].
    apply Forall_forall. intros x I. unfold Vec.sample in I. apply in_map_iff in I. destruct I as (k & <- & _).
    apply nth_byte, secret_byte, data_bytes.
Qed.
