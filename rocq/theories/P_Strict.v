(** Proofs about the strict-pointer variants (M_Strict). *)
From Verif Require Import Base Mem M_XXH32 M_XXH64 M_XXH3 M_Kernels M_Long M_Stream3 M_Strict P_Base P_Spec P_XXH32 P_XXH64.

Lemma load_inv p n l : load p n = OK l -> exists b a o, p = Ptr b a o /\ 0 <= o /\ 0 <= n /\ o + n <= zlen b.
Proof.
  destruct p as [|b a o]; cbn; [discriminate|]. destruct ((0 <=? o) && (0 <=? n) && (o + n <=? zlen b)) eqn:E; [|discriminate].
  intros _. exists b, a, o. split; [reflexivity|]. lia.
Qed.
Ltac bstep E := match type of E with
  | bind ?m _ = OK _ => let r := fresh "r" in let Q := fresh "Q" in destruct m as [r| |] eqn:Q; cbn [bind] in E; try discriminate
  end.
Lemma load8_inv p v : load8 p = OK v -> exists b a o, p = Ptr b a o /\ 0 <= o /\ o + 1 <= zlen b.
Proof. unfold load8. intros E. bstep E. destruct (load_inv _ _ _ Q) as (b & a & o & -> & ?). exists b, a, o. split; [reflexivity|lia]. Qed.
Lemma read32_inv c p v : readLE32 c p = OK v -> exists b a o, p = Ptr b a o /\ 0 <= o /\ o + 4 <= zlen b.
Proof.
  unfold readLE32. destruct (mem_access c =? 3); intros E.
  - repeat bstep E. destruct (load8_inv _ _ Q) as (b & a & o & -> & ? & ?). exists b, a, o. split; [reflexivity|].
    destruct (load8_inv _ _ Q2) as (b' & a' & o' & X & ? & ?). cbn [padd] in X. injection X as <- <- <-. lia.
  - unfold read32 in E. bstep E. unfold assert_ in Q. destruct (_ || _ || _) in Q; cbn [bind] in Q; try discriminate. bstep Q.
    destruct (load_inv _ _ _ Q0) as (b & a & o & -> & ?). exists b, a, o. split; [reflexivity|lia].
Qed.
Lemma read64_inv c p v : readLE64 c p = OK v -> exists b a o, p = Ptr b a o /\ 0 <= o /\ o + 8 <= zlen b.
Proof.
  unfold readLE64. destruct (mem_access c =? 3); intros E.
  - repeat bstep E. destruct (load8_inv _ _ Q) as (b & a & o & -> & ? & ?). exists b, a, o. split; [reflexivity|].
    destruct (load8_inv _ _ Q6) as (b' & a' & o' & X & ? & ?). cbn [padd] in X. injection X as <- <- <-. lia.
  - unfold read64 in E. bstep E. unfold assert_ in Q. destruct (_ || _ || _) in Q; cbn [bind] in Q; try discriminate. bstep Q.
    destruct (load_inv _ _ _ Q0) as (b & a & o & -> & ?). exists b, a, o. split; [reflexivity|lia].
Qed.
Lemma padd_s_ok p k : in_object (padd p k) = true -> padd_s p k = OK (padd p k).
Proof. unfold padd_s. intros ->. reflexivity. Qed.
Lemma padd_s_bad p k : in_object (padd p k) = false -> padd_s p k = UB.
Proof. unfold padd_s. intros ->. reflexivity. Qed.

(** wherever the plain loop body runs, the strict one does the same *)
Lemma stripe32_s c s s' : XXH32_stripe (readLE32 c) s = OK s' -> XXH32_stripe_s (readLE32 c) s = OK s'.
Proof.
  destruct s as [[[[v1 v2] v3] v4] p]. unfold XXH32_stripe, XXH32_stripe_s. intros E.
  bstep E. destruct (read32_inv _ _ _ Q) as (b & a & o & -> & B1 & B2). cbn [padd] in E. rewrite padd_s_ok by (cbn [padd in_object]; lia). cbn [bind padd].
  bstep E. destruct (read32_inv _ _ _ Q0) as (b' & a' & o' & X & B3 & B4). injection X as <- <- <-. rewrite padd_s_ok by (cbn [padd in_object]; lia). cbn [bind padd].
  bstep E. destruct (read32_inv _ _ _ Q1) as (b' & a' & o' & X & B5 & B6). injection X as <- <- <-. rewrite padd_s_ok by (cbn [padd in_object]; lia). cbn [bind padd].
  bstep E. destruct (read32_inv _ _ _ Q2) as (b' & a' & o' & X & B7 & B8). injection X as <- <- <-. rewrite padd_s_ok by (cbn [padd in_object]; lia). cbn [bind padd].
  exact E.
Qed.
Lemma stripe64_s c s s' : XXH64_stripe (readLE64 c) s = OK s' -> XXH64_stripe_s (readLE64 c) s = OK s'.
Proof.
  destruct s as [[[[v1 v2] v3] v4] p]. unfold XXH64_stripe, XXH64_stripe_s. intros E.
  bstep E. destruct (read64_inv _ _ _ Q) as (b & a & o & -> & B1 & B2). cbn [padd] in E. rewrite padd_s_ok by (cbn [padd in_object]; lia). cbn [bind padd].
  bstep E. destruct (read64_inv _ _ _ Q0) as (b' & a' & o' & X & B3 & B4). injection X as <- <- <-. rewrite padd_s_ok by (cbn [padd in_object]; lia). cbn [bind padd].
  bstep E. destruct (read64_inv _ _ _ Q1) as (b' & a' & o' & X & B5 & B6). injection X as <- <- <-. rewrite padd_s_ok by (cbn [padd in_object]; lia). cbn [bind padd].
  bstep E. destruct (read64_inv _ _ _ Q2) as (b' & a' & o' & X & B7 & B8). injection X as <- <- <-. rewrite padd_s_ok by (cbn [padd in_object]; lia). cbn [bind padd].
  exact E.
Qed.
Lemma do_while_s {S} fuel (f g : S -> res S) cond s s' : (forall s s', f s = OK s' -> g s = OK s') ->
  do_while fuel f cond s = OK s' -> do_while fuel g cond s = OK s'.
Proof.
  intros H. unfold do_while. intros E. bstep E. rewrite (H _ _ Q). cbn [bind]. revert r E Q. 
  assert (G : forall r, while_ fuel cond f r = OK s' -> while_ fuel cond g r = OK s').
  { induction fuel as [|fuel IH]; intros r E; cbn in *; [exact E|]. destruct (cond r); [|exact E]. bstep E. rewrite (H _ _ Q). cbn [bind]. auto. }
  intros r E _. auto.
Qed.

Lemma update32_s c st b a o len r : 0 <= o -> 0 <= len -> o + len <= zlen b -> 0 <= s32_memsize st < 16 ->
  XXH32_update c st (Ptr b a o) len = OK r ->
  XXH32_update_s c st (Ptr b a o) len =
    if (usz c (s32_memsize st + len) <? 16) || (16 <=? o + len) then OK r else UB.
Proof.
  intros O L B M. unfold XXH32_update, XXH32_update_s. cbn [is_null].
  rewrite (padd_s_ok (Ptr b a o) len) by (cbn [padd in_object]; lia). cbn [bind].
  destruct (usz c (s32_memsize st + len) <? 16) eqn:F; cbn [orb]; [trivial|].
  intros E. bstep E. destruct r0 as [[[v mem] ms] p].
  assert (S1 : (if negb (s32_memsize st =? 0)
    then let! data := load (Ptr b a o) (16 - s32_memsize st) in
         let! mem := store (s32_mem st) (s32_memsize st) data in
         let! (v, _) := XXH32_stripe_s (readLE32 c) (s32_v st, buf_ptr mem) in
         let! p := padd_s (Ptr b a o) (16 - s32_memsize st) in OK (v, mem, 0, p)
    else OK (s32_v st, s32_mem st, s32_memsize st, Ptr b a o)) = OK (v, mem, ms, p)).
  { destruct (negb (s32_memsize st =? 0)); [|exact Q]. bstep Q. cbn [bind]. bstep Q. cbn [bind]. bstep Q. cbn [bind]. destruct r2 as [v' q].
    rewrite (stripe32_s _ _ _ Q2). cbn [bind]. destruct (load_inv _ _ _ Q0) as (b' & a' & o' & X & ?). injection X as <- <- <-.
    rewrite padd_s_ok by (cbn [padd in_object]; lia). exact Q. }
  rewrite S1. cbn [bind]. cbn [padd] in E |- *. destruct (16 <=? o + len) eqn:G.
  - rewrite padd_s_ok by (cbn [padd in_object]; lia). cbn [bind padd]. bstep E. destruct r0 as [v2 p2].
    assert (S2 : (if pleb p (Ptr b a (o + len + -16)) then do_while (Z.to_nat len) (XXH32_stripe_s (readLE32 c)) (fun s => pleb (snd s) (Ptr b a (o + len + -16))) (v, p) else OK (v, p)) = OK (v2, p2)).
    { destruct (pleb p _); [|exact Q0]. eapply do_while_s; [|exact Q0]. intros s s'. apply stripe32_s. }
    rewrite S2. exact E.
  - rewrite padd_s_bad by (cbn [padd in_object]; lia). reflexivity.
Qed.
Lemma update64_s c st b a o len r : 0 <= o -> 0 <= len -> o + len <= zlen b -> 0 <= s64_memsize st < 32 ->
  XXH64_update c st (Ptr b a o) len = OK r ->
  XXH64_update_s c st (Ptr b a o) len =
    if (usz c (s64_memsize st + len) <? 32) ||
       (o + (if s64_memsize st =? 0 then 0 else 32 - s64_memsize st) + 32 <=? zlen b) then OK r else UB.
Proof.
  intros O L B M. unfold XXH64_update, XXH64_update_s. cbn [is_null].
  rewrite (padd_s_ok (Ptr b a o) len) by (cbn [padd in_object]; lia). cbn [bind].
  destruct (usz c (s64_memsize st + len) <? 32) eqn:F; cbn [orb]; [trivial|].
  intros E. bstep E. destruct r0 as [[[v mem] ms] p].
  assert (S1 : (if negb (s64_memsize st =? 0)
    then let! data := load (Ptr b a o) (32 - s64_memsize st) in
         let! mem := store (s64_mem st) (s64_memsize st) data in
         let! (v, _) := XXH64_stripe_s (readLE64 c) (s64_v st, buf_ptr mem) in
         let! p := padd_s (Ptr b a o) (32 - s64_memsize st) in OK (v, mem, 0, p)
    else OK (s64_v st, s64_mem st, s64_memsize st, Ptr b a o)) = OK (v, mem, ms, p) /\
    p = Ptr b a (o + (if s64_memsize st =? 0 then 0 else 32 - s64_memsize st))).
  { destruct (Z.eqb_spec (s64_memsize st) 0); cbn [negb] in *.
    - split; [exact Q|]. injection Q as <- <- <- <-. f_equal. lia.
    - bstep Q. cbn [bind]. bstep Q. cbn [bind]. bstep Q. cbn [bind]. destruct r2 as [v' q].
      rewrite (stripe64_s _ _ _ Q2). cbn [bind]. destruct (load_inv _ _ _ Q0) as (b' & a' & o' & X & ?). injection X as <- <- <-.
      rewrite padd_s_ok by (cbn [padd in_object]; lia). split; [exact Q|]. injection Q as <- <- <- <-. reflexivity. }
  destruct S1 as [S1 EP]. rewrite S1. cbn [bind]. set (f := if s64_memsize st =? 0 then 0 else 32 - s64_memsize st) in *.
  assert (HF : 0 <= f < 32) by (subst f; destruct (Z.eqb_spec (s64_memsize st) 0); lia). clearbody f. clear S1 Q. subst p.
  cbn [padd] in E |- *. destruct (o + f + 32 <=? zlen b) eqn:G.
  - rewrite padd_s_ok by (cbn [padd in_object]; lia). cbn [bind padd]. bstep E. destruct r0 as [v2 p2].
    assert (S2 : (if pleb (Ptr b a (o + f + 32)) (Ptr b a (o + len)) then let! limit := padd_s (Ptr b a (o + len)) (-32) in
        do_while (Z.to_nat len) (XXH64_stripe_s (readLE64 c)) (fun s => pleb (snd s) limit) (v, Ptr b a (o + f)) else OK (v, Ptr b a (o + f))) = OK (v2, p2)).
    { destruct (pleb (Ptr b a (o + f + 32)) (Ptr b a (o + len))) eqn:PL; [|exact Q]. unfold pleb in PL. cbn [poff] in PL.
      rewrite padd_s_ok by (cbn [padd in_object]; lia). cbn [bind padd]. eapply do_while_s; [|exact Q]. intros s s'. apply stripe64_s. }
    rewrite S2. exact E.
  - rewrite padd_s_bad by (cbn [padd in_object]; lia). reflexivity.
Qed.

(** the accumulation loop with its prefetch *)
Lemma template_s dist (acc512 : f_acc512) adr b a o secret : 0 <= dist -> 0 <= o -> forall n i (acc r : list Z),
  for_ n i (fun n acc => acc512 adr acc (padd (Ptr b a o) (n * STRIPE_LEN)) (padd secret (n * SECRET_CONSUME_RATE))) acc = OK r -> 0 <= i ->
  for_ n i (fun n acc => let! inp := padd_s (Ptr b a o) (n * STRIPE_LEN) in let! _ := padd_s inp dist in
         acc512 adr acc inp (padd secret (n * SECRET_CONSUME_RATE))) acc =
    match n with O => OK r | S k => if o + (i + Z.of_nat k) * 64 + dist <=? zlen b then OK r else UB end.
Proof.
  intros D O. induction n as [|n IH]; intros i acc r E I; [exact E|]. cbn [for_] in E |- *. bstep E.
  destruct (Z.leb_spec (o + (i + Z.of_nat n) * 64 + dist) (zlen b)) as [L|L].
  - rewrite padd_s_ok by (cbn [padd in_object]; unfold STRIPE_LEN; lia). cbn [bind]. rewrite padd_s_ok by (cbn [padd in_object]; unfold STRIPE_LEN; lia). cbn [bind].
    cbv beta in Q. rewrite Q. cbn [bind]. rewrite (IH (i + 1) r0 r E) by lia. destruct n as [|n]; [reflexivity|].
    replace (o + (i + 1 + Z.of_nat n) * 64 + dist <=? zlen b) with true by lia. reflexivity.
  - unfold padd_s at 1. destruct (in_object _); cbn [assert_ bind]; [|reflexivity].
    unfold padd_s at 1. destruct (in_object _) eqn:IO; cbn [assert_ bind]; [|reflexivity].
    cbv beta in Q. rewrite Q. cbn [bind]. rewrite (IH (i + 1) r0 r E) by lia. destruct n as [|n].
    + exfalso. cbn in IO. unfold STRIPE_LEN in IO. lia.
    + replace (o + (i + 1 + Z.of_nat n) * 64 + dist <=? zlen b) with false by lia. reflexivity.
Qed.
