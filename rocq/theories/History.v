(** Histories of API calls over any number of state objects.

    [run] executes a list of calls on the model; [srun] is the specification: an object is either not usable
    ([None]: created but not reset yet, or last reset failed) or carries the parameters of its last
    successful reset and the bytes fed since.  [valid] says the caller keeps the documented rules. *)
From Verif Require Import Base Mem M_XXH32 M_XXH64 M_Stream3 M_Long Spec32 Spec64 Spec3 P_Base P_X3_Long.

Definition set {T} (f : nat -> T) (h : nat) (v : T) : nat -> T := fun k => if Nat.eqb k h then v else f k.

(** a call: on object [h]; an update passes pointer [p] and length [zlen d], [d] being the bytes at [p] *)
Inductive op (Arg Kind : Type) : Type :=
| OpReset (h : nat) (a : Arg)
| OpUpdate (h : nat) (p : ptr) (d : list Z)
| OpDigest (h : nat) (k : Kind)
| OpCopy (dst src : nat).
Arguments OpReset {Arg Kind} h a.
Arguments OpUpdate {Arg Kind} h p d.
Arguments OpDigest {Arg Kind} h k.
Arguments OpCopy {Arg Kind} dst src.
(** what the caller observes *)
Inductive out (Val : Type) : Type := Code (e : errorcode) | Digest (v : Val).
Arguments Code {Val} e.
Arguments Digest {Val} v.

(** an object as the specification sees it *)
Notation obj Par := (option (Par * list Z)).

Section Machine.
Context {Arg Kind Val St Par : Type}.
Variable reset : Arg -> St -> res (errorcode * St).
Variable update : St -> ptr -> Z -> res (errorcode * St).
Variable digest : Kind -> St -> res Val.
Variable copy : St -> St -> St.
Fixpoint run (w : nat -> St) (ops : list (op Arg Kind)) : res (list (out Val)) :=
  match ops with
  | [] => OK []
  | OpReset h a :: r => let! (e, st) := reset a (w h) in let! l := run (set w h st) r in OK (Code e :: l)
  | OpUpdate h p d :: r => let! (e, st) := update (w h) p (zlen d) in let! l := run (set w h st) r in OK (Code e :: l)
  | OpDigest h k :: r => let! v := digest k (w h) in let! l := run w r in OK (Digest v :: l)
  | OpCopy dst src :: r => run (set w dst (copy (w dst) (w src))) r
  end.

Variable sreset : Arg -> obj Par -> errorcode * obj Par.
Variable sdigest : Kind -> Par -> list Z -> Val.
Definition feed1 (o : obj Par) (d : list Z) : obj Par := match o with Some (P, m) => Some (P, m ++ d) | None => None end.
Definition dig1 (k : Kind) (o : obj Par) (r : list (out Val)) : list (out Val) :=
  match o with Some (P, m) => Digest (sdigest k P m) :: r | None => r end.
Fixpoint srun (a : nat -> obj Par) (ops : list (op Arg Kind)) : list (out Val) :=
  match ops with
  | [] => []
  | OpReset h x :: r => Code (fst (sreset x (a h))) :: srun (set a h (snd (sreset x (a h)))) r
  | OpUpdate h p d :: r => Code XXH_OK :: srun (set a h (feed1 (a h) d)) r
  | OpDigest h k :: r => dig1 k (a h) (srun a r)
  | OpCopy dst src :: r => srun (set a dst (a src)) r
  end.

(** the caller's side: valid reset arguments, readable input, update and digest only on a live object,
    total length below the limit at every digest *)
Variable arg_ok : Arg -> Prop.
Variable len_ok : Z -> Prop.       (* length of one update *)
Variable total_ok : Z -> Prop.     (* length of the whole stream *)
Fixpoint valid (a : nat -> obj Par) (ops : list (op Arg Kind)) : Prop :=
  match ops with
  | [] => True
  | OpReset h x :: r => arg_ok x /\ valid (set a h (snd (sreset x (a h)))) r
  | OpUpdate h p d :: r =>
      a h <> None /\ points_to p d /\ bytes_ok d /\ len_ok (zlen d) /\ valid (set a h (feed1 (a h) d)) r
  | OpDigest h k :: r =>
      match a h with Some (_, m) => total_ok (zlen m) /\ valid a r | None => False end
  | OpCopy dst src :: r => valid (set a dst (a src)) r
  end.
End Machine.

(** ** XXH32 and XXH64: the argument of a reset is the seed *)
Definition run32 (c : cfg) := run (fun seed (_ : state32) => OK (XXH_OK, XXH32_reset seed)) (XXH32_update c)
  (fun _ : unit => XXH32_digest c) (fun _ src => XXH32_copyState src).
Definition srun32 := srun (fun (seed : Z) (_ : obj Z) => (XXH_OK, Some (seed, @nil Z))) (fun (_ : unit) seed m => X32.hash m seed).
Definition valid32 (c : cfg) := valid (Kind := unit) (fun (seed : Z) (_ : obj Z) => (XXH_OK, Some (seed, @nil Z)))
  (fun _ : Z => True) (fun n => n + 16 <= 2 ^ szbits c) (fun _ => True).
Definition run64 (c : cfg) := run (fun seed (_ : state64) => OK (XXH_OK, XXH64_reset seed)) (XXH64_update c)
  (fun _ : unit => XXH64_digest c) (fun _ src => XXH64_copyState src).
Definition srun64 := srun (fun (seed : Z) (_ : obj Z) => (XXH_OK, Some (seed, @nil Z))) (fun (_ : unit) seed m => X64.hash m seed).
Definition valid64 (c : cfg) := valid (Kind := unit) (fun (seed : Z) (_ : obj Z) => (XXH_OK, Some (seed, @nil Z)))
  (fun _ : Z => True) (fun n => n + 32 <= 2 ^ szbits c) (fun n => n < 2 ^ 64).

(** ** XXH3 *)
Inductive reset3 :=
| RDefault                                   (* XXH3_*_reset *)
| RSeed (seed : Z)                           (* XXH3_*_reset_withSeed *)
| RSecret (p : ptr) (s : list Z)             (* XXH3_*_reset_withSecret: pointer, bytes there *)
| RBoth (p : ptr) (s : list Z) (seed : Z)    (* XXH3_*_reset_withSecretandSeed *)
| RSecretNull (size : Z)                     (* reset_withSecret(NULL, size) with size >= 136 *)
| RBothBad (p : ptr) (size : Z) (seed : Z).  (* reset_withSecretandSeed with NULL, or with size < 136 *)
Inductive width := W64 | W128.
Inductive par3 := PDefault | PSeed (seed : Z) | PSecret (s : list Z) | PBoth (s : list Z) (seed : Z).
Inductive val3 := V64 (v : Z) | V128 (v : Z * Z).

(** the object is not NULL: the option disappears *)
Definition on_some (f : option state3 -> res (errorcode * option state3)) (st : state3) : res (errorcode * state3) :=
  let! (e, o) := f (Some st) in match o with Some st => OK (e, st) | None => UB end.
Definition do_reset3 (c : cfg) (wr : width * reset3) : state3 -> res (errorcode * state3) :=
  let '(w, r) := wr in
  on_some (fun o =>
    match r with
    | RDefault => match w with W64 => XXH3_64bits_reset c o | W128 => XXH3_128bits_reset c o end
    | RSeed sd => match w with W64 => XXH3_64bits_reset_withSeed c o sd | W128 => XXH3_128bits_reset_withSeed c o sd end
    | RSecret p s => match w with W64 => XXH3_64bits_reset_withSecret c o p (zlen s) | W128 => XXH3_128bits_reset_withSecret c o p (zlen s) end
    | RBoth p s sd => match w with W64 => XXH3_64bits_reset_withSecretandSeed c o p (zlen s) sd
                                 | W128 => XXH3_128bits_reset_withSecretandSeed c o p (zlen s) sd end
    | RSecretNull n => match w with W64 => XXH3_64bits_reset_withSecret c o Null n | W128 => XXH3_128bits_reset_withSecret c o Null n end
    | RBothBad p n sd => match w with W64 => XXH3_64bits_reset_withSecretandSeed c o p n sd
                                    | W128 => XXH3_128bits_reset_withSecretandSeed c o p n sd end
    end).
Definition do_digest3 (c : cfg) (w : width) (st : state3) : res val3 :=
  match w with
  | W64 => let! v := XXH3_64bits_digest c st in OK (V64 v)
  | W128 => let! v := XXH3_128bits_digest c st in OK (V128 v)
  end.
Definition run3 (c : cfg) := run (do_reset3 c) (XXH3_64bits_update c) (do_digest3 c) XXH3_copyState.

(** a failing reset_withSecret(NULL) leaves an unusable object; a failing reset_withSecretandSeed changes nothing *)
Definition sreset3 (wr : width * reset3) (o : option (par3 * list Z)) : errorcode * option (par3 * list Z) :=
  match snd wr with
  | RDefault => (XXH_OK, Some (PDefault, []))
  | RSeed sd => (XXH_OK, Some (PSeed sd, []))
  | RSecret _ s => (XXH_OK, Some (PSecret s, []))
  | RBoth _ s sd => (XXH_OK, Some (PBoth s sd, []))
  | RSecretNull _ => (XXH_ERROR, None)
  | RBothBad _ _ _ => (XXH_ERROR, o)
  end.
Definition sdigest3 (w : width) (P : par3) (m : list Z) : val3 :=
  match w with
  | W64 => V64 (match P with PDefault => X3.XXH3_64 m | PSeed sd => X3.XXH3_64_withSeed sd m
                        | PSecret s => X3.XXH3_64_withSecret s m | PBoth s sd => X3.XXH3_64_withSecretandSeed s sd m end)
  | W128 => V128 (match P with PDefault => X3.XXH3_128 m | PSeed sd => X3.XXH3_128_withSeed sd m
                        | PSecret s => X3.XXH3_128_withSecret s m | PBoth s sd => X3.XXH3_128_withSecretandSeed s sd m end)
  end.
Definition srun3 := srun sreset3 sdigest3.
Definition arg3_ok (c : cfg) (wr : width * reset3) : Prop :=
  match snd wr with
  | RDefault => True
  | RSeed sd => 0 <= sd < 2 ^ 64
  | RSecret p s => points_to p s /\ bytes_ok s /\ 136 <= zlen s /\ zlen s < 2 ^ szbits c
  | RBoth p s sd => points_to p s /\ bytes_ok s /\ 136 <= zlen s /\ zlen s < 2 ^ szbits c /\ 0 <= sd < 2 ^ 64
  | RSecretNull n => 136 <= n < 2 ^ szbits c
  | RBothBad p n sd => p = Null \/ n < 136
  end.
Definition valid3 (c : cfg) := valid (Kind := width) sreset3 (arg3_ok c) (fun n => n < 2 ^ szbits c) (fun n => n < 2 ^ 64).

(** an object as XXH3_createState / XXH3_INITSTATE deliver it: 64-byte aligned, seed 0, no external secret,
    arbitrary content otherwise *)
Record created3 (st : state3) : Prop := Created3 {
  cr_adr : s3_adr st mod 64 = 0;
  cr_buf : zlen (s3_buffer st) = 256;
  cr_bytes : bytes_ok (s3_buffer st);
  cr_custom : zlen (s3_customSecret st) = 192;
  cr_seed : s3_seed st = 0;
  cr_ext : s3_extSecret st = Null
}.
