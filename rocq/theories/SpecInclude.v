(** What is expected of including xxhash.h in a translation unit, in terms of the C language: which declarations may stand together,
    what a name stands for, what a unit exports. *)
From Coq Require Import String.
From Verif Require Import Base M_Include.
Import Inc.

(** the identifier as the compiler sees it *)
Definition full (d : decl) : string := (pre d ++ base d)%string.
Definition stands_for (u : unit) (n : string) : string := (fst (expand u n) ++ snd (expand u n))%string.
(** two declarations of one identifier in one scope: functions of the same linkage with at most one body (C11 6.2.2p7, 6.9p3-5);
    typedefs of the same type, since C11 only (6.7p3; C++ always); nothing else *)
Definition agree (c11 : bool) (a b : what) : Prop :=
  match a, b with
  | Fun l x, Fun m y => l = m /\ ~ (x = true /\ y = true)
  | Int_type, Int_type => c11 = true
  | _, _ => False
  end.
Definition valid (c11 : bool) (ds : list decl) : Prop := ForallOrdPairs (fun a b => full a = full b -> agree c11 (is a) (is b)) ds.
(** the unit compiles as far as its identifiers are concerned *)
Definition compiles (c11 : bool) (u : unit) : Prop := clash u = false /\ valid c11 (decls u).
Definition declared (u : unit) (i : string) (w : what) : Prop := exists d, In d (decls u) /\ full d = i /\ is d = w.
(** the functions that the unit offers to other units *)
Definition exports (u : unit) (i : string) : Prop := declared u i (Fun Extern true).
(** a function that a program may use in the unit: it has a body there, or it may have one elsewhere *)
Definition callable (u : unit) (i : string) : Prop := declared u i (Fun Extern false) \/ exists l, declared u i (Fun l true).

(** XXH_INLINE_ALL or XXH_PRIVATE_API is defined at the end of these lines; XXH_STATIC_LINKING_ONLY, likewise *)
Definition last_of (f : line -> option bool) (ls : list line) : bool := fold_left (fun b l => match f l with Some x => x | None => b end) ls false.
Definition inlining (ls : list line) : bool :=
  last_of (fun l => match l with Set_inline b => Some b | _ => None end) ls || last_of (fun l => match l with Set_private b => Some b | _ => None end) ls.
Definition static_linking (ls : list line) : bool := last_of (fun l => match l with Set_static b => Some b | _ => None end) ls.
Definition asks_inline (l : line) : Prop := l = Set_inline true \/ l = Set_private true.
Definition includes (l : line) : Prop := l = Include \/ exists d, l = Include_dispatch d.
(** the namespace as a prefix *)
Definition prefix_of (ns : option string) : string := match ns with Some p => p | None => ""%string end.

(** ** The documented interface *)
(** the families of xxhash.h's documentation and when they are there *)
Inductive family := Any | F32_stream | F64 | F64_stream | F3 | F3_stream.
Definition present (o : opts) (f : family) : bool :=
  match f with
  | Any => true
  | F32_stream => negb (no_stream o)
  | F64 => negb (no_long_long o)
  | F64_stream => negb (no_long_long o) && negb (no_stream o)
  | F3 => negb (no_long_long o) && negb (no_xxh3 o)
  | F3_stream => negb (no_long_long o) && negb (no_xxh3 o) && negb (no_stream o)
  end.
(** each function: its family, and whether it needs XXH_STATIC_LINKING_ONLY *)
Definition interface : list (string * family * bool) :=
  (let fam f b l := map (fun n => (n, f, b)) l in
   fam Any false ["XXH_versionNumber"; "XXH32"; "XXH32_canonicalFromHash"; "XXH32_hashFromCanonical"] ++
   fam F32_stream false ["XXH32_createState"; "XXH32_freeState"; "XXH32_copyState"; "XXH32_reset"; "XXH32_update"; "XXH32_digest"] ++
   fam F64 false ["XXH64"; "XXH64_canonicalFromHash"; "XXH64_hashFromCanonical"] ++
   fam F64_stream false ["XXH64_createState"; "XXH64_freeState"; "XXH64_copyState"; "XXH64_reset"; "XXH64_update"; "XXH64_digest"] ++
   fam F3 false ["XXH3_64bits"; "XXH3_64bits_withSeed"; "XXH3_64bits_withSecret"; "XXH3_128bits"; "XXH3_128bits_withSeed"; "XXH3_128bits_withSecret";
                 "XXH128_isEqual"; "XXH128_cmp"; "XXH128_canonicalFromHash"; "XXH128_hashFromCanonical"] ++
   fam F3_stream false ["XXH3_createState"; "XXH3_freeState"; "XXH3_copyState"; "XXH3_64bits_reset"; "XXH3_64bits_reset_withSeed"; "XXH3_64bits_reset_withSecret";
                        "XXH3_64bits_update"; "XXH3_64bits_digest"; "XXH3_128bits_reset"; "XXH3_128bits_reset_withSeed"; "XXH3_128bits_reset_withSecret";
                        "XXH3_128bits_update"; "XXH3_128bits_digest"] ++
   fam F3 true ["XXH128"; "XXH3_generateSecret"; "XXH3_generateSecret_fromSeed"; "XXH3_64bits_withSecretandSeed"; "XXH3_128bits_withSecretandSeed"] ++
   fam F3_stream true ["XXH3_64bits_reset_withSecretandSeed"; "XXH3_128bits_reset_withSecretandSeed"])%list%string.
(** [static]: the functions for static linking too *)
Definition offered (o : opts) (static : bool) (n : string) : Prop := exists f b, In (n, f, b) interface /\ present o f = true /\ (b = true -> static = true).
(** the types and enumerators that go with them *)
Definition interface_types : list (string * family) :=
  (let fam f l := map (fun n => (n, f)) l in
   fam Any ["XXH_OK"; "XXH_ERROR"; "XXH_errorcode"; "XXH32_hash_t"; "XXH32_canonical_t"] ++ fam F32_stream ["XXH32_state_t"] ++
   fam F64 ["XXH64_hash_t"; "XXH64_canonical_t"] ++ fam F64_stream ["XXH64_state_t"] ++
   fam F3 ["XXH128_hash_t"; "XXH128_canonical_t"] ++ fam F3_stream ["XXH3_state_t"])%list%string.
Definition offered_type (o : opts) (n : string) : Prop := exists f, In (n, f) interface_types /\ present o f = true.
(** what xxh_x86dispatch.h makes of a name: its own name with a suffix; XXH128 is XXH3_128bits_withSeed *)
Definition dispatched (n : string) : string := ((if String.eqb n "XXH128" then "XXH3_128bits_withSeed" else n) ++ "_dispatch")%string.
