(** Model of what the inclusions of xxhash.h and xxh_x86dispatch.h do to one translation unit: the guards, the renaming macros
    (XXH_NAMESPACE, XXH_INLINE_ALL, XXH_PRIVATE_API) and the identifiers that are declared and defined.

    Simplifications: the parameters of the functions and the members of the types are not part of a declaration here; the
    functions and types that only the implementation part uses are static or private to it, and it is read at most once, so they
    are left out; macros that are always defined to the same tokens (XXH_CAT, XXH_NAME2, the version, XXH3_SECRET_SIZE_MIN, ...)
    cannot clash and are left out; XXH_IMPORT and XXH_EXPORT are not set; a user who defines XXH_STATIC_LINKING_ONLY or
    XXH_IMPLEMENTATION gives it no value. *)
From Coq Require Import String.
From Verif Require Import Base.
Module Inc.
Local Open Scope string_scope.

(** ** Declarations *)
(** XXH_PUBLIC_API as nothing, or as one of the forms of static inline (xxhash.h:335-345, 447-457) *)
Inductive linkage := Extern | Static.
(** what an identifier is declared as: a function (with or without its body), a typedef name of an integer type (the same type
    every time), or a typedef name, a struct or an enumerator that makes a new type or value *)
Inductive what := Fun (l : linkage) (body : bool) | Int_type | New_type.
(** an identifier after macro expansion: its prefix and its written name *)
Record decl := Decl { pre : string; base : string; is : what }.

(** the switches that remove parts of the header: XXH_NO_STREAM, XXH_NO_LONG_LONG, XXH_NO_XXH3 (xxhash.h:645, 856, 1057) *)
Record opts := { no_stream : bool; no_long_long : bool; no_xxh3 : bool }.
Definition stream {A} (o : opts) (l : list A) : list A := if no_stream o then nil else l.
Definition long_long {A} (o : opts) (l : list A) : list A := if no_long_long o then nil else l.
Definition xxh3 {A} (o : opts) (l : list A) : list A := if no_xxh3 o then nil else l.

(** the functions declared by the stable part: xxhash.h:562-1614 *)
Definition stable_functions (o : opts) : list string :=
  ["XXH_versionNumber"; "XXH32"] ++
  stream o ["XXH32_createState"; "XXH32_freeState"; "XXH32_copyState"; "XXH32_reset"; "XXH32_update"; "XXH32_digest"] ++
  ["XXH32_canonicalFromHash"; "XXH32_hashFromCanonical"] ++
  long_long o
    (["XXH64"] ++
     stream o ["XXH64_createState"; "XXH64_freeState"; "XXH64_copyState"; "XXH64_reset"; "XXH64_update"; "XXH64_digest"] ++
     ["XXH64_canonicalFromHash"; "XXH64_hashFromCanonical"] ++
     xxh3 o
       (["XXH3_64bits"; "XXH3_64bits_withSeed"; "XXH3_64bits_withSecret"] ++
        stream o ["XXH3_createState"; "XXH3_freeState"; "XXH3_copyState"; "XXH3_64bits_reset"; "XXH3_64bits_reset_withSeed";
                  "XXH3_64bits_reset_withSecret"; "XXH3_64bits_update"; "XXH3_64bits_digest"] ++
        ["XXH3_128bits"; "XXH3_128bits_withSeed"; "XXH3_128bits_withSecret"] ++
        stream o ["XXH3_128bits_reset"; "XXH3_128bits_reset_withSeed"; "XXH3_128bits_reset_withSecret"; "XXH3_128bits_update";
                  "XXH3_128bits_digest"] ++
        ["XXH128_isEqual"; "XXH128_cmp"; "XXH128_canonicalFromHash"; "XXH128_hashFromCanonical"])).
(** the functions declared by the part for static linking: xxhash.h:1819-2032 *)
Definition static_functions (o : opts) : list string :=
  long_long o (xxh3 o
    (["XXH128"; "XXH3_generateSecret"; "XXH3_generateSecret_fromSeed"; "XXH3_64bits_withSecretandSeed"; "XXH3_128bits_withSecretandSeed"] ++
     stream o ["XXH3_64bits_reset_withSecretandSeed"; "XXH3_128bits_reset_withSecretandSeed"])).
(** the functions defined by the implementation part: xxhash.h:2846-7065 *)
Definition defined_functions (o : opts) : list string :=
  ["XXH_versionNumber"; "XXH32"] ++
  stream o ["XXH32_createState"; "XXH32_freeState"; "XXH32_copyState"; "XXH32_reset"; "XXH32_update"; "XXH32_digest"] ++
  ["XXH32_canonicalFromHash"; "XXH32_hashFromCanonical"] ++
  long_long o
    (["XXH64"] ++
     stream o ["XXH64_createState"; "XXH64_freeState"; "XXH64_copyState"; "XXH64_reset"; "XXH64_update"; "XXH64_digest"] ++
     ["XXH64_canonicalFromHash"; "XXH64_hashFromCanonical"] ++
     xxh3 o
       (["XXH3_64bits"; "XXH3_64bits_withSecret"; "XXH3_64bits_withSeed"; "XXH3_64bits_withSecretandSeed"] ++
        stream o ["XXH3_createState"; "XXH3_freeState"; "XXH3_copyState"; "XXH3_64bits_reset"; "XXH3_64bits_reset_withSecret";
                  "XXH3_64bits_reset_withSeed"; "XXH3_64bits_reset_withSecretandSeed"; "XXH3_64bits_update"; "XXH3_64bits_digest"] ++
        ["XXH3_128bits"; "XXH3_128bits_withSecret"; "XXH3_128bits_withSeed"; "XXH3_128bits_withSecretandSeed"; "XXH128"] ++
        stream o ["XXH3_128bits_reset"; "XXH3_128bits_reset_withSecret"; "XXH3_128bits_reset_withSeed";
                  "XXH3_128bits_reset_withSecretandSeed"; "XXH3_128bits_update"; "XXH3_128bits_digest"] ++
        ["XXH128_isEqual"; "XXH128_cmp"; "XXH128_canonicalFromHash"; "XXH128_hashFromCanonical"; "XXH3_generateSecret";
         "XXH3_generateSecret_fromSeed"])).
(** the new types and enumerators of the stable part: xxhash.h:572-575, 653, 754-756, 927, 1028, 1226, 1365-1368, 1588 *)
Definition stable_types (o : opts) : list string :=
  ["XXH_OK"; "XXH_ERROR"; "XXH_errorcode"] ++ stream o ["XXH32_state_t"] ++ ["XXH32_canonical_t"] ++
  long_long o
    (stream o ["XXH64_state_t"] ++ ["XXH64_canonical_t"] ++
     xxh3 o (stream o ["XXH3_state_t"] ++ ["XXH128_hash_t"; "XXH128_canonical_t"])).
(** the integer types: xxhash.h:580-609, 860-884 *)
Definition int_types (o : opts) : list string := ["XXH32_hash_t"] ++ long_long o ["XXH64_hash_t"].
(** the structs of the part for static linking: xxhash.h:1655-1662, 1679-1686, 1753-1780 *)
Definition static_types (o : opts) : list string := ["XXH32_state_s"] ++ long_long o (["XXH64_state_s"] ++ xxh3 o ["XXH3_state_s"]).

(** the function names that XXH_INLINE_ALL undefines: xxhash.h:359-408 *)
Definition undefined_names : list string :=
  ["XXH_versionNumber";
   "XXH32"; "XXH32_createState"; "XXH32_freeState"; "XXH32_reset"; "XXH32_update"; "XXH32_digest"; "XXH32_copyState";
   "XXH32_canonicalFromHash"; "XXH32_hashFromCanonical";
   "XXH64"; "XXH64_createState"; "XXH64_freeState"; "XXH64_reset"; "XXH64_update"; "XXH64_digest"; "XXH64_copyState";
   "XXH64_canonicalFromHash"; "XXH64_hashFromCanonical";
   "XXH3_64bits"; "XXH3_64bits_withSecret"; "XXH3_64bits_withSeed"; "XXH3_64bits_withSecretandSeed"; "XXH3_createState";
   "XXH3_freeState"; "XXH3_copyState"; "XXH3_64bits_reset"; "XXH3_64bits_reset_withSeed"; "XXH3_64bits_reset_withSecret";
   "XXH3_64bits_update"; "XXH3_64bits_digest"; "XXH3_generateSecret";
   "XXH128"; "XXH3_128bits"; "XXH3_128bits_withSeed"; "XXH3_128bits_withSecret"; "XXH3_128bits_reset";
   "XXH3_128bits_reset_withSeed"; "XXH3_128bits_reset_withSecret"; "XXH3_128bits_reset_withSecretandSeed"; "XXH3_128bits_update";
   "XXH3_128bits_digest"; "XXH128_isEqual"; "XXH128_cmp"; "XXH128_canonicalFromHash"; "XXH128_hashFromCanonical"].
(** the function names that get the prefix XXH_NAMESPACE: xxhash.h:462-514 *)
Definition prefixed_names : list string :=
  ["XXH_versionNumber";
   "XXH32"; "XXH32_createState"; "XXH32_freeState"; "XXH32_reset"; "XXH32_update"; "XXH32_digest"; "XXH32_copyState";
   "XXH32_canonicalFromHash"; "XXH32_hashFromCanonical";
   "XXH64"; "XXH64_createState"; "XXH64_freeState"; "XXH64_reset"; "XXH64_update"; "XXH64_digest"; "XXH64_copyState";
   "XXH64_canonicalFromHash"; "XXH64_hashFromCanonical";
   "XXH3_64bits"; "XXH3_64bits_withSecret"; "XXH3_64bits_withSeed"; "XXH3_64bits_withSecretandSeed"; "XXH3_createState";
   "XXH3_freeState"; "XXH3_copyState"; "XXH3_64bits_reset"; "XXH3_64bits_reset_withSeed"; "XXH3_64bits_reset_withSecret";
   "XXH3_64bits_reset_withSecretandSeed"; "XXH3_64bits_update"; "XXH3_64bits_digest"; "XXH3_generateSecret";
   "XXH3_generateSecret_fromSeed";
   "XXH128"; "XXH3_128bits"; "XXH3_128bits_withSeed"; "XXH3_128bits_withSecret"; "XXH3_128bits_withSecretandSeed";
   "XXH3_128bits_reset"; "XXH3_128bits_reset_withSeed"; "XXH3_128bits_reset_withSecret"; "XXH3_128bits_reset_withSecretandSeed";
   "XXH3_128bits_update"; "XXH3_128bits_digest"; "XXH128_isEqual"; "XXH128_cmp"; "XXH128_canonicalFromHash"; "XXH128_hashFromCanonical"].
(** the types and enumerators that XXH_INLINE_ALL renames: xxhash.h:422-434 *)
Definition renamed_types : list string :=
  ["XXH_OK"; "XXH_ERROR"; "XXH_errorcode"; "XXH32_canonical_t"; "XXH64_canonical_t"; "XXH128_canonical_t"; "XXH32_state_s";
   "XXH32_state_t"; "XXH64_state_s"; "XXH64_state_t"; "XXH3_state_s"; "XXH3_state_t"; "XXH128_hash_t"].

(** ** The state of the preprocessor *)
(** what the name of a function or of a type is defined to: XXH_NAME2(XXH_NAMESPACE, name), which takes the namespace of the place
    where it is used (xxhash.h:460-461); XXH_IPREF(name), whose ## is applied before XXH_NAMESPACE is replaced (xxhash.h:421); or
    another name (xxh_x86dispatch.h:63-81) *)
Inductive macro := Prefixed | Pasted | Renamed (n : string).
Record unit := Unit {
  STATIC : bool; INLINE : bool; PRIVATE : bool; IMPL : bool;            (* XXH_STATIC_LINKING_ONLY, XXH_INLINE_ALL, XXH_PRIVATE_API, XXH_IMPLEMENTATION *)
  NAMESPACE : option string;                                            (* XXH_NAMESPACE *)
  API : option linkage;                                                 (* XXH_PUBLIC_API *)
  g_inline : bool; g_stable : bool; g_static : bool; g_impl : bool;     (* XXH_INLINE_ALL_31684351384, XXHASH_H_5627135585666179, XXHASH_H_STATIC_13879238742, XXH_IMPLEM_13a8737387 *)
  g_dispatch : bool;                                                    (* XXH_X86DISPATCH_H_13563687684 *)
  macros : string -> option macro;
  clash : bool;                                                         (* a macro was defined anew to something else: an error *)
  decls : list decl }.

Definition mem (n : string) (l : list string) : bool := existsb (String.eqb n) l.
Definition undef (l : list string) (m : string -> option macro) : string -> option macro := fun n => if mem n l then None else m n.
Definition macro_eqb (a b : macro) : bool :=
  match a, b with Prefixed, Prefixed | Pasted, Pasted => true | Renamed x, Renamed y => String.eqb x y | _, _ => false end.
(** #define of all of [l]; whether one of them was already defined to something else *)
Definition define (b : macro) (l : list string) (m : string -> option macro) : string -> option macro := fun n => if mem n l then Some b else m n.
Definition clashes (b : macro) (l : list string) (m : string -> option macro) : bool :=
  existsb (fun n => match m n with Some a => negb (macro_eqb a b) | None => false end) l.
(** the identifier that a written name stands for *)
Definition expand (u : unit) (n : string) : string * string :=
  match macros u n with
  | None => ("", n)
  | Some Prefixed => (match NAMESPACE u with Some p => p | None => "XXH_NAMESPACE" end, n)
  | Some Pasted => ("XXH_NAMESPACE", n)
  | Some (Renamed x) => ("", x)
  end.
Definition declare (u : unit) (w : what) (n : string) : decl := Decl (fst (expand u n)) (snd (expand u n)) w.
Definition api (u : unit) : linkage := match API u with Some l => l | None => Extern end.
Definition add (l : list decl) (u : unit) : unit :=
  Unit (STATIC u) (INLINE u) (PRIVATE u) (IMPL u) (NAMESPACE u) (API u) (g_inline u) (g_stable u) (g_static u) (g_impl u) (g_dispatch u) (macros u) (clash u) (decls u ++ l).

(** ** xxhash.h *)
(** XXH_INLINE_ALL: xxhash.h:326-438 *)
Definition inline_part (u : unit) : unit :=
  if (INLINE u || PRIVATE u) && negb (g_inline u)
  then let m := undef undefined_names (macros u) in
       Unit true (INLINE u) (PRIVATE u) (IMPL u) (Some "XXH_INLINE_") (Some Static) true false false (g_impl u) (g_dispatch u)
            (define Pasted renamed_types m) (clash u || clashes Pasted renamed_types m) (decls u)
  else u.
(** the stable part: xxhash.h:443-1623 *)
Definition stable_part (o : opts) (u : unit) : unit :=
  if g_stable u then u
  else
    let A := if INLINE u || PRIVATE u then API u else Some Extern in
    let c := negb (INLINE u || PRIVATE u) && match API u with Some Static => true | _ => false end in
    let named := match NAMESPACE u with Some _ => true | None => false end in
    let u := Unit (STATIC u) (INLINE u) (PRIVATE u) (IMPL u) (NAMESPACE u) A (g_inline u) true (g_static u) (g_impl u) (g_dispatch u)
                  (if named then define Prefixed prefixed_names (macros u) else macros u)
                  (clash u || c || (named && clashes Prefixed prefixed_names (macros u))) (decls u) in
    add (map (declare u New_type) (stable_types o) ++ map (declare u Int_type) (int_types o) ++
         map (declare u (Fun (api u) false)) (stable_functions o)) u.
(** the part for static linking: xxhash.h:1627-2041 *)
Definition static_part (o : opts) (u : unit) : unit :=
  if STATIC u && negb (g_static u)
  then add (map (declare u New_type) (static_types o) ++ map (declare u (Fun (api u) false)) (static_functions o))
         (Unit (STATIC u) (INLINE u) (PRIVATE u) (IMPL u || INLINE u || PRIVATE u) (NAMESPACE u) (API u) (g_inline u) (g_stable u) true (g_impl u)
               (g_dispatch u) (macros u) (clash u) (decls u))
  else u.
(** the implementation part: xxhash.h:2071-7083 *)
Definition impl_part (o : opts) (u : unit) : unit :=
  if (INLINE u || PRIVATE u || IMPL u) && negb (g_impl u)
  then add (map (declare u (Fun (api u) true)) (defined_functions o))
         (Unit (STATIC u) (INLINE u) (PRIVATE u) (IMPL u) (NAMESPACE u) (API u) (g_inline u) (g_stable u) (g_static u) true
               (g_dispatch u) (macros u) (clash u) (decls u))
  else u.
(** #include "xxhash.h" *)
Definition include_xxhash (o : opts) (u : unit) : unit := impl_part o (static_part o (stable_part o (inline_part u))).

(** ** xxh_x86dispatch.h *)
(** the functions it declares: xxh_x86dispatch.h:44-52 *)
Definition dispatch_functions : list string :=
  ["XXH3_64bits_dispatch"; "XXH3_64bits_withSeed_dispatch"; "XXH3_64bits_withSecret_dispatch"; "XXH3_64bits_update_dispatch";
   "XXH3_128bits_dispatch"; "XXH3_128bits_withSeed_dispatch"; "XXH3_128bits_withSecret_dispatch"; "XXH3_128bits_update_dispatch"].
(** the names it replaces: xxh_x86dispatch.h:63-81 *)
Definition replacements : list (string * string) :=
  [("XXH3_64bits", "XXH3_64bits_dispatch"); ("XXH3_64bits_withSeed", "XXH3_64bits_withSeed_dispatch");
   ("XXH3_64bits_withSecret", "XXH3_64bits_withSecret_dispatch"); ("XXH3_64bits_update", "XXH3_64bits_update_dispatch");
   ("XXH128", "XXH3_128bits_withSeed_dispatch"); ("XXH3_128bits", "XXH3_128bits_dispatch");
   ("XXH3_128bits_withSeed", "XXH3_128bits_withSeed_dispatch"); ("XXH3_128bits_withSecret", "XXH3_128bits_withSecret_dispatch");
   ("XXH3_128bits_update", "XXH3_128bits_update_dispatch")].
Definition replacement (n : string) : option string := option_map snd (find (fun r => String.eqb n (fst r)) replacements).
(** #include "xxh_x86dispatch.h": lines 35-85; [disable]: XXH_DISPATCH_DISABLE_REPLACE *)
Definition include_dispatch (disable : bool) (o : opts) (u : unit) : unit :=
  if g_dispatch u then u
  else
    let u := include_xxhash o u in
    let u := add (map (declare u (Fun (api u) false)) dispatch_functions) u in
    Unit (STATIC u) (INLINE u) (PRIVATE u) (IMPL u) (NAMESPACE u) (API u) (g_inline u) (g_stable u) (g_static u) (g_impl u) true
         (if disable then macros u else fun n => match replacement n with Some x => Some (Renamed x) | None => macros u n end)
         (clash u) (decls u).

(** ** A translation unit *)
(** the lines of a unit that matter here *)
Inductive line := Set_static (b : bool) | Set_inline (b : bool) | Set_private (b : bool) | Set_impl (b : bool)   (* #define or #undef *)
  | Include | Include_dispatch (disable : bool).
Definition step (o : opts) (u : unit) (l : line) : unit :=
  let set s i p m := Unit s i p m (NAMESPACE u) (API u) (g_inline u) (g_stable u) (g_static u) (g_impl u) (g_dispatch u) (macros u) (clash u) (decls u) in
  match l with
  | Set_static b => set b (INLINE u) (PRIVATE u) (IMPL u)
  | Set_inline b => set (STATIC u) b (PRIVATE u) (IMPL u)
  | Set_private b => set (STATIC u) (INLINE u) b (IMPL u)
  | Set_impl b => set (STATIC u) (INLINE u) (PRIVATE u) b
  | Include => include_xxhash o u
  | Include_dispatch d => include_dispatch d o u
  end.
(** a unit compiled with -DXXH_NAMESPACE=ns, or without *)
Definition start (ns : option string) : unit := Unit false false false false ns None false false false false false (fun _ => None) false nil.
Definition compile (o : opts) (ns : option string) (ls : list line) : unit := fold_left (step o) ls (start ns).
(** xxhash.c:39-42 *)
Definition xxhash_c : list line := [Set_static true; Set_impl true; Include].
(** xxh3.h:54-55 *)
Definition xxh3_h : list line := [Set_inline true; Include].
(** the functions xxh_x86dispatch.c defines besides, without XXH_PUBLIC_API: xxh_x86dispatch.c:741, 756, 771, 777, 801, 816, 831, 837;
    it includes xxhash.h with XXH_INLINE_ALL (229-231) *)
Definition dispatch_c (o : opts) (ns : option string) : unit :=
  let u := compile o ns [Set_inline true; Include] in add (map (declare u (Fun Extern true)) dispatch_functions) u.
End Inc.
