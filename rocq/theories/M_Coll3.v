(** Model of the command line of the collision tester (tests/collisions/main.c:544-591, 623-667, 820-847, 880-904, 959-1148).

    A string is the list of its characters.  A failed assert is [UB], as in M_Coll.v.  What the program prints around the
    number of collisions is not modelled. *)
From Coq Require Import String.
From Verif Require Import Base Mem M_Cli M_Coll M_Coll2.
Import Coll.

Module CM.
Section Doubles.
(** the rounding of one floating-point product (used at main.c:559) *)
Variable rnd : Z -> Z.
(** estimateNbCollisions(nbH, nbBits) < target: main.c:546-560.  nbH and nbH - 1 are below 2^53 where this is used, so
    the conversions are exact; power gives a power of two, so the division is exact. *)
Definition estimate_below (nbH nbBits target : Z) : bool := rnd (nbH * (nbH - 1)) <? target * 2 ^ (nbBits + 1).
(** select_nbh: main.c:578-588 *)
Definition select_nbh (nbBits : Z) : res Z :=
  let! _ := assert_ (0 <? nbBits) in
  let nbBits := if 64 <? nbBits then 64 else nbBits in
  let targetColls := (128 + 17) - nbBits * 2 in
  while_ 64 (fun nbH => estimate_below nbH nbBits targetColls) (fun nbH => OK (mul64 nbH 2)) 24.
End Doubles.

(** isHighEqual: main.c:623-638; the table holds pairs (low64, high64) *)
Definition isHighEqual (bits : Z) (t : list (Z * Z)) (index1 index2 rShift : Z) : res bool :=
  let h1 := nth (Z.to_nat index1) t (0, 0) in
  let h2 := nth (Z.to_nat index2) t (0, 0) in
  if (bits =? 64) || (bits =? 32) then
    let! _ := assert_ ((0 <=? rShift) && (rShift <? 64)) in
    OK (shr (fst h1) rShift =? shr (fst h2) rShift)
  else
    let! _ := assert_ (64 <=? rShift) in
    let rShift := rShift - 64 in
    let! _ := assert_ ((0 <=? rShift) && (rShift <? 64)) in
    OK (shr (snd h1) rShift =? shr (snd h2) rShift).
(** the count of collisions over the high nbHBits bits: main.c:832-837 *)
Definition high_collisions (bits nbHBits : Z) (t : list (Z * Z)) : res Z :=
  let rShift := bits - nbHBits in
  for_ (length t - 1) 1 (fun n acc => let! e := isHighEqual bits t n (n - 1) rShift in OK (if e then acc + 1 else acc)) 0.

(** hashfnTable: hashes.h:117-125 *)
Definition hashfnTable : list (list Z * hashID) :=
  [ (str "xxh3", Xxh3); (str "xxh64", Xxh64); (str "xxh128", Xxh128); (str "xxh128l", Xxh128l); (str "xxh128h", Xxh128h);
    (str "xxh32", Xxh32); (str "badsum32", Badsum32) ].
(** the variables of main: main.c:1019-1025; hashID is kept as the entry of the table *)
Record settings := Settings { g_totalH : Z; g_bflog : Z; g_filter : bool; g_sampleSize : Z; g_hash : hashID; g_threadlog : Z; g_prngSeed : Z }.
(** SAMPLE_SIZE_DEFAULT, HASHFN_ID_DEFAULT: main.c:983-984 *)
Definition defaults : settings := Settings 0 0 false 256 Xxh3 0 0.
(** (int) of a 64-bit value: implementation-defined above INT_MAX; it wraps with the usual compilers (used at main.c:1032-1041) *)
Definition to_int (v : Z) : Z := (v + 2 ^ 31) mod 2 ^ 32 - 2 ^ 31.
(** !strcmp (used at main.c:1031-1047) *)
Fixpoint same (a b : list Z) : bool :=
  match a, b with [], [] => true | x :: a, y :: b => (x =? y) && same a b | _, _ => false end.
(** longCommandWArg: main.c:966-973; the rest of the argument, if it starts with the command *)
Definition longCommandWArg (arg longCommand : list Z) : option (list Z) :=
  if prefixb longCommand arg then Some (skipn (length longCommand) arg) else None.
(** the search of a name in the table: main.c:1044-1047 *)
Fixpoint lookup (tab : list (list Z * hashID)) (arg : list Z) : option hashID :=
  match tab with [] => None | (name, id) :: tab => if same arg name then Some id else lookup tab arg end.
(** [f(readU64FromChar(arg))]: main.c:1032-1041 *)
Definition with_u64 (arg : list Z) (f : Z -> res settings) : res (settings + Z) :=
  let! (v, _) := readU64FromChar arg in
  let! s := f v in
  OK (inl s).
(** one argument: main.c:1029-1049.  [inr code] leaves the program: -h and bad_argument (main.c:1006-1011) *)
Definition one_arg (c : cfg) (arg : list Z) (s : settings) : res (settings + Z) :=
  let set_threadlog v := OK (Settings (g_totalH s) (g_bflog s) (g_filter s) (g_sampleSize s) (g_hash s) (to_int v) (g_prngSeed s)) in
  let set_seed v := OK (Settings (g_totalH s) (g_bflog s) (g_filter s) (g_sampleSize s) (g_hash s) (g_threadlog s) v) in
  let set_nbh v := OK (Settings v (g_bflog s) (g_filter s) (g_sampleSize s) (g_hash s) (g_threadlog s) (g_prngSeed s)) in
  let set_filter v :=
    let bflog := to_int v in
    let! _ := assert_ (bflog <? 64) in
    OK (Settings (g_totalH s) bflog true (g_sampleSize s) (g_hash s) (g_threadlog s) (g_prngSeed s)) in
  let set_size v := OK (Settings (g_totalH s) (g_bflog s) (g_filter s) (usz c v) (g_hash s) (g_threadlog s) (g_prngSeed s)) in
  if same arg (str "-h") then OK (inr 0) else
  match longCommandWArg arg (str "-T") with Some a => with_u64 a set_threadlog | None =>
  if same arg (str "--filter") then OK (inl (Settings (g_totalH s) (g_bflog s) true (g_sampleSize s) (g_hash s) (g_threadlog s) (g_prngSeed s))) else
  if same arg (str "--no-filter") then OK (inl (Settings (g_totalH s) (g_bflog s) false (g_sampleSize s) (g_hash s) (g_threadlog s) (g_prngSeed s))) else
  match longCommandWArg arg (str "--seed") with Some a => with_u64 a set_seed | None =>
  match longCommandWArg arg (str "--nbh=") with Some a => with_u64 a set_nbh | None =>
  match longCommandWArg arg (str "--filter=") with Some a => with_u64 a set_filter | None =>
  match longCommandWArg arg (str "--filterlog=") with Some a => with_u64 a set_filter | None =>
  match longCommandWArg arg (str "--size=") with Some a => with_u64 a set_size | None =>
  match longCommandWArg arg (str "--len=") with Some a => with_u64 a set_size | None =>
  match longCommandWArg arg (str "--threadlog=") with Some a => with_u64 a set_threadlog | None =>
  match lookup hashfnTable arg with
  | Some id => OK (inl (Settings (g_totalH s) (g_bflog s) (g_filter s) (g_sampleSize s) id (g_threadlog s) (g_prngSeed s)))
  | None => OK (inr 1)
  end end end end end end end end end.
(** the loop over the arguments: main.c:1027-1050 *)
Fixpoint all_args (c : cfg) (args : list (list Z)) (s : settings) : res (settings + Z) :=
  match args with
  | [] => OK (inl s)
  | arg :: args => let! r := one_arg c arg s in
                   match r with inl s => all_args c args s | inr code => OK (inr code) end
  end.
(** how the program ends: with a status, having searched nothing or stopped by EXIT (main.c:72), or with status 0 after printing
    the number of collisions (main.c:890, 1133) *)
Inductive outcome := Status (code : Z) | Collisions (n : Z).
(** main: main.c:1014-1148, with time_collisions (880-898) and MT_searchCollisions (902-904).  [fresh] is the content of
    the memory malloc delivers, [adr] the address of the sample. *)
Definition main (c : cfg) (rnd : Z -> Z) (fresh : Z -> list Z) (junkIdx : list Z) (adr : Z) (strict : bool)
    (sort : list (Z * Z) -> list (Z * Z)) (args : list (list Z)) : res outcome :=
  let! r := all_args c args defaults in
  match r with
  | inr code => OK (Status code)
  | inl s =>
      let hwidth := hash_bits (g_hash s) in
      let! totalH := if g_totalH s =? 0 then select_nbh rnd hwidth else OK (g_totalH s) in
      let! n := found c (fresh (g_sampleSize s)) junkIdx strict (wrapper c adr (g_hash s)) hwidth sort
                  (Opts totalH (g_bflog s) (g_filter s) (g_sampleSize s) (g_threadlog s) (g_prngSeed s)) in
      OK (match n with None => Status 1 | Some n => Collisions n end)
  end.
End CM.
