(** Model of the canonical representation, the 128-bit comparison functions and the secret generators
    (xxhash.h:3220-3234, 3664-3678, 6946-6996 and 6999-7066). *)
From Verif Require Import Base Mem M_XXH32 M_XXH64 M_XXH3 M_Kernels M_Long.

(** XXH32_canonicalFromHash: xxhash.h:3224-3229; [dst] is the content of the 4-byte structure, the result its
    new content *)
Definition XXH32_canonicalFromHash (c : cfg) (dst : list Z) (hash : Z) : res (list Z) :=
  let hash := if cpu_le c then swap32 hash else hash in
  store dst 0 (native_bytes c 4 hash).
(** XXH32_hashFromCanonical: xxhash.h:3231-3234 *)
Definition XXH32_hashFromCanonical (c : cfg) (src : ptr) : res Z := readBE32 c src.

(** XXH64_canonicalFromHash: xxhash.h:3667-3672 *)
Definition XXH64_canonicalFromHash (c : cfg) (dst : list Z) (hash : Z) : res (list Z) :=
  let hash := if cpu_le c then swap64 hash else hash in
  store dst 0 (native_bytes c 8 hash).
(** XXH64_hashFromCanonical: xxhash.h:3675-3678 *)
Definition XXH64_hashFromCanonical (c : cfg) (src : ptr) : res Z := readBE64 c src.

(** a 128-bit hash is the pair (low64, high64): xxhash.h:1365-1368 *)
(** XXH128_canonicalFromHash: xxhash.h:6976-6986 *)
Definition XXH128_canonicalFromHash (c : cfg) (dst : list Z) (hash : Z * Z) : res (list Z) :=
  let '(low64, high64) := hash in
  let high64 := if cpu_le c then swap64 high64 else high64 in
  let low64 := if cpu_le c then swap64 low64 else low64 in
  let! dst := store dst 0 (native_bytes c 8 high64) in
  store dst 8 (native_bytes c 8 low64).
(** XXH128_hashFromCanonical: xxhash.h:6989-6996 *)
Definition XXH128_hashFromCanonical (c : cfg) (src : ptr) : res (Z * Z) :=
  let! high64 := readBE64 c src in
  let! low64 := readBE64 c (padd src 8) in
  OK (low64, high64).

(** memcmp of the C library: the sign of the first difference (as -1, 0, 1); used at xxhash.h:6948, 6955 *)
Fixpoint memcmp (a b : list Z) : Z :=
  match a, b with
  | x :: a, y :: b => if x <? y then -1 else if y <? x then 1 else memcmp a b
  | _, _ => 0
  end.
(** object representation of an XXH128_hash_t (xxhash.h:1365-1368; no padding): low64 then high64, in the CPU's byte order *)
Definition repr128 (c : cfg) (h : Z * Z) : list Z := native_bytes c 8 (fst h) ++ native_bytes c 8 (snd h).
(** XXH128_isEqual: xxhash.h:6952-6956 *)
Definition XXH128_isEqual (c : cfg) (h1 h2 : Z * Z) : Z :=
  if memcmp (repr128 c h1) (repr128 c h2) =? 0 then 1 else 0.
Definition gt_int (a b : Z) : Z := if b <? a then 1 else 0.
(** XXH128_cmp: xxhash.h:6963-6971 *)
Definition XXH128_cmp (h1 h2 : Z * Z) : Z :=
  let hcmp := gt_int (snd h1) (snd h2) - gt_int (snd h2) (snd h1) in
  if negb (hcmp =? 0) then hcmp
  else gt_int (fst h1) (fst h2) - gt_int (fst h2) (fst h1).

(** XXH3_combine16: xxhash.h:7006-7010; [dst] is the byte at index [o] of the block [b] at address [adr] *)
Definition combine16 (c : cfg) (b : list Z) (adr o : Z) (h128 : Z * Z) : res (list Z) :=
  let! x := readLE64 c (Ptr b adr o) in
  let! b := writeLE64 c b o (xor x (fst h128)) in
  let! y := readLE64 c (Ptr b adr (o + 8)) in
  writeLE64 c b (o + 8) (xor y (snd h128)).

(** the buffer is the part from [off] of a block [b] at address [adr]; the result is the new block.
    Simplification: the seed is a different object (memcpy forbids overlap). *)
(** the filling loop of XXH3_generateSecret: xxhash.h:7036-7041; state (block, pos) *)
Definition gen_fill (c : cfg) (b : list Z) (off secretSize : Z) (customSeed : ptr) (customSeedSize : Z) : res (list Z * Z) :=
  while_ (Z.to_nat secretSize)
    (fun s => let '(_, pos) := s in pos <? secretSize)
    (fun s =>
       let '(b, pos) := s in
       let toCopy := Z.min (usz c (secretSize - pos)) customSeedSize in
       let! data := load customSeed toCopy in
       let! b := store b (off + pos) data in
       OK (b, usz c (pos + toCopy)))
    (b, 0).
(** XXH3_generateSecret: xxhash.h:7013-7055 with XXH_DEBUGLEVEL = 0 (7020-7022, 7032) *)
Definition XXH3_generateSecret (c : cfg) (secretBuffer : ptr) (secretSize : Z) (customSeed : ptr) (customSeedSize : Z)
  : res (errorcode * list Z) :=
  match secretBuffer with
  | Null => OK (XXH_ERROR, [])
  | Ptr b adr off =>
      if secretSize <? SECRET_SIZE_MIN then OK (XXH_ERROR, b)
      else
        let '(customSeed, customSeedSize) := if customSeedSize =? 0 then (kSecret_ptr, 192) else (customSeed, customSeedSize) in
        if is_null customSeed then OK (XXH_ERROR, b)
        else
          let! (b, _) := gen_fill c b off secretSize customSeed customSeedSize in
          let nbSeg16 := secretSize / 16 in
          let! h := XXH128 c customSeed customSeedSize 0 in
          let! scrambler := XXH128_canonicalFromHash c (repeat 0 16) h in
          let! b := for_ (Z.to_nat nbSeg16) 0 (fun n b =>
              let! h128 := XXH128 c (Ptr scrambler 1 0) 16 n in
              combine16 c b adr (off + n * 16) h128) b in
          let! h := XXH128_hashFromCanonical c (Ptr scrambler 1 0) in
          let! b := combine16 c b adr (off + secretSize - 16) h in
          OK (XXH_OK, b)
  end.

(** XXH3_generateSecret_fromSeed: xxhash.h:7058-7065 *)
Definition XXH3_generateSecret_fromSeed (c : cfg) (secretBuffer : ptr) (seed : Z) : res (list Z) :=
  let! secret := initCustomSecret c (local_sec c) uninit_secret seed in
  match secretBuffer with
  | Null => UB
  | Ptr b adr off => store b off secret
  end.
