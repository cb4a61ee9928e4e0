(** Model of the hash functions the collision tester knows (tests/collisions/hashes.h, allcodecs/dummy.c). *)
From Verif Require Import Base Mem M_XXH32 M_XXH64 M_XXH3 M_Kernels M_Long.

(** badsum32: allcodecs/dummy.c:30-38 *)
Definition badsum32 (input : list Z) (seed : Z) : Z := fold_left (fun sum b => add32 sum b) input seed.
(** the entries of hashfnTable: hashes.h:117-125 *)
Inductive hashID := Xxh3 | Xxh64 | Xxh128 | Xxh128l | Xxh128h | Xxh32 | Badsum32.
Definition hash_bits (id : hashID) : Z := match id with Xxh128 => 128 | Xxh32 | Badsum32 => 32 | _ => 64 end.
(** the wrappers: hashes.h:64-101, applied to the sample, which lies at address [adr].  The result is
    (low64, high64) of the union; uniHash32 and uniHash64 (hashes.h:43-53) leave the high half unset, it is
    never read, 0 stands for it. *)
Definition wrapper (c : cfg) (adr : Z) (id : hashID) (data : list Z) : res (Z * Z) :=
  let p := Ptr data adr 0 in
  let size := zlen data in
  match id with
  | Xxh3 => let! h := XXH3_64bits c p size in OK (h, 0)
  | Xxh128 => XXH3_128bits c p size
  | Xxh128l => let! h := XXH3_128bits c p size in OK (fst h, 0)
  | Xxh128h => let! h := XXH3_128bits c p size in OK (snd h, 0)
  | Xxh64 => let! h := XXH64 c p size 0 in OK (h, 0)
  | Xxh32 => let! h := XXH32 c p size 0 in OK (h, 0)
  | Badsum32 => OK (badsum32 data 0, 0)
  end.
