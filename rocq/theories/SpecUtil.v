(** Specification of the canonical representation (xxhash.h:199-240: big endian) and of the secret
    generators (xxhash.h:1860-1932), byte by byte. *)
From Verif Require Import Base Spec32 Spec3.
Module Util.
Definition tab (n : Z) (f : Z -> Z) : list Z := map f (upto n).
(** the [n]-byte big-endian and little-endian writings of [x] *)
Definition be (n x : Z) : list Z := tab n (fun i => x / 2 ^ (8 * (n - 1 - i)) mod 2 ^ 8).
Definition le (n x : Z) : list Z := tab n (fun i => x / 2 ^ (8 * i) mod 2 ^ 8).
(** a 128-bit value is the pair (low, high) *)
Definition val128 (h : Z * Z) : Z := fst h + 2 ^ 64 * snd h.

(** byte [i] of the secret of [size] bytes generated from [seed] (the default secret stands for an empty seed):
    the seed repeated, mixed with a hash of the seed's hash per 16-byte segment, the last 16 bytes being
    mixed with the seed's hash too *)
Definition generateSecret (size : Z) (seed : list Z) : list Z :=
  let seed := if len seed =? 0 then X3.default_secret else seed in
  let h := X3.XXH3_128 seed in
  tab size (fun i =>
    Z.lxor
      (Z.lxor (X3.byte seed (i mod len seed))
              (if i / 16 <? size / 16 then X3.byte (le 16 (val128 (X3.XXH3_128_withSeed (i / 16) (be 16 (val128 h))))) (i mod 16) else 0))
      (if size - 16 <=? i then X3.byte (le 16 (val128 h)) (i - (size - 16)) else 0)).
End Util.
