(** Independent specification of XXH3 (64 and 128 bits), transcribed from doc/xxhash_spec.md:335-790. *)
From Verif Require Export Spec64.

Module X3.
Definition W := 2 ^ 64.
Definition P32_1 := 0x9E3779B1.
Definition P32_2 := 0x85EBCA77.
Definition P32_3 := 0xC2B2AE3D.
Definition P1 := 0x9E3779B185EBCA87.
Definition P2 := 0xC2B2AE3D27D4EB4F.
Definition P3 := 0x165667B19E3779F9.
Definition P4 := 0x85EBCA77C2B2AE63.
Definition P5 := 0x27D4EB2F165667C5.
Definition MX1 := 0x165667919E3779F9.
Definition MX2 := 0x9FB21C651E98DF25.

(** default secret, as 24 little-endian 64-bit words (doc/xxhash_spec.md:370-384) *)
Definition default_words : list Z :=
  [0xbe4ba423396cfeb8; 0x1cad21f72c81017c; 0xdb979083e96dd4de; 0x1f67b3b7a4a44072;
   0x78e5c0cc4ee679cb; 0x2172ffcc7dd05a82; 0x8e2443f7744608b8; 0x4c263a81e69035e0;
   0xcb00c391bb52283c; 0xa32e531b8b65d088; 0x4ef90da297486471; 0xd8acdea946ef1938;
   0x3f349ce33f76faa8; 0x1d4f0bc7c7bbdcf9; 0x3159b4cd4be0518a; 0x647378d9c97e9fc8;
   0xc3ebd33483acc5ea; 0xeb6313faffa081c5; 0x49daf0b751dd0d17; 0x9e68d429265516d3;
   0xfca1477d58be162b; 0xce31d07ad1b8f88f; 0x280416958f3acb45; 0x7e404bbbcafbd7af].
(** the 8 bytes of a word, least significant first *)
Definition bytes8 (x : Z) : list Z := map (fun i => x / 2 ^ (8 * i) mod 2 ^ 8) (upto 8).
Definition bytes_of (ws : list Z) : list Z := concat (map bytes8 ws).
Definition default_secret : list Z := bytes_of default_words.
(** derived secret: even words + seed, odd words - seed *)
Definition deriveSecret (seed : Z) : list Z :=
  bytes_of (map (fun iw => if Z.even (fst iw) then (snd iw + seed) mod W else (snd iw - seed) mod W)
                (combine (upto 24) default_words)).

(** 32-bit and 64-bit little-endian values at a byte offset *)
Definition rd4 (s : list Z) (o : Z) : Z := LE (seg s o (o + 4)).
Definition rd8 (s : list Z) (o : Z) : Z := LE (seg s o (o + 8)).
Definition byte (s : list Z) (i : Z) : Z := LE (seg s i (i + 1)).

(** halves of a 64-bit and of a 128-bit value *)
Definition lo32 (x : Z) := x mod 2 ^ 32.
Definition hi32 (x : Z) := x / 2 ^ 32.
Definition lo64 (x : Z) := x mod W.
Definition hi64 (x : Z) := x / W.
Definition fold128 (x : Z) := Z.lxor (lo64 x) (hi64 x).

(** byte order reversal of a [n]-byte value *)
Definition bswap (n x : Z) : Z := LE (rev (map (fun i => x / 2 ^ (8 * i) mod 2 ^ 8) (upto n))).

Definition avalanche (x : Z) : Z :=
  let x := xorshift x 37 in
  let x := (x * MX1) mod W in
  xorshift x 32.
Definition avalanche_XXH64 : Z -> Z := X64.avalanche.

(** *** small inputs *)
Definition empty64 (secret : list Z) (seed : Z) : Z :=
  avalanche_XXH64 (Z.lxor seed (Z.lxor (rd8 secret 56) (rd8 secret 64))).
Definition empty128 (secret : list Z) (seed : Z) : Z * Z :=
  (avalanche_XXH64 (Z.lxor seed (Z.lxor (rd8 secret 64) (rd8 secret 72))),
   avalanche_XXH64 (Z.lxor seed (Z.lxor (rd8 secret 80) (rd8 secret 88)))).

Definition combined (m : list Z) : Z :=
  byte m (len m - 1) + len m * 2 ^ 8 + byte m 0 * 2 ^ 16 + byte m (len m / 2) * 2 ^ 24.
Definition small1to3_low (secret : list Z) (seed : Z) (m : list Z) : Z :=
  avalanche_XXH64 (Z.lxor ((Z.lxor (rd4 secret 0) (rd4 secret 4) + seed) mod W) (combined m)).
Definition h1to3_64 := small1to3_low.
Definition h1to3_128 (secret : list Z) (seed : Z) (m : list Z) : Z * Z :=
  (small1to3_low secret seed m,
   avalanche_XXH64 (Z.lxor ((Z.lxor (rd4 secret 8) (rd4 secret 12) - seed) mod W)
                           (rol 32 (bswap 4 (combined m)) 13))).

Definition modifiedSeed (seed : Z) : Z := Z.lxor seed (bswap 4 (lo32 seed) * 2 ^ 32).
Definition h4to8_64 (secret : list Z) (seed : Z) (m : list Z) : Z :=
  let first := rd4 m 0 in let last := rd4 m (len m - 4) in
  let v := Z.lxor ((Z.lxor (rd8 secret 8) (rd8 secret 16) - modifiedSeed seed) mod W) (last + first * 2 ^ 32) in
  let v := Z.lxor v (Z.lxor (rol 64 v 49) (rol 64 v 24)) in
  let v := (v * MX2) mod W in
  let v := Z.lxor v ((shift_right v 35 + len m) mod W) in
  let v := (v * MX2) mod W in
  xorshift v 28.
Definition h4to8_128 (secret : list Z) (seed : Z) (m : list Z) : Z * Z :=
  let first := rd4 m 0 in let last := rd4 m (len m - 4) in
  let v := Z.lxor ((Z.lxor (rd8 secret 16) (rd8 secret 24) + modifiedSeed seed) mod W) (first + last * 2 ^ 32) in
  let p := v * (P1 + 4 * len m) in
  let high := (hi64 p + 2 * lo64 p) mod W in
  let low := Z.lxor (lo64 p) (shift_right high 3) in
  let low := xorshift low 35 in
  let low := (low * MX2) mod W in
  (xorshift low 28, avalanche high).

Definition h9to16_64 (secret : list Z) (seed : Z) (m : list Z) : Z :=
  let first := rd8 m 0 in let last := rd8 m (len m - 8) in
  let low := Z.lxor ((Z.lxor (rd8 secret 24) (rd8 secret 32) + seed) mod W) first in
  let high := Z.lxor ((Z.lxor (rd8 secret 40) (rd8 secret 48) - seed) mod W) last in
  avalanche ((len m + bswap 8 low + high + fold128 (low * high)) mod W).
Definition h9to16_128 (secret : list Z) (seed : Z) (m : list Z) : Z * Z :=
  let first := rd8 m 0 in let last := rd8 m (len m - 8) in
  let v1 := Z.lxor (Z.lxor ((Z.lxor (rd8 secret 32) (rd8 secret 40) - seed) mod W) first) last in
  let v2 := Z.lxor ((Z.lxor (rd8 secret 48) (rd8 secret 56) + seed) mod W) last in
  let p := v1 * P1 in
  let low := (lo64 p + (len m - 1) * 2 ^ 54) mod W in
  let high := (hi64 p + hi32 v2 * 2 ^ 32 + lo32 v2 * P32_2) mod W in
  let low := Z.lxor low (bswap 8 high) in
  let q := low * P2 in
  (avalanche (lo64 q), avalanche ((hi64 q + high * P2) mod W)).

(** *** medium inputs *)
Definition mixStep (secret : list Z) (data : list Z) (off seed : Z) : Z :=
  fold128 (Z.lxor (rd8 data 0) ((rd8 secret off + seed) mod W) * Z.lxor (rd8 data 8) ((rd8 secret (off + 8) - seed) mod W)).
Definition mixTwoChunks (secret : list Z) (acc : Z * Z) (d1 d2 : list Z) (off seed : Z) : Z * Z :=
  (Z.lxor ((fst acc + mixStep secret d1 off seed) mod W) ((rd8 d2 0 + rd8 d2 8) mod W),
   Z.lxor ((snd acc + mixStep secret d2 (off + 16) seed) mod W) ((rd8 d1 0 + rd8 d1 8) mod W)).
Definition chunk (m : list Z) (o : Z) : list Z := seg m o (o + 16).

(** rounds from n-1 down to 0 *)
Definition down (n : Z) : list Z := rev (upto n).

Definition mid17to128_64 (secret : list Z) (seed : Z) (m : list Z) : Z :=
  let n := (len m - 1) / 32 + 1 in
  fold_left (fun acc i => (acc + mixStep secret (chunk m (16 * i)) (32 * i) seed
                               + mixStep secret (chunk m (len m - 16 * i - 16)) (32 * i + 16) seed) mod W)
            (down n) ((len m * P1) mod W).
Definition mid17to128_128 (secret : list Z) (seed : Z) (m : list Z) : Z * Z :=
  let n := (len m - 1) / 32 + 1 in
  fold_left (fun acc i => mixTwoChunks secret acc (chunk m (16 * i)) (chunk m (len m - 16 * i - 16)) (32 * i) seed)
            (down n) ((len m * P1) mod W, 0).

Definition mid129to240_64 (secret : list Z) (seed : Z) (m : list Z) : Z :=
  let n := len m / 16 in
  let acc := fold_left (fun acc i => (acc + mixStep secret (chunk m (16 * i)) (16 * i) seed) mod W) (upto 8)
                       ((len m * P1) mod W) in
  let acc := avalanche acc in
  let acc := fold_left (fun acc j => (acc + mixStep secret (chunk m (16 * (8 + j))) (16 * j + 3) seed) mod W)
                       (upto (n - 8)) acc in
  (acc + mixStep secret (chunk m (len m - 16)) 119 seed) mod W.
Definition mid129to240_128 (secret : list Z) (seed : Z) (m : list Z) : Z * Z :=
  let n := len m / 32 in
  let acc := fold_left (fun acc i => mixTwoChunks secret acc (chunk m (32 * i)) (chunk m (32 * i + 16)) (32 * i) seed)
                       (upto 4) ((len m * P1) mod W, 0) in
  let acc := (avalanche (fst acc), avalanche (snd acc)) in
  let acc := fold_left (fun acc j => mixTwoChunks secret acc (chunk m (32 * (4 + j))) (chunk m (32 * (4 + j) + 16))
                                       (32 * j + 3) seed) (upto (n - 4)) acc in
  mixTwoChunks secret acc (chunk m (len m - 16)) (chunk m (len m - 32)) 103 ((0 - seed) mod W).

Definition mid64 (acc : Z) : Z := avalanche acc.
Definition mid128 (acc : Z * Z) (L seed : Z) : Z * Z :=
  (avalanche ((fst acc + snd acc) mod W),
   (0 - avalanche ((fst acc * P1 + snd acc * P4 + (L - seed) * P2) mod W)) mod W).

(** inputs of at most 240 bytes *)
Definition short64 (secret : list Z) (seed : Z) (m : list Z) : Z :=
  let L := len m in
  if L =? 0 then empty64 secret seed
  else if L <=? 3 then h1to3_64 secret seed m
  else if L <=? 8 then h4to8_64 secret seed m
  else if L <=? 16 then h9to16_64 secret seed m
  else if L <=? 128 then mid64 (mid17to128_64 secret seed m)
  else mid64 (mid129to240_64 secret seed m).
Definition short128 (secret : list Z) (seed : Z) (m : list Z) : Z * Z :=
  let L := len m in
  if L =? 0 then empty128 secret seed
  else if L <=? 3 then h1to3_128 secret seed m
  else if L <=? 8 then h4to8_128 secret seed m
  else if L <=? 16 then h9to16_128 secret seed m
  else if L <=? 128 then mid128 (mid17to128_128 secret seed m) L seed
  else mid128 (mid129to240_128 secret seed m) L seed.

(** *** large inputs *)
Definition init_acc : list Z := [P32_3; P1; P2; P3; P4; P32_2; P5; P32_1].
Definition nth0 (l : list Z) (i : Z) : Z := nth (Z.to_nat i) l 0.

(** accumulate one 64-byte stripe with the secret at [off]: lane i receives its own product and the
    neighbour's input word *)
Definition accumulate (secret : list Z) (acc : list Z) (stripe : list Z) (off : Z) : list Z :=
  map (fun i =>
         let v := Z.lxor (rd8 stripe (8 * i)) (rd8 secret (off + 8 * i)) in
         let j := if Z.even i then i + 1 else i - 1 in
         (nth0 acc i + rd8 stripe (8 * j) + lo32 v * hi32 v) mod W) (upto 8).
Definition scramble (secret : list Z) (acc : list Z) : list Z :=
  map (fun i => (Z.lxor (xorshift (nth0 acc i) 47) (rd8 secret (len secret - 64 + 8 * i)) * P32_1) mod W) (upto 8).

Definition stripesPerBlock (secret : list Z) : Z := (len secret - 64) / 8.
(** accumulate [n] stripes of a block starting at byte [o] *)
Definition accumulate_stripes (secret : list Z) (m : list Z) (o n : Z) (acc : list Z) : list Z :=
  fold_left (fun a k => accumulate secret a (seg m (o + 64 * k) (o + 64 * k + 64)) (8 * k)) (upto n) acc.
Definition round (secret : list Z) (m : list Z) (o : Z) (acc : list Z) : list Z :=
  scramble secret (accumulate_stripes secret m o (stripesPerBlock secret) acc).

Definition large_acc (secret : list Z) (m : list Z) : list Z :=
  let B := 64 * stripesPerBlock secret in
  let L := len m in
  let nb := (L - 1) / B in
  let acc := fold_left (fun a b => round secret m (B * b) a) (upto nb) init_acc in
  let acc := accumulate_stripes secret m (B * nb) ((L - B * nb - 1) / 64) acc in
  accumulate secret acc (seg m (L - 64) L) (len secret - 71).

Definition finalMerge (secret : list Z) (acc : list Z) (init off : Z) : Z :=
  avalanche (fold_left (fun r i => (r + fold128 (Z.lxor (nth0 acc (2 * i)) (rd8 secret (off + 16 * i)) *
                                                 Z.lxor (nth0 acc (2 * i + 1)) (rd8 secret (off + 16 * i + 8)))) mod W)
                       (upto 4) init).

Definition large64 (secret : list Z) (m : list Z) : Z :=
  finalMerge secret (large_acc secret m) ((len m * P1) mod W) 11.
Definition large128 (secret : list Z) (m : list Z) : Z * Z :=
  (finalMerge secret (large_acc secret m) ((len m * P1) mod W) 11,
   finalMerge secret (large_acc secret m) (W - 1 - (len m * P2) mod W) (len secret - 75)).

(** *** the public variants (doc/xxhash_spec.md:386-402) *)
Definition hash64 (short_secret : list Z) (seed : Z) (large_secret : list Z) (m : list Z) : Z :=
  if len m <=? 240 then short64 short_secret seed m else large64 large_secret m.
Definition hash128 (short_secret : list Z) (seed : Z) (large_secret : list Z) (m : list Z) : Z * Z :=
  if len m <=? 240 then short128 short_secret seed m else large128 large_secret m.

Definition XXH3_64 (m : list Z) := hash64 default_secret 0 default_secret m.
Definition XXH3_64_withSeed (seed : Z) (m : list Z) := hash64 default_secret seed (deriveSecret seed) m.
Definition XXH3_64_withSecret (secret : list Z) (m : list Z) := hash64 secret 0 secret m.
Definition XXH3_64_withSecretandSeed (secret : list Z) (seed : Z) (m : list Z) := hash64 default_secret seed secret m.
Definition XXH3_128 (m : list Z) := hash128 default_secret 0 default_secret m.
Definition XXH3_128_withSeed (seed : Z) (m : list Z) := hash128 default_secret seed (deriveSecret seed) m.
Definition XXH3_128_withSecret (secret : list Z) (m : list Z) := hash128 secret 0 secret m.
Definition XXH3_128_withSecretandSeed (secret : list Z) (seed : Z) (m : list Z) := hash128 default_secret seed secret m.
End X3.
