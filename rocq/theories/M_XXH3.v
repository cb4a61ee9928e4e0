(** Model of XXH3, part 1: constants, multiplication, and the 64-bit hash of at most 240 bytes
    (xxhash.h:4275-4795).  A 128-bit value XXH128_hash_t is a pair (low64, high64). *)
From Verif Require Import Base Mem M_XXH32 M_XXH64.

(** XXH3_kSecret: xxhash.h:4284-4297 *)
Definition kSecret : list Z := [
  0xb8; 0xfe; 0x6c; 0x39; 0x23; 0xa4; 0x4b; 0xbe; 0x7c; 0x01; 0x81; 0x2c; 0xf7; 0x21; 0xad; 0x1c;
  0xde; 0xd4; 0x6d; 0xe9; 0x83; 0x90; 0x97; 0xdb; 0x72; 0x40; 0xa4; 0xa4; 0xb7; 0xb3; 0x67; 0x1f;
  0xcb; 0x79; 0xe6; 0x4e; 0xcc; 0xc0; 0xe5; 0x78; 0x82; 0x5a; 0xd0; 0x7d; 0xcc; 0xff; 0x72; 0x21;
  0xb8; 0x08; 0x46; 0x74; 0xf7; 0x43; 0x24; 0x8e; 0xe0; 0x35; 0x90; 0xe6; 0x81; 0x3a; 0x26; 0x4c;
  0x3c; 0x28; 0x52; 0xbb; 0x91; 0xc3; 0x00; 0xcb; 0x88; 0xd0; 0x65; 0x8b; 0x1b; 0x53; 0x2e; 0xa3;
  0x71; 0x64; 0x48; 0x97; 0xa2; 0x0d; 0xf9; 0x4e; 0x38; 0x19; 0xef; 0x46; 0xa9; 0xde; 0xac; 0xd8;
  0xa8; 0xfa; 0x76; 0x3f; 0xe3; 0x9c; 0x34; 0x3f; 0xf9; 0xdc; 0xbb; 0xc7; 0xc7; 0x0b; 0x4f; 0x1d;
  0x8a; 0x51; 0xe0; 0x4b; 0xcd; 0xb4; 0x59; 0x31; 0xc8; 0x9f; 0x7e; 0xc9; 0xd9; 0x78; 0x73; 0x64;
  0xea; 0xc5; 0xac; 0x83; 0x34; 0xd3; 0xeb; 0xc3; 0xc5; 0x81; 0xa0; 0xff; 0xfa; 0x13; 0x63; 0xeb;
  0x17; 0x0d; 0xdd; 0x51; 0xb7; 0xf0; 0xda; 0x49; 0xd3; 0x16; 0x55; 0x26; 0x29; 0xd4; 0x68; 0x9e;
  0x2b; 0x16; 0xbe; 0x58; 0x7d; 0x47; 0xa1; 0xfc; 0x8f; 0xf8; 0xb8; 0xd1; 0x7a; 0xd0; 0x31; 0xce;
  0x45; 0xcb; 0x3a; 0x8f; 0x95; 0x16; 0x04; 0x28; 0xaf; 0xd7; 0xfb; 0xca; 0xbb; 0x4b; 0x40; 0x7e].
(** the array itself, XXH_ALIGN(64): xxhash.h:4284 *)
Definition kSecret_ptr : ptr := Ptr kSecret 64 0.

(** xxhash.h:4277, 1174, 1928 *)
Definition SECRET_DEFAULT_SIZE := 192.
Definition SECRET_SIZE_MIN := 136.
Definition MIDSIZE_MAX := 240.

(** xxhash.h:4299-4300 *)
Definition PRIME_MX1 := 0x165667919E3779F9.
Definition PRIME_MX2 := 0x9FB21C651E98DF25.

(** XXH_mult32to64: xxhash.h:4339 (and 4324-4327, 4330: same value) *)
Definition mult32to64 (x y : Z) : Z := mul64 (u32 x) (u32 y).

(** XXH_mult64to128: xxhash.h:4350-4471.  First branch: __uint128_t, _umul128 or MUL+UMULH, all the
    exact product; second branch: the portable grade-school method. *)
Definition mult64to128 (c : cfg) (lhs rhs : Z) : Z * Z :=
  if mul128_hw c then
    let product := lhs * rhs in (u64 product, u64 (shr product 64))
  else
    let lo_lo := mult32to64 (Z.land lhs 0xFFFFFFFF) (Z.land rhs 0xFFFFFFFF) in
    let hi_lo := mult32to64 (shr lhs 32) (Z.land rhs 0xFFFFFFFF) in
    let lo_hi := mult32to64 (Z.land lhs 0xFFFFFFFF) (shr rhs 32) in
    let hi_hi := mult32to64 (shr lhs 32) (shr rhs 32) in
    let cross := add64 (add64 (shr lo_lo 32) (Z.land hi_lo 0xFFFFFFFF)) lo_hi in
    let upper := add64 (add64 (shr hi_lo 32) (shr cross 32)) hi_hi in
    let lower := Z.lor (shl64 cross 32) (Z.land lo_lo 0xFFFFFFFF) in
    (lower, upper).

(** XXH3_mul128_fold64: xxhash.h:4484-4489 *)
Definition mul128_fold64 (c : cfg) (lhs rhs : Z) : Z :=
  let product := mult64to128 c lhs rhs in
  xor (fst product) (snd product).

(** XXH_xorshift64: xxhash.h:4492-4496 (the shift is a literal in 0..63 at every use) *)
Definition xorshift64 (v shift : Z) : Z := xor v (shr v shift).

(** XXH3_avalanche: xxhash.h:4502-4508 *)
Definition XXH3_avalanche (h64 : Z) : Z :=
  let h64 := xorshift64 h64 37 in
  let h64 := mul64 h64 PRIME_MX1 in
  xorshift64 h64 32.

(** XXH3_rrmxmx: xxhash.h:4515-4523 *)
Definition XXH3_rrmxmx (h64 len : Z) : Z :=
  let h64 := xor h64 (xor (rotl64 h64 49) (rotl64 h64 24)) in
  let h64 := mul64 h64 PRIME_MX2 in
  let h64 := xor h64 (add64 (shr h64 35) len) in
  let h64 := mul64 h64 PRIME_MX2 in
  xorshift64 h64 28.

(** combined value of XXH3_len_1to3_64b / 128b: xxhash.h:4570-4574 and 6471-6475 *)
Definition combined_1to3 (input : ptr) (len : Z) : res Z :=
  let! c1 := load8 input in
  let! c2 := load8 (padd input (shr len 1)) in
  let! c3 := load8 (padd input (len - 1)) in
  OK (Z.lor (Z.lor (Z.lor (shl32 c1 16) (shl32 c2 24)) (shl32 c3 0)) (shl32 (u32 len) 8)).

(** XXH3_len_1to3_64b: xxhash.h:4559-4579 *)
Definition XXH3_len_1to3_64b (c : cfg) (input : ptr) (len : Z) (secret : ptr) (seed : Z) : res Z :=
  let! _ := assert_ (negb (is_null input)) in
  let! _ := assert_ ((1 <=? len) && (len <=? 3)) in
  let! _ := assert_ (negb (is_null secret)) in
  let! combined := combined_1to3 input len in
  let! s0 := readLE32 c secret in
  let! s1 := readLE32 c (padd secret 4) in
  let bitflip := add64 (xor s0 s1) seed in
  let keyed := xor combined bitflip in
  OK (XXH64_avalanche keyed).

(** seed modification of the 4 to 8 byte class: xxhash.h:4587 and 6494 *)
Definition seed_4to8 (seed : Z) : Z := xor seed (shl64 (swap32 (u32 seed)) 32).

(** XXH3_len_4to8_64b: xxhash.h:4581-4595 *)
Definition XXH3_len_4to8_64b (c : cfg) (input : ptr) (len : Z) (secret : ptr) (seed : Z) : res Z :=
  let! _ := assert_ (negb (is_null input)) in
  let! _ := assert_ (negb (is_null secret)) in
  let! _ := assert_ ((4 <=? len) && (len <=? 8)) in
  let seed := seed_4to8 seed in
  let! input1 := readLE32 c input in
  let! input2 := readLE32 c (padd (padd input len) (-4)) in
  let! s0 := readLE64 c (padd secret 8) in
  let! s1 := readLE64 c (padd secret 16) in
  let bitflip := sub64 (xor s0 s1) seed in
  let input64 := add64 input2 (shl64 input1 32) in
  let keyed := xor input64 bitflip in
  OK (XXH3_rrmxmx keyed len).

(** XXH3_len_9to16_64b: xxhash.h:4597-4612 *)
Definition XXH3_len_9to16_64b (c : cfg) (input : ptr) (len : Z) (secret : ptr) (seed : Z) : res Z :=
  let! _ := assert_ (negb (is_null input)) in
  let! _ := assert_ (negb (is_null secret)) in
  let! _ := assert_ ((9 <=? len) && (len <=? 16)) in
  let! s0 := readLE64 c (padd secret 24) in
  let! s1 := readLE64 c (padd secret 32) in
  let bitflip1 := add64 (xor s0 s1) seed in
  let! s2 := readLE64 c (padd secret 40) in
  let! s3 := readLE64 c (padd secret 48) in
  let bitflip2 := sub64 (xor s2 s3) seed in
  let! i0 := readLE64 c input in
  let input_lo := xor i0 bitflip1 in
  let! i1 := readLE64 c (padd (padd input len) (-8)) in
  let input_hi := xor i1 bitflip2 in
  let acc := add64 (add64 (add64 len (swap64 input_lo)) input_hi) (mul128_fold64 c input_lo input_hi) in
  OK (XXH3_avalanche acc).

(** XXH3_len_0to16_64b: xxhash.h:4614-4623 *)
Definition XXH3_len_0to16_64b (c : cfg) (input : ptr) (len : Z) (secret : ptr) (seed : Z) : res Z :=
  let! _ := assert_ (len <=? 16) in
  if 8 <? len then XXH3_len_9to16_64b c input len secret seed
  else if 4 <=? len then XXH3_len_4to8_64b c input len secret seed
  else if negb (len =? 0) then XXH3_len_1to3_64b c input len secret seed
  else
    let! s0 := readLE64 c (padd secret 56) in
    let! s1 := readLE64 c (padd secret 64) in
    OK (XXH64_avalanche (xor seed (xor s0 s1))).

(** XXH3_mix16B: xxhash.h:4651-4680 *)
Definition XXH3_mix16B (c : cfg) (input secret : ptr) (seed64 : Z) : res Z :=
  let! input_lo := readLE64 c input in
  let! input_hi := readLE64 c (padd input 8) in
  let! s0 := readLE64 c secret in
  let! s1 := readLE64 c (padd secret 8) in
  OK (mul128_fold64 c (xor input_lo (add64 s0 seed64)) (xor input_hi (sub64 s1 seed64))).

(** acc += XXH3_mix16B(...): xxhash.h:4697-4714, 4737-4740, 4773 *)
Definition add_mix16B (c : cfg) (acc : Z) (input secret : ptr) (seed : Z) : res Z :=
  let! x := XXH3_mix16B c input secret seed in OK (add64 acc x).

(** body of the XXH_SIZE_OPT loop: xxhash.h:4697-4698; the loop state is (i, acc) *)
Definition loop17_64 (c : cfg) (input : ptr) (len : Z) (secret : ptr) (seed : Z) (s : Z * Z) : res (Z * Z) :=
  let '(i, acc) := s in
  let! acc := add_mix16B c acc (padd input (16 * i)) (padd secret (32 * i)) seed in
  let! acc := add_mix16B c acc (padd (padd input len) (- (16 * (i + 1)))) (padd (padd secret (32 * i)) 16) seed in
  OK (i, acc).

(** XXH3_len_17to128_64b: xxhash.h:4684-4718; both XXH_SIZE_OPT variants *)
Definition XXH3_len_17to128_64b (c : cfg) (input : ptr) (len : Z) (secret : ptr) (secretSize seed : Z) : res Z :=
  let! _ := assert_ (SECRET_SIZE_MIN <=? secretSize) in
  let! _ := assert_ ((16 <? len) && (len <=? 128)) in
  let acc := mul64 len PRIME64_1 in
  let! acc :=
    (if 1 <=? size_opt c then
       (* do { body(i) } while (i-- != 0) *)
       let! s := loop17_64 c input len secret seed (u32 (len - 1) / 32, acc) in
       let! (_, acc) :=
         while_ 4 (fun s => negb (fst s =? 0)) (fun s => loop17_64 c input len secret seed (fst s - 1, snd s)) s in
       OK acc
     else
       let! acc :=
         (if 32 <? len then
            let! acc :=
              (if 64 <? len then
                 let! acc :=
                   (if 96 <? len then
                      let! acc := add_mix16B c acc (padd input 48) (padd secret 96) seed in
                      add_mix16B c acc (padd (padd input len) (-64)) (padd secret 112) seed
                    else OK acc) in
                 let! acc := add_mix16B c acc (padd input 32) (padd secret 64) seed in
                 add_mix16B c acc (padd (padd input len) (-48)) (padd secret 80) seed
               else OK acc) in
            let! acc := add_mix16B c acc (padd input 16) (padd secret 32) seed in
            add_mix16B c acc (padd (padd input len) (-32)) (padd secret 48) seed
          else OK acc) in
       let! acc := add_mix16B c acc (padd input 0) (padd secret 0) seed in
       add_mix16B c acc (padd (padd input len) (-16)) (padd secret 16) seed) in
  OK (XXH3_avalanche acc).

(** xxhash.h:4728-4729 *)
Definition MIDSIZE_STARTOFFSET := 3.
Definition MIDSIZE_LASTOFFSET := 17.

(** XXH3_len_129to240_64b: xxhash.h:4720-4777 *)
Definition XXH3_len_129to240_64b (c : cfg) (input : ptr) (len : Z) (secret : ptr) (secretSize seed : Z) : res Z :=
  let! _ := assert_ (SECRET_SIZE_MIN <=? secretSize) in
  let! _ := assert_ ((128 <? len) && (len <=? MIDSIZE_MAX)) in
  let acc := mul64 len PRIME64_1 in
  let nbRounds := u32 len / 16 in
  let! acc := for_ 8 0 (fun i acc => add_mix16B c acc (padd input (16 * i)) (padd secret (16 * i)) seed) acc in
  let! acc_end := XXH3_mix16B c (padd (padd input len) (-16))
                    (padd (padd secret SECRET_SIZE_MIN) (- MIDSIZE_LASTOFFSET)) seed in
  let! _ := assert_ (8 <=? nbRounds) in
  let acc := XXH3_avalanche acc in
  let! acc_end :=
    for_ (Z.to_nat (nbRounds - 8)) 8
      (fun i acc_end => add_mix16B c acc_end (padd input (16 * i))
                          (padd (padd secret (16 * (i - 8))) MIDSIZE_STARTOFFSET) seed) acc_end in
  OK (XXH3_avalanche (add64 acc acc_end)).
