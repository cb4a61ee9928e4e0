(** Model of XXH3, part 3: long inputs, the 64-bit entry points, the whole 128-bit hash
    (xxhash.h:5834-6053 and 6445-6876). *)
From Verif Require Import Base Mem M_XXH32 M_XXH64 M_XXH3 M_Kernels.

(** XXH3_hashLong_internal_loop: xxhash.h:5835-5866.  Arithmetic on size_t wraps; a zero divisor is
    undefined behaviour.  The last stripe always uses the build's own XXH3_accumulate_512. *)
Definition hashLong_internal_loop (c : cfg) (adr : Z) (acc : list Z) (input : ptr) (len : Z) (secret : ptr) (secretSize : Z)
    (f_acc : f_accumulate) (f_scr : f_scramble) : res (list Z) :=
  let nbStripesPerBlock := usz c (secretSize - STRIPE_LEN) / SECRET_CONSUME_RATE in
  let block_len := usz c (STRIPE_LEN * nbStripesPerBlock) in
  let! _ := assert_ (negb (block_len =? 0)) in
  let nb_blocks := (len - 1) / block_len in
  let! _ := assert_ (SECRET_SIZE_MIN <=? secretSize) in
  let! acc :=
    for_ (Z.to_nat nb_blocks) 0
      (fun n acc =>
         let! acc := f_acc adr acc (padd input (n * block_len)) secret nbStripesPerBlock in
         f_scr adr acc (padd (padd secret secretSize) (- STRIPE_LEN))) acc in
  let! _ := assert_ (STRIPE_LEN <? len) in
  let nbStripes := ((len - 1) - block_len * nb_blocks) / STRIPE_LEN in
  let! _ := assert_ (nbStripes <=? secretSize / SECRET_CONSUME_RATE) in
  let! acc := f_acc adr acc (padd input (nb_blocks * block_len)) secret nbStripes in
  let p := padd (padd input len) (- STRIPE_LEN) in
  accumulate_512 c adr acc p (padd (padd secret secretSize) (- STRIPE_LEN - SECRET_LASTACC_START)).

(** XXH3_mix2Accs: xxhash.h:5868-5874 *)
Definition mix2Accs (c : cfg) (acc : list Z) (o : Z) (secret : ptr) : res Z :=
  let! s0 := readLE64 c secret in
  let! s1 := readLE64 c (padd secret 8) in
  OK (mul128_fold64 c (xor (aget acc o) s0) (xor (aget acc (o + 1)) s1)).

(** XXH3_mergeAccs: xxhash.h:5876-5901 *)
Definition mergeAccs (c : cfg) (acc : list Z) (secret : ptr) (start : Z) : res Z :=
  let! result64 :=
    for_ 4 0 (fun i r => let! x := mix2Accs c acc (2 * i) (padd secret (16 * i)) in OK (add64 r x)) start in
  OK (XXH3_avalanche result64).

(** XXH3_INIT_ACC: xxhash.h:5903-5904 *)
Definition INIT_ACC : list Z :=
  [PRIME32_3; PRIME64_1; PRIME64_2; PRIME64_3; PRIME64_4; PRIME32_2; PRIME64_5; PRIME32_1].

(** XXH3_hashLong_64b_internal: xxhash.h:5906-5922 *)
Definition hashLong_64b_internal (c : cfg) (input : ptr) (len : Z) (secret : ptr) (secretSize : Z)
    (f_acc : f_accumulate) (f_scr : f_scramble) : res Z :=
  let! acc := hashLong_internal_loop c (local_acc c) INIT_ACC input len secret secretSize f_acc f_scr in
  let! _ := assert_ (64 + SECRET_MERGEACCS_START <=? secretSize) in
  mergeAccs c acc (padd secret SECRET_MERGEACCS_START) (mul64 (u64 len) PRIME64_1).

(** type XXH3_hashLong64_f: xxhash.h:5997-5998 *)
Definition hashLong64_f := ptr -> Z -> Z -> ptr -> Z -> res Z.

(** XXH3_hashLong_64b_withSecret: xxhash.h:5931-5937 *)
Definition hashLong_64b_withSecret (c : cfg) : hashLong64_f := fun input len seed64 secret secretLen =>
  hashLong_64b_internal c input len secret secretLen (accumulate c) (scrambleAcc c).
(** XXH3_hashLong_64b_default: xxhash.h:5945-5951 *)
Definition hashLong_64b_default (c : cfg) : hashLong64_f := fun input len seed64 secret secretLen =>
  hashLong_64b_internal c input len kSecret_ptr 192 (accumulate c) (scrambleAcc c).

(** the local array [secret] before it is filled (its content is indeterminate in C): xxhash.h:5977, 6789, 7061 *)
Definition uninit_secret : list Z := repeat 0 192.

(** XXH3_hashLong_64b_withSeed_internal: xxhash.h:5964-5982 *)
Definition hashLong_64b_withSeed_internal (c : cfg) (input : ptr) (len seed : Z)
    (f_acc : f_accumulate) (f_scr : f_scramble) (f_init : f_initSec) : res Z :=
  if (size_opt c <=? 0) && (seed =? 0) then
    hashLong_64b_internal c input len kSecret_ptr 192 f_acc f_scr
  else
    let! secret := f_init (local_sec c) uninit_secret seed in
    hashLong_64b_internal c input len (Ptr secret (local_sec c) 0) 192 f_acc f_scr.

(** XXH3_hashLong_64b_withSeed: xxhash.h:5987-5994 *)
Definition hashLong_64b_withSeed (c : cfg) : hashLong64_f := fun input len seed secret secretLen =>
  hashLong_64b_withSeed_internal c input len seed (accumulate c) (scrambleAcc c) (initCustomSecret c).

(** XXH3_64bits_internal: xxhash.h:6000-6020 *)
Definition XXH3_64bits_internal (c : cfg) (input : ptr) (len seed64 : Z) (secret : ptr) (secretLen : Z)
    (f_hashLong : hashLong64_f) : res Z :=
  let! _ := assert_ (SECRET_SIZE_MIN <=? secretLen) in
  if len <=? 16 then XXH3_len_0to16_64b c input len secret seed64
  else if len <=? 128 then XXH3_len_17to128_64b c input len secret secretLen seed64
  else if len <=? MIDSIZE_MAX then XXH3_len_129to240_64b c input len secret secretLen seed64
  else f_hashLong input len seed64 secret secretLen.

(** a call through a NULL function pointer (the call at xxhash.h:6019 with the NULL of 6049, and 6829 with that of 6866) *)
Definition null_f {A} : ptr -> Z -> Z -> ptr -> Z -> res A := fun _ _ _ _ _ => UB.

(** xxhash.h:6026-6029 *)
Definition XXH3_64bits (c : cfg) (input : ptr) (length : Z) : res Z :=
  XXH3_64bits_internal c input length 0 kSecret_ptr 192 (hashLong_64b_default c).
(** xxhash.h:6032-6036 *)
Definition XXH3_64bits_withSecret (c : cfg) (input : ptr) (length : Z) (secret : ptr) (secretSize : Z) : res Z :=
  XXH3_64bits_internal c input length 0 secret secretSize (hashLong_64b_withSecret c).
(** xxhash.h:6039-6043 *)
Definition XXH3_64bits_withSeed (c : cfg) (input : ptr) (length seed : Z) : res Z :=
  XXH3_64bits_internal c input length seed kSecret_ptr 192 (hashLong_64b_withSeed c).
(** xxhash.h:6045-6051 *)
Definition XXH3_64bits_withSecretandSeed (c : cfg) (input : ptr) (length : Z) (secret : ptr) (secretSize seed : Z) : res Z :=
  if length <=? MIDSIZE_MAX then XXH3_64bits_internal c input length seed kSecret_ptr 192 null_f
  else hashLong_64b_withSecret c input length seed secret secretSize.

(* ------------------------------------------------------------------ *)
(** ** 128-bit, short inputs *)

(** XXH3_len_1to3_128b: xxhash.h:6459-6486 *)
Definition XXH3_len_1to3_128b (c : cfg) (input : ptr) (len : Z) (secret : ptr) (seed : Z) : res (Z * Z) :=
  let! _ := assert_ (negb (is_null input)) in
  let! _ := assert_ ((1 <=? len) && (len <=? 3)) in
  let! _ := assert_ (negb (is_null secret)) in
  let! combinedl := combined_1to3 input len in
  let combinedh := rotl32 (swap32 combinedl) 13 in
  let! s0 := readLE32 c secret in
  let! s1 := readLE32 c (padd secret 4) in
  let bitflipl := add64 (xor s0 s1) seed in
  let! s2 := readLE32 c (padd secret 8) in
  let! s3 := readLE32 c (padd secret 12) in
  let bitfliph := sub64 (xor s2 s3) seed in
  let keyed_lo := xor combinedl bitflipl in
  let keyed_hi := xor combinedh bitfliph in
  OK (XXH64_avalanche keyed_lo, XXH64_avalanche keyed_hi).

(** XXH3_len_4to8_128b: xxhash.h:6488-6513 *)
Definition XXH3_len_4to8_128b (c : cfg) (input : ptr) (len : Z) (secret : ptr) (seed : Z) : res (Z * Z) :=
  let! _ := assert_ (negb (is_null input)) in
  let! _ := assert_ (negb (is_null secret)) in
  let! _ := assert_ ((4 <=? len) && (len <=? 8)) in
  let seed := seed_4to8 seed in
  let! input_lo := readLE32 c input in
  let! input_hi := readLE32 c (padd (padd input len) (-4)) in
  let input_64 := add64 input_lo (shl64 input_hi 32) in
  let! s0 := readLE64 c (padd secret 16) in
  let! s1 := readLE64 c (padd secret 24) in
  let bitflip := add64 (xor s0 s1) seed in
  let keyed := xor input_64 bitflip in
  let '(low64, high64) := mult64to128 c keyed (add64 PRIME64_1 (usz c (Z.shiftl len 2))) in
  let high64 := add64 high64 (shl64 low64 1) in
  let low64 := xor low64 (shr high64 3) in
  let low64 := xorshift64 low64 35 in
  let low64 := mul64 low64 PRIME_MX2 in
  let low64 := xorshift64 low64 28 in
  let high64 := XXH3_avalanche high64 in
  OK (low64, high64).

(** XXH3_len_9to16_128b: xxhash.h:6515-6585 *)
Definition XXH3_len_9to16_128b (c : cfg) (input : ptr) (len : Z) (secret : ptr) (seed : Z) : res (Z * Z) :=
  let! _ := assert_ (negb (is_null input)) in
  let! _ := assert_ (negb (is_null secret)) in
  let! _ := assert_ ((9 <=? len) && (len <=? 16)) in
  let! s0 := readLE64 c (padd secret 32) in
  let! s1 := readLE64 c (padd secret 40) in
  let bitflipl := sub64 (xor s0 s1) seed in
  let! s2 := readLE64 c (padd secret 48) in
  let! s3 := readLE64 c (padd secret 56) in
  let bitfliph := add64 (xor s2 s3) seed in
  let! input_lo := readLE64 c input in
  let! input_hi := readLE64 c (padd (padd input len) (-8)) in
  let '(low64, high64) := mult64to128 c (xor (xor input_lo input_hi) bitflipl) PRIME64_1 in
  let low64 := add64 low64 (shl64 (len - 1) 54) in
  let input_hi := xor input_hi bitfliph in
  let high64 :=
    if ptr_small c then
      add64 high64 (add64 (Z.land input_hi 0xFFFFFFFF00000000) (mult32to64 (u32 input_hi) PRIME32_2))
    else
      add64 high64 (add64 input_hi (mult32to64 (u32 input_hi) (sub32 PRIME32_2 1))) in
  let low64 := xor low64 (swap64 high64) in
  let '(hl, hh) := mult64to128 c low64 PRIME64_2 in
  let hh := add64 hh (mul64 high64 PRIME64_2) in
  OK (XXH3_avalanche hl, XXH3_avalanche hh).

(** XXH3_len_0to16_128b: xxhash.h:6590-6604 *)
Definition XXH3_len_0to16_128b (c : cfg) (input : ptr) (len : Z) (secret : ptr) (seed : Z) : res (Z * Z) :=
  let! _ := assert_ (len <=? 16) in
  if 8 <? len then XXH3_len_9to16_128b c input len secret seed
  else if 4 <=? len then XXH3_len_4to8_128b c input len secret seed
  else if negb (len =? 0) then XXH3_len_1to3_128b c input len secret seed
  else
    let! s0 := readLE64 c (padd secret 64) in
    let! s1 := readLE64 c (padd secret 72) in
    let bitflipl := xor s0 s1 in
    let! s2 := readLE64 c (padd secret 80) in
    let! s3 := readLE64 c (padd secret 88) in
    let bitfliph := xor s2 s3 in
    OK (XXH64_avalanche (xor seed bitflipl), XXH64_avalanche (xor seed bitfliph)).

(** XXH128_mix32B: xxhash.h:6609-6618 *)
Definition mix32B (c : cfg) (acc : Z * Z) (input_1 input_2 secret : ptr) (seed : Z) : res (Z * Z) :=
  let '(low64, high64) := acc in
  let! low64 := add_mix16B c low64 input_1 (padd secret 0) seed in
  let! x := readLE64 c input_2 in
  let! y := readLE64 c (padd input_2 8) in
  let low64 := xor low64 (add64 x y) in
  let! high64 := add_mix16B c high64 input_2 (padd secret 16) seed in
  let! x := readLE64 c input_1 in
  let! y := readLE64 c (padd input_1 8) in
  let high64 := xor high64 (add64 x y) in
  OK (low64, high64).

(** finalization: xxhash.h:6652-6660 and 6709-6717 *)
Definition mid128_final (acc : Z * Z) (len seed : Z) : Z * Z :=
  let '(low64, high64) := acc in
  let hl := add64 low64 high64 in
  let hh := add64 (add64 (mul64 low64 PRIME64_1) (mul64 high64 PRIME64_4)) (mul64 (sub64 len seed) PRIME64_2) in
  (XXH3_avalanche hl, sub64 0 (XXH3_avalanche hh)).

(** body of the XXH_SIZE_OPT loop: xxhash.h:6638; the loop state is (i, acc) *)
Definition loop17_128 (c : cfg) (input : ptr) (len : Z) (secret : ptr) (seed : Z) (s : Z * (Z * Z)) : res (Z * (Z * Z)) :=
  let '(i, acc) := s in
  let! acc := mix32B c acc (padd input (16 * i)) (padd (padd input len) (- (16 * (i + 1)))) (padd secret (32 * i)) seed in
  OK (i, acc).

(** XXH3_len_17to128_128b: xxhash.h:6621-6663; both XXH_SIZE_OPT variants *)
Definition XXH3_len_17to128_128b (c : cfg) (input : ptr) (len : Z) (secret : ptr) (secretSize seed : Z) : res (Z * Z) :=
  let! _ := assert_ (SECRET_SIZE_MIN <=? secretSize) in
  let! _ := assert_ ((16 <? len) && (len <=? 128)) in
  let acc := (mul64 len PRIME64_1, 0) in
  let! acc :=
    (if 1 <=? size_opt c then
       let! s := loop17_128 c input len secret seed (u32 (len - 1) / 32, acc) in
       let! (_, acc) :=
         while_ 4 (fun s => negb (fst s =? 0)) (fun s => loop17_128 c input len secret seed (fst s - 1, snd s)) s in
       OK acc
     else
       let! acc :=
         (if 32 <? len then
            let! acc :=
              (if 64 <? len then
                 let! acc :=
                   (if 96 <? len then
                      mix32B c acc (padd input 48) (padd (padd input len) (-64)) (padd secret 96) seed
                    else OK acc) in
                 mix32B c acc (padd input 32) (padd (padd input len) (-48)) (padd secret 64) seed
               else OK acc) in
            mix32B c acc (padd input 16) (padd (padd input len) (-32)) (padd secret 32) seed
          else OK acc) in
       mix32B c acc input (padd (padd input len) (-16)) secret seed) in
  OK (mid128_final acc len seed).

(** XXH3_len_129to240_128b: xxhash.h:6665-6720 *)
Definition XXH3_len_129to240_128b (c : cfg) (input : ptr) (len : Z) (secret : ptr) (secretSize seed : Z) : res (Z * Z) :=
  let! _ := assert_ (SECRET_SIZE_MIN <=? secretSize) in
  let! _ := assert_ ((128 <? len) && (len <=? MIDSIZE_MAX)) in
  let acc := (mul64 len PRIME64_1, 0) in
  let! (_, acc) :=
    while_ 4 (fun s => fst s <? 160)
      (fun s => let '(i, acc) := s in
        let! acc := mix32B c acc (padd (padd input i) (-32)) (padd (padd input i) (-16)) (padd (padd secret i) (-32)) seed in
        OK (i + 32, acc)) (32, acc) in
  let acc := (XXH3_avalanche (fst acc), XXH3_avalanche (snd acc)) in
  let! (_, acc) :=
    while_ 4 (fun s => fst s <=? len)
      (fun s => let '(i, acc) := s in
        let! acc := mix32B c acc (padd (padd input i) (-32)) (padd (padd input i) (-16))
                      (padd (padd (padd secret MIDSIZE_STARTOFFSET) i) (-160)) seed in
        OK (i + 32, acc)) (160, acc) in
  let! acc := mix32B c acc (padd (padd input len) (-16)) (padd (padd input len) (-32))
                (padd (padd (padd secret SECRET_SIZE_MIN) (- MIDSIZE_LASTOFFSET)) (-16)) (sub64 0 seed) in
  OK (mid128_final acc len seed).

(* ------------------------------------------------------------------ *)
(** ** 128-bit, long inputs and entry points *)

(** ~x on 64 bits (used at xxhash.h:6743, 6935) *)
Definition not64 (x : Z) : Z := 0xFFFFFFFFFFFFFFFF - x.

(** XXH3_hashLong_128b_internal: xxhash.h:6723-6746 *)
Definition hashLong_128b_internal (c : cfg) (input : ptr) (len : Z) (secret : ptr) (secretSize : Z)
    (f_acc : f_accumulate) (f_scr : f_scramble) : res (Z * Z) :=
  let! acc := hashLong_internal_loop c (local_acc c) INIT_ACC input len secret secretSize f_acc f_scr in
  let! _ := assert_ (64 + SECRET_MERGEACCS_START <=? secretSize) in
  let! low64 := mergeAccs c acc (padd secret SECRET_MERGEACCS_START) (mul64 (u64 len) PRIME64_1) in
  let! high64 := mergeAccs c acc (padd (padd (padd secret secretSize) (-64)) (- SECRET_MERGEACCS_START))
                   (not64 (mul64 (u64 len) PRIME64_2)) in
  OK (low64, high64).

(** type XXH3_hashLong128_f: xxhash.h:6808-6809 *)
Definition hashLong128_f := ptr -> Z -> Z -> ptr -> Z -> res (Z * Z).
(** xxhash.h:6751-6759 *)
Definition hashLong_128b_default (c : cfg) : hashLong128_f := fun input len seed64 secret secretLen =>
  hashLong_128b_internal c input len kSecret_ptr 192 (accumulate c) (scrambleAcc c).
(** xxhash.h:6768-6776 *)
Definition hashLong_128b_withSecret (c : cfg) : hashLong128_f := fun input len seed64 secret secretLen =>
  hashLong_128b_internal c input len secret secretLen (accumulate c) (scrambleAcc c).
(** xxhash.h:6778-6794 *)
Definition hashLong_128b_withSeed_internal (c : cfg) (input : ptr) (len seed64 : Z)
    (f_acc : f_accumulate) (f_scr : f_scramble) (f_init : f_initSec) : res (Z * Z) :=
  if seed64 =? 0 then
    hashLong_128b_internal c input len kSecret_ptr 192 f_acc f_scr
  else
    let! secret := f_init (local_sec c) uninit_secret seed64 in
    hashLong_128b_internal c input len (Ptr secret (local_sec c) 0) 192 f_acc f_scr.
(** xxhash.h:6799-6806 *)
Definition hashLong_128b_withSeed (c : cfg) : hashLong128_f := fun input len seed64 secret secretLen =>
  hashLong_128b_withSeed_internal c input len seed64 (accumulate c) (scrambleAcc c) (initCustomSecret c).

(** XXH3_128bits_internal: xxhash.h:6811-6830 *)
Definition XXH3_128bits_internal (c : cfg) (input : ptr) (len seed64 : Z) (secret : ptr) (secretLen : Z)
    (f_hl128 : hashLong128_f) : res (Z * Z) :=
  let! _ := assert_ (SECRET_SIZE_MIN <=? secretLen) in
  if len <=? 16 then XXH3_len_0to16_128b c input len secret seed64
  else if len <=? 128 then XXH3_len_17to128_128b c input len secret secretLen seed64
  else if len <=? MIDSIZE_MAX then XXH3_len_129to240_128b c input len secret secretLen seed64
  else f_hl128 input len seed64 secret secretLen.

(** xxhash.h:6836-6841 *)
Definition XXH3_128bits (c : cfg) (input : ptr) (len : Z) : res (Z * Z) :=
  XXH3_128bits_internal c input len 0 kSecret_ptr 192 (hashLong_128b_default c).
(** xxhash.h:6844-6850 *)
Definition XXH3_128bits_withSecret (c : cfg) (input : ptr) (len : Z) (secret : ptr) (secretSize : Z) : res (Z * Z) :=
  XXH3_128bits_internal c input len 0 secret secretSize (hashLong_128b_withSecret c).
(** xxhash.h:6853-6859 *)
Definition XXH3_128bits_withSeed (c : cfg) (input : ptr) (len seed : Z) : res (Z * Z) :=
  XXH3_128bits_internal c input len seed kSecret_ptr 192 (hashLong_128b_withSeed c).
(** xxhash.h:6862-6868 *)
Definition XXH3_128bits_withSecretandSeed (c : cfg) (input : ptr) (len : Z) (secret : ptr) (secretSize seed : Z) : res (Z * Z) :=
  if len <=? MIDSIZE_MAX then XXH3_128bits_internal c input len seed kSecret_ptr 192 null_f
  else hashLong_128b_withSecret c input len seed secret secretSize.
(** XXH128: xxhash.h:6871-6875 *)
Definition XXH128 (c : cfg) (input : ptr) (len seed : Z) : res (Z * Z) := XXH3_128bits_withSeed c input len seed.
