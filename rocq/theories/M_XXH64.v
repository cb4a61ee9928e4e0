(** Model of XXH64: xxhash.h:3371-3662 (the canonical representation is in M_Util.v). *)
From Verif Require Import Base Mem M_XXH32.

(** xxhash.h:3381-3385 *)
Definition PRIME64_1 := 0x9E3779B185EBCA87.
Definition PRIME64_2 := 0xC2B2AE3D27D4EB4F.
Definition PRIME64_3 := 0x165667B19E3779F9.
Definition PRIME64_4 := 0x85EBCA77C2B2AE63.
Definition PRIME64_5 := 0x27D4EB2F165667C5.

(** XXH64_round: xxhash.h:3396-3419 *)
Definition XXH64_round (acc input : Z) : Z :=
  let acc := add64 acc (mul64 input PRIME64_2) in
  let acc := rotl64 acc 31 in
  mul64 acc PRIME64_1.

(** XXH64_mergeRound: xxhash.h:3421-3427 *)
Definition XXH64_mergeRound (acc val : Z) : Z :=
  let val := XXH64_round 0 val in
  let acc := xor acc val in
  add64 (mul64 acc PRIME64_1) PRIME64_4.

(** XXH64_avalanche: xxhash.h:3430-3438 *)
Definition XXH64_avalanche (hash : Z) : Z :=
  let hash := xor hash (shr hash 33) in
  let hash := mul64 hash PRIME64_2 in
  let hash := xor hash (shr hash 29) in
  let hash := mul64 hash PRIME64_3 in
  xor hash (shr hash 32).

(** XXH64_finalize: xxhash.h:3458-3482 *)
Definition XXH64_finalize (c : cfg) (hash : Z) (p : ptr) (len : Z) (al : alignment) : res Z :=
  let! _ := assert_ (negb (is_null p) || (len =? 0)) in
  let len := Z.land len 31 in
  let! (hash, p, len) :=
    while_ 4 (fun s => let '(_, _, len) := s in 8 <=? len)
      (fun s => let '(hash, p, len) := s in
                let! w := readLE64_align c p al in
                let k1 := XXH64_round 0 w in
                let p := padd p 8 in
                let hash := xor hash k1 in
                let hash := add64 (mul64 (rotl64 hash 27) PRIME64_1) PRIME64_4 in
                OK (hash, p, len - 8))
      (hash, p, len) in
  let! (hash, p, len) :=
    (if 4 <=? len then
       let! w := readLE32_align c p al in
       let hash := xor hash (mul64 w PRIME64_1) in
       let p := padd p 4 in
       let hash := add64 (mul64 (rotl64 hash 23) PRIME64_2) PRIME64_3 in
       OK (hash, p, len - 4)
     else OK (hash, p, len)) in
  let! (hash, p, len) :=
    while_ 4 (fun s => let '(_, _, len) := s in 0 <? len)
      (fun s => let '(hash, p, len) := s in
                let! b := load8 p in
                let p := padd p 1 in
                let hash := xor hash (mul64 b PRIME64_5) in
                let hash := mul64 (rotl64 hash 11) PRIME64_1 in
                OK (hash, p, len - 1))
      (hash, p, len) in
  OK (XXH64_avalanche hash).

(** loop body xxhash.h:3516-3521 / 3624-3629 *)
Definition XXH64_stripe (rd : ptr -> res Z) (s : lanes4 * ptr) : res (lanes4 * ptr) :=
  let '((v1, v2, v3, v4), p) := s in
  let! w := rd p in let v1 := XXH64_round v1 w in let p := padd p 8 in
  let! w := rd p in let v2 := XXH64_round v2 w in let p := padd p 8 in
  let! w := rd p in let v3 := XXH64_round v3 w in let p := padd p 8 in
  let! w := rd p in let v4 := XXH64_round v4 w in let p := padd p 8 in
  OK ((v1, v2, v3, v4), p).

(** xxhash.h:3511-3514 and 3584-3587 *)
Definition XXH64_init (seed : Z) : lanes4 :=
  (add64 (add64 seed PRIME64_1) PRIME64_2, add64 seed PRIME64_2, add64 seed 0, sub64 seed PRIME64_1).

(** xxhash.h:3523-3527 and 3649-3653 *)
Definition XXH64_merge (v : lanes4) : Z :=
  let '(v1, v2, v3, v4) := v in
  let h64 := add64 (add64 (add64 (rotl64 v1 1) (rotl64 v2 7)) (rotl64 v3 12)) (rotl64 v4 18) in
  let h64 := XXH64_mergeRound h64 v1 in
  let h64 := XXH64_mergeRound h64 v2 in
  let h64 := XXH64_mergeRound h64 v3 in
  XXH64_mergeRound h64 v4.

(** XXH64_endian_align: xxhash.h:3502-3536 *)
Definition XXH64_endian_align (c : cfg) (input : ptr) (len seed : Z) (al : alignment) : res Z :=
  let! _ := assert_ (negb (is_null input) || (len =? 0)) in
  let! (h64, input) :=
    (if 32 <=? len then
       let bEnd := padd input len in
       let limit := padd bEnd (-31) in
       let! (v, input) :=
         do_while (Z.to_nat len) (XXH64_stripe (fun p => readLE64_align c p al))
                  (fun s => pltb (snd s) limit) (XXH64_init seed, input) in
       OK (XXH64_merge v, input)
     else OK (add64 seed PRIME64_5, input)) in
  let h64 := add64 h64 (u64 len) in
  XXH64_finalize c h64 input len al.

(** XXH64_state_t: xxhash.h:1680-1687 ([mem64] is used as 32 raw bytes) *)
Record state64 := State64 {
  s64_total_len : Z;
  s64_v : lanes4;
  s64_mem : list Z;
  s64_memsize : Z
}.

(** XXH64_reset: xxhash.h:3580-3589 *)
Definition XXH64_reset (seed : Z) : state64 :=
  {| s64_total_len := 0; s64_v := XXH64_init seed; s64_mem := repeat 0 32; s64_memsize := 0 |}.

(** XXH64_update: xxhash.h:3592-3640.  [memsize + len] is computed in size_t. *)
Definition XXH64_update (c : cfg) (st : state64) (input : ptr) (len : Z) : res (errorcode * state64) :=
  if is_null input then
    let! _ := assert_ (len =? 0) in OK (XXH_OK, st)
  else
    let p := input in
    let bEnd := padd p len in
    let total := add64 (s64_total_len st) len in
    let memsize := s64_memsize st in
    if usz c (memsize + len) <? 32 then
      let! data := load input len in
      let! mem := store (s64_mem st) memsize data in
      OK (XXH_OK, {| s64_total_len := total; s64_v := s64_v st;
                     s64_mem := mem; s64_memsize := u32 (memsize + u32 len) |})
    else
      let! (v, mem, memsize, p) :=
        (if negb (memsize =? 0) then
           let! data := load input (32 - memsize) in
           let! mem := store (s64_mem st) memsize data in
           let! (v, _) := XXH64_stripe (readLE64 c) (s64_v st, buf_ptr mem) in
           OK (v, mem, 0, padd p (32 - memsize))
         else OK (s64_v st, s64_mem st, memsize, p)) in
      let! (v, p) :=
        (if pleb (padd p 32) bEnd then
           let limit := padd bEnd (-32) in
           do_while (Z.to_nat len) (XXH64_stripe (readLE64 c)) (fun s => pleb (snd s) limit) (v, p)
         else OK (v, p)) in
      let! (mem, memsize) :=
        (if pltb p bEnd then
           let n := poff bEnd - poff p in
           let! data := load p n in
           let! mem := store mem 0 data in
           OK (mem, u32 n)
         else OK (mem, memsize)) in
      OK (XXH_OK, {| s64_total_len := total; s64_v := v; s64_mem := mem; s64_memsize := memsize |}).

(** XXH64_digest: xxhash.h:3644-3661 *)
Definition XXH64_digest (c : cfg) (st : state64) : res Z :=
  let '(v1, v2, v3, v4) := s64_v st in
  let h64 := if 32 <=? s64_total_len st then XXH64_merge (s64_v st) else add64 v3 PRIME64_5 in
  let h64 := add64 h64 (s64_total_len st) in
  XXH64_finalize c h64 (buf_ptr (s64_mem st)) (usz c (s64_total_len st)) XXH_aligned.

(** XXH64: xxhash.h:3540-3557 *)
Definition XXH64 (c : cfg) (input : ptr) (len seed : Z) : res Z :=
  if 2 <=? size_opt c then
    let st := XXH64_reset seed in
    let! (_, st) := XXH64_update c st input len in
    XXH64_digest c st
  else if align_check c && (Z.land (paddr input) 7 =? 0) then
    XXH64_endian_align c input len seed XXH_aligned
  else XXH64_endian_align c input len seed XXH_unaligned.

(** XXH64_copyState: xxhash.h:3574-3577 *)
Definition XXH64_copyState (src : state64) : state64 := src.
