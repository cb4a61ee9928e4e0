(** Strict-pointer variants of the update functions: the same code as M_XXH32, M_XXH64 and M_Kernels, but forming
    a pointer outside its object (and not one past its end) is [UB], as in ISO C 6.5.6 paragraph 8. *)
From Verif Require Import Base Mem M_XXH32 M_XXH64 M_XXH3 M_Kernels M_Long M_Stream3.

(** the pointers an update function may form: xxhash.h:3163-3198, 3607-3642, 6300-6382 *)
Definition in_object (p : ptr) : bool := match p with Null => true | Ptr b _ o => (0 <=? o) && (o <=? zlen b) end.
(** pointer + integer (xxhash.h:3163-3198, 3607-3642, 6300-6382) *)
Definition padd_s (p : ptr) (k : Z) : res ptr := let! _ := assert_ (in_object (padd p k)) in OK (padd p k).

(** loop body of XXH32_update: xxhash.h:3180-3183 *)
Definition XXH32_stripe_s (rd : ptr -> res Z) (s : lanes4 * ptr) : res (lanes4 * ptr) :=
  let '((v1, v2, v3, v4), p) := s in
  let! w := rd p in let v1 := XXH32_round v1 w in let! p := padd_s p 4 in
  let! w := rd p in let v2 := XXH32_round v2 w in let! p := padd_s p 4 in
  let! w := rd p in let v3 := XXH32_round v3 w in let! p := padd_s p 4 in
  let! w := rd p in let v4 := XXH32_round v4 w in let! p := padd_s p 4 in
  OK ((v1, v2, v3, v4), p).

(** XXH32_update: xxhash.h:3147-3198 *)
Definition XXH32_update_s (c : cfg) (st : state32) (input : ptr) (len : Z) : res (errorcode * state32) :=
  if is_null input then
    let! _ := assert_ (len =? 0) in OK (XXH_OK, st)
  else
    let p := input in
    let! bEnd := padd_s p len in
    let total := add32 (s32_total_len st) (u32 len) in
    let large := Z.lor (s32_large_len st) (u32 (Z.lor (b2z (16 <=? len)) (b2z (16 <=? total)))) in
    let memsize := s32_memsize st in
    if usz c (memsize + len) <? 16 then
      let! data := load input len in
      let! mem := store (s32_mem st) memsize data in
      OK (XXH_OK, {| s32_total_len := total; s32_large_len := large; s32_v := s32_v st;
                     s32_mem := mem; s32_memsize := u32 (memsize + u32 len) |})
    else
      let! (v, mem, memsize, p) :=
        (if negb (memsize =? 0) then
           let! data := load input (16 - memsize) in
           let! mem := store (s32_mem st) memsize data in
           let! (v, _) := XXH32_stripe_s (readLE32 c) (s32_v st, buf_ptr mem) in
           let! p := padd_s p (16 - memsize) in
           OK (v, mem, 0, p)
         else OK (s32_v st, s32_mem st, memsize, p)) in
      let! lim := padd_s bEnd (-16) in
      let! (v, p) :=
        (if pleb p lim then
           do_while (Z.to_nat len) (XXH32_stripe_s (readLE32 c)) (fun s => pleb (snd s) lim) (v, p)
         else OK (v, p)) in
      let! (mem, memsize) :=
        (if pltb p bEnd then
           let n := poff bEnd - poff p in
           let! data := load p n in
           let! mem := store mem 0 data in
           OK (mem, u32 n)
         else OK (mem, memsize)) in
      OK (XXH_OK, {| s32_total_len := total; s32_large_len := large; s32_v := v;
                     s32_mem := mem; s32_memsize := memsize |}).

(** loop body of XXH64_update: xxhash.h:3624-3627 *)
Definition XXH64_stripe_s (rd : ptr -> res Z) (s : lanes4 * ptr) : res (lanes4 * ptr) :=
  let '((v1, v2, v3, v4), p) := s in
  let! w := rd p in let v1 := XXH64_round v1 w in let! p := padd_s p 8 in
  let! w := rd p in let v2 := XXH64_round v2 w in let! p := padd_s p 8 in
  let! w := rd p in let v3 := XXH64_round v3 w in let! p := padd_s p 8 in
  let! w := rd p in let v4 := XXH64_round v4 w in let! p := padd_s p 8 in
  OK ((v1, v2, v3, v4), p).

(** XXH64_update: xxhash.h:3592-3640 *)
Definition XXH64_update_s (c : cfg) (st : state64) (input : ptr) (len : Z) : res (errorcode * state64) :=
  if is_null input then
    let! _ := assert_ (len =? 0) in OK (XXH_OK, st)
  else
    let p := input in
    let! bEnd := padd_s p len in
    let total := add64 (s64_total_len st) len in
    let memsize := s64_memsize st in
    if usz c (memsize + len) <? 32 then
      let! data := load input len in
      let! mem := store (s64_mem st) memsize data in
      OK (XXH_OK, {| s64_total_len := total; s64_v := s64_v st;
                     s64_mem := mem; s64_memsize := u32 (memsize + u32 len) |})
    else
      let! (v, mem, memsize, p) :=
        (if negb (memsize =? 0) then
           let! data := load input (32 - memsize) in
           let! mem := store (s64_mem st) memsize data in
           let! (v, _) := XXH64_stripe_s (readLE64 c) (s64_v st, buf_ptr mem) in
           let! p := padd_s p (32 - memsize) in
           OK (v, mem, 0, p)
         else OK (s64_v st, s64_mem st, memsize, p)) in
      let! p32 := padd_s p 32 in
      let! (v, p) :=
        (if pleb p32 bEnd then
           let! limit := padd_s bEnd (-32) in
           do_while (Z.to_nat len) (XXH64_stripe_s (readLE64 c)) (fun s => pleb (snd s) limit) (v, p)
         else OK (v, p)) in
      let! (mem, memsize) :=
        (if pltb p bEnd then
           let n := poff bEnd - poff p in
           let! data := load p n in
           let! mem := store mem 0 data in
           OK (mem, u32 n)
         else OK (mem, memsize)) in
      OK (XXH_OK, {| s64_total_len := total; s64_v := v; s64_mem := mem; s64_memsize := memsize |}).

(** XXH3_ACCUMULATE_TEMPLATE: xxhash.h:4813-4829, with the pointer handed to XXH_PREFETCH (line 4823).  [dist] is
    XXH_PREFETCH_DIST (xxhash.h:4791-4801): 320 with clang, else 512 for AVX512 and 384 for the others. *)
Definition accumulate_template_s (dist : Z) (acc512 : f_acc512) : f_accumulate :=
  fun adr acc input secret nbStripes =>
    for_ (Z.to_nat nbStripes) 0
      (fun n acc =>
         let! inp := padd_s input (n * STRIPE_LEN) in
         let! _ := padd_s inp dist in
         acc512 adr acc inp (padd secret (n * SECRET_CONSUME_RATE))) acc.
(** XXH3_64bits_update: xxhash.h:6377-6382, for the vector units whose kernel is the template (all but SVE, whose kernel
    has prefetches of its own, xxhash.h:5552-5580, not modelled).  Only the pointers of the accumulation loop are checked here. *)
Definition XXH3_64bits_update_s (c : cfg) (dist : Z) (st : state3) (input : ptr) (len : Z) : res (errorcode * state3) :=
  XXH3_update c st input len (accumulate_template_s dist (accumulate_512 c)) (scrambleAcc c).
