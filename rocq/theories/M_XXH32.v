(** Model of XXH32: xxhash.h:2849-3219 (the canonical representation is in M_Util.v). *)
From Verif Require Import Base Mem.

(** xxhash.h:2861-2865 *)
Definition PRIME32_1 := 0x9E3779B1.
Definition PRIME32_2 := 0x85EBCA77.
Definition PRIME32_3 := 0xC2B2AE3D.
Definition PRIME32_4 := 0x27D4EB2F.
Definition PRIME32_5 := 0x165667B1.

(** XXH32_round: xxhash.h:2886-2932 (the compiler fence has no effect on values) *)
Definition XXH32_round (acc input : Z) : Z :=
  let acc := add32 acc (mul32 input PRIME32_2) in
  let acc := rotl32 acc 13 in
  mul32 acc PRIME32_1.

(** XXH32_avalanche: xxhash.h:2943-2951 *)
Definition XXH32_avalanche (hash : Z) : Z :=
  let hash := xor hash (shr hash 15) in
  let hash := mul32 hash PRIME32_2 in
  let hash := xor hash (shr hash 13) in
  let hash := mul32 hash PRIME32_3 in
  xor hash (shr hash 16).

(** macros XXH_PROCESS1 and XXH_PROCESS4: xxhash.h:2973-2982; they update (hash, ptr) *)
Definition XXH_PROCESS1 (s : Z * ptr) : res (Z * ptr) :=
  let (hash, p) := s in
  let! b := load8 p in
  let hash := add32 hash (mul32 b PRIME32_5) in
  OK (mul32 (rotl32 hash 11) PRIME32_1, padd p 1).
Definition XXH_PROCESS4 (c : cfg) (al : alignment) (s : Z * ptr) : res (Z * ptr) :=
  let (hash, p) := s in
  let! w := readLE32_align c p al in
  let hash := add32 hash (mul32 w PRIME32_3) in
  OK (mul32 (rotl32 hash 17) PRIME32_4, padd p 4).

(** run [k] copies of PROCESS4 then [m] copies of PROCESS1 (the fallthrough chains of the switch, xxhash.h:3000-3035) *)
Fixpoint repeat_ {S} (k : nat) (f : S -> res S) (s : S) : res S :=
  match k with O => OK s | Datatypes.S k' => let! s' := f s in repeat_ k' f s' end.

(** XXH32_finalize: xxhash.h:2970-3041.  The rolled loops for XXH32_ENDJMP = 0; for XXH32_ENDJMP = 1
    the switch with its fallthroughs, one branch per case label. *)
Definition XXH32_finalize (c : cfg) (hash : Z) (p : ptr) (len : Z) (al : alignment) : res Z :=
  let! _ := assert_ (negb (is_null p) || (len =? 0)) in
  if negb (endjmp c) then
    let len := Z.land len 15 in
    let! s := while_ 4 (fun s => 4 <=? snd s)
                (fun s => let (hp, len) := s in
                          let! hp := XXH_PROCESS4 c al hp in OK (hp, len - 4))
                ((hash, p), len) in
    let! s := while_ 16 (fun s => 0 <? snd s)
                (fun s => let (hp, len) := s in
                          let! hp := XXH_PROCESS1 hp in OK (hp, len - 1)) s in
    OK (XXH32_avalanche (fst (fst s)))
  else
    let P4 := XXH_PROCESS4 c al in
    let P1 := XXH_PROCESS1 in
    let fin s := OK (XXH32_avalanche (fst s)) in
    let case k m := let! s := repeat_ k P4 (hash, p) in let! s := repeat_ m P1 s in fin s in
    match Z.land len 15 with
    | 12 => case 3%nat 0%nat
    | 8  => case 2%nat 0%nat
    | 4  => case 1%nat 0%nat
    | 13 => case 3%nat 1%nat
    | 9  => case 2%nat 1%nat
    | 5  => case 1%nat 1%nat
    | 14 => case 3%nat 2%nat
    | 10 => case 2%nat 2%nat
    | 6  => case 1%nat 2%nat
    | 15 => case 3%nat 3%nat
    | 11 => case 2%nat 3%nat
    | 7  => case 1%nat 3%nat
    | 3  => case 0%nat 3%nat
    | 2  => case 0%nat 2%nat
    | 1  => case 0%nat 1%nat
    | 0  => fin (hash, p)
    | _  => UB      (* XXH_ASSERT(0), xxhash.h:3038 *)
    end.

(** the four lanes v1..v4: xxhash.h:3069-3072 *)
Definition lanes4 : Type := Z * Z * Z * Z.

(** one turn of the loop body xxhash.h:3074-3079 / 3182-3187: four rounds, advancing the pointer *)
Definition XXH32_stripe (rd : ptr -> res Z) (s : lanes4 * ptr) : res (lanes4 * ptr) :=
  let '((v1, v2, v3, v4), p) := s in
  let! w := rd p in let v1 := XXH32_round v1 w in let p := padd p 4 in
  let! w := rd p in let v2 := XXH32_round v2 w in let p := padd p 4 in
  let! w := rd p in let v3 := XXH32_round v3 w in let p := padd p 4 in
  let! w := rd p in let v4 := XXH32_round v4 w in let p := padd p 4 in
  OK ((v1, v2, v3, v4), p).

(** initial lanes: xxhash.h:3069-3072 and 3138-3141 *)
Definition XXH32_init (seed : Z) : lanes4 :=
  (add32 (add32 seed PRIME32_1) PRIME32_2, add32 seed PRIME32_2, add32 seed 0, sub32 seed PRIME32_1).

(** xxhash.h:3081-3082 and 3207-3210 *)
Definition XXH32_merge (v : lanes4) : Z :=
  let '(v1, v2, v3, v4) := v in
  add32 (add32 (add32 (rotl32 v1 1) (rotl32 v2 7)) (rotl32 v3 12)) (rotl32 v4 18).

(** XXH32_endian_align: xxhash.h:3059-3090 *)
Definition XXH32_endian_align (c : cfg) (input : ptr) (len seed : Z) (al : alignment) : res Z :=
  let! _ := assert_ (negb (is_null input) || (len =? 0)) in
  let! (h32, input) :=
    (if 16 <=? len then
       let bEnd := padd input len in
       let limit := padd bEnd (-15) in
       let! (v, input) :=
         do_while (Z.to_nat len) (XXH32_stripe (fun p => readLE32_align c p al))
                  (fun s => pltb (snd s) limit) (XXH32_init seed, input) in
       OK (XXH32_merge v, input)
     else OK (add32 seed PRIME32_5, input)) in
  let h32 := add32 h32 (u32 len) in
  XXH32_finalize c h32 input (Z.land len 15) al.

(** XXH32_state_t: xxhash.h:1655-1662 ([mem32] is used as 16 raw bytes; [reserved] never read) *)
Record state32 := State32 {
  s32_total_len : Z;
  s32_large_len : Z;
  s32_v : lanes4;
  s32_mem : list Z;
  s32_memsize : Z
}.

(** XXH32_reset: xxhash.h:3134-3143 (whatever the state contained before) *)
Definition XXH32_reset (seed : Z) : state32 :=
  {| s32_total_len := 0; s32_large_len := 0; s32_v := XXH32_init seed;
     s32_mem := repeat 0 16; s32_memsize := 0 |}.

Definition b2z (b : bool) : Z := if b then 1 else 0.

(** pointer to the start of a state's own buffer; states are suitably aligned objects (xxhash.h:3169, 3613-3616) *)
Definition buf_ptr (b : list Z) : ptr := Ptr b 0 0.

(** XXH32_update: xxhash.h:3147-3198 *)
Definition XXH32_update (c : cfg) (st : state32) (input : ptr) (len : Z) : res (errorcode * state32) :=
  if is_null input then
    let! _ := assert_ (len =? 0) in OK (XXH_OK, st)
  else
    let p := input in
    let bEnd := padd p len in
    let total := add32 (s32_total_len st) (u32 len) in
    let large := Z.lor (s32_large_len st) (u32 (Z.lor (b2z (16 <=? len)) (b2z (16 <=? total)))) in
    let memsize := s32_memsize st in
    if usz c (memsize + len) <? 16 then
      let! data := load input len in
      let! mem := store (s32_mem st) memsize data in
      OK (XXH_OK, {| s32_total_len := total; s32_large_len := large; s32_v := s32_v st;
                     s32_mem := mem; s32_memsize := u32 (memsize + u32 len) |})
    else
      let! (v, mem, memsize, p) :=
        (if negb (memsize =? 0) then
           let! data := load input (16 - memsize) in
           let! mem := store (s32_mem st) memsize data in
           let! (v, _) := XXH32_stripe (readLE32 c) (s32_v st, buf_ptr mem) in
           OK (v, mem, 0, padd p (16 - memsize))
         else OK (s32_v st, s32_mem st, memsize, p)) in
      let! (v, p) :=
        (if pleb p (padd bEnd (-16)) then
           let limit := padd bEnd (-16) in
           do_while (Z.to_nat len) (XXH32_stripe (readLE32 c)) (fun s => pleb (snd s) limit) (v, p)
         else OK (v, p)) in
      let! (mem, memsize) :=
        (if pltb p bEnd then
           let n := poff bEnd - poff p in
           let! data := load p n in
           let! mem := store mem 0 data in
           OK (mem, u32 n)
         else OK (mem, memsize)) in
      OK (XXH_OK, {| s32_total_len := total; s32_large_len := large; s32_v := v;
                     s32_mem := mem; s32_memsize := memsize |}).

(** XXH32_digest: xxhash.h:3202-3219 *)
Definition XXH32_digest (c : cfg) (st : state32) : res Z :=
  let '(v1, v2, v3, v4) := s32_v st in
  let h32 := if negb (s32_large_len st =? 0) then XXH32_merge (s32_v st)
             else add32 v3 PRIME32_5 in
  let h32 := add32 h32 (s32_total_len st) in
  XXH32_finalize c h32 (buf_ptr (s32_mem st)) (s32_memsize st) XXH_aligned.

(** XXH32: xxhash.h:3093-3110 *)
Definition XXH32 (c : cfg) (input : ptr) (len seed : Z) : res Z :=
  if 2 <=? size_opt c then
    let st := XXH32_reset seed in
    let! (_, st) := XXH32_update c st input len in
    XXH32_digest c st
  else if align_check c && (Z.land (paddr input) 3 =? 0) then
    XXH32_endian_align c input len seed XXH_aligned
  else XXH32_endian_align c input len seed XXH_unaligned.

(** XXH32_copyState: xxhash.h:3128-3131 *)
Definition XXH32_copyState (src : state32) : state32 := src.
