(** Build configuration, pointers and memory reads. *)
From Verif Require Import Base.

(* ------------------------------------------------------------------ *)
(** ** Byte sequences *)
Definition byte_ok (b : Z) : Prop := 0 <= b < 256.
Definition bytes_ok (l : list Z) : Prop := Forall byte_ok l.

Definition zlen {A} (l : list A) : Z := Z.of_nat (length l).
(** the [n] elements starting at index [o] *)
Definition zslice {A} (l : list A) (o n : Z) : list A := firstn (Z.to_nat n) (skipn (Z.to_nat o) l).

(** value of a byte sequence, least significant byte first; and its inverse on [n] bytes *)
Fixpoint le_val (l : list Z) : Z := match l with [] => 0 | b :: l' => b + 256 * le_val l' end.
Fixpoint le_bytes (n : nat) (x : Z) : list Z :=
  match n with O => [] | S n' => (x mod 256) :: le_bytes n' (x / 256) end.

(* ------------------------------------------------------------------ *)
(** ** Vector units: XXH_VECTOR values, xxhash.h:3854-3871 *)
Inductive vectype :=
| V_SCALAR
| V_SSE2
| V_AVX2
| V_AVX512
| V_NEON (lanes : nat) (wasm : bool) (* XXH3_NEON_LANES (how many of the 8 lanes use NEON), xxhash.h:4121-4128;
                                        __wasm_simd128__, xxhash.h:5386-5388 *)
| V_VSX
| V_SVE (dwords : nat) (junk : Z).   (* svcntd(): number of 64-bit lanes of the SVE registers; the value left
                                        in inactive lanes by the "_x" intrinsics *)

(** Compile-time choices of xxhash.h.  Theorems quantify over every well-formed record; which records the
    preprocessor can choose is the subject of M_Config.v. *)
Record cfg := Cfg {
  cpu_le      : bool;    (* XXH_CPU_LITTLE_ENDIAN, xxhash.h:2627-2669 *)
  mem_access  : Z;       (* XXH_FORCE_MEMORY_ACCESS, xxhash.h:2576-2620: 1, 2 or 3; anything else is memcpy *)
  hw_unaligned : bool;   (* the target tolerates misaligned typed loads (needed by method 2) *)
  align_check : bool;    (* XXH_FORCE_ALIGN_CHECK, xxhash.h:2174-2201 *)
  endjmp      : bool;    (* XXH32_ENDJMP, xxhash.h:2243-2252 *)
  size_opt    : Z;       (* XXH_SIZE_OPT, xxhash.h:2288-2295; only compared with 0, 1 and 2 *)
  szbits      : Z;       (* width of size_t in bits *)
  mul128_hw   : bool;    (* native 64x64->128 product available, xxhash.h:4369-4415 *)
  ptr_small   : bool;    (* sizeof(void* ) < sizeof(XXH128_hash_t's u64): 32-bit branch, xxhash.h:6540 *)
  vec         : vectype; (* XXH_VECTOR, xxhash.h:3887-3912 *)
  stream_stack : bool;   (* XXH3_STREAM_USE_STACK, xxhash.h:6289-6293 *)
  x86dispatch : bool     (* XXH_X86DISPATCH (compiled as part of xxh_x86dispatch.c) *)
}.

Definition vec_ok (le : bool) (v : vectype) : Prop :=
  match v with
  | V_SCALAR => True
  | V_SSE2 | V_AVX2 | V_AVX512 => le = true
  | V_NEON lanes _ => le = true /\ (lanes = 2 \/ lanes = 4 \/ lanes = 6 \/ lanes = 8)%nat
  | V_VSX => True
  | V_SVE d _ => le = true /\ (exists k, 1 <= k /\ d = 2 * k)%nat
  end.

Record cfg_ok (c : cfg) : Prop := CfgOk {
  ok_sz   : szbits c = 32 \/ szbits c = 64;
  ok_una  : mem_access c = 2 -> hw_unaligned c = true;
  ok_vec  : vec_ok (cpu_le c) (vec c)
}.

(** size_t values wrap modulo 2^szbits *)
Definition usz (c : cfg) (x : Z) : Z := x mod 2 ^ szbits c.

(* ------------------------------------------------------------------ *)
(** ** Pointers.  A pointer is NULL or an offset into a block (the bytes of one object, and the
    address of its first byte, used only for alignment).  Simplification: [padd] may produce any
    offset (a flat address space); only dereferencing out of range is [UB] here.  The stricter ISO C
    rule on forming pointers is studied separately (M_Strict.v). *)
Inductive ptr :=
| Null
| Ptr (blk : list Z) (adr : Z) (off : Z).

Definition padd (p : ptr) (k : Z) : ptr :=
  match p with Null => Null | Ptr b a o => Ptr b a (o + k) end.
Definition poff (p : ptr) : Z := match p with Null => 0 | Ptr _ _ o => o end.
Definition paddr (p : ptr) : Z := match p with Null => 0 | Ptr _ a o => a + o end.
Definition is_null (p : ptr) : bool := match p with Null => true | _ => false end.
(** comparison of two pointers into the same object: by offset *)
Definition pltb (p q : ptr) : bool := poff p <? poff q.
Definition pleb (p q : ptr) : bool := poff p <=? poff q.

(** the [n] bytes at [p]; [UB] unless they all lie inside the block *)
Definition load (p : ptr) (n : Z) : res (list Z) :=
  match p with
  | Null => UB
  | Ptr b _ o => if (0 <=? o) && (0 <=? n) && (o + n <=? zlen b) then OK (zslice b o n) else UB
  end.

(** one byte: [*p] for a [const xxh_u8*] *)
Definition load8 (p : ptr) : res Z :=
  let! l := load p 1 in OK (hd 0 l).

(** write [data] at index [o] of the array [b] (memcpy into a fixed-size buffer) *)
Definition store (b : list Z) (o : Z) (data : list Z) : res (list Z) :=
  if (0 <=? o) && (o + zlen data <=? zlen b)
  then OK (firstn (Z.to_nat o) b ++ data ++ skipn (Z.to_nat (o + zlen data)) b)
  else UB.

(* ------------------------------------------------------------------ *)
(** ** Typed reads *)

(** a typed load of [n] bytes in the byte order of the CPU *)
Definition native_val (c : cfg) (l : list Z) : Z := if cpu_le c then le_val l else le_val (rev l).

Definition aligned_to (p : ptr) (n : Z) : bool := paddr p mod n =? 0.

(** XXH_read32: xxhash.h:2587, 2601, 2613-2618.  Methods 0 (memcpy) and 1 (packed) have no alignment
    requirement; method 2 is a plain dereference. *)
Definition read32 (c : cfg) (p : ptr) : res Z :=
  let! _ := assert_ (negb (mem_access c =? 2) || hw_unaligned c || aligned_to p 4) in
  let! l := load p 4 in OK (native_val c l).

(** XXH_read64: xxhash.h:3260-3297 *)
Definition read64 (c : cfg) (p : ptr) : res Z :=
  let! _ := assert_ (negb (mem_access c =? 2) || hw_unaligned c || aligned_to p 8) in
  let! l := load p 8 in OK (native_val c l).

(** XXH_readLE32: xxhash.h:2801-2808, 2820-2823 (method 3 is the byte-shift form) *)
Definition readLE32 (c : cfg) (p : ptr) : res Z :=
  if mem_access c =? 3 then
    let! b0 := load8 p in
    let! b1 := load8 (padd p 1) in
    let! b2 := load8 (padd p 2) in
    let! b3 := load8 (padd p 3) in
    OK (Z.lor (Z.lor (Z.lor b0 (shl32 b1 8)) (shl32 b2 16)) (shl32 b3 24))
  else
    let! v := read32 c p in OK (if cpu_le c then v else swap32 v).

(** XXH_readBE32: xxhash.h:2810-2817, 2825-2828 *)
Definition readBE32 (c : cfg) (p : ptr) : res Z :=
  if mem_access c =? 3 then
    let! b3 := load8 (padd p 3) in
    let! b2 := load8 (padd p 2) in
    let! b1 := load8 (padd p 1) in
    let! b0 := load8 p in
    OK (Z.lor (Z.lor (Z.lor b3 (shl32 b2 8)) (shl32 b1 16)) (shl32 b0 24))
  else
    let! v := read32 c p in OK (if cpu_le c then swap32 v else v).

(** XXH_readLE64: xxhash.h:3323-3334 and 3350-3353 *)
Definition readLE64 (c : cfg) (p : ptr) : res Z :=
  if mem_access c =? 3 then
    let! b0 := load8 p in
    let! b1 := load8 (padd p 1) in
    let! b2 := load8 (padd p 2) in
    let! b3 := load8 (padd p 3) in
    let! b4 := load8 (padd p 4) in
    let! b5 := load8 (padd p 5) in
    let! b6 := load8 (padd p 6) in
    let! b7 := load8 (padd p 7) in
    OK (Z.lor (Z.lor (Z.lor (Z.lor (Z.lor (Z.lor (Z.lor b0 (shl64 b1 8)) (shl64 b2 16)) (shl64 b3 24))
          (shl64 b4 32)) (shl64 b5 40)) (shl64 b6 48)) (shl64 b7 56))
  else
    let! v := read64 c p in OK (if cpu_le c then v else swap64 v).

(** XXH_readBE64: xxhash.h:3336-3347 and 3355-3358 *)
Definition readBE64 (c : cfg) (p : ptr) : res Z :=
  if mem_access c =? 3 then
    let! b7 := load8 (padd p 7) in
    let! b6 := load8 (padd p 6) in
    let! b5 := load8 (padd p 5) in
    let! b4 := load8 (padd p 4) in
    let! b3 := load8 (padd p 3) in
    let! b2 := load8 (padd p 2) in
    let! b1 := load8 (padd p 1) in
    let! b0 := load8 p in
    OK (Z.lor (Z.lor (Z.lor (Z.lor (Z.lor (Z.lor (Z.lor b7 (shl64 b6 8)) (shl64 b5 16)) (shl64 b4 24))
          (shl64 b3 32)) (shl64 b2 40)) (shl64 b1 48)) (shl64 b0 56))
  else
    let! v := read64 c p in OK (if cpu_le c then swap64 v else v).

(** XXH_alignment: xxhash.h:2789-2792 *)
Inductive alignment := XXH_aligned | XXH_unaligned.

(** XXH_readLE32_align: xxhash.h:2831-2839.  The aligned case is a plain typed dereference, hence
    [UB] on a misaligned address (on every target). *)
Definition readLE32_align (c : cfg) (p : ptr) (al : alignment) : res Z :=
  match al with
  | XXH_unaligned => readLE32 c p
  | XXH_aligned =>
      let! _ := assert_ (aligned_to p 4) in
      let! l := load p 4 in
      OK (if cpu_le c then native_val c l else swap32 (native_val c l))
  end.

(** XXH_readLE64_align: xxhash.h:3361-3368 *)
Definition readLE64_align (c : cfg) (p : ptr) (al : alignment) : res Z :=
  match al with
  | XXH_unaligned => readLE64 c p
  | XXH_aligned =>
      let! _ := assert_ (aligned_to p 8) in
      let! l := load p 8 in
      OK (if cpu_le c then native_val c l else swap64 (native_val c l))
  end.

(** bytes of a word stored in memory by the CPU (memcpy from a variable) *)
Definition native_bytes (c : cfg) (n : nat) (x : Z) : list Z :=
  if cpu_le c then le_bytes n x else rev (le_bytes n x).
