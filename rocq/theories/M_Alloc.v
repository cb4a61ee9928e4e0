(** Model of XXH3_createState / XXH3_freeState and of the allocator behind them (xxhash.h:6056-6157).

    The heap is the list of blocks malloc handed out and free has not taken back: base address and bytes.
    malloc itself is not modelled: its answer (NULL, or a base address and the indeterminate content of the new
    block) is an argument, and the theorems quantify over every answer the C library may give. *)
From Verif Require Import Base Mem M_XXH32 M_XXH64 M_XXH3 M_Kernels M_Long M_Stream3.

Record block := Block { b_base : Z; b_data : list Z }.
Notation heap := (list block).
Definition inside (b : block) (a : Z) : bool := (b_base b <=? a) && (a <? b_base b + zlen (b_data b)).

(** one byte at an address; undefined outside live blocks (used at xxhash.h:6100, 6115) *)
Fixpoint hload (h : heap) (a : Z) : res Z :=
  match h with
  | [] => UB
  | b :: h => if inside b a then OK (nth (Z.to_nat (a - b_base b)) (b_data b) 0) else hload h a
  end.
Definition upd_block (b : block) (a v : Z) : block :=
  let i := Z.to_nat (a - b_base b) in Block (b_base b) (firstn i (b_data b) ++ v :: skipn (S i) (b_data b)).
Fixpoint hstore (h : heap) (a v : Z) : res heap :=
  match h with
  | [] => UB
  | b :: h => if inside b a then OK (upd_block b a v :: h) else let! h := hstore h a v in OK (b :: h)
  end.
(** XXH_free: xxhash.h:2373.  free(p) is undefined unless [p] is the base of a live block (ISO C 7.22.3.3); free(NULL) does nothing *)
Fixpoint hfree (h : heap) (a : Z) : res heap :=
  match h with
  | [] => UB
  | b :: h => if b_base b =? a then OK h else let! h := hfree h a in OK (b :: h)
  end.
Definition XXH_free (h : heap) (a : Z) : res heap := if a =? 0 then OK h else hfree h a.

(** XXH_malloc: xxhash.h:2367 (the C library's malloc) *)
Definition malloc_answer := option (Z * list Z).
Definition XXH_malloc (h : heap) (ans : malloc_answer) : Z * heap :=
  match ans with None => (0, h) | Some (base, content) => (base, Block base content :: h) end.

(** XXH_alignedMalloc: xxhash.h:6080-6107.  Returns the pointer as an address, 0 for NULL. *)
Definition alignedMalloc (c : cfg) (h : heap) (s align : Z) (ans : malloc_answer) : res (Z * heap) :=
  let! _ := assert_ ((align <=? 128) && (8 <=? align)) in
  let! _ := assert_ (Z.land align (align - 1) =? 0) in
  let! _ := assert_ (negb (s =? 0) && (s <? usz c (s + align))) in
  let '(base, h) := XXH_malloc h ans in
  if negb (base =? 0) then
    let offset := usz c (align - Z.land base (align - 1)) in
    let ptr := base + offset in
    let! _ := assert_ (ptr mod align =? 0) in
    let! h := hstore h (ptr - 1) (offset mod 256) in
    OK (ptr, h)
  else OK (0, h).

(** XXH_alignedFree: xxhash.h:6110-6122.  Also returns the address given to free(). *)
Definition alignedFree (h : heap) (p : Z) : res (Z * heap) :=
  if negb (p =? 0) then
    let! offset := hload h (p - 1) in
    let base := p - offset in
    let! h := XXH_free h base in
    OK (base, h)
  else OK (0, h).

(** sizeof(XXH3_state_t): xxhash.h:1754-1782; three 64-byte aligned arrays (64, 192, 256 bytes) and at most 64 bytes of scalar
    members, rounded up to the alignment, on 32-bit and 64-bit targets alike *)
Definition SIZEOF_STATE3 : Z := 576.

(** XXH3_createState: xxhash.h:6132-6138.  [garbage] is what the uninitialised members of the new object read as. *)
Definition XXH3_createState (c : cfg) (h : heap) (ans : malloc_answer) (garbage : state3) : res (option state3 * heap) :=
  let! (p, h) := alignedMalloc c h SIZEOF_STATE3 64 ans in
  if p =? 0 then OK (None, h)
  else OK (Some (XXH3_INITSTATE
       (State3 p (s3_acc garbage) (s3_customSecret garbage) (s3_buffer garbage) (s3_bufferedSize garbage) (s3_useSeed garbage)
          (s3_nbStripesSoFar garbage) (s3_totalLen garbage) (s3_nbStripesPerBlock garbage) (s3_secretLimit garbage)
          (s3_seed garbage) (s3_extSecret garbage))), h).
(** XXH3_freeState: xxhash.h:6152-6156, given the state's address *)
Definition XXH3_freeState (h : heap) (p : Z) : res (errorcode * Z * heap) :=
  let! (base, h) := alignedFree h p in OK (XXH_OK, base, h).

(** sizeof(XXH32_state_t): xxhash.h:1655-1662; sizeof(XXH64_state_t): xxhash.h:1679-1686 *)
Definition SIZEOF_STATE32 : Z := 48.
Definition SIZEOF_STATE64 : Z := 88.
(** malloc(size) for the two plain states: [libc] is the C library's answer to a request of that size (xxhash.h:2367) *)
Definition malloc_sized (h : heap) (libc : Z -> malloc_answer) (size : Z) : Z * heap := XXH_malloc h (libc size).
(** XXH32_createState: xxhash.h:3116-3119; the address, 0 for NULL *)
Definition XXH32_createState (h : heap) (libc : Z -> malloc_answer) : Z * heap := malloc_sized h libc SIZEOF_STATE32.
(** XXH32_freeState: xxhash.h:3121-3125 *)
Definition XXH32_freeState (h : heap) (p : Z) : res (errorcode * heap) := let! h := XXH_free h p in OK (XXH_OK, h).
(** XXH64_createState: xxhash.h:3562-3565 *)
Definition XXH64_createState (h : heap) (libc : Z -> malloc_answer) : Z * heap := malloc_sized h libc SIZEOF_STATE64.
(** XXH64_freeState: xxhash.h:3567-3571 *)
Definition XXH64_freeState (h : heap) (p : Z) : res (errorcode * heap) := let! h := XXH_free h p in OK (XXH_OK, h).
