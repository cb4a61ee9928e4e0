(** Model of the run-time dispatcher for x86 (xxh_x86dispatch.c).  The configuration [c] describes the translation
    unit xxh_x86dispatch.c itself, which includes xxhash.h with XXH_INLINE_ALL and XXH_X86DISPATCH defined
    (xxh_x86dispatch.c:228-232). *)
From Verif Require Import Base Mem M_XXH32 M_XXH64 M_XXH3 M_Kernels M_Long M_Stream3.

(** What the processor and the operating system report (XXH_cpuid, XXH_xgetbv: xxh_x86dispatch.c:282-346).
    [cpuid] leaf subleaf gives (eax, ebx, ecx, edx); leaves above the maximum return arbitrary values. *)
Record cpu := Cpu { has_cpuid : bool; cpuid : Z -> Z -> Z * Z * Z * Z; xcr0 : Z }.
Definition r_eax (r : Z * Z * Z * Z) : Z := fst (fst (fst r)).
Definition r_ebx (r : Z * Z * Z * Z) : Z := snd (fst (fst r)).
Definition r_ecx (r : Z * Z * Z * Z) : Z := snd (fst r).
Definition r_edx (r : Z * Z * Z * Z) : Z := snd r.

(** build switches of xxh_x86dispatch.c: XXH_DISPATCH_SCALAR / AVX2 / AVX512 (lines 113-167), the GNU i386 test of
    the EFLAGS ID bit (line 379), and XXH_DISPATCH_MAYBE_NULL (lines 245-251; 0 when constructors are available) *)
Record dcfg := Dcfg { d_scalar : bool; d_avx2 : bool; d_avx512 : bool; d_gnu_i386 : bool; maybe_null : bool }.

(** XXH_cpuid: xxh_x86dispatch.c:282-310.  The instruction traps on a processor without it. *)
Definition XXH_cpuid (p : cpu) (eax ecx : Z) : res (Z * Z * Z * Z) :=
  if has_cpuid p then OK (cpuid p eax ecx) else UB.
(** XXH_xgetbv: xxh_x86dispatch.c:334-350.  The instruction traps unless the OSXSAVE flag (leaf 1, ecx bit 27) is set. *)
Definition XXH_xgetbv (p : cpu) : res Z :=
  if has_cpuid p && Z.testbit (r_ecx (cpuid p 1 0)) 27 then OK (xcr0 p) else UB.

(** masks: xxh_x86dispatch.c:354-359 *)
Definition SSE2_CPUID_MASK := Z.shiftl 1 26.
Definition OSXSAVE_CPUID_MASK := Z.lor (Z.shiftl 1 26) (Z.shiftl 1 27).
Definition AVX2_CPUID_MASK := Z.shiftl 1 5.
Definition AVX2_XGETBV_MASK := Z.lor (Z.shiftl 1 2) (Z.shiftl 1 1).
Definition AVX512F_CPUID_MASK := Z.shiftl 1 16.
Definition AVX512F_XGETBV_MASK := Z.lor (Z.lor (Z.shiftl 7 5) (Z.shiftl 1 2)) (Z.shiftl 1 1).
(** the test [(x & mask) != mask] used throughout xxh_x86dispatch.c:431-482 *)
Definition lacks (x mask : Z) : bool := negb (Z.land x mask =? mask).

(** XXH_VECTOR_TYPE values: xxhash.h:3855-3863 *)
Definition XXH_SCALAR := 0. Definition XXH_SSE2 := 1. Definition XXH_AVX2 := 2. Definition XXH_AVX512 := 3.

(** XXH_featureTest: xxh_x86dispatch.c:371-488.  The [return best] statements are the branches' results; the
    assembly that toggles the EFLAGS ID bit (381-411) yields [has_cpuid]. *)
Definition featureTest (d : dcfg) (p : cpu) : res Z :=
  let best := XXH_SCALAR in
  if d_gnu_i386 d && negb (has_cpuid p) then OK best
  else
    let! abcd := XXH_cpuid p 0 0 in
    let max_leaves := r_eax abcd in
    if max_leaves =? 0 then OK best
    else
      let! abcd := XXH_cpuid p 1 0 in
      if lacks (r_edx abcd) SSE2_CPUID_MASK then OK best
      else
        let best := XXH_SSE2 in
        if d_avx2 d || d_avx512 d then
          if max_leaves <? 7 then OK best
          else if lacks (r_ecx abcd) OSXSAVE_CPUID_MASK then OK best
          else
            let! abcd := XXH_cpuid p 7 0 in
            let! xgetbv_val := XXH_xgetbv p in
            if d_avx2 d && lacks (r_ebx abcd) AVX2_CPUID_MASK then OK best
            else if d_avx2 d && lacks xgetbv_val AVX2_XGETBV_MASK then OK best
            else
              let best := if d_avx2 d then XXH_AVX2 else best in
              if d_avx512 d then
                if lacks (r_ebx abcd) AVX512F_CPUID_MASK then OK best
                else if lacks xgetbv_val AVX512F_XGETBV_MASK then OK best
                else OK XXH_AVX512
              else OK best
        else OK best.

(** the three kernels with a given suffix: XXH3_accumulate_##suffix, XXH3_scrambleAcc_##suffix,
    XXH3_initCustomSecret_##suffix (xxhash.h:4795-5800) *)
Record kernels := Kernels { k_acc : f_accumulate; k_scr : f_scramble; k_init : f_initSec }.
Definition k_scalar (c : cfg) := Kernels (accumulate_template (accumulate_512_scalar c)) (scrambleAcc_scalar c) (initCustomSecret_scalar c).
Definition k_sse2 (c : cfg) := Kernels (accumulate_template (accumulate_512_sse2 c)) (scrambleAcc_sse2 c) (initCustomSecret_sse2 c).
Definition k_avx2 (c : cfg) := Kernels (accumulate_template (accumulate_512_avx2 c)) (scrambleAcc_avx2 c) (initCustomSecret_avx2 c).
Definition k_avx512 (c : cfg) := Kernels (accumulate_template (accumulate_512_avx512 c)) (scrambleAcc_avx512 c) (initCustomSecret_avx512 c).

(** XXH_DEFINE_DISPATCH_FUNCS: xxh_x86dispatch.c:504-603, one definition per generated function *)
Section Funcs.
Variables (c : cfg) (k : kernels).
Definition XXHL64_default (input : ptr) (len : Z) : res Z :=
  hashLong_64b_internal c input len kSecret_ptr 192 (k_acc k) (k_scr k).
Definition XXHL64_seed (input : ptr) (len seed : Z) : res Z :=
  hashLong_64b_withSeed_internal c input len seed (k_acc k) (k_scr k) (k_init k).
Definition XXHL64_secret (input : ptr) (len : Z) (secret : ptr) (secretLen : Z) : res Z :=
  hashLong_64b_internal c input len secret secretLen (k_acc k) (k_scr k).
Definition XXH3_update_suffix (st : state3) (input : ptr) (len : Z) : res (errorcode * state3) :=
  XXH3_update c st input len (k_acc k) (k_scr k).
Definition XXHL128_default (input : ptr) (len : Z) : res (Z * Z) :=
  hashLong_128b_internal c input len kSecret_ptr 192 (k_acc k) (k_scr k).
Definition XXHL128_secret (input : ptr) (len : Z) (secret : ptr) (secretLen : Z) : res (Z * Z) :=
  hashLong_128b_internal c input len secret secretLen (k_acc k) (k_scr k).
Definition XXHL128_seed (input : ptr) (len seed : Z) : res (Z * Z) :=
  hashLong_128b_withSeed_internal c input len seed (k_acc k) (k_scr k) (k_init k).
End Funcs.

(** XXH_dispatchFunctions_s and XXH_dispatch128Functions_s (xxh_x86dispatch.c:617-622, 665-670); [None] is NULL.
    [H] is the hash type: [Z] for the 64-bit table, [Z * Z] for the 128-bit one. *)
Record table (H : Type) := Table {
  t_default : option (ptr -> Z -> res H);
  t_seed    : option (ptr -> Z -> Z -> res H);
  t_secret  : option (ptr -> Z -> ptr -> Z -> res H);
  t_update  : option (state3 -> ptr -> Z -> res (errorcode * state3)) }.
Arguments Table {H}. Arguments t_default {H}. Arguments t_seed {H}. Arguments t_secret {H}. Arguments t_update {H}.
Definition null_table {H} : table H := Table None None None None.
(** one row of XXH_kDispatch / XXH_kDispatch128: xxh_x86dispatch.c:633-649, 680-696 *)
Definition row64 (c : cfg) (k : kernels) : table Z :=
  Table (Some (XXHL64_default c k)) (Some (XXHL64_seed c k)) (Some (XXHL64_secret c k)) (Some (XXH3_update_suffix c k)).
Definition row128 (c : cfg) (k : kernels) : table (Z * Z) :=
  Table (Some (XXHL128_default c k)) (Some (XXHL128_seed c k)) (Some (XXHL128_secret c k)) (Some (XXH3_update_suffix c k)).
(** XXH_kDispatch[4]: xxh_x86dispatch.c:633-650 *)
Definition kDispatch (c : cfg) (d : dcfg) : list (table Z) :=
  [ if d_scalar d then row64 c (k_scalar c) else null_table;
    row64 c (k_sse2 c);
    if d_avx2 d then row64 c (k_avx2 c) else null_table;
    if d_avx512 d then row64 c (k_avx512 c) else null_table ].
(** XXH_kDispatch128[4]: xxh_x86dispatch.c:680-697 *)
Definition kDispatch128 (c : cfg) (d : dcfg) : list (table (Z * Z)) :=
  [ if d_scalar d then row128 c (k_scalar c) else null_table;
    row128 c (k_sse2 c);
    if d_avx2 d then row128 c (k_avx2 c) else null_table;
    if d_avx512 d then row128 c (k_avx512 c) else null_table ].

(** the two globals XXH_g_dispatch and XXH_g_dispatch128: xxh_x86dispatch.c:655 and 703 *)
Record globals := Globals { g64 : table Z; g128 : table (Z * Z) }.
Definition g_zero : globals := Globals null_table null_table.
(** array access; an index outside the array is undefined behaviour (xxh_x86dispatch.c:723-724) *)
Definition tget {A} (l : list A) (i : Z) : res A :=
  if i <? 0 then UB else match nth_error l (Z.to_nat i) with Some x => OK x | None => UB end.

(** XXH_setDispatch: xxh_x86dispatch.c:709-725.  The asserts are compiled out (NDEBUG is forced at line 223);
    the non-atomic writes are those of one thread. *)
Definition setDispatch (c : cfg) (d : dcfg) (p : cpu) (g : globals) : res globals :=
  let! vecID := featureTest d p in
  let! t := tget (kDispatch c d) vecID in
  let! t128 := tget (kDispatch128 c d) vecID in
  OK (Globals t t128).
(** the globals when main starts: XXH_setDispatch is a constructor when XXH_DISPATCH_MAYBE_NULL is 0
    (xxh_x86dispatch.c:245-251, 709) *)
Definition g_start (c : cfg) (d : dcfg) (p : cpu) : res globals :=
  if maybe_null d then OK g_zero else setDispatch c d p g_zero.

Definition is_none {A} (o : option A) : bool := match o with None => true | _ => false end.
(** [if (XXH_DISPATCH_MAYBE_NULL && slot == NULL) XXH_setDispatch();], the first statement of every selection
    function, e.g. xxh_x86dispatch.c:736-737 *)
Definition ensure {A} (c : cfg) (d : dcfg) (p : cpu) (slot : globals -> option A) (g : globals) : res globals :=
  if maybe_null d && is_none (slot g) then setDispatch c d p g else OK g.
(** calling a function pointer; NULL is undefined behaviour (xxh_x86dispatch.c:738, 753, 768, 782, 798, 813, 828, 841) *)
Definition callp {A} (o : option A) : res A := match o with Some f => OK f | None => UB end.

(** The public functions: xxh_x86dispatch.c:732-842.  Each returns its value and the globals it leaves behind.  The selection function runs
    inside XXH3_64bits_internal exactly when len > XXH3_MIDSIZE_MAX, so the model decides on the length first
    whether it touches the globals, and hands XXH3_64bits_internal a selection function that only makes the call. *)
Definition with_globals {A H} (c : cfg) (d : dcfg) (p : cpu) (slot : globals -> option A) (g : globals) (len : Z)
    (k : globals -> res H) : res (H * globals) :=
  let! g := if len <=? MIDSIZE_MAX then OK g else ensure c d p slot g in
  let! h := k g in
  OK (h, g).
Section Public.
Variables (c : cfg) (d : dcfg) (p : cpu).

(** XXH3_64bits_dispatch and XXH3_hashLong_64b_defaultSecret_selection: xxh_x86dispatch.c:731-744 *)
Definition XXH3_64bits_dispatch (g : globals) (input : ptr) (len : Z) : res (Z * globals) :=
  with_globals c d p (fun g => t_default (g64 g)) g len (fun g =>
    XXH3_64bits_internal c input len 0 kSecret_ptr 192
      (fun input len seed64 secret secretLen => let! f := callp (t_default (g64 g)) in f input len)).
(** XXH3_64bits_withSeed_dispatch and its selection function: xxh_x86dispatch.c:746-759 *)
Definition XXH3_64bits_withSeed_dispatch (g : globals) (input : ptr) (len seed : Z) : res (Z * globals) :=
  with_globals c d p (fun g => t_seed (g64 g)) g len (fun g =>
    XXH3_64bits_internal c input len seed kSecret_ptr 192
      (fun input len seed64 secret secretLen => let! f := callp (t_seed (g64 g)) in f input len seed64)).
(** XXH3_64bits_withSecret_dispatch and its selection function: xxh_x86dispatch.c:761-774 *)
Definition XXH3_64bits_withSecret_dispatch (g : globals) (input : ptr) (len : Z) (secret : ptr) (secretLen : Z) : res (Z * globals) :=
  with_globals c d p (fun g => t_secret (g64 g)) g len (fun g =>
    XXH3_64bits_internal c input len 0 secret secretLen
      (fun input len seed64 secret secretLen => let! f := callp (t_secret (g64 g)) in f input len secret secretLen)).
(** XXH3_64bits_update_dispatch: xxh_x86dispatch.c:776-783 *)
Definition XXH3_64bits_update_dispatch (g : globals) (st : state3) (input : ptr) (len : Z) : res (errorcode * state3 * globals) :=
  let! g := ensure c d p (fun g => t_update (g64 g)) g in
  let! f := callp (t_update (g64 g)) in
  let! r := f st input len in
  OK (r, g).
(** XXH3_128bits_dispatch and its selection function: xxh_x86dispatch.c:791-804 *)
Definition XXH3_128bits_dispatch (g : globals) (input : ptr) (len : Z) : res (Z * Z * globals) :=
  with_globals c d p (fun g => t_default (g128 g)) g len (fun g =>
    XXH3_128bits_internal c input len 0 kSecret_ptr 192
      (fun input len seed64 secret secretLen => let! f := callp (t_default (g128 g)) in f input len)).
(** XXH3_128bits_withSeed_dispatch and its selection function: xxh_x86dispatch.c:806-819 *)
Definition XXH3_128bits_withSeed_dispatch (g : globals) (input : ptr) (len seed : Z) : res (Z * Z * globals) :=
  with_globals c d p (fun g => t_seed (g128 g)) g len (fun g =>
    XXH3_128bits_internal c input len seed kSecret_ptr 192
      (fun input len seed64 secret secretLen => let! f := callp (t_seed (g128 g)) in f input len seed64)).
(** XXH3_128bits_withSecret_dispatch and its selection function: xxh_x86dispatch.c:821-834 *)
Definition XXH3_128bits_withSecret_dispatch (g : globals) (input : ptr) (len : Z) (secret : ptr) (secretLen : Z) : res (Z * Z * globals) :=
  with_globals c d p (fun g => t_secret (g128 g)) g len (fun g =>
    XXH3_128bits_internal c input len 0 secret secretLen
      (fun input len seed64 secret secretLen => let! f := callp (t_secret (g128 g)) in f input len secret secretLen)).
(** XXH3_128bits_update_dispatch: xxh_x86dispatch.c:836-842 *)
Definition XXH3_128bits_update_dispatch (g : globals) (st : state3) (input : ptr) (len : Z) : res (errorcode * state3 * globals) :=
  let! g := ensure c d p (fun g => t_update (g128 g)) g in
  let! f := callp (t_update (g128 g)) in
  let! r := f st input len in
  OK (r, g).
End Public.
