(** Model of the way the preprocessor chooses the build: the conditional blocks of xxhash.h that give the XXH_* settings their
    values, and those of xxh_x86dispatch.c that choose its switches.

    A translation unit is compiled in an environment: the macros the compiler predefines and those given on the command line, each
    with its value.  The [#if] expressions are transcribed as they stand, with the rule of C (6.10.1) that an identifier which is no
    macro has the value 0.  Simplification: a macro is [Some] integer; one that is defined to nothing, or to an expression which is
    no constant, has any integer here (the code asks of such macros only whether they are defined). *)
From Coq Require Import String.
From Verif Require Import Base Mem M_Kernels M_Dispatch.
Open Scope string_scope.
Open Scope Z_scope.
Module Conf.

(** macros and their values (C standard, 6.10.1: [defined X], and the value of an identifier in [#if]; used by every #if of
    xxhash.h:2279-6293) *)
Definition env := string -> option Z.
Definition defd (e : env) (x : string) : bool := match e x with Some _ => true | None => false end.
Definition val (e : env) (x : string) : Z := match e x with Some v => v | None => 0 end.

(** What is fixed outside the preprocessor: the byte order of the target, whether it tolerates misaligned loads, the widths of
    size_t (in bits) and of a pointer (in bytes), the natural alignment of a 64-bit integer, the SVE registers (64-bit lanes, and
    what inactive lanes hold), and the answers of XXH_HAS_INCLUDE (xxhash.h:3741, 3901; xxh_x86dispatch.c:141, 165) and of
    XXH_HAS_ATTRIBUTE(constructor) (xxh_x86dispatch.c:245). *)
Record target := Target { t_le : bool; t_unaligned : bool; t_szbits : Z; t_ptr : Z; t_u64 : Z; t_sve : nat; t_junk : Z;
  has_arm_neon_h : bool; has_avx2intrin_h : bool; has_avx512fintrin_h : bool; has_constructor : bool }.

Section Select.
Variables (e : env) (t : target).

(** XXH_FORCE_MEMORY_ACCESS: xxhash.h:2279-2286.  Left undefined it is 0 here: every test of it is of the form
    [defined(X) && X == k] with k = 1, 2 or 3 (2576, 2581, 2589, 2799, 3255, 3260, 3268, 3321) *)
Definition FORCE_MEMORY_ACCESS : Z :=
  if defd e "XXH_FORCE_MEMORY_ACCESS" then val e "XXH_FORCE_MEMORY_ACCESS"
  else if defd e "__GNUC__" && negb (defd e "__ARM_ARCH" && (val e "__ARM_ARCH" <? 7) && defd e "__ARM_FEATURE_UNALIGNED") then 1
  else 0.
(** XXH_SIZE_OPT: xxhash.h:2288-2295 *)
Definition SIZE_OPT : Z :=
  if defd e "XXH_SIZE_OPT" then val e "XXH_SIZE_OPT"
  else if (defd e "__GNUC__" || defd e "__clang__") && defd e "__OPTIMIZE_SIZE__" then 1 else 0.
(** XXH_FORCE_ALIGN_CHECK: xxhash.h:2297-2306 *)
Definition FORCE_ALIGN_CHECK : Z :=
  if defd e "XXH_FORCE_ALIGN_CHECK" then val e "XXH_FORCE_ALIGN_CHECK"
  else if (1 <=? SIZE_OPT) || defd e "__i386" || defd e "__x86_64__" || defd e "__aarch64__" || defd e "__ARM_FEATURE_UNALIGNED"
       || defd e "_M_IX86" || defd e "_M_X64" || defd e "_M_ARM64" || defd e "_M_ARM" then 0 else 1.
(** XXH32_ENDJMP: xxhash.h:2325-2328 *)
Definition ENDJMP : Z := if defd e "XXH32_ENDJMP" then val e "XXH32_ENDJMP" else 0.

(** XXH_isLittleEndian: xxhash.h:2660-2668: the first byte of a 32-bit 1 in memory *)
Definition isLittleEndian : Z := hd 0 (if t_le t then le_bytes 4 1 else rev (le_bytes 4 1)).
(** the tests of the byte order: xxhash.h:2646-2648, 2650-2651 (and again 3903-3904, 4168-4169) *)
Definition le_macros : bool := defd e "_WIN32" || defd e "__LITTLE_ENDIAN__" ||
  (defd e "__BYTE_ORDER__" && (val e "__BYTE_ORDER__" =? val e "__ORDER_LITTLE_ENDIAN__")).
Definition be_macros : bool := defd e "__BIG_ENDIAN__" ||
  (defd e "__BYTE_ORDER__" && (val e "__BYTE_ORDER__" =? val e "__ORDER_BIG_ENDIAN__")).
(** XXH_CPU_LITTLE_ENDIAN: xxhash.h:2641-2671 *)
Definition CPU_LITTLE_ENDIAN : Z :=
  if defd e "XXH_CPU_LITTLE_ENDIAN" then val e "XXH_CPU_LITTLE_ENDIAN"
  else if le_macros then 1 else if be_macros then 0 else isLittleEndian.

(** XXH_VECTOR: xxhash.h:3885-3931; the values are those of 3886-3892 *)
Definition neon_macros : bool := defd e "__ARM_NEON__" || defd e "__ARM_NEON" || defd e "_M_ARM" || defd e "_M_ARM64" || defd e "_M_ARM64EC" ||
  (defd e "__wasm_simd128__" && has_arm_neon_h t).
Definition sse2_macros : bool := defd e "__SSE2__" || defd e "_M_AMD64" || defd e "_M_X64" || (defd e "_M_IX86_FP" && (val e "_M_IX86_FP" =? 2)).
Definition vsx_macros : bool := (defd e "__PPC64__" && defd e "__POWER8_VECTOR__") || ((defd e "__s390x__" && defd e "__VEC__") && defd e "__GNUC__").
Definition VECTOR : Z :=
  let v :=
    if defd e "XXH_VECTOR" then val e "XXH_VECTOR"
    else if defd e "__ARM_FEATURE_SVE" then 6
    else if neon_macros && le_macros then 4
    else if defd e "__AVX512F__" then 3
    else if defd e "__AVX2__" then 2
    else if sse2_macros then 1
    else if vsx_macros then 5
    else 0 in
  if (v =? 6) && negb (defd e "__ARM_FEATURE_SVE") then 0 else v.

(** XXH_ACC_ALIGN: xxhash.h:3937-3955; [None] when no branch defines it (using it is then an error) *)
Definition ACC_ALIGN : option Z :=
  if defd e "XXH_ACC_ALIGN" then Some (val e "XXH_ACC_ALIGN")
  else if defd e "XXH_X86DISPATCH" then Some 64
  else if VECTOR =? 0 then Some 8
  else if VECTOR =? 1 then Some 16
  else if VECTOR =? 2 then Some 32
  else if VECTOR =? 4 then Some 16
  else if VECTOR =? 5 then Some 16
  else if VECTOR =? 3 then Some 64
  else if VECTOR =? 6 then Some 64
  else None.
(** XXH_SEC_ALIGN: xxhash.h:3957-3964 *)
Definition SEC_ALIGN : option Z :=
  if defd e "XXH_X86DISPATCH" || (VECTOR =? 1) || (VECTOR =? 2) || (VECTOR =? 3) then ACC_ALIGN
  else if VECTOR =? 6 then ACC_ALIGN
  else Some 8.
(** XXH_ALIGN: xxhash.h:1690-1701: whether a declaration can ask for an alignment *)
Definition can_align : bool := (defd e "__STDC_VERSION__" && (201112 <=? val e "__STDC_VERSION__")) ||
  (defd e "__cplusplus" && (201103 <=? val e "__cplusplus")) || defd e "__GNUC__" || defd e "_MSC_VER".
(** the alignment which a local of 64-bit integers declared XXH_ALIGN(n) is sure to have: xxhash.h:5912, 6316, 6427, 6729, 6925; and
    an array of bytes: 5977, 6789, 7061 *)
Definition declared_u64 (n : Z) : Z := if can_align then n else t_u64 t.
Definition declared_u8 (n : Z) : Z := if can_align then n else 1.

(** XXH3_NEON_LANES: xxhash.h:4112-4119 *)
Definition NEON_LANES : Z :=
  if defd e "XXH3_NEON_LANES" then val e "XXH3_NEON_LANES"
  else if (defd e "__aarch64__" || defd e "__arm64__" || defd e "_M_ARM64" || defd e "_M_ARM64EC") && negb (defd e "__APPLE__") && (SIZE_OPT <=? 0) then 6
  else 8.
(** XXH_VSX_BE: xxhash.h:4167-4177 *)
Definition VSX_BE : Z :=
  if defd e "XXH_VSX_BE" then val e "XXH_VSX_BE"
  else if be_macros then 1
  else if defd e "__VEC_ELEMENT_REG_ORDER__" && (val e "__VEC_ELEMENT_REG_ORDER__" =? val e "__ORDER_BIG_ENDIAN__") then 1
  else 0.
(** which product XXH_mult64to128 uses: xxhash.h:4368-4370, 4385, 4403 (true: one of the three native ones) *)
Definition MUL128 : bool :=
  ((defd e "__GNUC__" || defd e "__clang__") && negb (defd e "__wasm__") && defd e "__SIZEOF_INT128__") ||
  (defd e "_INTEGRAL_MAX_BITS" && (128 <=? val e "_INTEGRAL_MAX_BITS")) ||
  ((defd e "_M_X64" || defd e "_M_IA64") && negb (defd e "_M_ARM64EC")) ||
  (defd e "_M_ARM64" || defd e "_M_ARM64EC").
(** XXH3_STREAM_USE_STACK: xxhash.h:6289-6293, tested at 6311 and 6367 *)
Definition STREAM_USE_STACK : bool :=
  if defd e "XXH3_STREAM_USE_STACK" then 1 <=? val e "XXH3_STREAM_USE_STACK"
  else (SIZE_OPT <=? 0) && negb (defd e "__clang__").

(** the kernels: xxhash.h:5780-5828 (and __wasm_simd128__ at 5241, 5365, 5386) *)
Definition kernels_of (v : Z) : vectype :=
  if v =? 3 then V_AVX512 else if v =? 2 then V_AVX2 else if v =? 1 then V_SSE2
  else if v =? 4 then V_NEON (Z.to_nat NEON_LANES) (defd e "__wasm_simd128__")
  else if v =? 5 then V_VSX else if v =? 6 then V_SVE (t_sve t) (t_junk t) else V_SCALAR.
(** the static assertions that concern the settings: xxhash.h:5233 (NEON), 4960 (AVX512), 5054 (AVX2).  Simplification: in the
    dispatcher's unit the last two are compiled too; they hold there unless XXH_ACC_ALIGN is given *)
Definition static_asserts (sec : Z) : bool :=
  (negb (VECTOR =? 4) || ((0 <? NEON_LANES) && (NEON_LANES <=? 8) && (Z.rem NEON_LANES 2 =? 0))) &&
  (negb (VECTOR =? 3) || (sec =? 64)) && (negb (VECTOR =? 2) || (sec <=? 64)).

(** What comes out: the configuration record of the model, the alignments, the byte order taken by the VSX loads.  [None]: the unit
    does not compile *)
Record build := Build { b_cfg : cfg; b_acc : Z; b_sec : Z; b_vsx_be : bool }.
(** a compilation of xxhash.h (the blocks cited above, in order) *)
Definition compile : option build :=
  match ACC_ALIGN, SEC_ALIGN with
  | Some acc, Some sec =>
      if static_asserts sec then
        Some (Build
          (Cfg (negb (CPU_LITTLE_ENDIAN =? 0)) FORCE_MEMORY_ACCESS (t_unaligned t) (negb (FORCE_ALIGN_CHECK =? 0)) (negb (ENDJMP =? 0)) SIZE_OPT
               (t_szbits t) MUL128 (t_ptr t <? 8) (kernels_of VECTOR) STREAM_USE_STACK (defd e "XXH_X86DISPATCH"))
          (declared_u64 acc) (declared_u8 sec) (negb (VSX_BE =? 0)))
      else None
  | _, _ => None
  end.

(** XXH_DISPATCH_SCALAR, _AVX2, _AVX512: xxh_x86dispatch.c:114-122, 137-146, 161-170 *)
Definition DISPATCH_SCALAR : Z :=
  if defd e "XXH_DISPATCH_SCALAR" then val e "XXH_DISPATCH_SCALAR"
  else if defd e "__SSE2__" || (defd e "_M_IX86_FP" && (2 <=? val e "_M_IX86_FP")) || defd e "__x86_64__" || defd e "_M_X64"
       || defd e "__ANDROID__" || defd e "__APPLE__" then 0 else 1.
Definition DISPATCH_AVX2 : Z :=
  if defd e "XXH_DISPATCH_AVX2" then val e "XXH_DISPATCH_AVX2"
  else if (defd e "__GNUC__" && (4 <? val e "__GNUC__")) || (defd e "_MSC_VER" && (1900 <=? val e "_MSC_VER"))
       || (defd e "_MSC_FULL_VER" && (180030501 <=? val e "_MSC_FULL_VER")) || has_avx2intrin_h t then 1 else 0.
Definition DISPATCH_AVX512 : Z :=
  if defd e "XXH_DISPATCH_AVX512" then val e "XXH_DISPATCH_AVX512"
  else if (defd e "__GNUC__" && ((4 <? val e "__GNUC__") || ((val e "__GNUC__" =? 4) && (9 <=? val e "__GNUC_MINOR__"))))
       || (defd e "_MSC_VER" && (1910 <=? val e "_MSC_VER")) || has_avx512fintrin_h t then 1 else 0.
(** the switches: those three, [defined(__GNUC__) && defined(__i386__)] (379), XXH_DISPATCH_MAYBE_NULL (245-251).  [None]: one of the
    #error directives of 55-57, 96-99, 186-213 *)
Definition dispatch_switches : option dcfg :=
  if negb (defd e "__x86_64__" || defd e "__i386__" || defd e "_M_IX86" || defd e "_M_X64") then None
  else if defd e "__AVX__" && negb (defd e "XXH_X86DISPATCH_ALLOW_AVX") then None
  else if negb (defd e "__GNUC__" || (defd e "__clang__" && defd e "_MSC_VER") || defd e "_MSC_VER") then None
  else Some (Dcfg (negb (DISPATCH_SCALAR =? 0)) (negb (DISPATCH_AVX2 =? 0)) (negb (DISPATCH_AVX512 =? 0)) (defd e "__GNUC__" && defd e "__i386__")
                  (negb (has_constructor t))).
End Select.

(** xxh_x86dispatch.c:230: the unit defines XXH_X86DISPATCH and includes xxhash.h *)
Definition define (e : env) (x : string) (v : Z) : env := fun y => if String.eqb y x then Some v else e y.
Definition compile_dispatch (e : env) (t : target) : option (build * dcfg) :=
  match dispatch_switches e t, compile (define e "XXH_X86DISPATCH" 1) t with
  | Some d, Some b => Some (b, d)
  | _, _ => None
  end.
End Conf.
