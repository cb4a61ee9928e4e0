(** What compilers promise about the macros they predefine, and what xxhash.h asks of whoever sets its macros: the vocabulary of the
    statements about M_Config.v (C96, C97). *)
From Coq Require Import String.
From Verif Require Import Base Mem M_Kernels M_Dispatch SpecCpu M_Config.
Import Conf.
Open Scope string_scope.
Open Scope Z_scope.

(** macros that only compilers for little-endian targets predefine *)
Definition little_endian_names : list string :=
  ["_WIN32"; "__LITTLE_ENDIAN__"; "__x86_64__"; "__i386__"; "__i386"; "_M_IX86"; "_M_IX86_FP"; "_M_X64"; "_M_AMD64"; "__SSE2__"; "__AVX2__"; "__AVX512F__"].

(** The compiler tells the truth about the target [t].
    - size_t has 32 or 64 bits;
    - a macro of the list above means little endian, __BIG_ENDIAN__ means big endian, and __BYTE_ORDER__, if there is one, compares
      with the constants 1234 and 4321 as GCC documents it;
    - SVE registers hold a positive multiple of 128 bits;
    - a big-endian target with VSX or the vector facility of s390x says that it is one, and vector elements are in the order of the
      target (not so under GCC's -maltivec=be, on which xxhash.h:4171-4172 warns). *)
Record honest (e : env) (t : target) : Prop := Honest {
  hon_size : t_szbits t = 32 \/ t_szbits t = 64;
  hon_le : forall x, In x little_endian_names -> e x <> None -> t_le t = true;
  hon_be : e "__BIG_ENDIAN__" <> None -> t_le t = false;
  hon_order : forall o, e "__BYTE_ORDER__" = Some o ->
    e "__ORDER_LITTLE_ENDIAN__" = Some 1234 /\ e "__ORDER_BIG_ENDIAN__" = Some 4321 /\ o = if t_le t then 1234 else 4321;
  hon_sve : e "__ARM_FEATURE_SVE" <> None -> exists k, (1 <= k /\ t_sve t = 2 * k)%nat;
  hon_vsx : e "__POWER8_VECTOR__" <> None \/ e "__VEC__" <> None ->
    (t_le t = false -> e "__BIG_ENDIAN__" <> None \/ e "__BYTE_ORDER__" <> None) /\
    forall o, e "__VEC_ELEMENT_REG_ORDER__" = Some o -> e "__ORDER_BIG_ENDIAN__" = Some 4321 /\ o = if t_le t then 1234 else 4321 }.

(** The settings which the header lets the user choose are used as it documents.  Nothing is asked of XXH_SIZE_OPT,
    XXH_FORCE_ALIGN_CHECK, XXH32_ENDJMP, XXH3_STREAM_USE_STACK and XXH3_NEON_LANES.
    - direct memory access (method 2) needs hardware that supports misaligned loads (xxhash.h:2118-2124);
    - XXH_CPU_LITTLE_ENDIAN and XXH_VSX_BE must be true of the target (2629-2632, 4167);
    - XXH_VECTOR names a unit of the target: 1 to 4 (x86, NEON) little endian ("little endian only", 3903);
      VSX as in [hon_vsx];
    - XXH_ACC_ALIGN is left alone. *)
Record settings_ok (e : env) (t : target) : Prop := Settings {
  set_mem : e "XXH_FORCE_MEMORY_ACCESS" = Some 2 -> t_unaligned t = true;
  set_le : forall v, e "XXH_CPU_LITTLE_ENDIAN" = Some v -> (v <> 0 <-> t_le t = true);
  set_vec : forall v, e "XXH_VECTOR" = Some v -> (1 <= v <= 4 -> t_le t = true) /\ (v = 5 -> e "__POWER8_VECTOR__" <> None \/ e "__VEC__" <> None);
  set_vsx : forall v, e "XXH_VSX_BE" = Some v -> (v <> 0 <-> t_le t = false);
  set_acc : e "XXH_ACC_ALIGN" = None }.

(** nothing is set on the command line *)
Definition untouched (e : env) : Prop := forall x, prefix "XXH" x = true -> e x = None.

(** the processor [p] is one that the build is for: registers have 32 bits; there is a CPUID instruction, but for 32-bit builds with
    GCC, which test it; and where the compiler may use SSE2 anyway (or the user says so) CPUID reports SSE2 *)
Record cpu_for (e : env) (p : cpu) : Prop := CpuFor {
  cpu_regs : 0 <= eax_of (cpuid p 0 0) < 2 ^ 32;
  cpu_id : e "__GNUC__" = None \/ e "__i386__" = None -> has_cpuid p = true;
  cpu_sse2 : (exists x, In x ["__SSE2__"; "__x86_64__"; "_M_X64"; "__ANDROID__"; "__APPLE__"] /\ e x <> None) \/
             (exists v, e "_M_IX86_FP" = Some v /\ 2 <= v) \/ e "XXH_DISPATCH_SCALAR" = Some 0 ->
             has_cpuid p = true /\ sse2_ok p }.

(** the compiler is not one for ARM (or WebAssembly's SIMD, which the header treats as NEON); nor one for x86 *)
Definition no_arm (e : env) : Prop :=
  forall x, In x ["__ARM_FEATURE_SVE"; "__ARM_NEON__"; "__ARM_NEON"; "_M_ARM"; "_M_ARM64"; "_M_ARM64EC"; "__wasm_simd128__"] -> e x = None.
Definition no_x86 (e : env) : Prop := forall x, In x ["__AVX512F__"; "__AVX2__"; "__SSE2__"; "_M_AMD64"; "_M_X64"; "_M_IX86_FP"] -> e x = None.
(** the compiler says that the target is little endian *)
Definition says_little (e : env) : Prop :=
  e "_WIN32" <> None \/ e "__LITTLE_ENDIAN__" <> None \/ (e "__BYTE_ORDER__" = Some 1234 /\ e "__ORDER_LITTLE_ENDIAN__" = Some 1234).
