(** What the words of the banner mean, and what compilers promise: the vocabulary of C98. *)
From Coq Require Import String Ascii.
From Verif Require Import Base Mem M_Kernels M_Config SpecConfig.
Import Conf.
Open Scope string_scope.
Open Scope Z_scope.

(** ** the meaning of the words *)
(** the text has no plus sign *)
Fixpoint plain (s : string) : Prop := match s with EmptyString => True | String c r => c <> "+"%char /\ plain r end.
(** the words for a vector unit.  "AVX" without the 2 has no code of its own: it is the SSE2 code *)
Definition unit_text (v : vectype) : list string :=
  match v with
  | V_SCALAR => [""]
  | V_SSE2 => [" + SSE2"; " + AVX"]
  | V_AVX2 => [" + AVX2"]
  | V_AVX512 => [" + AVX512"]
  | V_NEON _ false => [" + NEON"]
  | V_NEON _ true => [" + simd128"]
  | V_VSX => [" + POWER8 vector"; " + POWER9 vector"]
  | V_SVE _ _ => [" + SVE"]
  end.
(** the kind of a unit, without its parameters *)
Definition kind (v : vectype) : nat :=
  match v with V_SCALAR => 0 | V_SSE2 => 1 | V_AVX2 => 2 | V_AVX512 => 3 | V_NEON _ false => 4 | V_NEON _ true => 5 | V_VSX => 6 | V_SVE _ _ => 7 end.
(** the text [s] says that the code is for the unit [v]: the name of a processor, the unit, perhaps the remark on misaligned accesses *)
Definition tells (s : string) (v : vectype) : Prop :=
  exists a u r, s = a ++ u ++ r /\ plain a /\ In u (unit_text v) /\ (r = "" \/ r = " + unaligned").

(** ** what compilers promise *)
Inductive family := X86 | AArch64 | ARM32 | PPC | S390 | WASM | Small.
(** the macros by which a compiler says what it compiles for *)
Definition names (f : family) : list string :=
  match f with
  | X86 => ["__x86_64__"; "_M_AMD64"; "_M_X64"; "__i386__"; "_M_IX86"; "_M_IX86_FP"]
  | AArch64 => ["__aarch64__"; "__arm64__"; "_M_ARM64"; "_M_ARM64EC"]
  | ARM32 => ["__arm__"; "__thumb__"; "__thumb2__"; "_M_ARM"]
  | PPC => ["__powerpc64__"; "__ppc64__"; "__PPC64__"; "__powerpc__"; "__ppc__"; "__PPC__"]
  | S390 => ["__s390x__"; "__s390__"]
  | WASM => ["__wasm__"; "__asmjs__"; "__EMSCRIPTEN__"]
  | Small => ["__AVR"; "__mips64"; "__mips"]
  end.
Definition is_for (e : env) (f : family) : Prop := exists x, In x (names f) /\ e x <> None.
(** a unit narrower than AVX that x86 compilers announce *)
Definition has_sse2 (e : env) : Prop := e "__SSE2__" <> None \/ e "_M_X64" <> None \/ e "_M_AMD64" <> None \/ e "_M_IX86_FP" = Some 2.

(** A compiler in an ordinary mode:
    - it is for one family of processors;
    - the macros for vector units go with the processors that have them;
    - x86: each unit implies the one before, and 64-bit code may use SSE2 (not so under -mno-sse2);
    - ARM: with NEON the target is little endian and says so; 64-bit ARM has NEON or SVE;
    - ppc64: VSX only with a GNU compiler (or one that passes for it), which defines __PPC64__;
    - s390x: no vector facility;
    - WebAssembly: with simd128 there is an arm_neon.h, and the target says that it is little endian. *)
Record ordinary (e : env) (t : target) : Prop := Ordinary {
  ord_one : forall f g, is_for e f -> is_for e g -> f = g;
  ord_sse : has_sse2 e -> is_for e X86;
  ord_avx : e "__AVX__" <> None -> has_sse2 e;
  ord_avx2 : e "__AVX2__" <> None -> e "__AVX__" <> None;
  ord_avx512 : e "__AVX512F__" <> None -> e "__AVX2__" <> None;
  ord_x64 : e "__x86_64__" <> None -> e "__SSE2__" <> None;
  ord_neon : e "__ARM_NEON" <> None \/ e "__ARM_NEON__" <> None \/ e "_M_ARM" <> None -> says_little e /\ (is_for e AArch64 \/ is_for e ARM32);
  ord_sve : e "__ARM_FEATURE_SVE" <> None -> is_for e AArch64;
  ord_a64 : is_for e AArch64 -> e "__ARM_FEATURE_SVE" <> None \/ (says_little e /\ exists x, In x ["__ARM_NEON"; "__ARM_NEON__"; "_M_ARM64"; "_M_ARM64EC"] /\ e x <> None);
  ord_power8 : e "__POWER8_VECTOR__" <> None -> e "__PPC64__" <> None /\ e "__GNUC__" <> None;
  ord_power9 : e "__POWER9_VECTOR__" <> None -> e "__POWER8_VECTOR__" <> None;
  ord_s390 : e "__s390x__" <> None -> e "__VEC__" = None;
  ord_wasm : e "__wasm_simd128__" <> None -> is_for e WASM /\ has_arm_neon_h t = true /\ says_little e }.
