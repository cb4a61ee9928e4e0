(** Model of cli/xsum_arch.h and of the line "compiled as ..." that xxhsum prints for --version and -h (cli/xxhsum.c:60-75): the
    preprocessor's choice of the words that name the processor, its vector unit and the compiler.  The environment of macros and the
    target are those of M_Config.v. *)
From Coq Require Import String DecimalString.
From Verif Require Import Base Mem M_Config.
Import Conf.
Open Scope string_scope.
Open Scope Z_scope.
Module Arch.

(** an integer in decimal (printf's %i; the text of a macro that is an integer) (cli/xsum_arch.h:36-37; cli/xxhsum.c:73) *)
Definition dec (v : Z) : string := NilZero.string_of_int (Z.to_int v).
(** XSUM_EXPAND_AND_QUOTE: cli/xsum_arch.h:36-37: the text of the macro's value, or the name itself when it is no macro *)
Definition quote (e : env) (x : string) : string := match e x with Some v => dec v | None => x end.

Section Banner.
Variables (e : env) (t : target).

(** XSUM_ARCH_X86 (and XSUM_ARCH_X64): cli/xsum_arch.h:81-87 *)
Definition ARCH_X86 : option string :=
  if (defd e "__x86_64__" || defd e "_M_AMD64" || defd e "_M_X64") && negb (defd e "_M_ARM64EC") then Some "x86_64"
  else if defd e "__i386__" || defd e "_M_IX86" || defd e "_M_IX86_FP" then Some "i386" else None.
(** the x86 branch: cli/xsum_arch.h:90-104 *)
Definition ARCH_x86_unit : string :=
  if defd e "XXHSUM_DISPATCH" then " autoVec"
  else if defd e "__AVX512F__" then " + AVX512"
  else if defd e "__AVX2__" then " + AVX2"
  else if defd e "__AVX__" then " + AVX"
  else if defd e "_M_X64" || defd e "_M_AMD64" || defd e "__x86_64__" || defd e "__SSE2__" || (defd e "_M_IX86_FP" && (val e "_M_IX86_FP" =? 2)) then " + SSE2"
  else "".
(** the branch of 32-bit ARM: cli/xsum_arch.h:111-137 *)
Definition ARM_VER : string := if defd e "__ARM_ARCH" then quote e "__ARM_ARCH" else quote e "_M_ARM".
Definition ARM_THUMB : string :=
  if defd e "_M_ARM" || defd e "__thumb2__" || (defd e "__thumb__" && ((val e "__thumb__" =? 2) || (7 <=? val e "__ARM_ARCH"))) then " Thumb-2"
  else if defd e "__thumb__" then " Thumb-1" else "".
Definition ARM_UNALIGNED : string :=
  if defd e "__ARM_FEATURE_UNALIGNED" || (7 <=? val e "__ARM_ARCH") || defd e "_M_ARM" then " + unaligned" else "".
Definition ARM_NEON : string := if defd e "__ARM_NEON" || defd e "__ARM_NEON__" || defd e "_M_ARM" then " + NEON" else "".
(** XSUM_ARCH: cli/xsum_arch.h:89-166 *)
Definition XSUM_ARCH : string :=
  match ARCH_X86 with
  | Some a => a ++ ARCH_x86_unit
  | None =>
      if defd e "__aarch64__" || defd e "__arm64__" || defd e "_M_ARM64" || defd e "_M_ARM64EC" then
        if defd e "__ARM_FEATURE_SVE" then "aarch64 + SVE" else "aarch64 + NEON"
      else if defd e "__arm__" || defd e "__thumb__" || defd e "__thumb2__" || defd e "_M_ARM" then
        "ARMv" ++ ARM_VER ++ ARM_THUMB ++ ARM_NEON ++ ARM_UNALIGNED
      else if defd e "__powerpc64__" || defd e "__ppc64__" || defd e "__PPC64__" then
        if defd e "__GNUC__" && defd e "__POWER9_VECTOR__" then "ppc64 + POWER9 vector"
        else if defd e "__GNUC__" && defd e "__POWER8_VECTOR__" then "ppc64 + POWER8 vector"
        else "ppc64"
      else if defd e "__powerpc__" || defd e "__ppc__" || defd e "__PPC__" then "ppc"
      else if defd e "__AVR" then "AVR"
      else if defd e "__mips64" then "mips64"
      else if defd e "__mips" then "mips"
      else if defd e "__s390x__" then "s390x"
      else if defd e "__s390__" then "s390"
      else if defd e "__wasm__" || defd e "__asmjs__" || defd e "__EMSCRIPTEN__" then
        if defd e "__wasm_simd128__" then "wasm/asmjs + simd128" else "wasm/asmjs"
      else "unknown"
  end.

(** g_nbBits: cli/xxhsum.c:66 *)
Definition nbBits : Z := t_ptr t * 8.
(** XSUM_isLittleEndian and ENDIAN_NAME: cli/xxhsum.c:60-69: the first byte of a 32-bit 1 in memory *)
Definition XSUM_isLittleEndian : Z := hd 0 (if t_le t then le_bytes 4 1 else rev (le_bytes 4 1)).
Definition ENDIAN_NAME : string := if negb (XSUM_isLittleEndian =? 0) then "little endian" else "big endian".
(** FULL_WELCOME_MESSAGE, the part that tells about the build: cli/xxhsum.c:72-75 *)
Definition compiled_as : string := "compiled as " ++ dec nbBits ++ "-bit " ++ XSUM_ARCH ++ " " ++ ENDIAN_NAME.

(** XSUM_CC_VERSION where it is made of integers: cli/xsum_arch.h:59-75; the arguments of the format, [None] in the branches that
    print a string (43-58, 76-79).  Division as in C, of values that are not negative *)
Definition CC_VERSION : option (list Z) :=
  if defd e "__clang_version__" then None
  else if defd e "__VERSION__" then None
  else if defd e "_MSC_FULL_VER" && defd e "_MSC_BUILD" then
    let v := val e "_MSC_FULL_VER" in Some [Z.rem (v ÷ 10000000) 100; Z.rem (v ÷ 100000) 100; Z.rem v 100000; val e "_MSC_BUILD"]
  else if defd e "_MSC_VER" then let v := val e "_MSC_VER" in Some [v ÷ 100; Z.rem v 100]
  else if defd e "__TINYC__" then let v := val e "__TINYC__" in Some [Z.rem (v ÷ 10000) 100; Z.rem (v ÷ 100) 100; Z.rem v 100]
  else None.
End Banner.
End Arch.
