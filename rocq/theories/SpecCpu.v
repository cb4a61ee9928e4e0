(** What the processor and the operating system support, by the register and bit numbers of the vendor's manuals, independently of the dispatcher. *)
From Verif Require Import Base M_Dispatch.

(** the answer of the CPUID instruction: the registers in the order in which [cpuid] lists them *)
Definition eax_of (r : Z * Z * Z * Z) : Z := fst (fst (fst r)).
Definition ebx_of (r : Z * Z * Z * Z) : Z := snd (fst (fst r)).
Definition ecx_of (r : Z * Z * Z * Z) : Z := snd (fst r).
Definition edx_of (r : Z * Z * Z * Z) : Z := snd r.

Definition sse2_ok (p : cpu) : Prop := 1 <= eax_of (cpuid p 0 0) /\ Z.testbit (edx_of (cpuid p 1 0)) 26 = true.
Definition ymm_ok (p : cpu) : Prop := Z.testbit (ecx_of (cpuid p 1 0)) 27 = true /\ Z.testbit (xcr0 p) 1 = true /\ Z.testbit (xcr0 p) 2 = true.
Definition zmm_ok (p : cpu) : Prop := ymm_ok p /\ Z.testbit (xcr0 p) 5 = true /\ Z.testbit (xcr0 p) 6 = true /\ Z.testbit (xcr0 p) 7 = true.
Definition avx2_ok (p : cpu) : Prop := 7 <= eax_of (cpuid p 0 0) /\ Z.testbit (ebx_of (cpuid p 7 0)) 5 = true /\ ymm_ok p.
Definition avx512_ok (p : cpu) : Prop := 7 <= eax_of (cpuid p 0 0) /\ Z.testbit (ebx_of (cpuid p 7 0)) 16 = true /\ zmm_ok p.
Definition regs_ok (p : cpu) : Prop := 0 <= eax_of (cpuid p 0 0) < 2 ^ 32.
