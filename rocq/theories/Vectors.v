(** Known-answer tests (cli/xsum_sanity_check.c:100-230).  These are tests of fidelity of the model and
    of the specification, run by [vm_compute]; they are not proofs of any property. *)
From Verif Require Import Base Mem M_XXH32 M_XXH64 Spec32 Spec64.

(** XSUM_fillTestBuffer: cli/xsum_sanity_check.c:45-56 *)
Definition PRIME32' := 2654435761.
Definition PRIME64' := 11400714785074694797.
Fixpoint fill (n : nat) (g : Z) : list Z :=
  match n with O => [] | S n' => (g / 2 ^ 56) mod 256 :: fill n' (g * PRIME64' mod 2 ^ 64) end.
Definition sanity : list Z := Eval vm_compute in fill 2367 PRIME32'.

Definition c0 : cfg := Cfg true 0 false false false 0 64 true false V_SCALAR true false.
(* big endian, byte access, ENDJMP, size optimised, 32-bit *)
Definition c1 : cfg := Cfg false 0 false true true 2 32 false true V_SCALAR true false.
Definition c2 : cfg := Cfg false 3 false true true 0 32 false true V_SCALAR true false.

Definition pre (n : Z) := firstn (Z.to_nat n) sanity.
Definition chk (r : res Z) (x : Z) : bool := match r with OK y => x =? y | _ => false end.

Definition v32 : list (Z * Z * Z) :=
  [(0, 0, 0x02CC5D05); (0, PRIME32', 0x36B78AE7); (1, 0, 0xCF65B03E); (1, PRIME32', 0xB4545AA4);
   (14, 0, 0x1208E7E2); (14, PRIME32', 0x6AF1D1FE); (222, 0, 0x5BD11DBD); (222, PRIME32', 0x58803C5F)].
Definition v64 : list (Z * Z * Z) :=
  [(0, 0, 0xEF46DB3751D8E999); (0, PRIME32', 0xAC75FDA2929B17EF); (1, 0, 0xE934A84ADB052768);
   (1, PRIME32', 0x5014607643A9B4C3); (4, 0, 0x9136A0DCA57457EE); (14, 0, 0x8282DCC4994E35C8);
   (14, PRIME32', 0xC3BD6BF63DEB6DF0); (222, 0, 0xB641AE8CB691C174); (222, PRIME32', 0x20CB8AB7AE10C14A)].

Example xxh32_vectors :
  forallb (fun t => let '(n, s, r) := t in
    (X32.hash (pre n) s =? r) && chk (XXH32 c0 (Ptr sanity 1 0) n s) r
    && chk (XXH32 c1 (Ptr sanity 1 0) n s) r && chk (XXH32 c2 (Ptr sanity 8 0) n s) r) v32 = true.
Proof. vm_compute. reflexivity. Qed.
Example xxh64_vectors :
  forallb (fun t => let '(n, s, r) := t in
    (X64.hash (pre n) s =? r) && chk (XXH64 c0 (Ptr sanity 1 0) n s) r
    && chk (XXH64 c1 (Ptr sanity 1 0) n s) r && chk (XXH64 c2 (Ptr sanity 8 0) n s) r) v64 = true.
Proof. vm_compute. reflexivity. Qed.
