(** Known-answer tests of XXH3_generateSecret (cli/xsum_sanity_check.c:216-221, 676-700) of
    the model (equal to the specification by C19): tests of fidelity, not proofs of any property. *)
From Verif Require Import Base Mem M_XXH32 M_XXH64 M_XXH3 M_Kernels M_Long M_Util Vectors Vectors3.
Definition sample (s : list Z) : list Z := map (fun i => nth i s 0) [0%nat; 62%nat; 131%nat; 191%nat; 241%nat].
Definition gen_vectors : list (nat * Z * list Z) :=
  [ (0%nat, 192, [0xE7; 0x8C; 0x77; 0x77; 0x00]); (1%nat, 240, [0x2B; 0x3E; 0xDE; 0xC1; 0x00]);
    (135%nat, 277, [0xE8; 0x39; 0x6C; 0xCC; 0x7B]) ].
Example generateSecret_model_vectors :
  forallb (fun '(n, size, v) =>
    match XXH3_generateSecret c1 (Ptr (repeat 0 (Z.to_nat size)) 3 0) size (Ptr sanity 1 0) (Z.of_nat n) with
    | OK (XXH_OK, b) => if list_eq_dec Z.eq_dec (sample b) v then true else false
    | _ => false end) gen_vectors = true.
Proof. vm_compute. reflexivity. Qed.
