(** Known-answer tests for XXH3 (cli/xsum_sanity_check.c:126-214): tests of fidelity of the model and of
    the specification, run by [vm_compute]; they are not proofs of any property. *)
From Verif Require Import Base Mem M_XXH32 M_XXH64 M_XXH3 M_Kernels M_Long Spec3 Vectors.

Definition t64 : list (Z * Z * Z) := [
  (0, 0, 0x2D06800538D394C2);
  (0, 11400714785074694797, 0xA8A6B918B2F0364A);
  (1, 0, 0xC44BDFF4074EECDB);
  (1, 11400714785074694797, 0x032BE332DD766EF8);
  (6, 0, 0x27B56A84CD2D7325);
  (6, 11400714785074694797, 0x84589C116AB59AB9);
  (12, 0, 0xA713DAF0DFBB77E7);
  (12, 11400714785074694797, 0xE7303E1B2336DE0E);
  (24, 0, 0xA3FE70BF9D3510EB);
  (24, 11400714785074694797, 0x850E80FC35BDD690);
  (48, 0, 0x397DA259ECBA1F11);
  (48, 11400714785074694797, 0xADC2CBAA44ACC616);
  (80, 0, 0xBCDEFBBB2C47C90A);
  (80, 11400714785074694797, 0xC6DD0CB699532E73);
  (195, 0, 0xCD94217EE362EC3A);
  (195, 11400714785074694797, 0xBA68003D370CB3D9);
  (403, 0, 0xCDEB804D65C6DEA4);
  (403, 11400714785074694797, 0x6259F6ECFD6443FD);
  (512, 0, 0x617E49599013CB6B);
  (512, 11400714785074694797, 0x3CE457DE14C27708);
  (2048, 0, 0xDD59E2C3A5F038E0);
  (2048, 11400714785074694797, 0x66F81670669ABABC);
  (2099, 0, 0xC6B9D9B3FC9AC765);
  (2099, 11400714785074694797, 0x184F316843663974);
  (2240, 0, 0x6E73A90539CF2948);
  (2240, 11400714785074694797, 0x757BA8487D1B5247);
  (2367, 0, 0xCB37AEB9E5D361ED);
  (2367, 11400714785074694797, 0xD2DB3415B942B42A)].
Definition t64s : list (Z * Z) := [
  (0, 0x3559D64878C5C66C);
  (1, 0x8A52451418B2DA4D);
  (6, 0x82C90AB0519369AD);
  (12, 0x14631E773B78EC57);
  (24, 0xCDD5542E4A9D9FE8);
  (48, 0x33ABD54D094B2534);
  (80, 0xE687BA1684965297);
  (195, 0xA057273F5EECFB20);
  (403, 0x14546019124D43B8);
  (512, 0x7564693DD526E28D);
  (2048, 0xD32E975821D6519F);
  (2367, 0x293FA8E5173BB5E7);
  (1920, 0x751D2EC54BC6038B)].
Definition t128 : list (Z * Z * (Z * Z)) := [
  (0, 0, (0x6001C324468D497F, 0x99AA06D3014798D8));
  (0, 2654435761, (0x5444F7869C671AB0, 0x92220AE55E14AB50));
  (1, 0, (0xC44BDFF4074EECDB, 0xA6CD5E9392000F6A));
  (1, 2654435761, (0xB53D5557E7F76F8D, 0x89B99554BA22467C));
  (6, 0, (0x3E7039BDDA43CFC6, 0x082AFE0B8162D12A));
  (6, 2654435761, (0x269D8F70BE98856E, 0x5A865B5389ABD2B1));
  (12, 0, (0x061A192713F69AD9, 0x6E3EFD8FC7802B18));
  (12, 2654435761, (0x9BE9F9A67F3C7DFB, 0xD7E09D518A3405D3));
  (24, 0, (0x1E7044D28B1B901D, 0x0CE966E4678D3761));
  (24, 2654435761, (0xD7304C54EBAD40A9, 0x3162026714A6A243));
  (48, 0, (0xF942219AED80F67B, 0xA002AC4E5478227E));
  (48, 2654435761, (0x7BA3C3E453A1934E, 0x163ADDE36C072295));
  (81, 0, (0x5E8BAFB9F95FB803, 0x4952F58181AB0042));
  (81, 2654435761, (0x703FBB3D7A5F755C, 0x2724EC7ADC750FB6));
  (222, 0, (0xF1AEBD597CEC6B3A, 0x337E09641B948717));
  (222, 2654435761, (0xAE995BB8AF917A8D, 0x91820016621E97F1));
  (403, 0, (0xCDEB804D65C6DEA4, 0x1B6DE21E332DD73D));
  (403, 11400714785074694797, (0x6259F6ECFD6443FD, 0xBED311971E0BE8F2));
  (512, 0, (0x617E49599013CB6B, 0x18D2D110DCC9BCA1));
  (512, 11400714785074694797, (0x3CE457DE14C27708, 0x925D06B8EC5B8040));
  (2048, 0, (0xDD59E2C3A5F038E0, 0xF736557FD47073A5));
  (2048, 2654435761, (0x230D43F30206260B, 0x7FB03F7E7186C3EA));
  (2240, 0, (0x6E73A90539CF2948, 0xCCB134FBFA7CE49D));
  (2240, 2654435761, (0xED385111126FBA6F, 0x50A1FE17B338995F));
  (2367, 0, (0xCB37AEB9E5D361ED, 0xE89C0F6FF369B427));
  (2367, 2654435761, (0x6F5360AE69C2F406, 0xD23AAE4B76C31ECB))].
Definition t128s : list (Z * (Z * Z)) := [
  (0, (0x005923CCEECBE8AE, 0x5F70F4EA232F1D38));
  (1, (0x8A52451418B2DA4D, 0x3A66AF5A9819198E));
  (6, (0x0B61C8ACA7D4778F, 0x376BD91B6432F36D));
  (12, (0xAF82F6EBA263D7D8, 0x90A3C2D839F57D0F))].

Definition cv (le : bool) (so : Z) (sz : Z) (hw : bool) (v : vectype) : cfg :=
  Cfg le 0 false true true so sz hw (sz =? 32) v true false.
(** a selection of vector units: that they all agree is proved (C12), these runs only test the model's
    fidelity.  Long runs are kept few because the standalone checker replays them without the VM. *)
Definition cfgs : list cfg := [cv false 2 32 false V_SCALAR; cv true 0 64 true V_AVX512; cv true 1 64 true (V_SVE 4 78)].
Definition chk2 (r : res (Z * Z)) (x : Z * Z) : bool :=
  match r with OK y => (fst x =? fst y) && (snd x =? snd y) | _ => false end.
Definition eq2 (x y : Z * Z) := (fst x =? fst y) && (snd x =? snd y).

(** the secret of the tests: cli/xsum_sanity_check.c:693-694 *)
Definition tsecret : list Z := firstn 147 (skipn 7 sanity).
Definition tsecret_ptr : ptr := Ptr sanity 16 7.

(** the vectors run by the specification, and those run by the model *)
Definition specq (n : Z) : bool := (n <=? 512) || (n =? 2099) || (n =? 1920).
Definition quick (n : Z) : bool := n <=? 403.

Example xxh3_spec_vectors :
  forallb (fun t => let '(n, s, r) := t in X3.XXH3_64_withSeed s (pre n) =? r) (filter (fun t => specq (fst (fst t))) t64)
  && forallb (fun t => X3.XXH3_64_withSecret tsecret (pre (fst t)) =? snd t) (filter (fun t => specq (fst t)) t64s)
  && forallb (fun t => let '(n, s, r) := t in eq2 (X3.XXH3_128_withSeed s (pre n)) r) (filter (fun t => quick (fst (fst t))) t128)
  && forallb (fun t => eq2 (X3.XXH3_128_withSecret tsecret (pre (fst t))) (snd t)) t128s = true.
Proof. vm_compute. reflexivity. Qed.
Example xxh3_64_vectors :
  forallb (fun c => forallb (fun t => let '(n, s, r) := t in chk (XXH3_64bits_withSeed c (Ptr sanity 1 0) n s) r)
    (filter (fun t => quick (fst (fst t))) t64)) cfgs = true.
Proof. vm_compute. reflexivity. Qed.
Example xxh3_64_secret_vectors :
  forallb (fun c => forallb (fun t => chk (XXH3_64bits_withSecret c (Ptr sanity 1 0) (fst t) tsecret_ptr 147) (snd t))
    (filter (fun t => quick (fst t)) t64s)) cfgs = true.
Proof. vm_compute. reflexivity. Qed.
Example xxh3_128_vectors :
  forallb (fun c => forallb (fun t => let '(n, s, r) := t in chk2 (XXH3_128bits_withSeed c (Ptr sanity 1 0) n s) r)
    (filter (fun t => quick (fst (fst t))) t128)) cfgs = true.
Proof. vm_compute. reflexivity. Qed.
Example xxh3_128_secret_vectors :
  forallb (fun c => forallb (fun t => chk2 (XXH3_128bits_withSecret c (Ptr sanity 1 0) (fst t) tsecret_ptr 147) (snd t)) t128s) cfgs = true.
Proof. vm_compute. reflexivity. Qed.
