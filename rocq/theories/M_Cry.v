(** Model of doc/xxhash.cry, the Cryptol definition of XXH32 and XXH64.

    Cryptol's word [[w]] is a sequence of w bits, most significant first, and [[n][8]] a sequence of n bytes.  The model keeps
    this: a word is a [list bool].  The operators below have the meaning of the Cryptol prelude (arithmetic on [[w]] is modulo
    2^w, [<<<] rotates the sequence, [>>] pads with zeros on the left, [#] appends, [join]/[split] flatten and cut a sequence).
    Precedences are Cryptol's: [*] over [+] and [-], those over [<<<] and [>>], over [#], over [^].
    Sizes are types in Cryptol; here they are numbers computed as the types say. *)
From Coq Require Import ZArith List Bool.
Import ListNotations.
#[local] Open Scope Z_scope.
Module Cry.
Definition bits := list bool.
(** the number a sequence of bits denotes, and the word of width [w] for a number: Cryptol's [toInteger] and [fromInteger],
    also literals such as doc/xxhash.cry:45 and the demotion of a size (doc/xxhash.cry:11) *)
Definition val (a : bits) : Z := fold_left (fun acc b => 2 * acc + Z.b2z b) a 0.
Definition word (w : nat) (x : Z) : bits := map (fun i => Z.testbit x (Z.of_nat i)) (rev (seq 0 w)).
(** [+], [-], [*] (doc/xxhash.cry:67-70, 76) *)
Definition add (a b : bits) : bits := word (length a) (val a + val b).
Definition sub (a b : bits) : bits := word (length a) (val a - val b).
Definition mul (a b : bits) : bits := word (length a) (val a * val b).
(** [^] (doc/xxhash.cry:113) *)
Definition xor (a b : bits) : bits := map (fun p => xorb (fst p) (snd p)) (combine a b).
(** [<<<] and [>>] by a constant (doc/xxhash.cry:76, 113) *)
Definition rotl (a : bits) (s : nat) : bits := skipn s a ++ firstn s a.
Definition shr (a : bits) (s : nat) : bits := repeat false s ++ firstn (length a - s) a.
(** [0 # lane] in a context of width [w] (doc/xxhash.cry:104) *)
Definition zext (w : nat) (a : bits) : bits := repeat false (w - length a) ++ a.
(** [split] to a type [[n][k]a] (doc/xxhash.cry:10) *)
Fixpoint split {A} (n k : nat) (l : list A) : list (list A) :=
  match n with O => [] | S n => firstn k l :: split n k (skipn k l) end.

(** doc/xxhash.cry:40 *)
Definition toLE (bytes : list bits) : bits := concat (rev bytes).

(** ** 32 bits *)
(** doc/xxhash.cry:45-49 *)
Definition PRIME32_1 := word 32 0x9E3779B1.
Definition PRIME32_2 := word 32 0x85EBCA77.
Definition PRIME32_3 := word 32 0xC2B2AE3D.
Definition PRIME32_4 := word 32 0x27D4EB2F.
Definition PRIME32_5 := word 32 0x165667B1.
(** doc/xxhash.cry:65-70 *)
Definition XXH32_init (seed : bits) : list bits :=
  [add (add seed PRIME32_1) PRIME32_2; add seed PRIME32_2; add seed (word 32 0); sub seed PRIME32_1].
(** doc/xxhash.cry:75-76 *)
Definition XXH32_round (accN laneN : bits) : bits := mul (rotl (add accN (mul laneN PRIME32_2)) 13) PRIME32_1.
(** doc/xxhash.cry:82-84 (a parallel comprehension) *)
Definition XXH32_rounds (accs : list bits) (stripe : list bits) : list bits :=
  map (fun p => XXH32_round (fst p) (toLE (snd p))) (combine accs (split 4 4 stripe)).
(** doc/xxhash.cry:90-92; the pattern has the type [[4][32]], so the second case does not exist *)
Definition XXH32_converge (accs : list bits) : bits :=
  match accs with
  | [acc1; acc2; acc3; acc4] => add (add (add (rotl acc1 1) (rotl acc2 7)) (rotl acc3 12)) (rotl acc4 18)
  | _ => []
  end.
(** doc/xxhash.cry:97-98 *)
Definition XXH32_digest4 (acc : bits) (lane : list bits) : bits := mul (rotl (add acc (mul (toLE lane) PRIME32_3)) 17) PRIME32_4.
(** doc/xxhash.cry:103-104 *)
Definition XXH32_digest1 (acc lane : bits) : bits := mul (rotl (add acc (mul (zext 32 lane) PRIME32_5)) 11) PRIME32_1.
(** doc/xxhash.cry:111-117 *)
Definition XXH32_avalanche (acc0 : bits) : bits :=
  let acc1 := xor acc0 (shr acc0 15) in
  let acc2 := mul acc1 PRIME32_2 in
  let acc3 := xor acc2 (shr acc2 13) in
  let acc4 := mul acc3 PRIME32_3 in
  xor acc4 (shr acc4 16).
(** doc/xxhash.cry:7-15.  [stripes16 # stripes4 # stripes1] cuts the input at the sizes given by the types on lines 10, 14, 15. *)
Definition XXH32 (input : list bits) (seed : bits) : bits :=
  let L := length input in
  let stripes16 := firstn (L / 16 * 16) input in
  let rest := skipn (L / 16 * 16) input in
  let stripes4 := firstn (L mod 16 / 4 * 4) rest in
  let stripes1 := skipn (L mod 16 / 4 * 4) rest in
  let accR := fold_left XXH32_rounds (split (L / 16) 16 stripes16) (XXH32_init seed) in
  let accL := add (word 32 (Z.of_nat L mod 2 ^ 32))
                (if Z.of_nat L <? 16 then add seed PRIME32_5 else XXH32_converge accR) in
  let acc4 := fold_left XXH32_digest4 (split (L mod 16 / 4) 4 stripes4) accL in
  let acc1 := fold_left XXH32_digest1 stripes1 acc4 in
  XXH32_avalanche acc1.

(** ** 64 bits *)
(** doc/xxhash.cry:122-126 *)
Definition PRIME64_1 := word 64 0x9E3779B185EBCA87.
Definition PRIME64_2 := word 64 0xC2B2AE3D27D4EB4F.
Definition PRIME64_3 := word 64 0x165667B19E3779F9.
Definition PRIME64_4 := word 64 0x85EBCA77C2B2AE63.
Definition PRIME64_5 := word 64 0x27D4EB2F165667C5.
(** doc/xxhash.cry:142-147 *)
Definition XXH64_init (seed : bits) : list bits :=
  [add (add seed PRIME64_1) PRIME64_2; add seed PRIME64_2; add seed (word 64 0); sub seed PRIME64_1].
(** doc/xxhash.cry:152-153 *)
Definition XXH64_round (accN laneN : bits) : bits := mul (rotl (add accN (mul laneN PRIME64_2)) 31) PRIME64_1.
(** doc/xxhash.cry:159-161 *)
Definition XXH64_rounds (accs : list bits) (stripe : list bits) : list bits :=
  map (fun p => XXH64_round (fst p) (toLE (snd p))) (combine accs (split 4 8 stripe)).
(** doc/xxhash.cry:166-167 *)
Definition mergeAccumulator (acc accN : bits) : bits := add (mul (xor acc (XXH64_round (word 64 0) accN)) PRIME64_1) PRIME64_4.
(** doc/xxhash.cry:173-175 *)
Definition XXH64_converge (accs : list bits) : bits :=
  match accs with
  | [acc1; acc2; acc3; acc4] =>
      fold_left mergeAccumulator [acc1; acc2; acc3; acc4] (add (add (add (rotl acc1 1) (rotl acc2 7)) (rotl acc3 12)) (rotl acc4 18))
  | _ => []
  end.
(** doc/xxhash.cry:180-181 *)
Definition XXH64_digest8 (acc : bits) (lane : list bits) : bits :=
  add (mul (rotl (xor acc (XXH64_round (word 64 0) (toLE lane))) 27) PRIME64_1) PRIME64_4.
(** doc/xxhash.cry:186-187 *)
Definition XXH64_digest4 (acc : bits) (lane : list bits) : bits :=
  add (mul (rotl (xor acc (mul (zext 64 (toLE lane)) PRIME64_1)) 23) PRIME64_2) PRIME64_3.
(** doc/xxhash.cry:192-193 *)
Definition XXH64_digest1 (acc lane : bits) : bits := mul (rotl (xor acc (mul (zext 64 lane) PRIME64_5)) 11) PRIME64_1.
(** doc/xxhash.cry:200-206 *)
Definition XXH64_avalanche (acc0 : bits) : bits :=
  let acc1 := xor acc0 (shr acc0 33) in
  let acc2 := mul acc1 PRIME64_2 in
  let acc3 := xor acc2 (shr acc2 29) in
  let acc4 := mul acc3 PRIME64_3 in
  xor acc4 (shr acc4 32).
(** doc/xxhash.cry:21-30 *)
Definition XXH64 (input : list bits) (seed : bits) : bits :=
  let L := length input in
  let stripes32 := firstn (L / 32 * 32) input in
  let rest := skipn (L / 32 * 32) input in
  let stripes8 := firstn (L mod 32 / 8 * 8) rest in
  let rest := skipn (L mod 32 / 8 * 8) rest in
  let stripes4 := firstn (L mod 8 / 4 * 4) rest in
  let stripes1 := skipn (L mod 8 / 4 * 4) rest in
  let accR := fold_left XXH64_rounds (split (L / 32) 32 stripes32) (XXH64_init seed) in
  let accL := add (word 64 (Z.of_nat L mod 2 ^ 64))
                (if Z.of_nat L <? 32 then add seed PRIME64_5 else XXH64_converge accR) in
  let acc8 := fold_left XXH64_digest8 (split (L mod 32 / 8) 8 stripes8) accL in
  let acc4 := fold_left XXH64_digest4 (split (L mod 8 / 4) 4 stripes4) acc8 in
  let acc1 := fold_left XXH64_digest1 stripes1 acc4 in
  XXH64_avalanche acc1.
End Cry.
