(** Specification of the tables of test vectors (tests/sanity_test_vectors.h) and of the C text they are written in. *)
From Coq Require Import String.
From Verif Require Import Base M_Cli M_SanityTest Spec32 Spec64 Spec3 SpecUtil.
Module Vec.
Import ST.
Definition P32 := 2654435761.
Definition P64 := 11400714785074694797.
(** the test data: the top bytes of the powers of P64 times P32 *)
Definition test_byte (i : Z) : Z := P32 * P64 ^ i mod 2 ^ 64 / 2 ^ 56.
Definition data (n : Z) : list Z := map test_byte (upto n).
Definition secret : list Z := map (fun i => test_byte (7 + i)) (upto 147).
(** five bytes of the secret made from the first [n] bytes, zeros standing behind its end *)
Definition sample (n size : Z) : list Z := map (fun i => nth i (Util.generateSecret size (data n)) 0) [0; 62; 131; 191; 241]%nat.

(** an entry is right when it holds the specified hash of its data *)
Definition right (h : Z -> list Z -> Z) (t : Z * Z * Z) : Prop := let '(n, seed, r) := t in r = h seed (data n).
Definition right128 (h : Z -> list Z -> Z * Z) (t : Z * Z * (Z * Z)) : Prop := let '(n, seed, r) := t in r = h seed (data n).
Definition right_sample (t : Z * Z * list Z) : Prop := let '(n, size, r) := t in r = sample n size.
Definition all_right (v : vectors) : Prop :=
  Forall (right (fun s m => X32.hash m s)) (XXH32_testdata v) /\
  Forall (right (fun s m => X64.hash m s)) (XXH64_testdata v) /\
  Forall (right X3.XXH3_64_withSeed) (XXH3_testdata v) /\
  Forall (right (fun _ => X3.XXH3_64_withSecret secret)) (XXH3_withSecret_testdata v) /\
  Forall (right128 X3.XXH3_128_withSeed) (XXH128_testdata v) /\
  Forall (right128 (fun _ => X3.XXH3_128_withSecret secret)) (XXH128_withSecret_testdata v) /\
  Forall right_sample (XXH3_generateSecret_testdata v).

(** tables the header can hold: lengths within the buffer, 64-bit seeds, secrets of a legal size *)
Definition fits {T} (t : Z * Z * T) : Prop := 0 <= fst (fst t) <= 4161 /\ 0 <= snd (fst t) < 2 ^ 64.
Definition fits_sample (t : Z * Z * list Z) : Prop := 0 <= fst (fst t) <= 4161 /\ 136 <= snd (fst t) <= 9867.
Definition in_range (v : vectors) : Prop :=
  Forall fits (XXH32_testdata v) /\ Forall fits (XXH64_testdata v) /\ Forall fits (XXH3_testdata v) /\
  Forall fits (XXH3_withSecret_testdata v) /\ Forall fits (XXH128_testdata v) /\ Forall fits (XXH128_withSecret_testdata v) /\
  Forall fits_sample (XXH3_generateSecret_testdata v).
(** the number of tests in the tables *)
Definition count {T} (l : list T) : Z := Z.of_nat (List.length l).
Definition number (v : vectors) : Z :=
  count (XXH32_testdata v) + count (XXH64_testdata v) + count (XXH3_testdata v) + count (XXH3_withSecret_testdata v) +
  count (XXH128_testdata v) + count (XXH128_withSecret_testdata v) + count (XXH3_generateSecret_testdata v).

(** the tables for data of 0 to [m]-1 bytes *)
Definition seeded {T} (h : Z -> list Z -> T) (seeds : list Z) (m : Z) : list (Z * Z * T) :=
  flat_map (fun n => map (fun s => (n, s, h s (data n))) seeds) (upto m).
Definition tables (seed3 m : Z) : vectors :=
  Vectors (seeded (fun s d => X32.hash d s) [0; P32] m) (seeded (fun s d => X64.hash d s) [0; P32] m)
          (seeded X3.XXH3_64_withSeed [0; seed3] m) (seeded (fun _ => X3.XXH3_64_withSecret secret) [0] m)
          (seeded X3.XXH3_128_withSeed [0; P32; P64] m) (seeded (fun _ => X3.XXH3_128_withSecret secret) [0] m)
          (flat_map (fun n => map (fun size => (n, size, sample n size)) [192; 240; 277; 9867]) [0; 1; 135; 692]).

(** ** C initializers *)
(** spaces, ends of lines and comments left out, reading in code, behind a slash, in a comment or behind a star in it *)
Inductive place := Code | Slash | Comment | Star.
Fixpoint strip (p : place) (t : list Z) : list Z :=
  match t with
  | [] => match p with Slash => [47] | _ => [] end
  | x :: t =>
      let code := if x =? 47 then strip Slash t else if (x =? 32) || (x =? 10) then strip Code t else x :: strip Code t in
      match p with
      | Code => code
      | Slash => if x =? 42 then strip Comment t else 47 :: code
      | Comment => if x =? 42 then strip Star t else strip Comment t
      | Star => if x =? 47 then strip Code t else if x =? 42 then strip Star t else strip Comment t
      end
  end.
Definition digit (x : Z) : option Z :=
  if (48 <=? x) && (x <=? 57) then Some (x - 48) else if (65 <=? x) && (x <=? 70) then Some (x - 55)
  else if (97 <=? x) && (x <=? 102) then Some (x - 87) else None.
Inductive digits (b : Z) : list Z -> Z -> Prop :=
| d_one x d : digit x = Some d -> d < b -> digits b [x] d
| d_more t v x d : digits b t v -> digit x = Some d -> d < b -> digits b (t ++ [x]) (b * v + d).
(** integer constants: decimal (a leading zero would make it octal) or hexadecimal, with a suffix *)
Inductive constant : list Z -> Z -> Prop :=
| c_zero : constant (str "0") 0
| c_dec t v : digits 10 t v -> hd 48 t <> 48 -> constant t v
| c_hex t v : digits 16 t v -> constant (str "0x" ++ t) v
| c_hex_U t v : digits 16 t v -> v < 2 ^ 32 -> constant (str "0x" ++ t ++ str "U") v
| c_hex_ULL t v : digits 16 t v -> v < 2 ^ 64 -> constant (str "0x" ++ t ++ str "ULL") v.
(** nested lists in braces, a comma being allowed behind the last item *)
Inductive tree := Num (v : Z) | Braces (l : list tree).
Inductive reads : list Z -> tree -> Prop :=
| r_num t v : constant t v -> reads t (Num v)
| r_braces t l : items t l -> reads (str "{" ++ t ++ str "}") (Braces l)
with items : list Z -> list tree -> Prop :=
| i_none : items [] []
| i_last t v : reads t v -> items t [v]
| i_more t v t' l : reads t v -> items t' l -> items (t ++ str "," ++ t') (v :: l).
(** the trees of the entries *)
Definition tree3 (t : Z * Z * Z) : tree := let '(n, s, r) := t in Braces [Num n; Num s; Num r].
Definition tree128 (t : Z * Z * (Z * Z)) : tree := let '(n, s, r) := t in Braces [Num n; Num s; Braces [Num (fst r); Num (snd r)]].
Definition tree_sample (t : Z * Z * list Z) : tree := let '(n, s, r) := t in Braces [Num n; Num s; Braces (map Num r)].
(** the definition of an array *)
Definition defines (t type name : list Z) (l : list tree) : Prop :=
  exists body, t = str "static const " ++ type ++ str " " ++ name ++ str "[] = " ++ body ++ str ";" ++ [10] /\
    reads (strip Code body) (Braces l).
Definition header (t : list Z) (v : vectors) : Prop :=
  exists t1 t2 t3 t4 t5 t6 t7, t = t1 ++ t2 ++ t3 ++ t4 ++ t5 ++ t6 ++ t7 /\
    defines t1 (str "XSUM_testdata32_t") (str "XSUM_XXH32_testdata") (map tree3 (XXH32_testdata v)) /\
    defines t2 (str "XSUM_testdata64_t") (str "XSUM_XXH64_testdata") (map tree3 (XXH64_testdata v)) /\
    defines t3 (str "XSUM_testdata64_t") (str "XSUM_XXH3_testdata") (map tree3 (XXH3_testdata v)) /\
    defines t4 (str "XSUM_testdata64_t") (str "XSUM_XXH3_withSecret_testdata") (map tree3 (XXH3_withSecret_testdata v)) /\
    defines t5 (str "XSUM_testdata128_t") (str "XSUM_XXH128_testdata") (map tree128 (XXH128_testdata v)) /\
    defines t6 (str "XSUM_testdata128_t") (str "XSUM_XXH128_withSecret_testdata") (map tree128 (XXH128_withSecret_testdata v)) /\
    defines t7 (str "XSUM_testdata_sample_t") (str "XSUM_XXH3_generateSecret_testdata") (map tree_sample (XXH3_generateSecret_testdata v)).
End Vec.
