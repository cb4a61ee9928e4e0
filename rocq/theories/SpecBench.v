(** What the benchmark of xxhsum is to compute (cli/xxhsum.1.md, option -b, and the table of variants printed by it):
    hashes by number, of the same bytes, for the seeds 0, 1, 2, ...  Uses nothing of the model. *)
From Coq Require Import String Ascii.
From Verif Require Import Base Spec32 Spec64 Spec3.

(** the 14 variants in order; the seed is ignored by those that take none *)
Definition variant (id : nat) (secret m : list Z) (u : Z) : option Z :=
  match id with
  | 0 | 8 => Some (X32.hash m u)
  | 1 | 9 => Some (X64.hash m u)
  | 2 | 10 => Some (X3.XXH3_64 m)
  | 3 | 11 => Some (X3.XXH3_64_withSeed u m)
  | 4 => Some (X3.XXH3_64_withSecret secret m)
  | 5 | 12 => Some (fst (X3.XXH3_128 m))
  | 6 | 13 => Some (fst (X3.XXH3_128_withSeed u m))
  | 7 => Some (fst (X3.XXH3_128_withSecret secret m))
  | _ => None
  end%nat.
Definition variant_names : list string :=
  ["XXH32"; "XXH64"; "XXH3_64b"; "XXH3_64b w/seed"; "XXH3_64b w/secret"; "XXH128"; "XXH128 w/seed"; "XXH128 w/secret";
   "XXH32_stream"; "XXH64_stream"; "XXH3_stream"; "XXH3_stream w/seed"; "XXH128_stream"; "XXH128_stream w/seed"]%string.
Definition codes (s : string) : list Z := map (fun a => Z.of_N (N_of_ascii a)) (list_ascii_of_string s).

(** the sum modulo 2^32 of the values of [f] at 0 .. n-1 *)
Definition total32 (n : Z) (f : Z -> Z) : Z := fold_left Z.add (map f (upto n)) 0 mod 2 ^ 32.

(** the secret of the benchmark: byte [k] is the top byte of 2654435761 * 11400714785074694797 ^ k modulo 2^64 *)
Definition bench_secret : list Z := map (fun k => (2654435761 * 11400714785074694797 ^ k) mod 2 ^ 64 / 2 ^ 56) (upto 136).

(** test [i] (1 to 28) hashes [m] if [i] is odd and [m3], the bytes three further on, if it is even; [counts]: how many
    hashes each round makes *)
Definition test_of (m m3 : list Z) (counts : Z -> list Z) (i : Z) : list Z * list Z :=
  let id := Z.to_nat ((i - 1) / 2) in
  let odd := Z.odd i in
  (codes (nth id variant_names ""%string) ++ (if odd then [] else codes " unaligned"),
   map (fun n => total32 n (fun u => match variant id bench_secret (if odd then m else m3) u with Some h => h | None => 0 end)) (counts i)).
(** the tests selected by the flags [ids], in order *)
Definition selected (ids : list Z) : list Z := filter (fun i => negb (nth (Z.to_nat i) ids 0 =? 0)) (map (fun i => i + 1) (upto 28)).
Definition bench_result (ids m m3 : list Z) (counts : Z -> list Z) : list (list Z * list Z) :=
  map (test_of m m3 counts) (selected ids).
(** the first round hashes about 10 MB *)
Definition first_count (size : Z) : Z := 10 * 2 ^ 20 / (size + 1) + 1.

(** ** Files.  How much of a file is hashed, if the first [fails] probes of memory fail: memory is probed in steps of 64 MB
    downwards from two steps above the size and at most 2 GB - 64 MB, then by halves; the amount is the one after the first
    that was available, and never more than the file. *)
Definition chunks (size : Z) : Z := Z.min 31 (size / 2 ^ 26 + 3).
Definition offered (q j : Z) : Z := if j <=? q - 2 then (q - 1 - j) * 2 ^ 26 else 2 ^ 26 / 2 ^ (j - (q - 2)).
Definition bench_size (size fails : Z) : Z := Z.min size (offered (chunks size) (fails + 1)).

Inductive bench_end := Stop (code : Z) | Results (r : list (list (list Z * list Z))).
(** the files in order, each a size and, if it can be opened, its readable bytes; [mem k n]: file [k] gets [n] bytes *)
Fixpoint files_result (ids : list Z) (counts : Z -> Z -> list Z) (fails : Z -> Z) (mem : Z -> Z -> bool)
    (fs : list (Z * option (list Z))) (k : Z) : bench_end :=
  match fs with
  | [] => Results []
  | (size, content) :: fs =>
      let n := bench_size size (fails k) in
      match content with
      | None => Stop 11
      | Some d =>
          if negb (mem k (n + 19)) then Stop 12
          else if Z.of_nat (List.length d) <? n then Stop 13
          else
            let m := firstn (Z.to_nat n) d in
            match files_result ids counts fails mem fs (k + 1) with
            | Stop code => Stop code
            | Results r => Results (bench_result ids m (skipn 3 (m ++ [0; 0; 0])) (fun i => first_count n :: counts k i) :: r)
            end
      end
  end.
