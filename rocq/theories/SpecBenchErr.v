(** What the benchmark of xxhsum has to say on stderr, independently of the code. *)
From Coq Require Import String List.
From Verif Require Import Base M_Cli SpecCli2 SpecBench.

(** why it gives up, by its exit code *)
Definition reason (code : Z) (name strerr : list Z) : list Z :=
  if code =? 11 then str "Error: Could not open '" ++ name ++ str "': " ++ strerr ++ str "." ++ [10]
  else if code =? 12 then [10] ++ str "Error: Out of memory." ++ [10]
  else [10] ++ str "Error: Could not read '" ++ name ++ str "': " ++ strerr ++ str "." ++ [10].
(** that only [n] bytes of [size] are hashed *)
Definition notice (name : list Z) (size n : Z) : list Z :=
  if n =? size then [] else str "Not enough memory for '" ++ name ++ str "' full size; testing " ++ numeral (n / 2 ^ 20) ++ str " MB only..." ++ [10].
(** all, for the files in order, each a name, a size and, if it can be opened, its readable bytes; [said k]: what the tests of file [k] print *)
Fixpoint about_bench (fails : Z -> Z) (mem : Z -> Z -> bool) (strerr : list Z) (said : Z -> list Z) (fs : list (list Z * Z * option (list Z))) (k : Z) : list Z :=
  match fs with
  | [] => []
  | (name, size, content) :: fs =>
      let n := bench_size size (fails k) in
      notice name size n ++
      match content with
      | None => reason 11 name strerr
      | Some d => if negb (mem k (n + 19)) then reason 12 name strerr else if Z.of_nat (List.length d) <? n then reason 13 name strerr
                  else said k ++ about_bench fails mem strerr said fs (k + 1)
      end
  end.
