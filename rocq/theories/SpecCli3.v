(** The command line of xxhsum, stated on the argument strings: numbers, option letters and words, and what is done.
    From cli/xxhsum.1.md and the help page (cli/xxhsum.c:1101-1142) and, where these are silent, the code.  Nothing of
    the model is used but the names of algorithms, styles, byte orders and ends of the program. *)
From Coq Require Import String Ascii List.
From Verif Require Import Base Mem M_Cli M_Cli3.

(** ** Numbers *)
Definition digit (c : Z) : bool := (48 <=? c) && (c <=? 57).
Fixpoint leading_digits (s : list Z) : list Z * list Z :=
  match s with
  | [] => ([], [])
  | c :: r => if digit c then (c :: fst (leading_digits r), snd (leading_digits r)) else ([], s)
  end.
Definition decimal (ds : list Z) : Z := fold_left (fun v c => 10 * v + (c - 48)) ds 0.
Definition skip (c : Z) (s : list Z) : list Z := match s with [] => [] | x :: r => if x =? c then r else s end.
(** K, Ki, KB, KiB stand for 2^10, M, Mi, MB, MiB for 2^20 *)
Definition unit_of (s : list Z) : Z * list Z :=
  match s with
  | [] => (1, [])
  | u :: r => if u =? 75 then (2 ^ 10, skip 66 (skip 105 r)) else if u =? 77 then (2 ^ 20, skip 66 (skip 105 r)) else (1, s)
  end.
(** the number at the start of a string, and what follows it; [None]: too large *)
Definition number (s : list Z) : option (Z * list Z) :=
  let (ds, t) := leading_digits s in
  let (mult, rest) := unit_of t in
  if (decimal ds <=? 4294967289) && (decimal ds * mult <? 2 ^ 32) then Some (decimal ds * mult, rest) else None.
(** a list of numbers separated by commas, and what follows it ([None]: the number after them is too large) *)
Inductive Ids : list Z -> list Z -> option (list Z) -> Prop :=
  | ids_over r : number (skip 44 r) = None -> Ids r [] None
  | ids_last r n t : number (skip 44 r) = Some (n, t) -> (forall u, t <> 44 :: u) -> Ids r [n] (Some t)
  | ids_more r n u ns t : number (skip 44 r) = Some (n, 44 :: u) -> Ids (44 :: u) ns t -> Ids r (n :: ns) t.

(** ** Settings *)
Record settings := Settings {
  g_check : bool; g_strict : bool; g_status : bool; g_warn : bool; g_ignore : bool; g_stdin : bool;
  g_quiet : Z;                       (* how many times -q *)
  g_algo : algo; g_order : endianness; g_style : convention;
  g_ids : list Z;                    (* variants asked for with -b, in order; --bench-all counts as 99 *)
  g_iter : Z; g_size : Z }.
Definition default (a : algo) : settings := Settings false false false false false false 0 a big_endian display_gnu [] 3 102400.
Definition check (s : settings) := Settings true (g_strict s) (g_status s) (g_warn s) (g_ignore s) (g_stdin s) (g_quiet s) (g_algo s) (g_order s) (g_style s) (g_ids s) (g_iter s) (g_size s).
Definition strict (s : settings) := Settings (g_check s) true (g_status s) (g_warn s) (g_ignore s) (g_stdin s) (g_quiet s) (g_algo s) (g_order s) (g_style s) (g_ids s) (g_iter s) (g_size s).
Definition status (s : settings) := Settings (g_check s) (g_strict s) true (g_warn s) (g_ignore s) (g_stdin s) (g_quiet s) (g_algo s) (g_order s) (g_style s) (g_ids s) (g_iter s) (g_size s).
Definition warn (s : settings) := Settings (g_check s) (g_strict s) (g_status s) true (g_ignore s) (g_stdin s) (g_quiet s) (g_algo s) (g_order s) (g_style s) (g_ids s) (g_iter s) (g_size s).
Definition ignore_missing (s : settings) := Settings (g_check s) (g_strict s) (g_status s) (g_warn s) true (g_stdin s) (g_quiet s) (g_algo s) (g_order s) (g_style s) (g_ids s) (g_iter s) (g_size s).
Definition standard_input (s : settings) := Settings (g_check s) (g_strict s) (g_status s) (g_warn s) (g_ignore s) true (g_quiet s) (g_algo s) (g_order s) (g_style s) (g_ids s) (g_iter s) (g_size s).
Definition quieter (s : settings) := Settings (g_check s) (g_strict s) (g_status s) (g_warn s) (g_ignore s) (g_stdin s) (g_quiet s + 1) (g_algo s) (g_order s) (g_style s) (g_ids s) (g_iter s) (g_size s).
Definition hash_with (a : algo) (s : settings) := Settings (g_check s) (g_strict s) (g_status s) (g_warn s) (g_ignore s) (g_stdin s) (g_quiet s) a (g_order s) (g_style s) (g_ids s) (g_iter s) (g_size s).
Definition little (s : settings) := Settings (g_check s) (g_strict s) (g_status s) (g_warn s) (g_ignore s) (g_stdin s) (g_quiet s) (g_algo s) little_endian (g_style s) (g_ids s) (g_iter s) (g_size s).
Definition tag (s : settings) := Settings (g_check s) (g_strict s) (g_status s) (g_warn s) (g_ignore s) (g_stdin s) (g_quiet s) (g_algo s) (g_order s) display_bsd (g_ids s) (g_iter s) (g_size s).
Definition bench (ids : list Z) (s : settings) := Settings (g_check s) (g_strict s) (g_status s) (g_warn s) (g_ignore s) (g_stdin s) (g_quiet s) (g_algo s) (g_order s) (g_style s) (g_ids s ++ ids) (g_iter s) (g_size s).
Definition iterations (n : Z) (s : settings) := Settings (g_check s) (g_strict s) (g_status s) (g_warn s) (g_ignore s) (g_stdin s) (g_quiet s) (g_algo s) (g_order s) (g_style s) (g_ids s) n (g_size s).
Definition sample (n : Z) (s : settings) := Settings (g_check s) (g_strict s) (g_status s) (g_warn s) (g_ignore s) (g_stdin s) (g_quiet s) (g_algo s) (g_order s) (g_style s) (g_ids s) (g_iter s) n.

(** ** Options *)
(** cli/xxhsum.1.md:41-44 *)
Definition hash_type (n : Z) : option algo :=
  if (n =? 0) || (n =? 32) then Some algo_xxh32 else if (n =? 1) || (n =? 64) then Some algo_xxh64
  else if (n =? 2) || (n =? 128) then Some algo_xxh128 else if n =? 3 then Some algo_xxh3 else None.
Definition as_int (n : Z) : Z := if n <? 2 ^ 31 then n else n - 2 ^ 32.
Definition letters : list Z := map (fun c => nth 0 (str c) 0) ["V"; "h"; "H"; "c"; "w"; "b"; "i"; "B"; "q"]%string.
(** one option letter with its number: the settings after it and what follows, or the end of the program.  [Wild]: a
    variant of 2^31 or more was asked for. *)
Inductive step := Next (s : settings) (rest : list Z) | Ends (st : stop) | Wild.
Inductive Letter (s : settings) : list Z -> step -> Prop :=
  | l_version r : Letter s (str "V" ++ r) (Ends Version)
  | l_help r : Letter s (str "h" ++ r) (Ends Help)
  | l_hash r n t a : number r = Some (n, t) -> hash_type n = Some a -> Letter s (str "H" ++ r) (Next (hash_with a s) t)
  | l_hash_unknown r n t : number r = Some (n, t) -> hash_type n = None -> Letter s (str "H" ++ r) (Ends BadUsage)
  | l_hash_large r : number r = None -> Letter s (str "H" ++ r) (Ends TooLarge)
  | l_check r : Letter s (str "c" ++ r) (Next (check s) r)
  | l_warn r : Letter s (str "w" ++ r) (Next (warn s) r)
  | l_quiet r : Letter s (str "q" ++ r) (Next (quieter s) r)
  | l_iter r n t : number r = Some (n, t) -> Letter s (str "i" ++ r) (Next (iterations (as_int n) s) t)
  | l_iter_large r : number r = None -> Letter s (str "i" ++ r) (Ends TooLarge)
  | l_sample r n t : number r = Some (n, t) -> Letter s (str "B" ++ r) (Next (sample n s) t)
  | l_sample_large r : number r = None -> Letter s (str "B" ++ r) (Ends TooLarge)
  | l_bench r ns t : Ids r ns (Some t) -> Forall (fun n => n < 2 ^ 31) ns -> Letter s (str "b" ++ r) (Next (bench ns s) t)
  | l_bench_large r ns : Ids r ns None -> Forall (fun n => n < 2 ^ 31) ns -> Letter s (str "b" ++ r) (Ends TooLarge)
  | l_bench_wild r ns t : Ids r ns t -> Exists (fun n => 2 ^ 31 <= n) ns -> Letter s (str "b" ++ r) Wild
  | l_unknown c r : ~ In c letters -> Letter s (c :: r) (Ends BadUsage).
Inductive Letters (s : settings) : list Z -> step -> Prop :=
  | ls_nil : Letters s [] (Next s [])
  | ls_next r s' t out : Letter s r (Next s' t) -> Letters s' t out -> Letters s r out
  | ls_ends r st : Letter s r (Ends st) -> Letters s r (Ends st)
  | ls_wild r : Letter s r Wild -> Letters s r Wild.
(** the long options *)
Definition words : list (list Z * (settings -> settings)) :=
  [(str "--check", check); (str "--benchmark-all", bench [99]); (str "--bench-all", bench [99]); (str "--quiet", quieter);
   (str "--little-endian", little); (str "--strict", strict); (str "--status", status); (str "--warn", warn);
   (str "--binary", fun s => s); (str "--ignore-missing", ignore_missing); (str "--tag", tag)].
Definition special (a : list Z) : Prop := In a (map fst words) \/ In a [str "--help"; str "--version"; str "--"].
Inductive line := Run (s : settings) (names : list (list Z)) | Finish (st : stop) | Runaway.
Inductive Options : settings -> list (list Z) -> line -> Prop :=
  | o_none s : Options s [] (Run s [])
  | o_word s a f rest out : In (a, f) words -> Options (f s) rest out -> Options s (a :: rest) out
  | o_help s rest : Options s (str "--help" :: rest) (Finish Help)
  | o_version s rest : Options s (str "--version" :: rest) (Finish Version)
  | o_names s rest : Options s (str "--" :: rest) (Run s rest)
  | o_name s a rest : (forall r, a <> str "-" ++ r) -> Options s (a :: rest) (Run s (a :: rest))
  | o_dash s rest out : Options (standard_input s) rest out -> Options s (str "-" :: rest) out
  | o_letters s r s' rest out : r <> [] -> ~ special (str "-" ++ r) -> Letters s r (Next s' []) -> Options s' rest out -> Options s ((str "-" ++ r) :: rest) out
  | o_ends s r st rest : ~ special (str "-" ++ r) -> Letters s r (Ends st) -> Options s ((str "-" ++ r) :: rest) (Finish st)
  | o_wild s r rest : ~ special (str "-" ++ r) -> Letters s r Wild -> Options s ((str "-" ++ r) :: rest) Runaway.

(** ** What is done *)
(** the variants that are run, numbered 1 to 28 *)
Definition usual_variants : list Z := [1; 3; 5; 11].
Definition variants (ids : list Z) : list Z :=
  let all := map Z.of_nat (seq 1 28) in
  let l := last ids 0 in
  if l =? 0 then usual_variants else if 28 <? l then all else filter (fun k => existsb (Z.eqb k) ids) all.
Inductive todo :=
  | TStop (st : stop)
  | TBench (which : list Z) (iter size : Z) (names : list (list Z))
  | TCheck (names : list (list Z)) (s : settings) (accepted : list algo)
  | THash (names : list (list Z)) (a : algo) (order : endianness) (style : convention).
Definition todo_of (console : bool) (accepted : list algo) (s : settings) (names : list (list Z)) : todo :=
  match g_ids s, names with
  | _ :: _, _ => TBench (variants (g_ids s)) (g_iter s) (g_size s) names
  | [], [] => if console && negb (g_stdin s) then TStop BadUsage else if g_check s then TCheck [] s accepted else THash [] (g_algo s) (g_order s) (g_style s)
  | [], _ => if g_check s then TCheck names s accepted else THash names (g_algo s) (g_order s) (g_style s)
  end.
(** the file name of the program: what follows the last slash, then the last backslash *)
Inductive Basename : list Z -> list Z -> Prop :=
  | basename p q : ~ In 47 q -> p = q \/ (exists d, p = d ++ 47 :: q) -> forall n, ~ In BSL n -> q = n \/ (exists d, q = d ++ BSL :: n) -> Basename p n.
Definition holds (name part : list Z) : Prop := exists a b, name = a ++ part ++ b.
(** the algorithm used by default and the ones accepted when checking *)
Inductive Personality (name : list Z) : algo -> list algo -> Prop :=
  | p_xxh3 : holds name (str "xxh3sum") -> Personality name algo_xxh3 [algo_xxh3]
  | p_xxh128 : ~ holds name (str "xxh3sum") -> holds name (str "xxh128sum") -> Personality name algo_xxh128 [algo_xxh128]
  | p_xxh64 : ~ holds name (str "xxh3sum") -> ~ holds name (str "xxh128sum") -> holds name (str "xxh64sum") -> Personality name algo_xxh64 [algo_xxh64]
  | p_xxh32 : ~ holds name (str "xxh3sum") -> ~ holds name (str "xxh128sum") -> ~ holds name (str "xxh64sum") -> holds name (str "xxh32sum") -> Personality name algo_xxh32 [algo_xxh32]
  | p_xxhsum : ~ holds name (str "xxh3sum") -> ~ holds name (str "xxh128sum") -> ~ holds name (str "xxh64sum") -> ~ holds name (str "xxh32sum") ->
      Personality name algo_xxh64 [algo_xxh32; algo_xxh64; algo_xxh128; algo_xxh3].

(** ** The documented options *)
(** a decimal number of one digit or more *)
Definition decimal_text (ds : list Z) : Prop := ds <> [] /\ Forall (fun c => digit c = true) ds.
(** variants 1 to 28, separated by commas *)
Inductive Commas : list Z -> list Z -> Prop :=
  | c_one ds : decimal_text ds -> 1 <= decimal ds <= 28 -> Commas ds [decimal ds]
  | c_more ds r ns : decimal_text ds -> 1 <= decimal ds <= 28 -> Commas r ns -> Commas (ds ++ 44 :: r) (decimal ds :: ns).
Definition hash_texts : list (list Z * algo) :=
  [(str "-H0", algo_xxh32); (str "-H32", algo_xxh32); (str "-H1", algo_xxh64); (str "-H64", algo_xxh64);
   (str "-H2", algo_xxh128); (str "-H128", algo_xxh128); (str "-H3", algo_xxh3)].
(** cli/xxhsum.1.md:38-124, each option in an argument of its own *)
Inductive Documented : list Z -> (settings -> settings) -> Prop :=
  | doc_word w f : In (w, f) words -> Documented w f
  | doc_hash w a : In (w, a) hash_texts -> Documented w (hash_with a)
  | doc_check : Documented (str "-c") check
  | doc_quiet : Documented (str "-q") quieter
  | doc_warn : Documented (str "-w") warn
  | doc_bench r ns : Commas r ns -> Documented (str "-b" ++ r) (bench ns)
  | doc_iter ds : decimal_text ds -> decimal ds < 2 ^ 31 -> Documented (str "-i" ++ ds) (iterations (decimal ds))
  | doc_sample ds : decimal_text ds -> decimal ds <= 4294967289 -> Documented (str "-B" ++ ds) (sample (decimal ds)).
Inductive Texts : list (list Z) -> settings -> settings -> Prop :=
  | t_nil s : Texts [] s s
  | t_cons w f args s s' : Documented w f -> Texts args (f s) s' -> Texts (w :: args) s s'.
(** the names that may follow the options without "--" *)
Definition plain (names : list (list Z)) : Prop := forall n rest, names = n :: rest -> forall r, n <> str "-" ++ r.
