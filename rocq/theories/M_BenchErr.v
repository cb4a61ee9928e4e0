(** Model of the benchmark of xxhsum (cli/xsum_bench.c) with what it writes to stderr by XSUM_log (cli/xsum_output.c:33-42), which does so at every
    level of -q: the functions of M_Bench.v, each with that text as one more result.  What the tests themselves write (XSUM_logVerbose in
    XSUM_benchHash and XSUM_benchInternal, with the speeds) is the argument [said k]: the text for the [k]-th sample. *)
From Coq Require Import String List.
From Verif Require Import Base Mem M_XXH3 M_Stream3 M_Util M_Sanity M_Cli M_Cli2 M_Bench.

Module BErr.
(** XSUM_selectBenchedSize: cli/xsum_bench.c:375-384; the number is printed as an int *)
Definition selectBenchedSize (c : cfg) (fuel : nat) (malloc : nat -> Z -> bool) (fileName : list Z) (inFileSize : Z) : res (Z * list Z) :=
  let! benchedSize := findMaxMem c fuel malloc inFileSize in
  let benchedSize := if inFileSize <? benchedSize then usz c inFileSize else benchedSize in
  OK (benchedSize, if benchedSize <? inFileSize then
    str "Not enough memory for '" ++ fileName ++ str "' full size; testing " ++ dec (Z.shiftr benchedSize 20) ++ str " MB only..." ++ [LF] else []).
(** XSUM_benchInternal: cli/xsum_bench.c:429-452 *)
Definition benchInternal (c : cfg) (a : ambience) (get : calloc) (said : Z -> list Z) (testIDs : list Z) (keySize : Z) : res (bench * list Z) :=
  let n := usz c (usz c (keySize + 16) + 3) in
  match get n with
  | None => OK (BExit 12, [LF] ++ str "Error: Out of memory." ++ [LF])
  | Some base =>
      let! r := benchMem c a 0 testIDs (Ptr (repeat 0 (Z.to_nat n)) base (aligned16 base)) keySize in
      OK (BDone [r], said 0)
  end.
(** XSUM_benchFiles: cli/xsum_bench.c:387-426; [strerr]: strerror(errno) *)
Fixpoint benchFiles (c : cfg) (a : ambience) (fuel : nat) (malloc : Z -> nat -> Z -> bool) (get : Z -> calloc) (strerr : list Z) (said : Z -> list Z) (testIDs : list Z)
    (fs : list (list Z * bfile)) (k : Z) (acc : list (list (list Z * list Z))) : res (bench * list Z) :=
  match fs with
  | [] => OK (BDone acc, [])
  | (inFileName, f) :: fs =>
      let! (benchedSize, t) := selectBenchedSize c fuel (malloc k) inFileName (bf_size f) in
      let n := usz c (usz c (benchedSize + 16) + 3) in
      match bf_open f, get k n with
      | None, _ => OK (BExit 11, t ++ str "Error: Could not open '" ++ inFileName ++ str "': " ++ strerr ++ str "." ++ [LF])
      | Some _, None => OK (BExit 12, t ++ [LF] ++ str "Error: Out of memory." ++ [LF])
      | Some bytes, Some base =>
          let d := firstn (Z.to_nat benchedSize) bytes in
          let! blk := store (repeat 0 (Z.to_nat n)) (aligned16 base) d in
          if negb (zlen d =? benchedSize) then OK (BExit 13, t ++ [LF] ++ str "Error: Could not read '" ++ inFileName ++ str "': " ++ strerr ++ str "." ++ [LF])
          else
            let! r := benchMem c a k testIDs (Ptr blk base (aligned16 base)) benchedSize in
            let! (b, t2) := benchFiles c a fuel malloc get strerr said testIDs fs (k + 1) (acc ++ [r]) in
            OK (b, t ++ said k ++ t2)
      end
  end.
(** the benchmark in XSUM_main: cli/xxhsum.c:1349-1357; the exit code and the text.  [file]: what the system says of a name.  The welcome message and
    XSUM_sanityCheck (C55) are left out. *)
Definition benchmark (c : cfg) (a : ambience) (fuel : nat) (malloc : Z -> nat -> Z -> bool) (get : Z -> calloc) (strerr : list Z) (said : Z -> list Z) (file : list Z -> bfile)
    (testIDs : list Z) (keySize : Z) (names : list (list Z)) : res (Z * list Z) :=
  let! (b, t) := match names with
    | [] => benchInternal c a (get 0) said testIDs keySize
    | _ => benchFiles c a fuel malloc get strerr said testIDs (map (fun n => (n, file n)) names) 0 []
    end in
  OK (match b with BExit code => code | BDone _ => 0 end, t).
End BErr.
