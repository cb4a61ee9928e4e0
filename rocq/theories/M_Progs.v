(** Model of two small programs: the generator of the Unicode test (tests/generate_unicode_test.c) and the fuzzing target
    (fuzz/fuzzer.c). *)
From Coq Require Import String.
From Verif Require Import Base Mem M_XXH32 M_XXH64 M_Cli.
Module Progs.

(** FILENAME: tests/generate_unicode_test.c:48-55, without its NUL *)
Definition FILENAME : list Z := [227; 131; 166; 227; 131; 139; 227; 130; 179; 227; 131; 188; 227; 131; 137] ++ str ".unicode".
(** WFILENAME: tests/generate_unicode_test.c:57-60 (compiled on Windows only), without its NUL *)
Definition WFILENAME : list Z := [12518; 12491; 12467; 12540; 12489] ++ str ".unicode".
(** a file name as it is given to the system: fopen or _wfopen (tests/generate_unicode_test.c:67-71) *)
Inductive path := Bytes (n : list Z) | Wide (n : list Z).
(** main: tests/generate_unicode_test.c:62-154: the result, and the files written, in order.  [win]: _WIN32 is defined.  [opens]: which
    fopen succeed; writing is taken to succeed (the code does not look).  Simplification: of the two scripts only the names are
    modelled, their contents are [None]; the commands which the scripts run are [commands] *)
Definition main (win : bool) (opens : path -> bool) : Z * list (path * option (list Z)) :=
  let f := if win then Wide WFILENAME else Bytes FILENAME in
  if negb (opens f) then (1, [])
  else
    let fs := [(f, Some (str "test" ++ [10]))] in
    if negb (opens (Bytes (str "unicode_test.xxh64"))) then (1, fs)
    else
      let fs := fs ++ [(Bytes (str "unicode_test.xxh64"), Some (str "2d7f1808da1fa63c  " ++ FILENAME ++ [10]))] in
      if negb (opens (Bytes (str "unicode_test.bat"))) then (1, fs)
      else
        let fs := fs ++ [(Bytes (str "unicode_test.bat"), None)] in
        if negb (opens (Bytes (str "unicode_test.sh"))) then (1, fs)
        else (0, fs ++ [(Bytes (str "unicode_test.sh"), None)]).
(** the calls of xxhsum in unicode_test.sh: tests/generate_unicode_test.c:141-149 (outside of Windows); the script stops at the first
    that fails *)
Definition commands : list (list (list Z)) := [[str "./xxhsum"; FILENAME]; [str "./xxhsum"; str "-c"; str "unicode_test.xxh64"]].

(** LLVMFuzzerTestOneInput: fuzz/fuzzer.c:5-11; beside the result, the two hashes it computes *)
Definition LLVMFuzzerTestOneInput (c : cfg) (data : ptr) (size : Z) : res (Z * (Z * Z)) :=
  let! hash64 := XXH64 c data size 0 in
  let! hash32 := XXH32 c data size 0 in
  OK (0, (hash64, hash32)).
End Progs.
