(** Model of the benchmark of xxhsum (cli/xsum_bench.c) with what it asks of the system about files and memory: the functions of M_Bench.v, each with
    the list of these calls (M_CliRes.v) as one more result.  P_BenchRes.v proves that without that result they are those of M_Bench.v. *)
From Coq Require Import String.
From Verif Require Import Base Mem M_XXH32 M_XXH64 M_XXH3 M_Kernels M_Long M_Stream3 M_Util M_Sanity M_Cli M_Bench M_CliRes.

Module BRes.
(** XSUM_findMaxMem: cli/xsum_bench.c:67-88; the block that shows how much there is is freed at once (81) *)
Definition findMaxMem (c : cfg) (fuel : nat) (malloc : nat -> Z -> bool) (requiredMem : Z) (l : log) : res (Z * log) :=
  let! r := M_Bench.findMaxMem c fuel malloc requiredMem in
  let testmem := fresh l in
  let l := l ++ [Allocated] in
  OK (r, l ++ [Freed testmem]).
(** XSUM_selectBenchedSize: cli/xsum_bench.c:375-384 *)
Definition selectBenchedSize (c : cfg) (fuel : nat) (malloc : nat -> Z -> bool) (inFileSize : Z) (l : log) : res (Z * log) :=
  let! (benchedSize, l) := findMaxMem c fuel malloc inFileSize l in
  OK (if inFileSize <? benchedSize then usz c inFileSize else benchedSize, l).
(** XSUM_benchMem: cli/xsum_bench.c:351-373; [kp]: the block of the caller.  The name made by XSUM_strcatDup (323-338) is freed at 370. *)
Definition benchMem (c : cfg) (a : ambience) (k : Z) (testIDs : list Z) (kp : handle) (buffer : ptr) (bufferSize : Z) (l : log) : res (list (list Z * list Z) * log) :=
  let! _ := assert_ (Z.land (paddr buffer) 15 =? 0) in
  let! sb := fillTestBuffer (a_secret a) SECRET_SIZE_MIN in
  let secret := Ptr sb (a_sadr a) 0 in
  for_ 28 1 (fun i '(acc, l) =>
    let hashFuncID := (i - 1) / 2 in
    let! t := cget testIDs i in
    match nth_error (hashesToBench c) (Z.to_nat hashFuncID) with
    | None => UB
    | Some (name, func) =>
        if t =? 0 then OK (acc, l)
        else if i mod 2 =? 1 then
          let! r := benchHash c func (a_state a k i) secret buffer bufferSize (a_later a k i) in
          OK (acc ++ [(name, r)], l ++ [Used kp])
        else
          let! b := strcatDup c (a_fresh a) (name ++ [0]) (str " unaligned" ++ [0]) in
          let hashNameBuf := fresh l in
          let l := l ++ [Allocated] in
          let! n := cstr b 0 in
          let! r := benchHash c func (a_state a k i) secret (padd buffer 3) bufferSize (a_later a k i) in
          let l := (l ++ [Used hashNameBuf]) ++ [Used kp] in
          OK (acc ++ [(n, r)], l ++ [Freed hashNameBuf])
    end) ([], l).
(** XSUM_benchInternal: cli/xsum_bench.c:429-452 *)
Definition benchInternal (c : cfg) (a : ambience) (get : calloc) (testIDs : list Z) (keySize : Z) (l : log) : res (bench * log) :=
  let n := usz c (usz c (keySize + 16) + 3) in
  match get n with
  | None => OK (BExit 12, l)
  | Some base =>
      let buffer := fresh l in
      let l := l ++ [Allocated] in
      let! (r, l) := benchMem c a 0 testIDs buffer (Ptr (repeat 0 (Z.to_nat n)) base (aligned16 base)) keySize l in
      OK (BDone [r], l ++ [Freed buffer])
  end.
(** XSUM_benchFiles: cli/xsum_bench.c:387-426; the file is opened first (394), then the memory probed (395), then the block allocated (396) *)
Fixpoint benchFiles (c : cfg) (a : ambience) (fuel : nat) (malloc : Z -> nat -> Z -> bool) (get : Z -> calloc) (testIDs : list Z)
    (fs : list bfile) (k : Z) (acc : list (list (list Z * list Z))) (l : log) : res (bench * log) :=
  match fs with
  | [] => OK (BDone acc, l)
  | f :: fs =>
      let inFile := fresh l in
      let l := match bf_open f with Some _ => l ++ [Opened] | None => l end in
      let! (benchedSize, l) := selectBenchedSize c fuel (malloc k) (bf_size f) l in
      let n := usz c (usz c (benchedSize + 16) + 3) in
      let buffer := fresh l in
      let l := match get k n with Some _ => l ++ [Allocated] | None => l end in
      match bf_open f, get k n with
      | None, None => OK (BExit 11, l)
      | None, Some _ => OK (BExit 11, l ++ [Freed buffer])
      | Some _, None => OK (BExit 12, l ++ [Closed inFile])
      | Some bytes, Some base =>
          let d := firstn (Z.to_nat benchedSize) bytes in
          let! blk := store (repeat 0 (Z.to_nat n)) (aligned16 base) d in
          let l := (l ++ [Read inFile]) ++ [Used buffer] in
          let l := l ++ [Closed inFile] in
          if negb (zlen d =? benchedSize) then OK (BExit 13, l ++ [Freed buffer])
          else
            let! (r, l) := benchMem c a k testIDs buffer (Ptr blk base (aligned16 base)) benchedSize l in
            benchFiles c a fuel malloc get testIDs fs (k + 1) (acc ++ [r]) (l ++ [Freed buffer])
      end
  end.
End BRes.
