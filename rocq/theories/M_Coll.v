(** Model of the collision tester's sample generators and candidate filter (tests/collisions/main.c).
    An [assert] that fails ends the program; like XXH_ASSERT it is represented by [UB] (NDEBUG is undefined in this
    file, main.c:49).  Simplification: malloc and aligned_alloc succeed (their failure ends the program, main.c:167-169,
    274-276, 348-351). *)
From Verif Require Import Base Mem.

Module Coll.
(** array accesses: [a[i]] and [a[i] = v]; outside the array they are undefined (used throughout main.c:131-334) *)
Definition rd (a : list Z) (i : Z) : res Z := if (0 <=? i) && (i <? zlen a) then OK (nth (Z.to_nat i) a 0) else UB.
Fixpoint upd (a : list Z) (i : nat) (v : Z) : list Z :=
  match a, i with [], _ => [] | _ :: a, O => v :: a | x :: a, S i => x :: upd a i v end.
Definition wr (a : list Z) (i v : Z) : res (list Z) := if (0 <=? i) && (i <? zlen a) then OK (upd a (Z.to_nat i) v) else UB.

(** prime64_1, prime64_2, prime64_3: main.c:105-107 *)
Definition prime64_1 := 11400714785074694791.
Definition prime64_2 := 14029467366897019727.
Definition prime64_3 := 1609587929392839161.
(** avalanche64: main.c:109-117 *)
Definition avalanche64 (h64 : Z) : Z :=
  let h64 := xor h64 (shr h64 33) in
  let h64 := mul64 h64 prime64_2 in
  let h64 := xor h64 (shr h64 29) in
  let h64 := mul64 h64 prime64_3 in
  xor h64 (shr h64 32).
(** randomByte: main.c:119-124 *)
Definition randomByte (n : Z) : Z :=
  let n64 := avalanche64 (add64 n 1) in
  u8 (shr (mul64 n64 prime64_1) 56).
(** the loop that fills the sample: main.c:156-157 (slab5, no seed) and 265-266 (sparse) *)
Definition fill (seed : Z) (size : Z) (p : list Z) : res (list Z) :=
  for_ (Z.to_nat size) 0 (fun n p => wr p n (randomByte (add64 seed n))) p.

(** ** slab5 generator: main.c:131-198 *)
Definition SLAB_SIZE := 5.
(** sampleFactory of the slab5 build: main.c:141-147.  [s_mode] is never read and is left out. *)
Record slab := Slab { s_buffer : list Z; s_size : Z; s_prngSeed : Z; s_hnb : Z }.
(** init_sampleFactory (slab5): main.c:149-161; [None] is the call of EXIT.  [p + n] with [n] a size_t is passed to
    randomByte directly: the seed is not used. *)
Definition slab_init (sf : slab) (htotal : Z) : res (option slab) :=
  let minNbSlabs := add64 (shr (sub64 htotal 1) 32) 1 in
  let minSize := mul64 minNbSlabs SLAB_SIZE in
  if s_size sf <? minSize then OK None
  else
    let! b := fill 0 (s_size sf) (s_buffer sf) in
    OK (Some (Slab b (s_size sf) (s_prngSeed sf) 0)).
(** create_sampleFactory (slab5): main.c:163-176; [junk] is what malloc left in the buffer *)
Definition slab_create (junk : list Z) (size htotal seed : Z) : res (option slab) :=
  slab_init (Slab junk size seed 0) htotal.
(** update_sampleFactory (slab5): main.c:185-198 *)
Definition slab_update (c : cfg) (sf : slab) : res slab :=
  let nbSlabs := s_size sf / SLAB_SIZE in
  let! _ := assert_ (negb (nbSlabs =? 0)) in
  let SlabNb := s_hnb sf mod nbSlabs in
  let hnb := add64 (s_hnb sf) 1 in
  let start := usz c (usz c (SlabNb * SLAB_SIZE) + 1) in
  let! l := load (Ptr (s_buffer sf) 0 start) 4 in
  let val32 := add32 (native_val c l) 374761393 in
  let! b := store (s_buffer sf) start (native_bytes c 4 val32) in
  OK (Slab b (s_size sf) (s_prngSeed sf) hnb).

(** ** sparse generator: main.c:202-334 *)
Definition SPARSE_LEVEL_MAX := 15.
(** Cnm: main.c:215-226.  The accumulator is a double; as long as every product is at most 2^53 all values are
    integers a double holds exactly, which is what this definition computes.  Beyond that it stops with [NoFuel]:
    rounding is not modelled. *)
Definition Cnm (n m : Z) : res Z :=
  let! _ := assert_ (0 <? n) in
  let! _ := assert_ (0 <? m) in
  let! _ := assert_ (m <=? n) in
  for_ (Z.to_nat m) 0 (fun i acc => if acc * (n - i) <=? 2 ^ 53 then OK (acc * (n - i) / (1 + i)) else NoFuel) 1.
(** enoughCombos: main.c:228-240; state of the loop: acc, nbBitsSet, and whether [return 0] was reached *)
Definition enoughCombos (size htotal : Z) : res bool :=
  if size <? 2 then OK false
  else
    let srcBits := size * 8 in
    let! _ := assert_ (srcBits <? 2 ^ 31 - 1) in
    let! s := while_ 15 (fun '(acc, nb, out) => negb out && (acc <? htotal))
      (fun '(acc, nb, out) =>
        let nb := nb + 1 in
        if SPARSE_LEVEL_MAX <=? nb then OK (acc, nb, true)
        else let! x := Cnm srcBits nb in OK (add64 acc x, nb, false)) (0, 0, false) in
    let '(_, _, out) := s in
    OK (negb out).
(** sampleFactory of the default build: main.c:242-254.  mode, nbSlabs and current are never read. *)
Record sparse := Sparse { f_buffer : list Z; f_size : Z; f_bitIdx : list Z; f_level : Z; f_maxBitIdx : Z; f_prngSeed : Z }.
(** init_sampleFactory: main.c:256-268; [None] is the call of EXIT *)
Definition sparse_init (sf : sparse) (htotal : Z) : res (option sparse) :=
  let! enough := enoughCombos (f_size sf) htotal in
  if negb enough then OK None
  else
    let! b := fill (f_prngSeed sf) (f_size sf) (f_buffer sf) in
    OK (Some (Sparse b (f_size sf) (repeat 0 15) 0 (f_maxBitIdx sf) (f_prngSeed sf))).
(** create_sampleFactory: main.c:270-284; [junk] and [junkIdx] are what malloc left behind *)
Definition sparse_create (c : cfg) (junk junkIdx : list Z) (size htotal seed : Z) : res (option sparse) :=
  sparse_init (Sparse junk size junkIdx 0 (usz c (size * 8)) seed) htotal.
(** flipbit: main.c:293-299 *)
Definition flipbit (p : list Z) (bitID : Z) : res (list Z) :=
  let pos := shr bitID 3 in
  let mask := u8 (Z.shiftl 1 (Z.land bitID 7)) in
  let! x := rd p pos in
  wr p pos (u8 (xor x mask)).
(** updateBit: main.c:301-318; the recursion is on the level *)
Fixpoint updateBit (c : cfg) (level : nat) (p bitIdx : list Z) (max : Z) : res (bool * list Z * list Z) :=
  match level with
  | O => OK (false, p, bitIdx)
  | S level' =>
      let lv := Z.of_nat level in
      let! x := rd bitIdx lv in
      let! p := flipbit p x in
      if x <? usz c (max - 1) then
        let! bitIdx := wr bitIdx lv (usz c (x + 1)) in
        let! y := rd bitIdx lv in
        let! p := flipbit p y in
        OK (true, p, bitIdx)
      else
        let! r := updateBit c level' p bitIdx (usz c (max - 1)) in
        let '(ok, p, bitIdx) := r in
        if negb ok then OK (false, p, bitIdx)
        else
          let! z := rd bitIdx (lv - 1) in
          let! bitIdx := wr bitIdx lv (usz c (z + 1)) in
          let! y := rd bitIdx lv in
          let! p := flipbit p y in
          OK (true, p, bitIdx)
  end.
(** update_sampleFactory: main.c:320-333 *)
Definition sparse_update (c : cfg) (sf : sparse) : res sparse :=
  let! r := updateBit c (Z.to_nat (f_level sf)) (f_buffer sf) (f_bitIdx sf) (f_maxBitIdx sf) in
  let '(ok, p, bitIdx) := r in
  if ok then OK (Sparse p (f_size sf) bitIdx (f_level sf) (f_maxBitIdx sf) (f_prngSeed sf))
  else
    let level := f_level sf + 1 in
    let! _ := assert_ (level <? SPARSE_LEVEL_MAX) in
    let! s := for_ (Z.to_nat level) 1 (fun i '(p, bitIdx) =>
      let! bitIdx := wr bitIdx i (i - 1) in
      let! y := rd bitIdx i in
      let! p := flipbit p y in
      OK (p, bitIdx)) (p, bitIdx) in
    let '(p, bitIdx) := s in
    OK (Sparse p (f_size sf) bitIdx level (f_maxBitIdx sf) (f_prngSeed sf)).

(** ** the candidate filter, 2-probe version: main.c:340-498 *)
(** [(size_t)1 << n]: undefined for a negative or too large [n] (main.c:345, 431, 461, 484) *)
Definition shl1 (c : cfg) (n : Z) : res Z := if (0 <=? n) && (n <? szbits c) then OK (2 ^ n) else UB.
(** create_Filter: main.c:342-354 *)
Definition create_Filter (c : cfg) (bflog : Z) : res (list Z) :=
  let! _ := assert_ ((bflog <? 64) && (1 <? bflog)) in
  let! bfsize := shl1 c bflog in
  OK (repeat 0 (Z.to_nat bfsize)).
(** [bf[i] |= v] on unsigned char (main.c:449-452) *)
Definition or_at (bf : list Z) (i v : Z) : res (list Z) := let! x := rd bf i in wr bf i (u8 (Z.lor x v)).
(** Filter_insert: main.c:423-455 *)
Definition Filter_insert (c : cfg) (bf : list Z) (bflog hash : Z) : res (Z * list Z) :=
  let hash := avalanche64 hash in
  let slot1 := Z.land hash 255 in
  let hash := shr hash 8 in
  let slot2 := Z.land hash 255 in
  let hash := shr hash 8 in
  let! one := shl1 c (bflog - 6) in
  let fclmask := one - 1 in
  let cacheLineNb := Z.land (usz c hash) fclmask in
  let pos1 := usz c (usz c (Z.shiftl cacheLineNb 6) + shr slot1 3) in
  let shift1 := Z.land slot1 7 in
  let bit1 := u32 (Z.shiftl 1 shift1) in
  let! x1 := rd bf pos1 in
  let present1 := Z.land x1 bit1 in
  let pos2 := usz c (usz c (Z.shiftl cacheLineNb 6) + shr slot2 3) in
  let shift2 := Z.land slot2 7 in
  let bit2 := u32 (Z.shiftl 1 shift2) in
  let! x2 := rd bf pos2 in
  let present2 := Z.land x2 bit2 in
  let maybePresent := Z.land (shr present1 shift1) (shr present2 shift2) in
  let present1 := Z.land present1 (u32 (- maybePresent)) in
  let present2 := Z.land present2 (u32 (- maybePresent)) in
  let! bf := or_at bf (usz c (pos1 + 32)) (u8 present1) in
  let! bf := or_at bf (usz c (pos2 + 32)) (u8 present2) in
  let! bf := or_at bf pos1 (u8 bit1) in
  let! bf := or_at bf pos2 (u8 bit2) in
  OK (maybePresent, bf).
(** Filter_reduce: main.c:458-466; the final realloc keeps the first bytes *)
Definition Filter_reduce (c : cfg) (bf : list Z) (bflog : Z) : res (list Z) :=
  let! _ := assert_ ((6 <? bflog) && (bflog <? 64)) in
  let! nbLines := shl1 c (bflog - 6) in
  let! bf := for_ (Z.to_nat nbLines) 0 (fun lineNb bf =>
    let! l := load (Ptr bf 0 (lineNb * 64 + 32)) 32 in
    store bf (lineNb * 32) l) bf in
  OK (firstn (Z.to_nat (usz c (Z.shiftl nbLines 5))) bf).
(** Filter_check: main.c:476-496 *)
Definition Filter_check (c : cfg) (bf : list Z) (bflog hash : Z) : res Z :=
  let hash := avalanche64 hash in
  let slot1 := Z.land hash 255 in
  let hash := shr hash 8 in
  let slot2 := Z.land hash 255 in
  let hash := shr hash 8 in
  let! one := shl1 c (bflog - 6) in
  let fclmask := one - 1 in
  let lineNb := Z.land (usz c hash) fclmask in
  let pos1 := usz c (usz c (Z.shiftl lineNb 5) + shr slot1 3) in
  let shift1 := Z.land slot1 7 in
  let! x1 := rd bf pos1 in
  let present1 := Z.land (shr x1 shift1) 1 in
  let pos2 := usz c (usz c (Z.shiftl lineNb 5) + shr slot2 3) in
  let shift2 := Z.land slot2 7 in
  let! x2 := rd bf pos2 in
  let present2 := Z.land (shr x2 shift2) 1 in
  OK (Z.land present1 present2).

(** ** searching: main.c:590-862 *)
(** UniHash (hashes.h:38-41) as (low64, high64); h64 is the low half, whether or not the high half was written.
    What the table of candidates keeps of it: addHashCandidate and isEqual, main.c:609-621, 641-649 *)
Definition key (bits : Z) (h : Z * Z) : Z * Z := if bits =? 128 then h else (fst h, 0).
(** highestBitSet: main.c:562-568 *)
Definition highestBitSet (v : Z) : res Z :=
  let! _ := assert_ (negb (v =? 0)) in
  let! s := while_ 64 (fun '(v, bitId) => negb (shr v 1 =? 0)) (fun '(v, bitId) => OK (shr v 1, bitId + 1)) (v, 0) in
  OK (snd s).
(** searchCollisions_parameters: main.c:594-605; nbThreads is never read. *)
Record params := Params { p_nbH : Z; p_mask : Z; p_maskSelector : Z; p_sampleSize : Z; p_prngSeed : Z; p_filterLog : Z; p_display : bool }.
(** the duplicate count: main.c:808-818 *)
Definition count_dups (isEqual : Z * Z -> Z * Z -> bool) (t : list (Z * Z)) : Z :=
  match for_ (length t - 1) 1 (fun n acc =>
    OK (if isEqual (nth (Z.to_nat n) t (0, 0)) (nth (Z.to_nat (n - 1)) t (0, 0)) then acc + 1 else acc)) 0 with OK n => n | _ => 0 end.
Section Search.
Variables (c : cfg) (junk junkIdx : list Z).
(** whether a shift of a 64-bit 1 by a count outside 0..63 is undefined ([true], the C standard) or gives some value
    ([false], what a compiled shift instruction does).  Both values this file computes that way are only printed or
    only select statistics to print, so the value itself does not matter. *)
Variable strict : bool.
Definition shift_1ULL (n : Z) : res unit := if strict && negb ((0 <=? n) && (n <? 64)) then UB else OK tt.
(** hashfnTable[hashID]: the function and its width in bits (hashes.h:106-124) *)
Variables (hfunction : list Z -> res (Z * Z)) (bits : Z).
(** sort64 / sort128 (sort.cc:36-57) *)
Variable sort : list (Z * Z) -> list (Z * Z).
(** (h.h64 & hMask) != hSelector: main.c:714, 754 *)
Definition selected (p : params) (h : Z * Z) : bool := Z.land (fst h) (p_mask p) =? p_maskSelector p.
(** the first pass: main.c:708-717; state: the generator, the filter, maxNbH *)
Definition pass1 (p : params) (bflog : Z) (sf : sparse) (bf : list Z) : res (sparse * list Z * Z) :=
  for_ (Z.to_nat (p_nbH p)) 0 (fun n '(sf, bf, maxNbH) =>
    let! sf := sparse_update c sf in
    let! h := hfunction (f_buffer sf) in
    if negb (selected p h) then OK (sf, bf, maxNbH)
    else
      let! r := Filter_insert c bf bflog (fst h) in
      let '(hit, bf) := r in
      OK (sf, bf, add64 maxNbH (2 * hit))) (sf, bf, 0).
(** the second pass: main.c:747-765; state: the generator and the table.  [bf] is [None] without filter. *)
Definition pass2 (p : params) (bflog : Z) (sf : sparse) (bf : option (list Z)) (maxNbH : Z) : res (sparse * list (Z * Z)) :=
  for_ (Z.to_nat (p_nbH p)) 0 (fun n '(sf, t) =>
    let! sf := sparse_update c sf in
    let! h := hfunction (f_buffer sf) in
    if negb (selected p h) then OK (sf, t)
    else
      let! hit := match bf with Some bf => Filter_check c bf bflog (fst h) | None => OK 1 end in
      if hit =? 0 then OK (sf, t)
      else
        let! _ := assert_ (zlen t <? maxNbH) in
        OK (sf, t ++ [key bits h])) (sf, []).
(** search_collisions: main.c:669-862.  [None] is the call of EXIT in the sample generator.
    Simplifications: nbH = 0 is replaced by main before the call (main.c:1056), so it does not reach this function;
    realloc to a smaller non-zero size keeps the block (the program asserts it, main.c:770-774), realloc to size zero
    returns NULL, which fails that assertion (the C standard lets it); the assertion on tableSize (741) holds because
    16 * (maxNbH + 1) stays below 2^64 on any machine that gets here, which is the condition [nbH < 2^58] of the
    theorems; update_indicator and DISPLAY only print.  Of the statistics over the high bits (820-847) only the
    shift that computes nbSlots (828) is kept here; the counts are in M_Coll3. *)
Definition search_collisions (p : params) : res (option Z) :=
  let totalH := p_nbH p in
  let filter := 0 <=? p_filterLog p in
  let! osf := sparse_create c junk junkIdx (p_sampleSize p) totalH (p_prngSeed p) in
  match osf with
  | None => OK None
  | Some sf =>
      let! bflog := if p_filterLog p =? 0 then let! b := highestBitSet totalH in OK (b + 1) else OK (p_filterLog p) in
      let! _ := shift_1ULL bflog in
      let! first :=
        if filter then
          let! bf := create_Filter c bflog in
          let! r := pass1 p bflog sf bf in
          let '(sf, bf, maxNbH) := r in
          if maxNbH =? 0 then OK (sf, None, 0)
          else let! bf := Filter_reduce c bf bflog in OK (sf, Some bf, maxNbH)
        else OK (sf, None, totalH) in
      let '(sf, bf, maxNbH) := first in
      if filter && (maxNbH =? 0) then OK (Some 0)
      else
        let! osf := sparse_init sf totalH in
        match osf with
        | None => OK None
        | Some sf =>
            let! r := pass2 p bflog sf bf maxNbH in
            let t := snd r in
            let! _ := assert_ (negb ((zlen t <? maxNbH) && (zlen t =? 0))) in
            let t := sort t in
            let! _ := if negb filter && p_display p then for_ (Z.to_nat (bits - 1)) 1 (fun nbHBits _ => shift_1ULL nbHBits) tt else OK tt in
            OK (Some (count_dups (fun a b => (fst a =? fst b) && (snd a =? snd b)) t))
        end
  end.
(** ** main after the arguments were read: main.c:1053-1127 *)
(** the variables the argument loop sets (main.c:1019-1025).  Simplification: [o_totalH] is the number of hashes after
    main.c:1056, where 0 was replaced by select_nbh (in M_Coll3), so it is not zero. *)
Record opts := Opts { o_totalH : Z; o_bflog : Z; o_filter : bool; o_sampleSize : Z; o_threadlog : Z; o_prngSeed : Z }.
(** the parameters of the searches to run: main.c:1058-1118; [None] is a call of EXIT.  [1 << threadlog] on int is
    undefined outside 0..30, bflog - threadlog where it overflows. *)
Definition jobs (o : opts) : res (option (list params)) :=
  let totalH := o_totalH o in
  let! bflog := if o_bflog o =? 0 then let! b := highestBitSet totalH in OK (b + 1) else OK (o_bflog o) in
  let bflog := if negb (o_filter o) then -1 else bflog in
  let threadlog := o_threadlog o in
  let! _ := assert_ ((0 <=? threadlog) && (threadlog <? 31)) in
  let nbThreads := 2 ^ threadlog in
  if nbThreads =? 1 then OK (Some [Params totalH 0 0 (o_sampleSize o) (o_prngSeed o) bflog true])
  else if 30 <=? threadlog then OK None
  else if shr totalH 16 <? nbThreads then OK None
  else if (0 <? bflog) && (bflog - 10 <? threadlog) then OK None
  else let! _ := assert_ (- 2 ^ 31 <=? bflog - threadlog) in
       OK (Some (map (fun tnb => Params totalH (nbThreads - 1) (Z.of_nat tnb) (o_sampleSize o) (o_prngSeed o)
                                   (if bflog =? 0 then 0 else bflog - threadlog) false) (seq 0 (Z.to_nat nbThreads)))).
(** run the searches and add up what they found (main.c:898, 1099-1127).  Simplification: the searches of several
    threads share nothing but the memory allocator, so they are run one after the other here.  That the
    thread pool (pool.c) runs each of them exactly once is shown about its own model, M_Pool. *)
Fixpoint gather (l : list params) (acc : Z) : res (option Z) :=
  match l with
  | [] => OK (Some acc)
  | p :: l => let! r := search_collisions p in match r with None => OK None | Some n => gather l (add64 acc n) end
  end.
Definition found (o : opts) : res (option Z) :=
  let! l := jobs o in
  match l with None => OK None | Some l => gather l 0 end.
End Search.

(** ** reading numbers: main.c:930-973.  The string is the list of its characters; the end reads as 0. *)
Definition ch (s : list Z) : Z := match s with [] => 0 | x :: _ => x end.
Definition isDigit (x : Z) : bool := (48 <=? x) && (x <=? 57).
(** the digits: main.c:934-939 *)
Fixpoint readDigits (s : list Z) (result : Z) : res (Z * list Z) :=
  match s with
  | x :: s' => if isDigit x then
                 let! _ := assert_ (result <? (2 ^ 64 - 1) / 10 - 1) in
                 readDigits s' (add64 (mul64 result 10) (x - 48))
               else OK (result, s)
  | [] => OK (result, s)
  end.
(** one [result <<= 10]: main.c:941-949 *)
Definition shl10 (result : Z) : res Z :=
  let! _ := assert_ (result <? shr (2 ^ 64 - 1) 10) in OK (shl64 result 10).
(** readU64FromChar: main.c:930-957 (K = 75, M = 77, G = 71, i = 105, B = 66) *)
Definition readU64FromChar (s : list Z) : res (Z * list Z) :=
  let! r := readDigits s 0 in
  let '(result, s) := r in
  if (ch s =? 75) || (ch s =? 77) || (ch s =? 71) then
    let! result := shl10 result in
    let! result := if (ch s =? 77) || (ch s =? 71) then
                     let! result := shl10 result in
                     if ch s =? 71 then shl10 result else OK result
                   else OK result in
    let s := tl s in
    let s := if ch s =? 105 then tl s else s in
    let s := if ch s =? 66 then tl s else s in
    OK (result, s)
  else OK (result, s).
End Coll.
