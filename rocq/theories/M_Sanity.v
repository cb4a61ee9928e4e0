(** Model of the self-test of xxhsum (cli/xsum_sanity_check.c), which runs before every benchmark.

    [exit(1)] after a mismatch is the result [None]; a test that goes on returns [Some] of the state of the static
    generator of XSUM_rand.  The messages printed on the way are not modelled, nor the counters nbTests that only
    number them.  The [assert]s on pointers are dropped: every pointer they test is given by the model.
    The create functions are assumed to succeed and to deliver an object as the allocator leaves it ([g_state]);
    the free functions have no effect in the model. *)
From Verif Require Import Base Mem M_XXH32 M_XXH64 M_XXH3 M_Kernels M_Long M_Stream3 M_Util.

(** PRIME32, PRIME64: cli/xsum_sanity_check.c:38-39 *)
Definition TPRIME32 := 2654435761.
Definition TPRIME64 := 11400714785074694797.
(** SECRET_SIZE_MAX: cli/xsum_sanity_check.c:219; XXH3_SECRET_DEFAULT_SIZE: xxhash.h:1729;
    SANITY_BUFFER_SIZE: cli/xsum_sanity_check.c:691 *)
Definition SECRET_SIZE_MAX := 9867.
Definition SECRET_DEFAULT_SIZE := 192.
Definition SANITY_BUFFER_SIZE := 2367.

(** XSUM_XXH32_testdata: cli/xsum_sanity_check.c:101-110 *)
Definition XXH32_testdata : list (Z * Z * Z) := [
  (0, 0, 0x02CC5D05);
  (0, TPRIME32, 0x36B78AE7);
  (1, 0, 0xCF65B03E);
  (1, TPRIME32, 0xB4545AA4);
  (14, 0, 0x1208E7E2);
  (14, TPRIME32, 0x6AF1D1FE);
  (222, 0, 0x5BD11DBD);
  (222, TPRIME32, 0x58803C5F)].

(** XSUM_XXH64_testdata: cli/xsum_sanity_check.c:113-123 *)
Definition XXH64_testdata : list (Z * Z * Z) := [
  (0, 0, 0xEF46DB3751D8E999);
  (0, TPRIME32, 0xAC75FDA2929B17EF);
  (1, 0, 0xE934A84ADB052768);
  (1, TPRIME32, 0x5014607643A9B4C3);
  (4, 0, 0x9136A0DCA57457EE);
  (14, 0, 0x8282DCC4994E35C8);
  (14, TPRIME32, 0xC3BD6BF63DEB6DF0);
  (222, 0, 0xB641AE8CB691C174);
  (222, TPRIME32, 0x20CB8AB7AE10C14A)].

(** XSUM_XXH3_testdata: cli/xsum_sanity_check.c:131-161 *)
Definition XXH3_testdata : list (Z * Z * Z) := [
  (0, 0, 0x2D06800538D394C2);
  (0, TPRIME64, 0xA8A6B918B2F0364A);
  (1, 0, 0xC44BDFF4074EECDB);
  (1, TPRIME64, 0x032BE332DD766EF8);
  (6, 0, 0x27B56A84CD2D7325);
  (6, TPRIME64, 0x84589C116AB59AB9);
  (12, 0, 0xA713DAF0DFBB77E7);
  (12, TPRIME64, 0xE7303E1B2336DE0E);
  (24, 0, 0xA3FE70BF9D3510EB);
  (24, TPRIME64, 0x850E80FC35BDD690);
  (48, 0, 0x397DA259ECBA1F11);
  (48, TPRIME64, 0xADC2CBAA44ACC616);
  (80, 0, 0xBCDEFBBB2C47C90A);
  (80, TPRIME64, 0xC6DD0CB699532E73);
  (195, 0, 0xCD94217EE362EC3A);
  (195, TPRIME64, 0xBA68003D370CB3D9);
  (403, 0, 0xCDEB804D65C6DEA4);
  (403, TPRIME64, 0x6259F6ECFD6443FD);
  (512, 0, 0x617E49599013CB6B);
  (512, TPRIME64, 0x3CE457DE14C27708);
  (2048, 0, 0xDD59E2C3A5F038E0);
  (2048, TPRIME64, 0x66F81670669ABABC);
  (2099, 0, 0xC6B9D9B3FC9AC765);
  (2099, TPRIME64, 0x184F316843663974);
  (2240, 0, 0x6E73A90539CF2948);
  (2240, TPRIME64, 0x757BA8487D1B5247);
  (2367, 0, 0xCB37AEB9E5D361ED);
  (2367, TPRIME64, 0xD2DB3415B942B42A)].

(** XSUM_XXH3_withSecret_testdata: cli/xsum_sanity_check.c:163-179 *)
Definition XXH3_withSecret_testdata : list (Z * Z * Z) := [
  (0, 0, 0x3559D64878C5C66C);
  (1, 0, 0x8A52451418B2DA4D);
  (6, 0, 0x82C90AB0519369AD);
  (12, 0, 0x14631E773B78EC57);
  (24, 0, 0xCDD5542E4A9D9FE8);
  (48, 0, 0x33ABD54D094B2534);
  (80, 0, 0xE687BA1684965297);
  (195, 0, 0xA057273F5EECFB20);
  (403, 0, 0x14546019124D43B8);
  (512, 0, 0x7564693DD526E28D);
  (2048, 0, 0xD32E975821D6519F);
  (2367, 0, 0x293FA8E5173BB5E7);
  (64*10*3, 0, 0x751D2EC54BC6038B)].

(** XSUM_XXH128_testdata: cli/xsum_sanity_check.c:181-209 *)
Definition XXH128_testdata : list (Z * Z * (Z * Z)) := [
  (0, 0, (0x6001C324468D497F, 0x99AA06D3014798D8));
  (0, TPRIME32, (0x5444F7869C671AB0, 0x92220AE55E14AB50));
  (1, 0, (0xC44BDFF4074EECDB, 0xA6CD5E9392000F6A));
  (1, TPRIME32, (0xB53D5557E7F76F8D, 0x89B99554BA22467C));
  (6, 0, (0x3E7039BDDA43CFC6, 0x082AFE0B8162D12A));
  (6, TPRIME32, (0x269D8F70BE98856E, 0x5A865B5389ABD2B1));
  (12, 0, (0x061A192713F69AD9, 0x6E3EFD8FC7802B18));
  (12, TPRIME32, (0x9BE9F9A67F3C7DFB, 0xD7E09D518A3405D3));
  (24, 0, (0x1E7044D28B1B901D, 0x0CE966E4678D3761));
  (24, TPRIME32, (0xD7304C54EBAD40A9, 0x3162026714A6A243));
  (48, 0, (0xF942219AED80F67B, 0xA002AC4E5478227E));
  (48, TPRIME32, (0x7BA3C3E453A1934E, 0x163ADDE36C072295));
  (81, 0, (0x5E8BAFB9F95FB803, 0x4952F58181AB0042));
  (81, TPRIME32, (0x703FBB3D7A5F755C, 0x2724EC7ADC750FB6));
  (222, 0, (0xF1AEBD597CEC6B3A, 0x337E09641B948717));
  (222, TPRIME32, (0xAE995BB8AF917A8D, 0x91820016621E97F1));
  (403, 0, (0xCDEB804D65C6DEA4, 0x1B6DE21E332DD73D));
  (403, TPRIME64, (0x6259F6ECFD6443FD, 0xBED311971E0BE8F2));
  (512, 0, (0x617E49599013CB6B, 0x18D2D110DCC9BCA1));
  (512, TPRIME64, (0x3CE457DE14C27708, 0x925D06B8EC5B8040));
  (2048, 0, (0xDD59E2C3A5F038E0, 0xF736557FD47073A5));
  (2048, TPRIME32, (0x230D43F30206260B, 0x7FB03F7E7186C3EA));
  (2240, 0, (0x6E73A90539CF2948, 0xCCB134FBFA7CE49D));
  (2240, TPRIME32, (0xED385111126FBA6F, 0x50A1FE17B338995F));
  (2367, 0, (0xCB37AEB9E5D361ED, 0xE89C0F6FF369B427));
  (2367, TPRIME32, (0x6F5360AE69C2F406, 0xD23AAE4B76C31ECB))].

(** XSUM_XXH128_withSecret_testdata: cli/xsum_sanity_check.c:212-217 *)
Definition XXH128_withSecret_testdata : list (Z * Z * (Z * Z)) := [
  (0, 0, (0x005923CCEECBE8AE, 0x5F70F4EA232F1D38));
  (1, 0, (0x8A52451418B2DA4D, 0x3A66AF5A9819198E));
  (6, 0, (0x0B61C8ACA7D4778F, 0x376BD91B6432F36D));
  (12, 0, (0xAF82F6EBA263D7D8, 0x90A3C2D839F57D0F))].

(** XSUM_XXH3_generateSecret_testdata: cli/xsum_sanity_check.c:220-225 *)
Definition XXH3_generateSecret_testdata : list (Z * Z * list Z) := [
  (0, 192, [0xE7; 0x8C; 0x77; 0x77; 0x00]);
  (1, 240, [0x2B; 0x3E; 0xDE; 0xC1; 0x00]);
  (SECRET_SIZE_MIN - 1, 277, [0xE8; 0x39; 0x6C; 0xCC; 0x7B]);
  (SECRET_DEFAULT_SIZE + 500, SECRET_SIZE_MAX, [0xD6; 0x1C; 0x41; 0x17; 0xB3])].


(** XSUM_fillTestBuffer: cli/xsum_sanity_check.c:45-56 *)
Definition fillTestBuffer (buffer : list Z) (len : Z) : res (list Z) :=
  let! (buffer, _) := for_ (Z.to_nat len) 0 (fun i '(buffer, byteGen) =>
    let! buffer := store buffer i [(byteGen / 2 ^ 56) mod 256] in
    OK (buffer, byteGen * TPRIME64 mod 2 ^ 64)) (buffer, TPRIME32) in
  OK buffer.

(** what the program does next: [None] is exit(1) (cli/xsum_sanity_check.c:235, 249, 264) *)
Definition go := res (option Z).
(** XSUM_checkResult32, XSUM_checkResult64: cli/xsum_sanity_check.c:227-252; [k] is the rest of the program *)
Definition checkResult (r1 r2 : Z) (k : go) : go := if negb (r1 =? r2) then OK None else k.
(** XSUM_checkResult128: cli/xsum_sanity_check.c:254-267 *)
Definition checkResult128 (r1 r2 : Z * Z) (k : go) : go :=
  if negb (fst r1 =? fst r2) || negb (snd r1 =? snd r2) then OK None else k.

(** [(void)] in front of an update call: the code is dropped (for example cli/xsum_sanity_check.c:290) *)
Definition void {S} (r : res (errorcode * S)) : res S := let! (_, s) := r in OK s.
(** [(void)] in front of an XXH3 reset call (for example cli/xsum_sanity_check.c:409) *)
Definition void3 (r : res (errorcode * option state3)) : res state3 :=
  let! (_, o) := r in match o with Some s => OK s | None => UB end.
(** [if (len == 0) data = NULL]: cli/xsum_sanity_check.c:279-283, 309-313, 370-374, 461-465, 516-520, 610-614 *)
Definition data_of (data : ptr) (len : Z) : ptr := if len =? 0 then Null else data.
(** the byte-by-byte loops: cli/xsum_sanity_check.c:294-295, 324-325, 420-421, 489-490, 571-572, 639-640 *)
Definition bytewise {S} (upd : S -> ptr -> Z -> res (errorcode * S)) (data : ptr) (len : Z) (st : S) : res S :=
  for_ (Z.to_nat len) 0 (fun pos st => void (upd st (padd data pos) 1)) st.

(** XSUM_testXXH32: cli/xsum_sanity_check.c:270-298 *)
Definition testXXH32 (c : cfg) (data : ptr) (t : Z * Z * Z) (rnd : Z) : go :=
  let '(len, seed, Nresult) := t in
  let data := data_of data len in
  let! r := XXH32 c data len seed in
  checkResult r Nresult (
  let! st := void (XXH32_update c (XXH32_reset seed) data len) in
  let! r := XXH32_digest c st in
  checkResult r Nresult (
  let! st := bytewise (XXH32_update c) data len (XXH32_reset seed) in
  let! r := XXH32_digest c st in
  checkResult r Nresult (
  OK (Some rnd)))).
(** XSUM_testXXH64: cli/xsum_sanity_check.c:300-328 *)
Definition testXXH64 (c : cfg) (data : ptr) (t : Z * Z * Z) (rnd : Z) : go :=
  let '(len, seed, Nresult) := t in
  let data := data_of data len in
  let! r := XXH64 c data len seed in
  checkResult r Nresult (
  let! st := void (XXH64_update c (XXH64_reset seed) data len) in
  let! r := XXH64_digest c st in
  checkResult r Nresult (
  let! st := bytewise (XXH64_update c) data len (XXH64_reset seed) in
  let! r := XXH64_digest c st in
  checkResult r Nresult (
  OK (Some rnd)))).

(** XSUM_rand: cli/xsum_sanity_check.c:334-339; the static seed is threaded *)
Definition rand (seed : Z) : Z * Z := let seed := seed * TPRIME64 mod 2 ^ 64 in ((seed / 2 ^ 40) mod 2 ^ 32, seed).
(** XSUM_XXH3_randomUpdate: cli/xsum_sanity_check.c:352-363.  Nothing in the code bounds the number of rounds (a round
    may consume no byte); the model runs out of fuel, which no theorem admits, after [rounds], an argument. *)
Definition randomUpdate (rounds : nat) (c : cfg) (update_fn : state3 -> ptr -> Z -> res (errorcode * state3)) (st : state3) (data : ptr)
    (len rnd : Z) : res (state3 * Z) :=
  let! (st, _, rnd) := while_ rounds (fun '(_, p, _) => p <? len) (fun '(st, p, rnd) =>
    let modulo := if 2 <? len then len else 2 in
    let '(v, rnd) := rand rnd in
    let l := v mod modulo in
    let l := if len <? usz c (p + l) then len - p else l in
    let! st := void (update_fn st (padd data p) l) in
    OK (st, usz c (p + l), rnd)) (st, 0, rnd) in
  OK (st, rnd).

(** What a call of a test function finds in its locals (cli/xsum_sanity_check.c:388, 429, 540, 582): the created state, and the two arrays secretBuffer with
    their addresses *)
Record garbage := Garbage { g_state : state3; g_buf1 : list Z; g_adr1 : Z; g_buf2 : list Z; g_adr2 : Z }.

(** XSUM_testXXH3: cli/xsum_sanity_check.c:365-452 *)
Definition testXXH3 (rounds : nat) (c : cfg) (g : garbage) (data : ptr) (t : Z * Z * Z) (rnd : Z) : go :=
  let '(len, seed, Nresult) := t in
  let data := data_of data len in
  let! Dresult := XXH3_64bits_withSeed c data len seed in
  checkResult Dresult Nresult (
  let no_seed k := if seed =? 0 then let! Dresult := XXH3_64bits c data len in checkResult Dresult Nresult k else k in
  no_seed (
  let! secretBuffer := XXH3_generateSecret_fromSeed c (Ptr (g_buf1 g) (g_adr1 g) 1) seed in
  let! Dresult := XXH3_64bits_withSecretandSeed c data len (Ptr secretBuffer (g_adr1 g) 1) SECRET_DEFAULT_SIZE seed in
  checkResult Dresult Nresult (
  let! secretBuffer := store secretBuffer 1 (repeat 0x99 9) in
  let any_secret k :=
    if len <=? MIDSIZE_MAX
    then let! Dresult := XXH3_64bits_withSecretandSeed c data len (Ptr secretBuffer (g_adr1 g) 1) SECRET_DEFAULT_SIZE seed in
         checkResult Dresult Nresult k
    else k in
  any_secret (
  (* single ingestion *)
  let! st := void3 (XXH3_64bits_reset_withSeed c (Some (g_state g)) seed) in
  let! st := void (XXH3_64bits_update c st data len) in
  let! r := XXH3_64bits_digest c st in
  checkResult r Nresult (
  (* random ingestion *)
  let! st := void3 (XXH3_64bits_reset_withSeed c (Some st) seed) in
  let! (st, rnd) := randomUpdate rounds c (XXH3_64bits_update c) st data len rnd in
  let! r := XXH3_64bits_digest c st in
  checkResult r Nresult (
  (* byte by byte ingestion *)
  let! st := void3 (XXH3_64bits_reset_withSeed c (Some st) seed) in
  let! st := bytewise (XXH3_64bits_update c) data len st in
  let! r := XXH3_64bits_digest c st in
  checkResult r Nresult (
  let! secretBuffer := XXH3_generateSecret_fromSeed c (Ptr (g_buf2 g) (g_adr2 g) 1) seed in
  let! st := void3 (XXH3_64bits_reset_withSecretandSeed c (Some st) (Ptr secretBuffer (g_adr2 g) 1) SECRET_DEFAULT_SIZE seed) in
  let! st := void (XXH3_64bits_update c st data len) in
  let! r := XXH3_64bits_digest c st in
  checkResult r Nresult (
  if len <=? MIDSIZE_MAX
  then let! secretBuffer := store secretBuffer 1 (repeat 0x99 9) in
       let! st := void3 (XXH3_64bits_reset_withSecretandSeed c (Some st) (Ptr secretBuffer (g_adr2 g) 1) SECRET_DEFAULT_SIZE seed) in
       let! st := void (XXH3_64bits_update c st data len) in
       let! r := XXH3_64bits_digest c st in
       checkResult r Nresult (OK (Some rnd))
  else OK (Some rnd))))))))).

(** XSUM_testXXH3_withSecret: cli/xsum_sanity_check.c:455-509 *)
Definition testXXH3_withSecret (rounds : nat) (c : cfg) (g : garbage) (data secret : ptr) (secretSize : Z) (t : Z * Z * Z) (rnd : Z) : go :=
  let '(len, _, Nresult) := t in
  let data := data_of data len in
  let! Dresult := XXH3_64bits_withSecret c data len secret secretSize in
  checkResult Dresult Nresult (
  let any_seed k :=
    if MIDSIZE_MAX <? len
    then let! Dresult := XXH3_64bits_withSecretandSeed c data len secret secretSize 0 in checkResult Dresult Nresult k
    else k in
  any_seed (
  let! st := void3 (XXH3_64bits_reset_withSecret c (Some (g_state g)) secret secretSize) in
  let! st := void (XXH3_64bits_update c st data len) in
  let! r := XXH3_64bits_digest c st in
  checkResult r Nresult (
  (* random ingestion *)
  let! st := void3 (XXH3_64bits_reset_withSecret c (Some st) secret secretSize) in
  let! (st, rnd) := randomUpdate rounds c (XXH3_64bits_update c) st data len rnd in
  let! r := XXH3_64bits_digest c st in
  checkResult r Nresult (
  (* byte by byte ingestion *)
  let! st := void3 (XXH3_64bits_reset_withSecret c (Some st) secret secretSize) in
  let! st := bytewise (XXH3_64bits_update c) data len st in
  let! r := XXH3_64bits_digest c st in
  checkResult r Nresult (
  if MIDSIZE_MAX <? len
  then let! st := void3 (XXH3_64bits_reset_withSecretandSeed c (Some st) secret secretSize 17) in
       let! st := void (XXH3_64bits_update c st data len) in
       let! r := XXH3_64bits_digest c st in
       checkResult r Nresult (OK (Some rnd))
  else OK (Some rnd)))))).

(** XSUM_testXXH128: cli/xsum_sanity_check.c:511-604 *)
Definition testXXH128 (rounds : nat) (c : cfg) (g : garbage) (data : ptr) (t : Z * Z * (Z * Z)) (rnd : Z) : go :=
  let '(len, seed, Nresult) := t in
  let data := data_of data len in
  let! Dresult := XXH3_128bits_withSeed c data len seed in
  checkResult128 Dresult Nresult (
  let! Dresult2 := XXH128 c data len seed in
  checkResult128 Dresult2 Nresult (
  let no_seed k := if seed =? 0 then let! Dresult := XXH3_128bits c data len in checkResult128 Dresult Nresult k else k in
  no_seed (
  let! secretBuffer := XXH3_generateSecret_fromSeed c (Ptr (g_buf1 g) (g_adr1 g) 1) seed in
  let! Dresult := XXH3_128bits_withSecretandSeed c data len (Ptr secretBuffer (g_adr1 g) 1) SECRET_DEFAULT_SIZE seed in
  checkResult128 Dresult Nresult (
  let! secretBuffer := store secretBuffer 1 (repeat 0x99 9) in
  let any_secret k :=
    if len <=? MIDSIZE_MAX
    then let! Dresult := XXH3_128bits_withSecretandSeed c data len (Ptr secretBuffer (g_adr1 g) 1) SECRET_DEFAULT_SIZE seed in
         checkResult128 Dresult Nresult k
    else k in
  any_secret (
  (* single ingestion *)
  let! st := void3 (XXH3_128bits_reset_withSeed c (Some (g_state g)) seed) in
  let! st := void (XXH3_128bits_update c st data len) in
  let! r := XXH3_128bits_digest c st in
  checkResult128 r Nresult (
  (* random ingestion *)
  let! st := void3 (XXH3_128bits_reset_withSeed c (Some st) seed) in
  let! (st, rnd) := randomUpdate rounds c (XXH3_128bits_update c) st data len rnd in
  let! r := XXH3_128bits_digest c st in
  checkResult128 r Nresult (
  (* byte by byte ingestion *)
  let! st := void3 (XXH3_128bits_reset_withSeed c (Some st) seed) in
  let! st := bytewise (XXH3_128bits_update c) data len st in
  let! r := XXH3_128bits_digest c st in
  checkResult128 r Nresult (
  let! secretBuffer := XXH3_generateSecret_fromSeed c (Ptr (g_buf2 g) (g_adr2 g) 1) seed in
  let! st := void3 (XXH3_128bits_reset_withSecretandSeed c (Some st) (Ptr secretBuffer (g_adr2 g) 1) SECRET_DEFAULT_SIZE seed) in
  let! st := void (XXH3_128bits_update c st data len) in
  let! r := XXH3_128bits_digest c st in
  checkResult128 r Nresult (
  if len <=? MIDSIZE_MAX
  then let! secretBuffer := store secretBuffer 1 (repeat 0x99 9) in
       let! st := void3 (XXH3_128bits_reset_withSecretandSeed c (Some st) (Ptr secretBuffer (g_adr2 g) 1) SECRET_DEFAULT_SIZE seed) in
       let! st := void (XXH3_128bits_update c st data len) in
       let! r := XXH3_128bits_digest c st in
       checkResult128 r Nresult (OK (Some rnd))
  else OK (Some rnd)))))))))).

(** XSUM_testXXH128_withSecret: cli/xsum_sanity_check.c:606-657 *)
Definition testXXH128_withSecret (rounds : nat) (c : cfg) (g : garbage) (data secret : ptr) (secretSize : Z) (t : Z * Z * (Z * Z)) (rnd : Z) : go :=
  let '(len, _, Nresult) := t in
  let data := data_of data len in
  let! Dresult := XXH3_128bits_withSecret c data len secret secretSize in
  checkResult128 Dresult Nresult (
  let any_seed k :=
    if MIDSIZE_MAX <? len
    then let! Dresult := XXH3_128bits_withSecretandSeed c data len secret secretSize 0 in checkResult128 Dresult Nresult k
    else k in
  any_seed (
  let! st := void3 (XXH3_128bits_reset_withSecret c (Some (g_state g)) secret secretSize) in
  let! st := void (XXH3_128bits_update c st data len) in
  let! r := XXH3_128bits_digest c st in
  checkResult128 r Nresult (
  (* random ingestion *)
  let! st := void3 (XXH3_128bits_reset_withSecret c (Some st) secret secretSize) in
  let! (st, rnd) := randomUpdate rounds c (XXH3_128bits_update c) st data len rnd in
  let! r := XXH3_128bits_digest c st in
  checkResult128 r Nresult (
  (* byte by byte ingestion *)
  let! st := void3 (XXH3_128bits_reset_withSecret c (Some st) secret secretSize) in
  let! st := bytewise (XXH3_128bits_update c) data len st in
  let! r := XXH3_128bits_digest c st in
  checkResult128 r Nresult (
  if MIDSIZE_MAX <? len
  then let! st := void3 (XXH3_128bits_reset_withSecretandSeed c (Some st) secret secretSize 0) in
       let! st := void (XXH3_128bits_update c st data len) in
       let! r := XXH3_128bits_digest c st in
       checkResult128 r Nresult (OK (Some rnd))
  else OK (Some rnd)))))).

(** XSUM_testSecretGenerator: cli/xsum_sanity_check.c:659-680; [adr] is the address of secretBuffer *)
Definition testSecretGenerator (c : cfg) (adr : Z) (customSeed : ptr) (t : Z * Z * list Z) (rnd : Z) : go :=
  let '(seedLen, secretLen, byte) := t in
  let! _ := assert_ (secretLen <=? SECRET_SIZE_MAX) in
  let! (_, secretBuffer) :=
    XXH3_generateSecret c (Ptr (repeat 0 (Z.to_nat SECRET_SIZE_MAX)) adr 0) secretLen customSeed seedLen in
  let samples := map (fun i => load8 (Ptr secretBuffer adr i)) [0; 62; 131; 191; 241] in
  let! differ := fold_right (fun '(s, b) k => let! s := s in if s =? b then k else OK true) (OK false) (combine samples byte) in
  if differ : bool then OK None else OK (Some rnd).

(** the loop over one table: cli/xsum_sanity_check.c:700-726 *)
Fixpoint tests {T} (test : Z -> T -> Z -> go) (i : Z) (l : list T) (rnd : Z) (k : Z -> go) : go :=
  match l with
  | [] => k rnd
  | t :: l => let! o := test i t rnd in match o with Some rnd => tests test (i + 1) l rnd k | None => OK None end
  end.

(** XSUM_sanityCheck: cli/xsum_sanity_check.c:688-730.  [b], [adr]: sanityBuffer as found on the stack and its address;
    [g k i]: the garbage of the [i]-th call of the [k]-th test function; [rnd]: the static generator of XSUM_rand *)
Definition sanityCheck (rounds : nat) (c : cfg) (b : list Z) (adr : Z) (g : Z -> Z -> garbage) (rnd : Z) : go :=
  let! b := fillTestBuffer b SANITY_BUFFER_SIZE in
  let data := Ptr b adr 0 in
  let secret := Ptr b adr 7 in
  let secretSize := SECRET_SIZE_MIN + 11 in
  let! _ := assert_ (7 + secretSize <=? zlen b) in
  tests (fun _ => testXXH32 c data) 0 XXH32_testdata rnd (fun rnd =>
  tests (fun _ => testXXH64 c data) 0 XXH64_testdata rnd (fun rnd =>
  tests (fun i => testXXH3 rounds c (g 0 i) data) 0 XXH3_testdata rnd (fun rnd =>
  tests (fun i => testXXH3_withSecret rounds c (g 1 i) data secret secretSize) 0 XXH3_withSecret_testdata rnd (fun rnd =>
  tests (fun i => testXXH128 rounds c (g 2 i) data) 0 XXH128_testdata rnd (fun rnd =>
  tests (fun i => testXXH128_withSecret rounds c (g 3 i) data secret secretSize) 0 XXH128_withSecret_testdata rnd (fun rnd =>
  tests (fun i t rnd => let! _ := assert_ (fst (fst t) <=? SANITY_BUFFER_SIZE) in testSecretGenerator c (g_adr1 (g 4 i)) data t rnd)
        0 XXH3_generateSecret_testdata rnd (fun rnd =>
  OK (Some rnd)))))))).
