(** Model of XXH3, part 4: the streaming API (xxhash.h:6056-6440 and 6880-6945). *)
From Verif Require Import Base Mem M_XXH32 M_XXH64 M_XXH3 M_Kernels M_Long.

(** XXH3_state_t: xxhash.h:1746-1775.  [s3_adr] is the address of the structure; [acc] lies at offset 0,
    [customSecret] at 64, [buffer] at 256 (each aligned on 64).  [reserved64] is never read and left out.
    [s3_extSecret] is a pointer whose block is the content of the caller's secret: a caller that modifies
    its secret between two calls is outside the model (the documentation wants it to outlive the session, xxhash.h:1297). *)
Record state3 := State3 {
  s3_adr : Z;
  s3_acc : list Z;
  s3_customSecret : list Z;
  s3_buffer : list Z;
  s3_bufferedSize : Z;
  s3_useSeed : Z;
  s3_nbStripesSoFar : Z;
  s3_totalLen : Z;
  s3_nbStripesPerBlock : Z;
  s3_secretLimit : Z;
  s3_seed : Z;
  s3_extSecret : ptr
}.
Definition INTERNALBUFFER_SIZE : Z := 256.      (* xxhash.h:1719 *)
Definition INTERNALBUFFER_STRIPES : Z := 4.     (* xxhash.h:6333 *)

(** XXH3_INITSTATE: xxhash.h:1795-1800 *)
Definition XXH3_INITSTATE (st : state3) : state3 :=
  State3 (s3_adr st) (s3_acc st) (s3_customSecret st) (s3_buffer st) (s3_bufferedSize st) (s3_useSeed st)
         (s3_nbStripesSoFar st) (s3_totalLen st) (s3_nbStripesPerBlock st) (s3_secretLimit st) 0 Null.

(** XXH3_copyState: xxhash.h:6159-6162; every byte but the address *)
Definition XXH3_copyState (dst src : state3) : state3 :=
  State3 (s3_adr dst) (s3_acc src) (s3_customSecret src) (s3_buffer src) (s3_bufferedSize src) (s3_useSeed src)
         (s3_nbStripesSoFar src) (s3_totalLen src) (s3_nbStripesPerBlock src) (s3_secretLimit src) (s3_seed src)
         (s3_extSecret src).

(** XXH3_reset_internal: xxhash.h:6165-6190.  The memset clears bufferedSize, useSeed, nbStripesSoFar and
    totalLen; buffer and customSecret keep whatever they held. *)
Definition XXH3_reset_internal (c : cfg) (st : state3) (seed : Z) (secret : ptr) (secretSize : Z) : res state3 :=
  let! _ := assert_ (SECRET_SIZE_MIN <=? secretSize) in
  let secretLimit := usz c (secretSize - STRIPE_LEN) in
  OK (State3 (s3_adr st) INIT_ACC (s3_customSecret st) (s3_buffer st) 0 (if seed =? 0 then 0 else 1) 0 0
             (secretLimit / SECRET_CONSUME_RATE) secretLimit seed secret).

(** The reset functions: [None] is a NULL statePtr *)
(** XXH3_64bits_reset: xxhash.h:6194-6199 *)
Definition XXH3_64bits_reset (c : cfg) (ost : option state3) : res (errorcode * option state3) :=
  match ost with
  | None => OK (XXH_ERROR, None)
  | Some st => let! st := XXH3_reset_internal c st 0 kSecret_ptr 192 in OK (XXH_OK, Some st)
  end.
(** XXH3_64bits_reset_withSecret: xxhash.h:6203-6210.  The reset (and its XXH_ASSERT on the size) precedes
    the checks. *)
Definition XXH3_64bits_reset_withSecret (c : cfg) (ost : option state3) (secret : ptr) (secretSize : Z)
  : res (errorcode * option state3) :=
  match ost with
  | None => OK (XXH_ERROR, None)
  | Some st =>
      let! st := XXH3_reset_internal c st 0 secret secretSize in
      if is_null secret then OK (XXH_ERROR, Some st)
      else if secretSize <? SECRET_SIZE_MIN then OK (XXH_ERROR, Some st)
      else OK (XXH_OK, Some st)
  end.
(** XXH3_64bits_reset_withSeed: xxhash.h:6214-6222 *)
Definition XXH3_64bits_reset_withSeed (c : cfg) (ost : option state3) (seed : Z) : res (errorcode * option state3) :=
  match ost with
  | None => OK (XXH_ERROR, None)
  | Some st =>
      if seed =? 0 then XXH3_64bits_reset c (Some st)
      else
        let! custom :=
          (if negb (seed =? s3_seed st) || negb (is_null (s3_extSecret st))
           then initCustomSecret c (s3_adr st + 64) (s3_customSecret st) seed
           else OK (s3_customSecret st)) in
        let st := State3 (s3_adr st) (s3_acc st) custom (s3_buffer st) (s3_bufferedSize st) (s3_useSeed st)
                    (s3_nbStripesSoFar st) (s3_totalLen st) (s3_nbStripesPerBlock st) (s3_secretLimit st) (s3_seed st)
                    (s3_extSecret st) in
        let! st := XXH3_reset_internal c st seed Null 192 in
        OK (XXH_OK, Some st)
  end.
(** XXH3_64bits_reset_withSecretandSeed: xxhash.h:6226-6234 *)
Definition XXH3_64bits_reset_withSecretandSeed (c : cfg) (ost : option state3) (secret : ptr) (secretSize seed64 : Z)
  : res (errorcode * option state3) :=
  match ost with
  | None => OK (XXH_ERROR, None)
  | Some st =>
      if is_null secret then OK (XXH_ERROR, Some st)
      else if secretSize <? SECRET_SIZE_MIN then OK (XXH_ERROR, Some st)
      else
        let! st := XXH3_reset_internal c st seed64 secret secretSize in
        OK (XXH_OK, Some (State3 (s3_adr st) (s3_acc st) (s3_customSecret st) (s3_buffer st) (s3_bufferedSize st) 1
             (s3_nbStripesSoFar st) (s3_totalLen st) (s3_nbStripesPerBlock st) (s3_secretLimit st) (s3_seed st)
             (s3_extSecret st)))
  end.

(** body of the loop of XXH3_consumeStripes, xxhash.h:6267-6275; the loop state is
    (acc, input, nbStripes, nbStripesThisIter, initialSecret) *)
Definition consume_state := (list Z * ptr * Z * Z * ptr)%type.
Definition consume_body (c : cfg) (adr : Z) (nbStripesPerBlock : Z) (secret : ptr) (secretLimit : Z)
    (f_acc : f_accumulate) (f_scr : f_scramble) (s : consume_state) : res consume_state :=
  let '(acc, input, nbStripes, thisIter, initialSecret) := s in
  let! acc := f_acc adr acc input initialSecret thisIter in
  let! acc := f_scr adr acc (padd secret secretLimit) in
  OK (acc, padd input (thisIter * STRIPE_LEN), usz c (nbStripes - thisIter), nbStripesPerBlock, secret).
(** XXH3_consumeStripes: xxhash.h:6253-6287; returns (acc, *nbStripesSoFarPtr, input) *)
Definition consumeStripes (c : cfg) (adr : Z) (acc : list Z) (nbStripesSoFar nbStripesPerBlock : Z) (input : ptr)
    (nbStripes : Z) (secret : ptr) (secretLimit : Z) (f_acc : f_accumulate) (f_scr : f_scramble) : res (list Z * Z * ptr) :=
  let initialSecret := padd secret (nbStripesSoFar * SECRET_CONSUME_RATE) in
  let! (acc, input, nbStripes, initialSecret, nbStripesSoFar) :=
    (if usz c (nbStripesPerBlock - nbStripesSoFar) <=? nbStripes then
       let! (acc, input, nbStripes, _, initialSecret) :=
         do_while (Z.to_nat nbStripes) (consume_body c adr nbStripesPerBlock secret secretLimit f_acc f_scr)
           (fun s => let '(_, _, nbStripes, _, _) := s in nbStripesPerBlock <=? nbStripes)
           (acc, input, nbStripes, usz c (nbStripesPerBlock - nbStripesSoFar), initialSecret) in
       OK (acc, input, nbStripes, initialSecret, 0)
     else OK (acc, input, nbStripes, initialSecret, nbStripesSoFar)) in
  if 0 <? nbStripes then
    let! acc := f_acc adr acc input initialSecret nbStripes in
    OK (acc, usz c (nbStripesSoFar + nbStripes), padd input (nbStripes * STRIPE_LEN))
  else OK (acc, nbStripesSoFar, input).

(** the secret in use: xxhash.h:6310, 6425 and 6926 *)
Definition state_secret (st : state3) : ptr :=
  if is_null (s3_extSecret st) then Ptr (s3_customSecret st) (s3_adr st + 64) 0 else s3_extSecret st.

(** address of the accumulators during an update: a local array or the state's own, xxhash.h:6311-6320 *)
Definition update_acc_adr (c : cfg) (st : state3) : Z := if stream_stack c then local_acc c else s3_adr st.

(** XXH3_update: xxhash.h:6297-6373.  [bEnd - input] is computed on offsets. *)
Definition XXH3_update (c : cfg) (st : state3) (input : ptr) (len : Z) (f_acc : f_accumulate) (f_scr : f_scramble)
  : res (errorcode * state3) :=
  if is_null input then
    let! _ := assert_ (len =? 0) in OK (XXH_OK, st)
  else
    let bEnd := padd input len in
    let secret := state_secret st in
    let adr := update_acc_adr c st in
    let acc := s3_acc st in
    let totalLen := add64 (s3_totalLen st) len in
    let! _ := assert_ (s3_bufferedSize st <=? INTERNALBUFFER_SIZE) in
    if len <=? INTERNALBUFFER_SIZE - s3_bufferedSize st then
      let! data := load input len in
      let! buffer := store (s3_buffer st) (s3_bufferedSize st) data in
      OK (XXH_OK, State3 (s3_adr st) (s3_acc st) (s3_customSecret st) buffer (u32 (s3_bufferedSize st + u32 len)) (s3_useSeed st)
                    (s3_nbStripesSoFar st) totalLen (s3_nbStripesPerBlock st) (s3_secretLimit st) (s3_seed st) (s3_extSecret st))
    else
      let! (acc, nbStripesSoFar, buffer, bufferedSize, input) :=
        (if negb (s3_bufferedSize st =? 0) then
           let loadSize := INTERNALBUFFER_SIZE - s3_bufferedSize st in
           let! data := load input loadSize in
           let! buffer := store (s3_buffer st) (s3_bufferedSize st) data in
           let input := padd input loadSize in
           let! (acc, nbStripesSoFar, _) :=
             consumeStripes c adr acc (s3_nbStripesSoFar st) (s3_nbStripesPerBlock st) (Ptr buffer (s3_adr st + 256) 0)
               INTERNALBUFFER_STRIPES secret (s3_secretLimit st) f_acc f_scr in
           OK (acc, nbStripesSoFar, buffer, 0, input)
         else OK (acc, s3_nbStripesSoFar st, s3_buffer st, s3_bufferedSize st, input)) in
      let! _ := assert_ (pltb input bEnd) in
      let! (acc, nbStripesSoFar, buffer, input) :=
        (if INTERNALBUFFER_SIZE <? poff bEnd - poff input then
           let nbStripes := (poff bEnd - 1 - poff input) / STRIPE_LEN in
           let! (acc, nbStripesSoFar, input) :=
             consumeStripes c adr acc nbStripesSoFar (s3_nbStripesPerBlock st) input nbStripes secret (s3_secretLimit st) f_acc f_scr in
           let! data := load (padd input (- STRIPE_LEN)) STRIPE_LEN in
           let! buffer := store buffer (zlen buffer - STRIPE_LEN) data in
           OK (acc, nbStripesSoFar, buffer, input)
         else OK (acc, nbStripesSoFar, buffer, input)) in
      let! _ := assert_ (pltb input bEnd) in
      let! _ := assert_ (poff bEnd - poff input <=? INTERNALBUFFER_SIZE) in
      let! _ := assert_ (bufferedSize =? 0) in
      let n := poff bEnd - poff input in
      let! data := load input n in
      let! buffer := store buffer 0 data in
      OK (XXH_OK, State3 (s3_adr st) acc (s3_customSecret st) buffer (u32 n) (s3_useSeed st) nbStripesSoFar totalLen
                    (s3_nbStripesPerBlock st) (s3_secretLimit st) (s3_seed st) (s3_extSecret st)).

(** XXH3_64bits_update: xxhash.h:6377-6382; XXH3_128bits_update: 6916-6919 *)
Definition XXH3_64bits_update (c : cfg) (st : state3) (input : ptr) (len : Z) : res (errorcode * state3) :=
  XXH3_update c st input len (accumulate c) (scrambleAcc c).
Definition XXH3_128bits_update (c : cfg) (st : state3) (input : ptr) (len : Z) : res (errorcode * state3) :=
  XXH3_64bits_update c st input len.

(** XXH3_digest_long: xxhash.h:6385-6420; the local array [lastStripe] has no alignment (address 1) *)
Definition digest_long (c : cfg) (st : state3) (secret : ptr) : res (list Z) :=
  let acc := s3_acc st in
  let buf := Ptr (s3_buffer st) (s3_adr st + 256) 0 in
  let! (acc, lastStripePtr) :=
    (if STRIPE_LEN <=? s3_bufferedSize st then
       let nbStripes := (s3_bufferedSize st - 1) / STRIPE_LEN in
       let! (acc, _, _) :=
         consumeStripes c (local_acc c) acc (s3_nbStripesSoFar st) (s3_nbStripesPerBlock st) buf nbStripes secret
           (s3_secretLimit st) (accumulate c) (scrambleAcc c) in
       OK (acc, padd (padd buf (s3_bufferedSize st)) (- STRIPE_LEN))
     else
       let catchupSize := STRIPE_LEN - s3_bufferedSize st in
       let! _ := assert_ (0 <? s3_bufferedSize st) in
       let! d1 := load (padd (padd buf (zlen (s3_buffer st))) (- catchupSize)) catchupSize in
       let! lastStripe := store (repeat 0 64) 0 d1 in
       let! d2 := load buf (s3_bufferedSize st) in
       let! lastStripe := store lastStripe catchupSize d2 in
       OK (acc, Ptr lastStripe 1 0)) in
  accumulate_512 c (local_acc c) acc lastStripePtr (padd (padd secret (s3_secretLimit st)) (- SECRET_LASTACC_START)).

(** XXH3_64bits_digest: xxhash.h:6423-6440 *)
Definition XXH3_64bits_digest (c : cfg) (st : state3) : res Z :=
  let secret := state_secret st in
  let buf := Ptr (s3_buffer st) (s3_adr st + 256) 0 in
  if MIDSIZE_MAX <? s3_totalLen st then
    let! acc := digest_long c st secret in
    mergeAccs c acc (padd secret SECRET_MERGEACCS_START) (mul64 (s3_totalLen st) PRIME64_1)
  else if negb (s3_useSeed st =? 0) then
    XXH3_64bits_withSeed c buf (usz c (s3_totalLen st)) (s3_seed st)
  else XXH3_64bits_withSecret c buf (usz c (s3_totalLen st)) secret (usz c (s3_secretLimit st + STRIPE_LEN)).

(** XXH3_128bits_digest: xxhash.h:6922-6945 *)
Definition XXH3_128bits_digest (c : cfg) (st : state3) : res (Z * Z) :=
  let secret := state_secret st in
  let buf := Ptr (s3_buffer st) (s3_adr st + 256) 0 in
  if MIDSIZE_MAX <? s3_totalLen st then
    let! acc := digest_long c st secret in
    let! _ := assert_ (64 + SECRET_MERGEACCS_START <=? usz c (s3_secretLimit st + STRIPE_LEN)) in
    let! low64 := mergeAccs c acc (padd secret SECRET_MERGEACCS_START) (mul64 (s3_totalLen st) PRIME64_1) in
    let! high64 := mergeAccs c acc
                     (padd (padd (padd (padd secret (s3_secretLimit st)) STRIPE_LEN) (-64)) (- SECRET_MERGEACCS_START))
                     (not64 (mul64 (s3_totalLen st) PRIME64_2)) in
    OK (low64, high64)
  else if negb (s3_useSeed st =? 0) then
    XXH3_128bits_withSeed c buf (usz c (s3_totalLen st)) (s3_seed st)
  else XXH3_128bits_withSecret c buf (usz c (s3_totalLen st)) secret (usz c (s3_secretLimit st + STRIPE_LEN)).

(** the 128-bit reset functions call the 64-bit ones: xxhash.h:6887-6912 *)
Definition XXH3_128bits_reset (c : cfg) (ost : option state3) := XXH3_64bits_reset c ost.
Definition XXH3_128bits_reset_withSecret (c : cfg) (ost : option state3) (secret : ptr) (secretSize : Z) :=
  XXH3_64bits_reset_withSecret c ost secret secretSize.
Definition XXH3_128bits_reset_withSeed (c : cfg) (ost : option state3) (seed : Z) := XXH3_64bits_reset_withSeed c ost seed.
Definition XXH3_128bits_reset_withSecretandSeed (c : cfg) (ost : option state3) (secret : ptr) (secretSize seed : Z) :=
  XXH3_64bits_reset_withSecretandSeed c ost secret secretSize seed.
