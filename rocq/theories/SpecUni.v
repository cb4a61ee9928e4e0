(** Unicode text in its two encodings (The Unicode Standard, 3.9, D90-D92, table 3-6), for C90-C92.  Uses nothing of the model. *)
From Coq Require Import List ZArith Lia.
Import ListNotations.
Local Open Scope Z_scope.

Module Uni.
(** the characters a C string can have: every scalar value but NUL *)
Definition scalar (x : Z) : Prop := 0 < x < 0xD800 \/ 0xE000 <= x <= 0x10FFFF.
Definition text (t : list Z) : Prop := Forall scalar t.
(** one character in UTF-8 and in UTF-16 *)
Definition utf8_1 (x : Z) : list Z :=
  if x <? 0x80 then [x]
  else if x <? 0x800 then [0xC0 + x / 64; 0x80 + x mod 64]
  else if x <? 0x10000 then [0xE0 + x / 4096; 0x80 + x / 64 mod 64; 0x80 + x mod 64]
  else [0xF0 + x / 262144; 0x80 + x / 4096 mod 64; 0x80 + x / 64 mod 64; 0x80 + x mod 64].
Definition utf16_1 (x : Z) : list Z :=
  if x <? 0x10000 then [x] else [0xD800 + (x - 0x10000) / 1024; 0xDC00 + (x - 0x10000) mod 1024].
Definition utf8 (t : list Z) : list Z := flat_map utf8_1 t.
Definition utf16 (t : list Z) : list Z := flat_map utf16_1 t.
(** a surrogate without its partner: what NTFS allows in a name and UTF-16 does not *)
Definition high (u : Z) : Prop := 0xD800 <= u < 0xDC00.
Definition low (u : Z) : Prop := 0xDC00 <= u < 0xE000.
Definition lone (s : list Z) : Prop :=
  exists a u b, s = a ++ u :: b /\ (high u /\ (forall v r, b = v :: r -> ~ low v) \/ low u /\ (forall v r, a = r ++ [v] -> ~ high v)).
End Uni.
