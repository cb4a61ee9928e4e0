(** What the text formats of xxhsum are, independently of its code: cli/xxhsum.1.md:17-57 and
    the comments of cli/xxhsum.c:147-159 and 672-689. *)
From Coq Require Import String Ascii List.
From Verif Require Import Base Mem M_Cli.

Definition nul_free (s : list Z) : Prop := ~ In 0 s.
Definition starts (p l : list Z) : Prop := exists r, l = p ++ r.
Definition occurs (p l : list Z) : Prop := exists u v, l = u ++ p ++ v.

(** hexadecimal text of a byte sequence, in either case *)
Definition is_hex (ch d : Z) : Prop := exists k : nat, (k < 16)%nat /\ d = Z.of_nat k /\
  (nth k (str "0123456789abcdef") 0 = ch \/ nth k (str "0123456789ABCDEF") 0 = ch).
Inductive HexText : list Z -> list Z -> Prop :=
| hex_nil : HexText [] []
| hex_cons x y d e s bs : is_hex x d -> is_hex y e -> HexText s bs -> HexText (x :: y :: s) (16 * d + e :: bs).

(** escaped file names: backslash, line feed and carriage return are written as two characters *)
Inductive Unescaped : list Z -> list Z -> Prop :=
| un_nil : Unescaped [] []
| un_bsl s n : Unescaped s n -> Unescaped (92 :: 92 :: s) (92 :: n)
| un_lf s n : Unescaped s n -> Unescaped (92 :: 110 :: s) (10 :: n)
| un_cr s n : Unescaped s n -> Unescaped (92 :: 114 :: s) (13 :: n)
| un_chr x s n : x <> 92 -> x <> 0 -> Unescaped s n -> Unescaped (x :: s) (x :: n).
Definition escape (n : list Z) : list Z :=
  flat_map (fun x => if x =? 92 then [92; 92] else if x =? 10 then [92; 110] else if x =? 13 then [92; 114] else [x]) n.

(** the digest part of a line: [d] are the bytes in the order they are written *)
Definition digest_size (a : algo) : Z := match a with algo_xxh32 => 4 | algo_xxh64 => 8 | algo_xxh128 => 16 | algo_xxh3 => 8 end.
Definition plain_digest (a : algo) (h d : list Z) : Prop := HexText h d /\ zlen d = digest_size a.
Definition xxh3_digest (h d : list Z) : Prop := exists h', h = str "XXH3_" ++ h' /\ HexText h' d /\ zlen d = 8.
(** GNU lines: an XXH3 digest carries the prefix "XXH3_" *)
Definition gnu_digest (a : algo) (h d : list Z) : Prop := match a with algo_xxh3 => xxh3_digest h d | _ => plain_digest a h d end.
(** BSD lines: the prefix is optional *)
Definition bsd_digest (a : algo) (h d : list Z) : Prop := plain_digest a h d \/ a = algo_xxh3 /\ xxh3_digest h d.
(** the algorithm a tag stands for; only its beginning counts, and any other tag stands for XXH64 *)
Definition tag_algo (tag : list Z) (a : algo) : Prop :=
  match a with
  | algo_xxh128 => starts (str "XXH128") tag
  | algo_xxh32 => starts (str "XXH32") tag
  | algo_xxh3 => starts (str "XXH3") tag /\ ~ starts (str "XXH32") tag
  | algo_xxh64 => ~ starts (str "XXH128") tag /\ ~ starts (str "XXH3") tag
  end.
Definition ordered (le : Prop) (d canon : list Z) : Prop := le /\ canon = rev d \/ ~ le /\ canon = d.

Definition gnu_line (le : bool) (body : list Z) (a : algo) (canon raw : list Z) : Prop :=
  exists h x d, body = h ++ [32; x] ++ raw /\ x <> 40 /\ gnu_digest a h d /\ ordered (le = true) d canon.
Definition bsd_line (body : list Z) (a : algo) (canon raw : list Z) : Prop :=
  exists tag h d, body = tag ++ str " (" ++ raw ++ str ") = " ++ h /\ ~ In 32 tag /\ tag_algo tag a /\ bsd_digest a h d /\
    ordered (occurs (str "_LE") tag) d canon.

(** a line whose first non-blank character is a backslash holds an escaped file name; its first character is skipped *)
Definition escaped_line (line : list Z) : Prop := exists bl r, line = bl ++ 92 :: r /\ Forall (fun x => x = 32 \/ x = 9) bl.

(** [line] gives, for the file [name], the digest [canon] (big-endian bytes) of algorithm [a]; [mask] has bit
    [algo_num a] set for the algorithms this program accepts, and [le] is the --little-endian option *)
Definition Accepts (mask : Z) (le : bool) (line : list Z) (a : algo) (canon name : list Z) : Prop :=
  Z.testbit mask (algo_num a) = true /\
  exists body raw, (gnu_line le body a canon raw \/ bsd_line body a canon raw) /\
    (escaped_line line /\ (exists x, line = x :: body) /\ Unescaped raw name \/
     ~ escaped_line line /\ line = body /\ name = raw).
