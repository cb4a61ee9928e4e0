(** What checking a checksum file means, independently of the code: cli/xxhsum.1.md:54-78 and the comment at
    cli/xxhsum.c:961-975. *)
From Coq Require Import String Ascii List.
From Verif Require Import Base Mem M_Cli M_Cli2 SpecCli Spec32 Spec64 Spec3 SpecUtil.

(** the bytes of the hash of [m], most significant first *)
Definition digest (a : algo) (m : list Z) : list Z :=
  match a with
  | algo_xxh32 => Util.be 4 (X32.hash m 0)
  | algo_xxh64 => Util.be 8 (X64.hash m 0)
  | algo_xxh128 => Util.be 16 (Util.val128 (X3.XXH3_128 m))
  | algo_xxh3 => Util.be 8 (X3.XXH3_64 m)
  end.

(** the lines of a text, each with whether a line feed ends it *)
Fixpoint lines_of (text : list Z) : list (list Z * bool) :=
  match text with
  | [] => []
  | x :: r =>
      if x =? 10 then ([], true) :: lines_of r
      else match lines_of r with [] => [([x], false)] | (l, t) :: ls => (x :: l, t) :: ls end
  end.
Definition comment (l : list Z) : Prop := exists r, l = 35 :: r.
(** a line counts up to its first NUL *)
Fixpoint text_of (l : list Z) : list Z := match l with [] => [] | x :: l => if x =? 0 then [] else x :: text_of l end.
(** lines, with their line feed, of at most 32 KiB - 1 *)
Definition short_enough (l : list Z * bool) : Prop := zlen (fst l) + (if snd l then 1 else 0) < 32768.

Inductive outcome := OComment | OBad | OMissing (name : list Z) | OMatch (name : list Z) | OMismatch (name : list Z) | OReadError | OTooLong.
(** the outcome of each line.  [sin] is what is left of stdin: the name "stdin" stands for it. *)
Definition source (fs : list Z -> option file) (sin : file) (name : list Z) : option file :=
  if eqb_list name (str "stdin") then Some sin else fs name.
Definition sin_after (sin : file) (name : list Z) : file :=
  if eqb_list name (str "stdin") then File [] (f_err sin) else sin.
Inductive Outcomes (fs : list Z -> option file) (mask : Z) (le : bool) : file -> list (list Z * bool) -> list outcome -> Prop :=
| oc_nil sin : Outcomes fs mask le sin [] []
| oc_long sin l ls os : ~ short_enough l -> Outcomes fs mask le sin ls os -> Outcomes fs mask le sin (l :: ls) (OTooLong :: os)
| oc_comment sin l ls os : short_enough l -> comment (fst l) ->
    Outcomes fs mask le sin ls os -> Outcomes fs mask le sin (l :: ls) (OComment :: os)
| oc_bad sin l ls os : short_enough l -> ~ comment (fst l) -> (forall a canon name, ~ Accepts mask le (text_of (fst l)) a canon name) ->
    Outcomes fs mask le sin ls os -> Outcomes fs mask le sin (l :: ls) (OBad :: os)
| oc_missing sin l ls os a canon name : short_enough l -> ~ comment (fst l) -> Accepts mask le (text_of (fst l)) a canon name ->
    source fs sin name = None ->
    Outcomes fs mask le sin ls os -> Outcomes fs mask le sin (l :: ls) (OMissing name :: os)
| oc_readerror sin l ls os a canon name f : short_enough l -> ~ comment (fst l) -> Accepts mask le (text_of (fst l)) a canon name ->
    source fs sin name = Some f -> f_err f = true ->
    Outcomes fs mask le (sin_after sin name) ls os -> Outcomes fs mask le sin (l :: ls) (OReadError :: os)
| oc_match sin l ls os a canon name f : short_enough l -> ~ comment (fst l) -> Accepts mask le (text_of (fst l)) a canon name ->
    source fs sin name = Some f -> f_err f = false -> canon = digest a (f_content f) ->
    Outcomes fs mask le (sin_after sin name) ls os -> Outcomes fs mask le sin (l :: ls) (OMatch name :: os)
| oc_mismatch sin l ls os a canon name f : short_enough l -> ~ comment (fst l) -> Accepts mask le (text_of (fst l)) a canon name ->
    source fs sin name = Some f -> f_err f = false -> canon <> digest a (f_content f) ->
    Outcomes fs mask le (sin_after sin name) ls os -> Outcomes fs mask le sin (l :: ls) (OMismatch name :: os).

(** some line names the file "stdin" *)
Definition names_stdin (mask : Z) (le : bool) (ls : list (list Z * bool)) : Prop :=
  exists l a canon, In l ls /\ Accepts mask le (text_of (fst l)) a canon (str "stdin").

(** the lines that are processed: a line that is too long ends the check of the file, a read error ends the program *)
Definition goes_on (o : outcome) : Prop := match o with OReadError | OTooLong => False | _ => True end.
Fixpoint processed (os : list outcome) : list outcome :=
  match os with [] => [] | OReadError :: _ | OTooLong :: _ => [] | o :: os => o :: processed os end.
Fixpoint aborts (os : list outcome) : bool :=
  match os with [] => false | OReadError :: _ => true | OTooLong :: _ => false | _ :: os => aborts os end.

(** the verdict *)
Definition well_formed (o : outcome) : Prop := match o with OComment | OBad | OTooLong => False | _ => True end.
Definition Verdict (strict ignoreMissing : bool) (os : list outcome) : Prop :=
  ~ In OTooLong os /\ ~ In OReadError os /\ (exists o, In o os /\ well_formed o) /\
  (forall name, ~ In (OMismatch name) os) /\
  (ignoreMissing = false -> forall name, ~ In (OMissing name) os) /\
  (strict = true -> ~ In OBad os) /\
  (ignoreMissing = true -> exists name, In (OMatch name) os).

(** a number in decimal: its digits at the places that count (the last one always does), highest first; numbers below 10^20 *)
Definition places (n : Z) : list Z := rev (filter (fun k => (k =? 0) || (10 ^ k <=? n)) (map Z.of_nat (seq 0 20))).
Definition numeral (n : Z) : list Z := map (fun k => 48 + n / 10 ^ k mod 10) (places n).
(** what is printed for a line, [n] being its number *)
Definition shown (name : list Z) : list Z :=
  if existsb (fun x => (x =? 92) || (x =? 10) || (x =? 13)) name then 92 :: escape name else name.
Definition say (listname strerr : list Z) (status ignoreMissing quiet_ : bool) (n : Z) (o : outcome) : list Z :=
  match o with
  | OMissing name => if ignoreMissing || status then [] else
      listname ++ str ":" ++ numeral n ++ str ": Could not open or read '" ++ name ++ str "': " ++ strerr ++ str "." ++ [10]
  | OMatch name => if quiet_ || status then [] else shown name ++ str ": OK" ++ [10]
  | OMismatch name => if status then [] else shown name ++ str ": FAILED" ++ [10]
  | _ => []
  end.
Fixpoint says (listname strerr : list Z) (status ignoreMissing quiet_ : bool) (n : Z) (os : list outcome) : list Z :=
  match os with [] => [] | o :: os => say listname strerr status ignoreMissing quiet_ n o ++ says listname strerr status ignoreMissing quiet_ (n + 1) os end.
(** and at the end *)
Definition count (p : outcome -> bool) (os : list outcome) : Z := zlen (filter p os).
Definition is_bad (o : outcome) : bool := match o with OBad => true | _ => false end.
Definition is_missing (o : outcome) : bool := match o with OMissing _ => true | _ => false end.
Definition is_mismatch (o : outcome) : bool := match o with OMismatch _ => true | _ => false end.
Definition is_match (o : outcome) : bool := match o with OMatch _ => true | _ => false end.
Definition is_proper (o : outcome) : bool := is_missing o || is_mismatch o || is_match o.
Definition tally (n : Z) (one many : list Z) : list Z := if n =? 0 then [] else numeral n ++ str " " ++ (if n =? 1 then one else many) ++ [10].
Definition closing (listname : list Z) (status ignoreMissing : bool) (os : list outcome) : list Z :=
  (if (count is_proper os =? 0) || status then [] else
     tally (count is_bad os) (str "line is improperly formatted") (str "lines are improperly formatted")
     ++ tally (if ignoreMissing then 0 else count is_missing os) (str "listed file could not be read") (str "listed files could not be read")
     ++ tally (count is_mismatch os) (str "computed checksum did NOT match") (str "computed checksums did NOT match"))
  ++ (if ignoreMissing && (count is_match os =? 0) then listname ++ str ": no file was verified" ++ [10] else []).
