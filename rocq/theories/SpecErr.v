(** What xxhsum has to say on stderr, independently of the code: the messages of coreutils' md5sum, whose text is that of cli/xxhsum.c:286, 417-429, 821-868, 1004-1036. *)
From Coq Require Import String Ascii List.
From Verif Require Import Base Mem M_Cli M_Cli2 SpecCli SpecCli2.

(** about a file to be hashed *)
Definition about_file (dir : bool) (f : option file) (strerr name : list Z) : list Z :=
  if dir then str "xxhsum: " ++ name ++ str ": Is a directory " ++ [10]
  else match f with
       | None => str "Error: Could not open '" ++ name ++ str "': " ++ strerr ++ str ". " ++ [10]
       | Some f => if f_err f then str "Error: a failure occurred reading the input file." ++ [10] else []
       end.
(** a read error ends the program *)
Fixpoint about_files (dir : list Z -> bool) (fs : list Z -> option file) (strerr : list Z) (names : list (list Z)) : list Z :=
  match names with
  | [] => []
  | n :: rest => about_file (dir n) (fs n) strerr n ++
      match fs n with Some f => if negb (dir n) && f_err f then [] else about_files dir fs strerr rest | None => about_files dir fs strerr rest end
  end.

(** about a line of a checksum file *)
Definition about_line (listname : list Z) (warn : bool) (n : Z) (o : outcome) : list Z :=
  match o with
  | OBad => if warn then listname ++ str ":" ++ numeral n ++ str ": Error: Improperly formatted checksum line." ++ [10] else []
  | OTooLong => listname ++ str ":" ++ numeral n ++ str ": Error: Line too long." ++ [10]
  | OReadError => str "Error: a failure occurred reading the input file." ++ [10]
  | _ => []
  end.
Fixpoint about_lines (listname : list Z) (warn : bool) (n : Z) (os : list outcome) : list Z :=
  match os with
  | [] => []
  | o :: os => about_line listname warn n o ++ match o with OReadError | OTooLong => [] | _ => about_lines listname warn (n + 1) os end
  end.
(** about the whole checksum file *)
Definition about_list (listname : list Z) (warn : bool) (os : list outcome) : list Z :=
  about_lines listname warn 1 os ++
  (if negb (aborts os) && (count is_proper (processed os) =? 0) then listname ++ str ": no properly formatted xxHash checksum lines found" ++ [10] else []).
