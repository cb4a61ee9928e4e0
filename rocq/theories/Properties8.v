(** Property theorems about xxhsum (cli/xxhsum.c): printed lines and their parser (C37, C38, C43), hashing a stream (C40), reading
    lines (C42), checking (C39, C44, C51), printing then checking (C50), exit status of hashing (C53). *)
From Coq Require Import String Ascii List.
From Verif Require Import Base Mem M_XXH32 M_XXH64 M_XXH3 M_Kernels M_Long M_Stream3 M_Util M_Cli M_Cli2 Spec32 Spec64 Spec3 SpecUtil SpecCli SpecCli2
  P_Base P_Util P_Stream3 P_Cli P_Cli2 P_Cli3 P_Cli4.

(** ** C37 *)
(** The line printed for any file name without NUL and any hash value, in either style and byte order, is one line, and the
    parser gives back the algorithm, the hash and the name; [w] is what the line buffer holds behind the line.  A --tag line is
    read back whatever the --little-endian option. *)
Theorem C37_printed_lines_parse_back : forall conv e name canon a mask le w,
  nul_free name -> bytes_ok canon -> zlen canon = digest_size a -> Z.testbit mask (algo_num a) = true -> (conv = display_gnu -> le = is_le e) ->
  exists line, displayLine conv e name canon a = OK (line ++ [10]) /\ ~ In 0 line /\ ~ In 10 line /\ ~ In 13 line /\
    exists b i, parseLine (line ++ 0 :: w) le mask = OK (Some (a, canon, i), b) /\ cstr b i = OK name.
Proof.
  intros conv e name canon a mask le w NN B L T H.
  destruct (displayLine_ok conv e name canon a mask le NN B L T H) as (line & E & A & N0 & N10 & N13 & _). exists line. repeat (split; [assumption|]).
  destruct (parseLine_ok line w le mask N0) as (r & b & EP & _ & D). destruct r as [[[a' canon'] i]|]; [|exfalso; exact (D _ _ _ A)].
  destruct D as (name' & EC & A'). destruct (Accepts_det _ _ _ _ _ _ _ _ _ A A') as (<- & <- & <-). exists b, i. auto.
Qed.
Print Assumptions C37_printed_lines_parse_back.
(** The parser accepts exactly the lines of the grammar [Accepts], is defined on every line, stays inside the buffer, and what
    it returns is what the grammar says. *)
Theorem C37_parser_exact : forall s w le mask, nul_free s ->
  exists r b, parseLine (s ++ 0 :: w) le mask = OK (r, b) /\ zlen b = zlen (s ++ 0 :: w) /\
    (r = None -> forall a canon name, ~ Accepts mask le s a canon name) /\
    (forall a canon i, r = Some (a, canon, i) -> exists name, cstr b i = OK name /\
       forall a' canon' name', Accepts mask le s a' canon' name' <-> a' = a /\ canon' = canon /\ name' = name).
Proof.
  intros s w le mask NF. destruct (parseLine_ok s w le mask NF) as (r & b & E & L & D). exists r, b. split; [exact E|]. split; [exact L|]. split.
  - intros ->. exact D.
  - intros a canon i ->. destruct D as (name & EC & A). exists name. split; [exact EC|]. intros a' canon' name'. split.
    + intros A'. destruct (Accepts_det _ _ _ _ _ _ _ _ _ A' A) as (-> & -> & ->). auto.
    + intros (-> & -> & ->). exact A.
Qed.
Print Assumptions C37_parser_exact.
Example C37_case : nul_free (str "a\b c") /\ displayLine display_bsd little_endian (str "a\b c") [1; 35; 69; 103] algo_xxh32 = OK (str "\XXH32_LE (a\\b c) = 67452301" ++ [10])
  /\ exists b, parseLine (str "\XXH32_LE (a\\b c) = 67452301" ++ [0]) false 15 = OK (Some (algo_xxh32, [1; 35; 69; 103], 11), b) /\ cstr b 11 = OK (str "a\b c").
Proof. split; [intros I; vm_compute in I; lia|]. split; [reflexivity|]. eexists. split; reflexivity. Qed.

(** ** C38 *)
Theorem C38_escaping : forall n, nul_free n ->
  printFilename n true = escape n /\ Unescaped (escape n) n /\ ~ In 10 (printFilename n (filenameNeedsEscape n)) /\ ~ In 13 (printFilename n (filenameNeedsEscape n)) /\
  (forall n', escape n' = escape n -> n' = n \/ ~ nul_free n').
Proof.
  intros n NN. split; [apply printFilename_escape|]. split; [apply escape_unescaped, NN|].
  assert (X : forall x, x = 10 \/ x = 13 -> ~ In x (printFilename n (filenameNeedsEscape n))).
  { intros x X I. destruct (filenameNeedsEscape n) eqn:E; [rewrite printFilename_escape in I; apply escape_no_eol in I; lia|].
    assert (N : ~ (In 92 n \/ In 10 n \/ In 13 n)) by (intros Y; apply needsEscape_spec in Y; congruence). change (In x n) in I. destruct X as [->| ->]; tauto. }
  split; [apply X; auto|]. split; [apply X; auto|]. intros n' E. destruct (in_dec Z.eq_dec 0 n') as [I|I]; [right; intros N; exact (N I)|left].
  pose proof (escape_unescaped n' I) as U. rewrite E in U. exact (Unescaped_det _ _ _ U (escape_unescaped n NN)).
Qed.
Print Assumptions C38_escaping.
(** the unescaper, in place, on the name [raw] that starts behind [pre]: exactly the escaped forms are accepted, nothing outside the
    name is changed, and apart from literal line ends the accepted form is the escaped one *)
Theorem C38_unescaping : forall pre raw w, nul_free raw ->
  exists ok b, filenameUnescape (pre ++ raw ++ 0 :: w) (zlen pre) (zlen raw) = OK (ok, b) /\ zlen b = zlen (pre ++ raw ++ 0 :: w) /\
    (ok = true -> exists name w', b = pre ++ name ++ 0 :: w' /\ Unescaped raw name /\ (~ In 10 raw -> ~ In 13 raw -> raw = escape name)) /\
    (ok = false -> forall name, ~ Unescaped raw name).
Proof.
  intros pre raw w NF. destruct (filenameUnescape_ok pre raw w _ _ NF eq_refl eq_refl) as (ok & b & E & L & D). exists ok, b. split; [exact E|]. split; [exact L|].
  destruct ok; (split; [intros Q|intros Q; try discriminate]); [|discriminate|exact D].
  destruct D as (name & w' & EB & U). exists name, w'. split; [exact EB|]. split; [exact U|]. intros N1 N2. exact (Unescaped_escape _ _ U N1 N2).
Qed.
Print Assumptions C38_unescaping.
Example C38_case : filenameUnescape (7 :: str "a\\b\nc" ++ [0; 9]) 1 7 = OK (true, 7 :: (str "a\b" ++ [10] ++ str "c") ++ 0 :: [99; 0; 9])
  /\ fst (match filenameUnescape (str "a\x" ++ [0]) 0 3 with OK r => r | _ => (true, []) end) = false /\ nul_free (str "a\\b\nc").
Proof. split; [reflexivity|]. split; [reflexivity|]. intros I. vm_compute in I. lia. Qed.

(** ** C43 *)
(** A line with the tag of another program is accepted, as an XXH64 one. *)
Theorem C43_foreign_tags_refuted : exists line tag canon i b,
  line = tag ++ str " (f) = 0123456789abcdef" /\ (forall a, tag <> algoName a /\ tag <> algoLE_name a) /\
  parseLine (line ++ [0]) false 15 = OK (Some (algo_xxh64, canon, i), b) /\ cstr b i = OK (str "f").
Proof.
  exists (str "SHA1 (f) = 0123456789abcdef"), (str "SHA1"). do 3 eexists. split; [reflexivity|]. split; [intros []; split; discriminate|]. split; reflexivity.
Qed.
Print Assumptions C43_foreign_tags_refuted.
(** What the tag decides, exactly: only its first letters count. *)
Theorem C43_tags : forall s w le mask a canon i b, nul_free s -> parseLine (s ++ 0 :: w) le mask = OK (Some (a, canon, i), b) ->
  (exists body raw name, gnu_line le body a canon raw /\ (s = body \/ exists x, s = x :: body) /\ cstr b i = OK name) \/
  (exists body raw tag h d, (s = body \/ exists x, s = x :: body) /\ body = tag ++ str " (" ++ raw ++ str ") = " ++ h /\ tag_algo tag a /\
     bsd_digest a h d /\ ordered (occurs (str "_LE") tag) d canon).
Proof.
  intros s w le mask a canon i b NF E. destruct (parseLine_ok s w le mask NF) as (r & b' & E' & _ & D). rewrite E in E'. injection E' as <- <-.
  destruct D as (name & EC & _ & body & raw & L & H).
  assert (S : s = body \/ exists x, s = x :: body) by (destruct H as [(_ & X & _)|(_ & X & _)]; auto).
  destruct L as [L|(tag & h & d & EB & _ & T & B & O)].
  - left. exists body, raw, name. auto.
  - right. exists body, raw, tag, h, d. auto.
Qed.
Print Assumptions C43_tags.
Example C43_tags_case : nul_free (str "XXH128 (x) = 0123456789abcdef0123456789ABCDEF") /\
  exists b, parseLine (str "XXH128 (x) = 0123456789abcdef0123456789ABCDEF" ++ [0]) false 15
    = OK (Some (algo_xxh128, [1; 35; 69; 103; 137; 171; 205; 239; 1; 35; 69; 103; 137; 171; 205; 239], 8), b).
Proof. split; [intros I; vm_compute in I; lia|]. eexists. reflexivity. Qed.

(** ** C40 *)
(** However the system delivers the bytes of a file, the hash is that of the whole content; a read error ends the program. *)
Theorem C40_hash_of_stream : forall e t f a buf, env_ok e -> zlen buf = 65536 -> bytes_ok (f_content f) -> zlen (f_content f) < 2 ^ 64 ->
  exists h buf' f', hashStream e t f a buf 65536 = OK (h, buf', f') /\ f_content f' = [] /\ zlen buf' = 65536 /\
    h = if f_err f then None else Some match a with
      | algo_xxh32 => H32 (X32.hash (f_content f) 0) | algo_xxh64 => H64 (X64.hash (f_content f) 0)
      | algo_xxh128 => H128 (X3.XXH3_128 (f_content f)) | algo_xxh3 => H64 (X3.XXH3_64 (f_content f)) end.
Proof.
  intros e t f a buf EO LB B L. destruct (hashStream_ok e t f a buf 65536 EO ltac:(lia) LB (conj B L)) as (b' & E & L'). do 3 eexists. split; [exact E|].
  split; [reflexivity|]. split; [exact L'|]. destruct (f_err f), a; reflexivity.
Qed.
Print Assumptions C40_hash_of_stream.

(** ** C42 *)
(** Each call returns the bytes up to the next line feed or the end, NUL-terminated in the buffer, which it may enlarge up to
    32768 bytes; a line is refused only if it does not fit there; nothing is printed and stdin is not touched. *)
Theorem C42_getLine : forall e m b f, env_ok e -> 1 <= zlen b <= 32768 ->
  exists g b' f' m', getLine e m (Some b) (zlen b) f = OK (g, Some b', zlen b', f', m') /\ zlen b <= zlen b' <= 32768 /\
    m_stdin m' = m_stdin m /\ m_out m' = m_out m /\
    match g with
    | GetLine_eof => f_content f = []
    | GetLine_ok | GetLine_comment => exists l t w, lines_of (f_content f) = (l, t) :: lines_of (f_content f') /\ short_enough (l, t) /\
        b' = l ++ 0 :: w /\ (g = GetLine_comment <-> comment l)
    | GetLine_exceedMaxLineLength => exists l t ls, lines_of (f_content f) = (l, t) :: ls /\ ~ short_enough (l, t)
    | GetLine_outOfMemory => malloc_fails e
    end.
Proof.
  intros e m b f EO L. destruct (getLine_ok e m b (zlen b) f EO eq_refl L) as (g & b' & f' & m' & E & LB & (I1 & I2) & _ & _ & D). exists g, b', f', m'.
  split; [exact E|]. split; [exact LB|]. split; [exact I1|]. split; [exact I2|]. destruct g; try exact D; try exact (proj1 D); destruct D as (l & t & w & D1 & D2 & D3 & D4 & _); exists l, t, w; auto.
Qed.
Print Assumptions C42_getLine.
(** [lines_of] is what one expects: it loses nothing, and a line holds no line feed *)
Theorem C42_lines_of : forall text, text = concat (map (fun l : list Z * bool => fst l ++ (if snd l then [10] else [])) (lines_of text)) /\
  (forall l t, In (l, t) (lines_of text) -> ~ In 10 l) /\ (forall ls l t r, lines_of text = ls ++ (l, t) :: r -> t = false -> r = [] /\ l <> []).
Proof.
  induction text as [|x text (IH1 & IH2 & IH3)]; [split; [reflexivity|]; split; [intros l t []|intros [|] ? ? ? E; discriminate]|]. cbn [lines_of].
  destruct (Z.eqb_spec x 10) as [->|N].
  - split; [cbn; congruence|]. split; [intros l t [E|I]; [injection E as <- <-; intros []|exact (IH2 _ _ I)]|].
    intros [|y ls] l t r E H; cbn [app] in E; injection E as E1 E2; [congruence|]. exact (IH3 _ _ _ _ E2 H).
  - destruct (lines_of text) as [|[l0 t0] ls0] eqn:EL.
    + split; [cbn in *; congruence|]. split; [intros l t [E|[]]; injection E as <- <-; intros [Q|[]]; congruence|].
      intros [|y [|y' ls]] l t r E H; cbn [app] in E; try discriminate. injection E as <- <- <-. split; [reflexivity|discriminate].
    + split; [cbn in *; congruence|]. split.
      * intros l t [E|I]; [injection E as <- <-; intros [Q|Q]; [congruence|exact (IH2 l0 t0 (or_introl eq_refl) Q)]|exact (IH2 _ _ (or_intror I))].
      * intros [|y ls] l t r E H; cbn [app] in E; [injection E as <- -> <-|injection E as E1 E2].
        -- subst t. destruct (IH3 [] l0 false ls0 eq_refl eq_refl) as [-> _]. split; [reflexivity|discriminate].
        -- exact (IH3 ((l0, t0) :: ls) l t r (f_equal (cons _) E2) H).
Qed.
Print Assumptions C42_lines_of.

(** ** C39 *)
(** Whatever the checksum file holds and whatever the files are: the check is defined, ends, and its result is 1 only if the
    verdict of the specification is good; it is 1 whenever the verdict is good, unless malloc failed; the program is ended (None)
    exactly when a listed file cannot be read, and the output is exactly the specified one.  [n] is the checksum file, or stdin. *)
Theorem C39_verdict : forall e m n de strict st im warn q mask f os,
  env_ok e -> file_ok (m_stdin m) -> listed e m n = Some f ->
  Outcomes (e_fs e) mask (is_le de) (m_stdin m) (lines_of (f_content f)) os ->
  (n = Stdin -> ~ names_stdin mask (is_le de) (lines_of (f_content f))) ->
  zlen (lines_of (f_content f)) + 1 < 2 ^ e_ulbits e ->
  exists r m', checkFile e m n de strict st im warn q mask = OK (r, m') /\ (r = Some 1 -> Verdict strict im os) /\
    (~ malloc_fails e -> (r = Some 1 <-> Verdict strict im os) /\ (r = None <-> aborts os = true) /\ (r = None \/ r = Some 0 \/ r = Some 1) /\
      m_out m' = m_out m ++ says (listname n) (e_strerror e) st im q 1 (processed os) ++ (if aborts os then [] else closing (listname n) st im (processed os))).
Proof. exact checkFile_verdict. Qed.
Print Assumptions C39_verdict.
(** every checksum file has exactly one list of outcomes *)
Theorem C39_outcomes : forall fs mask le sin ls, exists os, Outcomes fs mask le sin ls os /\ forall os', Outcomes fs mask le sin ls os' -> os' = os.
Proof.
  intros fs mask le sin ls. destruct (Outcomes_total fs mask le ls sin) as (os & H). exists os. split; [exact H|]. intros os' H'. exact (Outcomes_det _ _ _ _ _ _ _ H' H).
Qed.
Print Assumptions C39_outcomes.
(** several checksum files: the exit status is 0 only if all are good *)
Theorem C39_all_lists : forall e m ns de strict st im warn q mask, env_ok e -> file_ok (m_stdin m) -> ns <> [] -> Forall (list_fit e mask (is_le de)) ns ->
  exists r m', checkFiles e m ns de strict st im warn q mask = OK (r, m') /\ (r = None \/ r = Some 0 \/ r = Some 1) /\
    (r = Some 0 -> Forall (list_ok e (m_stdin m) mask (is_le de) strict im) ns) /\
    (~ malloc_fails e -> Forall (list_ok e (m_stdin m) mask (is_le de) strict im) ns -> r = Some 0).
Proof. exact checkFiles_ok. Qed.
Print Assumptions C39_all_lists.

(** ** An environment *)
Definition cE : cfg := Cfg true 0 false false false 0 64 true false V_SCALAR false false.
Definition stE : state3 := State3 0 (repeat 9 8) (repeat 0 192) (repeat 0 256) 0 0 0 0 0 0 0 Null.
Definition envE (fs : list Z -> option file) : env :=
  Env cE fs (fun _ => false) (fun _ n => Some (repeat 170 (Z.to_nat n))) (fun _ => stE) (fun _ => 64) (str "No such file or directory") 64.
Lemma stE_raw : raw3 stE.
Proof.
  constructor; try reflexivity. apply Forall_forall. intros x Hx. apply repeat_spec in Hx. subst x. split; [apply Z.leb_le|apply Z.ltb_lt]; reflexivity.
Qed.
Lemma envE_ok fs : (forall n f, fs n = Some f -> file_ok f) -> env_ok (envE fs) /\ ~ malloc_fails (envE fs).
Proof.
  intros H. split; [constructor|].
  - constructor; cbn; try lia; discriminate.
  - intros t. exact stE_raw.
  - intros t n b N E. injection E as <-. unfold zlen. rewrite repeat_length. lia.
  - exact H.
  - right. reflexivity.
  - intros (t & n & _ & E). discriminate.
Qed.
(** a file system with a file "f" and a checksum file "l" *)
Definition fsE (f l : file) (n : list Z) : option file := if eqb_list n (str "f") then Some f else if eqb_list n (str "l") then Some l else None.
Definition mE (sin : list Z) : mach := Mach (File [sin] false) [] 0.
(** for every content of a file, its printed line, put into a checksum file (read with or without an error at its end), is checked
    with the one outcome "match" *)
Lemma one_line a conv de err content : bytes_ok content -> zlen content < 2 ^ 64 -> exists line, 
  let e := envE (fsE (File [content] false) (File [line ++ [10]] err)) in
  displayLine conv de (str "f") (digest a content) a = OK (line ++ [10]) /\
  env_ok e /\ ~ malloc_fails e /\ lines_of (line ++ [10]) = [(line, true)] /\ e_fs e (str "l") = Some (File [line ++ [10]] err) /\
  Accepts 15 (is_le de) line a (digest a content) (str "f") /\
  Outcomes (e_fs e) 15 (is_le de) (File [[]] false) [(line, true)] [OMatch (str "f")].
Proof.
  intros B L. destruct (displayLine_ok conv de (str "f") (digest a content) a 15 (is_le de)) as (line & E & A & N0 & N10 & N13 & NC & LL & BN);
    [intros I; vm_compute in I; lia|apply digest_bytes|apply digest_len|destruct a; reflexivity|reflexivity|].
  exists line. cbv zeta. split; [exact E|].
  assert (BL : bytes_ok (line ++ [10])).
  { apply bytes_ok_app; [apply BN|]; repeat constructor; discriminate. }
  assert (EO : env_ok (envE (fsE (File [content] false) (File [line ++ [10]] err))) /\ ~ malloc_fails (envE (fsE (File [content] false) (File [line ++ [10]] err)))).
  { apply envE_ok. intros n f. unfold fsE. destruct (eqb_list n (str "f")); [intros Q; injection Q as <-|destruct (eqb_list n (str "l")); [intros Q; injection Q as <-|discriminate]].
    - unfold file_ok, f_content. cbn [f_chunks concat]. rewrite app_nil_r. auto.
    - unfold file_ok, f_content. cbn [f_chunks concat]. rewrite app_nil_r. split; [exact BL|]. rewrite zlen_app. change (zlen (str "f")) with 1 in LL. change (zlen [10]) with 1. lia. }
  destruct EO as [EO NM]. split; [exact EO|]. split; [exact NM|]. split; [rewrite lines_of_app by exact N10; reflexivity|]. split; [reflexivity|]. split; [exact A|].
  eapply oc_match; [|intros (r & Q); exact (NC r Q)|cbn [fst]; rewrite text_of_id by exact N0; exact A|reflexivity|reflexivity| |constructor].
  - unfold short_enough. cbn [fst snd]. change (zlen (str "f")) with 1 in LL. lia.
  - unfold f_content. cbn [f_chunks concat]. rewrite app_nil_r. reflexivity.
Qed.
Lemma one_verdict strict im n : Verdict strict im [OMatch n].
Proof.
  split; [intros [Q|[]]; discriminate|]. split; [intros [Q|[]]; discriminate|]. split; [exists (OMatch n); split; [left; reflexivity|exact I]|].
  split; [intros x [Q|[]]; discriminate|]. split; [intros _ x [Q|[]]; discriminate|]. split; [intros _ [Q|[]]; discriminate|]. intros _. exists n. left. reflexivity.
Qed.
(** C39: the hypotheses hold and the check succeeds, for any content of the file *)
Example C39_case : forall (a : algo) content, bytes_ok content -> zlen content < 2 ^ 64 -> exists l,
  let e := envE (fsE (File [content] false) l) in
  exists m', checkFile e (mE []) (Named (str "l")) big_endian true false false false false 15 = OK (Some 1, m') /\ m_out m' = str "f: OK" ++ [10].
Proof.
  intros a content B L. destruct (one_line a display_gnu big_endian false content B L) as (line & _ & EO & NM & EL & EF & _ & OC). exists (File [line ++ [10]] false). cbv zeta.
  set (e := envE _) in *.
  assert (EC : lines_of (f_content (File [line ++ [10]] false)) = [(line, true)]) by (unfold f_content; cbn [f_chunks concat]; rewrite app_nil_r; exact EL).
  rewrite <- EC in OC. destruct (C39_verdict e (mE []) (Named (str "l")) big_endian true false false false false 15 _ _ EO (file_ok_nil false) EF OC) as (r & m' & E & _ & H).
  { discriminate. } { rewrite EC. vm_compute. reflexivity. }
  specialize (H NM). destruct H as (H1 & _ & _ & H2). exists m'. rewrite (proj2 H1 (one_verdict _ _ _)) in E. split; [exact E|]. rewrite H2. reflexivity.
Qed.
(** a checksum file that could not be read to its end is checked successfully *)
Theorem C39_read_error_refuted : exists e m f m', env_ok e /\ e_fs e (str "l") = Some f /\ f_err f = true /\
  checkFile e m (Named (str "l")) big_endian true false false false false 15 = OK (Some 1, m').
Proof.
  destruct (one_line algo_xxh64 display_gnu big_endian true [] ltac:(constructor) ltac:(vm_compute; reflexivity)) as (line & _ & EO & NM & EL & EF & _ & OC).
  set (e := envE _) in *. exists e, (mE []), (File [line ++ [10]] true).
  assert (EC : lines_of (f_content (File [line ++ [10]] true)) = [(line, true)]) by (unfold f_content; cbn [f_chunks concat]; rewrite app_nil_r; exact EL).
  rewrite <- EC in OC. destruct (C39_verdict e (mE []) (Named (str "l")) big_endian true false false false false 15 _ _ EO (file_ok_nil false) EF OC) as (r & m' & E & _ & H).
  { discriminate. } { rewrite EC. vm_compute. reflexivity. }
  specialize (H NM). exists m'. rewrite (proj2 (proj1 H) (one_verdict _ _ _)) in E. auto.
Qed.
Print Assumptions C39_read_error_refuted.

(** ** C50 *)
(** [xxhsum files > list; xxhsum -c list]: the list is printed, and when it is checked later, with the same byte order or in --tag style,
    the check succeeds exactly if every file still has the hash it had. *)
Theorem C50_print_then_check : forall e m ns a de conv mask e' m' list lf de' strict st warn q,
  env_ok e -> file_ok (m_stdin m) -> ~ malloc_fails e -> m_out m = [] -> ns <> [] ->
  Forall nul_free ns -> Forall (fun n => n <> str "stdin" /\ 2 * zlen n + 65 < 32768) ns -> Forall (readable e) ns ->
  Z.testbit mask (algo_num a) = true ->
  env_ok e' -> file_ok (m_stdin m') -> (conv = display_gnu -> de' = de) -> e_fs e' list = Some lf -> zlen ns + 1 < 2 ^ e_ulbits e' ->
  exists m1, hashFiles e m ns a de conv = OK (Some 0, m1) /\
  (f_content lf = m_out m1 ->
   exists r m2, checkFile e' m' (Named list) de' strict st false warn q mask = OK (r, m2) /\
     (r = Some 1 -> Forall (same_digest a e e') ns) /\ (~ malloc_fails e' -> Forall (same_digest a e e') ns -> r = Some 1)).
Proof. exact roundtrip. Qed.
Print Assumptions C50_print_then_check.

(** ** C44 *)
(** A file called "stdin" is hashed, but the check reads the standard input instead: the check fails though nothing changed. *)
Theorem C44_file_named_stdin_refuted : exists e m m1 m2, env_ok e /\ ~ malloc_fails e /\ e_fs e (str "stdin") = Some (File [[65]] false) /\ m_out m = [] /\
  hashFiles e m [str "stdin"] algo_xxh64 big_endian display_gnu = OK (Some 0, m1) /\
  (exists l, e_fs e (str "l") = Some l /\ f_content l = m_out m1) /\
  checkFile e m (Named (str "l")) big_endian false false false false false 15 = OK (Some 0, m2).
Proof.
  destruct (displayLine_ok display_gnu big_endian (str "stdin") (digest algo_xxh64 [65]) algo_xxh64 15 false) as (line & E & A & N0 & N10 & N13 & NC & LL & BN);
    [intros I; vm_compute in I; lia|apply digest_bytes|apply digest_len|reflexivity|reflexivity|].
  set (fs := fun n => if eqb_list n (str "stdin") then Some (File [[65]] false) else if eqb_list n (str "l") then Some (File [line ++ [10]] false) else None).
  assert (LF' : f_content (File [line ++ [10]] false) = line ++ [10]) by (unfold f_content; cbn [f_chunks concat]; apply app_nil_r).
  destruct (envE_ok fs) as [EO NM].
  { intros n f. unfold fs. destruct (eqb_list n (str "stdin")); [intros Q; injection Q as <-; split; [repeat constructor; discriminate|vm_compute; reflexivity]|].
    destruct (eqb_list n (str "l")); [|discriminate]. intros Q. injection Q as <-. unfold file_ok. rewrite LF'. split; [apply bytes_ok_app; [apply BN|]; repeat constructor; discriminate|].
    rewrite zlen_app. change (zlen (str "stdin")) with 5 in LL. change (zlen [10]) with 1. lia. }
  set (e := envE fs) in *. exists e, (mE []).
  destruct (hashFile_ok e (mE []) (Named (str "stdin")) algo_xxh64 big_endian display_gnu 15 EO (file_ok_nil false)) as (r & m1 & EH & _ & _ & H);
    [intros I; vm_compute in I; lia|reflexivity|exact NM|].
  change (input e (mE []) (Named (str "stdin"))) with (Some (File [[65]] false)) in H. cbv beta iota in H. cbn [f_err] in H. destruct H as (-> & line' & OM & E' & _).
  change (f_content (File [[65]] false)) with [65] in E'. cbn [listname] in E'. rewrite E in E'. injection E' as E'. apply app_inj_tail in E' as [<- _].
  assert (OC : Outcomes (e_fs e) 15 false (File [[]] false) (lines_of (f_content (File [line ++ [10]] false))) [OMismatch (str "stdin")]).
  { rewrite LF', lines_of_app by exact N10. eapply oc_mismatch; [|intros (r & Q); exact (NC r Q)|cbn [fst]; rewrite text_of_id by exact N0; exact A|reflexivity|reflexivity| |constructor].
    - unfold short_enough. cbn [fst snd]. change (zlen (str "stdin")) with 5 in LL. lia.
    - vm_compute. discriminate. }
  destruct (C39_verdict e (mE []) (Named (str "l")) big_endian false false false false false 15 (File [line ++ [10]] false) _ EO (file_ok_nil false) eq_refl OC) as (r & m2 & EC & _ & H2).
  { discriminate. } { rewrite LF', lines_of_app by exact N10. vm_compute. reflexivity. }
  specialize (H2 NM). destruct H2 as (V & AB & RR & _).
  assert (r = Some 0) as ->.
  { destruct RR as [->|[->| ->]]; [|reflexivity|].
    - destruct AB as [AB _]. specialize (AB eq_refl). discriminate.
    - destruct V as [V _]. destruct (V eq_refl) as (_ & _ & _ & V' & _). exfalso. apply (V' (str "stdin")). left. reflexivity. }
  exists m1, m2. split; [exact EO|]. split; [exact NM|]. split; [reflexivity|]. split; [reflexivity|]. split.
  { unfold hashFiles. cbn [hashFiles_loop]. rewrite EH. reflexivity. }
  split; [|exact EC]. exists (File [line ++ [10]] false). split; [reflexivity|]. rewrite LF', OM. reflexivity.
Qed.
Print Assumptions C44_file_named_stdin_refuted.
(** For every other name the check reads the file that was hashed: its outcome is decided by the file the name stands for. *)
Theorem C44_same_file : forall e m n a de conv mask e' le sin line, env_ok e -> file_ok (m_stdin m) -> ~ malloc_fails e -> m_out m = [] ->
  nul_free n -> n <> str "stdin" -> 2 * zlen n + 65 < 32768 -> Z.testbit mask (algo_num a) = true -> readable e n -> (conv = display_gnu -> le = is_le de) ->
  forall m1, hashFile e m (Named n) a de conv = OK (Some 0, m1) -> m_out m1 = line ++ [10] ->
  forall os, Outcomes (e_fs e') mask le sin [(line, true)] os ->
    match e_fs e' n with
    | None => os = [OMissing n]
    | Some f' => if f_err f' then os = [OReadError]
                 else exists f, e_fs e n = Some f /\ (os = [OMatch n] /\ digest a (f_content f') = digest a (f_content f) \/
                                                      os = [OMismatch n] /\ digest a (f_content f') <> digest a (f_content f))
    end.
Proof.
  intros e m n a de conv mask e' le sin line EO FS NM OM NN NS LN T RD HC m1 EH OM1 os OC.
  destruct (hashFile_ok e m (Named n) a de conv mask EO FS NN T NM) as (r & m1' & EH' & _ & _ & H). rewrite EH in EH'. injection EH' as <- <-.
  destruct RD as (f & D & F & ER). cbn [input] in H. rewrite D, F, ER in H. destruct H as (_ & line' & OM' & _ & AC & N0 & N10 & N13 & NC & LL). cbn [listname] in *.
  rewrite OM in OM'. cbn [app] in OM'. rewrite OM1 in OM'. apply app_inj_tail in OM' as [<- _]. specialize (AC le HC).
  assert (TX : text_of line = line) by (apply text_of_id; exact N0).
  apply oc_inv in OC as (o & os' & -> & [(N1 & _)|[(_ & C1 & _)|[(_ & _ & N1 & _)|(_ & _ & al' & cn' & nm' & A' & OC)]]]).
  { exfalso. apply N1. unfold short_enough. cbn [fst snd]. lia. } { contradiction. } { cbn [fst] in N1. rewrite TX in N1. exfalso. exact (N1 _ _ _ AC). }
  cbn [fst] in A'. rewrite TX in A'. destruct (Accepts_det _ _ _ _ _ _ _ _ _ AC A') as (Qa & Qc & Qn). subst al' nm'.
  unfold source in OC. rewrite (eqb_list_neq _ _ NS) in OC. destruct (e_fs e' n) as [f'|].
  - destruct OC as [OC OC']. assert (os' = []) as -> by (inversion OC'; reflexivity). destruct OC as [[E1 ->]|[E1 [[D1 ->]|[D1 ->]]]]; rewrite E1; [reflexivity| |]; exists f; (split; [exact F|]); [left|right]; split; trivial; congruence.
  - destruct OC as [-> OC']. inversion OC'. reflexivity.
Qed.
Print Assumptions C44_same_file.

(** ** C51 *)
(** --status prints nothing... *)
Theorem C51_status_is_silent : forall e m n de strict warn q mask f os,
  env_ok e -> file_ok (m_stdin m) -> listed e m n = Some f -> ~ malloc_fails e ->
  Outcomes (e_fs e) mask (is_le de) (m_stdin m) (lines_of (f_content f)) os ->
  (n = Stdin -> ~ names_stdin mask (is_le de) (lines_of (f_content f))) ->
  zlen (lines_of (f_content f)) + 1 < 2 ^ e_ulbits e ->
  exists r m', checkFile e m n de strict true false warn q mask = OK (r, m') /\ m_out m' = m_out m.
Proof.
  intros e m n de strict warn q mask f os EO FS LF' NM OC NS UL.
  destruct (checkFile_verdict e m n de strict true false warn q mask f os EO FS LF' OC NS UL) as (r & m' & E & _ & H). exists r, m'. split; [exact E|].
  destruct (H NM) as (_ & _ & _ & ->).
  assert (S : forall os k, says (listname n) (e_strerror e) true false q k os = []).
  { induction os0 as [|o os0 IH]; intros k; [reflexivity|]. cbn [says]. rewrite IH, app_nil_r. destruct o; try reflexivity. cbn [say]. rewrite orb_true_r. reflexivity. }
  rewrite S. unfold closing. rewrite orb_true_r. cbn [andb app]. destruct (aborts os); apply app_nil_r.
Qed.
Print Assumptions C51_status_is_silent.
(** ... except with --ignore-missing *)
Theorem C51_status_prints_refuted : exists e m f m', env_ok e /\ file_ok (m_stdin m) /\ ~ malloc_fails e /\ e_fs e (str "l") = Some f /\ m_out m = [] /\
  checkFile e m (Named (str "l")) big_endian false true true false false 15 = OK (Some 0, m') /\ m_out m' = str "l: no file was verified" ++ [10].
Proof.
  set (fs := fsE (File [] false) (File [] false)).
  destruct (envE_ok fs) as [EO NM].
  { intros n f. unfold fs, fsE. destruct (eqb_list n (str "f")); [|destruct (eqb_list n (str "l")); [|discriminate]]; intros Q; injection Q as <-; apply file_ok_nil. }
  set (e := envE fs) in *. exists e, (mE []), (File [] false).
  destruct (C39_verdict e (mE []) (Named (str "l")) big_endian false true true false false 15 (File [] false) [] EO (file_ok_nil false) eq_refl (oc_nil _ _ _ _)) as (r & m' & E & _ & H).
  { discriminate. } { vm_compute. reflexivity. }
  destruct (H NM) as (V & AB & RR & OM). exists m'. split; [exact EO|]. split; [exact (file_ok_nil false)|]. split; [exact NM|]. split; [reflexivity|]. split; [reflexivity|]. split; [|exact OM].
  rewrite E. do 2 f_equal. destruct RR as [->|[->| ->]]; [|reflexivity|].
  - destruct AB as [AB _]. specialize (AB eq_refl). discriminate.
  - destruct V as [V _]. destruct (V eq_refl) as (_ & _ & (o & [] & _) & _).
Qed.
Print Assumptions C51_status_prints_refuted.

(** ** C53 *)
(** The exit status of hashing named files: 0 if all were read, 1 if some could not be opened; a read error ends the program with 1.
    A line is printed for each file that could be opened, in order. *)
Theorem C53_hash_exit_status : forall e m ns a de conv, env_ok e -> file_ok (m_stdin m) -> ~ malloc_fails e -> ns <> [] -> Forall nul_free ns ->
  exists r m', hashFiles e m ns a de conv = OK (r, m') /\
    exists lines printed, m_out m' = m_out m ++ concat (map (fun l => l ++ [10]) lines) /\ Forall2 (Printed e a de conv 15) printed lines /\
    match r with
    | None => exists pre n post, ns = pre ++ n :: post /\ Forall (fun x => readable e x \/ unopenable e x) pre /\ ~ readable e n /\ ~ unopenable e n /\
        printed = filter (fun n => negb (e_dir e n) && match e_fs e n with Some _ => true | None => false end) pre
    | Some r => (r = 0 \/ r = 1) /\ (r = 0 <-> Forall (readable e) ns) /\
        printed = filter (fun n => negb (e_dir e n) && match e_fs e n with Some _ => true | None => false end) ns
    end.
Proof.
  intros e m ns a de conv EO FS NM NE NN. destruct (hashFiles_loop_ok e a de conv 15 EO NM ltac:(destruct a; reflexivity) ns m 0 FS NN (or_introl eq_refl)) as (r & m' & E & lines & printed & O & P & D).
  exists r, m'. split; [unfold hashFiles; destruct ns; [congruence|exact E]|]. exists lines, printed. split; [exact O|]. split; [exact P|].
  destruct r as [r|]; [|exact D]. destruct D as (D1 & D2 & D3). split; [exact D1|]. split; [rewrite D3; tauto|exact D2].
Qed.
Print Assumptions C53_hash_exit_status.
(** the hypotheses of the theorems above hold of a real directory, and the round trip is not vacuous *)
Example C50_case : forall content, bytes_ok content -> zlen content < 2 ^ 64 -> exists l,
  let e := envE (fsE (File [content] false) (File [] false)) in let e' := envE (fsE (File [content] false) (File [l] false)) in
  exists m1 m2, hashFiles e (mE []) [str "f"] algo_xxh3 little_endian display_bsd = OK (Some 0, m1) /\ m_out m1 = l /\
    checkFile e' (mE []) (Named (str "l")) big_endian true true false true true 15 = OK (Some 1, m2).
Proof.
  intros content B L. destruct (one_line algo_xxh3 display_bsd little_endian false content B L) as (line & ED & EO' & NM' & EL & EF & _ & _). exists (line ++ [10]). cbv zeta.
  set (e := envE (fsE (File [content] false) (File [] false))). set (e' := envE _) in *.
  assert (FO : forall n f, fsE (File [content] false) (File [] false) n = Some f -> file_ok f).
  { intros n f. unfold fsE. destruct (eqb_list n (str "f")); [intros Q; injection Q as <-|destruct (eqb_list n (str "l")); [intros Q; injection Q as <-; apply file_ok_nil|discriminate]].
    unfold file_ok, f_content. cbn [f_chunks concat]. rewrite app_nil_r. auto. }
  destruct (envE_ok _ FO) as [EO NM]. fold e in EO, NM.
  assert (RD : Forall (readable e) [str "f"]) by (constructor; [exists (File [content] false); repeat split|constructor]).
  destruct (C50_print_then_check e (mE []) [str "f"] algo_xxh3 little_endian display_bsd 15 e' (mE []) (str "l") (File [line ++ [10]] false) big_endian true true true true
    EO (file_ok_nil false) NM eq_refl ltac:(discriminate)) as (m1 & EH & H).
  { constructor; [intros I; vm_compute in I; lia|constructor]. } { constructor; [split; [discriminate|vm_compute; reflexivity]|constructor]. } { exact RD. } { reflexivity. }
  { exact EO'. } { exact (file_ok_nil false). } { discriminate. } { exact EF. } { vm_compute. reflexivity. }
  assert (O : m_out m1 = line ++ [10]).
  { destruct (hashFile_ok e (mE []) (Named (str "f")) algo_xxh3 little_endian display_bsd 15 EO (file_ok_nil false)) as (r & m1' & EH' & _ & _ & H');
      [intros I; vm_compute in I; lia|reflexivity|exact NM|].
    change (input e (mE []) (Named (str "f"))) with (Some (File [content] false)) in H'. cbv beta iota in H'. cbn [f_err] in H'. destruct H' as (-> & line' & OM & E' & _).
    assert (FC : f_content (File [content] false) = content) by (unfold f_content; cbn [f_chunks concat]; apply app_nil_r). rewrite FC in E'. cbn [listname] in E'.
    rewrite ED in E'. injection E' as E'. unfold hashFiles in EH. cbn [hashFiles_loop] in EH. rewrite EH' in EH. cbn [bind] in EH. injection EH as <-. rewrite OM. cbn [mE m_out app]. congruence. }
  destruct H as (r & m2 & EC & _ & H2); [rewrite O; unfold f_content; cbn [f_chunks concat]; apply app_nil_r|].
  exists m1, m2. split; [exact EH|]. split; [exact O|]. rewrite (H2 NM') in EC; [exact EC|].
  constructor; [|constructor]. exists (File [content] false), (File [content] false). auto.
Qed.
