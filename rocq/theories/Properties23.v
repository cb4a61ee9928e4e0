(** C90-C92: xxhsum on Windows, where the program works on UTF-8 and the system on UTF-16 (cli/xsum_os_specific.c:66-430). *)
From Coq Require Import String.
From Verif Require Import Base Mem Vectors SpecUni M_Cli M_Cli2 M_Cli3 M_Win P_Win P_Uni Properties8.
Import Uni Win.

(** What is assumed of the system: its two conversions are right on well-formed text and make no NUL out of anything else. *)
Definition converts (o : os) : Prop :=
  (forall t, text t -> to_wide o (utf8 t) = Some (utf16 t)) /\
  (forall t, text t -> to_narrow o (utf16 t) = Some (utf8 t)) /\
  (forall s w, to_wide o s = Some w \/ to_narrow o s = Some w -> ~ In 0 s -> ~ In 0 w).
(** every malloc succeeds, and a conversion that succeeded once succeeds again *)
Definition no_failure (a : alloc) : Prop := forall k n, a_ok a k n = true /\ a_again a k = true.
Definition sized (a : alloc) : Prop := forall k n, 0 <= n -> zlen (a_junk a k n) = n.
(** a string whose encodings fit the int the system counts in *)
Definition short (t : list Z) : Prop := zlen (utf8 t) + 1 < 2 ^ 31 /\ zlen (utf16 t) + 1 < 2 ^ 31.

(** C90, the arguments: whatever well-formed UTF-16 the system passes to wmain, XSUM_main runs on its UTF-8, with the files
    below; its result is the result, and nothing stays allocated. *)
Theorem C90_arguments : forall c a o e console m h T r, cfg_ok c -> sized a -> no_failure a -> converts o ->
  Forall text T -> Forall short T -> zlen T < 2 ^ 28 ->
  XSUM_main (env_on o e) console m (map utf8 T) = OK r ->
  exists h', wmain c a o e console m h (map utf16 T) = OK (Some r, h') /\ h_blocks h' = h_blocks h.
Proof.
  intros c a o e console m h T r C A G (W & N & CL) FT FS L X.
  assert (NN : Forall (fun s => ~ In 0 s) (map utf16 T)) by (apply Forall_map; eapply Forall_impl; [|exact FT]; intros t; apply utf16_no_nul).
  assert (LL : zlen (map utf16 T) < 2 ^ 28) by (unfold zlen in *; rewrite map_length; exact L).
  destruct (wmain_ok c C a A o e console m h (map utf16 T) CL NN LL) as [(h' & _ & _ & B)|(argv & F & K)].
  - exfalso. specialize (B G). apply Exists_exists in B. destruct B as (s & I & B). apply in_map_iff in I. destruct I as (t & <- & I).
    rewrite Forall_forall in FT, FS. specialize (B _ (N t (FT t I))). destruct (FS t I). lia.
  - apply K. replace argv with (map utf8 T); [exact X|]. clear - F N FT. revert argv F. induction FT as [|t T Ht FT IH]; intros argv F; inversion F; subst; [reflexivity|].
    cbn [map]. f_equal; [|apply IH; assumption]. rewrite (N t Ht) in *. congruence.
Qed.
Print Assumptions C90_arguments.

(** C90, the files: a name in UTF-8 opens, or is looked up as, the file with that name in UTF-16; that is also how XSUM_main above
    meets its files. *)
Theorem C90_files : forall c a o e h t, cfg_ok c -> sized a -> no_failure a -> converts o -> text t -> short t ->
  (exists h', XSUM_fopen c a o h (utf8 t) (str "rb") = OK (wfopen o (utf16 t) (str "rb"), h') /\ h_blocks h' = h_blocks h) /\
  (exists d h', XSUM_isDirectory c a o h (utf8 t) = OK (d, h') /\ h_blocks h' = h_blocks h /\ (d = true <-> wstat o (utf16 t) = Some true)) /\
  e_fs (env_on o e) (utf8 t) = wfopen o (utf16 t) (str "rb") /\
  (e_dir (env_on o e) (utf8 t) = true <-> wstat o (utf16 t) = Some true).
Proof.
  intros c a o e h t C A G (W & N & CL) T (S8 & S16).
  assert (AR : Forall (fun x => 0 < x < 128) (str "rb")) by (cbn; repeat constructor; lia).
  destruct (ascii_same _ AR) as (E8 & E16 & TR). assert (WR : to_wide o (str "rb") = Some (str "rb")) by (pose proof (W _ TR) as WR; rewrite E8, E16 in WR; exact WR).
  assert (NR : ~ In 0 (str "rb")) by (cbn; lia).
  split; [|split; [|split]].
  - destruct (fopen_ok c C a A o h (utf8 t) (str "rb") CL (utf8_no_nul t T) NR) as (r & h' & E & B & _ & K). exists h'. split; [|exact B].
    rewrite (K G _ _ (W t T) WR S16) in E by (cbn; lia). exact E.
  - destruct (isDirectory_ok c C a A o h (utf8 t) CL (utf8_no_nul t T)) as (r & h' & E & B & _ & K). exists r, h'. split; [exact E|]. split; [exact B|]. exact (K G _ (W t T) S16).
  - cbn [env_on e_fs]. rewrite (W t T), WR. reflexivity.
  - cbn [env_on e_dir]. rewrite (W t T). destruct (wstat o (utf16 t)) as [[]|]; split; congruence.
Qed.
Print Assumptions C90_files.

(** C90 stops at well-formed names.  NTFS allows a name with half of a surrogate pair; whatever valid UTF-8 the system makes of it,
    the way back never gives that name: the file cannot be reached by its name. *)
Theorem C90_lone_surrogate : forall o s, converts o ->
  (forall b, to_narrow o s = Some b -> exists t, text t /\ b = utf8 t) ->
  lone s -> forall b, to_narrow o s = Some b -> to_wide o b <> Some s.
Proof.
  intros o s (W & _) V L b B Q. destruct (V b B) as (t & T & ->). rewrite (W t T) in Q. injection Q as Q. apply (text_not_lone t T). rewrite Q. exact L.
Qed.
Print Assumptions C90_lone_surrogate.

(** A system as assumed: malformed input becomes U+FFFD. *)
Definition sys (files : list Z -> option file) : os :=
  Os (fun s => Some (utf16 (dec8 s))) (fun s => Some (utf8 (dec16 s))) (fun n _ => files n) (fun _ => Some false) (fun w => Some (zlen w)) zlen.
Lemma sys_converts files : converts (sys files).
Proof.
  split; [|split].
  - intros t T. cbn [to_wide sys]. rewrite dec8_utf8 by exact T. reflexivity.
  - intros t T. cbn [to_narrow sys]. rewrite dec16_utf16 by exact T. reflexivity.
  - intros s w [E|E] N; cbn [to_wide to_narrow sys] in E; injection E as <-; [apply dec8_no_nul|apply dec16_no_nul]; exact N.
Qed.
Definition plenty : alloc := Alloc (fun _ _ => true) (fun _ n => repeat 170 (Z.to_nat n)) (fun _ => true).
Lemma plenty_ok : sized plenty /\ no_failure plenty.
Proof. split; [|intros k n; split; reflexivity]. intros k n N. cbn [plenty a_junk]. unfold zlen. rewrite repeat_length. lia. Qed.
(** A case: the program and a file named by an emoji, a two-byte letter and ".txt".  It is looked for under its own name, here in vain. *)
Lemma c0_ok : cfg_ok c0.
Proof. constructor; cbn; auto; lia. Qed.
Definition name0 : list Z := [0x1F600; 0xE9] ++ str ".txt".
Definition only (n : list Z) (f : file) : list Z -> option file := fun x => if eqb_list x n then Some f else None.
Definition no_file : env := envE (fun _ => None).
Example C90_case :
  utf8 name0 = [0xF0; 0x9F; 0x98; 0x80; 0xC3; 0xA9] ++ str ".txt" /\ utf16 name0 = [0xD83D; 0xDE00; 0xE9] ++ str ".txt" /\
  text name0 /\ short name0 /\ text (str "xxhsum") /\ short (str "xxhsum") /\
  (forall f, e_fs (env_on (sys (only (utf16 name0) f)) no_file) (utf8 name0) = Some f) /\
  exists h', wmain c0 plenty (sys (fun _ => None)) no_file false (mE []) (Heap [] 0) [utf16 (str "xxhsum"); utf16 name0] = OK (Some (Exits 1 (mE [])), h') /\ h_blocks h' = [].
Proof.
  assert (T : text name0) by (unfold text, name0, scalar; cbn; repeat constructor; lia). assert (T2 : text (str "xxhsum")) by (unfold text, scalar; cbn; repeat constructor; lia).
  assert (S1 : short name0) by (unfold short; vm_compute; split; reflexivity). assert (S2 : short (str "xxhsum")) by (unfold short; vm_compute; split; reflexivity).
  destruct plenty_ok as (P1 & P2).
  split; [reflexivity|]. split; [reflexivity|]. split; [exact T|]. split; [exact S1|]. split; [exact T2|]. split; [exact S2|]. split.
  - intros f. destruct (C90_files c0 plenty (sys (only (utf16 name0) f)) no_file (Heap [] 0) name0 c0_ok P1 P2 (sys_converts _) T S1) as (_ & _ & E & _).
    rewrite E. reflexivity.
  - apply (C90_arguments c0 plenty (sys (fun _ => None)) no_file false (mE []) (Heap [] 0) [str "xxhsum"; name0] _ c0_ok P1 P2 (sys_converts _)); [auto|auto|reflexivity|].
    reflexivity.
Qed.
(** The failing case: there is one file, its name is half a surrogate pair; named on the command line, it is not found. *)
Theorem C90_lone_refuted : exists s f h', lone s /\ f_content f = [97] /\
  wfopen (sys (only s f)) s (str "rb") = Some f /\
  wmain c0 plenty (sys (only s f)) no_file false (mE []) (Heap [] 0) [str "xxhsum"; s] = OK (Some (Exits 1 (mE [])), h').
Proof.
  exists [0xD800], (File [[97]] false). eexists. split; [exists [], 0xD800, []; split; [reflexivity|]; left; split; [unfold high; lia|discriminate]|].
  split; [reflexivity|]. split; [reflexivity|]. vm_compute. reflexivity.
Qed.
Print Assumptions C90_lone_refuted.

(** C91: whichever calls of malloc fail and whatever the system's conversions do, every function gives back what it took and
    nothing else, never frees twice and never reads outside a block.  The results are then NULL or as if nothing had failed. *)
Theorem C91_files : forall c a o h name mode, cfg_ok c -> sized a -> converts o -> ~ In 0 name -> ~ In 0 mode ->
  (exists r h', XSUM_fopen c a o h name mode = OK (r, h') /\ h_blocks h' = h_blocks h /\
     (r = None \/ exists w m, to_wide o name = Some w /\ to_wide o mode = Some m /\ r = wfopen o w m)) /\
  (exists d h', XSUM_isDirectory c a o h name = OK (d, h') /\ h_blocks h' = h_blocks h /\
     (d = true -> exists w, to_wide o name = Some w /\ wstat o w = Some true)).
Proof.
  intros c a o h name mode C A (_ & _ & CL) N M. split.
  - destruct (fopen_ok c C a A o h name mode CL N M) as (r & h' & E & B & K & _). exists r, h'. auto.
  - destruct (isDirectory_ok c C a A o h name CL N) as (r & h' & E & B & K & _). exists r, h'. auto.
Qed.
Print Assumptions C91_files.

Theorem C91_arguments : forall c a o h args, cfg_ok c -> sized a -> zlen args < 2 ^ 28 ->
  exists p h', convertArgv c a o h args = OK (p, h') /\
    (p = 0 -> h_blocks h' = h_blocks h) /\
    (p <> 0 -> exists strings ps h'',
       (* one block for the array, one for each string, above what was there *)
       h_blocks h' = rev strings ++ (p, ps) :: h_blocks h /\ NoDup (p :: map fst strings) /\
       ps = map fst strings ++ [0] /\
       Forall2 (fun s x => exists w, to_narrow o s = Some w /\ snd x = w ++ [0]) args strings /\
       freeArgv (zlen args) h' p = OK h'' /\ h_blocks h'' = h_blocks h).
Proof.
  intros c a o h args C A L. destruct (convertArgv_ok c C a A o h args L) as (p & h' & E & H1 & H2). exists p, h'. split; [exact E|]. split; [intros Q; exact (proj1 (H1 Q))|].
  intros Q. destruct (H2 Q) as (S & b & h2 & [B P AF ND LB ID] & F & Z0 & FA & B2). exists S, b, h2. pose proof (Forall2_length _ _ _ F) as LS.
  split; [exact B|]. split; [|split; [|split; [|split; [exact FA|exact B2]]]].
  - constructor; [|exact ND]. intros I. apply in_map_iff in I. destruct I as (x & X & I). rewrite Forall_forall in AF. specialize (AF x I). lia.
  - unfold ids in ID. rewrite <- ID, <- LS. rewrite <- (firstn_skipn (List.length args) b) at 1. f_equal.
    assert (K : List.length b = Datatypes.S (List.length args)) by (unfold zlen in LB; lia).
    assert (K2 : List.length (skipn (List.length args) b) = 1%nat) by (rewrite skipn_length; lia).
    rewrite <- (firstn_skipn (List.length args) b), app_nth2 in Z0 by (rewrite firstn_length; lia). rewrite firstn_length, Nat.min_l, Nat.sub_diag in Z0 by lia.
    destruct (skipn (List.length args) b) as [|z [|? ?]]; cbn [List.length] in K2; try lia. cbn [nth] in Z0. subst z. reflexivity.
  - clear - F. induction F as [|s x l S (w & W1 & _ & W2) F IH]; constructor; [exists w; auto|exact IH].
Qed.
Print Assumptions C91_arguments.

Theorem C91_program : forall c a o e console m h args, cfg_ok c -> sized a -> converts o -> Forall (fun s => ~ In 0 s) args -> zlen args < 2 ^ 28 ->
  (exists h', wmain c a o e console m h args = OK (None, h') /\ h_blocks h' = h_blocks h) \/
  exists argv, Forall2 (fun s w => to_narrow o s = Some w) args argv /\
    forall r, XSUM_main (env_on o e) console m argv = OK r -> exists h', wmain c a o e console m h args = OK (Some r, h') /\ h_blocks h' = h_blocks h.
Proof.
  intros c a o e console m h args C A (_ & _ & CL) N L. destruct (wmain_ok c C a A o e console m h args CL N L) as [(h' & E & B & _)|(argv & F & K)]; [left; exists h'; auto|right; exists argv; auto].
Qed.
Print Assumptions C91_program.

(** A case: three arguments, the malloc for the third one fails.  The two converted before and the array are given back. *)
Definition third_fails : alloc := Alloc (fun k _ => negb (Nat.eqb k 3)) (fun _ n => repeat 170 (Z.to_nat n)) (fun _ => true).
Example C91_case : sized third_fails /\ converts (sys (fun _ => None)) /\
  convertArgv c0 third_fails (sys (fun _ => None)) (Heap [] 0) [str "x"; utf16 name0; str "y"] = OK (0, Heap [] 4) /\
  (exists h', convertArgv c0 third_fails (sys (fun _ => None)) (Heap [] 0) [str "x"; utf16 name0] = OK (1, h') /\ h_blocks h' = [(3, utf8 name0 ++ [0]); (2, str "x" ++ [0]); (1, [2; 3; 0])] /\
     freeArgv 2 h' 1 = OK (Heap [] 3)).
Proof.
  split; [intros k n N; cbn [third_fails a_junk]; unfold zlen; rewrite repeat_length; lia|]. split; [apply sys_converts|]. split; [vm_compute; reflexivity|].
  eexists. split; [vm_compute; reflexivity|]. split; reflexivity.
Qed.

(** ** C92: what the messages of the program become *)
(** where a text goes: to a console as UTF-16 units, elsewhere as bytes; the system may take only the first part of it *)
Definition written (o : os) (s : stream) (t : list Z) (r : Z) (s' : stream) : Prop :=
  match s_handle s, s_console s with
  | true, true => exists n, writeConsole o (utf16 t) = Some n /\ r = n /\ s_bytes s' = s_bytes s /\ s_units s' = s_units s ++ firstn (Z.to_nat n) (utf16 t)
  | true, false => r = fwrite o (utf8 t) /\ 0 < r /\ s_bytes s' = s_bytes s ++ firstn (Z.to_nat r) (utf8 t) /\ s_units s' = s_units s
  | false, _ => False
  end.
(** Where a va_list is a pointer passed by value, as with the compilers for Windows: a formatted text is written, in the encoding
    of where it goes, or the result is -1; whichever calls fail, nothing stays allocated and nothing is freed twice. *)
Theorem C92_output : forall c a o fmt h s l t, cfg_ok c -> sized a -> converts o ->
  fmt l = Some (utf8 t) -> text t -> short t -> 0 <= fwrite o (utf8 t) ->
  exists r s' h', vfprintf c a o true fmt h s (Args l) = OK (r, s', h') /\ h_blocks h' = h_blocks h /\
    s_handle s' = s_handle s /\ s_console s' = s_console s /\
    (written o s t r s' \/ r = -1 /\ s_bytes s' = s_bytes s /\ s_units s' = s_units s) /\
    (no_failure a -> s_handle s = true ->
     (s_console s = true -> exists n, writeConsole o (utf16 t) = Some n) -> (s_console s = false -> fwrite o (utf8 t) <> 0) -> written o s t r s').
Proof.
  intros c a o fmt h s l t C A (W & N & CL) F T (S8 & S16) W0. destruct (vfprintf_ok c C a A o fmt h s l CL) as (r & s' & h' & E & B & _ & K).
  destruct (K _ F ltac:(lia) (utf8_no_nul t T)) as (K1 & K2). exists r, s', h'. split; [exact E|]. split; [exact B|].
  assert (P : printed o s (utf8 t) r s' -> s_handle s' = s_handle s /\ s_console s' = s_console s /\
    (written o s t r s' \/ r = -1 /\ s_bytes s' = s_bytes s /\ s_units s' = s_units s) /\
    (s_handle s = true -> (s_console s = true -> exists n, writeConsole o (utf16 t) = Some n) -> (s_console s = false -> fwrite o (utf8 t) <> 0) -> written o s t r s')).
  { unfold printed, written. destruct s as [hd cn by_ un]. cbn [s_handle s_console s_bytes s_units]. destruct hd.
    - destruct cn.
      + intros [(w & W1 & W2 & W3)|(-> & -> & W3)].
        * rewrite (W t T) in W1. injection W1 as <-. destruct (writeConsole o (utf16 t)) as [n|]; destruct W3 as (-> & ->); cbn [s_handle s_console s_bytes s_units]; (split; [reflexivity|]; split; [reflexivity|]).
          -- split; [left|intros _ _ _]; exists n; auto.
          -- split; [right; auto|]. intros _ X _. destruct (X eq_refl). discriminate.
        * specialize (W3 _ (W t T)). lia.
      + intros (-> & ->). cbn [s_handle s_console s_bytes s_units]. split; [reflexivity|]. split; [reflexivity|]. destruct (Z.eqb_spec (fwrite o (utf8 t)) 0) as [Q|Q].
        * rewrite Q. cbn [Z.to_nat firstn]. rewrite app_nil_r. split; [right; auto|]. intros _ _ X. contradiction (X eq_refl eq_refl).
        * split; [left|intros _ _ _]; (split; [reflexivity|]; split; [lia|]; split; reflexivity).
    - intros (-> & ->). split; [reflexivity|]. split; [reflexivity|]. split; [right; auto|discriminate]. }
  destruct K1 as [(-> & ->)|K1].
  - split; [reflexivity|]. split; [reflexivity|]. split; [right; auto|]. intros G. exact (proj2 (proj2 (proj2 (P (K2 G))))).
  - destruct (P K1) as (P1 & P2 & P3 & P4). split; [exact P1|]. split; [exact P2|]. split; [exact P3|]. intros _. exact P4.
Qed.
Print Assumptions C92_output.

(** The function takes a copy of its va_list "to be safe" and then walks the original twice.  Where a va_list is an array, as the C
    standard allows and as on x86-64 outside Windows, that is undefined whenever a text is printed. *)
Theorem C92_va_list : forall c a o fmt h s l t, cfg_ok c -> no_failure a -> fmt l = Some t -> zlen t < 2 ^ 31 ->
  vfprintf c a o false fmt h s (Args l) = UB.
Proof. intros c a o fmt h s l t C G F L. exact (vfprintf_by_reference c a o fmt h s l t F L G). Qed.
Print Assumptions C92_va_list.
(** The empty text is an error when it goes to a file: fwrite writes all of its nothing, and the result is -1. *)
Theorem C92_empty : forall c a o fmt h s l, cfg_ok c -> sized a -> no_failure a -> converts o -> fmt l = Some [] -> fwrite o [] = 0 ->
  s_handle s = true -> s_console s = false ->
  exists h', vfprintf c a o true fmt h s (Args l) = OK (-1, s, h') /\ h_blocks h' = h_blocks h.
Proof.
  intros c a o fmt h s l C A G (W & N & CL) F W0 H1 H2. destruct (vfprintf_ok c C a A o fmt h s l CL) as (r & s' & h' & E & B & _ & K).
  destruct (K _ F ltac:(cbn; lia) ltac:(cbn; tauto)) as (_ & K2). specialize (K2 G). unfold printed in K2. rewrite H1, H2, W0 in K2. cbn [Z.eqb Z.to_nat firstn] in K2.
  destruct K2 as (-> & ->). exists h'. split; [|exact B]. rewrite E. destruct s. cbn [s_handle s_console s_bytes s_units] in *. subst. rewrite app_nil_r. reflexivity.
Qed.
Print Assumptions C92_empty.

(** Cases: the name above goes to a console and to a file, and to a console whose second malloc fails. *)
Definition printf_s (l : list Z) : option (list Z) := Some l.
Definition second_fails : alloc := Alloc (fun k _ => negb (Nat.eqb k 1)) (fun _ n => repeat 170 (Z.to_nat n)) (fun _ => true).
Example C92_case : sized second_fails /\
  vfprintf c0 plenty (sys (fun _ => None)) true printf_s (Heap [] 0) (Stream true true [] [7]) (Args (utf8 name0)) = OK (7, Stream true true [] (7 :: utf16 name0), Heap [] 2) /\
  vfprintf c0 plenty (sys (fun _ => None)) true printf_s (Heap [] 0) (Stream true false [7] []) (Args (utf8 name0)) = OK (10, Stream true false (7 :: utf8 name0) [], Heap [] 1) /\
  vfprintf c0 second_fails (sys (fun _ => None)) true printf_s (Heap [] 0) (Stream true true [] [7]) (Args (utf8 name0)) = OK (-1, Stream true true [] [7], Heap [] 2).
Proof.
  split; [intros k n N; cbn [second_fails a_junk]; unfold zlen; rewrite repeat_length; lia|]. repeat split; vm_compute; reflexivity.
Qed.
(** so neither "printing is defined for every va_list the standard allows" nor "the result is -1 only when something failed" holds *)
Theorem C92_va_list_refuted : exists c a o fmt h s l, cfg_ok c /\ sized a /\ no_failure a /\ converts o /\
  (exists r s' h', vfprintf c a o true fmt h s (Args l) = OK (r, s', h') /\ s_units s' = utf16 name0) /\
  vfprintf c a o false fmt h s (Args l) = UB.
Proof.
  exists c0, plenty, (sys (fun _ => None)), printf_s, (Heap [] 0), (Stream true true [] []), (utf8 name0). destruct plenty_ok as (P1 & P2).
  split; [exact c0_ok|]. split; [exact P1|]. split; [exact P2|]. split; [apply sys_converts|]. split; [|vm_compute; reflexivity].
  do 3 eexists. split; vm_compute; reflexivity.
Qed.
Print Assumptions C92_va_list_refuted.
Theorem C92_empty_refuted : exists c a o fmt h s l h', cfg_ok c /\ sized a /\ no_failure a /\ converts o /\
  fmt l = Some [] /\ (forall d, fwrite o d = zlen d) /\ vfprintf c a o true fmt h s (Args l) = OK (-1, s, h').
Proof.
  exists c0, plenty, (sys (fun _ => None)), printf_s, (Heap [] 0), (Stream true false [7] []), []. eexists. destruct plenty_ok as (P1 & P2).
  split; [exact c0_ok|]. split; [exact P1|]. split; [exact P2|]. split; [apply sys_converts|]. split; [reflexivity|]. split; [reflexivity|vm_compute; reflexivity].
Qed.
Print Assumptions C92_empty_refuted.
