(** * PropText: C37 writing lines, C38 the line reader, C39 CSV, C43 slugs *)

From Verif Require Import SpecNames NameFacts SpecText TextFacts LineFacts CsvFacts SlugFacts TextRows Csv Slug Parser.

(** ** C38 *)

(** the cells of a line are exactly the specified ones *)
Theorem C38_line_cells : forall l cells, line_cells l = cells <-> text_line l cells.
Proof. exact line_cells_spec. Qed.
Print Assumptions C38_line_cells.

(** cutting at unescaped pipes *)
Theorem C38_split_pipe : forall s cells, split_pipe false s = cells <-> pipe_cells s cells.
Proof. exact split_pipe_spec. Qed.
Print Assumptions C38_split_pipe.

Theorem C38_comment : forall l, is_comment l = true <-> comment_line l.
Proof. exact is_comment_spec. Qed.
Print Assumptions C38_comment.

(** a whole text: its lines, in order, without the comments *)
Theorem C38_text : forall ls last rows,
  Forall (fun p => one_line (fst p)) ls -> one_line last ->
  text_rows (text_of ls last) = rows <-> rows_of (lines_of ls last) rows.
Proof. exact text_rows_spec. Qed.
Print Assumptions C38_text.

Example C38_ex :
  text_rows (text_of [("Title: a\|b | c:d", true); ("  # no", false); ("", false); ("======Contacts", true)] " Name")
  = [["Title"; "a|b "; " c:d"]; [""]; ["Section"; "Contacts"]; ["Name"]]
  /\ Forall (fun p => one_line (fst p))
       [("Title: a\|b | c:d", true); ("  # no", false); ("", false); ("======Contacts", true)]
  /\ one_line " Name".
Proof.
  split; [vm_compute; reflexivity|].
  split; [repeat constructor|]; apply no_breaks_iff; vm_compute; reflexivity.
Qed.

(** ** C37 *)

(** [written] describes the rows that a list of pairs stands for; it needs each
    text to have its pipes escaped, which as_lines does not do *)
Theorem C37_lines_partial : forall s l rows text,
  doc_lines s = Ok l -> written cell_text l rows -> doc_as_lines s = Ok text -> text_rows text = rows.
Proof. exact lines_roundtrip. Qed.
Print Assumptions C37_lines_partial.

(** and the text of one section *)
Theorem C37_section_partial : forall h d i l rows text, section_lines h d i = Ok l -> Forall2 (pair_cells cell_text) l rows ->
  section_as_lines h d i = Ok text -> text_rows text = rows.
Proof. exact section_roundtrip. Qed.
Print Assumptions C37_section_partial.

Definition no_env : env := mk_env (fun _ => false) (fun _ => None) (fun _ => None).
Definition lines_doc : st := fst (parse_rows no_env 9
  [["Title"; "a b"]; ["Section"; "Contacts"; "Email"]; ["Wrangler"; "w"; "e@x"]; [".Phone"; "12:00"]]).

Example C37_ex : exists l rows,
  doc_lines lines_doc = Ok l
  /\ rows = [["Title"; "a b"]; [""]; ["Section"; "Contacts"; "Email"]; ["Wrangler"; "w"]; [".Email"; "e@x"];
             ["Wrangler.Phone"; "12:00"]]
  /\ written cell_text l rows.
Proof.
  assert (E : exists l, doc_lines lines_doc = Ok l) by (eexists; vm_compute; reflexivity).
  destruct E as (l & E). exists l, (written_as l). split; [exact E|]. vm_compute in E. injection E as <-.
  split; [vm_compute; reflexivity|]. apply written_ok. vm_compute. reflexivity.
Qed.

Example C37_section_ex : exists text, section_as_lines (s_heap lines_doc) (s_doc lines_doc) 2 = Ok text
  /\ text = ("Section: Contacts|Email" ++ LF ++ "Wrangler: w" ++ LF ++ "    .Email: e@x" ++ LF ++ "Wrangler.Phone: 12:00")%string
  /\ text_rows text = [["Section"; "Contacts"; "Email"]; ["Wrangler"; "w"]; [".Email"; "e@x"]; ["Wrangler.Phone"; "12:00"]].
Proof. eexists. split; [vm_compute; reflexivity|]. split; vm_compute; reflexivity. Qed.

(** a text without pipes satisfies the condition on texts *)
Theorem C37_plain_text : forall v, one_line v -> tidy v -> ~ In "|"%char (list_ascii_of_string v) ->
  ~ ends_in_backslash v -> line_text v [v].
Proof. exact line_text_plain. Qed.
Print Assumptions C37_plain_text.

(** the unconditional claim fails: a pipe in a value is read back as a cell
    boundary *)
Theorem C37_lines_refuted : exists s text,
  doc_lines s = Ok [("Title", VStr "a|b")] /\ doc_as_lines s = Ok text
  /\ text_rows text = [["Title"; "a"; "b"]].
Proof.
  exists (fst (parse_rows no_env 9 [["Title"; "a|b"]])). eexists.
  split; [vm_compute; reflexivity|]. split; vm_compute; reflexivity.
Qed.
Print Assumptions C37_lines_refuted.

(** ** C39 *)

Theorem C39_roundtrip : forall rows, csv_read (csv_write rows) = rows.
Proof. exact csv_roundtrip. Qed.
Print Assumptions C39_roundtrip.

Theorem C39_as_csv : forall s text, doc_as_csv s = Ok text ->
  exists rows, doc_rows s = Ok rows
    /\ csv_read text = map (map (fun v => match v with VNone => "" | _ => str_val v end)) rows.
Proof. exact as_csv_read. Qed.
Print Assumptions C39_as_csv.

Definition quotes_doc : st := fst (parse_rows no_env 9
  [["Title"; "say ""hi"", then"]; ["Section"; "Contacts"; "Email"]; ["Wrangler"; ("a" ++ LF ++ "b")%string; "e,x"]]).
Example C39_ex : exists text, doc_as_csv quotes_doc = Ok text
  /\ csv_read text = [["Title"; "say ""hi"", then"]; [""]; ["Section"; "Contacts"; "Email"];
                      ["Wrangler"; ("a" ++ LF ++ "b")%string; "e,x"]].
Proof. eexists. split; vm_compute; reflexivity. Qed.

(** ** C43 *)

Theorem C43_safe : forall s c, In c (list_ascii_of_string (slugify s)) ->
  In c (list_ascii_of_string "abcdefghijklmnopqrstuvwxyz0123456789_.-").
Proof. exact slugify_safe. Qed.
Print Assumptions C43_safe.

Theorem C43_no_double_dash : forall s a b, slugify s <> (a ++ "--" ++ b)%string.
Proof. exact slugify_nodd. Qed.
Print Assumptions C43_no_double_dash.

Theorem C43_insensitive : forall u s v s', white u -> white v -> lower s = lower s' ->
  slugify (u ++ s ++ v) = slugify s'.
Proof. exact slugify_insensitive. Qed.
Print Assumptions C43_insensitive.

Theorem C43_idempotent : forall s, slugify (slugify s) = slugify s.
Proof. exact slugify_idem. Qed.
Print Assumptions C43_idempotent.

(** what is kept: words separated by white space or dashes become their letters,
    digits, _ and ., joined by single dashes *)
Theorem C43_words : forall w0 l, slug_word_text w0 -> slug_clean w0 <> "" ->
  Forall (fun gw => slug_gap (fst gw) /\ slug_word_text (snd gw) /\ slug_clean (snd gw) <> "") l ->
  slugify (gapped w0 l) = join "-" (slug_clean w0 :: map (fun gw => slug_clean (snd gw)) l).
Proof. exact slugify_words. Qed.
Print Assumptions C43_words.

Example C43_words_ex :
  slug_word_text "Data," /\ slug_clean "Data," = "data" /\ slug_gap " - "
  /\ gapped "Data," [(" - ", "(v1.2)")] = "Data, - (v1.2)" /\ slugify "Data, - (v1.2)" = "data-v1.2".
Proof.
  repeat split; try (vm_compute; reflexivity); try discriminate.
  - cbn in H. repeat (destruct H as [<-|H]; [vm_compute; lia|]). destruct H.
  - cbn in H. repeat (destruct H as [<-|H]; [vm_compute; reflexivity|]). destruct H.
  - cbn in H. repeat (destruct H as [<-|H]; [discriminate|]). destruct H.
  - cbn in H. repeat (destruct H as [<-|H]; [vm_compute; lia|]). destruct H.
  - cbn in H. repeat (destruct H as [<-|H]; [auto|]). destruct H.
Qed.

Example C43_ex : slugify " Cafe -- Data (v1.2)_x " = "cafe-data-v1.2_x"
  /\ slugify (String (ascii_of_nat 233) "T/" ++ " B") = "et-b".
Proof. split; vm_compute; reflexivity. Qed.
