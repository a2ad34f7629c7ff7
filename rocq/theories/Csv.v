(** * Csv: the writer of the csv module as used by doc.as_csv, and a reader

    doc.py:837-847.  csv.writer with the default dialect (excel): comma,
    double quote, QUOTE_MINIMAL, doublequote, line terminator CR LF.  The csv
    module is not in /repo; [csv_write] and [csv_read] follow CPython's
    Modules/_csv.c and are checked against it in PyTests.v.  The reader's limit on
    the size of a field and its refusal of NUL characters are not modelled. *)

From Verif Require Export Render.

Definition dquote : ascii := ascii_of_nat 34.
Definition comma : ascii := ascii_of_nat 44.
Definition cr : ascii := ascii_of_nat 13.
Definition lf : ascii := ascii_of_nat 10.

(** characters that force a field to be quoted *)
Definition csv_special (c : ascii) : bool :=
  Ascii.eqb c dquote || Ascii.eqb c comma || Ascii.eqb c cr || Ascii.eqb c lf.

Fixpoint double_quotes (s : string) : string :=
  match s with
  | "" => ""
  | String c s' => if Ascii.eqb c dquote then String dquote (String dquote (double_quotes s'))
                   else String c (double_quotes s')
  end%string.

Definition quote_field (s : string) : string :=
  String dquote (double_quotes s ++ String dquote "")%string.

Definition csv_field (s : string) : string :=
  if all_chars (fun c => negb (csv_special c)) s then s else quote_field s.

Definition crlf : string := String cr (String lf "").

(** writerow: a record whose text would be empty although it has a field is
    written as a quoted empty field *)
Definition csv_record (row : list string) : string :=
  let body := join (String comma "") (map csv_field row) in
  match row with
  | [] => crlf
  | _ => ((if eqs body "" then quote_field "" else body) ++ crlf)%string
  end.

(** the text written for a cell *)
Definition cell_text (v : val) : string := match v with VNone => "" | _ => str_val v end.

Definition csv_write (rows : list (list string)) : string :=
  fold_right (fun r acc => (csv_record r ++ acc)%string) "" rows.

(** doc.py:837-847 as_csv *)
Definition doc_as_csv (s : st) : res string :=
  do? rows <- doc_rows s ;; Ok (csv_write (map (map cell_text) rows)).

(** ** The reader (csv.reader over a text with its line ends kept)

    States of _csv.c parse_process_char; [acc] is the field being read
    (reversed), [fs] the fields of the record (reversed). *)
Inductive cstate := SRec | SField | InField | InQuoted | QuoteInQuoted | EatNL.

Definition rev_str (l : list ascii) : string := fold_left (fun s c => String c s) l "".

(** after a line end: a CR may be followed by an LF that belongs to it *)
Definition after_nl (c : ascii) : cstate := if Ascii.eqb c cr then EatNL else SRec.

Fixpoint csv_run (q : cstate) (acc : list ascii) (fs : list string) (s : string) : list (list string) :=
  match s with
  | "" =>
      match q with
      | SRec | EatNL => []
      | _ => [rev (rev_str acc :: fs)]
      end
  | String c s' =>
      let nl := Ascii.eqb c cr || Ascii.eqb c lf in
      match q with
      | SRec | EatNL =>
          if (match q with EatNL => Ascii.eqb c lf | _ => false end) then csv_run SRec [] [] s'
          else if nl then [] :: csv_run (after_nl c) [] [] s'
          else if Ascii.eqb c dquote then csv_run InQuoted [] [] s'
          else if Ascii.eqb c comma then csv_run SField [] [""] s'
          else csv_run InField [c] [] s'
      | SField =>
          if nl then rev ("" :: fs) :: csv_run (after_nl c) [] [] s'
          else if Ascii.eqb c dquote then csv_run InQuoted [] fs s'
          else if Ascii.eqb c comma then csv_run SField [] ("" :: fs) s'
          else csv_run InField [c] fs s'
      | InField =>
          if nl then rev (rev_str acc :: fs) :: csv_run (after_nl c) [] [] s'
          else if Ascii.eqb c comma then csv_run SField [] (rev_str acc :: fs) s'
          else csv_run InField (c :: acc) fs s'
      | InQuoted =>
          if Ascii.eqb c dquote then csv_run QuoteInQuoted acc fs s'
          else csv_run InQuoted (c :: acc) fs s'
      | QuoteInQuoted =>
          if Ascii.eqb c dquote then csv_run InQuoted (c :: acc) fs s'
          else if Ascii.eqb c comma then csv_run SField [] (rev_str acc :: fs) s'
          else if nl then rev (rev_str acc :: fs) :: csv_run (after_nl c) [] [] s'
          else csv_run InField (c :: acc) fs s'
      end
  end.

Definition csv_read (s : string) : list (list string) := csv_run SRec [] [] s.
