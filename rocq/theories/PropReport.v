(** * PropReport: what an IncludeError tells (C84) *)

From Verif Require Import StrFacts SpecNames SpecParse Parser SpecDoc SpecInclude Report SpecReport ReportFacts PropInclude.

(** ** C84 *)

(** the parser with messages does to a document what the one of the other
    properties does *)
Theorem C84_same : forall e kind why n path src x,
  load_source e n src (x_st x) = (x_st (fst (load_x e kind why n path src x)), snd (load_x e kind why n path src x)).
Proof. exact c84_same. Qed.
Print Assumptions C84_same.

(** after an IncludeError the parser has one error; its message says what was wrong
    with the first row, in the order of reading, that does not let the parse go
    on, and has one part for each file on the way to that row.
    Missing: the term of the error belongs to this row only if the file of the row
    could not be read, and the files have the names of their row generators. *)
Theorem C84_report_partial : forall e kind why n path src x x', load_x e kind why n path src x = (x', Err EInclude) ->
  exists err b, x_errors x' = [err] /\ bad_file e kind why path (src_ref src) (src_dir src) (src_rows src) (rp_msg err) b
    /\ match b with
       | NoTerm => rp_term err = None
       | OwnTerm f line => exists t, rp_term err = Some t /\ x_last x' = Some t /\ t_row (tget t (x_st x')) = Some line /\ file_of (x_files x') t = file_name f
       | SomeTerm => rp_term err <> None
       end.
Proof. exact c84_report. Qed.
Print Assumptions C84_report_partial.

(** a parse that ends well has read only rows that let it go on, and leaves no
    errors; one that ends with another error leaves none either *)
Theorem C84_fine : forall e kind why n path src x x', load_x e kind why n path src x = (x', Ok tt) ->
  x_errors x' = [] /\ doc_errors x' = [] /\ Forall (fine e (src_ref src) (src_dir src)) (src_rows src).
Proof. exact c84_fine. Qed.
Print Assumptions C84_fine.

Theorem C84_other : forall e kind why n path src x x' er, load_x e kind why n path src x = (x', Err er) -> er <> EInclude -> x_errors x' = [].
Proof. exact c84_other. Qed.
Print Assumptions C84_other.

(** no row is of both kinds *)
Theorem C84_apart : forall e kind why path ref dir line row msg b, bad_row e kind why path ref dir line row msg b -> ~ fine e ref dir row.
Proof. exact c84_apart. Qed.
Print Assumptions C84_apart.

(** errors_as_dict: one entry with the message, and, when the file of a row could
    not be read, with the file and the number of that row.
    Missing: an error without a term. *)
Theorem C84_dict_partial : forall e kind why n path src x x', load_x e kind why n path src x = (x', Err EInclude) ->
  exists msg b, bad_file e kind why path (src_ref src) (src_dir src) (src_rows src) msg b
    /\ match b with
       | NoTerm => errors_as_dict x' = Err EAttr
       | OwnTerm f line => exists en, errors_as_dict x' = Ok [en] /\ ee_error en = msg /\ ee_file en = file_name f /\ ee_row en = Some line
       | SomeTerm => exists en, errors_as_dict x' = Ok [en] /\ ee_error en = msg
       end.
Proof. exact c84_dict. Qed.
Print Assumptions C84_dict_partial.

Definition kinds (_ : string) : string := "CsvSource".
Definition no_such (y : string) : string := ("no file " ++ y)%string.
Definition fresh : xst := mk_xst start None [] None [].
Definition try (e : env) (rows : list (list string)) : xst * res unit := load_x e kinds no_such 9 "/data/me.csv" (mk_source (Some "/data/me.csv") "/data" rows) fresh.
Definition told (e : env) (rows : list (list string)) : res unit * list string * res (list error_entry) :=
  let '(x, r) := try e rows in (r, map rp_msg (x_errors x), errors_as_dict x).

Definition deep : env := web [("http://a", [["Title"; "t"]; ["Note"; "n"; "more"]; ["Include"; "http://gone"]])].

Example C84_ex :
  told deep [["Title"; "T"]; ["Include"; "http://gone"]]
  = (Err EInclude, ["Failed to Include; no file http://gone; in '/data/me.csv' "],
     Ok [mk_entry "me.csv" (Some 2) (Some 1) "root.include" "Failed to Include; no file http://gone; in '/data/me.csv' "])
  /\ told deep [["Title"; "T"]; ["Include"; "http://a"]]
  = (Err EInclude, ["Failed to Include; no file http://gone; in 'CsvSource' ; in '/data/me.csv' "],
     Ok [mk_entry "csvsource" (Some 3) (Some 1) "root.include" "Failed to Include; no file http://gone; in 'CsvSource' ; in '/data/me.csv' "])
  /\ told deep [["Title"; "T"]] = (Ok tt, [], Ok []).
Proof. repeat split; vm_compute; reflexivity. Qed.

(** an error found in a row of the document itself has no term, and errors_as_dict
    fails: AttributeError *)
Theorem C84_dict_refuted : told deep [["Include"; "me.csv"]] = (Err EInclude, ["Include loop for '/data/me.csv' ; in '/data/me.csv' "], Err EAttr).
Proof. vm_compute. reflexivity. Qed.
Print Assumptions C84_dict_refuted.

(** an error found in a row of an included file has the term of an earlier row,
    which has nothing to do with it: here a child of a Note, two rows before *)
Definition local84 : env := web [("http://a", [["Title"; "t"]; ["Note"; "n"; "more"]; [""]; ["Include"; "b.csv"]])].
Theorem C84_term_refuted :
  told local84 [["Include"; "http://a"]]
  = (Err EInclude, ["Can't include 'b.csv' because don't know current path ; in 'CsvSource' ; in '/data/me.csv' "],
     Ok [mk_entry "csvsource" (Some 2) (Some 2) "note.0" "Can't include 'b.csv' because don't know current path ; in 'CsvSource' ; in '/data/me.csv' "]).
Proof. vm_compute. reflexivity. Qed.
Print Assumptions C84_term_refuted.

(** and the message does not tell which of the included files has the row *)
Definition two84 (first second : list (list string)) : env := web [("http://a", first); ("http://b", second)].
Theorem C84_names_refuted :
  let bad := [["Include"; "b.csv"]] in let good := [["Title"; "t"]] in let doc := [["Include"; "http://a"]; ["Include"; "http://b"]] in
  snd (fst (told (two84 bad good) doc)) = snd (fst (told (two84 good bad) doc)) /\ snd (fst (told (two84 bad good) doc)) <> [].
Proof. split; [vm_compute; reflexivity|vm_compute; discriminate]. Qed.
Print Assumptions C84_names_refuted.
