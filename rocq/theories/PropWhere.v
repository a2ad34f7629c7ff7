(** * PropWhere: every text of a parsed document is that of a cell (C73) *)

From Verif Require Import SpecNames PyBase State Parser SpecDoc SpecWhere StrFacts WhereFacts.

(** whatever the rows of the file and of the files it refers to are: a term that
    has a text has the text of the cell of its row, in the column where it says
    it is (column 1 for sections), or of a column of a section *)
Theorem C73_text : forall e fuel src s s', sections_ok s -> load_source e fuel src s = (s', Ok tt) ->
  forall i w, hlen s <= i < hlen s' -> t_val (tget i s') = VStr w -> written e (src_rows src) s' (tget i s').
Proof. exact c73_text. Qed.
Print Assumptions C73_text.

(** terms without a text too, if they have a row *)
Theorem C73_row : forall e fuel src s s', sections_ok s -> load_source e fuel src s = (s', Ok tt) ->
  forall i, hlen s <= i < hlen s' -> t_row (tget i s') <> None -> written e (src_rows src) s' (tget i s').
Proof. exact c73_row. Qed.
Print Assumptions C73_row.

(** the terms that were there before get no text *)
Theorem C73_old : forall e fuel src s s', sections_ok s -> load_source e fuel src s = (s', Ok tt) ->
  forall i w, i < hlen s -> t_val (tget i s') = VStr w -> t_val (tget i s) = VStr w.
Proof. exact c73_old. Qed.
Print Assumptions C73_old.

(** for a new document: all terms but the root *)
Theorem C73_document : forall g rows s, loads g rows s -> forall i w, 0 < i < hlen s -> t_val (tget i s) = VStr w -> written (in_env g) rows s (tget i s).
Proof. exact c73_document. Qed.
Print Assumptions C73_document.

(** no two terms of the file are made from the same cell *)
Theorem C73_once : forall e fuel src s s', load_source e fuel src s = (s', Ok tt) ->
  forall i j, hlen s <= i -> hlen s <= j -> of_file s' i -> of_file s' j -> t_row (tget i s') = t_row (tget j s') -> t_col (tget i s') = t_col (tget j s') -> i = j.
Proof. exact c73_once. Qed.
Print Assumptions C73_once.

(** a file with an included file and with declarations that rename Section rows *)
Definition decl73 : list (list string) := [["Section"; "DeclaredTerms"; "Synonym"]; ["DeclareTerm"; "Section"; "Part"]].
Definition incl73 : list (list string) := [["Note"; " from far "; "by"]].
Definition env73 : env := mk_env (fun n => eqs n "decl") (fun _ => None)
  (fun n => if eqs n "decl" then Some decl73 else if eqs n "http://a" then Some incl73 else None).
Definition place73 : place := mk_place env73 3 None "" default_classes [] [("data", mk_sdecl ["Name"] [])] [].
Definition rows73a : list (list string) := [["Include"; "http://a"]; []; ["Section"; "Data"]; ["Datafile"; "x"; " y "]; [".Size"; "7"]].
Definition rows73b : list (list string) := [["Declare"; "decl"]; ["Section"; "Data"]].
Definition doc73a : st := Eval vm_compute in fst (load_into place73 rows73a).
Definition doc73b : st := Eval vm_compute in fst (load_into place73 rows73b).

Example C73_ex : loads place73 rows73a doc73a
  /\ map (fun r => (t_val r, t_row r, t_col r, t_ftype r)) (s_heap doc73a)
     = [(VStr "Root", Some 0, Some 0, None); (VStr "http://a", Some 1, Some 1, None);
        (VStr "from far", Some 1, Some 1, Some "include"); (VStr "by", Some 1, Some 2, Some "include");
        (VStr "Data", Some 3, Some 3, None); (VStr "x", Some 4, Some 1, None); (VStr "y", Some 4, Some 2, None); (VStr "7", Some 5, Some 1, None)]
  /\ written env73 rows73a doc73a (tget 2 doc73a) /\ written env73 rows73a doc73a (tget 6 doc73a).
Proof.
  assert (L : loads place73 rows73a doc73a) by (vm_compute; reflexivity).
  split; [exact L|]. split; [vm_compute; reflexivity|].
  split; (eapply (C73_document place73 rows73a doc73a L); [vm_compute; lia|vm_compute; reflexivity]).
Qed.

(** a synonym of Section makes terms of the declared columns, which are not in
    the row *)
Theorem C73_columns_refuted : exists g rows s i w, loads g rows s /\ 0 < i < hlen s /\ t_val (tget i s) = VStr w
  /\ t_ftype (tget i s) = None /\ t_row (tget i s) = Some 2 /\ t_col (tget i s) = Some 2 /\ w = "Name" /\ nth_error rows 1 = Some ["Section"; "Data"].
Proof. exists place73, rows73b, doc73b, 6, "Name". repeat split; vm_compute; try reflexivity; lia. Qed.
Print Assumptions C73_columns_refuted.

(** the column of a section is the number of its row *)
Theorem C73_section_column_refuted : exists g rows s i, loads g rows s /\ section_term (tget i s) /\ t_row (tget i s) = Some 3 /\ t_col (tget i s) = Some 3
  /\ nth_error rows 2 = Some ["Section"; "Data"].
Proof. exists place73, rows73a, doc73a, 4. repeat split; vm_compute; reflexivity. Qed.
Print Assumptions C73_section_column_refuted.
