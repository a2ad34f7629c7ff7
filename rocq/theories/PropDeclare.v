(** * PropDeclare: what Declare rows and the decl argument do (C19, C52) *)

From Verif Require Import SpecNames Parser Render SpecDoc SpecKept GrowFacts DeclareFacts.

(** ** C19 *)

(** Reading a declaration document, whatever is in it and whether or not it stops
    with an error, takes nothing from the document: all terms, children,
    sections and listings are still there in the same order, and no cell, name
    or place of a term changed.  Not proved, because it is false
    ([C19_refuted]): that nothing is added. *)
Theorem C19_kept_partial : forall e load fuel src s s' r,
  generate_terms e load fuel src (Some "declare") s = (s', r) -> kept s s'.
Proof. intros e load fuel src. exact (kept_generate e load fuel src (Some "declare")). Qed.
Print Assumptions C19_kept_partial.

(** a usual declaration document: its rows stand in sections of their own *)
Definition decls19 : list (list string) :=
  [["Section"; "Sections"]; ["DeclareSection"; "Contacts"];
   ["Section"; "Decl"; "TermValueName"]; ["DeclareTerm"; "Root.Person"; "Name"]].
(** and one with a column for the section of the declared term *)
Definition decls19s : list (list string) :=
  [["Section"; "Sections"]; ["DeclareSection"; "Contacts"];
   ["Section"; "Decl"; "Section"]; ["DeclareTerm"; "Root.Person"; "Contacts"]].
Definition env19 : env := mk_env (fun x => eqs x "d.csv" || eqs x "s.csv") (fun _ => None)
  (fun x => if eqs x "d.csv" then Some decls19 else if eqs x "s.csv" then Some decls19s else None).
Definition doc19 (rows : list (list string)) : st * res unit :=
  load_source env19 3 (mk_source None "" (["Title"; "T"] :: rows)) (new_doc default_classes [] [] []).

Example C19_ex : snd (doc19 [["Declare"; "d.csv"]]) = Ok tt
  /\ map (fun i => t_val (tget i (fst (doc19 [["Declare"; "d.csv"]])))) (d_terms (s_doc (fst (doc19 [["Declare"; "d.csv"]]))))
     = [VStr "T"; VStr "d.csv"; VStr "Contacts"; VStr "Root.Person"]
  /\ doc_as_dict (fst (doc19 [["Declare"; "d.csv"]])) true
     = Ok (JDict [("title", JVal (VStr "T")); ("declare", JVal (VStr "d.csv"))]).
Proof. vm_compute. repeat split. Qed.

(** The rows of a declaration document become terms that find returns; with a
    column named Section in the declaration document the sections of that
    document become sections of the declaring document too, and show in rows and
    as_dict (the assignment of the attribute [section] to an object with a column of
    that name makes a term of the section, terms.py:373-375, and the section is
    then added to the document). *)
Theorem C19_refuted :
  (exists ls s, doc19 [["Declare"; "d.csv"]] = (s, Ok tt) /\ doc_find s "DeclareTerm" VFalse SAny = Ok ls /\ ls <> [])
  /\ (exists s d, doc19 [["Declare"; "s.csv"]] = (s, Ok tt) /\ dkeys (d_sections (s_doc s)) = ["root"; "decl"]
      /\ doc_as_dict s true = Ok (JDict d) /\ dmem "declareterm" d = true).
Proof.
  split.
  - eexists _, _. split; [vm_compute; reflexivity|]. split; [vm_compute; reflexivity|]. discriminate.
  - eexists _, _. split; [vm_compute; reflexivity|]. split; [vm_compute; reflexivity|]. split; vm_compute; reflexivity.
Qed.
Print Assumptions C19_refuted.

(** ** C52 *)

(** The declarations of a document opened with declaration files: those made by
    the document's own rows, else those collected from the declaration files,
    else those it had.  A declaration made in a file given as the argument is
    therefore looked up as one made by a Declare row is, unless the document
    declares the name again.  Not proved, because false ([C52_refuted]): that
    the parser of the document uses them, and that derived terms are found. *)
Theorem C52_lookup_partial : forall e n decls src s s1 s2, decls <> [] ->
  load_declarations e n decls s = (s1, Ok tt) -> load_source e n src s1 = (s2, Ok tt) ->
  open_doc e n decls src s = (s2, Ok tt) /\ forall k,
    dget k (d_decl_terms (s_doc s2))
    = first_of (dget k (p_dterms (s_prs s2))) (first_of (dget k (p_dterms (s_prs s1))) (dget k (d_decl_terms (s_doc s))))
    /\ dget k (d_decl_sections (s_doc s2))
    = first_of (dget k (p_dsecs (s_prs s2))) (first_of (dget k (p_dsecs (s_prs s1))) (dget k (d_decl_sections (s_doc s)))).
Proof. exact opened_decls. Qed.
Print Assumptions C52_lookup_partial.

(** for one Declare row the same holds of a single parser *)
Theorem C52_row_partial : forall e n src s s', load_source e n src s = (s', Ok tt) -> forall k,
  dget k (d_decl_terms (s_doc s')) = first_of (dget k (p_dterms (s_prs s'))) (dget k (d_decl_terms (s_doc s)))
  /\ dget k (d_decl_sections (s_doc s')) = first_of (dget k (p_dsecs (s_prs s'))) (dget k (d_decl_sections (s_doc s))).
Proof. exact load_decls. Qed.
Print Assumptions C52_row_partial.

Definition decls52 : list (list string) :=
  [["DeclareSection"; "Contacts"]; ["Section"; "Decl"; "Section"; "InheritsFrom"];
   ["DeclareTerm"; "Root.Person"; "Contacts"]; ["DeclareTerm"; "Root.Creator"; "Contacts"; "Person"]].
Definition env52 : env := mk_env (fun x => eqs x "d.csv") (fun _ => None) (fun x => if eqs x "d.csv" then Some decls52 else None).
Definition blank52 : st := new_doc default_classes [] [] [].
Definition by_arg : st * res unit := open_doc env52 3 ["d.csv"] (mk_source None "" [["Creator"; "C"]]) blank52.
Definition by_row : st * res unit := load_source env52 3 (mk_source None "" [["Declare"; "d.csv"]; ["Creator"; "C"]]) blank52.

Example C52_ex : snd by_arg = Ok tt /\ snd by_row = Ok tt
  /\ dget "root.creator" (d_decl_terms (s_doc (fst by_arg))) = dget "root.creator" (d_decl_terms (s_doc (fst by_row)))
  /\ dmem "root.creator" (d_decl_terms (s_doc (fst by_arg))) = true.
Proof. vm_compute. repeat split. Qed.

(** Opened with a Declare row, searching for a Person finds the Creator, which
    inherits from it, and the Creator is valid; opened with the argument decl, it
    is not found and not valid. *)
Theorem C52_refuted :
  snd by_arg = Ok tt /\ snd by_row = Ok tt
  /\ doc_find (fst by_arg) "Person" VFalse SAny = Ok []
  /\ (exists i, doc_find (fst by_row) "Person" VFalse SAny = Ok [i] /\ t_val (tget i (fst by_row)) = VStr "C"
      /\ t_valid (tget i (fst by_row)) = Some true)
  /\ (exists i, doc_find (fst by_arg) "Creator" VFalse SAny = Ok [i] /\ t_valid (tget i (fst by_arg)) = Some false).
Proof.
  split; [vm_compute; reflexivity|]. split; [vm_compute; reflexivity|]. split; [vm_compute; reflexivity|]. split.
  - eexists. split; [vm_compute; reflexivity|]. vm_compute. split; reflexivity.
  - eexists. split; vm_compute; reflexivity.
Qed.
Print Assumptions C52_refuted.
