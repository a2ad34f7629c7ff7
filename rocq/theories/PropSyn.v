(** * PropSyn: names that stand for other names (C74)

    A declaration may give a term a Synonym.  [respells s row1 row2]: by the
    declarations known in the state [s], the name of [row1] stands for the name
    of [row2] (SpecSyn.v).  [steps_to g rows pre s]: [s] is the state of the
    parser of the file [rows] after its first rows [pre] (SpecInclude.v). *)

From Verif Require Import Ops Parser SpecNames SpecParse SpecDoc SpecInclude SpecSyn Render NameFacts ParseFacts SynFacts.

(** ** Which names stand for which *)

(** the table the parser makes of its declarations has for every name what the
    name stands for, and nothing else *)
Theorem C74_table : forall ds x v, dget x (synonyms ds) = Some v <-> stands_for ds x v.
Proof. exact synonyms_get. Qed.
Print Assumptions C74_table.

(** at every row of a file: a name stands for what its one declaration says *)
Theorem C74_declared : forall g rows pre s x v, steps_to g rows pre s ->
  (stands_for (p_dterms (s_prs s)) x v <-> exists td, dget x (p_dterms (s_prs s)) = Some td /\ dget "synonym" (td_props td) = Some v /\ v <> "").
Proof. exact steps_synonym. Qed.
Print Assumptions C74_declared.

(** ** A row with the one name is read as the row with the other *)

(** the two files give the same document, or stop with the same error; the terms
    differ at most in the text of the name in the file and in the class that was
    chosen by it *)
Theorem C74_file : forall g head row1 row2 post s, steps_to g (head ++ row1 :: post) head s -> respells s row1 row2 ->
  same_outcome (load_into g (head ++ row1 :: post)) (load_into g (head ++ row2 :: post)).
Proof. exact syn_file. Qed.
Print Assumptions C74_file.

(** a search sees no difference, *)
Theorem C74_find : forall x y term v sa, same_outcome x y -> doc_find (fst x) term v sa = doc_find (fst y) term v sa.
Proof. exact syn_find. Qed.
Print Assumptions C74_find.

(** and neither do the dictionary, the rows and the lines of the document *)
Theorem C74_shown : forall x y, same_outcome x y ->
  (forall rvn, doc_as_dict (fst x) rvn = doc_as_dict (fst y) rvn) /\ doc_rows (fst x) = doc_rows (fst y) /\ doc_lines (fst x) = doc_lines (fst y).
Proof. exact syn_shown. Qed.
Print Assumptions C74_shown.

(** ** A file with declared synonyms *)

Definition decl74 : list (list string) :=
  [["Section"; "DeclaredTerms"; "TermValueName"; "Synonym"];
   ["DeclareTerm"; "Root.Title"; "Text"];
   ["DeclareTerm"; "Titel"; ""; "Root.Title"];
   ["DeclareTerm"; "Name"; ""; "Titel"];
   ["DeclareTerm"; "Kapitel"; ""; "Root.Section"];
   ["DeclareTerm"; "Laden"; ""; "Root.Include"]].
Definition env74 : env := mk_env (fun n => eqs n "decl.csv") (fun _ => None)
  (fun n => if eqs n "decl.csv" then Some decl74 else if eqs n "http://x.org/more.csv" then Some [["Other"; "o"]] else None).
Definition place74 : place := mk_place env74 2 None "" default_classes [] [] [].
Definition head74 : list (list string) := [["Declare"; "decl.csv"]; ["Section"; "Texts"; "Lang"]].
Definition post74 : list (list string) := [[".Note"; "n"]; ["Title.Part"; "p"]].
Definition row74 (name : string) : list string := [name; "x"; "de"].
Definition state74 : st := Eval vm_compute in
  let s := new_doc (in_reg place74) [] [] [] in
  fst (rows_to env74 true (generate_terms env74 true 1) (mk_source None "" (head74 ++ row74 " TITEL " :: post74)) None 1 head74 0 (set_s_prs (fresh_parser s) s)).

Lemma steps74 : steps_to place74 (head74 ++ row74 " TITEL " :: post74) head74 state74.
Proof. eexists. vm_compute. reflexivity. Qed.

Lemma respells74 : respells state74 (row74 " TITEL ") (row74 "Title").
Proof.
  split.
  - split; [apply not_blank; vm_compute; reflexivity|]. split; [apply not_blank; vm_compute; reflexivity|reflexivity].
  - exists "root", "titel", "Root.Title", "root", "title".
    split; [apply split_term_lower_spec; vm_compute; reflexivity|]. split; [apply synonyms_get; vm_compute; reflexivity|].
    split; [apply split_term_lower_spec; vm_compute; reflexivity|]. split; [apply split_term_lower_spec; vm_compute; reflexivity|].
    split; [intros w H; apply synonyms_get in H; vm_compute in H; discriminate H|].
    split; [intros (_ & [E|[E|E]]); discriminate E|]. split; [intros (_ & [E|[E|E]]); discriminate E|].
    split; vm_compute; reflexivity.
Qed.

(** the row "TITEL" makes a Title, with the value name declared for Title and its
    cell "Lang"; the rows that follow belong to it *)
Example C74_ex :
  let x := load_into place74 (head74 ++ row74 " TITEL " :: post74) in
  let y := load_into place74 (head74 ++ row74 "Title" :: post74) in
  same_outcome x y /\ snd x = Ok tt
  /\ map (fun r => (t_term r, t_pt r, t_rt r, t_val r, t_tvn r, t_parent r)) (skipn 13 (s_heap (fst x)))
     = [("root.section", "root", "section", VStr "Texts", "@value", None);
        ("root.titel", "root", "title", VStr "x", "Text", Some 0);
        ("title.0", "title", "lang", VStr "de", "@value", Some 14);
        ("<elided_term>.note", "title", "note", VStr "n", "@value", Some 14);
        ("title.part", "title", "part", VStr "p", "@value", Some 14)]
  /\ doc_find (fst x) "Root.Title" (VStr "x") SAny = Ok [14]
  /\ map t_term (skipn 14 (s_heap (fst y))) = ["root.title"; "title.0"; "<elided_term>.note"; "title.part"].
Proof.
  split; [exact (C74_file _ _ _ _ _ _ steps74 respells74)|]. vm_compute. repeat split; reflexivity.
Qed.

(** ** What a synonym is not *)

(** the name of a parent is not replaced: rows below a row with the synonym need
    the name it stands for *)
Theorem C74_parent_refuted : stands_for (p_dterms (s_prs state74)) "root.titel" "Root.Title"
  /\ snd (load_into place74 (head74 ++ [row74 "Titel"; ["Titel.Note"; "n"]])) = Err EParser
  /\ snd (load_into place74 (head74 ++ [row74 "Titel"; ["Title.Note"; "n"]])) = Ok tt.
Proof. split; [apply synonyms_get; vm_compute; reflexivity|]. vm_compute. split; reflexivity. Qed.
Print Assumptions C74_parent_refuted.

(** a synonym of a synonym is replaced once: the term is a Titel, not a Title *)
Theorem C74_chain_refuted : stands_for (p_dterms (s_prs state74)) "root.name" "Titel" /\ stands_for (p_dterms (s_prs state74)) "root.titel" "Root.Title"
  /\ let x := load_into place74 (head74 ++ [row74 "Name"]) in
     snd x = Ok tt /\ doc_find (fst x) "Root.Title" (VStr "x") SAny = Ok [] /\ doc_find (fst x) "Root.Titel" (VStr "x") SAny = Ok [14].
Proof. split; [apply synonyms_get; vm_compute; reflexivity|]. split; [apply synonyms_get; vm_compute; reflexivity|]. vm_compute. repeat split; reflexivity. Qed.
Print Assumptions C74_chain_refuted.

(** a synonym of Section does not start a section: the file is refused *)
Theorem C74_section_refuted : stands_for (p_dterms (s_prs state74)) "root.kapitel" "Root.Section"
  /\ snd (load_into place74 (head74 ++ [["Kapitel"; "Data"]])) = Err EAssert
  /\ snd (load_into place74 (head74 ++ [["Section"; "Data"]])) = Ok tt.
Proof. split; [apply synonyms_get; vm_compute; reflexivity|]. vm_compute. split; reflexivity. Qed.
Print Assumptions C74_section_refuted.

(** a synonym of Include includes nothing: there is a term Include, without the
    terms of the file *)
Theorem C74_include_refuted : stands_for (p_dterms (s_prs state74)) "root.laden" "Root.Include"
  /\ (let x := load_into place74 (head74 ++ [["Laden"; "http://x.org/more.csv"]]) in snd x = Ok tt
      /\ doc_find (fst x) "Root.Include" VFalse SAny = Ok [14] /\ doc_find (fst x) "Root.Other" VFalse SAny = Ok [])
  /\ (let x := load_into place74 (head74 ++ [["Include"; "http://x.org/more.csv"]]) in snd x = Ok tt
      /\ doc_find (fst x) "Root.Other" VFalse SAny = Ok [15]).
Proof. split; [apply synonyms_get; vm_compute; reflexivity|]. vm_compute. repeat split; reflexivity. Qed.
Print Assumptions C74_include_refuted.

(** the class of the object is that of the synonym: a class registered for Title
    is not used for the row "Titel" *)
Definition place74c : place := mk_place env74 2 None "" (("root.title", CUser "TitleTerm") :: default_classes) [] [] [].
Theorem C74_class_refuted : let x := load_into place74c (head74 ++ [row74 "Titel"]) in let y := load_into place74c (head74 ++ [row74 "Title"]) in
  same_outcome x y /\ t_cls (tget 14 (fst x)) = CTerm /\ t_cls (tget 14 (fst y)) = CUser "TitleTerm" /\ t_rt (tget 14 (fst x)) = "title".
Proof.
  split.
  - vm_compute. repeat split; repeat constructor.
  - vm_compute. repeat split; reflexivity.
Qed.
Print Assumptions C74_class_refuted.
