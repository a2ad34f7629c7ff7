(** * PropKeep: documents read after Declare and Include rows are in good order (C70)

    The theorems about editing, rendering and finding (PropDoc.v, PropRender.v,
    PropFind.v) ask for a document in good order.  Documents read from files of
    usual rows are (C60); here the file may begin with other rows, Declare and
    Include rows among them, if these leave a state that is in good order up to
    oddities Q: terms without a section of the document ([lost]) and sections
    with a column called "section" ([odd]).  [ready_by] (KeepFacts.v) decides
    this for a given state. *)

From Verif Require Import Ops SpecInv SpecEdit SpecFind SpecNames SpecParse Parser SpecDoc SpecInclude SpecHead SpecOrderly SpecKeep StrFacts StepFacts KeepFacts HeadFacts ParseProps PropParse PropHead PropDoc.

(** the document is in good order after the last row, with the same oddities *)
Theorem C70_order : forall (Q : Quirks) g head rows od s0 ls s, loads_after g head rows od s0 ls s -> ready s0 ->
  Forall (fun l => ~ own_parent l) ls -> Forall dotless_columns ls -> in_order s.
Proof. exact @after_order. Qed.
Print Assumptions C70_order.

(** whatever is done with the document then, its lists agree: every term of the
    list, except the [lost] ones, is in one section *)
Theorem C70_edits_agree : forall (Q : Quirks) g head rows od s0 ls s s', loads_after g head rows od s0 ls s -> ready s0 ->
  Forall (fun l => ~ own_parent l) ls -> Forall dotless_columns ls -> edits s s' -> lists_agree s'.
Proof. exact @after_edits. Qed.
Print Assumptions C70_edits_agree.

(** without oddities in [s0] there are none after *)
Theorem C70_plain : forall g head rows od s0 ls s s', loads_after g head rows od s0 ls s -> @ready plain_doc s0 ->
  Forall (fun l => ~ own_parent l) ls -> Forall dotless_columns ls -> @edits plain_doc s s' ->
  forall t, In t (listed s') -> exists k i, In (k, i) (secs s') /\ In t (t_terms (tget i s')).
Proof. exact after_plain. Qed.
Print Assumptions C70_plain.

(** the file of C61_ex: the two terms of the section "DeclaredSections" are
    lost, the section "declaredterms" is odd *)
Definition Q61 : Quirks := known_quirks [3; 4] ["declaredterms"].
Lemma ready61 : @ready Q61 state61.
Proof. apply ready_by. vm_compute. reflexivity. Qed.

(** a term added to the section "resources" *)
Definition resources61 : nat := Eval vm_compute in match dget "resources" (secs doc61) with Some i => i | None => 0 end.
Definition doc70 : st := Eval vm_compute in
  fst (new_term resources61 "Datafile" (VStr "v") [("Space", VStr "NV")] doc61).

Example C70_ex : @in_order Q61 doc61 /\ ~ @lists_agree plain_doc doc61
  /\ @edits Q61 doc61 doc70 /\ @lists_agree Q61 doc70
  /\ map (fun t => (t, t_rt (tget t doc70), t_section (tget t doc70))) (listed doc70)
     = [(1, "declare", Some 0); (3, "declaresection", Some 2); (4, "declaresection", Some 2); (8, "section", Some 7);
        (10, "section", Some 7); (12, "declareterm", Some 7); (14, "declareterm", Some 7); (18, "title", Some 0);
        (20, "datafile", Some 19); (23, "other", Some 19); (25, "datafile", Some 19)].
Proof.
  assert (O : @in_order Q61 doc61).
  { refine (C70_order Q61 _ _ _ _ _ _ _ after61 ready61 _ _).
    - repeat constructor; intros (r & x & cells & H); try discriminate H; injection H as H1 H2; subst; discriminate.
    - repeat (apply Forall_cons; [first [exact Logic.I | apply dotsb_ok; reflexivity]|]). apply Forall_nil. }
  assert (E : @edits Q61 doc61 doc70).
  { eapply edits_more; [apply edits_none|]. eapply (@ed_new_term Q61 doc61 doc70 "resources" resources61 "Datafile" (VStr "v") [("Space", VStr "NV")]).
    - vm_compute. auto.
    - intros [[K|[]] _]. discriminate K.
    - top.
    - apply surjective_pairing. }
  split; [exact O|]. split.
  { intros (_ & _ & _ & A). destruct (A 3) as (k & i & K & T & _); [vm_compute; auto 10|intros []|].
    vm_compute in K. repeat destruct K as [K|K]; try (injection K as <- <-; vm_compute in T; repeat destruct T as [T|T]; try discriminate T; contradiction). contradiction. }
  split; [exact E|]. split; [exact (ok_agree _ (io_ok _ (order_edits _ _ E O)))|].
  vm_compute. reflexivity.
Qed.

(** ** A declaration file and a document of the library

    metatab/test/test-data/short-declare.csv as the declarations of the document
    metatab/templates/metatab.csv *)
Definition decl70 : list (list string) :=
  [["Section"; "DeclaredSections"; ""; ""; ""; ""];
   ["DeclareSection"; "DeclaredSections"; "Arg0"; "Arg1"; "Arg2"; ""];
   ["DeclareSection"; "Root"; ""; ""; ""; ""];
   ["DeclareSection"; "DeclaredTerms"; "TermValueName"; "ChildPropertyType"; "Section"; ""];
   ["DeclareSection"; "Resources"; "Table"; "Grain"; "Title"; ""];
   ["DeclareSection"; "Contacts"; "Email"; ""; ""; ""];
   ["DeclareSection"; "Schemas"; "DataType"; "ValueType"; "Description"; ""];
   [""; ""; ""; ""; ""; ""];
   ["Section"; "DeclaredTerms"; "TermValueName"; "ChildPropertyType"; "Section"; "InheritsFrom"];
   ["DeclareTerm"; "DeclareTerm"; "Term"; ""; "DeclaredTerms"; ""];
   ["DeclareTerm"; "Declare"; ""; ""; "Root"; ""];
   ["DeclareTerm"; "Include"; ""; ""; "Root"; ""];
   ["DeclareTerm"; "Section"; "Name"; "sequence"; "Root"; ""];
   ["DeclareTerm"; "DeclareSection"; "Section"; "sequence"; "DeclaredSections"; ""];
   [""; ""; ""; ""; ""; ""];
   ["Section "; "DeclaredTerms"; "TermValueName"; "InheritsFrom"; "Section"; ""];
   ["# Top Level Dataset Terms"; ""; ""; ""; ""; ""];
   ["DeclareTerm"; "Root.Title"; ""; ""; "Root"; ""];
   ["DeclareTerm"; "Title.Language"; ""; ""; "Root"; ""];
   ["DeclareTerm"; "Root.Summary"; ""; "Root.Title"; "Root"; ""]].
Definition env70 : env := mk_env (fun n => eqs n "metatab-latest") (fun _ => None) (fun n => if eqs n "metatab-latest" then Some decl70 else None).
Definition place70 : place := mk_place env70 2 None "" default_classes [] [] [].
Definition head70 : list (list string) := [["Declare"; "metatab-latest"; ""; ""; ""]].
Definition rows70 : list (list string) :=
  [["Title"; ""; ""; ""; ""];
   ["Description"; ""; ""; ""; ""];
   ["Identifier"; ""; ""; ""; ""];
   ["Name"; ""; ""; ""; ""];
   ["Dataset"; ""; ""; ""; ""];
   ["Origin"; ""; ""; ""; ""];
   ["Space"; ""; ""; ""; ""];
   ["Time"; ""; ""; ""; ""];
   ["Grain"; ""; ""; ""; ""];
   ["Variant"; ""; ""; ""; ""];
   ["Version"; "1"; ""; ""; ""];
   [""; ""; ""; ""; ""];
   ["Section"; "References"; "Name"; "Description"; ""];
   [""; ""; ""; ""; ""];
   ["Section"; "Resources"; "Name"; "Description"; ""];
   [""; ""; ""; ""; ""];
   ["Section "; "Documentation"; "Title"; "Description"; ""];
   [""; ""; ""; ""; ""];
   ["Section"; "Contacts"; "Email"; "Organization"; "Url"];
   [""; ""; ""; ""; ""];
   ["Section"; "Schema"; "DataType"; "AltName"; "Description"]].
Definition lines70 : list line :=
  [LTerm "root" "title" "" [""; ""; ""];
   LTerm "root" "description" "" [""; ""; ""];
   LTerm "root" "identifier" "" [""; ""; ""];
   LTerm "root" "name" "" [""; ""; ""];
   LTerm "root" "dataset" "" [""; ""; ""];
   LTerm "root" "origin" "" [""; ""; ""];
   LTerm "root" "space" "" [""; ""; ""];
   LTerm "root" "time" "" [""; ""; ""];
   LTerm "root" "grain" "" [""; ""; ""];
   LTerm "root" "variant" "" [""; ""; ""];
   LTerm "root" "version" "1" [""; ""; ""];
   LBlank;
   LSection "References" ["Name"; "Description"; ""];
   LBlank;
   LSection "Resources" ["Name"; "Description"; ""];
   LBlank;
   LSection "Documentation" ["Title"; "Description"; ""];
   LBlank;
   LSection "Contacts" ["Email"; "Organization"; "Url"];
   LBlank;
   LSection "Schema" ["DataType"; "AltName"; "Description"]].
Definition state70 : st := Eval vm_compute in
  let s := new_doc (in_reg place70) [] [] [] in
  fst (rows_to env70 true (generate_terms env70 true 1) (mk_source None "" (head70 ++ rows70)) None 1 head70 0 (set_s_prs (fresh_parser s) s)).
Definition full70 : st := Eval vm_compute in fst (load_into place70 (head70 ++ rows70)).

Lemma after70 : loads_after place70 head70 rows70 ["declaredterms"] state70 lines70 full70.
Proof.
  split.
  - vm_compute. reflexivity.
  - exists 0. vm_compute. reflexivity.
  - apply calm_by. vm_compute. reflexivity.
  - apply means_by; vm_compute; reflexivity.
  - intros k K [<-|[]]. vm_compute in K. repeat destruct K as [K|K]; try discriminate K; exact K.
Qed.
Definition Q70 : Quirks := known_quirks [3; 7; 8; 12; 16; 18] ["declaredterms"].

Example C70_real : @in_order Q70 full70 /\ dkeys (secs full70) = ["root"; "declaredterms"; "references"; "resources"; "documentation"; "contacts"; "schema"].
Proof.
  split; [|vm_compute; reflexivity].
  refine (C70_order Q70 _ _ _ _ _ _ _ after70 _ _ _).
  - apply ready_by. vm_compute. reflexivity.
  - repeat constructor; intros (r & x & cells & H); try discriminate H; injection H as H1 H2; subst; discriminate.
  - repeat (apply Forall_cons; [first [exact Logic.I | apply dotsb_ok; reflexivity]|]). apply Forall_nil.
Qed.
