(** * SpecOrderly: files whose documents are in good order

    Conditions under which a parsed document is one the document interface can
    work on (SpecInv.doc_ok, SpecEdit.in_order). *)

From Verif Require Import SpecNames PyBase State SpecInv SpecEdit SpecDoc.

(** no column name contains a dot *)
Definition dotless_columns (l : line) : Prop :=
  match l with
  | LSection _ cells | LHeader _ cells => Forall dot_free cells
  | _ => True
  end.

(** the declared columns of sections: none is called "section", none contains a
    dot *)
Definition declared_plainly (g : place) : Prop :=
  forall k sd, In (k, sd) (in_secs g) -> usual_columns (map strip (sd_args sd)) /\ Forall dot_free (sd_args sd).

(** a file the parser turns into a document in good order *)
Record orderly_file (g : place) (rows : list (list string)) (ls : list line) : Prop := {
  of_place : good_reg (in_reg g) /\ declared_plainly g;
  of_means : means rows ls;
  of_trees : Forall (fun l => ~ own_parent l) ls;
  of_columns : Forall dotless_columns ls
}.
