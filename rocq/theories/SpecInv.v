(** * SpecInv: documents in good order

    [doc_ok s]: what the operations of the document interface rely on and keep
    up (C20 - C28): the document list, the section lists and the trees of
    children agree with the links stored in the terms.

    A document read from a file with a Declare row has two oddities the
    declarations bring along: terms that are in the document list although their
    section is not in the section table, and sections with a column that is
    called "section".  [lost] and [odd] say which; a document has neither unless
    a statement says otherwise ([plain_doc]). *)

From Verif Require Import SpecNames PyBase State Ops.

(** the section table *)
Definition secs (s : st) : list (string * nat) := d_sections (s_doc s).
(** the document list *)
Definition listed (s : st) : list nat := d_terms (s_doc s).

Definition is_sec (s : st) (i : nat) : Prop := i < hlen s /\ is_section_cls (t_cls (tget i s)) = true.
Definition is_plain (s : st) (i : nat) : Prop := i < hlen s /\ is_section_cls (t_cls (tget i s)) = false.

(** no column is called "section", the name of an attribute of all terms *)
Definition usual_columns (cols : list string) : Prop := ~ In "section" (map lower cols).
Definition columns_of (r : trec) : list string := match t_hargs r with [] => t_args r | hs => hs end.

(** the terms without a section, and the names of the sections with a column
    called "section", that a document may have *)
Class Quirks : Type := mk_quirks { lost : nat -> Prop; odd : string -> Prop; plain_root : ~ odd "root" }.
#[global] Instance plain_doc : Quirks | 100 := mk_quirks (fun _ => False) (fun _ => False) (fun x => x).

Record doc_ok {QK : Quirks} (s : st) : Prop := {
  (* sections: one per name, each a section object of that name *)
  ok_keys : NoDup (map fst (secs s));
  ok_section : forall k i, In (k, i) (secs s) ->
    is_sec s i /\ t_doc (tget i s) = true /\ (odd k \/ usual_columns (columns_of (tget i s)))
    /\ exists n, t_val (tget i s) = VStr n /\ lower n = k;
  (* the document list and the section lists *)
  ok_list : NoDup (listed s);
  ok_lists : forall k i, In (k, i) (secs s) -> NoDup (t_terms (tget i s));
  ok_listed : forall t, In t (listed s) -> is_plain s t /\ lower (t_pt (tget t s)) = "root"
    /\ ((exists k i, In (k, i) (secs s) /\ t_section (tget t s) = Some i /\ In t (t_terms (tget i s)))
        \/ (lost t /\ forall k i, In (k, i) (secs s) -> t_section (tget t s) <> Some i));
  ok_in : forall k i t, In (k, i) (secs s) -> In t (t_terms (tget i s)) -> In t (listed s) /\ t_section (tget t s) = Some i;
  (* a term of the list hangs under no other term *)
  ok_top : forall t, In t (listed s) -> match t_parent (tget t s) with None => True | Some p => is_sec s p end;
  (* every term has a section, every section a name *)
  ok_plain : forall t, is_plain s t -> exists i, t_section (tget t s) = Some i /\ is_sec s i;
  ok_named : forall i, is_sec s i -> exists n, t_val (tget i s) = VStr n;
  (* children are younger than their parent and know it *)
  ok_child : forall i c, In c (t_children (tget i s)) -> i < c /\ is_plain s c /\ t_parent (tget c s) = Some i;
  ok_children : forall i, NoDup (t_children (tget i s));
  (* declared columns *)
  ok_declared : forall k sd, In (k, sd) (d_decl_sections (s_doc s)) -> odd k \/ usual_columns (map strip (sd_args sd))
}.

(** [under s t x]: [x] is a child of [t], or a child of such a term, ... *)
Inductive under (s : st) (t : nat) : nat -> Prop :=
| under_child : forall c, In c (t_children (tget t s)) -> under s t c
| under_deep : forall c d, under s t c -> In d (t_children (tget c s)) -> under s t d.
