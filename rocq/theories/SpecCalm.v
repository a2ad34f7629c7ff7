(** * SpecCalm: first rows that leave the parser in good order

    What the first rows of a file, and the files they name in Declare and
    Include rows, have to look like for the state after them to be calm
    (SpecHead.v).  Only their texts are spoken about.  [odd]: the names of the
    sections that may have a column "section"; [syn]: the numbers of the columns
    that may be called "synonym", which the declarations of terms leave empty. *)

From Verif Require Import SpecNames SpecParse Parser SpecDoc SpecInclude.

Definition synonyms_at (syn : list nat) (cols : list string) : Prop :=
  forall i c, nth_error cols i = Some c -> lower c = "synonym" -> In i syn.

Definition quiet_line (odd : list string) (syn : list nat) (l : line) : Prop :=
  match l with
  | LBlank => True
  | LSection n cells => (In "section" (map lower cells) -> In (lower (strip n)) odd) /\ synonyms_at syn cells
  | LHeader n cells => ~ In "section" (map lower cells) /\ synonyms_at syn cells /\ lower n <> "synonym"
  | LTerm p r x cells =>
      py_int r = None /\ r <> current_parent /\ r <> "root"
      /\ (p = current_parent -> ~ In r ["section"; "header"])
      /\ (r = "declareterm" -> lower x <> "synonym" /\ Forall (fun c => lower c <> "synonym") cells
          /\ forall i c, In i syn -> nth_error cells i = Some c -> c = "")
  end.

Definition quiet_row (odd : list string) (syn : list nat) (row : list string) : Prop :=
  exists l, reads row l /\ quiet_line odd syn l.

(** the place: its files, and the declarations the document already has *)
Record quiet_place (odd : list string) (syn : list nat) (g : place) : Prop := {
  qp_reg : good_reg (in_reg g);
  qp_root : ~ In "root" odd;
  qp_cols : forall n, (In "section" (map lower (map strip (cols_of g n))) -> In (lower (strip n)) odd)
    /\ synonyms_at syn (map strip (cols_of g n));
  qp_terms : forall k td v, dget k (in_terms g) = Some td -> dget "termvaluename" (td_props td) = Some v -> lower v <> "synonym";
  qp_files : forall x rows, fetch (in_env g) x = Some rows -> Forall (quiet_row odd syn) rows
}.
