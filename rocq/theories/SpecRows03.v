(** * SpecRows03: what it means that rows without a term do not matter *)

From Verif Require Import SpecNames SpecParse State Parser.

(** two term objects that differ at most in the recorded row.  A section keeps
    its row in the column field as well (terms.py:695). *)
Definition no_row (r : trec) : trec :=
  set_t_row None (if is_section_cls (t_cls r) then set_t_col None r else r).
Definition same_but_row (a b : trec) : Prop := no_row a = no_row b.

(** two outcomes of a load that differ at most in recorded rows: the terms,
    the sections, the declarations, the parser and the error raised, if any *)
Definition same_document (x y : st * res unit) : Prop :=
  Forall2 same_but_row (s_heap (fst x)) (s_heap (fst y))
  /\ s_doc (fst x) = s_doc (fst y) /\ s_prs (fst x) = s_prs (fst y) /\ s_reg (fst x) = s_reg (fst y)
  /\ snd x = snd y.

(** one file is the other with blank and comment rows inserted or deleted *)
Inductive alike : list (list string) -> list (list string) -> Prop :=
| alike_nil : alike [] []
| alike_left : forall r a b, blank_row r -> alike a b -> alike (r :: a) b
| alike_right : forall r a b, blank_row r -> alike a b -> alike a (r :: b)
| alike_keep : forall r a b, alike a b -> alike (r :: a) (r :: b).

(** the first term of a file is a section *)
Definition starts_section (rows : list (list string)) : Prop :=
  exists bs r more, rows = (bs ++ r :: more)%list /\ Forall blank_row bs /\ ~ blank_row r
    /\ (cell_names (hd "" r) "root" "section" \/ cell_names (hd "" r) "root" "root").

(** the first line of a file is blank or a comment *)
Definition blank_first (rows : list (list string)) : Prop := exists r more, rows = r :: more /\ blank_row r.

(** no row is put above, or taken from above, a section on the first line *)
Definition heading_kept (a b : list (list string)) : Prop :=
  starts_section a -> (blank_first a <-> blank_first b).

(** the files of two environments: the same up to blank and comment rows *)
Definition files_alike (e1 e2 : env) : Prop :=
  (forall x, fexists e1 x = fexists e2 x) /\ (forall x, declpath e1 x = declpath e2 x)
  /\ forall x, match fetch e1 x, fetch e2 x with
               | Some a, Some b => alike a b /\ heading_kept a b
               | None, None => True
               | _, _ => False
               end.

(** nothing to include or declare *)
Definition no_files (e : env) : Prop := forall x, fetch e x = None.
