(** * SpecWhere: the cells that terms are read from (C73) *)

From Verif Require Import SpecNames PyBase PyStr State Parser.

(** [row] is row number [n], counted from 1, of [rows] *)
Definition row_at (rows : list (list string)) (n : nat) (row : list string) : Prop :=
  exists before after, rows = (before ++ row :: after)%list /\ n = S (List.length before).

(** the rows that a term with file type [ft] is read from: those of the file
    itself, or those of a file that a Declare or Include row names *)
Definition file_rows (e : env) (main : list (list string)) (ft : option string) (rows : list (list string)) : Prop :=
  match ft with
  | None => rows = main
  | Some _ => exists f, fetch e f = Some rows
  end.

Definition section_term (r : trec) : Prop := is_section_cls (t_cls r) = true.

(** [r] is the term of the row [row], named in column 0, its value in column 1 *)
Definition of_row (row : list string) (r : trec) : Prop :=
  (exists p q, cell_names (nth 0 row "") p q /\ t_term r = (p ++ "." ++ q)%string)
  /\ (forall w, t_val r = VStr w -> w = strip (nth 1 row ""))
  /\ (~ section_term r -> t_col r = Some 1 /\ t_args r = map strip (skipn 2 row)).

(** [r] is the term of the cell in column [c] of the row [row] *)
Definition of_cell (row : list string) (c : nat) (r : trec) : Prop :=
  c >= 2 /\ t_col r = Some c /\ (exists p, t_term r = (p ++ "." ++ str_of_nat (c - 2))%string)
  /\ forall w, t_val r = VStr w -> w = strip (nth c row "").

(** [r] is the term of a column of a section, in the row of the section *)
Definition of_column (s : st) (r : trec) : Prop :=
  forall w, t_val r = VStr w -> exists i a, i < hlen s /\ section_term (tget i s) /\ In a (t_args (tget i s)) /\ w = strip a.

Definition written (e : env) (main : list (list string)) (s : st) (r : trec) : Prop :=
  exists rows n row, file_rows e main (t_ftype r) rows /\ row_at rows n row /\ t_row r = Some n
    /\ (of_row row r \/ ~ section_term r /\ exists c, of_cell row c r \/ t_col r = Some c /\ c >= 2 /\ of_column s r).

(** the sections of the document are sections *)
Definition sections_ok (s : st) : Prop := forall k i, In (k, i) (d_sections (s_doc s)) -> section_term (tget i s).

(** a term of the file itself that is not a section *)
Definition of_file (s : st) (i : nat) : Prop :=
  i < hlen s /\ t_ftype (tget i s) = None /\ t_row (tget i s) <> None /\ ~ section_term (tget i s).
