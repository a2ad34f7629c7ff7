(** * SpecPad: documents that differ in empty cells at the ends of rows *)

From Verif Require Import SpecNames SpecParse SpecNumber State Parser.

(** some empty cells more *)
Definition padded_cells (x y : list string) : Prop := exists n, y = (x ++ repeat "" n)%list.

(** two term objects that differ at most in empty cells at the end of the
    recorded cells of the row and, for a section, of its header *)
Definition no_cells (r : trec) : trec := set_t_args [] (set_t_hargs [] r).
Definition same_but_pad (a b : trec) : Prop :=
  no_cells a = no_cells b /\ padded_cells (t_args a) (t_args b) /\ padded_cells (t_hargs a) (t_hargs b).

(** two outcomes of a load that differ at most in this: the terms, the sections,
    the declarations, and the error raised, if any *)
Definition same_padded (x y : st * res unit) : Prop :=
  Forall2 same_but_pad (s_heap (fst x)) (s_heap (fst y))
  /\ s_doc (fst x) = s_doc (fst y) /\ s_reg (fst x) = s_reg (fst y) /\ snd x = snd y.

(** a name with a character that no number has *)
Definition wordy (n : string) : Prop :=
  exists a c b, n = (a ++ String c b)%string /\ ~ (exists d, digit c d) /\ isspace c = false
    /\ c <> "+"%char /\ c <> "-"%char /\ c <> "_"%char.

(** a row that is not a Declare row and whose name is not a number *)
Definition readable (r : list string) : Prop :=
  forall p n, cell_names (hd "" r) p n -> wordy n /\ ~ (p = "root" /\ n = "declare").

(** A Section row that has no cells for columns gets the declared columns of
    the section: it can be padded if there are none.  A Header row can be padded
    if it has a column. *)
Definition may_pad (cols : string -> list string) (r : list string) : Prop :=
  (cell_names (hd "" r) "root" "section" \/ cell_names (hd "" r) "root" "root" ->
     2 < List.length r \/ cols (nth 1 r "") = [])
  /\ (forall p, cell_names (hd "" r) p "header" -> 2 < List.length r).

Definition padded_row (cols : string -> list string) (r1 r2 : list string) : Prop :=
  padded_cells r1 r2 /\ (blank_row r1 \/ readable r1) /\ (r1 = r2 \/ may_pad cols r1).
Definition padded_rows (cols : string -> list string) : list (list string) -> list (list string) -> Prop :=
  Forall2 (padded_row cols).

(** the files of two environments: the same up to empty cells *)
Definition files_padded (cols : string -> list string) (e1 e2 : env) : Prop :=
  (forall x, fexists e1 x = fexists e2 x) /\ (forall x, declpath e1 x = declpath e2 x)
  /\ forall x, match fetch e1 x, fetch e2 x with
               | Some a, Some b => padded_rows cols a b
               | None, None => True
               | _, _ => False
               end.

(** the sections of a document are sections, with the names sections have *)
Record sections_ok (s : st) : Prop := mk_sections_ok {
  so_names : forall r, In r (s_heap s) -> is_section_cls (t_cls r) = true ->
             t_pt r = "root" /\ (t_rt r = "section" \/ t_rt r = "root");
  so_root : is_section_cls (t_cls (tget (d_root (s_doc s)) s)) = true;
  so_listed : forall n i, dget n (d_sections (s_doc s)) = Some i -> is_section_cls (t_cls (tget i s)) = true
}.
(** no term is declared with a synonym *)
Definition no_synonyms (p : prec) : Prop :=
  forall k td, In (k, td) (p_dterms p) -> dget "synonym" (td_props td) = None.
