(** * SpecRows: what the rows of a document have to contain (C36) *)

From Verif Require Import PyStr PyBase State Render SpecInv SpecFind.

(** the first cell of a row for the record [n] of [p] *)
Definition name_cell (p n : string) : val := VStr (title (replace "root." "" (p ++ "." ++ n))).

(** the name of the parent of [x]; the root for a term of the top level *)
Definition parent_name (s : st) (x : nat) : string :=
  match t_parent (tget x s) with Some p => lower (t_rt (tget p s)) | None => "root" end.

Definition leaf (s : st) (x : nat) : Prop := t_children (tget x s) = [].

(** the name under which the value of [x] goes *)
Definition declared_value_name (s : st) (x : nat) (n : string) : Prop :=
  (exists td, dget (parent_name s x ++ "." ++ lower (t_rt (tget x s))) (d_decl_terms (s_doc s)) = Some td /\ dget "termvaluename" (td_props td) = Some n)
  \/ (n = "@value" /\ forall td, dget (parent_name s x ++ "." ++ lower (t_rt (tget x s))) (d_decl_terms (s_doc s)) = Some td -> dget "termvaluename" (td_props td) = None).

(** the leaves of a term have names of their own, other than the name of the
    value *)
Definition apart (s : st) (x : nat) : Prop :=
  NoDup (map (fun c => lower (t_rt (tget c s))) (filter (fun c => match t_children (tget c s) with [] => true | _ => false end) (t_children (tget x s))))
  /\ forall c, In c (t_children (tget x s)) -> leaf s c -> t_rt (tget c s) <> ""
       /\ forall n, declared_value_name s x n -> lower (t_rt (tget c s)) <> lower n.

(** [x] has a row of its own *)
Definition own_row (s : st) (rows : list (list val)) (x : nat) : Prop :=
  exists cells, In (name_cell (parent_name s x) (lower (t_rt (tget x s))) :: t_val (tget x s) :: cells) rows.

(** [x] is a cell of the row of its parent, in the column of its name *)
Definition in_column (s : st) (cols : list string) (rows : list (list val)) (x : nat) : Prop :=
  exists p cells k col, t_parent (tget x s) = Some p
    /\ In (name_cell (parent_name s p) (lower (t_rt (tget p s))) :: t_val (tget p s) :: cells) rows
    /\ nth_error cols k = Some col /\ lower col = lower (t_rt (tget x s)) /\ nth_error cells k = Some (t_val (tget x s)).

(** ** What a row says *)

(** the row of a term: its name, its value, and one cell for each column of its
    section, empty or with the value of a child of that name *)
Definition row_for (s : st) (cols : list string) (x : nat) (row : list val) : Prop :=
  exists cells, row = name_cell (parent_name s x) (lower (t_rt (tget x s))) :: t_val (tget x s) :: cells
    /\ length cells = length cols
    /\ forall k col v, nth_error cols k = Some col -> nth_error cells k = Some v ->
         v = VStr "" \/ exists c, In c (t_children (tget x s)) /\ leaf s c /\ lower (t_rt (tget c s)) = lower col /\ t_val (tget c s) = v.

(** the row of a leaf that has no column *)
Definition leaf_row (s : st) (cols : list string) (c : nat) (row : list val) : Prop :=
  leaf s c /\ ~ In (lower (t_rt (tget c s))) (map lower cols)
  /\ row = [name_cell (parent_name s c) (lower (t_rt (tget c s))); t_val (tget c s)].

(** [x] is a term of the section [i], or below one *)
Definition belongs (s : st) (i x : nat) : Prop := exists t, In t (t_terms (tget i s)) /\ (x = t \/ under s t x).

(** every row is there for a reason *)
Definition row_accounted (s : st) (row : list val) : Prop :=
  row = [VStr ""]
  \/ exists k i, In (k, i) (secs s)
     /\ ((t_val (tget i s) <> VStr "Root" /\ row = VStr "Section" :: t_val (tget i s) :: map VStr (columns_of (tget i s)))
         \/ exists x, belongs s i x /\ (row_for s (columns_of (tget i s)) x row \/ leaf_row s (columns_of (tget i s)) x row)).

(** the section of [x] is a section of the document *)
Definition housed (s : st) (x : nat) : Prop := exists k i, t_section (tget x s) = Some i /\ In (k, i) (secs s).
(** no name declared for a value is empty *)
Definition value_names (s : st) : Prop := forall k td, In (k, td) (d_decl_terms (s_doc s)) -> dget "termvaluename" (td_props td) <> Some "".
