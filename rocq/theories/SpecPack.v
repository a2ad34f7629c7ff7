(** * SpecPack: vocabulary for data packages (C47) and schema cleaning (C50) *)

From Verif Require Import PyStr PyBase State Render SpecNames SpecOrder SpecInv SpecFind SpecEdit.

(** what terms are in is a section *)
Definition sectioned (s : st) : Prop := forall t j, t_section (tget t s) = Some j -> is_section_cls (t_cls (tget j s)) = true.

(** the property [k] given on the row of [t]: its value, or the cell below the
    last column of that name *)
Definition cell_of (s : st) (t : nat) (k : string) (n : nat) (a : string) : Prop :=
  exists j col, t_section (tget t s) = Some j /\ nth_error (columns_of (tget j s)) n = Some col /\ lower col = k /\ nth_error (t_args (tget t s)) n = Some a.
Definition row_prop (s : st) (t : nat) (k : string) (v : val) : Prop :=
  (k = lower (t_tvn (tget t s)) /\ v = t_val (tget t s))
  \/ (k <> lower (t_tvn (tget t s)) /\ exists n a, cell_of s t k n a /\ v = VStr a /\ forall n' a', cell_of s t k n' a' -> n' <= n).

(** a table of the schema: its value and its columns *)
Definition table_of (s : st) (t : nat) (vc : val * jv) : Prop :=
  exists d, as_dict (heap_fuel (s_heap s)) (s_heap s) true t = Ok (JDict d) /\ dget "column" d = Some (snd vc) /\ fst vc = t_val (tget t s).
(** the columns of the (last) table called [v] *)
Definition schema_for (tables : list (val * jv)) (v : val) (c : jv) : Prop :=
  exists a k b, tables = (a ++ (k, c) :: b)%list /\ veq v k = true /\ forall k' c', In (k', c') b -> veq v k' = false.
(** the table for the data file [t]: the one with its name; if there is none,
    the one it says *)
Definition table_for (s : st) (tables : list (val * jv)) (t : nat) (c : jv) : Prop :=
  exists n, row_prop s t "name" n /\ (schema_for tables n c \/ ((forall c', ~ schema_for tables n c') /\ exists v, row_prop s t "table" v /\ schema_for tables v c)).
Definition type_name (v : val) : val :=
  match v with
  | VStr x => VStr (if eqs x "str" then "string" else if eqs x "text" then "string" else if eqs x "unicode" then "string" else if eqs x "int" then "integer" else if eqs x "float" then "number" else x)
  | v => v
  end.
(** the field for a column *)
Definition field_of (c f : jv) : Prop :=
  exists d e, c = JDict d /\ f = JDict e
    /\ (forall p x, In p ["name"; "title"; "description"] -> (dget p e = Some x <-> dget p d = Some x /\ jtruthy x = true))
    /\ (forall p x, dget p e = Some x -> In p ["name"; "title"; "description"; "type"])
    /\ ((exists v, dget "datatype" d = Some (JVal v) /\ dget "type" e = Some (JVal (type_name v))) \/ (dget "datatype" d = None /\ dget "type" e = Some (JVal VNone))).
Definition fields_of (c : jv) (fs : list jv) : Prop :=
  match c with JList l => Forall2 field_of l fs | _ => fs = [] end.
(** the resources for the data files: those with a table, in order *)
Inductive packed (s : st) (tables : list (val * jv)) : list nat -> list jv -> Prop :=
| pk_none : packed s tables [] []
| pk_skip : forall t l out, (forall c, ~ table_for s tables t c) -> packed s tables l out -> packed s tables (t :: l) out
| pk_take : forall t l out c u n fs, table_for s tables t c -> row_prop s t "url" u -> row_prop s t "name" n -> fields_of c fs -> packed s tables l out ->
    packed s tables (t :: l) (JDict [("path", JVal u); ("name", JVal n); ("schema", JDict [("fields", JList fs)])] :: out).

(** the data files of a section *)
Definition datafiles (s : st) (sec : nat) : list nat := filter (fun t => eqs (lower (t_pt (tget t s)) ++ "." ++ lower (t_rt (tget t s))) "root.datafile") (t_terms (tget sec s)).
(** the entries from the root and identity sections *)
Definition front_of (s : st) (d : dict jv) : Prop :=
  exists r dr, dget "root" (secs s) = Some r /\ section_as_dict (s_heap s) true r = Ok (JDict dr)
    /\ ((exists i di, dget "identity" (secs s) = Some i /\ section_as_dict (s_heap s) true i = Ok (JDict di) /\ d = dupdate dr di)
        \/ (dget "identity" (secs s) = None /\ d = dr)
        \/ (exists i, dget "identity" (secs s) = Some i /\ (section_as_dict (s_heap s) true i = Ok (JVal (VStr "")) \/ section_as_dict (s_heap s) true i = Err EKey) /\ d = dr)).

(** ** Cleaning the schema (C50) *)

(** [c] is a Column of a Table of the section [sec] *)
Definition schema_column (s : st) (sec c : nat) : Prop :=
  exists t, In t (t_terms (tget sec s)) /\ lower (t_rt (tget t s)) = "table" /\ In c (t_children (tget t s)) /\ lower (t_rt (tget c s)) = "column".
Definition is_text (v : val) : Prop := truthy v = false \/ exists x, v = VStr x.
Definition has_text (v : val) : Prop := exists x, v = VStr x /\ ~ white x.
(** a Column has a property [k] with a value; the last one counts *)
Definition used_property (s : st) (sec : nat) (k : string) : Prop :=
  exists c x a b, schema_column s sec c /\ t_children (tget c s) = (a ++ x :: b)%list /\ lower (t_rt (tget x s)) = k
    /\ (forall y, In y b -> lower (t_rt (tget y s)) <> k) /\ has_text (t_val (tget x s)).
(** a name for a column of a section *)
Definition column_name (n : string) : Prop := tidy n /\ n <> "" /\ ~ In (ascii_of_nat 223) (list_ascii_of_string n) /\ lower n <> "section".
(** no term without a section was in one of this name *)
Definition none_lost {QK : Quirks} (s : st) (name : string) : Prop :=
  forall t i n, lost t -> t_section (tget t s) = Some i -> t_val (tget i s) = VStr n -> lower n <> name.
Definition usual_schema {QK : Quirks} (s : st) (sec : nat) : Prop :=
  none_lost s "schema"
  /\ Forall column_name (t_args (tget sec s))
  /\ forall c, schema_column s sec c -> t_doc (tget c s) = true
     /\ forall x, In x (t_children (tget c s)) -> is_text (t_val (tget x s)) /\ column_name (t_rt (tget x s)) /\ removable s x.

(** tables and data files that can be converted *)
Definition column_dict (c : jv) : Prop := exists d, c = JDict d /\ (dget "datatype" d = None \/ exists v, dget "datatype" d = Some (JVal v)).
Definition column_list (c : jv) : Prop := exists l, c = JList l /\ Forall column_dict l.
Definition full_row (s : st) (t : nat) : Prop := t_section (tget t s) <> None /\ (exists n, row_prop s t "name" n) /\ exists u, row_prop s t "url" u.
