(** * SpecEdit: children by name (C26) and small vocabulary for C20 - C25 *)

From Verif Require Import PyStr PyBase State Ops SpecNames SpecInv SpecFind.

(** [item] names a child called [n] of the term [i]: either plainly or with the
    name of [i] in front *)
Inductive child_item (s : st) (i : nat) (n : string) : string -> Prop :=
| item_plain : child_item s i n n
| item_qualified : forall a, dot_free a -> lower a = lower (t_rt (tget i s)) -> child_item s i n (a ++ "." ++ n).

Definition called (s : st) (n : string) (c : nat) : Prop := lower (t_rt (tget c s)) = lower n.

(** [c] is the first child of [i] called [n] *)
Definition first_child (s : st) (i : nat) (n : string) (c : nat) : Prop :=
  exists a b, t_children (tget i s) = a ++ c :: b /\ called s n c /\ (forall x, In x a -> ~ called s n x).
Definition no_child (s : st) (i : nat) (n : string) : Prop :=
  forall x, In x (t_children (tget i s)) -> ~ called s n x.

(** the item is the name of the term's own value *)
Definition own_value (s : st) (i : nat) (item : string) : Prop :=
  lower item = lower (t_tvn (tget i s)) \/ lower item = "value".

(** a child name that is allowed: "Datafile.Section" is not *)
Definition allowed_child (s : st) (i : nat) (n : string) : Prop :=
  ~ (lower (t_rt (tget i s)) = "datafile" /\ lower n = "section").

(** a name as the constructors make them *)
Definition made_name (n : string) : Prop := tidy n /\ dot_free n /\ n <> "" /\ lower n = n.

(** [l] without [t] *)
Definition without (t : nat) (l : list nat) : list nat := filter (fun x => negb (x =? t)) l.

(** somewhere in the document: a section, a term of the list, or below one *)
Definition present (s : st) (x : nat) : Prop :=
  (exists k, In (k, x) (secs s)) \/ exists t, In t (listed s) /\ (x = t \/ under s t x).

(** a name without white space around it *)
Definition proper_name (n : string) : Prop := strip n = n /\ n <> "".
(** a cell that names a term of the top level *)
Definition top_name (term : string) : Prop := exists n, cell_names term "root" n.

(** a term remove_term can be used on: not a section, its value not called
    "section", and its section, if it is of the top level, one of the document *)
Definition removable {QK : Quirks} (s : st) (t : nat) : Prop :=
  is_plain s t /\ lower (t_tvn (tget t s)) <> "section"
  /\ (lower (t_pt (tget t s)) = "root" -> exists k i, In (k, i) (secs s) /\ ~ odd k /\ t_section (tget t s) = Some i).

(** one operation on the document, whether it returns or raises *)
Inductive edit {QK : Quirks} (s s' : st) : Prop :=
| ed_new_section : forall n params r, proper_name n -> usual_columns (map strip params) -> dget (lower n) (secs s) = None ->
    new_section n params s = (s', r) -> edit s s'
| ed_get_or_new_section : forall n params r, proper_name n -> usual_columns (map strip params) ->
    (lower n = n \/ dget (lower n) (secs s) = None) -> get_or_new_section n params s = (s', r) -> edit s s'
| ed_del_section : forall n r, lower n = n \/ dget (lower n) (secs s) = None -> del_section n s = (s', r) -> edit s s'
| ed_sort_sections : forall order r, sort_sections order s = (s', r) -> edit s s'
| ed_sort_terms : forall k sec order r, In (k, sec) (secs s) -> sort_by_term sec order s = (s', r) -> edit s s'
| ed_new_term : forall k sec term value kw r, In (k, sec) (secs s) -> ~ odd k -> top_name term -> new_term sec term value kw s = (s', r) -> edit s s'
| ed_get_or_new_term : forall k sec term value kw r, In (k, sec) (secs s) -> ~ odd k -> top_name term -> tidy_pattern term ->
    (forall ds, dget (lower term) (d_derived (s_doc s)) = Some ds -> Forall (fun d => top_name d /\ tidy_pattern d) ds) ->
    get_or_new_term sec term value kw s = (s', r) -> edit s s'
| ed_remove_term : forall t r, removable s t -> (forall p, t_parent (tget t s) = Some p -> t_doc (tget p s) = true) ->
    doc_remove_term t s = (s', r) -> edit s s'
| ed_new_child : forall i term value kw r, is_plain s i -> new_child i term value kw s = (s', r) -> edit s s'
| ed_get_or_new_child : forall i term value kw r, is_plain s i -> get_or_new_child i term value kw s = (s', r) -> edit s s'
| ed_set_item : forall i item value r, is_plain s i -> value <> VNone -> term_setitem i item value s = (s', r) -> edit s s'
| ed_set_value : forall i v, is_plain s i -> modT i (set_t_val v) s = (s', Ok tt) -> edit s s'.

(** any number of operations *)
Inductive edits {QK : Quirks} : st -> st -> Prop :=
| edits_none : forall s, edits s s
| edits_more : forall a b c, edits a b -> edit b c -> edits a c.

(** the document list and the section lists agree: each listed term is in
    exactly one section, once, and every term of a section is listed *)
Definition lists_agree {QK : Quirks} (s : st) : Prop :=
  NoDup (listed s) /\ (forall k i, In (k, i) (secs s) -> NoDup (t_terms (tget i s)))
  /\ (forall k i t, In (k, i) (secs s) -> In t (t_terms (tget i s)) -> In t (listed s))
  /\ forall t, In t (listed s) -> ~ lost t -> exists k i, In (k, i) (secs s) /\ In t (t_terms (tget i s))
       /\ forall k' i', In (k', i') (secs s) -> In t (t_terms (tget i' s)) -> k' = k /\ i' = i.

(** ** Good order including the names of all terms *)
Definition dotless (s : st) : Prop := forall i, i < hlen s -> dot_free (t_pt (tget i s)) /\ dot_free (t_rt (tget i s)).
Record in_order {QK : Quirks} (s : st) : Prop := {
  io_ok : doc_ok s;
  io_names : names_ok s;
  io_dots : dotless s
}.

(** the value a constructor stores *)
Inductive stored : val -> val -> Prop :=
| stored_text : forall x y, x <> "" -> trimmed x y -> stored (VStr x) (VStr y)
| stored_empty : stored (VStr "") VNone
| stored_none : stored VNone VNone
| stored_false : stored VFalse VNone
| stored_zero : stored (VInt 0) VNone
| stored_int : forall z, z <> 0%Z -> stored (VInt z) (VInt z)
| stored_ref : forall i, stored (VRef i) (VRef i).

(** the text of a keyword value; None stays None *)
Inductive as_text : val -> val -> Prop :=
| text_none : as_text VNone VNone
| text_str : forall x, as_text (VStr x) (VStr x)
| text_other : forall v, v <> VNone -> (forall x, v <> VStr x) -> as_text v (VStr (str_val v)).
