(** * SpecDict: the nested dict of a term (C33, C34) and the walk over all
    terms (C51) *)

From Verif Require Import PyStr PyBase State Render SpecInv SpecFind.

(** [x] comes before [y] in [l] *)
Definition before {A} (l : list A) (x y : A) : Prop := exists a b c, l = (a ++ x :: b ++ y :: c)%list.

(** the text of a converted child in a concatenation *)
Inductive text_in : jv -> string -> Prop :=
| text_str : forall t, text_in (JVal (VStr t)) t
| text_falsy : forall x, jtruthy x = false -> text_in x "".

Definition special (p : string) : Prop := p = "scalar" \/ p = "sequence" \/ p = "sconcat" \/ p = "bconcat".

(** how the children of one name, converted to [xs], are represented when they
    have the property type [p] *)
Inductive shaped : string -> list jv -> jv -> Prop :=
| sh_scalar : forall xs x, shaped "scalar" (xs ++ [x]) x
| sh_sequence : forall xs, shaped "sequence" xs (JList xs)
| sh_sconcat : forall xs ts, Forall2 text_in xs ts -> shaped "sconcat" xs (JVal (VStr (String.concat " " ts)))
| sh_bconcat : forall xs ts, Forall2 text_in xs ts -> shaped "bconcat" xs (JVal (VStr (String.concat "" ts)))
| sh_one : forall p x, ~ special p -> shaped p [x] x
| sh_more : forall p x y xs, ~ special p -> shaped p (x :: y :: xs) (JList (x :: y :: xs)).

(** [named s k cs xs g]: [g] are the conversions of those children [cs] that are
    called [k], in order *)
Inductive named (s : st) (k : string) : list nat -> list jv -> list jv -> Prop :=
| nm_nil : named s k [] [] []
| nm_take : forall c cs x xs g, lower (t_rt (tget c s)) = k -> named s k cs xs g -> named s k (c :: cs) (x :: xs) (x :: g)
| nm_skip : forall c cs x xs g, lower (t_rt (tget c s)) <> k -> named s k cs xs g -> named s k (c :: cs) (x :: xs) g.

(** the entries for the children [cs], converted to [xs] *)
Definition entries (s : st) (cs : list nat) (xs : list jv) (d : dict jv) : Prop :=
  NoDup (map fst d)
  /\ (forall k j, In (k, j) d -> exists c, In c cs /\ lower (t_rt (tget c s)) = k)
  /\ forall c, In c cs -> exists g j, named s (lower (t_rt (tget c s))) cs xs g /\ shaped (t_cpt (tget c s)) g j /\ In (lower (t_rt (tget c s)), j) d.

(** the key of the value of a term *)
Definition value_key (s : st) (rvn : bool) (i : nat) : string := if rvn then lower (t_tvn (tget i s)) else "@value".

(** [dict_rep s rvn i j]: [j] is the nested dict of the term [i] *)
Inductive dict_rep (s : st) (rvn : bool) : nat -> jv -> Prop :=
| dr_leaf : forall i, t_children (tget i s) = [] -> dict_rep s rvn i (JVal (t_val (tget i s)))
| dr_plain : forall i xs d, t_children (tget i s) <> [] -> Forall2 (dict_rep s rvn) (t_children (tget i s)) xs ->
    entries s (t_children (tget i s)) xs d -> truthy (t_val (tget i s)) = false -> dict_rep s rvn i (JDict d)
| dr_value : forall i xs d d', t_children (tget i s) <> [] -> Forall2 (dict_rep s rvn) (t_children (tget i s)) xs ->
    entries s (t_children (tget i s)) xs d -> truthy (t_val (tget i s)) = true ->
    (forall k j, dget k d' = Some j <-> (k = value_key s rvn i /\ j = JVal (t_val (tget i s))) \/ (k <> value_key s rvn i /\ dget k d = Some j)) ->
    dict_rep s rvn i (JDict d').

(** children of one name have one property type, and names are as the
    constructors make them *)
Definition uniform (s : st) : Prop := forall i a b, In a (t_children (tget i s)) -> In b (t_children (tget i s)) ->
  lower (t_rt (tget a s)) = lower (t_rt (tget b s)) -> t_cpt (tget a s) = t_cpt (tget b s).
Definition lower_names (s : st) : Prop := forall i, i < hlen s -> lower (t_rt (tget i s)) = t_rt (tget i s).

(** no joining of texts, which needs texts *)
Definition no_concat (s : st) (i : nat) : Prop := forall x, under s i x -> t_cpt (tget x s) <> "sconcat" /\ t_cpt (tget x s) <> "bconcat".

(** [y] is inside [j] *)
Inductive inside : jv -> jv -> Prop :=
| in_same : forall j, inside j j
| in_dict : forall d k x y, In (k, x) d -> inside x y -> inside (JDict d) y
| in_list : forall l x y, In x l -> inside x y -> inside (JList l) y.

(** types that keep all children, and no child called like the value *)
Definition keeps_all (s : st) (rvn : bool) (i : nat) : Prop :=
  forall x, x = i \/ under s i x -> forall c, In c (t_children (tget x s)) ->
    t_cpt (tget c s) <> "scalar" /\ t_cpt (tget c s) <> "sconcat" /\ t_cpt (tget c s) <> "bconcat"
    /\ (truthy (t_val (tget x s)) = true -> lower (t_rt (tget c s)) <> value_key s rvn x).

(** ** Whole documents and sections *)

(** the terms of all sections, section by section *)
Definition section_terms (s : st) : list nat := concat (map (fun kv => t_terms (tget (snd kv) s)) (secs s)).

(** terms of one name in the list have one property type *)
Definition uniform_list (s : st) (l : list nat) : Prop := forall a b, In a l -> In b l ->
  lower (t_rt (tget a s)) = lower (t_rt (tget b s)) -> t_cpt (tget a s) = t_cpt (tget b s).

(** the dict of a document: the entries of its terms, and 'Root' under '@value'
    when the names of values are not replaced *)
Inductive doc_rep (s : st) (rvn : bool) : jv -> Prop :=
| doc_empty : section_terms s = [] -> doc_rep s rvn (JVal (VStr "Root"))
| doc_terms : forall xs d d', section_terms s <> [] -> Forall2 (dict_rep s rvn) (section_terms s) xs -> entries s (section_terms s) xs d ->
    (forall k, k <> "@value" -> dget k d' = dget k d) -> dget "@value" d' = (if rvn then None else Some (JVal (VStr "Root"))) ->
    doc_rep s rvn (JDict d').
