(** * SpecAttr: attributes, property dicts, set_terms, sections by name
    (C55 - C60) *)

From Verif Require Import PyStr PyBase State Ops Attr SpecNames SpecInv SpecFind SpecEdit.

(** a name that is no attribute of the term classes or of every object *)
Definition free_name (x : string) : Prop :=
  ~ In x instance_names /\ ~ In x class_names /\ forall y, x <> ("__" ++ y)%string.

(** url, name, description and schema, in any case *)
Definition common (x : string) : Prop := In (lower x) ["url"; "name"; "description"; "schema"].

(** the item is the name the term gives to its value *)
Definition value_name (s : st) (i : nat) (item : string) : Prop := lower item = lower (t_tvn (tget i s)).

(** the section of [i] has a column called [item] *)
Definition column (s : st) (i : nat) (item : string) : Prop :=
  exists j, t_section (tget i s) = Some j /\ In (lower item) (map lower (columns_of (tget j s))).

(** nothing has been stored in the term object itself under this name *)
Definition not_stored (a : ast) (i : nat) (item : string) : Prop := dget item (a_own a i) = None.

(** the same document, and one more attribute of the object [i] *)
Definition only_stored (a : ast) (i : nat) (item : string) (v : val) (a' : ast) : Prop :=
  a_st a' = a_st a /\ dget item (a_own a' i) = Some v
  /\ forall j x, j <> i \/ x <> item -> dget x (a_own a' j) = dget x (a_own a j).

(** the same attributes of the objects *)
Definition same_stored (a a' : ast) : Prop := forall j, a_own a' j = a_own a j.

(** ** Properties *)

(** [c] is the last child of [i] called [n] *)
Definition last_child (s : st) (i : nat) (n : string) (c : nat) : Prop :=
  exists a b, t_children (tget i s) = a ++ c :: b /\ called s n c /\ (forall x, In x b -> ~ called s n x).

(** [c] is the cell of [i] under the column [n] of its section [j]; of several
    columns of that name the last that has a cell *)
Definition cell_under (s : st) (i j : nat) (n c : string) : Prop :=
  exists m, (exists h, nth_error (columns_of (tget j s)) m = Some h /\ lower h = lower n)
    /\ nth_error (t_args (tget i s)) m = Some c
    /\ forall m' h c', nth_error (columns_of (tget j s)) m' = Some h -> lower h = lower n ->
         nth_error (t_args (tget i s)) m' = Some c' -> m' <= m.

(** the entry [v] for [n] in the properties given by the row of the term *)
Inductive row_property (s : st) (i j : nat) (n : string) : val -> Prop :=
| rp_value : value_name s i n -> row_property s i j n (t_val (tget i s))
| rp_cell : forall c, ~ value_name s i n -> cell_under s i j n c -> row_property s i j n (VStr c).

(** and in all properties: children come first *)
Inductive any_property (s : st) (i j : nat) (n : string) : val -> Prop :=
| ap_child : forall c, last_child s i n c -> any_property s i j n (t_val (tget c s))
| ap_row : forall v, no_child s i n -> row_property s i j n v -> any_property s i j n v.

(** [d] holds exactly the entries of [P], under keys in lower case *)
Definition dict_holds (d : dict val) (P : string -> val -> Prop) : Prop :=
  NoDup (map fst d) /\ (forall k v, In (k, v) d -> lower k = k) /\ forall k v, lower k = k -> (In (k, v) d <-> P k v).

(** what get_value gives for the name [k] of a term: its value, the value of the
    first child of that name, or None *)
Inductive property (s : st) (i : nat) (k : string) : val -> Prop :=
| pr_own : value_name s i k -> property s i k (t_val (tget i s))
| pr_child : forall c, ~ value_name s i k -> first_child s i k c -> property s i k (t_val (tget c s))
| pr_none : ~ value_name s i k -> no_child s i k -> property s i k VNone.

(** Python's == on values: False equals 0 *)
Definition alike (x v : val) : Prop := x = v \/ (x = VInt 0 /\ v = VFalse) \/ (x = VFalse /\ v = VInt 0).

(** [i] has all the wanted properties *)
Definition has_all (s : st) (kw : dict val) (i : nat) : Prop :=
  forall k v, In (k, v) kw -> exists x, property s i k x /\ alike x v.

(** ** Keyword terms of set_terms *)

(** what is asked for *)
Inductive asks : kwterm -> val -> dict val -> Prop :=
| asks_pair : forall v ps, asks (KPair v ps) v ps
| asks_val : forall v, (forall j, v <> VRef j) -> (forall x, v = VStr x -> String.length x <> 2) -> asks (KVal v) v [].

(** [t] is the term made for a keyword *)
Definition made_for (s : st) (sec : nat) (kv : string * kwterm) (t : nat) : Prop :=
  exists v ps, asks (snd kv) v ps /\ t_pt (tget t s) = "root" /\ cell_names (fst kv) "root" (t_rt (tget t s))
    /\ stored v (t_val (tget t s)) /\ t_section (tget t s) = Some sec
    /\ Forall2 (fun kv c => t_parent (tget c s) = Some t /\ (exists p, cell_names (fst kv) p (t_rt (tget c s)))
         /\ exists x, as_text (snd kv) x /\ stored x (t_val (tget c s))) ps (t_children (tget t s)).

(** the new terms [news] come last in the document list and in the section; the
    section is otherwise the same, and so is everything else *)
Definition added (s : st) (sec : nat) (kws : dict kwterm) (news : list nat) (s' : st) : Prop :=
  Forall2 (made_for s' sec) kws news
  /\ s_doc s' = set_d_terms (listed s ++ news) (s_doc s)
  /\ tget sec s' = set_t_terms (t_terms (tget sec s) ++ news) (tget sec s)
  /\ (forall j, j < hlen s -> j <> sec -> tget j s' = tget j s)
  /\ hlen s <= hlen s' /\ Forall (fun t => hlen s <= t < hlen s') news /\ NoDup news.
