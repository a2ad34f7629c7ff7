(** * SpecAnswer: what a parsed file answers (C78)

    The dict and the results of searches in the document of a file, as functions
    of the trees that the lines of the file describe (SpecOutline.v). *)

From Verif Require Import SpecNames PyBase SpecParse State Ops Parser Render SpecDoc SpecInv SpecRound SpecOutline SpecFind SpecDict.

Definition rname (t : rose) : string := match t with Rose e _ => e_name e end.
Definition rtype (t : rose) : string := match t with Rose e _ => m_type (e_meta e) end.
Definition rparent (t : rose) : string := match t with Rose e _ => m_parent (e_meta e) end.
Definition rvalue (t : rose) : string := match t with Rose e _ => e_value e end.

(** ** Dicts *)

(** of the conversions [xs] of the trees [ts], those of the trees called [k] *)
Definition of_name (k : string) (ts : list rose) (xs : list jv) : list jv :=
  map snd (filter (fun tx => eqs (rname (fst tx)) k) (combine ts xs)).
(** one entry for each name, made by the property type of the trees of that name *)
Definition table (ts : list rose) (xs : list jv) (d : dict jv) : Prop :=
  NoDup (map fst d)
  /\ forall k j, In (k, j) d <-> exists t, In t ts /\ rname t = k /\ shaped (rtype t) (of_name k ts xs) j.
(** the value of the term itself, if it has one, takes its place among them *)
Definition valued (key v : string) (d d' : dict jv) : Prop :=
  forall k, dget k d' = if negb (eqs v "") && eqs k key then Some (JVal (VStr v)) else dget k d.

Inductive tree_dict (rvn : bool) : rose -> jv -> Prop :=
| td_leaf : forall e v, text_of v (e_value e) -> tree_dict rvn (Rose e []) (JVal v)
| td_node : forall e ts xs d d', ts <> [] -> Forall2 (tree_dict rvn) ts xs -> table ts xs d ->
    valued (if rvn then lower (m_vname (e_meta e)) else "@value") (e_value e) d d' -> tree_dict rvn (Rose e ts) (JDict d').

(** the dict of a document: that of all trees at the top of sections, and "Root"
    under "@value" unless the names of values are replaced *)
Inductive forest_dict (rvn : bool) : list rose -> jv -> Prop :=
| fd_none : forest_dict rvn [] (JVal (VStr "Root"))
| fd_some : forall ts xs d d', ts <> [] -> Forall2 (tree_dict rvn) ts xs -> table ts xs d ->
    (forall k, dget k d' = if eqs k "@value" then (if rvn then None else Some (JVal (VStr "Root"))) else dget k d) ->
    forest_dict rvn ts (JDict d').

(** trees of one name have one property type; texts are joined only if there are
    texts to join *)
Definition one_type (ts : list rose) : Prop := forall a b, In a ts -> In b ts -> rname a = rname b -> rtype a = rtype b.
Definition joins (t : rose) : Prop := rtype t = "sconcat" \/ rtype t = "bconcat".
Inductive dictable : rose -> Prop :=
| di_tree : forall e ts, one_type ts -> (forall t, In t ts -> joins t -> exists e', t = Rose e' []) -> Forall dictable ts -> dictable (Rose e ts).
Definition all_dictable (ts : list rose) : Prop :=
  one_type ts /\ (forall t, In t ts -> joins t -> exists e, t = Rose e []) /\ Forall dictable ts.

(** ** The trees of a file *)

(** section by section *)
Definition trees (w : world) (ls : list line) : list rose :=
  concat (map (fun h => tops (h_key h) (made w first_view first_heads ls)) (heads w first_view first_heads ls)).
(** in the order of the file, each with its section *)
Definition in_file_order (es : list entry) : list (string * rose) :=
  flat_map (fun x => match fst x with At k => [(k, snd x)] | _ => [] end) (hung es).
(** each tree before those below it *)
Fixpoint nodes (t : rose) : list rose := match t with Rose _ ts => t :: flat_map nodes ts end.

(** ** Searches *)

(** [chosen P l r]: [r] are the elements of [l] with the property [P], in order *)
Inductive chosen {A} (P : A -> Prop) : list A -> list A -> Prop :=
| ch_none : chosen P [] []
| ch_take : forall x l r, P x -> chosen P l r -> chosen P (x :: l) (x :: r)
| ch_skip : forall x l r, ~ P x -> chosen P l r -> chosen P (x :: l) r.

(** the value looked for: none, or this text *)
Inductive looked_for : val -> string -> Prop :=
| lf_any : forall x, looked_for VFalse x
| lf_text : forall x, x <> "" -> looked_for (VStr x) x.
Definition section_named (sa : secarg) (k : string) : Prop :=
  match sa with SAny => True | SOne n => lower n = k | SList ns => exists n, In n ns /\ lower n = k end.
(** a value that can be looked for *)
Definition askable (v : val) : Prop := v = VFalse \/ exists x, v = VStr x /\ x <> "".

(** a pattern for terms of the top level *)
Definition top_pattern (p : string) : Prop := dot_free p \/ exists a b, p = (a ++ "." ++ b)%string /\ dot_free a /\ lower a = "root".

(** a term of the top level *)
Definition sought (p : string) (v : val) (sa : secarg) (x : string * rose) : Prop :=
  denotes p (rparent (snd x)) (rname (snd x)) /\ section_named sa (fst x) /\ looked_for v (rvalue (snd x)).
(** a term below others *)
Definition sought_below (p : string) (v : val) (t : rose) : Prop :=
  denotes p (rparent t) (rname t) /\ looked_for v (rvalue t).
