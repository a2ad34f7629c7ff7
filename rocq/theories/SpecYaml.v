(** * SpecYaml: the terms of a YAML file (C71) *)

From Verif Require Import PyStr PyBase State Render SpecNames SpecInv SpecEdit SpecTree.

(** the term [i] has the key, the value and the children of the node; the
    values of children are stored as text *)
Inductive node_at (s : st) (top : bool) : ynode -> nat -> Prop :=
| is_node : forall k v kids i, t_rt (tget i s) = lower k ->
    (if top then stored v (t_val (tget i s)) else exists x, as_text v x /\ stored x (t_val (tget i s))) ->
    Forall2 (fun n c => node_at s false n c /\ t_parent (tget c s) = Some i /\ t_pt (tget c s) = lower k) kids (t_children (tget i s)) ->
    node_at s top (YNode k (Some (JVal v)) kids) i.

Definition key_of (n : ynode) : string := match n with YNode k _ _ => k end.

(** the names of the values of a node, in order *)
Definition names_in (path : list string) (n : ynode) : list string := map (fun x => fst (fst x)) (emitted path n).

(** a node that becomes a term: it has a scalar value and a key that is a name,
    and no node below it has its qualified name *)
Inductive usual_node : list string -> ynode -> Prop :=
| usual_is : forall path k v kids,
    dot_free k -> tidy k -> k <> "" -> lower k <> "root" -> (path <> [] -> lower k <> "section") ->
    Forall (usual_node (path ++ [k])) kids ->
    Forall (fun n => ~ In (qual (path ++ [k])) (names_in (path ++ [k]) n)) kids ->
    usual_node path (YNode k (Some (JVal v)) kids).

(** the section of a term: the last of the six that declares its name *)
Definition yaml_six : list string := ["root"; "contacts"; "documentation"; "resources"; "references"; "schema"].
Definition declares (d : dict sdecl) (tn n : string) : Prop :=
  exists sd t, dget n d = Some sd /\ In t (sd_terms sd) /\ lower t = tn.
Definition goes_to (d : dict sdecl) (tn n : string) : Prop :=
  (exists a b, yaml_six = (a ++ n :: b)%list /\ declares d tn n /\ forall m, In m b -> ~ declares d tn m)
  \/ (n = "root" /\ forall m, In m yaml_six -> ~ declares d tn m).

(** the name of the value of a term, in declared terms *)
Definition value_name (decl : dict tdecl) (n : string) : string :=
  match dget n decl with
  | Some td => match dget "termvaluename" (td_props td) with Some x => lower x | None => "" end
  | None => ""
  end.

(** the terms of [ids] that have the section [i] *)
Definition of_section (s : st) (i : nat) (ids : list nat) : list nat :=
  filter (fun t => match t_section (tget t s) with Some j => j =? i | None => false end) ids.

(** [s] is the document [s1] with the terms [ids], one per node: each is at the
    end of the document list and of the list of the section its name goes to;
    the other terms are as before *)
Record yaml_made (s1 s : st) (ns : list ynode) (ids : list nat) : Prop := {
  ym_listed : listed s = (listed s1 ++ ids)%list;
  ym_nodes : Forall2 (fun n t => node_at s true n t /\ t_parent (tget t s) = None /\ t_pt (tget t s) = "root"
    /\ exists sn i, goes_to (d_decl_sections (s_doc s1)) (qual [key_of n]) sn /\ In (sn, i) (secs s) /\ t_section (tget t s) = Some i) ns ids;
  ym_secs : forall k i, In (k, i) (secs s1) -> In (k, i) (secs s);
  ym_lists : forall k i, In (k, i) (secs s) -> exists old, t_terms (tget i s) = (old ++ of_section s i ids)%list
    /\ (In (k, i) (secs s1) /\ old = t_terms (tget i s1) \/ (forall j, ~ In (k, j) (secs s1)) /\ old = []);
  ym_others : forall j, is_plain s1 j -> tget j s = tget j s1
}.

(** the declarations a file asks for: that or those of its entry "declare", the
    latest ones if it has no such entry *)
Inductive asks_for (items : list (string * jv)) : list string -> Prop :=
| asks_one : forall d, dget "declare" items = Some (JVal (VStr d)) -> asks_for items [d]
| asks_list : forall l, dget "declare" items = Some (JList (map (fun d => JVal (VStr d)) l)) -> asks_for items l
| asks_none : dget "declare" items = Some (JVal VNone) -> asks_for items []
| asks_latest : ~ In "declare" (map fst items) -> asks_for items ["metatab-latest"].
