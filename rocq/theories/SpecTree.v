(** * SpecTree: leaves of nested values (C46, C48) *)

From Verif Require Import PyStr PyBase Render.

(** [at_path e p v]: following the keys and indexes [p] from [e] leads to the
    leaf [v] *)
Inductive at_path : jv -> list string -> val -> Prop :=
| at_leaf : forall v, at_path (JVal v) [] v
| at_key : forall d k e p v, In (k, e) d -> at_path e p v -> at_path (JDict d) (k :: p) v
| at_index : forall l i e p v, nth_error l i = Some e -> at_path e p v -> at_path (JList l) (str_of_nat i :: p) v.

(** the leaves in order, with their paths *)
Fixpoint leaves (e : jv) : list (list string * val) :=
  let under k l := map (fun pv => (k :: fst pv, snd pv)) l in
  match e with
  | JVal v => [([], v)]
  | JDict d => concat (map (fun kv => under (fst kv) (leaves (snd kv))) d)
  | JList l => concat (map (fun ie => under (str_of_nat (fst ie)) (snd ie))
                           (combine (seq 0 (List.length l)) (map leaves l)))
  end.

(** every key is a non-empty string *)
Inductive keyed : jv -> Prop :=
| keyed_val : forall v, keyed (JVal v)
| keyed_dict : forall d, Forall (fun kv => fst kv <> "" /\ keyed (snd kv)) d -> keyed (JDict d)
| keyed_list : forall l, Forall keyed l -> keyed (JList l).

(** every key is without dots, and no dict has a key twice *)
Inductive plain_keys : jv -> Prop :=
| plain_val : forall v, plain_keys (JVal v)
| plain_dict : forall d, NoDup (map fst d) ->
    Forall (fun kv => ~ In "."%char (list_ascii_of_string (fst kv)) /\ plain_keys (snd kv)) d -> plain_keys (JDict d)
| plain_list : forall l, Forall plain_keys l -> plain_keys (JList l).

(** ** The YAML source (C48) *)

(** a term as a node: its key, its value if it has one, its children *)
Inductive ynode := YNode (key : string) (value : option jv) (kids : list ynode).

(** the qualified name of the term at a path of keys, lower-cased *)
Definition qual (path : list string) : string :=
  match rev path with
  | [] => ""
  | [k] => ("root." ++ lower k)%string
  | k :: pk :: _ => (lower pk ++ "." ++ lower k)%string
  end.
Definition parent_name (path : list string) : option string :=
  match path with [] => None | _ => Some (qual path) end.

(** a dict without a key *)
Definition without {A} (k : string) (d : list (string * A)) : list (string * A) :=
  filter (fun kv => negb (String.eqb k (fst kv))) d.

(** [as_nodes vn path d ns]: the entries of the dict [d] at [path] are the nodes
    [ns]; a scalar is a value, a dict is a node without a value, a list is one
    node per item, whose value is the item's entry for the value name [vn] gives
    to the term *)
Inductive as_nodes (vn : string -> string) (path : list string) : list (string * jv) -> list ynode -> Prop :=
| nodes_nil : as_nodes vn path [] []
| nodes_value : forall k v d ns,
    as_nodes vn path d ns -> as_nodes vn path ((k, JVal v) :: d) (YNode k (Some (JVal v)) [] :: ns)
| nodes_dict : forall k d' kids d ns,
    as_nodes vn (path ++ [k]) d' kids -> as_nodes vn path d ns ->
    as_nodes vn path ((k, JDict d') :: d) (YNode k None kids :: ns)
| nodes_list_nil : forall k d ns,
    as_nodes vn path d ns -> as_nodes vn path ((k, JList []) :: d) ns
| nodes_list_cons : forall k item l kids value d ns,
    value = match find (fun kv => String.eqb (vn (qual (path ++ [k]))) (fst kv)) item with
            | Some kv => Some (snd kv) | None => None end ->
    as_nodes vn (path ++ [k]) (without (vn (qual (path ++ [k]))) item) kids ->
    as_nodes vn path ((k, JList l) :: d) ns ->
    as_nodes vn path ((k, JList (JDict item :: l)) :: d) (YNode k value kids :: ns).

(** the values in document order, with their names and the names of their
    parents *)
Fixpoint emitted (path : list string) (n : ynode) : list (string * jv * option string) :=
  match n with
  | YNode k value kids =>
      match value with Some v => [(qual (path ++ [k]), v, parent_name path)] | None => [] end
      ++ concat (map (emitted (path ++ [k])) kids)
  end.

(** all keys are without dots *)
Inductive dotless : ynode -> Prop :=
| dotless_node : forall k v kids,
    ~ In "."%char (list_ascii_of_string k) -> Forall dotless kids -> dotless (YNode k v kids).

(** the items of every list are dicts *)
Inductive yaml_items : list (string * jv) -> Prop :=
| yi_nil : yaml_items []
| yi_value : forall k v d, yaml_items d -> yaml_items ((k, JVal v) :: d)
| yi_dict : forall k d' d, yaml_items d' -> yaml_items d -> yaml_items ((k, JDict d') :: d)
| yi_list_nil : forall k d, yaml_items d -> yaml_items ((k, JList []) :: d)
| yi_list_cons : forall k item l d, yaml_items item -> yaml_items ((k, JList l) :: d) ->
    yaml_items ((k, JList (JDict item :: l)) :: d).
