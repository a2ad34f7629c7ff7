(** * SpecStray: items of lists that are not dicts (C48, C71) *)

From Verif Require Import PyStr PyBase State Render SpecTree.

(** [k] may be the key of a value: some declared term has it as its value name *)
Definition value_key (decl : dict tdecl) (k : string) : Prop :=
  k = "" \/ exists n td x, dget n decl = Some td /\ dget "termvaluename" (td_props td) = Some x /\ k = lower x.

(** somewhere a list has an item that is not a dict; what is under the key of a
    value is not searched *)
Inductive stray (decl : dict tdecl) : list (string * jv) -> Prop :=
| stray_here : forall d k l x, In (k, JList l) d -> In x l -> (forall d', x <> JDict d') -> stray decl d
| stray_dict : forall d k d', In (k, JDict d') d -> stray decl d' -> stray decl d
| stray_item : forall d k l item rest, In (k, JList l) d -> In (JDict item) l -> incl rest item ->
    (forall kv, In kv rest -> ~ value_key decl (fst kv)) -> stray decl rest -> stray decl d.
