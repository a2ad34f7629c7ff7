(** * SpecFind: what a search of the document has to return (C27, C28) *)

From Verif Require Import PyStr PyBase State Ops SpecNames SpecInv.

(** [walk kids i l]: [l] lists [i] and everything below it, each node before
    the nodes below it, and the nodes below in the order of [kids] *)
Inductive walk (kids : nat -> list nat) : nat -> list nat -> Prop :=
| walk_node : forall i l, walks kids (kids i) l -> walk kids i (i :: l)
with walks (kids : nat -> list nat) : list nat -> list nat -> Prop :=
| walks_nil : walks kids [] []
| walks_cons : forall c cs l m, walk kids c l -> walks kids cs m -> walks kids (c :: cs) (l ++ m).

Definition kids_of (s : st) (i : nat) : list nat := t_children (tget i s).

(** a section, unless it is the root section, and its terms with all below *)
Definition section_walk (s : st) (i : nat) (l : list nat) : Prop :=
  exists l0, walks (kids_of s) (t_terms (tget i s)) l0
    /\ (t_val (tget i s) = VStr "Root" /\ l = l0 \/ t_val (tget i s) <> VStr "Root" /\ l = i :: l0).

(** the whole document, section by section *)
Definition doc_walk (s : st) (l : list nat) : Prop :=
  exists ls, Forall2 (fun kv l => section_walk s (snd kv) l) (secs s) ls /\ l = concat ls.

(** where to look for [p]: a name of the top level is looked for in the
    document list, any other name everywhere *)
Inductive candidates (s : st) (p : string) : list nat -> Prop :=
| cand_top : (dot_free p \/ exists a b, p = (a ++ "." ++ b)%string /\ dot_free a /\ lower a = "root") ->
    candidates s p (listed s)
| cand_all : forall l, (exists a b, p = (a ++ "." ++ b)%string /\ dot_free a /\ lower a <> "root") ->
    doc_walk s l -> candidates s p l.

(** the elements of [l] with the property [P], in the order of [l] *)
Definition picked {A} (P : A -> Prop) (l r : list A) : Prop :=
  exists f, (forall x, In x l -> (f x = true <-> P x)) /\ r = filter f l.

(** no value given, or this one (False == 0 in Python) *)
Definition value_is (v x : val) : Prop := v = VFalse \/ v = x \/ v = VInt 0 /\ x = VFalse.

(** the section of [i] has the name [n], in any case *)
Definition lies_in (s : st) (i : nat) (n : string) : Prop :=
  exists j m, t_section (tget i s) = Some j /\ t_val (tget j s) = VStr m /\ lower n = lower m.
Definition section_is (s : st) (sa : secarg) (i : nat) : Prop :=
  match sa with
  | SAny => True
  | SOne n => lies_in s i n
  | SList ns => exists n, In n ns /\ lies_in s i n
  end.

(** [i] is what is looked for; "root.root" is nobody's name *)
Definition found (s : st) (p : string) (v : val) (sa : secarg) (i : nat) : Prop :=
  denotes p (t_pt (tget i s)) (t_rt (tget i s))
  /\ ~ (lower (t_pt (tget i s)) = "root" /\ lower (t_rt (tget i s)) = "root")
  /\ section_is s sa i /\ value_is v (t_val (tget i s)).

(** names as the constructors make them *)
Record names_ok (s : st) : Prop := {
  nm_dots : forall i, i < hlen s -> dot_free (t_pt (tget i s));
  nm_sections : forall k i, In (k, i) (secs s) ->
    t_pt (tget i s) = "root" /\ (t_rt (tget i s) = "section" \/ t_rt (tget i s) = "root")
    /\ match t_section (tget i s) with None => True | Some j => is_sec s j end
}.
