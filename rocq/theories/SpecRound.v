(** * SpecRound: documents as trees, and what survives writing and reading (C35) *)

From Verif Require Import SpecNames PyBase State Parser SpecDoc SpecInv.

(** a term with its name, its value as text and its children *)
Inductive tree := Tree (name value : string) (kids : list tree).
Definition name_of (t : tree) : string := match t with Tree n _ _ => n end.
Definition value_of (t : tree) : string := match t with Tree _ v _ => v end.
Definition childless (t : tree) : bool := match t with Tree _ _ [] => true | _ => false end.

(** a section: its name, its columns, its terms *)
Record sect := mk_sect { sc_name : string; sc_cols : list string; sc_terms : list tree }.

(** how a value is written in a cell: None as an empty cell *)
Inductive text_of : val -> string -> Prop :=
| text_str : forall v, text_of (VStr v) v
| text_none : text_of VNone "".
Definition written (rows : list (list val)) (texts : list (list string)) : Prop := Forall2 (Forall2 text_of) rows texts.

(** the name of the parent of [x] is [p] *)
Definition parent_named (s : st) (x : nat) (p : string) : Prop :=
  match t_parent (tget x s) with
  | Some q => t_rt (tget q s) = p
  | None => lower (t_pt (tget x s)) = "root" /\ p = "root"
  end.

(** the term [x] of the document is the tree [t] below a parent called [p] *)
Inductive shows (s : st) (p : string) : tree -> nat -> Prop :=
| shows_term : forall n v kids x i,
    t_rt (tget x s) = n -> text_of (t_val (tget x s)) v -> parent_named s x p ->
    t_section (tget x s) = Some i -> t_doc (tget i s) = true ->
    Forall2 (shows s n) kids (t_children (tget x s)) -> shows s p (Tree n v kids) x.

Definition shows_section (s : st) (kv : string * nat) (c : sect) : Prop :=
  fst kv = lower (sc_name c) /\ t_val (tget (snd kv) s) = VStr (sc_name c) /\ columns_of (tget (snd kv) s) = sc_cols c
  /\ Forall2 (shows s "root") (sc_terms c) (t_terms (tget (snd kv) s)).
(** the document consists of these sections *)
Definition shows_doc (s : st) (o : list sect) : Prop := Forall2 (shows_section s) (d_sections (s_doc s)) o.

(** ** The order of children after reading *)

Definition called (n : string) (t : tree) : bool := String.eqb (name_of t) n.
(** the childless ones that have a column, in the order of the columns *)
Fixpoint in_columns (cols : list string) (l : list tree) : list tree :=
  match cols with
  | [] => []
  | c :: cs => (filter (called (lower c)) l ++ in_columns cs (filter (fun t => negb (called (lower c) t)) l))%list
  end.
Definition has_column (cols : list string) (t : tree) : bool := existsb (fun c => String.eqb (lower c) (name_of t)) cols.

(** the childless children with a column come first, in the order of the
    columns, then the other childless ones, then the others *)
Fixpoint arrange (cols : list string) (t : tree) : tree :=
  match t with
  | Tree n v kids =>
      Tree n v (in_columns cols (filter childless kids)
                ++ filter (fun k => negb (has_column cols k)) (filter childless kids)
                ++ flat_map (fun k => if childless k then [] else [arrange cols k]) kids)
  end.
Definition arrange_sect (c : sect) : sect := mk_sect (sc_name c) (sc_cols c) (map (arrange (sc_cols c)) (sc_terms c)).

(** ** Names usable as cells *)

(** the name of the value of the term [q] *)
Definition value_name_in (dt : dict tdecl) (q : string) : string :=
  match dget q dt with
  | Some td => match dget "termvaluename" (td_props td) with Some n => n | None => "@value" end
  | None => "@value"
  end.

(** a name that can be written in a cell: lower case without sharp s, no outer
    white space, no dot, not a number, not a comment, not "<elided_term>", and
    not ending in "root" *)
Record cell_name (n : string) : Prop := {
  cn_some : n <> "";
  cn_tidy : tidy n;
  cn_dot : dot_free n;
  cn_lower : lower n = n;
  cn_sharp : ~ In (ascii_of_nat 223) (list_ascii_of_string n);
  cn_int : py_int n = None;
  cn_elided : n <> current_parent;
  cn_hash : forall w, n <> String "#" w;
  cn_root : forall w, n <> (w ++ "root")%string
}.

(** [t], below the names [above], of which [p] is the nearest, can be written:
    no name occurs twice on the way down, the childless children of a term have
    names of their own, none of them that of the term's value, and those with a
    column have a value *)
Inductive writable (dt : dict tdecl) (cols : list string) : list string -> string -> tree -> Prop :=
| writable_tree : forall above p n v kids,
    cell_name n -> ~ In n above -> tidy v ->
    value_name_in dt (p ++ "." ++ n) <> "" ->
    ~ In (lower (value_name_in dt (p ++ "." ++ n))) (map name_of (filter childless kids)) ->
    NoDup (map name_of (filter childless kids)) ->
    (forall k, In k kids -> childless k = true -> has_column cols k = true -> value_of k <> "") ->
    ~ (n = "datafile" /\ In "section" (map name_of kids)) ->
    Forall (writable dt cols (n :: above) n) kids ->
    writable dt cols above p (Tree n v kids).

(** a term of the top level: none the parser itself acts on *)
Definition writable_top (dt : dict tdecl) (cols : list string) (t : tree) : Prop :=
  writable dt cols [] "root" t /\ ~ In (name_of t) ["section"; "header"; "include"; "declare"].

(** a section other than the first; [decl] gives the declared columns *)
Record writable_section (dt : dict tdecl) (decl : string -> list string) (c : sect) : Prop := {
  wsc_name : tidy (sc_name c) /\ sc_name c <> "";
  wsc_cols : Forall tidy (sc_cols c);
  wsc_usual : ~ In "section" (map lower (sc_cols c));
  wsc_decl : sc_cols c = [] -> decl (sc_name c) = [];
  wsc_terms : Forall (writable_top dt (sc_cols c)) (sc_terms c)
}.

(** the document begins with the Root section, which has no columns, and no two
    sections have the same name *)
Inductive writable_doc (dt : dict tdecl) (decl : string -> list string) : list sect -> Prop :=
| writable_sections : forall terms rest,
    Forall (writable_top dt []) terms -> Forall (writable_section dt decl) rest ->
    NoDup ("root" :: map (fun c => lower (sc_name c)) rest) ->
    writable_doc dt decl (mk_sect "Root" [] terms :: rest).
