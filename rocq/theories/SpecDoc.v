(** * SpecDoc: loading a file into a new document

    Vocabulary of the parser and document theorems: the starting document and
    what a parse leaves behind, in terms of the state of the model (State.v). *)

From Verif Require Import SpecNames PyBase State Parser.
From Verif Require Export SpecParse.

(** the registry that belongs to sections is the one of parser.py:37-40 *)
Record good_reg (reg : dict cls) : Prop := {
  gr_section : dget "root.section" reg = Some CSection;
  gr_root : dget "root.root" reg = Some CRoot;
  gr_other : forall k c, dget k reg = Some c -> is_section_cls c = true -> k = "root.section" \/ k = "root.root"
}.

(** a new document with the given class registry and declarations *)
Definition new_doc (reg : dict cls) (dt : dict tdecl) (ds : dict sdecl) (sup : dict string) : st :=
  set_s_doc (set_d_super sup (set_d_decl_sections ds (set_d_decl_terms dt (s_doc (init_st reg))))) (init_st reg).

Definition no_section_column (decl : string -> list string) : Prop :=
  forall n, ~ In "section" (map lower (map strip (decl n))).

Definition declared_columns (ds : dict sdecl) (n : string) : list string :=
  match dget (lower n) ds with Some sd => sd_args sd | None => [] end.

(** [t] is the term of line [l] *)
Definition line_term (s : st) (l t : nat) : Prop :=
  t < hlen s /\ is_section_cls (t_cls (tget t s)) = false /\ t_row (tget t s) = Some l /\ t_col (tget t s) = Some 1.


(** a place to parse in: the world, the nesting allowed, the file and the
    document it is loaded into *)
Record place := mk_place {
  in_env : env; in_fuel : nat; in_ref : option string; in_dir : string;
  in_reg : dict cls; in_terms : dict tdecl; in_secs : dict sdecl; in_super : dict string
}.
Definition proper (g : place) : Prop := good_reg (in_reg g) /\ no_section_column (declared_columns (in_secs g)).
Definition load_into (g : place) (rows : list (list string)) : st * res unit :=
  load_source (in_env g) (in_fuel g) (mk_source (in_ref g) (in_dir g) rows)
    (new_doc (in_reg g) (in_terms g) (in_secs g) (in_super g)).
(** parsing [rows] succeeds with the document [s] *)
Definition loads (g : place) (rows : list (list string)) (s : st) : Prop := load_into g rows = (s, Ok tt).
Definition cols_of (g : place) : string -> list string := declared_columns (in_secs g).

(** the rows of a file and their meaning *)
Definition means (rows : list (list string)) (ls : list line) : Prop := Forall2 reads rows ls /\ Forall usual ls.

(** the value of a cell: no value if it is empty *)
Definition cell_value (c : string) : val := if eqs c "" then VNone else VStr (strip c).

(** [l] is the line the name [p] was last used on, as the name of an explicitly
    placed record *)
Definition uses (p : string) (l : line) : Prop :=
  exists q x cells, l = LTerm q p x cells /\ q <> current_parent.
Definition most_recent (p : string) (ls : list line) (l : nat) : Prop :=
  exists pre x post, ls = (pre ++ x :: post)%list /\ l = S (List.length pre) /\ uses p x /\ Forall (fun y => ~ uses p y) post.

(** ** Sections *)

(** the section a line after [ls] belongs to *)
Definition heading_name (l : line) : list string :=
  match l with LSection n _ => [lower (strip n)] | _ => [] end.
Definition headings (ls : list line) : list string := concat (map heading_name ls).
Definition current_heading (ls : list line) : string := last (headings ls) "root".

(** the line [x] after [pre] is a root-level one: it names no parent, or its
    current parent is the root *)
Definition root_level (decl : string -> list string) (pre : list line) (x : line) : Prop :=
  exists p r v cells, x = LTerm p r v cells
    /\ (p = "root" \/ p = current_parent /\ v_parent (view_after decl pre) = "root").

(** first occurrences *)
Fixpoint firsts (l : list string) : list string :=
  match l with
  | [] => []
  | x :: l' => x :: filter (fun y => negb (eqs y x)) (firsts l')
  end.

(** the terms made from line [l] *)
Definition from_line (s : st) (l u : nat) : Prop :=
  u < hlen s /\ is_section_cls (t_cls (tget u s)) = false /\ t_row (tget u s) = Some l.

(** ** Trees *)

(** a row "a.a", which names itself as its parent *)
Definition own_parent (l : line) : Prop := exists r x cells, l = LTerm r r x cells.

Definition in_document (s : st) (c : nat) : Prop :=
  In c (d_terms (s_doc s)) \/ exists q, q < hlen s /\ In c (t_children (tget q s)).

(** the [n]-th ancestor *)
Fixpoint ancestor (s : st) (n : nat) (c : nat) : option nat :=
  match n with
  | O => Some c
  | S n' => match t_parent (tget c s) with Some q => ancestor s n' q | None => None end
  end.

(** ** Lines the parser accepts *)

(** no Section or Header row without a value, no record without a name, no
    record Datafile.Section *)
Definition sound (l : line) : Prop :=
  match l with
  | LBlank => True
  | LSection n _ | LHeader n _ => n <> ""
  | LTerm p r _ _ => r <> "" /\ ~ (p = "datafile" /\ r = "section")
  end.

(** the parent a line after [pre] names is known *)
Definition placed (pre : list line) (l : line) : Prop :=
  match l with
  | LTerm p r _ _ => p = current_parent \/ p = "root" \/ p = r \/ exists k, most_recent p pre k
  | _ => True
  end.

(** only the names of sections have a section class *)
Definition plain_classes (g : place) : Prop := forall name,
  is_section_cls (class_for (in_reg g) (in_super g) name) = true -> lower name = "root.section" \/ lower name = "root.root".

(** ** Declarations *)

(** [k] is declared to be [v] for the term [n] *)
Definition declares (dt : dict tdecl) (n k v : string) : Prop := exists td, dget n dt = Some td /\ dget k (td_props td) = Some v.
(** the declared value, or the default *)
Definition declared_or (dt : dict tdecl) (n k dflt x : string) : Prop :=
  declares dt n k x \/ (x = dflt /\ forall v, ~ declares dt n k v).
