(** * SpecOutline: the document that the rows of a file describe (C77)

    [outline w ls] is the document as a list of sections with trees of terms,
    computed from the lines of the file and the declarations in force alone: no heap, no parser state. *)

From Verif Require Import SpecNames PyBase SpecParse State Parser SpecDoc SpecInv SpecRound.

(** where a term goes: the top of a section, below the term of a line, or into no
    section: a cell of a row ".c" whose parent is the root, and a row "a.a", which
    becomes its own child *)
Inductive spot := At (section : string) | Under (line : nat) | Loose.

(** what else is recorded of a term: the name of its parent, its property type and
    the name of its value *)
Record meta := mk_meta { m_parent : string; m_type : string; m_vname : string }.

(** a term: its line if it is the term of a row and not of an extra cell, its
    place, its name and its value *)
Record entry := mk_entry { e_line : option nat; e_spot : spot; e_name : string; e_value : string; e_meta : meta }.

(** the declarations in force: columns of sections, and properties of terms as the
    parser and as the document know them *)
Record world := mk_world { w_cols : string -> list string; w_parser : string -> string -> option string; w_doc : string -> string -> option string }.
Definition given (o : option string) (d : string) : string := match o with Some x => x | None => d end.

(** the place of a record [r] below the record [p] *)
Definition spot_in (v : view) (p : string) : spot :=
  if eqs p "root" then At (v_cur v) else match assoc p (v_last v) with Some l => Under l | None => Loose end.
Definition spot_of (v : view) (p r : string) : spot :=
  if eqs p current_parent then spot_in v (v_parent v) else if eqs p r then Loose else spot_in v p.
(** the place of the extra cells of a row: below the row, unless its name is
    elided; then they are put where the row is *)
Definition cell_spot (v : view) (p : string) : spot :=
  if eqs p current_parent then match spot_in v (v_parent v) with Under l => Under l | _ => Loose end else Under (v_line v).

(** what the parser notes for a term [p.r], written that way *)
Definition noted (w : world) (v : view) (p r : string) : meta :=
  mk_meta (if eqs p current_parent then v_parent v else p)
    (given (w_parser w (dotted p r) "childpropertytype") "any")
    (given (w_parser w (dotted p r) "termvaluename") (v_vname v)).
(** what the document makes of it when the term comes to the top of a section
    where values are called [vn]: its own declarations count where the parser has
    nothing to say *)
Definition at_root (w : world) (vn : string) (r : string) (m : meta) : meta :=
  mk_meta (m_parent m)
    (if eqs (m_type m) "" || eqs (m_type m) "any" then given (w_doc w (dotted "root" r) "childpropertytype") "any" else m_type m)
    (if eqs (m_vname m) "" || eqs (m_vname m) vn then given (w_doc w (dotted "root" r) "termvaluename") vn else m_vname m).

(** the terms of one line, in the order in which they are made *)
Definition line_entries (w : world) (v : view) (vn : string) (l : line) : list entry :=
  match l with
  | LTerm p r x cells =>
      let m := noted w v p r in
      mk_entry (Some (v_line v)) (spot_of v p r) r x (if eqs (m_parent m) "root" then at_root w vn r m else m)
      :: map (fun nc => mk_entry None (cell_spot v p) (fst nc) (snd nc) (noted w v r (fst nc))) (cells_from (v_cols v) 0 cells)
  | _ => []
  end.

(** ** Sections *)

(** name in lower case, name as written, columns of the first heading, columns of
    the last Header row, and its name for values *)
Record head := mk_head { h_key : string; h_title : string; h_args : list string; h_header : list string; h_vname : string }.
Definition with_header (k n : string) (cells : list string) (h : head) : head :=
  if eqs (h_key h) k then mk_head (h_key h) (h_title h) (h_args h) cells (lower n) else h.
(** the sections after a line read in the section [cur] *)
Definition next_heads (decl : string -> list string) (cur : string) (hs : list head) (l : line) : list head :=
  match l with
  | LSection n cells =>
      let k := lower (strip n) in
      if existsb (fun h => eqs (h_key h) k) hs then hs
      else (hs ++ [mk_head k (strip n) (match cells with [] => map strip (decl n) | _ => cells end) [] "@value"])%list
  | LHeader n cells => map (with_header cur n cells) hs
  | _ => hs
  end.
Definition vname_in (hs : list head) (k : string) : string :=
  match find (fun h => eqs (h_key h) k) hs with Some h => h_vname h | None => "@value" end.
Definition first_heads : list head := [mk_head "root" "Root" [] [] "@value"].

(** ** A file *)

Fixpoint made (w : world) (v : view) (hs : list head) (ls : list line) : list entry :=
  match ls with
  | [] => []
  | l :: ls' => (line_entries w v (vname_in hs (v_cur v)) l ++ made w (next (w_cols w) v l) (next_heads (w_cols w) (v_cur v) hs l) ls')%list
  end.
Fixpoint heads (w : world) (v : view) (hs : list head) (ls : list line) : list head :=
  match ls with
  | [] => hs
  | l :: ls' => heads w (next (w_cols w) v l) (next_heads (w_cols w) (v_cur v) hs l) ls'
  end.

(** hanging the terms together, from the last one to the first: a term takes the
    trees that go below its line *)
Inductive rose := Rose (e : entry) (kids : list rose).
Fixpoint bare (t : rose) : tree := match t with Rose e kids => Tree (e_name e) (e_value e) (map bare kids) end.
Definition below (l : nat) (x : spot) : bool := match x with Under k => k =? l | _ => false end.
Definition mine (e : entry) (x : spot) : bool := match e_line e with Some l => below l x | None => false end.
Definition hang (e : entry) (rest : list (spot * rose)) : list (spot * rose) :=
  (e_spot e, Rose e (map snd (filter (fun x => mine e (fst x)) rest)))
  :: filter (fun x => negb (mine e (fst x))) rest.
Definition hung (es : list entry) : list (spot * rose) := fold_right hang [] es.
Definition at_top (k : string) (x : spot) : bool := match x with At k' => eqs k' k | _ => false end.
Definition tops (k : string) (es : list entry) : list rose := map snd (filter (fun x => at_top k (fst x)) (hung es)).

(** ** The document *)

Definition columns (h : head) : list string := match h_header h with [] => h_args h | cs => cs end.
Definition outline (w : world) (ls : list line) : list sect :=
  map (fun h => mk_sect (h_title h) (columns h) (map bare (tops (h_key h) (made w first_view first_heads ls))))
    (heads w first_view first_heads ls).

(** the declarations of a place, and of a state *)
Definition props (dt : dict tdecl) (n k : string) : option string :=
  match dget n dt with Some td => dget k (td_props td) | None => None end.
Definition world_of (g : place) : world := mk_world (cols_of g) (props installed_terms) (props (in_terms g)).

(** [keeps s t x]: the term [x] and those below it are the tree [t], with what is
    recorded of them *)
Inductive keeps (s : st) : rose -> nat -> Prop :=
| keeps_term : forall e kids x,
    t_rt (tget x s) = e_name e -> text_of (t_val (tget x s)) (e_value e) ->
    t_pt (tget x s) = m_parent (e_meta e) -> t_cpt (tget x s) = m_type (e_meta e) -> t_tvn (tget x s) = m_vname (e_meta e) ->
    Forall2 (keeps s) kids (t_children (tget x s)) -> keeps s (Rose e kids) x.

(** ** Rows after the first rows *)

(** the declarations and the sections found after the first rows *)
Definition world_in (s : st) : world :=
  mk_world (declared_columns (d_decl_sections (s_doc s))) (props (p_dterms (s_prs s))) (props (d_decl_terms (s_doc s))).
Definition head_of (s : st) (kv : string * nat) : head :=
  let r := tget (snd kv) s in
  mk_head (fst kv) (match t_val r with VStr n => n | _ => "" end) (t_args r) (t_hargs r) (t_dtvn r).
Definition heads_of (s : st) : list head := map (head_of s) (d_sections (s_doc s)).

(** the lines go below terms of one another, not below terms of the first rows *)
Fixpoint among_themselves (decl : string -> list string) (v : view) (ls : list line) : Prop :=
  match ls with
  | [] => True
  | l :: ls' => match l with LTerm p r _ _ => spot_of v p r = Loose -> p = r /\ p <> current_parent | _ => True end
                /\ among_themselves decl (next decl v l) ls'
  end.

(** the terms of a section after the first rows *)
Definition terms_of (s : st) (k : string) : list nat :=
  match dget k (d_sections (s_doc s)) with Some i => t_terms (tget i s) | None => [] end.

(** the outline of the first rows, continued *)
Definition old_terms (o : list sect) (k : string) : list tree :=
  match find (fun c => eqs (lower (sc_name c)) k) o with Some c => sc_terms c | None => [] end.
Definition outline_from (w : world) (v : view) (hs : list head) (o : list sect) (ls : list line) : list sect :=
  map (fun h => mk_sect (h_title h) (columns h) (old_terms o (h_key h) ++ map bare (tops (h_key h) (made w v hs ls))))
    (heads w v hs ls).

(** no term is called "" or "root" *)
Fixpoint well_named (t : tree) : Prop :=
  match t with
  | Tree n _ kids => n <> "" /\ n <> "root" /\ (fix go (ts : list tree) : Prop := match ts with [] => True | t :: ts => well_named t /\ go ts end) kids
  end.
