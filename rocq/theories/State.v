(** * State: term, document and parser records, and the heap

    The setters [set_<field>] are generated: each replaces one field. *)

From Verif Require Export Names.

(** Classes that term objects can have (parser.py:37-40 and
    register_term_class).  [CUser c] is a registered subclass of Term; it is
    assumed to have Term's constructor and not to derive from SectionTerm. *)
Inductive cls := CTerm | CSection | CRoot | CUser (c : string).

Definition is_section_cls (c : cls) : bool :=
  match c with CSection | CRoot => true | _ => false end.

(** A term object (terms.py:37-104, and terms.py:672-700 for sections).
    Not modelled: file_name (only used in messages), and the attribute [doc]
    is reduced to "is it set" because one document is modelled. *)
Record trec := mk_trec {
  t_cls : cls;
  t_parent : option nat (* parent *);
  t_term : string (* _term, the text given *);
  t_pt : string (* parent_term *);
  t_rt : string (* record_term *);
  t_val : val (* value *);
  t_args : list string (* args *);
  t_section : option nat (* _section *);
  t_doc : bool (* doc is set *);
  t_ftype : option string (* file_type *);
  t_row : option nat (* row *);
  t_col : option nat (* col *);
  t_tvn : string (* term_value_name *);
  t_cpt : string (* child_property_type *);
  t_valid : option bool (* valid *);
  t_options : list string (* options *);
  t_children : list nat (* children *);
  t_terms : list nat (* sections only: terms *);
  t_hargs : list string (* sections only: header_args *);
  t_dtvn : string (* sections only: default_term_value_name *)
}.

Definition set_t_cls (v : cls) (r : trec) : trec := {| t_cls := v; t_parent := t_parent r; t_term := t_term r; t_pt := t_pt r; t_rt := t_rt r; t_val := t_val r; t_args := t_args r; t_section := t_section r; t_doc := t_doc r; t_ftype := t_ftype r; t_row := t_row r; t_col := t_col r; t_tvn := t_tvn r; t_cpt := t_cpt r; t_valid := t_valid r; t_options := t_options r; t_children := t_children r; t_terms := t_terms r; t_hargs := t_hargs r; t_dtvn := t_dtvn r |}.
Definition set_t_parent (v : option nat) (r : trec) : trec := {| t_cls := t_cls r; t_parent := v; t_term := t_term r; t_pt := t_pt r; t_rt := t_rt r; t_val := t_val r; t_args := t_args r; t_section := t_section r; t_doc := t_doc r; t_ftype := t_ftype r; t_row := t_row r; t_col := t_col r; t_tvn := t_tvn r; t_cpt := t_cpt r; t_valid := t_valid r; t_options := t_options r; t_children := t_children r; t_terms := t_terms r; t_hargs := t_hargs r; t_dtvn := t_dtvn r |}.
Definition set_t_term (v : string) (r : trec) : trec := {| t_cls := t_cls r; t_parent := t_parent r; t_term := v; t_pt := t_pt r; t_rt := t_rt r; t_val := t_val r; t_args := t_args r; t_section := t_section r; t_doc := t_doc r; t_ftype := t_ftype r; t_row := t_row r; t_col := t_col r; t_tvn := t_tvn r; t_cpt := t_cpt r; t_valid := t_valid r; t_options := t_options r; t_children := t_children r; t_terms := t_terms r; t_hargs := t_hargs r; t_dtvn := t_dtvn r |}.
Definition set_t_pt (v : string) (r : trec) : trec := {| t_cls := t_cls r; t_parent := t_parent r; t_term := t_term r; t_pt := v; t_rt := t_rt r; t_val := t_val r; t_args := t_args r; t_section := t_section r; t_doc := t_doc r; t_ftype := t_ftype r; t_row := t_row r; t_col := t_col r; t_tvn := t_tvn r; t_cpt := t_cpt r; t_valid := t_valid r; t_options := t_options r; t_children := t_children r; t_terms := t_terms r; t_hargs := t_hargs r; t_dtvn := t_dtvn r |}.
Definition set_t_rt (v : string) (r : trec) : trec := {| t_cls := t_cls r; t_parent := t_parent r; t_term := t_term r; t_pt := t_pt r; t_rt := v; t_val := t_val r; t_args := t_args r; t_section := t_section r; t_doc := t_doc r; t_ftype := t_ftype r; t_row := t_row r; t_col := t_col r; t_tvn := t_tvn r; t_cpt := t_cpt r; t_valid := t_valid r; t_options := t_options r; t_children := t_children r; t_terms := t_terms r; t_hargs := t_hargs r; t_dtvn := t_dtvn r |}.
Definition set_t_val (v : val) (r : trec) : trec := {| t_cls := t_cls r; t_parent := t_parent r; t_term := t_term r; t_pt := t_pt r; t_rt := t_rt r; t_val := v; t_args := t_args r; t_section := t_section r; t_doc := t_doc r; t_ftype := t_ftype r; t_row := t_row r; t_col := t_col r; t_tvn := t_tvn r; t_cpt := t_cpt r; t_valid := t_valid r; t_options := t_options r; t_children := t_children r; t_terms := t_terms r; t_hargs := t_hargs r; t_dtvn := t_dtvn r |}.
Definition set_t_args (v : list string) (r : trec) : trec := {| t_cls := t_cls r; t_parent := t_parent r; t_term := t_term r; t_pt := t_pt r; t_rt := t_rt r; t_val := t_val r; t_args := v; t_section := t_section r; t_doc := t_doc r; t_ftype := t_ftype r; t_row := t_row r; t_col := t_col r; t_tvn := t_tvn r; t_cpt := t_cpt r; t_valid := t_valid r; t_options := t_options r; t_children := t_children r; t_terms := t_terms r; t_hargs := t_hargs r; t_dtvn := t_dtvn r |}.
Definition set_t_section (v : option nat) (r : trec) : trec := {| t_cls := t_cls r; t_parent := t_parent r; t_term := t_term r; t_pt := t_pt r; t_rt := t_rt r; t_val := t_val r; t_args := t_args r; t_section := v; t_doc := t_doc r; t_ftype := t_ftype r; t_row := t_row r; t_col := t_col r; t_tvn := t_tvn r; t_cpt := t_cpt r; t_valid := t_valid r; t_options := t_options r; t_children := t_children r; t_terms := t_terms r; t_hargs := t_hargs r; t_dtvn := t_dtvn r |}.
Definition set_t_doc (v : bool) (r : trec) : trec := {| t_cls := t_cls r; t_parent := t_parent r; t_term := t_term r; t_pt := t_pt r; t_rt := t_rt r; t_val := t_val r; t_args := t_args r; t_section := t_section r; t_doc := v; t_ftype := t_ftype r; t_row := t_row r; t_col := t_col r; t_tvn := t_tvn r; t_cpt := t_cpt r; t_valid := t_valid r; t_options := t_options r; t_children := t_children r; t_terms := t_terms r; t_hargs := t_hargs r; t_dtvn := t_dtvn r |}.
Definition set_t_ftype (v : option string) (r : trec) : trec := {| t_cls := t_cls r; t_parent := t_parent r; t_term := t_term r; t_pt := t_pt r; t_rt := t_rt r; t_val := t_val r; t_args := t_args r; t_section := t_section r; t_doc := t_doc r; t_ftype := v; t_row := t_row r; t_col := t_col r; t_tvn := t_tvn r; t_cpt := t_cpt r; t_valid := t_valid r; t_options := t_options r; t_children := t_children r; t_terms := t_terms r; t_hargs := t_hargs r; t_dtvn := t_dtvn r |}.
Definition set_t_row (v : option nat) (r : trec) : trec := {| t_cls := t_cls r; t_parent := t_parent r; t_term := t_term r; t_pt := t_pt r; t_rt := t_rt r; t_val := t_val r; t_args := t_args r; t_section := t_section r; t_doc := t_doc r; t_ftype := t_ftype r; t_row := v; t_col := t_col r; t_tvn := t_tvn r; t_cpt := t_cpt r; t_valid := t_valid r; t_options := t_options r; t_children := t_children r; t_terms := t_terms r; t_hargs := t_hargs r; t_dtvn := t_dtvn r |}.
Definition set_t_col (v : option nat) (r : trec) : trec := {| t_cls := t_cls r; t_parent := t_parent r; t_term := t_term r; t_pt := t_pt r; t_rt := t_rt r; t_val := t_val r; t_args := t_args r; t_section := t_section r; t_doc := t_doc r; t_ftype := t_ftype r; t_row := t_row r; t_col := v; t_tvn := t_tvn r; t_cpt := t_cpt r; t_valid := t_valid r; t_options := t_options r; t_children := t_children r; t_terms := t_terms r; t_hargs := t_hargs r; t_dtvn := t_dtvn r |}.
Definition set_t_tvn (v : string) (r : trec) : trec := {| t_cls := t_cls r; t_parent := t_parent r; t_term := t_term r; t_pt := t_pt r; t_rt := t_rt r; t_val := t_val r; t_args := t_args r; t_section := t_section r; t_doc := t_doc r; t_ftype := t_ftype r; t_row := t_row r; t_col := t_col r; t_tvn := v; t_cpt := t_cpt r; t_valid := t_valid r; t_options := t_options r; t_children := t_children r; t_terms := t_terms r; t_hargs := t_hargs r; t_dtvn := t_dtvn r |}.
Definition set_t_cpt (v : string) (r : trec) : trec := {| t_cls := t_cls r; t_parent := t_parent r; t_term := t_term r; t_pt := t_pt r; t_rt := t_rt r; t_val := t_val r; t_args := t_args r; t_section := t_section r; t_doc := t_doc r; t_ftype := t_ftype r; t_row := t_row r; t_col := t_col r; t_tvn := t_tvn r; t_cpt := v; t_valid := t_valid r; t_options := t_options r; t_children := t_children r; t_terms := t_terms r; t_hargs := t_hargs r; t_dtvn := t_dtvn r |}.
Definition set_t_valid (v : option bool) (r : trec) : trec := {| t_cls := t_cls r; t_parent := t_parent r; t_term := t_term r; t_pt := t_pt r; t_rt := t_rt r; t_val := t_val r; t_args := t_args r; t_section := t_section r; t_doc := t_doc r; t_ftype := t_ftype r; t_row := t_row r; t_col := t_col r; t_tvn := t_tvn r; t_cpt := t_cpt r; t_valid := v; t_options := t_options r; t_children := t_children r; t_terms := t_terms r; t_hargs := t_hargs r; t_dtvn := t_dtvn r |}.
Definition set_t_options (v : list string) (r : trec) : trec := {| t_cls := t_cls r; t_parent := t_parent r; t_term := t_term r; t_pt := t_pt r; t_rt := t_rt r; t_val := t_val r; t_args := t_args r; t_section := t_section r; t_doc := t_doc r; t_ftype := t_ftype r; t_row := t_row r; t_col := t_col r; t_tvn := t_tvn r; t_cpt := t_cpt r; t_valid := t_valid r; t_options := v; t_children := t_children r; t_terms := t_terms r; t_hargs := t_hargs r; t_dtvn := t_dtvn r |}.
Definition set_t_children (v : list nat) (r : trec) : trec := {| t_cls := t_cls r; t_parent := t_parent r; t_term := t_term r; t_pt := t_pt r; t_rt := t_rt r; t_val := t_val r; t_args := t_args r; t_section := t_section r; t_doc := t_doc r; t_ftype := t_ftype r; t_row := t_row r; t_col := t_col r; t_tvn := t_tvn r; t_cpt := t_cpt r; t_valid := t_valid r; t_options := t_options r; t_children := v; t_terms := t_terms r; t_hargs := t_hargs r; t_dtvn := t_dtvn r |}.
Definition set_t_terms (v : list nat) (r : trec) : trec := {| t_cls := t_cls r; t_parent := t_parent r; t_term := t_term r; t_pt := t_pt r; t_rt := t_rt r; t_val := t_val r; t_args := t_args r; t_section := t_section r; t_doc := t_doc r; t_ftype := t_ftype r; t_row := t_row r; t_col := t_col r; t_tvn := t_tvn r; t_cpt := t_cpt r; t_valid := t_valid r; t_options := t_options r; t_children := t_children r; t_terms := v; t_hargs := t_hargs r; t_dtvn := t_dtvn r |}.
Definition set_t_hargs (v : list string) (r : trec) : trec := {| t_cls := t_cls r; t_parent := t_parent r; t_term := t_term r; t_pt := t_pt r; t_rt := t_rt r; t_val := t_val r; t_args := t_args r; t_section := t_section r; t_doc := t_doc r; t_ftype := t_ftype r; t_row := t_row r; t_col := t_col r; t_tvn := t_tvn r; t_cpt := t_cpt r; t_valid := t_valid r; t_options := t_options r; t_children := t_children r; t_terms := t_terms r; t_hargs := v; t_dtvn := t_dtvn r |}.
Definition set_t_dtvn (v : string) (r : trec) : trec := {| t_cls := t_cls r; t_parent := t_parent r; t_term := t_term r; t_pt := t_pt r; t_rt := t_rt r; t_val := t_val r; t_args := t_args r; t_section := t_section r; t_doc := t_doc r; t_ftype := t_ftype r; t_row := t_row r; t_col := t_col r; t_tvn := t_tvn r; t_cpt := t_cpt r; t_valid := t_valid r; t_options := t_options r; t_children := t_children r; t_terms := t_terms r; t_hargs := t_hargs r; t_dtvn := v |}.

(** A declared term (parser.py:150-157, 582-591): its str properties (with
    'term') and its 'values' dict. *)
Record tdecl := mk_tdecl {
  td_props : dict string;
  td_values : dict val
}.

Definition set_td_props (v : dict string) (r : tdecl) : tdecl := {| td_props := v; td_values := td_values r |}.
Definition set_td_values (v : dict val) (r : tdecl) : tdecl := {| td_props := td_props r; td_values := v |}.

(** A declared section (parser.py:159-164, 540-545). *)
Record sdecl := mk_sdecl {
  sd_args : list string;
  sd_terms : list string
}.

Definition set_sd_args (v : list string) (r : sdecl) : sdecl := {| sd_args := v; sd_terms := sd_terms r |}.
Definition set_sd_terms (v : list string) (r : sdecl) : sdecl := {| sd_args := sd_args r; sd_terms := v |}.

(** MetatabDoc (doc.py:34-62). [d_derived] maps a super term to its derived
    terms; in Python these are sets, here lists without a meaningful order. *)
Record docrec := mk_docrec {
  d_terms : list nat (* terms *);
  d_sections : dict nat (* sections *);
  d_decl_terms : dict tdecl (* decl_terms *);
  d_decl_sections : dict sdecl (* decl_sections *);
  d_super : dict string (* super_terms *);
  d_derived : dict (list string) (* derived_terms *);
  d_root : nat (* root *)
}.

Definition set_d_terms (v : list nat) (r : docrec) : docrec := {| d_terms := v; d_sections := d_sections r; d_decl_terms := d_decl_terms r; d_decl_sections := d_decl_sections r; d_super := d_super r; d_derived := d_derived r; d_root := d_root r |}.
Definition set_d_sections (v : dict nat) (r : docrec) : docrec := {| d_terms := d_terms r; d_sections := v; d_decl_terms := d_decl_terms r; d_decl_sections := d_decl_sections r; d_super := d_super r; d_derived := d_derived r; d_root := d_root r |}.
Definition set_d_decl_terms (v : dict tdecl) (r : docrec) : docrec := {| d_terms := d_terms r; d_sections := d_sections r; d_decl_terms := v; d_decl_sections := d_decl_sections r; d_super := d_super r; d_derived := d_derived r; d_root := d_root r |}.
Definition set_d_decl_sections (v : dict sdecl) (r : docrec) : docrec := {| d_terms := d_terms r; d_sections := d_sections r; d_decl_terms := d_decl_terms r; d_decl_sections := v; d_super := d_super r; d_derived := d_derived r; d_root := d_root r |}.
Definition set_d_super (v : dict string) (r : docrec) : docrec := {| d_terms := d_terms r; d_sections := d_sections r; d_decl_terms := d_decl_terms r; d_decl_sections := d_decl_sections r; d_super := v; d_derived := d_derived r; d_root := d_root r |}.
Definition set_d_derived (v : dict (list string)) (r : docrec) : docrec := {| d_terms := d_terms r; d_sections := d_sections r; d_decl_terms := d_decl_terms r; d_decl_sections := d_decl_sections r; d_super := d_super r; d_derived := v; d_root := d_root r |}.
Definition set_d_root (v : nat) (r : docrec) : docrec := {| d_terms := d_terms r; d_sections := d_sections r; d_decl_terms := d_decl_terms r; d_decl_sections := d_decl_sections r; d_super := d_super r; d_derived := d_derived r; d_root := v |}.

(** TermParser (parser.py:42-82) and the local variables of its __iter__
    (parser.py:413-420). *)
Record prec := mk_prec {
  p_pmap : list string (* _param_map, entries already passed through str() *);
  p_dsecs : dict sdecl (* _declared_sections *);
  p_dterms : dict tdecl (* _declared_terms *);
  p_lastparent : string (* last_parent_term *);
  p_tmap : dict nat (* last_term_map *);
  p_dtvn : string (* default_term_value_name *);
  p_lastsec : nat (* last_section *)
}.

Definition set_p_pmap (v : list string) (r : prec) : prec := {| p_pmap := v; p_dsecs := p_dsecs r; p_dterms := p_dterms r; p_lastparent := p_lastparent r; p_tmap := p_tmap r; p_dtvn := p_dtvn r; p_lastsec := p_lastsec r |}.
Definition set_p_dsecs (v : dict sdecl) (r : prec) : prec := {| p_pmap := p_pmap r; p_dsecs := v; p_dterms := p_dterms r; p_lastparent := p_lastparent r; p_tmap := p_tmap r; p_dtvn := p_dtvn r; p_lastsec := p_lastsec r |}.
Definition set_p_dterms (v : dict tdecl) (r : prec) : prec := {| p_pmap := p_pmap r; p_dsecs := p_dsecs r; p_dterms := v; p_lastparent := p_lastparent r; p_tmap := p_tmap r; p_dtvn := p_dtvn r; p_lastsec := p_lastsec r |}.
Definition set_p_lastparent (v : string) (r : prec) : prec := {| p_pmap := p_pmap r; p_dsecs := p_dsecs r; p_dterms := p_dterms r; p_lastparent := v; p_tmap := p_tmap r; p_dtvn := p_dtvn r; p_lastsec := p_lastsec r |}.
Definition set_p_tmap (v : dict nat) (r : prec) : prec := {| p_pmap := p_pmap r; p_dsecs := p_dsecs r; p_dterms := p_dterms r; p_lastparent := p_lastparent r; p_tmap := v; p_dtvn := p_dtvn r; p_lastsec := p_lastsec r |}.
Definition set_p_dtvn (v : string) (r : prec) : prec := {| p_pmap := p_pmap r; p_dsecs := p_dsecs r; p_dterms := p_dterms r; p_lastparent := p_lastparent r; p_tmap := p_tmap r; p_dtvn := v; p_lastsec := p_lastsec r |}.
Definition set_p_lastsec (v : nat) (r : prec) : prec := {| p_pmap := p_pmap r; p_dsecs := p_dsecs r; p_dterms := p_dterms r; p_lastparent := p_lastparent r; p_tmap := p_tmap r; p_dtvn := p_dtvn r; p_lastsec := v |}.

(** The whole state.  [s_reg] is the class attribute TermParser.term_classes. *)
Record st := mk_st {
  s_heap : list trec;
  s_doc : docrec;
  s_prs : prec;
  s_reg : dict cls
}.

Definition set_s_heap (v : list trec) (r : st) : st := {| s_heap := v; s_doc := s_doc r; s_prs := s_prs r; s_reg := s_reg r |}.
Definition set_s_doc (v : docrec) (r : st) : st := {| s_heap := s_heap r; s_doc := v; s_prs := s_prs r; s_reg := s_reg r |}.
Definition set_s_prs (v : prec) (r : st) : st := {| s_heap := s_heap r; s_doc := s_doc r; s_prs := v; s_reg := s_reg r |}.
Definition set_s_reg (v : dict cls) (r : st) : st := {| s_heap := s_heap r; s_doc := s_doc r; s_prs := s_prs r; s_reg := v |}.


Definition dummy_t : trec :=
  {| t_cls := CTerm; t_parent := None; t_term := ""; t_pt := ""; t_rt := "";
     t_val := VNone; t_args := []; t_section := None; t_doc := false;
     t_ftype := None; t_row := None; t_col := None; t_tvn := "@value";
     t_cpt := "any"; t_valid := None; t_options := []; t_children := [];
     t_terms := []; t_hargs := []; t_dtvn := "@value" |}.

(** ** Heap access *)

Fixpoint upd {A} (i : nat) (x : A) (l : list A) : list A :=
  match l, i with
  | [], _ => []
  | _ :: l', O => x :: l'
  | y :: l', S i' => y :: upd i' x l'
  end.

Definition hget (i : nat) (h : list trec) : trec := nth i h dummy_t.
Definition tget (i : nat) (s : st) : trec := hget i (s_heap s).
(** the number of term objects made so far *)
Definition hlen (s : st) : nat := List.length (s_heap s).

Notation MM := (M st).

Definition getT (i : nat) : MM trec := gets (tget i).
Definition putT (i : nat) (r : trec) : MM unit :=
  modify (fun s => set_s_heap (upd i r (s_heap s)) s).
(** obj.field = v *)
Definition modT (i : nat) (f : trec -> trec) : MM unit :=
  modify (fun s => set_s_heap (upd i (f (tget i s)) (s_heap s)) s).
Definition allocT (r : trec) : MM nat :=
  fun s => (set_s_heap (s_heap s ++ [r]) s, Ok (List.length (s_heap s))).
Definition getD : MM docrec := gets s_doc.
Definition modD (f : docrec -> docrec) : MM unit := modify (fun s => set_s_doc (f (s_doc s)) s).
Definition getP : MM prec := gets s_prs.
Definition modP (f : prec -> prec) : MM unit := modify (fun s => set_s_prs (f (s_prs s)) s).
