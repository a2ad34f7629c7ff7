(** * SpecHead: a file whose first rows are of any kind

    The first rows of a file may be Declare and Include rows, or anything else
    the parser theorems do not speak about.  [calm odd s]: the state [s] they
    leave behind is in good order, except perhaps for the sections named [odd].
    [view_of line s]: what a reader of the rows that follow has to know. *)

From Verif Require Import SpecNames SpecParse Parser SpecDoc SpecInclude.

(** a section as a section heading makes it: no column named "section", not part
    of a declaration *)
Record tidy_section (r : trec) : Prop := {
  ty_cls : is_section_cls (t_cls r) = true;
  ty_tvn : t_tvn r = "@value";
  ty_sec : t_section r = None;
  ty_doc : t_doc r = true;
  ty_args : ~ In "section" (map lower (t_args r));
  ty_hargs : ~ In "section" (map lower (t_hargs r));
  ty_ft : t_ftype r <> Some "declare";
  ty_pt : t_pt r = "root"
}.
Definition tidy (s : st) (i : nat) : Prop :=
  is_section_cls (t_cls (tget i s)) = true
  /\ tidy_section (tget i s) /\ (i <> d_root (s_doc s) -> t_rt (tget i s) = "section").

Record calm (odd : list string) (s : st) : Prop := {
  (* declarations: no synonyms, and no section with a column named "section" unless it is odd *)
  ca_syn : synonyms (p_dterms (s_prs s)) = [];
  ca_decl : forall n, ~ In (lower (strip n)) odd -> ~ In "section" (map lower (map strip (declared_columns (d_decl_sections (s_doc s)) n)));
  ca_reg : good_reg (s_reg s);
  (* the section table *)
  ca_names : NoDup (dkeys (d_sections (s_doc s)));
  ca_secs : forall k i, dget k (d_sections (s_doc s)) = Some i ->
    i < hlen s /\ is_section_cls (t_cls (tget i s)) = true
    /\ (exists n, t_val (tget i s) = VStr n /\ lower n = k) /\ (In k odd \/ tidy s i);
  ca_root : dget "root" (d_sections (s_doc s)) = Some (d_root (s_doc s));
  ca_rootn : t_rt (tget (d_root (s_doc s)) s) = "root" /\ t_args (tget (d_root (s_doc s)) s) = [];
  (* what the parser goes on with *)
  ca_cur : exists k, dget k (d_sections (s_doc s)) = Some (p_lastsec (s_prs s)) /\ ~ In k odd;
  ca_cols : munge_param_map (p_pmap (s_prs s)) = p_pmap (s_prs s);
  ca_lp : dot_free (p_lastparent (s_prs s)) /\ lower (p_lastparent (s_prs s)) = p_lastparent (s_prs s)
    /\ p_lastparent (s_prs s) <> current_parent /\ dget (p_lastparent (s_prs s)) (p_tmap (s_prs s)) <> None;
  ca_known : dget "root" (p_tmap (s_prs s)) = Some (d_root (s_doc s));
  (* no term is mentioned that does not exist *)
  ca_ids : (forall k i, dget k (p_tmap (s_prs s)) = Some i -> i < hlen s)
    /\ (forall i, In i (d_terms (s_doc s)) -> i < hlen s)
    /\ forall i, i < hlen s -> (forall j, In j (t_terms (tget i s)) -> j < hlen s) /\ (forall j, In j (t_children (tget i s)) -> j < hlen s)
}.

(** what the next line, number [line], is read with *)
Definition section_name (s : st) : string :=
  match find (fun ki => snd ki =? p_lastsec (s_prs s)) (d_sections (s_doc s)) with Some (k, _) => k | None => "root" end.
Definition view_of (line : nat) (s : st) : view :=
  mk_view line (map (fun ki => (fst ki, t_args (tget (snd ki) s))) (d_sections (s_doc s)))
    (section_name s) (p_pmap (s_prs s)) (p_dtvn (s_prs s)) (p_lastparent (s_prs s)) [] [].

(** loading the rows [head ++ rows] passes through the state [s0] after [head],
    which is calm, and ends in [s]; the rows [rows] read as [ls] *)
Record loads_after (g : place) (head rows : list (list string)) (odd : list string) (s0 : st) (ls : list line) (s : st) : Prop := {
  la_loads : loads g (head ++ rows) s;
  la_head : steps_to g (head ++ rows) head s0;
  la_calm : calm odd s0;
  la_means : means rows ls;
  la_odd : forall k, In k (headings ls) -> ~ In k odd
}.

(** the columns declared for section headings, and the view before a line *)
Definition cols_in (s : st) : string -> list string := declared_columns (d_decl_sections (s_doc s)).
Definition view_past (head : list (list string)) (s0 : st) (ls : list line) : view :=
  fold_left (next (cols_in s0)) ls (view_of (S (List.length head)) s0).

(** the terms made since the state [s0] from line [l] *)
Definition line_since (s0 s : st) (l t : nat) : Prop := hlen s0 <= t /\ line_term s l t.
Definition from_since (s0 s : st) (l u : nat) : Prop := hlen s0 <= u /\ from_line s l u.

(** the parent a line after the lines [ls] names is known *)
Definition placed_after (s0 : st) (ls : list line) (l : line) : Prop :=
  match l with
  | LTerm p r _ _ => p = current_parent \/ p = "root" \/ p = r \/ (exists k, most_recent p ls k) \/ dget p (p_tmap (s_prs s0)) <> None
  | _ => True
  end.

(** only the names of sections have a section class *)
Definition plain_classes_in (s : st) : Prop := forall name,
  is_section_cls (parser_term_class name s) = true -> lower name = "root.section" \/ lower name = "root.root".
