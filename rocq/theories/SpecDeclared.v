(** * SpecDeclared: what the rows of a declaration file declare (C90)

    The declarations are computed from the lines of the file: no heap, no parser. *)

From Verif Require Import SpecNames PyBase SpecParse State Parser SpecDoc SpecOutline.

(** the declarations: for each full name of a term its properties, and the sections
    with their columns and the terms listed in them.  The values of value sets
    are not part of them. *)
Record decls := mk_decls { dc_terms : dict (dict string); dc_secs : dict sdecl }.
Definition decls_of (dt : dict tdecl) (ds : dict sdecl) : decls := mk_decls (map (fun kv => (fst kv, td_props (snd kv))) dt) ds.
(** newer declarations count first *)
Definition overlay (a b : decls) : decls := mk_decls (dupdate (dc_terms a) (dc_terms b)) (dupdate (dc_secs a) (dc_secs b)).

(** ** Names *)

(** the text before and after the first dot *)
Fixpoint at_dot (x : string) : option (string * string) :=
  match x with
  | EmptyString => None
  | String c y => if Ascii.eqb c "." then Some ("", y)
                  else match at_dot y with Some (a, b) => Some (String c a, b) | None => None end
  end.
Definition record_in (x : string) : string := strip (match at_dot x with Some (_, b) => b | None => x end).
Definition parent_in (x : string) : string :=
  match at_dot x with Some (a, _) => if eqs (strip a) "" then current_parent else strip a | None => "root" end.
Definition full (x : string) : string := (lower (parent_in x) ++ "." ++ lower (record_in x))%string.
(** [x] is written as a child of [i] *)
Definition child_of (i x : string) : bool :=
  match at_dot x with Some (a, _) => eqs (lower a) (lower i) | None => false end.

(** ** Declaring a term *)

(** the properties: the cells under the names of the columns and the value under
    its name, without those that are blank *)
Definition row_props (vname : string) (cols cells : list string) (x : string) : dict string :=
  dset "term" x (filter (fun kv => nonblank (snd kv)) (dset (lower vname) x (dict_of (combine (map lower cols) cells)))).

(** a term with a section is listed there, once *)
Definition into_section (ps : dict string) (ds : dict sdecl) : dict sdecl :=
  match dget "section" ps, dget "term" ps with
  | Some sec, Some tm =>
      match dget (lower sec) ds with
      | Some sd => if mem_str tm (sd_terms sd) then ds else dset (lower sec) (mk_sdecl (sd_args sd) (sd_terms sd ++ [tm])) ds
      | None => ds
      end
  | _, _ => ds
  end.
Definition declare (x : string) (ps : dict string) (D : decls) : decls :=
  mk_decls (dset (full x) ps (dc_terms D)) (into_section ps (dc_secs D)).

(** a term that inherits gets the children that the terms it inherits from have in
    its section *)
Definition listed_in (D : decls) (sec : string) : list string :=
  match dget (lower sec) (dc_secs D) with Some sd => sd_terms sd | None => [] end.
Definition copy_child (t : string) (D : decls) (x : string) : decls :=
  match dget (lower x) (dc_terms D) with
  | Some ps => let name := (t ++ "." ++ record_in x)%string in
               declare name (dset "term" name (dset "inheritsfrom" "" ps)) D
  | None => D
  end.
Definition inherit (t i sec : string) (D : decls) : decls :=
  fold_left (copy_child t) (filter (child_of i) (listed_in D sec)) D.

Definition declare_term (vname : string) (cols cells : list string) (x : string) (D : decls) : decls :=
  let ps := row_props vname cols cells x in
  let D1 := declare x ps D in
  match dget "inheritsfrom" ps, dget "section" ps with
  | Some i, Some sec => inherit (record_in x) (record_in i) sec D1
  | _, _ => D1
  end.

(** ** A line *)

(** what the lines before say: the columns of the section and of its Header row,
    the name of values in the section and as the parser has it (they differ after
    the end of another file), and the last record name *)
Record desk := mk_desk { k_columns : list string; k_header : list string; k_own : string; k_value : string; k_parent : string }.
Definition first_desk : desk := mk_desk [] [] "@value" "@value" "declare".
Definition desk_columns (k : desk) : list string := match k_header k with [] => k_columns k | cs => cs end.
Definition own_columns (decl : string -> list string) (n : string) (cells : list string) : list string :=
  match cells with [] => map strip (decl n) | _ => cells end.
Definition desk_next (decl : string -> list string) (k : desk) (l : line) : desk :=
  match l with
  | LBlank => k
  | LSection n cells => mk_desk (own_columns decl n cells) [] "@value" "@value" "root"
  | LHeader n cells => mk_desk (k_columns k) cells (lower n) (lower n) (k_parent k)
  | LTerm p r _ _ => if eqs p current_parent then k else mk_desk (k_columns k) (k_header k) (k_own k) (k_value k) r
  end.

Definition told_prop (D : decls) (n k : string) : option string :=
  match dget n (dc_terms D) with Some ps => dget k ps | None => None end.
(** the name of the value of a row "p.r" *)
Definition value_name (doc : string -> string -> option string) (k : desk) (D : decls) (p r : string) : string :=
  let m := given (told_prop D (dotted p r) "termvaluename") (k_value k) in
  if eqs m "" || eqs m (k_own k) then given (doc (dotted "root" r) "termvaluename") (k_own k) else m.
Definition top_level (k : desk) (p : string) : bool := eqs (if eqs p current_parent then k_parent k else p) "root".

Definition told (doc : string -> string -> option string) (k : desk) (D : decls) (l : line) : decls :=
  match l with
  | LTerm p r x cells =>
      if top_level k p then
        if eqs r "declaresection" then mk_decls (dc_terms D) (dset (lower x) (mk_sdecl (filter nonempty cells) []) (dc_secs D))
        else if eqs r "declareterm" then declare_term (value_name doc k D p r) (desk_columns k) cells x D
        else D
      else D
  | _ => D
  end.

Fixpoint told_all (decl : string -> list string) (doc : string -> string -> option string) (k : desk) (D : decls) (ls : list line) : decls :=
  match ls with
  | [] => D
  | l :: ls' => told_all decl doc (desk_next decl k l) (told doc k D l) ls'
  end.

(** ** The files spoken about *)

(** no Include or Declare row *)
Definition one_file (l : line) : Prop :=
  match l with LTerm p r _ _ => p = "root" -> ~ In r ["include"; "declare"] | _ => True end.

(** no term inherits from a term of its own record name *)
Definition from_another (doc : string -> string -> option string) (k : desk) (D : decls) (l : line) : Prop :=
  match l with
  | LTerm p r x cells => top_level k p = true -> r = "declareterm" ->
      forall i, dget "inheritsfrom" (row_props (value_name doc k D p r) (desk_columns k) cells x) = Some i ->
      lower (record_in x) <> lower (record_in i)
  | _ => True
  end.

(** a heading does not repeat one that has a column "Section"; [seen]: those, and
    the sections of the document *)
Definition new_heading (seen : list string) (l : line) : Prop :=
  match l with LSection n _ => ~ In (lower (strip n)) seen | _ => True end.
Definition seen_after (decl : string -> list string) (seen : list string) (l : line) : list string :=
  match l with
  | LSection n cells => if mem_str "section" (map lower (own_columns decl n cells)) then lower (strip n) :: seen else seen
  | _ => seen
  end.

Fixpoint well_told (decl : string -> list string) (doc : string -> string -> option string) (seen : list string) (k : desk) (D : decls) (ls : list line) : Prop :=
  match ls with
  | [] => True
  | l :: ls' => one_file l /\ from_another doc k D l /\ new_heading seen l
                /\ well_told decl doc (seen_after decl seen l) (desk_next decl k l) (told doc k D l) ls'
  end.

(** ** Several files *)

(** the root section while a file is read: whether it is the current one, its last
    Header row and its name of values *)
Definition root_next (b : bool * (list string * string)) (l : line) : bool * (list string * string) :=
  match l with
  | LSection _ _ => (false, snd b)
  | LHeader n cells => if fst b then (true, (cells, lower n)) else b
  | _ => b
  end.
Definition root_after (hv : list string * string) (ls : list line) : list string * string := snd (fold_left root_next ls (true, hv)).

(** a further file starts in the root section as the files before left it, and with
    the name of values that the last of them ended with *)
Definition file_desk (hv : list string * string) (v : string) : desk := mk_desk [] (fst hv) (snd hv) v "declare".
Fixpoint told_files (decl : string -> list string) (doc : string -> string -> option string) (hv : list string * string) (v : string) (D : decls) (fs : list (list line)) : decls :=
  match fs with
  | [] => D
  | ls :: fs' => let k := file_desk hv v in
      told_files decl doc (root_after hv ls) (k_value (fold_left (desk_next decl) ls k)) (told_all decl doc k D ls) fs'
  end.
Fixpoint well_told_files (decl : string -> list string) (doc : string -> string -> option string) (seen : list string) (hv : list string * string) (v : string) (D : decls) (fs : list (list line)) : Prop :=
  match fs with
  | [] => True
  | ls :: fs' => let k := file_desk hv v in well_told decl doc seen k D ls
      /\ well_told_files decl doc (fold_left (seen_after decl) ls seen) (root_after hv ls) (k_value (fold_left (desk_next decl) ls k)) (told_all decl doc k D ls) fs'
  end.
(** a parser that has read nothing, and the desk after the files *)
Definition blank_desk : desk := mk_desk [] [] "@value" "@value" "root".
Fixpoint desk_past (decl : string -> list string) (k : desk) (hv : list string * string) (fs : list (list line)) : desk :=
  match fs with
  | [] => k
  | ls :: fs' => desk_past decl (fold_left (desk_next decl) ls (file_desk hv (k_value k))) (root_after hv ls) fs'
  end.
(** the columns that the cells of a row are named by *)
Definition cols_next (decl : string -> list string) (c : list string) (l : line) : list string :=
  match l with LSection n cells => own_columns decl n cells | LHeader _ cells => cells | _ => c end.
Definition cols_past (decl : string -> list string) (c : list string) (fs : list (list line)) : list string := fold_left (cols_next decl) (concat fs) c.
Definition roots_after (hv : list string * string) (fs : list (list line)) : list string * string := fold_left root_after fs hv.
Definition first_root : list string * string := ([], "@value").

(** the file [x] is found from the directory [dir] and has the lines [ls] *)
Definition file_says (e : env) (dir x : string) (ls : list line) : Prop :=
  exists y rows, find_declare_doc e dir (strip x) = Ok y /\ fetch e y = Some rows /\ Forall2 reads rows ls.
