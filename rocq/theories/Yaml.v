(** * Yaml: a document from a YAML file (metatab/rowgen.py:42-89)

    YamlMetatabSource.__iter__ from the loaded YAML value on.  The value is a
    [jv]: dicts with str keys, lists, and scalars that are str, int, None or
    False.  The print at rowgen.py:77 is left out. *)

From Verif Require Export Misc Parser Render.

(** rowgen.py:58 *)
Definition yaml_sections : list string := ["root"; "contacts"; "documentation"; "resources"; "references"; "schema"].

(** rowgen.py:16-17: section_map and sections *)
Record ysrc := mk_ysrc { y_map : dict string; y_secs : dict nat }.

(** rowgen.py:60-67 *)
Fixpoint open_sections (names : list string) (y : ysrc) : MM ysrc :=
  match names with
  | [] => ret y
  | n :: ns =>
      d <- getD ;;
      match dget n (d_decl_sections d) with
      | None => raise EKey
      | Some sd =>
          i <- get_or_new_section n (sd_args sd) ;;
          open_sections ns (mk_ysrc (fold_left (fun m tn => dset (lower tn) n m) (sd_terms sd) (y_map y)) (dset n i (y_secs y)))
      end
  end.

(** rowgen.py:79: section_map.get(term_name) or 'root' *)
Definition yaml_section (y : ysrc) (tn : string) : string :=
  match dget tn (y_map y) with Some n => if nonempty n then n else "root" | None => "root" end.

(** rowgen.py:69-86.  A value that is a list or a dict is not modelled: EType
    stands for what happens then. *)
Fixpoint add_items (y : ysrc) (last_term : dict nat) (items : list (string * jv * option string)) : MM unit :=
  match items with
  | [] => ret tt
  | (tn, value, parent) :: items' =>
      v <- lift (match value with JVal v => Ok v | _ => Err EType end) ;;
      t <- (match parent with
            | None =>
                match dget (yaml_section y tn) (y_secs y) with
                | Some sec => new_term sec tn v []
                | None => raise EAttr
                end
            | Some p =>
                match dget p last_term with
                | Some i => new_child i tn v []
                | None => raise EKey
                end
            end) ;;
      add_items y (dset tn t last_term) items'
  end.

(** the items of a list that are str; EType stands for what happens with others *)
Fixpoint yaml_strs (l : list jv) : res (list string) :=
  match l with
  | [] => Ok []
  | JVal (VStr d) :: l' => do? ds <- yaml_strs l' ;; Ok (d :: ds)
  | _ => Err EType
  end.

(** rowgen.py:51 and doc.py:52-57: the declarations; those that are neither a
    str, a list of str nor None are not modelled: EType stands for what happens
    then *)
Definition yaml_declare (items : list (string * jv)) : res (list string) :=
  match dget "declare" items with
  | None => Ok ["metatab-latest"]
  | Some (JVal (VStr d)) => Ok [d]
  | Some (JVal VNone) => Ok []
  | Some (JList l) => yaml_strs l
  | Some _ => Err EType
  end.

(** rowgen.py:42-86 up to the rows.  yield_dict is a generator; the terms made
    before one of its exceptions are not seen by anyone, so it is run first
    here.  Which of two exceptions is raised is not modelled. *)
Definition yaml_doc (e : env) (fuel : nat) (d : jv) : MM unit :=
  match d with
  | JDict items =>
      decl <- lift (yaml_declare items) ;;
      load_declarations e fuel decl ;;;
      y <- open_sections yaml_sections (mk_ysrc [] []) ;;
      doc <- getD ;;
      l <- lift (yield_dict (d_decl_terms doc) None None d) ;;
      add_items y [] l
  | _ => raise EAttr
  end.

(** rowgen.py:89 *)
Definition yaml_rows (e : env) (fuel : nat) (d : jv) : res (list (list val)) :=
  match yaml_doc e fuel d (init_st default_classes) with
  | (s, Ok _) => doc_rows s
  | (_, Err x) => Err x
  end.
