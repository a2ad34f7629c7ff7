(** * Attr: attributes of terms, [in], properties as dicts, set_terms
    (metatab/terms.py:319-395, 497-538, 805-830; metatab/doc.py:279-336, 424-458)

    Term.__setattr__ may store an attribute that is no term at all in the
    instance __dict__.  Such attributes are kept beside the document state in
    [a_own].  The functions below are for attribute names that are not among
    those every term has: those of [instance_names] (set by the constructors,
    terms.py:37-104, 672-700), the methods and properties of the classes
    ([class_names]) and names starting with two underscores, which every Python
    object has. *)

From Verif Require Export Ops.

Definition instance_names : list string :=
  ["parent"; "_term"; "parent_term"; "record_term"; "_orig_term"; "value"; "args"; "_section"; "_doc"; "doc";
   "file_name"; "file_type"; "row"; "col"; "term_value_name"; "child_property_type"; "valid"; "options"; "children";
   "_Term__initialised"; "default_term_value_name"; "terms"; "header_args"].

Definition class_names : list string :=
  ["_common_properties"; "section"; "split_term"; "split_term_lower"; "file_ref"; "add_child"; "new_child"; "remove_child";
   "new_children"; "set_ownership"; "find"; "find_first"; "find_first_value"; "find_value"; "get_or_new_child"; "get";
   "get_value"; "term"; "normalize_term"; "join"; "join_lc"; "record_term_lc"; "parent_term_lc"; "qualified_term"; "term_is";
   "is_terminal"; "is_arg_child"; "has_elided_parent"; "property_names"; "props"; "arg_props"; "all_props"; "as_dict";
   "_convert_to_dict"; "rows"; "descendents"; "subclass"; "name"; "add_arg"; "remove_arg"; "add_term"; "move_term";
   "new_term"; "get_term"; "get_or_new_term"; "set_terms"; "remove_term"; "clean"; "sort_by_term"; "_args"; "lines"; "as_lines"].

(** terms.py:33 _common_properties *)
Definition common_properties : list string := ["url"; "name"; "description"; "schema"].

(** a document and the attributes stored in its term objects *)
Record ast := mk_ast { a_st : st; a_own : nat -> dict val }.

Definition on_st {A} (m : MM A) : M ast A :=
  fun a => let (s, r) := m (a_st a) in (mk_ast s (a_own a), r).

(** object.__setattr__ for a name of no property *)
Definition set_own (i : nat) (item : string) (value : val) : M ast unit :=
  modify (fun a => mk_ast (a_st a) (fun j => if j =? i then dset item value (a_own a j) else a_own a j)).

(** terms.py:326-354 __getattr__ of a plain term: __getitem__, then the common
    properties; the final __getattribute__ raises AttributeError again *)
Definition plain_getattr (s : st) (i : nat) (item : string) : res val :=
  match term_getitem (s_heap s) i item with
  | Ok c => Ok (t_val (tget c s))
  | Err EKey => if mem_str (lower item) common_properties then Ok VNone else Err EAttr
  | Err e => Err e
  end.

(** the same on a section, whose __getitem__ is get_term (terms.py:878-880)
    and returns None for a term that is not there: terms.py:340 *)
Definition section_getattr (s : st) (i : nat) (item : string) : res val :=
  do? o <- section_get_term s i item VFalse ;;
  match o with Some t => Ok (t_val (tget t s)) | None => Err EAttr end.

(** getattr(t, item): the instance __dict__ first *)
Definition getattr (a : ast) (i : nat) (item : string) : res val :=
  match dget item (a_own a i) with
  | Some v => Ok v
  | None => if is_section_cls (t_cls (tget i (a_st a))) then section_getattr (a_st a) i item
            else plain_getattr (a_st a) i item
  end.

(** terms.py:357-379 __setattr__ of an initialised term *)
Definition setattr (i : nat) (item : string) (value : val) : M ast unit :=
  a <- gets (fun a => a) ;;
  let r := tget i (a_st a) in
  let own := eqs (lower item) (lower (t_tvn r)) || eqs (lower item) "value" in
  if dmem item (a_own a i) && negb own then set_own i item value
  else if own then on_st (modT i (set_t_val value))
  else if mem_str (lower item) (map lower (property_names (s_heap (a_st a)) r)) then
    on_st (if is_section_cls (t_cls r) then section_setitem i item value else term_setitem i item value)
  else set_own i item value.

(** [sub in text] for strings *)
Definition in_text (sub text : string) : bool :=
  match String.index 0 sub text with Some _ => true | None => false end.

(** terms.py:319-324 __contains__.  There is no attribute [properties]: the name
    goes to __getattr__.  [x in None], [x in 5] and [x in False] are TypeErrors. *)
Fixpoint contains (fuel : nat) (a : ast) (i : nat) (item : string) : res bool :=
  match fuel with
  | O => Err ERecursion
  | S f =>
      if eqs (lower item) "value" then Ok true
      else if mem_str (lower item) common_properties then Ok true
      else
        do? v <- getattr a i "properties" ;;
        match v with
        | VStr x => Ok (in_text (lower item) x)
        | VRef j => contains f a j (lower item)
        | _ => Err EType
        end
  end.

(** terms.py:382-395 Term.get(item, default) and Term.get_value(item, default);
    None stands for the default *)
Definition term_get (h : list trec) (i : nat) (item : string) : res (option nat) :=
  match term_getitem h i item with
  | Ok c => Ok (Some c)
  | Err EKey => Ok None
  | Err e => Err e
  end.

(** ** Properties as dicts *)

(** terms.py:507-513 props *)
Definition props (h : list trec) (i : nat) : dict val :=
  dict_of (map (fun c => (rt_lc (hget c h), t_val (hget c h))) (t_children (hget i h))).

(** terms.py:515-527 arg_props; AttributeError for a term without section (Python
    then asks __getattr__ for "arg_props", which raises it again: a child of that
    name is not modelled) *)
Definition arg_props (h : list trec) (i : nat) : res (dict val) :=
  let r := hget i h in
  match t_section r with
  | None => Err EAttr
  | Some s =>
      let d := dict_of (combine (map lower (property_names h (hget s h))) (map VStr (t_args r))) in
      Ok (dset (lower (t_tvn r)) (t_val r) d)
  end.

(** terms.py:529-537 all_props *)
Definition all_props (h : list trec) (i : nat) : res (dict val) :=
  do? d <- arg_props h i ;; Ok (dupdate d (props h i)).

(** ** set_terms *)

(** a keyword argument of set_terms: a value, or a pair of a value and a dict *)
Inductive kwterm := KVal (v : val) | KPair (v : val) (props : dict val).

(** terms.py:823-830: [value, props = v].  A string of two characters is
    unpacked into these, and the second is no mapping: TypeError.  None, False
    and numbers cannot be unpacked (TypeError, caught), nor can other strings
    (ValueError, caught).  A term raises NotImplementedError (terms.py:648),
    for which EType stands here; other sequences are not modelled. *)
Definition set_kwterm (sec : nat) (kv : string * kwterm) : MM unit :=
  match snd kv with
  | KPair v ps => t <- new_term sec (fst kv) v ps ;; ret tt
  | KVal (VStr x) =>
      if String.length x =? 2 then raise EType else t <- new_term sec (fst kv) (VStr x) [] ;; ret tt
  | KVal (VRef _) => raise EType
  | KVal v => t <- new_term sec (fst kv) v [] ;; ret tt
  end.

(** terms.py:805-830 SectionTerm.set_terms *)
Definition set_terms (sec : nat) (ts : list nat) (kws : dict kwterm) : MM unit :=
  mapM_ (section_add_term sec) ts ;;; mapM_ (set_kwterm sec) kws.

(** ** The document *)

(** doc.py:329-331 [name in doc] *)
Definition doc_contains (s : st) (item : string) : bool := dmem (lower item) (d_sections (s_doc s)).
(** doc.py:279-286 get_section(name, default); None stands for the default *)
Definition get_section_or (s : st) (name : string) : option nat := dget (lower name) (d_sections (s_doc s)).
(** doc.py:307-315 doc[[names]] *)
Definition get_sections (s : st) (names : list string) : res (list nat) := rmap (fun n => get_section (VStr n) s) names.
(** doc.py:333-336 iteration over the sections *)
Definition doc_iter (s : st) : list nat := map snd (d_sections (s_doc s)).

(** doc.py:350-360 find with kwargs: get_value of a section looks for a term of
    the section *)
Definition any_get_value (s : st) (i : nat) (item : string) : res val :=
  if is_section_cls (t_cls (tget i s)) then section_get_value s i item else term_get_value (s_heap s) i item.

Definition kw_test (s : st) (kw : dict val) (i : nat) : res bool :=
  (fix go (kw : dict val) : res bool :=
     match kw with
     | [] => Ok true
     | (k, v) :: kw' =>
         do? x <- any_get_value s i k ;;
         if veq x v then go kw' else Ok false
     end) kw.

Definition doc_find_kw (s : st) (term : string) (value : val) (sa : secarg) (kw : dict val) : res (list nat) :=
  do? l <- doc_find s term value sa ;;
  match kw with
  | [] => Ok l
  | _ => rfilter (kw_test s kw) l
  end.

(** doc.py:442-449 get(term, default): None stands for the default *)
Definition doc_get (s : st) (term : string) : res (option nat) := doc_find_first s term VFalse SAny.
(** doc.py:424-431 find_first with kwargs *)
Definition doc_find_first_kw (s : st) (term : string) (value : val) (sa : secarg) (kw : dict val) : res (option nat) :=
  do? l <- doc_find_kw s term value sa kw ;; Ok (hd_error l).
(** doc.py:433-440 find_first_value with kwargs *)
Definition doc_find_first_value_kw (s : st) (term : string) (value : val) (sa : secarg) (kw : dict val) : res val :=
  do? o <- doc_find_first_kw s term value sa kw ;;
  Ok (match o with Some i => t_val (tget i s) | None => VNone end).
(** doc.py:451-458 get_value(term, default, section) *)
Definition doc_get_value (s : st) (term : string) (default : val) (sa : secarg) : res val :=
  do? o <- doc_find_first s term VFalse sa ;;
  Ok (match o with Some i => t_val (tget i s) | None => default end).
