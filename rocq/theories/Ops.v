(** * Ops: methods of Term, SectionTerm and MetatabDoc

    (metatab/terms.py, metatab/doc.py).  A term object is its heap index.

    Attribute assignment in Python goes through Term.__setattr__
    (terms.py:357-379).  It is modelled for the attribute [section], the only
    one assigned by the library that is not stored in the instance __dict__ (it
    is a property), see [set_section].  For all other attributes the model uses
    a plain field update, which is what __setattr__ does unless the term's
    value name (term_value_name) equals the name of the attribute itself;
    value names such as 'parent', 'valid' or 'doc' are outside the model. *)

From Verif Require Export State.

(** ** Names of a term *)

(** terms.py:426-434 record_term_lc, parent_term_lc *)
Definition rt_lc (r : trec) : string := lower (t_rt r).
Definition pt_lc (r : trec) : string := lower (t_pt r).
(** terms.py:416-424 join, join_lc *)
Definition tjoin (r : trec) : string := dotted (t_pt r) (t_rt r).
Definition join_lc (r : trec) : string := dotted (pt_lc r) (rt_lc r).
(** terms.py:447-476 term_is *)
Definition term_is (r : trec) (v : string) : res bool := term_is_name (t_pt r) (t_rt r) v.

(** terms.py:436-445 qualified_term *)
Definition qualified_term (h : list trec) (r : trec) : res string :=
  match t_parent r with
  | Some p => Ok (dotted (rt_lc (hget p h)) (rt_lc r))
  | None => if eqs (pt_lc r) "root" then Ok (dotted "root" (rt_lc r)) else Err EAssert
  end.

(** terms.py:402-409, the setter of [term]: the parent and record names *)
Definition term_names (h : list trec) (parent : option nat) (term : string) : res (string * string) :=
  do? (p, r) <- split_term_lower term ;;
  Ok (match parent with
      | Some i => if eqs p ROOT_TERM then t_rt (hget i h) else p
      | None => p
      end, r).

(** ** Construction *)

(** terms.py:37-104 Term.__init__ *)
Definition mk_plain (c : cls) (term : string) (value : val) (args : list string)
    (row col : option nat) (ftype : option string)
    (parent : option nat) (doc : bool) (section : option nat) : MM nat :=
  h <- gets s_heap ;;
  ' (p, r) <- lift (term_names h parent term) ;;
  assert_ (match parent with
           | None => true
           | Some i => eqs (rt_lc (hget i h)) (lower p)
           end) ;;;
  allocT {| t_cls := c; t_parent := parent; t_term := term; t_pt := p; t_rt := r;
            t_val := init_val value; t_args := map strip args; t_section := section;
            t_doc := doc; t_ftype := ftype; t_row := row; t_col := col;
            t_tvn := "@value"; t_cpt := "any"; t_valid := None; t_options := [];
            t_children := []; t_terms := []; t_hargs := []; t_dtvn := "@value" |}.

(** doc.py:256-258 section_args *)
Definition section_args (name : string) (d : docrec) : list string :=
  match dget (lower name) (d_decl_sections d) with
  | Some sd => sd_args sd
  | None => []
  end.

(** terms.py:672-700 SectionTerm.__init__ with parent = section = None and doc
    set.  [args = []] also stands for term_args None.  col is set to row
    (terms.py:695). *)
Definition mk_section (c : cls) (term : string) (value : val) (args : list string)
    (row : option nat) (ftype : option string) : MM nat :=
  d <- getD ;;
  sargs <- (match args with
            | [] => name <- lift (as_str value) ;; ret (section_args name d)
            | _ => ret args
            end) ;;
  ' (p, r) <- lift (split_term_lower term) ;;
  b1 <- lift (term_is_name p r "Root.Section") ;;
  b2 <- (if b1 then ret true else lift (term_is_name p r "Root.Root")) ;;
  assert_ (b1 || b2) ;;;
  allocT {| t_cls := c; t_parent := None; t_term := term; t_pt := p; t_rt := r;
            t_val := init_val value; t_args := map strip sargs; t_section := None;
            t_doc := true; t_ftype := ftype; t_row := row; t_col := row;
            t_tvn := "@value"; t_cpt := "any"; t_valid := None; t_options := [];
            t_children := []; t_terms := []; t_hargs := []; t_dtvn := "@value" |}.

(** [term_class(term, value, args, row=..., ...)] for a class object.
    SectionTerm asserts a document and no parent or section (terms.py:675,
    691-692); RootSectionTerm (terms.py:981) does not accept these arguments:
    TypeError. *)
Definition construct (c : cls) (term : string) (value : val) (args : list string)
    (row col : option nat) (ftype : option string)
    (parent : option nat) (doc : bool) (section : option nat) : MM nat :=
  match c with
  | CRoot => raise EType
  | CSection =>
      match parent, section, doc with
      | None, None, true => mk_section c term value args row ftype
      | _, _, _ => raise EAssert
      end
  | _ => mk_plain c term value args row col ftype parent doc section
  end.

(** parser.py:203-217 and doc.py:208-222 get_term_class, given the map of
    super terms to use.  [import_name_or_class] is the identity here. *)
Definition class_for (reg : dict cls) (super : dict string) (name : string) : cls :=
  let tnl := lower name in
  match dget tnl reg with
  | Some c => c
  | None =>
      match dget tnl super with
      | Some sup => match dget sup reg with Some c => c | None => CTerm end
      | None => CTerm
      end
  end.

(** doc.py:208-222 MetatabDoc.get_term_class *)
Definition doc_term_class (name : string) (s : st) : cls :=
  class_for (s_reg s) (d_super (s_doc s)) name.

(** ** Children of a term *)

(** terms.py:219-221 and 231-233: the name looked up by find / find_first *)
Definition child_name (r : trec) (term : string) : res string :=
  if has_char "." term then
    match split_on "." term with
    | [p; n] => if eqs (lower p) (rt_lc r) then Ok n else Err EAssert
    | _ => Err EValue
    end
  else Ok term.

Definition child_matches (h : list trec) (name : string) (value : val) (c : nat) : bool :=
  eqs (rt_lc (hget c h)) (lower name)
  && (match value with VFalse => true | _ => veq (t_val (hget c h)) value end).

(** terms.py:216-226 Term.find ([value = VFalse]: no restriction) *)
Definition term_find (h : list trec) (i : nat) (term : string) (value : val) : res (list nat) :=
  do? n <- child_name (hget i h) term ;;
  Ok (filter (child_matches h n value) (t_children (hget i h))).

(** terms.py:228-240 Term.find_first *)
Definition term_find_first (h : list trec) (i : nat) (term : string) (value : val) : res (option nat) :=
  do? n <- child_name (hget i h) term ;;
  Ok (find (child_matches h n value) (t_children (hget i h))).

(** terms.py:242-248 find_first_value *)
Definition term_find_first_value (h : list trec) (i : nat) (term : string) : res val :=
  do? o <- term_find_first h i term VFalse ;;
  Ok (match o with Some c => t_val (hget c h) | None => VNone end).

(** terms.py:283-298 Term.__getitem__ (not for sections) *)
Definition term_getitem (h : list trec) (i : nat) (item : string) : res nat :=
  if eqs (lower item) (lower (t_tvn (hget i h))) then Ok i
  else
    do? o <- term_find_first h i item VFalse ;;
    match o with Some c => Ok c | None => Err EKey end.

(** terms.py:382-395 Term.get and Term.get_value with default None *)
Definition term_get_value (h : list trec) (i : nat) (item : string) : res val :=
  match term_getitem h i item with
  | Ok c => Ok (t_val (hget c h))
  | Err EKey => Ok VNone
  | Err EAttr => Ok VNone
  | Err e => Err e
  end.

(** terms.py:166-171 Term.add_child *)
Definition add_child (p c : nat) : MM unit :=
  modT p (fun r => set_t_children (t_children r ++ [c]) r) ;;;
  modT c (set_t_parent (Some p)) ;;;
  r <- getT c ;;
  b <- lift (term_is r "Datafile.Section") ;;
  assert_ (negb b).

(** terms.py:173-191 Term.new_child without kwargs *)
Definition new_child0 (i : nat) (term : string) (value : val) : MM nat :=
  r <- getT i ;;
  (if t_doc r then ret tt else raise EAttr) ;;;
  c <- gets (doc_term_class (lower term)) ;;
  k <- construct c term (match value with VNone => VNone | v => VStr (str_val v) end)
         [] None None None (Some i) true (t_section r) ;;
  d <- getD ;;
  modT k (fun q => match dget (tjoin q) (d_decl_terms d) with
                   | Some td => match dget "termvaluename" (td_props td) with
                                | Some n => set_t_tvn n q
                                | None => q
                                end
                   | None => q
                   end) ;;;
  q <- getT k ;;
  b <- lift (term_is q "*.Section") ;;
  assert_ (negb b) ;;;
  modT i (fun r => set_t_children (t_children r ++ [k]) r) ;;;
  ret k.

(** terms.py:199-204 new_children(kwargs) *)
Definition new_children (i : nat) (kw : dict val) : MM unit :=
  mapM_ (fun kv => k <- new_child0 i (fst kv) (snd kv) ;; ret tt) kw.

(** terms.py:173-191 Term.new_child: the grandchildren are created before the
    child is appended *)
Definition new_child (i : nat) (term : string) (value : val) (kw : dict val) : MM nat :=
  r <- getT i ;;
  (if t_doc r then ret tt else raise EAttr) ;;;
  c <- gets (doc_term_class (lower term)) ;;
  k <- construct c term (match value with VNone => VNone | v => VStr (str_val v) end)
         [] None None None (Some i) true (t_section r) ;;
  new_children k kw ;;;
  d <- getD ;;
  modT k (fun q => match dget (tjoin q) (d_decl_terms d) with
                   | Some td => match dget "termvaluename" (td_props td) with
                                | Some n => set_t_tvn n q
                                | None => q
                                end
                   | None => q
                   end) ;;;
  q <- getT k ;;
  b <- lift (term_is q "*.Section") ;;
  assert_ (negb b) ;;;
  modT i (fun r => set_t_children (t_children r ++ [k]) r) ;;;
  ret k.

(** terms.py:277-279, the final checks of get_or_new_child *)
Definition goc_check (i : nat) (rt : string) (c : nat) : MM unit :=
  h <- gets s_heap ;;
  o <- lift (term_find_first h i rt VFalse) ;;
  assert_ (match o with Some k => Nat.eqb k c | None => false end).

(** terms.py:254-281 get_or_new_child without kwargs (not for sections, whose
    find_first is a different method) *)
Definition get_or_new_child0 (i : nat) (term : string) (value : val) : MM nat :=
  ' (_, rt) <- lift (split_term term) ;;
  r <- getT i ;;
  let term' := dotted (t_rt r) rt in
  h <- gets s_heap ;;
  o <- lift (term_find_first h i rt VFalse) ;;
  c <- (match o with
        | None =>
            (if t_doc r then ret tt else raise EAttr) ;;;
            tc <- gets (doc_term_class (lower term')) ;;
            c <- construct tc term' value [] None None None (Some i) true (t_section r) ;;
            q <- getT c ;;
            b <- lift (term_is q "Datafile.Section") ;;
            assert_ (negb b) ;;;
            modT i (fun r => set_t_children (t_children r ++ [c]) r) ;;;
            ret c
        | Some c =>
            (match value with VFalse => ret tt | _ => modT c (set_t_val value) end) ;;;
            ret c
        end) ;;
  goc_check i rt c ;;;
  ret c.

(** terms.py:254-281 get_or_new_child with kwargs: their get_or_new_child /
    new_child calls have no kwargs of their own *)
Definition get_or_new_child (i : nat) (term : string) (value : val) (kw : dict val) : MM nat :=
  ' (_, rt) <- lift (split_term term) ;;
  r <- getT i ;;
  let term' := dotted (t_rt r) rt in
  h <- gets s_heap ;;
  o <- lift (term_find_first h i rt VFalse) ;;
  c <- (match o with
        | None =>
            (if t_doc r then ret tt else raise EAttr) ;;;
            tc <- gets (doc_term_class (lower term')) ;;
            c <- construct tc term' value [] None None None (Some i) true (t_section r) ;;
            new_children c kw ;;;
            q <- getT c ;;
            b <- lift (term_is q "Datafile.Section") ;;
            assert_ (negb b) ;;;
            modT i (fun r => set_t_children (t_children r ++ [c]) r) ;;;
            ret c
        | Some c =>
            (match value with VFalse => ret tt | _ => modT c (set_t_val value) end) ;;;
            mapM_ (fun kv => k <- get_or_new_child0 c (fst kv) (snd kv) ;; ret tt) kw ;;;
            ret c
        end) ;;
  goc_check i rt c ;;;
  ret c.

(** terms.py:312-317, the last branch of Term.__setitem__ (value not None, the
    item is not the value name) *)
Definition set_child_item (i : nat) (item : string) (value : val) : MM unit :=
  c <- get_or_new_child0 i item value ;;
  h <- gets s_heap ;;
  c' <- lift (term_getitem h i item) ;;
  let v := t_val (hget c' h) in
  assert_ (veq v value || (veq v VNone && veq value (VStr ""))).

(** ** The section attribute *)

(** terms.py:715-722 SectionTerm.property_names *)
Definition sec_property_names (r : trec) : list string :=
  match t_hargs r with [] => t_args r | hs => hs end.

(** terms.py:497-505 Term.property_names *)
Definition property_names (h : list trec) (r : trec) : list string :=
  if is_section_cls (t_cls r) then sec_property_names r
  else match t_section r with
       | Some s => sec_property_names (hget s h)
       | None => []
       end.

(** terms.py:357-379 __setattr__ for [t.section = s] on a term that is not a
    section and [s] a section object.  [section] is a property and therefore
    never in the instance __dict__: the value-name and the child-property
    branches come first. *)
Definition set_section_plain (t s : nat) : MM unit :=
  r <- getT t ;;
  h <- gets s_heap ;;
  if eqs (lower (t_tvn r)) "section" then modT t (set_t_val (VRef s))
  else if mem_str "section" (map lower (property_names h r)) then set_child_item t "section" (VRef s)
  else modT t (set_t_section (Some s)).

(** ** Finding terms in the document *)

(** terms.py:639-647 descendents *)
Fixpoint descendents (fuel : nat) (h : list trec) (i : nat) : res (list nat) :=
  match fuel with
  | O => Err ERecursion
  | S f =>
      (fix go (cs : list nat) : res (list nat) :=
         match cs with
         | [] => Ok []
         | c :: cs' =>
             do? ds <- descendents f h c ;;
             do? rest <- go cs' ;;
             Ok (c :: ds ++ rest)
         end) (t_children (hget i h))
  end.

(** enough fuel for every acyclic heap *)
Definition heap_fuel (h : list trec) : nat := S (List.length h).

(** doc.py:820-835 all_terms *)
Definition section_all_terms (h : list trec) (sid : nat) : res (list nat) :=
  let r := hget sid h in
  do? ts <- rmap (fun t => do? ds <- descendents (heap_fuel h) h t ;; Ok (t :: ds)) (t_terms r) ;;
  Ok ((if veq (t_val r) (VStr "Root") then [] else [sid]) ++ concat ts).

Definition all_terms (s : st) : res (list nat) :=
  do? l <- rmap (fun kv => section_all_terms (s_heap s) (snd kv)) (d_sections (s_doc s)) ;;
  Ok (concat l).

(** the section argument of find: None, a name, or a list of names *)
Inductive secarg := SAny | SOne (s : string) | SList (l : list string).

(** doc.py:362-373 in_section *)
Definition in_section (h : list trec) (r : trec) (sa : secarg) : res bool :=
  match sa with
  | SAny => Ok true
  | SOne s =>
      match t_section r with
      | None => Ok false
      | Some i => do? n <- as_str (t_val (hget i h)) ;; Ok (eqs (lower s) (lower n))
      end
  | SList l =>
      match t_section r with
      | None => Ok false
      | Some i =>
          (fix go (l : list string) : res bool :=
             match l with
             | [] => Ok false
             | s :: l' =>
                 do? n <- as_str (t_val (hget i h)) ;;
                 if eqs (lower s) (lower n) then Ok true else go l'
             end) l
      end
  end.

(** doc.py:410-420, one candidate of find *)
Definition find_test (h : list trec) (term : string) (value : val) (sa : secarg) (i : nat) : res bool :=
  let r := hget i h in
  if eqs (join_lc r) "root.root" then Ok false
  else if negb (match t_section r with Some _ => true | None => false end
                || eqs (join_lc r) "root.section") then Err EAssert
  else
    do? b <- term_is r term ;;
    if b then
      do? b2 <- in_section h r sa ;;
      Ok (b2 && (match value with VFalse => true | _ => veq value (t_val r) end))
    else Ok false.

Fixpoint rfilter {A} (f : A -> res bool) (l : list A) : res (list A) :=
  match l with
  | [] => Ok []
  | x :: l' =>
      do? b <- f x ;;
      do? r <- rfilter f l' ;;
      Ok (if b then x :: r else r)
  end.

(** doc.py:398-422: find for one name, without expansion to derived terms *)
Definition find1 (s : st) (term : string) (value : val) (sa : secarg) : res (list nat) :=
  let term := lower term in
  let term := if has_char "." term then term else ("root." ++ term)%string in
  do? gen <- (if startswith "root." term then Ok (d_terms (s_doc s)) else all_terms s) ;;
  rfilter (find_test (s_heap s) term value sa) gen.

(** doc.py:392-394 *)
Definition find_list (s : st) (terms : list string) (value : val) (sa : secarg) : res (list nat) :=
  do? l <- rmap (fun e => find1 s e value sa) terms ;; Ok (concat l).

(** doc.py:338-422 MetatabDoc.find for a str name without kwargs.  (For a list
    of names doc.py:382-389 computes an expansion and drops it, so find on a
    list is [find_list].) *)
Definition doc_find (s : st) (term : string) (value : val) (sa : secarg) : res (list nat) :=
  match dget (lower term) (d_derived (s_doc s)) with
  | Some ds => find_list s (ds ++ [term]) value sa
  | None => find1 s term value sa
  end.

(** doc.py:424-431 find_first *)
Definition doc_find_first (s : st) (term : string) (value : val) (sa : secarg) : res (option nat) :=
  do? l <- doc_find s term value sa ;; Ok (hd_error l).

(** doc.py:433-440 find_first_value, doc.py:451-458 get_value (default None) *)
Definition doc_find_first_value (s : st) (term : string) (value : val) (sa : secarg) : res val :=
  do? o <- doc_find_first s term value sa ;;
  Ok (match o with Some i => t_val (tget i s) | None => VNone end).

(** terms.py:711-713 SectionTerm.name, used as the section argument of find *)
Definition section_name (s : st) (i : nat) : val := t_val (tget i s).

(** [section=self.name] (terms.py:774-786): None would mean no restriction *)
Definition secarg_of (v : val) : secarg :=
  match v with VStr n => SOne n | _ => SAny end.

(** terms.py:774-780 SectionTerm.get_term / find_first / __getitem__ *)
Definition section_get_term (s : st) (sec : nat) (term : string) (value : val) : res (option nat) :=
  doc_find_first s term value (secarg_of (section_name s sec)).

(** terms.py:782-783 SectionTerm.find *)
Definition section_find (s : st) (sec : nat) (term : string) (value : val) : res (list nat) :=
  doc_find s term value (secarg_of (section_name s sec)).

(** terms.py:390-395 get_value on a section: a term that is not found gives
    None.value, AttributeError, hence the default None *)
Definition section_get_value (s : st) (sec : nat) (item : string) : res val :=
  match section_get_term s sec item VFalse with
  | Ok (Some i) => Ok (t_val (tget i s))
  | Ok None => Ok VNone
  | Err EKey => Ok VNone
  | Err EAttr => Ok VNone
  | Err e => Err e
  end.

(** ** Sections of the document *)

(** doc.py:243-254 add_section *)
Definition add_section (i : nat) : MM nat :=
  modT i (set_t_doc true) ;;;
  r <- getT i ;;
  assert_ (is_section_cls (t_cls r)) ;;;
  name <- lift (as_str (t_val r)) ;;
  d <- getD ;;
  match dget (lower name) (d_sections d) with
  | Some j => ret j
  | None => modD (fun d => set_d_sections (dset (lower name) i (d_sections d)) d) ;;; ret i
  end.

(** doc.py:279-286 get_section without default; doc.py:307-315 doc[name] *)
Definition get_section (name : val) (s : st) : res nat :=
  do? n <- as_str name ;;
  match dget (lower n) (d_sections (s_doc s)) with
  | Some i => Ok i
  | None => Err EKey
  end.

(** ** Adding terms *)

(** terms.py:206-214 set_ownership *)
Fixpoint set_ownership (fuel : nat) (t : nat) : MM unit :=
  match fuel with
  | O => raise ERecursion
  | S f =>
      r <- getT t ;;
      assert_ (match t_section r with Some _ => true | None => false end) ;;;
      mapM_ (fun c =>
               modT c (fun q => set_t_doc (t_doc r) (set_t_section (t_section r) (set_t_parent (Some t) q))) ;;;
               set_ownership f c) (t_children r)
  end.

(** doc.py:196-206, the second half of add_term *)
Definition add_term_meta (t : nat) : MM unit :=
  r <- getT t ;;
  d <- getD ;;
  let td := dget (tjoin r) (d_decl_terms d) in
  let prop k := match td with Some td => dget k (td_props td) | None => None end in
  when (eqs (t_cpt r) "" || eqs (t_cpt r) "any")
       (modT t (set_t_cpt (match prop "childpropertytype" with Some x => x | None => "any" end))) ;;;
  (if eqs (t_tvn r) "" then ret tt
   else match t_section r with Some _ => ret tt | None => raise EAttr end) ;;;
  h <- gets s_heap ;;
  let dflt := match t_section r with Some s => t_dtvn (hget s h) | None => "" end in
  (if eqs (t_tvn r) "" || eqs (t_tvn r) dflt
   then match t_section r with
        | Some _ => modT t (set_t_tvn (match prop "termvaluename" with Some x => x | None => dflt end))
        | None => raise EAttr
        end
   else ret tt) ;;;
  assert_ (match t_section r with Some _ => true | None => eqs (join_lc r) "root.root" end).

(** doc.py:178-190, the first half of add_term; returns false when the term
    was already there *)
Definition add_term_list (t : nat) : MM bool :=
  modT t (set_t_doc true) ;;;
  d <- getD ;;
  if mem_id t (d_terms d) then ret false
  else
    r <- getT t ;;
    assert_ (match t_section r with Some _ => true | None => eqs (join_lc r) "root.root" end) ;;;
    (if is_section_cls (t_cls r) then k <- add_section t ;; ret tt
     else modD (fun d => set_d_terms (d_terms d ++ [t]) d)) ;;;
    ret true.

(** doc.py:178-206 add_term(t, add_section=False) *)
Definition doc_add_term_nosec (t : nat) : MM unit :=
  b <- add_term_list t ;;
  when b (add_term_meta t).

(** terms.py:744-758 SectionTerm.add_term *)
Definition section_add_term (sec t : nat) : MM unit :=
  s <- getT sec ;;
  r <- getT t ;;
  (if mem_id t (t_terms s) then ret tt
   else if eqs (pt_lc r) "root" then
     modT sec (fun s => set_t_terms (t_terms s ++ [t]) s) ;;;
     (if t_doc s then ret tt else raise EAttr) ;;;
     doc_add_term_nosec t ;;;
     h <- gets s_heap ;;
     set_ownership (heap_fuel h) t
   else raise EGenerate) ;;;
  r <- getT t ;;
  assert_ (match t_section r with Some _ => true | None => eqs (join_lc r) "root.root" end).

(** doc.py:178-206 add_term(t) where [t] is not a section *)
Definition doc_add_term (t : nat) : MM unit :=
  b <- add_term_list t ;;
  when b
    (r <- getT t ;;
     (match t_section r with
      | Some sid =>
          if eqs (pt_lc r) "root" then
            s' <- add_section sid ;;
            set_section_plain t s' ;;;
            r' <- getT t ;;
            match t_section r' with
            | Some s2 => section_add_term s2 t
            | None => raise EAttr
            end
          else ret tt
      | None => ret tt
      end) ;;;
     add_term_meta t).

(** terms.py:764-772 SectionTerm.new_term *)
Definition new_term (sec : nat) (term : string) (value : val) (kw : dict val) : MM nat :=
  s <- getT sec ;;
  (if t_doc s then ret tt else raise EAttr) ;;;
  c <- gets (doc_term_class (lower term)) ;;
  t <- construct c term value [] None None None None true (Some sec) ;;
  new_children t kw ;;;
  doc_add_term t ;;;
  ret t.

(** terms.py:788-802 SectionTerm.get_or_new_term *)
Definition get_or_new_term (sec : nat) (term : string) (value : val) (kw : dict val) : MM nat :=
  o <- reads (fun s => section_get_term s sec term value) ;;
  match o with
  | None => new_term sec term value kw
  | Some t =>
      (match value with VNone => ret tt | _ => modT t (set_t_val value) end) ;;;
      mapM_ (fun kv => k <- get_or_new_child0 t (fst kv) (snd kv) ;; ret tt) kw ;;;
      ret t
  end.

(** terms.py:882-884 SectionTerm.__setitem__ *)
Definition section_setitem (sec : nat) (item : string) (value : val) : MM unit :=
  t <- get_or_new_term sec item value [] ;; ret tt.

(** terms.py:357-379 __setattr__ for [t.section = o] on a section object: with
    a column named "section" the assignment becomes self["section"] = o
    (terms.py:373-375), i.e. SectionTerm.__setitem__. *)
Definition opt_ref (o : option nat) : val := match o with Some i => VRef i | None => VNone end.

Definition set_section_sec (t : nat) (o : option nat) : MM unit :=
  r <- getT t ;;
  if eqs (lower (t_tvn r)) "section" then modT t (set_t_val (opt_ref o))
  else if mem_str "section" (map lower (sec_property_names r)) then section_setitem t "section" (opt_ref o)
  else modT t (set_t_section o).

(** parser.py:446, 465, 469.  A plain term gets [None] only if a Term class
    without a section is registered for root.section; then the plain update is
    an approximation. *)
Definition set_section (t : nat) (o : option nat) : MM unit :=
  r <- getT t ;;
  if is_section_cls (t_cls r) then set_section_sec t o
  else match o with
       | Some s => set_section_plain t s
       | None => modT t (set_t_section None)
       end.

(** ** Removing terms *)

Definition catch_value (m : MM unit) : MM unit :=
  fun s => match m s with
           | (s', Err EValue) => (s', Ok tt)
           | x => x
           end.

(** terms.py:833-842 SectionTerm.remove_term(t, remove_from_doc=False) *)
Definition section_remove_only (sec t : nat) : MM unit :=
  modT sec (fun s => set_t_terms (remove_first t (t_terms s)) s).

(** doc.py:227-234, the first part of remove_term *)
Definition remove_from_lists (t : nat) : MM unit :=
  modD (fun d => set_d_terms (remove_first t (d_terms d)) d) ;;;
  r <- getT t ;;
  match t_section r with
  | Some sid =>
      if eqs (pt_lc r) "root" then
        s' <- add_section sid ;;
        set_section_plain t s' ;;;
        r' <- getT t ;;
        match t_section r' with
        | Some s2 => section_remove_only s2 t
        | None => raise EAttr
        end
      else ret tt
  | None => ret tt
  end.

(** doc.py:224-241 MetatabDoc.remove_term and terms.py:193-197
    Term.remove_child, which call each other.  [t] is not a section. *)
Fixpoint remove_term_fuel (fuel : nat) (t : nat) : MM unit :=
  match fuel with
  | O => raise ERecursion
  | S f =>
      remove_from_lists t ;;;
      r <- getT t ;;
      match t_parent r with
      | None => ret tt
      | Some p =>
          catch_value
            (q <- getT p ;;
             if mem_id t (t_children q) then
               modT p (set_t_children (remove_first t (t_children q))) ;;;
               (if t_doc q then ret tt else raise EAttr) ;;;
               remove_term_fuel f t
             else raise EValue)
      end
  end.

Definition remove_fuel (t : nat) (s : st) : nat :=
  match t_parent (tget t s) with
  | Some p => S (S (List.length (t_children (tget p s))))
  | None => 1
  end.

Definition doc_remove_term (t : nat) : MM unit :=
  f <- gets (remove_fuel t) ;; remove_term_fuel f t.

(** terms.py:193-197 Term.remove_child *)
Definition remove_child (p c : nat) : MM unit :=
  q <- getT p ;;
  if mem_id c (t_children q) then
    modT p (set_t_children (remove_first c (t_children q))) ;;;
    (if t_doc q then ret tt else raise EAttr) ;;;
    doc_remove_term c
  else raise EValue.

(** terms.py:300-317 Term.__setitem__ (not for sections) *)
Definition term_setitem (i : nat) (item : string) (value : val) : MM unit :=
  r <- getT i ;;
  if eqs (lower item) (lower (t_tvn r)) || eqs (lower item) "value" then modT i (set_t_val value)
  else match value with
       | VNone =>
           h <- gets s_heap ;;
           o <- lift (term_find_first h i item VFalse) ;;
           match o with
           | Some c => remove_child i c
           | None => ret tt
           end
       | _ => set_child_item i item value
       end.

(** terms.py:833-842 SectionTerm.remove_term *)
Definition section_remove_term (sec t : nat) : MM unit :=
  section_remove_only sec t ;;; doc_remove_term t.

(** terms.py:844-849 SectionTerm.clean *)
Definition section_clean (sec : nat) : MM unit :=
  s <- getT sec ;; mapM_ doc_remove_term (t_terms s).

(** ** Sections: creation, deletion, order *)

(** doc.py:260-270 new_section *)
Definition new_section (name : string) (params : list string) : MM nat :=
  i <- mk_section CSection "Root.Section" (VStr name) params None None ;;
  modD (fun d => set_d_sections (dset (lower name) i (d_sections d)) d) ;;;
  d <- getD ;;
  (match dget (lower name) (d_decl_sections d) with
   | Some sd => modT i (set_t_args (sd_args sd))
   | None => ret tt
   end) ;;;
  ret i.

(** doc.py:272-277 get_or_new_section: the membership test does not lower-case *)
Definition get_or_new_section (name : string) (params : list string) : MM nat :=
  d <- getD ;;
  when (negb (dmem name (d_sections d)))
    (i <- mk_section CSection "Root.Section" (VStr name) params None None ;;
     modD (fun d => set_d_sections (dset (lower name) i (d_sections d)) d)) ;;;
  d <- getD ;;
  match dget (lower name) (d_sections d) with
  | Some i => ret i
  | None => raise EKey
  end.

(** doc.py:317-327 __delitem__: [list.remove] raises ValueError for a term
    that is not in the list; the membership test does not lower-case *)
Fixpoint remove_all (ts : list nat) : MM unit :=
  match ts with
  | [] => ret tt
  | t :: ts' =>
      d <- getD ;;
      (if mem_id t (d_terms d) then modD (fun d => set_d_terms (remove_first t (d_terms d)) d)
       else raise EValue) ;;;
      remove_all ts'
  end.

Definition del_section (item : string) : MM unit :=
  d <- getD ;;
  (match dget item (d_sections d) with
   | Some i => r <- getT i ;; remove_all (t_terms r)
   | None => ret tt
   end) ;;;
  modD (fun d => set_d_sections (ddel (lower item) (d_sections d)) d).

(** doc.py:288-305 sort_sections *)
Definition sort_sections (order : list string) : MM unit :=
  d <- getD ;;
  let order_lc := map lower order in
  let secs := d_sections d in
  let pick k := match dget k secs with Some i => [(k, i)] | None => [] end in
  let first := dict_of (concat (map pick order_lc)) in
  let rest := filter (fun kv => negb (mem_str (fst kv) order_lc)) secs in
  let new := dupdate first rest in
  assert_ (Nat.eqb (List.length secs) (List.length new)) ;;;
  modD (set_d_sections new).

(** sorted(l, key): a stable sort *)
Fixpoint insert_by {A} (le : A -> A -> bool) (x : A) (l : list A) : list A :=
  match l with
  | [] => [x]
  | y :: l' => if le x y then x :: l else y :: insert_by le x l'
  end.
Fixpoint sort_by {A} (le : A -> A -> bool) (l : list A) : list A :=
  match l with
  | [] => []
  | x :: l' => insert_by le x (sort_by le l')
  end.

(** Python str comparison <= (code point order) *)
Fixpoint str_le (a b : string) : bool :=
  match a, b with
  | "", _ => true
  | String _ _, "" => false
  | String c a', String d b' =>
      if Ascii.eqb c d then str_le a' b'
      else Nat.ltb (nat_of_ascii c) (nat_of_ascii d)
  end.

Definition sort_terms (h : list trec) (l : list nat) : list nat :=
  sort_by (fun a b => str_le (join_lc (hget a h)) (join_lc (hget b h))) l.

(** terms.py:867-872: for one pattern, move the matching terms *)
Fixpoint take_matching (h : list trec) (tn : string) (l : list nat) : res (list nat * list nat) :=
  match l with
  | [] => Ok ([], [])
  | t :: l' =>
      do? b <- term_is (hget t h) tn ;;
      do? (m, r) <- take_matching h tn l' ;;
      Ok (if b then (t :: m, r) else (m, t :: r))
  end.

Fixpoint take_order (h : list trec) (order : list string) (l : list nat) : res (list nat * list nat) :=
  match order with
  | [] => Ok ([], l)
  | tn :: order' =>
      do? (m, r) <- take_matching h tn l ;;
      do? (m', r') <- take_order h order' r ;;
      Ok (m ++ m', r')
  end.

(** terms.py:851-876 sort_by_term.  Terms occur once in a section, so
    [all_terms.remove(t)] removes the very element visited. *)
Definition sort_by_term (sec : nat) (order : option (list string)) : MM unit :=
  s <- getT sec ;;
  h <- gets s_heap ;;
  match order with
  | None => modT sec (set_t_terms (sort_terms h (t_terms s)))
  | Some o =>
      ' (m, r) <- lift (take_order h o (t_terms s)) ;;
      modT sec (set_t_terms (m ++ sort_terms h r))
  end.

(** terms.py:724-733 add_arg, 735-742 remove_arg on the list of args *)
Definition clean_args (args : list string) : list string :=
  filter nonempty (map strip args).
Definition add_arg (arg : string) (prepend : bool) (args : list string) : list string :=
  let args := clean_args args in
  if mem_str (lower arg) (map lower args) then args
  else if prepend then title arg :: args else args ++ [title arg].
Definition remove_arg (arg : string) (args : list string) : list string :=
  filter (fun a => negb (eqs (lower a) (lower arg))) (clean_args args).

(** terms.py:886-892 SectionTerm.__delitem__: delete_term does not exist, so
    the first match raises AttributeError *)
Definition section_delitem (sec : nat) (item : string) : MM unit :=
  s <- getT sec ;;
  h <- gets s_heap ;;
  if existsb (fun t => eqs (lower (t_term (hget t h))) (lower item)) (t_terms s)
  then raise EAttr else ret tt.

(** parser.py:176-200 register_term_class, unregister_term_class *)
Definition register_class (name : string) (c : cls) (reg : dict cls) : dict cls := dset (lower name) c reg.
Definition unregister_class (name : string) (reg : dict cls) : dict cls := ddel (lower name) reg.
