(** * Render: documents as rows, lines, CSV text and nested dicts
    (metatab/terms.py, metatab/doc.py) *)

From Verif Require Export Ops.

(** ** Rows *)

(** terms.py:480-482 is_terminal *)
Definition is_terminal (r : trec) : bool := match t_children r with [] => true | _ => false end.

(** terms.py:616 and 903: the declared value name of a qualified name *)
Definition value_name (d : docrec) (q : string) : string :=
  match dget q (d_decl_terms d) with
  | Some td => match dget "termvaluename" (td_props td) with Some n => n | None => "@value" end
  | None => "@value"
  end.

(** terms.py:622-629: the value and the terminal children of a term *)
Definition row_props (h : list trec) (tvm : string) (r : trec) : dict val :=
  fold_left (fun d c =>
    let q := hget c h in
    if is_terminal q && nonempty (rt_lc q) then dset (rt_lc q) (t_val q) d else d)
    (t_children r) [(tvm, t_val r)].

(** terms.py:611-637 Term.rows (not for sections) *)
Fixpoint term_rows (fuel : nat) (h : list trec) (d : docrec) (i : nat) : res (list (string * dict val)) :=
  match fuel with
  | O => Err ERecursion
  | S f =>
      let r := hget i h in
      match t_section r with
      | None => Err EAttr
      | Some s =>
          if negb (t_doc (hget s h)) then Err EAttr
          else
            do? q <- qualified_term h r ;;
            let tvm := value_name d q in
            if eqs tvm "" then Err EAssert
            else
              do? rest <- rmap (term_rows f h d) (filter (fun c => negb (is_terminal (hget c h))) (t_children r)) ;;
              Ok ((q, row_props h tvm r) :: concat rest)
      end
  end.

(** terms.py:899-918 SectionTerm._args: the cells of the columns, and what has
    no column *)
Fixpoint take_cols (names : list string) (d : dict val) : list val * dict val :=
  match names with
  | [] => ([], d)
  | n :: ns =>
      let v := match dget (lower n) d with Some v => v | None => VStr "" end in
      let (vs, rest) := take_cols ns (ddel (lower n) d) in
      (v :: vs, rest)
  end.

Definition row_args (d : docrec) (sec : trec) (term : string) (props : dict val) : list val * dict val :=
  let lower_d := dict_of (map (fun kv => (lower (fst kv), snd kv)) props) in
  take_cols (value_name d term :: sec_property_names sec) lower_d.

(** a row of a section: the value is a list of cells or a single value *)
Inductive rowval := RList (l : list val) | RVal (v : val).

(** terms.py:925-935: the rows for one (term, properties) pair *)
Definition expand_row (d : docrec) (sec : trec) (row : string * dict val) : list (string * rowval) :=
  let (args, remain) := row_args d sec (fst row) (snd row) in
  (fst row, RList args)
  :: map (fun kv => ((last (split_on "." (fst row)) "" ++ "." ++ fst kv)%string, RVal (snd kv))) remain.

(** terms.py:920-937 SectionTerm.rows *)
Definition section_rows (h : list trec) (d : docrec) (sec : nat) : res (list (string * rowval)) :=
  do? l <- rmap (fun t => term_rows (heap_fuel h) h d t) (t_terms (hget sec h)) ;;
  Ok (concat (map (expand_row d (hget sec h)) (concat l))).

(** doc.py:806 and terms.py:954: how a term name is printed *)
Definition print_name (q : string) : string := title (replace "root." "" q).

(** doc.py:808-811 *)
Definition print_row (row : string * rowval) : list val :=
  VStr (print_name (fst row)) :: match snd row with RList l => l | RVal v => [v] end.

(** doc.py:797-800: the heading of a section *)
Definition section_heading (sec : trec) : list (list val) :=
  if veq (t_val sec) (VStr "Root") then []
  else [[VStr ""]; VStr "Section" :: t_val sec :: map VStr (sec_property_names sec)].

(** doc.py:791-811 MetatabDoc.rows *)
Definition doc_rows (s : st) : res (list (list val)) :=
  do? l <- rmap (fun kv =>
             do? rows <- section_rows (s_heap s) (s_doc s) (snd kv) ;;
             Ok (section_heading (tget (snd kv) s) ++ map print_row rows))
           (d_sections (s_doc s)) ;;
  Ok (concat l).

(** ** Lines *)

(** terms.py:957-962: the argument cells of a row as child lines *)
Fixpoint child_lines (names : list string) (vals : list val) : res (list (string * val)) :=
  match names, vals with
  | n :: ns, v :: vs =>
      do? rest <- child_lines ns vs ;;
      if truthy v then
        do? s <- as_str v ;;
        Ok (if nonblank s then (("    ." ++ title n)%string, v) :: rest else rest)
      else Ok rest
  | _, _ => Ok []
  end.

(** terms.py:948-962: the lines of one row.  [value[0]]: a list has at least
    the value cell. *)
Definition row_lines (sec : trec) (row : string * rowval) : res (list (string * val)) :=
  let vals := match snd row with RList l => l | RVal v => [v] end in
  do? kids <- child_lines (sec_property_names sec) (tl vals) ;;
  Ok ((print_name (fst row), hd VNone vals) :: kids).

(** terms.py:939-962 SectionTerm.lines *)
Definition section_lines (h : list trec) (d : docrec) (i : nat) : res (list (string * val)) :=
  let sec := hget i h in
  do? head <- (if veq (t_val sec) (VStr "Root") then Ok []
               else match t_val sec with
                    | VStr n => Ok [("Section", VStr (join "|" (n :: sec_property_names sec)))]
                    | _ => Err EType
                    end) ;;
  do? rows <- section_rows h d i ;;
  do? l <- rmap (row_lines sec) rows ;;
  Ok (head ++ concat l).

(** doc.py:813-818 MetatabDoc.lines *)
Definition doc_lines (s : st) : res (list (string * val)) :=
  do? l <- rmap (fun kv => section_lines (s_heap s) (s_doc s) (snd kv)) (d_sections (s_doc s)) ;;
  Ok (concat l).

(** '{}: {}'.format(t, v if v is not None else '') *)
Definition format_line (tv : string * val) : string :=
  (fst tv ++ ": " ++ match snd tv with VNone => "" | v => str_val v end)%string.

Definition newline : string := String (ascii_of_nat 10) "".

(** terms.py:964-965 SectionTerm.as_lines *)
Definition section_as_lines (h : list trec) (d : docrec) (i : nat) : res string :=
  do? l <- section_lines h d i ;; Ok (join newline (map format_line l)).

(** doc.py:849-861 MetatabDoc.as_lines *)
Definition doc_as_lines (s : st) : res string :=
  do? l <- doc_lines s ;;
  Ok (join newline (concat (map (fun tv => (if eqs (fst tv) "Section" then [""] else []) ++ [format_line tv]) l))).

(** ** Nested dicts *)

Inductive jv := JVal (v : val) | JList (l : list jv) | JDict (d : list (string * jv)).

(** bool() of a converted term; an empty list or dict does not occur *)
Definition jtruthy (j : jv) : bool :=
  match j with JVal v => truthy v | JList l => match l with [] => false | _ => true end
             | JDict d => match d with [] => false | _ => true end end.

(** Python + on the values that can occur: str + str, and numbers (False is 0);
    anything else raises TypeError *)
Definition jadd (a b : jv) : res jv :=
  match a, b with
  | JVal (VStr x), JVal (VStr y) => Ok (JVal (VStr (x ++ y)%string))
  | JVal (VInt x), JVal (VInt y) => Ok (JVal (VInt (x + y)))
  | JVal VFalse, JVal (VInt y) => Ok (JVal (VInt y))
  | _, _ => Err EType
  end.

Definition jor_empty (j : jv) : jv := if jtruthy j then j else JVal (VStr "").

(** terms.py:562-598: add the converted child [x] of [c] to the dict *)
Definition conv_step (d : dict jv) (q : trec) (x : jv) : res (dict jv) :=
  let k := rt_lc q in
  if eqs (t_cpt q) "scalar" then Ok (dset k x d)
  else if eqs (t_cpt q) "sequence" then
    Ok (match dget k d with
        | Some (JList l) => dset k (JList (l ++ [x])) d
        | _ => dset k (JList [x]) d
        end)
  else if eqs (t_cpt q) "sconcat" then
    do? s <- (match dget k d with
              | Some y => jadd y (JVal (VStr " "))
              | None => Ok (JVal (VStr ""))
              end) ;;
    do? r <- jadd s (jor_empty x) ;;
    Ok (dset k r d)
  else if eqs (t_cpt q) "bconcat" then
    do? r <- jadd (match dget k d with Some y => y | None => JVal (VStr "") end) (jor_empty x) ;;
    Ok (dset k r d)
  else
    match dget k d with
    | None => Ok (dset k x d)
    | Some (JList l) => Ok (dset k (JList (l ++ [x])) d)
    | Some _ =>
        match dget (t_rt q) d with
        | Some y => Ok (dset k (JList [y; x]) d)
        | None => Err EKey
        end
    end.

(** terms.py:558-609 with the list of children given (SectionTerm.as_dict
    substitutes the section's terms) *)
Fixpoint conv_kids (cv : nat -> res jv) (h : list trec) (cs : list nat) (d : dict jv) : res (dict jv) :=
  match cs with
  | [] => Ok d
  | c :: cs' =>
      do? x <- cv c ;;
      do? d' <- conv_step d (hget c h) x ;;
      conv_kids cv h cs' d'
  end.

Definition conv_node (cv : nat -> res jv) (h : list trec) (rvn : bool) (r : trec) (kids : list nat) : res jv :=
  match kids with
  | [] => Ok (JVal (t_val r))
  | _ =>
      do? d <- conv_kids cv h kids [] ;;
      Ok (JDict (if truthy (t_val r)
                 then dset (if rvn then lower (t_tvn r) else "@value") (JVal (t_val r)) d
                 else d))
  end.

(** terms.py:539-609 Term.as_dict / _convert_to_dict *)
Fixpoint as_dict (fuel : nat) (h : list trec) (rvn : bool) (i : nat) : res jv :=
  match fuel with
  | O => Err ERecursion
  | S f => conv_node (as_dict f h rvn) h rvn (hget i h) (t_children (hget i h))
  end.

(** terms.py:967-976 SectionTerm.as_dict, and terms.py:984-990 for the root
    section.  If the conversion raises, the children of the section stay
    replaced by its terms; that is not modelled. *)
Definition section_as_dict (h : list trec) (rvn : bool) (i : nat) : res jv :=
  do? j <- conv_node (as_dict (heap_fuel h) h rvn) h rvn (hget i h) (t_terms (hget i h)) ;;
  Ok (match t_cls (hget i h), j with
      | CRoot, JDict d => JDict (if rvn then ddel "@value" d else d)
      | _, _ => j
      end).

(** doc.py:775-789 MetatabDoc.as_dict with terms.py:984-990: a temporary root
    section with the terms of all sections.  Without terms the result is the
    value 'Root' of that section. *)
Definition doc_as_dict (s : st) (rvn : bool) : res jv :=
  let h := s_heap s in
  let terms := concat (map (fun kv => t_terms (hget (snd kv) h)) (d_sections (s_doc s))) in
  match terms with
  | [] => Ok (JVal (VStr "Root"))
  | _ =>
      do? d <- conv_kids (as_dict (heap_fuel h) h rvn) h terms [] ;;
      let d := dset "@value" (JVal (VStr "Root")) d in
      Ok (JDict (if rvn then ddel "@value" d else d))
  end.

(** terms.py:507-513 props *)
Definition props (h : list trec) (i : nat) : dict val :=
  dict_of (map (fun c => (rt_lc (hget c h), t_val (hget c h))) (t_children (hget i h))).
