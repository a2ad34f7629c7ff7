(** * Parser: TermParser and the loading of a document (metatab/parser.py,
    metatab/doc.py:34-90, 157-176, 464-512)

    Generators run in lock step with their consumers: at each [yield] of
    generate_terms the body of [__iter__] runs on the term ([consume]) and, when
    that yields, the body of [load_terms] ([load1]).  [emit] is that chain.

    Not modelled here: file names, messages and the [errors] set (Report.v); the
    caching of super_terms (parser.py:121; the cache is cleared after each change
    of the declared terms, parser.py:538) and shared dicts of values (Shared.v;
    C85 shows that they make no difference). *)

From Verif Require Export Ops.

(** ** Where rows come from *)

(** The file system and the web as seen by the parser: [fexists] is
    os.path.exists, [declpath] is metatab.util.declaration_path (None for its
    IncludeError), [fetch] is the rows of a resolved reference
    (get_generator(resolved.get_resource().get_target())), None if that raises
    OSError, GenerateError or DownloadError.  parse_app_url is the identity on
    reference strings. *)
Record env := mk_env {
  fexists : string -> bool;
  declpath : string -> option string;
  fetch : string -> option (list (list string))
}.

(** A row generator: its [ref], the directory dirname(ref_path) used to resolve
    names (parser.py:314-319, 346-348), and its rows, a list of str cells. *)
Record source := mk_source {
  src_ref : option string;
  src_dir : string;
  src_rows : list (list string)
}.

(** os.path.join (posix) *)
Definition path_join (d n : string) : string :=
  if startswith "/" n then n
  else if eqs d "" || endswith_char "/" d then (d ++ n)%string
  else (d ++ "/" ++ n)%string.

(** parser.py:235-280 find_declare_doc *)
Definition find_declare_doc (e : env) (d name : string) : res string :=
  if fexists e name then Ok name
  else match declpath e name with
       | Some p => Ok p
       | None =>
           if fexists e (path_join d name) then Ok (path_join d name)
           else if fexists e (path_join d (name ++ ".csv")%string) then Ok (path_join d (name ++ ".csv")%string)
           else if startswith "http" name then Ok (strip_c "/" name)
           else Err EInclude (* resolver.py:15-18 *)
       end.

(** parser.py:282-299 find_include_doc *)
Definition find_include_doc (d name : string) : res string :=
  let r := strip_c "/" name in
  if startswith "http" r then Ok r
  else if eqs d "" then Err EInclude
  else Ok (path_join d r).

(** ** Declarations *)

(** parser.py:150-157 the pre-declared terms *)
Definition installed_terms : dict tdecl :=
  [("root.section", mk_tdecl [("termvaluename", "name")] []);
   ("root.synonym", mk_tdecl [("termvaluename", "term"); ("childpropertytype", "sequence")] []);
   ("root.declareterm", mk_tdecl [("termvaluename", "term"); ("childpropertytype", "sequence")] []);
   ("root.declaresection", mk_tdecl [("termvaluename", "section"); ("childpropertytype", "sequence")] []);
   ("root.declarevalueset", mk_tdecl [("termvaluename", "name"); ("childpropertytype", "sequence")] []);
   ("declarevalueset.value", mk_tdecl [("termvaluename", "value"); ("childpropertytype", "sequence")] [])].

(** parser.py:159-164 the pre-declared sections *)
Definition installed_sections : dict sdecl :=
  [("root", mk_sdecl [] []); ("declaredterms", mk_sdecl [] []); ("declaredsections", mk_sdecl [] [])].

(** parser.py:105-118 synonyms *)
Definition synonyms (dt : dict tdecl) : dict string :=
  fold_left (fun syns kv =>
    let k := strip (fst kv) in
    match dget "synonym" (td_props (snd kv)) with
    | Some s =>
        if nonempty s then
          let syns := dset (lower k) s syns in
          if has_char "." k then syns else dset (dotted ROOT_TERM (lower k)) s syns
        else syns
    | None => syns
    end) dt [].

(** parser.py:121-132 super_terms.  The lru_cache is cleared whenever the
    declarations change (parser.py:538), so the value is the same as without
    (C85). *)
Definition super_terms (s : st) : dict string :=
  match d_super (s_doc s) with
  | [] =>
      dict_of (concat (map (fun kv => match dget "inheritsfrom" (td_props (snd kv)) with
                                      | Some v => [(lower (fst kv), lower v)]
                                      | None => []
                                      end) (p_dterms (s_prs s))))
  | ds => ds
  end.

(** parser.py:203-217 TermParser.get_term_class *)
Definition parser_term_class (name : string) (s : st) : cls :=
  class_for (s_reg s) (super_terms s) name.

(** parser.py:540-545 add_declared_section *)
Definition add_declared_section (t : nat) : MM unit :=
  r <- getT t ;;
  n <- lift (as_str (t_val r)) ;;
  modP (fun p => set_p_dsecs (dset (lower n) (mk_sdecl (clean_args (t_args r)) []) (p_dsecs p)) p).

(** parser.py:593-606 add_term_to_section.  [x] is what making the message of
    the DeclarationError ends in: it reads t.file_name, and in the loop over
    inherited children (parser.py:611) [t] is a dict, so that raises AttributeError. *)
Definition add_term_to_section (x : exn) (props : dict string) : MM unit :=
  p <- getP ;;
  let sec := match dget "section" props with Some s => lower s | None => "" end in
  match dget sec (p_dsecs p) with
  | None => raise x
  | Some sd =>
      match dget "section" props, dget "term" props with
      | Some _, Some tm =>
          if mem_str tm (sd_terms sd) then ret tt
          else modP (fun p => set_p_dsecs (dset sec (set_sd_terms (sd_terms sd ++ [tm]) sd) (p_dsecs p)) p)
      | _, _ => raise EKey
      end
  end.

(** parser.py:547-580 and 611-613: the loop over inherited_children.  The list
    of the section is read again at each step because the loop body may append
    to it; [n] is the position of the iterator. *)
Fixpoint inherit_loop (fuel : nat) (t_r ih_r sec : string) (n : nat) : MM unit :=
  match fuel with
  | O => raise ERecursion
  | S f =>
      p <- getP ;;
      match dget sec (p_dsecs p) with
      | None => raise EKey
      | Some sd =>
          match nth_error (sd_terms sd) n with
          | None => ret tt
          | Some st_name =>
              when (startswith (lower ih_r ++ ".")%string (lower st_name))
                (' (_, st_r) <- lift (split_term st_name) ;;
                 match dget (lower st_name) (p_dterms p) with
                 | None => raise EKey
                 | Some td =>
                     let name := dotted t_r st_r in
                     let props := dset "term" name (dset "inheritsfrom" "" (td_props td)) in
                     k <- lift (normalize_term name) ;;
                     modP (fun p => set_p_dterms (dset k (set_td_props props td) (p_dterms p)) p) ;;;
                     add_term_to_section EAttr props
                 end) ;;;
              inherit_loop f t_r ih_r sec (S n)
          end
      end
  end.

(** enough for every list (see C17): each pass can at most double it *)
Definition inherit_fuel (sec : string) (s : st) : nat :=
  match dget sec (p_dsecs (s_prs s)) with
  | Some sd => S (S (2 * List.length (sd_terms sd)))
  | None => 1
  end.

(** terms.py:515-527 arg_props; the values are str except the term's own *)
Definition arg_props (h : list trec) (r : trec) : res (dict val) :=
  match t_section r with
  | None => Err EAttr
  | Some s =>
      let names := if is_section_cls (t_cls (hget s h)) then sec_property_names (hget s h) else property_names h (hget s h) in
      Ok (dset (lower (t_tvn r)) (t_val r)
               (dict_of (combine (map lower names) (map VStr (t_args r)))))
  end.

(** parser.py:587: the non-blank properties; [v.strip()] on None raises *)
Definition nonblank_props (d : dict val) : res (dict string) :=
  do? l <- rmap (fun kv => do? s <- as_str (snd kv) ;;
                           Ok (if nonblank s then [(fst kv, s)] else [])) d ;;
  Ok (concat l).

(** parser.py:582-613 add_declared_term.  'values' is kept in td_values.  A
    copied declaration (parser.py:576) shares its 'values' dict with the
    original; here it is copied, which makes no difference (C85). *)
Definition add_declared_term (t : nat) : MM unit :=
  r <- getT t ;;
  v <- (match t_val r with VStr s => ret s | _ => raise EType end) ;;
  name <- lift (normalize_term v) ;;
  h <- gets s_heap ;;
  ap <- lift (arg_props h r) ;;
  np <- lift (nonblank_props ap) ;;
  let props := dset "term" v np in
  modP (fun p => set_p_dterms (dset name (mk_tdecl props []) (p_dterms p)) p) ;;;
  (match dget "section" props with
   | Some s => when (nonempty s) (add_term_to_section EDeclaration props)
   | None => ret tt
   end) ;;;
  (match dget "inheritsfrom" props with
   | Some ih =>
       if nonempty ih then
         match dget "section" props with
         | None => raise EDeclaration
         | Some sec =>
             ' (_, t_r) <- lift (split_term v) ;;
             ' (_, ih_r) <- lift (split_term ih) ;;
             f <- gets (inherit_fuel (lower sec)) ;;
             inherit_loop f t_r ih_r (lower sec) 0
         end
       else ret tt
   | None => ret tt
   end).

(** parser.py:615-624 add_value_set_value *)
Definition add_value_set_value (t : nat) : MM unit :=
  r <- getT t ;;
  h <- gets s_heap ;;
  vs <- (match t_parent r with Some p => ret (join_lc (hget p h)) | None => raise EAttr end) ;;
  ap <- lift (arg_props h r) ;;
  let disp := match dget "displayvalue" ap with Some v => v | None => VNone end in
  let key := str_val (t_val r) in
  modP (fun p => set_p_dterms
    (map (fun kv => match dget "valuesetname" (td_props (snd kv)) with
                    | Some n => if eqs vs (lower n) && negb (dmem key (td_values (snd kv)))
                                then (fst kv, set_td_values (dset key disp (td_values (snd kv))) (snd kv))
                                else kv
                    | None => kv
                    end) (p_dterms p)) p).

(** parser.py:527-538 manage_declare_terms *)
Definition manage_declare_terms (t : nat) : MM unit :=
  r <- getT t ;;
  b1 <- lift (term_is r "root.declaresection") ;;
  if b1 then add_declared_section t
  else
    b2 <- lift (term_is r "root.declareterm") ;;
    if b2 then add_declared_term t
    else
      b3 <- lift (term_is r "value.*") ;;
      if b3 then add_value_set_value t else ret tt.

(** ** The consumer *)

(** Python list indexing with an int: negative indexes count from the end *)
Definition pindex {A} (z : Z) (l : list A) : option A :=
  if (z <? 0)%Z then
    (if (0 <=? Z.of_nat (List.length l) + z)%Z then nth_error l (Z.to_nat (Z.of_nat (List.length l) + z)) else None)
  else nth_error l (Z.to_nat z).

(** parser.py:448-449 munge_param_map, the entries as str *)
Fixpoint munge_from (i : nat) (args : list string) : list string :=
  match args with
  | [] => []
  | a :: l => (if nonempty a then lower a else str_of_nat i) :: munge_from (S i) l
  end.
Definition munge_param_map (args : list string) : list string := munge_from 0 args.

(** parser.py:433-444: synonyms, then numeric names *)
Definition rename_term (t : nat) : MM unit :=
  r <- getT t ;;
  p <- getP ;;
  (match dget (join_lc r) (synonyms (p_dterms p)) with
   | Some syn =>
       ' (a, b) <- lift (split_term_lower syn) ;;
       modT t (fun r => set_t_rt b (set_t_pt a r))
   | None => ret tt
   end) ;;;
  r <- getT t ;;
  match py_int (t_rt r) with
  | Some z =>
      match pindex z (p_pmap p) with
      | Some n => modT t (set_t_rt n)
      | None => ret tt
      end
  | None => ret tt
  end.

(** parser.py:475-487: declared meta data *)
Definition decl_prop (dt : dict tdecl) (name k : string) : option string :=
  match dget name dt with
  | Some td => dget k (td_props td)
  | None => None
  end.

Definition set_meta (t : nat) : MM unit :=
  p <- getP ;;
  modT t (fun r =>
    let get k d := match decl_prop (p_dterms p) (tjoin r) k with Some v => v | None => d end in
    set_t_options (split_on "," (get "options" ""))
      (set_t_valid (Some (dmem (join_lc r) (p_dterms p)))
        (set_t_tvn (get "termvaluename" (p_dtvn p))
          (set_t_cpt (get "childpropertytype" "any") r)))).

(** parser.py:489-510: attach the term to its parent *)
Definition attach (t : nat) : MM unit :=
  r <- getT t ;;
  p <- getP ;;
  if eqs (t_pt r) ELIDED_TERM then
    modT t (set_t_pt (p_lastparent p)) ;;;
    match dget (p_lastparent p) (p_tmap p) with
    | Some q => add_child q t
    | None => raise EKey
    end
  else
    match t_col r with
    | None => raise EType
    | Some c =>
        if Nat.ltb 1 c then
          match dget (p_lastparent p) (p_tmap p) with
          | Some q => add_child q t
          | None => raise EKey
          end
        else
          modP (fun p => set_p_tmap (dset (t_rt r) t (dset ELIDED_TERM t (p_tmap p)))
                           (set_p_lastparent (t_rt r) p)) ;;;
          p' <- getP ;;
          match dget (t_pt r) (p_tmap p') with
          | Some q => add_child q t
          | None => raise EParser
          end
    end.

(** parser.py:471-513: a normal, value-bearing term *)
Definition consume_normal (t : nat) : MM unit :=
  set_meta t ;;;
  attach t ;;;
  r <- getT t ;;
  p <- getP ;;
  when (eqs (pt_lc r) "root") (section_add_term (p_lastsec p) t).

(** parser.py:433-520: the body of the loop of __iter__; true if [t] is
    yielded *)
Definition consume (t : nat) : MM bool :=
  rename_term t ;;;
  p <- getP ;;
  set_section t (Some (p_lastsec p)) ;;;
  r <- getT t ;;
  is_header <- lift (term_is r "root.header") ;;
  if is_header then
    modP (set_p_pmap (munge_param_map (t_args r))) ;;;
    v <- lift (as_str (t_val r)) ;;
    modP (set_p_dtvn (lower v)) ;;;
    modT (p_lastsec p) (fun s => set_t_dtvn (lower v) (set_t_hargs (t_args r) s)) ;;;
    ret false
  else
    is_section <- lift (term_is r "root.section") ;;
    is_root <- lift (term_is r "root.root") ;;
    (if is_section then
       d <- getD ;;
       h <- gets s_heap ;;
       modP (fun p => set_p_dtvn "@value" (set_p_lastsec t
                        (set_p_lastparent (t_rt (hget (d_root d) h))
                          (set_p_pmap (munge_param_map (t_args r)) p)))) ;;;
       set_section t None
     else if is_root then
       modP (set_p_lastsec t) ;;;
       set_section t None
     else consume_normal t) ;;;
    r <- getT t ;;
    match t_ftype r with
    | Some "declare" => manage_declare_terms t ;;; ret false
    | _ => ret true
    end.

(** doc.py:470-490: the body of the loop of load_terms.  [self.root] is always
    set (doc.py:59). *)
Definition load1 (t : nat) : MM unit :=
  modT t (set_t_doc true) ;;;
  r <- getT t ;;
  is_root <- lift (term_is r "root.root") ;;
  if is_root then ret tt
  else
    is_section <- lift (term_is r "root.section") ;;
    if is_section then k <- add_section t ;; ret tt
    else if eqs (pt_lc r) "root" then doc_add_term t
    else assert_ (match t_parent r with Some _ => true | None => false end).

(** one [yield t] of generate_terms; [load = false] when the consumer of the
    parser is list() (doc.py:169) *)
Definition emit (load : bool) (t : nat) : MM unit :=
  b <- consume t ;;
  when (b && load) (load1 t).

(** ** The producer *)

(** parser.py:325 *)
Definition skip_row (row : list string) : bool :=
  match row with
  | [] => true
  | c :: _ => negb (nonempty c) || negb (nonempty (strip c)) || startswith "#" (strip c)
  end.

(** parser.py:391-403: the argument children of [t], from column [col] on *)
Fixpoint emit_args (load : bool) (ftype : option string) (line t col : nat) (args : list string) : MM unit :=
  match args with
  | [] => ret tt
  | v :: args' =>
      when (nonempty (strip v))
        (r <- getT t ;;
         let name := dotted (rt_lc r) (str_of_nat col) in
         c <- gets (parser_term_class name) ;;
         k <- construct c name (VStr v) [] (Some line) (Some (col + 2)) ftype (Some t) false None ;;
         emit load k) ;;;
      emit_args load ftype line t (S col) args'
  end.

(** parser.py:343-374: an Include or Declare row *)
Definition include_row (e : env) (load : bool) (rec : source -> option string -> MM unit)
    (src : source) (last_section t : nat) (is_include : bool) : MM unit :=
  r <- getT t ;;
  v <- lift (as_str (t_val r)) ;;
  resolved <- lift (if is_include then find_include_doc (src_dir src) (strip v)
                    else find_declare_doc e (src_dir src) (strip v)) ;;
  (match src_ref src with
   | Some f => if eqs f resolved then raise EInclude else ret tt
   | None => ret tt
   end) ;;;
  emit load t ;;;
  match fetch e resolved with
  | None => raise EInclude
  | Some rows =>
      r <- getT t ;;
      rec (mk_source (Some resolved) "" rows) (Some (rt_lc r)) ;;;
      emit load last_section
  end.

(** parser.py:376-385: the section object for a Section row *)
Definition section_for (t : nat) : MM nat :=
  r <- getT t ;;
  s <- gets (fun s => s) ;;
  if is_section_cls (t_cls r) then
    match get_section (t_val r) s with
    | Ok i => ret i
    | Err EKey => ret t
    | Err e => raise e
    end
  else raise EAttr.

(** parser.py:323-405: one row; returns the new last_section *)
Definition row_step (e : env) (load : bool) (rec : source -> option string -> MM unit)
    (src : source) (ftype : option string) (line : nat) (row : list string) (last_section : nat) : MM nat :=
  if skip_row row then ret last_section
  else
    ' (p, n) <- lift (split_term_lower (hd "" row)) ;;
    let name := dotted p n in
    c <- gets (parser_term_class name) ;;
    t <- construct c name (VStr (nth 1 row "")) (skipn 2 row) (Some line) (Some 1) ftype None true None ;;
    r <- getT t ;;
    is_include <- lift (term_is r "include") ;;
    is_declare <- lift (term_is r "declare") ;;
    if is_include || is_declare then
      include_row e load rec src last_section t is_include ;;;
      ret last_section
    else
      is_section <- lift (term_is r "section") ;;
      t <- (if is_section then section_for t else ret t) ;;
      emit load t ;;;
      r <- getT t ;;
      sec <- lift (term_is r "section") ;;
      hdr <- lift (term_is r "header") ;;
      (if sec || hdr then ret tt else emit_args load ftype line t 0 (t_args r)) ;;;
      ret (if is_section then t else last_section).

Fixpoint rows_loop (e : env) (load : bool) (rec : source -> option string -> MM unit)
    (src : source) (ftype : option string) (line : nat) (rows : list (list string)) (last_section : nat) : MM unit :=
  match rows with
  | [] => ret tt
  | row :: rows' =>
      ls <- row_step e load rec src ftype line row last_section ;;
      rows_loop e load rec src ftype (S line) rows' ls
  end.

(** parser.py:301-409 generate_terms.  [fuel] bounds the nesting of includes. *)
Fixpoint generate_terms (e : env) (load : bool) (fuel : nat) (src : source) (ftype : option string) : MM unit :=
  match fuel with
  | O => raise ERecursion
  | S f =>
      d <- getD ;;
      rows_loop e load (generate_terms e load f) src ftype 1 (src_rows src) (d_root d)
  end.

(** ** Running a parser on a document *)

(** parser.py:67-82, 413-420: a fresh parser on the document *)
Definition fresh_parser (s : st) : prec :=
  let root := d_root (s_doc s) in
  {| p_pmap := []; p_dsecs := installed_sections; p_dterms := installed_terms;
     p_lastparent := "root";
     p_tmap := dset (t_rt (tget root s)) root [(ELIDED_TERM, root)];
     p_dtvn := "@value"; p_lastsec := root |}.

Definition start_parser : MM unit := modify (fun s => set_s_prs (fresh_parser s) s).

(** doc.py:500-502: derived_terms.  A Python set has no defined order; here its
    elements are in insertion order of super_terms. *)
Definition derived_of (sup : dict string) : dict (list string) :=
  fold_left (fun d kv =>
    dset (snd kv) (match dget (snd kv) d with Some l => l ++ [fst kv] | None => [fst kv] end) d)
    (sort_by (fun a b => str_le (snd a) (snd b)) sup) [].

(** doc.py:492-502: after the loop of load_terms *)
Definition finish_load : MM unit :=
  p <- getP ;;
  modD (fun d => set_d_decl_sections (dupdate (d_decl_sections d) (p_dsecs p))
                  (set_d_decl_terms (dupdate (d_decl_terms d) (p_dterms p)) d)) ;;;
  sup <- gets super_terms ;;
  modD (fun d => set_d_super (dupdate (d_super d) sup) d) ;;;
  modD (fun d => set_d_derived (derived_of (d_super d)) d).

(** doc.py:464-512 load_terms on a new parser of the source *)
Definition load_source (e : env) (fuel : nat) (src : source) : MM unit :=
  start_parser ;;;
  d <- getD ;;
  load1 (d_root d) ;;;
  generate_terms e true fuel src None ;;;
  finish_load.

(** doc.py:157-176 load_declarations *)
Definition load_declarations (e : env) (fuel : nat) (decls : list string) : MM unit :=
  match decls with
  | [] => ret tt
  | _ =>
      found <- reads (fun s => doc_find s "Root.Declare" VFalse SAny) ;;
      h <- gets s_heap ;;
      let extant := map (fun i => t_val (hget i h)) found in
      let rows := map (fun d => ["Declare"; d]) (filter (fun d => negb (existsb (veq (VStr d)) extant)) decls) in
      start_parser ;;;
      generate_terms e false fuel (mk_source None "" rows) None ;;;
      p <- getP ;;
      modD (fun d => set_d_decl_sections (dupdate (d_decl_sections d) (p_dsecs p))
                      (set_d_decl_terms (dupdate (d_decl_terms d) (p_dterms p)) d))
  end.

(** doc.py:40-60: the empty document.  Heap node 0 is the root section
    (terms.py:981-982). *)
Definition root_rec : trec :=
  {| t_cls := CRoot; t_parent := None; t_term := "Root.Root"; t_pt := "root"; t_rt := "root";
     t_val := VStr "Root"; t_args := []; t_section := None; t_doc := true;
     t_ftype := None; t_row := Some 0; t_col := Some 0; t_tvn := "@value";
     t_cpt := "any"; t_valid := None; t_options := []; t_children := [];
     t_terms := []; t_hargs := []; t_dtvn := "@value" |}.

(** parser.py:37-40 *)
Definition default_classes : dict cls := [("root.section", CSection); ("root.root", CRoot)].

Definition empty_doc : docrec :=
  {| d_terms := []; d_sections := [("root", 0)]; d_decl_terms := []; d_decl_sections := [];
     d_super := []; d_derived := []; d_root := 0 |}.

Definition init_st (reg : dict cls) : st :=
  {| s_heap := [root_rec]; s_doc := empty_doc;
     s_prs := {| p_pmap := []; p_dsecs := []; p_dterms := []; p_lastparent := "root"; p_tmap := [];
                 p_dtvn := "@value"; p_lastsec := 0 |};
     s_reg := reg |}.

(** doc.py:34-90 MetatabDoc(ref, decl=decls) *)
Definition open_doc (e : env) (fuel : nat) (decls : list string) (src : source) : MM unit :=
  load_declarations e fuel decls ;;;
  load_source e fuel src.

(** a document made from a list of rows, in the default class registry *)
Definition parse_rows (e : env) (fuel : nat) (rows : list (list string)) : st * res unit :=
  load_source e fuel (mk_source None "" rows) (init_st default_classes).
