(** * Shared: the parser's cache and the dicts its declarations share (metatab/parser.py:121-132, 527-624)

    Parser.v leaves out two things: super_terms is an lru_cache, cleared at the
    end of manage_declare_terms, and the declaration of an inherited term is a
    shallow copy (parser.py:576), which has the same 'values' dict as the
    declaration it was copied from.  Here they are beside the state of Parser.v.

    Simplifications: an lru_cache drops entries when it has many; here it keeps
    that of the running parser.  The 'values' dicts are updated beside those of
    Parser.v: nothing else in the parser reads them. *)

From Verif Require Export Parser.

(** what super_terms returned: the document's dict itself (parser.py:128) or a new
    dict (parser.py:131) *)
Inductive cached := TheDocs | ADict (d : dict string).

(** [k_cache] is the cache of super_terms, [k_vals] the 'values' dicts, by address,
    and [k_refs] the address of the 'values' dict of each declared term that has one *)
Record kst := mk_kst { k_st : st; k_cache : option cached; k_refs : dict nat; k_vals : list (dict val) }.

Definition on_st {A} (m : MM A) : M kst A := fun k =>
  let '(s, r) := m (k_st k) in (mk_kst s (k_cache k) (k_refs k) (k_vals k), r).
Definition set_cache (c : option cached) (k : kst) : kst := mk_kst (k_st k) c (k_refs k) (k_vals k).

(** the dict a cached result is now *)
Definition cached_dict (c : cached) (s : st) : dict string :=
  match c with TheDocs => d_super (s_doc s) | ADict d => d end.

(** parser.py:121-132: super_terms() *)
Definition super_terms_k : M kst (dict string) :=
  k <- gets (fun k => k) ;;
  match k_cache k with
  | Some c => ret (cached_dict c (k_st k))
  | None =>
      let c := match d_super (s_doc (k_st k)) with
               | [] => ADict (dict_of (concat (map (fun kv => match dget "inheritsfrom" (td_props (snd kv)) with
                                                             | Some v => [(lower (fst kv), lower v)]
                                                             | None => []
                                                             end) (p_dterms (s_prs (k_st k))))))
               | _ => TheDocs
               end in
      modify (set_cache (Some c)) ;;;
      ret (cached_dict c (k_st k))
  end.

(** parser.py:203-217.  super_terms is not called for a registered name. *)
Definition term_class_k (name : string) : M kst cls :=
  k <- gets (fun k => k) ;;
  match dget (lower name) (s_reg (k_st k)) with
  | Some c => ret c
  | None => sup <- super_terms_k ;; ret (class_for (s_reg (k_st k)) sup name)
  end.

(** parser.py:588-591: the declaration gets a new 'values' dict *)
Definition new_values (name : string) (k : kst) : kst :=
  mk_kst (k_st k) (k_cache k) (dset name (List.length (k_vals k)) (k_refs k)) (k_vals k ++ [[]]).

(** parser.py:576, 612: [name] gets the 'values' of [from], if it has any *)
Definition same_values (name from : string) (k : kst) : kst :=
  mk_kst (k_st k) (k_cache k)
    (match dget from (k_refs k) with Some a => dset name a (k_refs k) | None => ddel name (k_refs k) end) (k_vals k).

Fixpoint set_nth {A} (n : nat) (a : A) (l : list A) : list A :=
  match l, n with
  | [], _ => []
  | _ :: l, O => a :: l
  | b :: l, S n => b :: set_nth n a l
  end.

(** parser.py:621-624: the loop over the declared terms *)
Fixpoint add_to_values (vs key : string) (disp : val) (refs : dict nat) (terms : dict tdecl) (vals : list (dict val)) : list (dict val) :=
  match terms with
  | [] => vals
  | (k, td) :: terms' =>
      add_to_values vs key disp refs terms'
        (match dget "valuesetname" (td_props td), dget k refs with
         | Some n, Some a =>
             let v := nth a vals [] in
             if eqs vs (lower n) && negb (dmem key v) then set_nth a (dset key disp v) vals else vals
         | _, _ => vals
         end)
  end.

(** parser.py:547-580, 611-613 *)
Fixpoint inherit_loop_k (fuel : nat) (t_r ih_r sec : string) (n : nat) : M kst unit :=
  match fuel with
  | O => on_st (raise ERecursion)
  | S f =>
      p <- on_st getP ;;
      match dget sec (p_dsecs p) with
      | None => on_st (raise EKey)
      | Some sd =>
          match nth_error (sd_terms sd) n with
          | None => ret tt
          | Some st_name =>
              when (startswith (lower ih_r ++ ".")%string (lower st_name))
                (' (_, st_r) <- on_st (lift (split_term st_name)) ;;
                 match dget (lower st_name) (p_dterms p) with
                 | None => on_st (raise EKey)
                 | Some td =>
                     let name := dotted t_r st_r in
                     let props := dset "term" name (dset "inheritsfrom" "" (td_props td)) in
                     k <- on_st (lift (normalize_term name)) ;;
                     on_st (modP (fun p => set_p_dterms (dset k (set_td_props props td) (p_dterms p)) p)) ;;;
                     modify (same_values k (lower st_name)) ;;;
                     on_st (add_term_to_section EAttr props)
                 end) ;;;
              inherit_loop_k f t_r ih_r sec (S n)
          end
      end
  end.

(** parser.py:582-613 *)
Definition add_declared_term_k (t : nat) : M kst unit :=
  r <- on_st (getT t) ;;
  v <- on_st (match t_val r with VStr s => ret s | _ => raise EType end) ;;
  name <- on_st (lift (normalize_term v)) ;;
  h <- on_st (gets s_heap) ;;
  ap <- on_st (lift (arg_props h r)) ;;
  np <- on_st (lift (nonblank_props ap)) ;;
  let props := dset "term" v np in
  on_st (modP (fun p => set_p_dterms (dset name (mk_tdecl props []) (p_dterms p)) p)) ;;;
  modify (new_values name) ;;;
  on_st (match dget "section" props with
   | Some s => when (nonempty s) (add_term_to_section EDeclaration props)
   | None => ret tt
   end) ;;;
  (match dget "inheritsfrom" props with
   | Some ih =>
       if nonempty ih then
         match dget "section" props with
         | None => on_st (raise EDeclaration)
         | Some sec =>
             ' (_, t_r) <- on_st (lift (split_term v)) ;;
             ' (_, ih_r) <- on_st (lift (split_term ih)) ;;
             f <- on_st (gets (inherit_fuel (lower sec))) ;;
             inherit_loop_k f t_r ih_r (lower sec) 0
         end
       else ret tt
   | None => ret tt
   end).

(** parser.py:615-624 *)
Definition add_value_set_value_k (t : nat) : M kst unit :=
  r <- on_st (getT t) ;;
  h <- on_st (gets s_heap) ;;
  vs <- on_st (match t_parent r with Some p => ret (join_lc (hget p h)) | None => raise EAttr end) ;;
  ap <- on_st (lift (arg_props h r)) ;;
  let disp := match dget "displayvalue" ap with Some v => v | None => VNone end in
  let key := str_val (t_val r) in
  modify (fun k => mk_kst (k_st k) (k_cache k) (k_refs k) (add_to_values vs key disp (k_refs k) (p_dterms (s_prs (k_st k))) (k_vals k))) ;;;
  on_st (add_value_set_value t).

(** parser.py:527-538 *)
Definition manage_declare_terms_k (t : nat) : M kst unit :=
  r <- on_st (getT t) ;;
  b1 <- on_st (lift (term_is r "root.declaresection")) ;;
  (if b1 then on_st (add_declared_section t)
   else
     b2 <- on_st (lift (term_is r "root.declareterm")) ;;
     if b2 then add_declared_term_k t
     else
       b3 <- on_st (lift (term_is r "value.*")) ;;
       if b3 then add_value_set_value_k t else ret tt) ;;;
  modify (set_cache None).

(** parser.py:433-520 *)
Definition consume_k (t : nat) : M kst bool :=
  on_st (rename_term t) ;;;
  p <- on_st getP ;;
  on_st (set_section t (Some (p_lastsec p))) ;;;
  r <- on_st (getT t) ;;
  is_header <- on_st (lift (term_is r "root.header")) ;;
  if is_header then
    on_st (
    modP (set_p_pmap (munge_param_map (t_args r))) ;;;
    v <- lift (as_str (t_val r)) ;;
    modP (set_p_dtvn (lower v)) ;;;
    modT (p_lastsec p) (fun s => set_t_dtvn (lower v) (set_t_hargs (t_args r) s)) ;;;
    ret false)
  else
    is_section <- on_st (lift (term_is r "root.section")) ;;
    is_root <- on_st (lift (term_is r "root.root")) ;;
    on_st (if is_section then
       d <- getD ;;
       h <- gets s_heap ;;
       modP (fun p => set_p_dtvn "@value" (set_p_lastsec t
                        (set_p_lastparent (t_rt (hget (d_root d) h))
                          (set_p_pmap (munge_param_map (t_args r)) p)))) ;;;
       set_section t None
     else if is_root then
       modP (set_p_lastsec t) ;;;
       set_section t None
     else consume_normal t) ;;;
    r <- on_st (getT t) ;;
    match t_ftype r with
    | Some "declare" => manage_declare_terms_k t ;;; ret false
    | _ => ret true
    end.

Definition emit_k (load : bool) (t : nat) : M kst unit :=
  b <- consume_k t ;;
  on_st (when (b && load) (load1 t)).

(** parser.py:391-403 *)
Fixpoint emit_args_k (load : bool) (ftype : option string) (line t col : nat) (args : list string) : M kst unit :=
  match args with
  | [] => ret tt
  | v :: args' =>
      when (nonempty (strip v))
        (r <- on_st (getT t) ;;
         let name := dotted (rt_lc r) (str_of_nat col) in
         c <- term_class_k name ;;
         k <- on_st (construct c name (VStr v) [] (Some line) (Some (col + 2)) ftype (Some t) false None) ;;
         emit_k load k) ;;;
      emit_args_k load ftype line t (S col) args'
  end.

(** parser.py:343-374 *)
Definition include_row_k (e : env) (load : bool) (rec : source -> option string -> M kst unit)
    (src : source) (last_section t : nat) (is_include : bool) : M kst unit :=
  r <- on_st (getT t) ;;
  v <- on_st (lift (as_str (t_val r))) ;;
  resolved <- on_st (lift (if is_include then find_include_doc (src_dir src) (strip v)
                    else find_declare_doc e (src_dir src) (strip v))) ;;
  on_st (match src_ref src with
   | Some f => if eqs f resolved then raise EInclude else ret tt
   | None => ret tt
   end) ;;;
  emit_k load t ;;;
  match fetch e resolved with
  | None => on_st (raise EInclude)
  | Some rows =>
      r <- on_st (getT t) ;;
      rec (mk_source (Some resolved) "" rows) (Some (rt_lc r)) ;;;
      emit_k load last_section
  end.

(** parser.py:323-405 *)
Definition row_step_k (e : env) (load : bool) (rec : source -> option string -> M kst unit)
    (src : source) (ftype : option string) (line : nat) (row : list string) (last_section : nat) : M kst nat :=
  if skip_row row then ret last_section
  else
    ' (p, n) <- on_st (lift (split_term_lower (hd "" row))) ;;
    let name := dotted p n in
    c <- term_class_k name ;;
    t <- on_st (construct c name (VStr (nth 1 row "")) (skipn 2 row) (Some line) (Some 1) ftype None true None) ;;
    r <- on_st (getT t) ;;
    is_include <- on_st (lift (term_is r "include")) ;;
    is_declare <- on_st (lift (term_is r "declare")) ;;
    if is_include || is_declare then
      include_row_k e load rec src last_section t is_include ;;;
      ret last_section
    else
      is_section <- on_st (lift (term_is r "section")) ;;
      t <- on_st (if is_section then section_for t else ret t) ;;
      emit_k load t ;;;
      r <- on_st (getT t) ;;
      sec <- on_st (lift (term_is r "section")) ;;
      hdr <- on_st (lift (term_is r "header")) ;;
      (if sec || hdr then ret tt else emit_args_k load ftype line t 0 (t_args r)) ;;;
      ret (if is_section then t else last_section).

Fixpoint rows_loop_k (e : env) (load : bool) (rec : source -> option string -> M kst unit)
    (src : source) (ftype : option string) (line : nat) (rows : list (list string)) (last_section : nat) : M kst unit :=
  match rows with
  | [] => ret tt
  | row :: rows' =>
      ls <- row_step_k e load rec src ftype line row last_section ;;
      rows_loop_k e load rec src ftype (S line) rows' ls
  end.

(** parser.py:301-409 *)
Fixpoint generate_terms_k (e : env) (load : bool) (fuel : nat) (src : source) (ftype : option string) : M kst unit :=
  match fuel with
  | O => on_st (raise ERecursion)
  | S f =>
      d <- on_st getD ;;
      rows_loop_k e load (generate_terms_k e load f) src ftype 1 (src_rows src) (d_root d)
  end.

(** a new parser has nothing cached and only the installed declarations, which have
    no 'values' (parser.py:150-157) *)
Definition start_parser_k : M kst unit :=
  on_st start_parser ;;; modify (fun k => mk_kst (k_st k) None [] []).

(** doc.py:492-502 *)
Definition finish_load_k : M kst unit :=
  p <- on_st getP ;;
  on_st (modD (fun d => set_d_decl_sections (dupdate (d_decl_sections d) (p_dsecs p))
                  (set_d_decl_terms (dupdate (d_decl_terms d) (p_dterms p)) d))) ;;;
  sup <- super_terms_k ;;
  on_st (modD (fun d => set_d_super (dupdate (d_super d) sup) d)) ;;;
  on_st (modD (fun d => set_d_derived (derived_of (d_super d)) d)).

(** doc.py:464-512 *)
Definition load_source_k (e : env) (fuel : nat) (src : source) : M kst unit :=
  start_parser_k ;;;
  d <- on_st getD ;;
  on_st (load1 (d_root d)) ;;;
  generate_terms_k e true fuel src None ;;;
  finish_load_k.

(** doc.py:157-176 *)
Definition load_declarations_k (e : env) (fuel : nat) (decls : list string) : M kst unit :=
  match decls with
  | [] => ret tt
  | _ =>
      found <- on_st (reads (fun s => doc_find s "Root.Declare" VFalse SAny)) ;;
      h <- on_st (gets s_heap) ;;
      let extant := map (fun i => t_val (hget i h)) found in
      let rows := map (fun d => ["Declare"; d]) (filter (fun d => negb (existsb (veq (VStr d)) extant)) decls) in
      start_parser_k ;;;
      generate_terms_k e false fuel (mk_source None "" rows) None ;;;
      p <- on_st getP ;;
      on_st (modD (fun d => set_d_decl_sections (dupdate (d_decl_sections d) (p_dsecs p))
                      (set_d_decl_terms (dupdate (d_decl_terms d) (p_dterms p)) d)))
  end.

(** doc.py:34-90 *)
Definition open_doc_k (e : env) (fuel : nat) (decls : list string) (src : source) : M kst unit :=
  load_declarations_k e fuel decls ;;;
  load_source_k e fuel src.
