(** * Report: what an IncludeError tells (metatab/parser.py:219-233, 301-409, 521-525; doc.py:507-512; exc.py:25-28)

    The parser of Parser.v with what it leaves out: the message of an
    IncludeError, its [term] attribute, the names of the files of terms, and the
    parser's set of errors.  The state has them beside that of Parser.v
    ([x_st]).

    Simplifications: the message of the OSError, GenerateError or DownloadError of
    a file that cannot be read is an argument ([why]); so is the class name of the
    row generator of a file ([kind], e.g. CsvSource), which is the ref_path of all
    files that another file includes (parser.py:314-316 with the sub_gen of line
    357).  Messages of other errors are not modelled. *)

From Verif Require Export Origin.

Record report := mk_report { rp_msg : string; rp_term : option nat }.

(** [x_last] is the term last yielded by any of the running generate_terms;
    [x_files] has the file_name of the terms they made; [x_rep] is the IncludeError
    being raised; [x_errors] is the parser's [errors] *)
Record xst := mk_xst {
  x_st : st; x_last : option nat; x_files : list (nat * string); x_rep : option report; x_errors : list report }.

(** the program Parser.v has for it *)
Definition in_st {A} (m : MM A) : M xst A := fun x =>
  let '(s, r) := m (x_st x) in (mk_xst s (x_last x) (x_files x) (x_rep x) (x_errors x), r).
Definition set_last (t : nat) (x : xst) : xst := mk_xst (x_st x) (Some t) (x_files x) (x_rep x) (x_errors x).
Definition set_rep (r : report) (x : xst) : xst := mk_xst (x_st x) (x_last x) (x_files x) (Some r) (x_errors x).
Definition add_file (t : nat) (f : string) (x : xst) : xst := mk_xst (x_st x) (x_last x) ((t, f) :: x_files x) (x_rep x) (x_errors x).

(** raise IncludeError(msg) with e.term = term; an exception without the attribute
    is one with None (parser.py:408) *)
Definition raise_include {A} (msg : string) (term : option nat) : M xst A :=
  modify (set_rep (mk_report msg term)) ;;; raise EInclude.

(** try: m except IncludeError as e: h e *)
Definition on_include {A} (m : M xst A) (h : report -> M xst A) : M xst A := fun x =>
  match m x with
  | (x', Err EInclude) => match x_rep x' with Some e => h e x' | None => (x', Err EInclude) end
  | o => o
  end.

(** a term made by generate_terms, parser.py:331-338, 395-401, terms.py:72-81 *)
Definition construct_x (path : string) (m : MM nat) : M xst nat :=
  t <- in_st m ;; modify (add_file t (file_name path)) ;;; ret t.

(** one yield.  An error of the consumer is not raised in the generator: no
    handler of generate_terms sees it (none of Parser.v's consumers raises
    IncludeError). *)
Definition emit_x (load : bool) (t : nat) : M xst unit :=
  in_st (emit load t) ;;; modify (set_last t).

(** parser.py:391-403 *)
Fixpoint emit_args_x (load : bool) (path : string) (ftype : option string) (line t col : nat) (args : list string) : M xst unit :=
  match args with
  | [] => ret tt
  | v :: args' =>
      when (nonempty (strip v))
        (r <- in_st (getT t) ;;
         let name := dotted (rt_lc r) (str_of_nat col) in
         c <- in_st (gets (parser_term_class name)) ;;
         k <- construct_x path (construct c name (VStr v) [] (Some line) (Some (col + 2)) ftype (Some t) false None) ;;
         emit_x load k) ;;;
      emit_args_x load path ftype line t (S col) args'
  end.

(** parser.py:282-299 and 276, resolver.py:15-18: the messages of the errors of
    find_include_doc and find_declare_doc *)
Definition cannot_find (is_include : bool) (name : string) : string :=
  if is_include then ("Can't include '" ++ name ++ "' because don't know current path ")%string else name.
(** parser.py:350-351 *)
Definition loop_message (resolved : string) : string := ("Include loop for '" ++ resolved ++ "' ")%string.
(** parser.py:369-372 *)
Definition failed_message (reason : string) : string := ("Failed to Include; " ++ reason)%string.
(** parser.py:406-407 *)
Definition in_file (path : string) (msg : string) : string := (msg ++ "; in '" ++ path ++ "' ")%string.

(** parser.py:343-374.  In the handler of line 365 [t] is the term last yielded:
    the loop of lines 359-360 has rebound it. *)
Definition include_row_x (e : env) (kind why : string -> string) (load : bool) (rec : string -> source -> option string -> M xst unit)
    (src : source) (last_section t : nat) (is_include : bool) : M xst unit :=
  r <- in_st (getT t) ;;
  v <- in_st (lift (as_str (t_val r))) ;;
  resolved <- (match (if is_include then find_include_doc (src_dir src) (strip v) else find_declare_doc e (src_dir src) (strip v)) with
               | Ok y => ret y
               | Err EInclude => raise_include (cannot_find is_include (strip v)) None
               | Err x => raise x
               end) ;;
  (match src_ref src with
   | Some f => if eqs f resolved then raise_include (loop_message resolved) None else ret tt
   | None => ret tt
   end) ;;;
  emit_x load t ;;;
  match fetch e resolved with
  | None => raise_include (failed_message (why resolved)) (Some t)
  | Some rows =>
      r <- in_st (getT t) ;;
      on_include (rec (kind resolved) (mk_source (Some resolved) "" rows) (Some (rt_lc r)))
        (fun err => x <- gets (fun x => x) ;; raise_include (rp_msg err) (x_last x)) ;;;
      emit_x load last_section
  end.

(** parser.py:323-405 *)
Definition row_step_x (e : env) (kind why : string -> string) (load : bool) (rec : string -> source -> option string -> M xst unit)
    (path : string) (src : source) (ftype : option string) (line : nat) (row : list string) (last_section : nat) : M xst nat :=
  if skip_row row then ret last_section
  else
    ' (p, n) <- in_st (lift (split_term_lower (hd "" row))) ;;
    let name := dotted p n in
    c <- in_st (gets (parser_term_class name)) ;;
    t <- construct_x path (construct c name (VStr (nth 1 row "")) (skipn 2 row) (Some line) (Some 1) ftype None true None) ;;
    r <- in_st (getT t) ;;
    is_include <- in_st (lift (term_is r "include")) ;;
    is_declare <- in_st (lift (term_is r "declare")) ;;
    if is_include || is_declare then
      include_row_x e kind why load rec src last_section t is_include ;;;
      ret last_section
    else
      is_section <- in_st (lift (term_is r "section")) ;;
      t <- (if is_section then in_st (section_for t) else ret t) ;;
      emit_x load t ;;;
      r <- in_st (getT t) ;;
      sec <- in_st (lift (term_is r "section")) ;;
      hdr <- in_st (lift (term_is r "header")) ;;
      (if sec || hdr then ret tt else emit_args_x load path ftype line t 0 (t_args r)) ;;;
      ret (if is_section then t else last_section).

Fixpoint rows_loop_x (e : env) (kind why : string -> string) (load : bool) (rec : string -> source -> option string -> M xst unit)
    (path : string) (src : source) (ftype : option string) (line : nat) (rows : list (list string)) (last_section : nat) : M xst unit :=
  match rows with
  | [] => ret tt
  | row :: rows' =>
      ls <- row_step_x e kind why load rec path src ftype line row last_section ;;
      rows_loop_x e kind why load rec path src ftype (S line) rows' ls
  end.

(** parser.py:301-409; [path] is the ref_path *)
Fixpoint generate_x (e : env) (kind why : string -> string) (load : bool) (fuel : nat) (path : string) (src : source) (ftype : option string) : M xst unit :=
  match fuel with
  | O => in_st (raise ERecursion)
  | S f =>
      d <- in_st getD ;;
      on_include (rows_loop_x e kind why load (generate_x e kind why load f) path src ftype 1 (src_rows src) (d_root d))
        (fun err => raise_include (in_file path (rp_msg err)) (rp_term err))
  end.

(** parser.py:411-525 with doc.py:464-505: the errors of a new parser are an empty
    set (line 75); line 522-525 adds the IncludeError and raises it again *)
Definition load_x (e : env) (kind why : string -> string) (fuel : nat) (path : string) (src : source) : M xst unit :=
  in_st start_parser ;;;
  modify (fun x => mk_xst (x_st x) None (x_files x) None []) ;;;
  d <- in_st getD ;;
  in_st (load1 (d_root d)) ;;;
  on_include (generate_x e kind why true fuel path src None)
    (fun err => modify (fun x => mk_xst (x_st x) (x_last x) (x_files x) (x_rep x) (err :: x_errors x)) ;;; raise EInclude) ;;;
  in_st finish_load.

(** ** errors_as_dict *)

Record error_entry := mk_entry { ee_file : string; ee_row : option nat; ee_col : option nat; ee_term : string; ee_error : string }.

Definition file_of (fs : list (nat * string)) (t : nat) : string :=
  match find (fun kv => Nat.eqb (fst kv) t) fs with Some kv => snd kv | None => "<none>" end.

(** parser.py:219-233.  The file is asked of the term without a test for None
    (line 226): AttributeError. *)
Definition error_dict (x : xst) (e : report) : res error_entry :=
  match rp_term e with
  | None => Err EAttr
  | Some t => let r := tget t (x_st x) in
      Ok (mk_entry (file_of (x_files x) t) (t_row r) (t_col r) (tjoin r) (rp_msg e))
  end.
Definition errors_as_dict (x : xst) : res (list error_entry) := rmap (error_dict x) (x_errors x).

(** doc.py:507-512, at the end of load_terms: the document's [errors] *)
Definition doc_errors (x : xst) : list error_entry :=
  match errors_as_dict x with Ok l => l | Err _ => [] end.
