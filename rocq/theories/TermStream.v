(** * TermStream: iterating a parser, and the output of metatab -t
    (metatab/parser.py:301-524, cli.py:131-133)

    [print(t) for t in doc._term_parser] runs the parser of a loaded document
    again.  The local variables of __iter__ start afresh (parser.py:413-420) but
    the attributes [_param_map], [_declared_terms] and [_declared_sections] keep
    what the first run left in them, and the terms of the document are there.
    The rows are read again; they are taken to be the same as the first time.

    The functions below are those of Parser.v with a consumer that prints each
    term it is handed.  The text of a term is [term_str] (Origin.v).  [nm i] is the
    attribute file_name of the term object [i] (terms.py:74-80).  Not modelled: the
    reports made of an IncludeError (Report.v). *)

From Verif Require Export Parser Origin.

(** the state and the lines printed so far *)
Definition heard := (st * list string)%type.
Definition silently {A} (m : MM A) : M heard A :=
  fun x => let (s, r) := m (fst x) in ((s, snd x), r).

(** print(t) *)
Definition say (nm : nat -> string) (t : nat) : M heard unit :=
  fun x => ((fst x, snd x ++ [term_str (s_heap (fst x)) (nm t) (tget t (fst x))])%list, Ok tt).

(** one [yield t] of generate_terms: the loop of __iter__ (parser.py:433-520), and
    cli.py:132-133 if that yields *)
Definition tell (nm : nat -> string) (t : nat) : M heard unit :=
  b <- silently (consume t) ;;
  when b (say nm t).

(** parser.py:391-403 *)
Fixpoint tell_args (nm : nat -> string) (ftype : option string) (line t col : nat) (args : list string) : M heard unit :=
  match args with
  | [] => ret tt
  | v :: args' =>
      when (nonempty (strip v))
        (k <- silently (r <- getT t ;;
                        let name := dotted (rt_lc r) (str_of_nat col) in
                        c <- gets (parser_term_class name) ;;
                        construct c name (VStr v) [] (Some line) (Some (col + 2)) ftype (Some t) false None) ;;
         tell nm k) ;;;
      tell_args nm ftype line t (S col) args'
  end.

(** parser.py:343-374 *)
Definition tell_include (nm : nat -> string) (e : env) (rec : source -> option string -> M heard unit)
    (src : source) (last_section t : nat) (is_include : bool) : M heard unit :=
  resolved <- silently
    (r <- getT t ;;
     v <- lift (as_str (t_val r)) ;;
     resolved <- lift (if is_include then find_include_doc (src_dir src) (strip v)
                       else find_declare_doc e (src_dir src) (strip v)) ;;
     (match src_ref src with
      | Some f => if eqs f resolved then raise EInclude else ret tt
      | None => ret tt
      end) ;;;
     ret resolved) ;;
  tell nm t ;;;
  match fetch e resolved with
  | None => raise EInclude
  | Some rows =>
      r <- silently (getT t) ;;
      rec (mk_source (Some resolved) "" rows) (Some (rt_lc r)) ;;;
      tell nm last_section
  end.

(** parser.py:323-405 *)
Definition tell_row (nm : nat -> string) (e : env) (rec : source -> option string -> M heard unit)
    (src : source) (ftype : option string) (line : nat) (row : list string) (last_section : nat) : M heard nat :=
  if skip_row row then ret last_section
  else
    t <- silently
      (' (p, n) <- lift (split_term_lower (hd "" row)) ;;
       let name := dotted p n in
       c <- gets (parser_term_class name) ;;
       construct c name (VStr (nth 1 row "")) (skipn 2 row) (Some line) (Some 1) ftype None true None) ;;
    r <- silently (getT t) ;;
    is_include <- lift (term_is r "include") ;;
    is_declare <- lift (term_is r "declare") ;;
    if is_include || is_declare then
      tell_include nm e rec src last_section t is_include ;;;
      ret last_section
    else
      is_section <- lift (term_is r "section") ;;
      t <- (if is_section then silently (section_for t) else ret t) ;;
      tell nm t ;;;
      r <- silently (getT t) ;;
      sec <- lift (term_is r "section") ;;
      hdr <- lift (term_is r "header") ;;
      (if sec || hdr then ret tt else tell_args nm ftype line t 0 (t_args r)) ;;;
      ret (if is_section then t else last_section).

Fixpoint tell_rows (nm : nat -> string) (e : env) (rec : source -> option string -> M heard unit)
    (src : source) (ftype : option string) (line : nat) (rows : list (list string)) (last_section : nat) : M heard unit :=
  match rows with
  | [] => ret tt
  | row :: rows' =>
      ls <- tell_row nm e rec src ftype line row last_section ;;
      tell_rows nm e rec src ftype (S line) rows' ls
  end.

(** parser.py:301-409; [fuel] as in Parser.v *)
Fixpoint tell_terms (nm : nat -> string) (e : env) (fuel : nat) (src : source) (ftype : option string) : M heard unit :=
  match fuel with
  | O => raise ERecursion
  | S f =>
      d <- silently getD ;;
      tell_rows nm e (tell_terms nm e f) src ftype 1 (src_rows src) (d_root d)
  end.

(** parser.py:413-420: the locals of __iter__ start afresh, the attributes stay *)
Definition restart_parser : MM unit :=
  modify (fun s => let p := s_prs s in
    set_s_prs (set_p_pmap (p_pmap p) (set_p_dsecs (p_dsecs p) (set_p_dterms (p_dterms p) (fresh_parser s)))) s).

(** parser.py:411-524: one iteration, printed.  [yield self.root] comes first. *)
Definition iterate (nm : nat -> string) (e : env) (fuel : nat) (src : source) : M heard unit :=
  silently restart_parser ;;;
  d <- silently getD ;;
  say nm (d_root d) ;;;
  tell_terms nm e fuel src None.

(** cli.py:131-133 on the loaded document [s]: the lines printed, and the
    exception that ended it *)
Definition terms_output (nm : nat -> string) (e : env) (fuel : nat) (src : source) (s : st) : list string * option exn :=
  let (x, r) := iterate nm e fuel src (s, []) in
  (snd x, match r with Ok _ => None | Err er => Some er end).
