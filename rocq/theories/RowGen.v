(** * RowGen: row generators and the text they read (metatab/rowgen.py:90-180, parser.py:314-319)

    Simplification: what an object does when it is asked for its text is five
    answers, one for each attempt of TextRowGenerator; an answer that is an
    exception is None.  A text is str or bytes. *)

From Verif Require Export Parser TextRows.

Inductive text := Chars (s : string) | Bytes (s : string).

(** the answers of an object: ref.open().read(), ref.read(),
    ref.inner.fspath.open().read(), open(ref).read(), and the object itself if it
    has a method splitlines *)
Record obj := mk_obj { o_open : option text; o_read : option text; o_inner : option text; o_file : option text; o_self : option text }.

(** rowgen.py:125-167; None is SourceError *)
Definition text_of_ref (o : obj) : option text :=
  match o_open o with Some t => Some t | None =>
  match o_read o with Some t => Some t | None =>
  match o_inner o with Some t => Some t | None =>
  match o_file o with Some t => Some t | None =>
  o_self o end end end end.

(** rowgen.py:186-203 on the lines of the text (line 170): a pattern for str on a
    line of bytes raises TypeError *)
Definition rows_of_text (t : text) : res (list (list string)) :=
  match t with
  | Chars s => Ok (text_rows s)
  | Bytes s => match splitlines s with [] => Ok [] | _ => Err EType end
  end.

(** the row generator: its rows and its path (rowgen.py:95-103, 171) *)
Record rowgen := mk_rowgen { g_rows : list (list string); g_path : string }.
Definition row_generator (rows : list (list string)) (path : option string) : rowgen :=
  mk_rowgen rows (match path with Some p => if nonempty p then p else "<none>" | None => "<none>" end).

(** parser.py:314-319, 346-348: the parser takes a row generator's class name for
    its path, so its directory is the empty string; the [ref] is a text or a list of
    rows and is no file of an Include row *)
Definition gen_source (g : rowgen) : source := mk_source None "" (g_rows g).

(** MetatabDoc(generator): doc.py:62-84 *)
Definition open_gen (e : env) (fuel : nat) (decls : list string) (g : rowgen) : MM unit :=
  open_doc e fuel decls (gen_source g).
