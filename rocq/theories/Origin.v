(** * Origin: where a document and its terms come from (metatab/doc.py:34-142, terms.py:72-81, 152-163, 656-666, util.py:206-241)

    Simplifications: the library rowgenerators decides what a reference means
    (parse_app_url); its answer, the working directory, the clock and the times
    of files are arguments.  A Url is its scheme and its path.  Paths are those
    of POSIX. *)

From Verif Require Export State Slug Misc Files Resolve.

(** ** os.path *)

(** posixpath.split(p)[0] and posixpath.dirname: the text up to the last slash,
    without the slashes at its end unless there is nothing else *)
Definition dirname (p : string) : string :=
  let head := join "/" (removelast (split_on "/" p) ++ [""])%list in
  if all_chars (Ascii.eqb "/") head then head else rstrip_c "/" head.

(** posixpath.normpath: the loop over the components; [up] are the components
    kept so far, the last one first *)
Fixpoint norm_comps (rooted : bool) (up comps : list string) : list string :=
  match comps with
  | [] => rev up
  | c :: comps' =>
      if eqs c "" || eqs c "." then norm_comps rooted up comps'
      else if negb (eqs c "..") then norm_comps rooted (c :: up) comps'
      else match up with
           | [] => if rooted then norm_comps rooted [] comps' else norm_comps rooted [".."] comps'
           | x :: up' => if eqs x ".." then norm_comps rooted (".." :: up) comps' else norm_comps rooted up' comps'
           end
  end.
Definition initial_slashes (p : string) : string :=
  if startswith "//" p && negb (startswith "///" p) then "//" else if startswith "/" p then "/" else "".
Definition normpath (p : string) : string :=
  if eqs p "" then "."
  else let r := initial_slashes p in
       let q := (r ++ join "/" (norm_comps (nonempty r) [] (split_on "/" p)))%string in
       if eqs q "" then "." else q.

(** posixpath.abspath *)
Definition abspath (cwd p : string) : string := normpath (if startswith "/" p then p else path_join cwd p).

(** ** The reference of a document *)

Record url := mk_url { u_scheme : string; u_path : string }.

(** the attribute _ref: the constructor stores None or a Url; the property
    [path] looks for a str *)
Inductive pyref := RNone | RUrl (u : url) | RStr (s : string).

(** what the constructor is given: nothing (or something false), something
    parse_app_url makes a Url of, or something it refuses with AppUrlError (a row
    generator) *)
Inductive given_ref := NoRef | Parsed (u : url) | Refused.

(** the attributes _ref and _mtime; None if the attribute has not been set *)
Record origin := mk_origin { o_ref : pyref; o_mtime : option Z }.

(** doc.py:67-91, what is said there of the reference: the time of the last
    change of a file that is there, else 0; [now] is time() (times are
    whole numbers here) *)
Definition new_origin (now : Z) (getmtime : string -> option Z) (r : given_ref) : origin :=
  match r with
  | NoRef => mk_origin RNone (Some now)
  | Parsed u => mk_origin (RUrl u)
      (Some (if eqs (u_scheme u) "file" then match getmtime (u_path u) with Some t => t | None => 0%Z end else 0%Z))
  | Refused => mk_origin RNone None
  end.

(** doc.py:97-107 path; [parse] is parse_app_url on a str, with the proto of the
    inner Url *)
Definition doc_path (parse : string -> url * string) (o : origin) : option string :=
  match o_ref o with
  | RStr s => let '(u, proto) := parse s in if eqs proto "file" then Some (u_path u) else None
  | _ => None
  end.

(** doc.py:116-117 mtime *)
Definition doc_mtime (o : origin) : res Z := match o_mtime o with Some t => Ok t | None => Err EAttr end.

(** doc.py:134-142 doc_dir; parse_app_url leaves a Url as it is *)
Definition doc_dir (cwd : string) (parse : string -> url * string) (o : origin) : option string :=
  match o_ref o with
  | RNone => None
  | RUrl u => Some (abspath cwd (dirname (u_path u)))
  | RStr s => if eqs s "" then None else Some (abspath cwd (dirname (u_path (fst (parse s)))))
  end.

(** ** Where a term comes from *)

(** terms.py:74-80: the attribute file_name, from the path of the source *)
Definition file_name (p : string) : string := if nonempty p then slugify (basename p) else "<none>".

Definition str_opt (n : option nat) : string := match n with Some n => str_of_nat n | None => "None" end.

(** terms.py:152-163 file_ref; file_name is never None *)
Definition file_ref (fname : string) (r : trec) : string :=
  match t_row r with
  | Some n => (basename fname ++ " " ++ str_of_nat n ++ ":" ++ str_opt (t_col r) ++ " ")%string
  | None => ""
  end.

(** terms.py:656-666 __str__; a value that is itself a term is not shown ([str_val]) *)
Definition term_str (h : list trec) (fname : string) (r : trec) : string :=
  let sec := match t_section r with Some i => str_val (t_val (hget i h)) | None => "None" end in
  if eqs (t_pt r) ELIDED_TERM
  then (file_ref fname r ++ sec ++ ":." ++ t_rt r ++ "=" ++ str_val (t_val r))%string
  else (file_ref fname r ++ sec ++ ":" ++ t_pt r ++ "." ++ t_rt r ++ "=" ++ str_val (t_val r))%string.

(** ** util.py:227-241 md5_file

    [digest] is the digest of all that has been given to [update] (the hashlib
    library: giving it in parts is giving it at once). *)
Fixpoint feed (fuel n : nat) (rest acc : string) : res string :=
  match fuel with
  | O => Err ERecursion
  | S f =>
      let data := substring 0 n rest in
      if eqs data "" then Ok acc else feed f n (substring n (String.length rest - n) rest) (acc ++ data)%string
  end.
Definition md5_file (digest : string -> string) (n : nat) (fs : node) (p : path) : res (option string) :=
  match lookup fs p with
  | Some (File s) => do? all <- feed (S (String.length s)) n s "" ;; Ok (Some (digest all))
  | _ => Ok None
  end.

(** ** util.py:206-224 import_name_or_class

    Objects are trees of attributes; [importable] tells which modules can be
    imported, [top] are the objects of the top modules (after the import, with
    the modules below them as attributes). *)
Inductive pyobj := PyObj (id : string) (attrs : dict pyobj).
Inductive imported := Found (o : pyobj) | NoDot | NoModule | NoAttr.
Fixpoint descend (o : pyobj) (comps : list string) : imported :=
  match comps with
  | [] => Found o
  | c :: comps' => match o with PyObj _ attrs => match dget c attrs with Some o' => descend o' comps' | None => NoAttr end end
  end.
Definition import_name (importable : string -> bool) (top : dict pyobj) (name : string) : imported :=
  let comps := split_on "." name in
  match comps with
  | [] | [_] => NoDot
  | c :: comps' =>
      if importable (join "." (removelast comps)) then match dget c top with Some o => descend o comps' | None => NoModule end
      else NoModule
  end.
