(** * Cli: the metatab command (metatab/cli.py)

    The command line is read in Argv.v.  Logging set-up, app URLs and the row generators are outside the
    model: what they deliver is in [args] and [world].  json.dumps, yaml.dump
    and pprint are the functions of [renderers]. *)

From Verif Require Export Files Render Csv Parser Maint Attr.

(** What a command changes: the files, what it printed, what it logged to
    stderr, and the code given to sys.exit *)
Record cst := mk_cst { c_fs : node; c_out : list string; c_log : list string; c_code : option nat }.
Definition CM := M cst.

(** a parsed app URL: its scheme and the file it names (fspath) *)
Record url := mk_url { u_scheme : string; u_path : path }.

(** The parsed command line (cli.py:32-67, 71).  [a_create] is None without -C
    (False in the code), Some None for a -C without template. *)
Record args := mk_args {
  a_create : option (option string);
  a_type : string;
  a_write : bool;
  a_find : option string;
  a_decl : bool;
  a_file : string
}.

(** The surroundings: the file a name stands for, parse_app_url with
    proto='metatab' (cli.py:85) and without (doc.py:866), the source a URL is opened as (an error if that fails), the environment of the parser,
    the source of a template, the bound on nested includes, the uuid that
    cleanse draws *)
Record world := mk_world {
  w_path : string -> path;
  w_url : string -> url;
  w_write_url : string -> url;
  w_src : node -> url -> res source;
  w_env : node -> env;
  w_template : node -> string -> res source;
  w_fuel : nat;
  w_uuid : string
}.

(** json.dumps(indent=4), the YAML dump, pprint, the dumps of the declarations
    and the listing of the terms of the parser *)
Record renderers := mk_rend {
  r_json : jv -> string;
  r_yaml : jv -> string;
  r_pretty : jv -> string;
  r_decl_json : docrec -> string;
  r_decl_yaml : docrec -> string;
  r_terms : st -> list string * option exn
}.

(** print; logger.info with the handler of cli_init (cli.py:172-184, 186-187) *)
Definition print (t : string) : CM unit := modify (fun c => mk_cst (c_fs c) (c_out c ++ [t]) (c_log c) (c_code c)).
Definition prt (words : list string) : CM unit := print (join " " words).
(** cli.py:189-190 warn, 192-194 err *)
Definition log_line (t : string) : CM unit := modify (fun c => mk_cst (c_fs c) (c_out c) (c_log c ++ [t]) (c_code c)).
Definition warn (words : list string) : CM unit := log_line ("WARNING: " ++ join " " words)%string.
Definition exit_with (n : nat) : CM unit := modify (fun c => mk_cst (c_fs c) (c_out c) (c_log c) (Some n)) ;;; raise EExit.
Definition err (text : string) : CM unit := log_line ("CRITICAL: " ++ text)%string ;;; exit_with 1.

(** a change of the file system *)
Definition on_files {A} (m : FS A) : CM A :=
  fun c => let (fs, r) := m (c_fs c) in (mk_cst fs (c_out c) (c_log c) (c_code c), r).

(** pathlib's with_suffix of the last name of a path *)
Definition name_suffix (name ext : string) : string :=
  let old := suffix name in (substring 0 (String.length name - String.length old) name ++ ext)%string.
Definition with_suffix (p : path) (ext : string) : res path :=
  match rev p with
  | [] => Err EValue
  | n :: up => Ok (rev (name_suffix n ext :: up))
  end.

(** MetatabDoc(url) (cli.py:87, 202) *)
Definition load_doc (w : world) (fs : node) (o : res source) : res st :=
  match o with
  | Err e => Err e
  | Ok src =>
      match open_doc (w_env w fs) (w_fuel w) [] src (init_st default_classes) with
      | (s, Ok _) => Ok s
      | (_, Err e) => Err e
      end
  end.

(** cli.py:197-204 make_metatab_file and 208-220 new_metatab_file; doc.py:863-908
    write_csv: where to write is found by reading the name as a URL, and what
    is written was made before the document is cleansed *)
Definition new_metatab_file (w : world) (file : string) (template : option string) : CM bool :=
  let template := match template with Some t => if nonempty t then t else "metatab" | None => "metatab" end in
  fs <- gets c_fs ;;
  if exists_at fs (w_path w file) then ret false
  else
    s <- lift (load_doc w fs (w_template w fs template)) ;;
    let u := w_write_url w file in
    if negb (eqs (u_scheme u) "file") then raise EMetatab
    else
      match write_csv (w_uuid w) (last (u_path u) "") s with
      | (_, Ok (Some (_, text))) => on_files (write_file (u_path u) text) ;;; ret true
      | (_, Ok None) => ret true
      | (_, Err e) => raise e
      end.

(** cli.py:92-105 write_or_print *)
Definition write_or_print (u : url) (a : args) (t : string) : CM unit :=
  if negb (eqs (u_scheme u) "file") then err "Can only use -w with local files"
  else
    let ext := (if eqs (a_type a) "line" then "txt" else a_type a) in
    if a_write a then
      p <- lift (with_suffix (u_path u) ("." ++ ext)%string) ;;
      on_files (write_file p t)
    else print t.

Fixpoint print_all (l : list string) : CM unit :=
  match l with [] => ret tt | t :: l' => print t ;;; print_all l' end.

(** cli.py:109-123: only the declarations are loaded, from metadata_url.path, here
    the absolute path of the file *)
Definition show_declaration (w : world) (rd : renderers) (a : args) (u : url) : CM unit :=
  fs <- gets c_fs ;;
  match load_declarations (w_env w fs) (w_fuel w) [("/" ++ join "/" (u_path u))%string] (init_st default_classes) with
  | (_, Err e) => raise e
  | (s, Ok _) =>
      if eqs (a_type a) "json" then print (r_decl_json rd (s_doc s))
      else if eqs (a_type a) "yaml" then print (r_decl_yaml rd (s_doc s))
      else ret tt
  end.

(** cli.py:125-128 *)
Definition find_and_print (s : st) (term : string) : CM unit :=
  o <- lift (doc_find_first s term VFalse SAny) ;;
  match o with
  | Some t => print (str_val (t_val (tget t s)))
  | None => raise EAttr
  end.

(** cli.py:131-164 *)
Definition show_doc (rd : renderers) (a : args) (u : url) (s : st) : CM unit :=
  if eqs (a_type a) "terms" then
    let (l, e) := r_terms rd s in
    print_all l ;;; match e with Some e => raise e | None => ret tt end
  else if eqs (a_type a) "json" then j <- lift (doc_as_dict s true) ;; write_or_print u a (r_json rd j)
  else if eqs (a_type a) "yaml" then j <- lift (doc_as_dict s true) ;; write_or_print u a (r_yaml rd j)
  else if eqs (a_type a) "line" then t <- lift (doc_as_lines s) ;; write_or_print u a t
  else if eqs (a_type a) "csv" then t <- lift (doc_as_csv s) ;; write_or_print u a t
  else if eqs (a_type a) "prety" then j <- lift (doc_as_dict s true) ;; print (r_pretty rd j)
  else ret tt.

(** cli.py:74-75; metatab/__init__.py: DEFAULT_METATAB_FILE *)
Definition file_arg (f : string) : string := if startswith "#" f then ("metadata.csv" ++ f)%string else f.

(** cli.py:25-166 metatab, from the parsed arguments on *)
Definition metatab (w : world) (rd : renderers) (a : args) : CM unit :=
  let file := file_arg (a_file a) in
  match a_create a with
  | Some template =>
      b <- new_metatab_file w file template ;;
      (if (b : bool) then prt ["Created "; file] else warn ["File"; file; "already exists."]) ;;;
      exit_with 0
  | None =>
      let u := w_url w file in
      fs <- gets c_fs ;;
      match load_doc w fs (w_src w fs u) with
      | Err EOS => err ("Failed to open '" ++ file ++ "'")%string
      | Err e => raise e
      | Ok s =>
          (if a_decl a then show_declaration w rd a u
           else match a_find a with
                | Some t => if nonempty t then find_and_print s t else show_doc rd a u s
                | None => show_doc rd a u s
                end) ;;;
          exit_with 0
      end
  end.

(** cli.py:223-236 get_table; [t.value] is put between quotes with +, which
    fails on what is not a str *)
Fixpoint quoted (l : list val) : res (list string) :=
  match l with
  | [] => Ok []
  | VStr v :: l' => do? r <- quoted l' ;; Ok (("'" ++ v ++ "'")%string :: r)
  | _ :: _ => Err EType
  end.
Definition get_table (s : st) (name : string) : CM nat :=
  o <- lift (doc_find_first s "Root.Table" (VStr name) SAny) ;;
  match o with
  | Some t => ret t
  | None =>
      l <- lift (doc_find s "Root.Table" VFalse SAny) ;;
      names <- lift (quoted (map (fun t => t_val (tget t s)) l)) ;;
      let names := match names with [] => ["<No Tables>"] | _ => names end in
      err ("Did not find schema for table name '" ++ name ++ "' Tables are: " ++ join " " names)%string ;;;
      ret 0
  end.
