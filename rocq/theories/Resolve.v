(** * Resolve: where declarations are found (metatab/util.py:20-37) *)

From Verif Require Export Parser.

(** util.py:20-37 declaration_path; [dir] is the directory of the package
    metatabdecl, [ex] is os.path.exists.  None stands for the IncludeError. *)
Definition declaration_path (ex : string -> bool) (dir name : string) : option string :=
  let p := path_join dir name in
  let p := if negb (ex p) then path_join dir (name ++ ".csv")%string else p in
  if negb (ex p) then None else Some p.

(** the files as the parser sees them, with that package *)
Definition with_package (dir : string) (e : env) : env :=
  mk_env (fexists e) (declaration_path (fexists e) dir) (fetch e).
