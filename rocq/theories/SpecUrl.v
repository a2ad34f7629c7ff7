(** * SpecUrl: files and extensions of a path (C49) *)

From Verif Require Import PyStr.

(** [name] is what follows the last slash *)
Definition file_of (path name : string) : Prop :=
  ~ In "/"%char (list_ascii_of_string name) /\ (path = name \/ exists d, path = (d ++ "/" ++ name)%string).

(** [e] is what follows the last dot, and something other than dots precedes *)
Definition has_ext (name e : string) : Prop :=
  exists base, name = (base ++ "." ++ e)%string /\ ~ In "."%char (list_ascii_of_string e)
    /\ exists c, In c (list_ascii_of_string base) /\ c <> "."%char.

Definition known_exts : list string := ["csv"; "txt"; "ipynb"; "xlsx"; "zip"].

(** what a URL designates: file, fragment and format *)
Inductive designates (name : string) : string -> string -> string -> Prop :=
| des_simple : forall e, has_ext name e -> In e ["csv"; "txt"; "ipynb"] -> designates name name "" e
| des_xlsx : has_ext name "xlsx" -> designates name "meta" "meta" "xlsx"
| des_zip : has_ext name "zip" -> designates name "metadata.csv" "metadata.csv" "csv".

(** [path] is the entry [name] of the directory [d] *)
Inductive entry_of (d name : string) : string -> Prop :=
| entry_here : d = "" -> entry_of d name name
| entry_slash : (exists d', d = (d' ++ "/")%string) -> entry_of d name (d ++ name)
| entry_plain : d <> "" -> (forall d', d <> (d' ++ "/")%string) -> entry_of d name (d ++ "/" ++ name).
