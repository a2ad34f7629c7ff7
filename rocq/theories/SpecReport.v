(** * SpecReport: what an IncludeError tells (C84) *)

From Verif Require Import SpecNames SpecParse Parser SpecDoc SpecInclude.

(** a row that lets a parse of the files go on: it names no file, or a file that
    is not its own, can be read, and has only such rows *)
Inductive fine (e : env) : option string -> string -> list string -> Prop :=
| fine_other : forall ref dir row, ~ file_row "include" row -> ~ file_row "declare" row -> fine e ref dir row
| fine_file : forall ref dir row y rows, names_file e dir row y -> ref <> Some y -> fetch e y = Some rows -> Forall (fine e (Some y) "") rows -> fine e ref dir row.

(** the row names no file, or its own *)
Inductive cause (e : env) (ref : option string) (dir : string) (row : list string) : string -> Prop :=
| no_include : file_row "include" row -> nth 1 row "" <> "" -> (forall y, ~ names_file e dir row y) ->
    cause e ref dir row ("Can't include '" ++ strip (nth 1 row "") ++ "' because don't know current path ")
| no_declare : file_row "declare" row -> nth 1 row "" <> "" -> (forall y, ~ names_file e dir row y) -> cause e ref dir row (strip (nth 1 row ""))
| names_itself : forall f, ref = Some f -> names_file e dir row f -> cause e ref dir row ("Include loop for '" ++ f ++ "' ").

(** the term of an error: none, the one of a row of a file, or some other *)
Inductive blame := NoTerm | OwnTerm (file : string) (line : nat) | SomeTerm.
Definition from_below (b : blame) : blame := match b with NoTerm => SomeTerm | _ => b end.

(** [bad_row path ref dir line row msg b]: the row, the [line]-th of the file known
    as [path], ends the parse with the message [msg].  Either it names no file, or
    its own, or one that cannot be read, or one whose first row that is not [fine]
    is such a row; the message then also has how that file is known ([kind]). *)
Inductive bad_row (e : env) (kind why : string -> string) : string -> option string -> string -> nat -> list string -> string -> blame -> Prop :=
| bad_name : forall path ref dir line row msg, cause e ref dir row msg -> bad_row e kind why path ref dir line row msg NoTerm
| bad_read : forall path ref dir line row y, names_file e dir row y -> ref <> Some y -> fetch e y = None ->
    bad_row e kind why path ref dir line row ("Failed to Include; " ++ why y) (OwnTerm path line)
| bad_below : forall path ref dir line row y pre row' post msg b, names_file e dir row y -> ref <> Some y -> fetch e y = Some (pre ++ row' :: post)%list ->
    Forall (fine e (Some y) "") pre -> bad_row e kind why (kind y) (Some y) "" (S (List.length pre)) row' msg b ->
    bad_row e kind why path ref dir line row (msg ++ "; in '" ++ kind y ++ "' ") (from_below b).

(** the first row of a file that is not fine *)
Definition bad_file (e : env) (kind why : string -> string) (path : string) (ref : option string) (dir : string) (rows : list (list string)) (msg : string) (b : blame) : Prop :=
  exists pre row post m, rows = (pre ++ row :: post)%list /\ Forall (fine e ref dir) pre
    /\ bad_row e kind why path ref dir (S (List.length pre)) row m b /\ msg = (m ++ "; in '" ++ path ++ "' ")%string.
