(** * SpecSource: what a text source is given (C86) *)

From Verif Require Import SpecNames SpecParse Parser SpecDoc SpecInclude RowGen.

(** the kinds of objects text is read from, and the text they stand for.  [files]:
    the files of the file system that can be read. *)
Inductive given (files : string -> option string) : obj -> option string -> Prop :=
| a_path : forall c, given files (mk_obj (option_map Chars c) None None (option_map Chars c) None) c  (* a pathlib.Path *)
| a_handle : forall c, given files (mk_obj None (Some (Chars c)) None None None) (Some c)  (* an open text file *)
| a_url : forall c, given files (mk_obj None None (option_map Chars c) None None) c  (* a URL of a file *)
| a_name : forall n c, files n = Some c -> given files (mk_obj None None None (Some (Chars c)) (Some (Chars n))) (Some c)  (* the name of a file *)
| a_text : forall s, files s = None -> given files (mk_obj None None None None (Some (Chars s))) (Some s)  (* a text that is no name of a file *)
| a_thing : given files (mk_obj None None None None None) None.

(** the row names the same file whether the directory of its own file is known or not *)
Definition place_free (e : env) (dir : string) (row : list string) : Prop :=
  forall y, names_file e dir row y <-> names_file e "" row y.
