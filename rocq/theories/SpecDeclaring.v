(** * SpecDeclaring: a file that begins with Declare rows (C92) *)

From Verif Require Import SpecNames PyBase SpecParse State Parser SpecDoc SpecHead SpecInv SpecRound SpecOutline SpecDeclared SpecOpened.

(** rows that name declaration files *)
Definition declare_rows (xs : list string) : list (list string) := map (fun d => ["Declare"; d]) xs.

(** the declarations of the parser after files with the lines [fs] *)
Definition told_by (g : place) (fs : list (list line)) : decls :=
  told_files (cols_of g) (props (in_terms g)) first_root "@value" (decls_of installed_terms installed_sections) fs.

(** the rows that follow are read with these declarations of terms in the parser;
    those of the document, and its columns of sections, are not changed until the
    whole file is read *)
Definition declaring_world (g : place) (fs : list (list line)) : world :=
  mk_world (cols_of g) (told_prop (told_by g fs)) (props (in_terms g)).

(** what is known before the row that follows [n] Declare rows: the section is the
    root section, but the names of cells, the name of values and the last record
    name are those that the last file ended with *)
Definition view_past_files (g : place) (n : nat) (fs : list (list line)) : view :=
  let k := desk_past (cols_of g) blank_desk first_root fs in
  mk_view (S n) [("root", [])] "root" (cols_past (cols_of g) [] fs) (k_value k) (k_parent k) [] [].
