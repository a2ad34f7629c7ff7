(** * SpecOpened: a document opened with declaration files (C91) *)

From Verif Require Import SpecNames PyBase SpecParse State Parser SpecDoc SpecHead SpecInv SpecRound SpecOutline SpecMore SpecDeclared.

(** reading with the declarations [D] in the document; the parser itself has the
    installed ones *)
Definition told_world (D : decls) : world := mk_world (declared_columns (dc_secs D)) (props installed_terms) (told_prop D).

(** the declarations of a document after declaration files with the lines [fs] *)
Definition told_in (g : place) (fs : list (list line)) : decls :=
  overlay (decls_of (in_terms g) (in_secs g))
    (told_files (cols_of g) (props (in_terms g)) first_root "@value" (decls_of installed_terms installed_sections) fs).

(** the root section after them: its Header row and its name of values *)
Definition root_head (title : string) (fs : list (list line)) : head :=
  let hv := roots_after first_root fs in mk_head "root" title [] (fst hv) (snd hv).

(** no section is declared with a column "Section" but those named [odd] *)
Definition tidy_columns (odd : list string) (D : decls) : Prop :=
  forall n, ~ In (lower (strip n)) odd -> ~ In "section" (map lower (map strip (declared_columns (dc_secs D) n))).
