(** * SpecSpread: extra cells written as rows of their own (C82), documents written as lines (C83) *)

From Verif Require Import SpecNames PyBase SpecText SpecParse SpecRound.

(** the row ".name" with one value *)
Definition alone (nc : string * string) : line := LTerm current_parent (fst nc) (snd nc) [].

(** [spread decl v ls ls']: the lines [ls'] are [ls] with the extra cells of some
    rows written as rows ".name" right after the row, named by the columns in
    force there, and with blank rows put in or left out; [v] is what is known
    before [ls].  A row ".c" at the top of a section keeps its cells. *)
Inductive spread (decl : string -> list string) : view -> list line -> list line -> Prop :=
| spread_end : forall v, spread decl v [] []
| spread_same : forall v l ls ls', spread decl (next decl v l) ls ls' -> spread decl v (l :: ls) (l :: ls')
| spread_cells : forall v p r x cells ls ls', (p = current_parent -> v_parent v <> "root") ->
    spread decl (next decl v (LTerm p r x cells)) ls ls' ->
    spread decl v (LTerm p r x cells :: ls) (LTerm p r x [] :: map alone (cells_from (v_cols v) 0 cells) ++ ls')
| spread_out : forall v ls ls', spread decl (next decl v LBlank) ls ls' -> spread decl v (LBlank :: ls) ls'
| spread_in : forall v ls ls', spread decl v ls ls' -> spread decl v ls (LBlank :: ls').

(** ** Documents that can be written as lines (C83) *)

(** a value that fits after the colon of a line: one line, no pipe, no backslash
    at its end *)
Definition line_value (v : string) : Prop :=
  one_line v /\ ~ In "|"%char (list_ascii_of_string v) /\ ~ ends_in_backslash v.
(** a name that fits before the colon *)
Definition line_word (n : string) : Prop :=
  one_line n /\ ~ In ":"%char (list_ascii_of_string n) /\ forall y, n <> ("====" ++ y)%string.

Inductive line_tree : tree -> Prop :=
| line_term : forall n v kids, line_word n -> line_value v -> Forall line_tree kids -> line_tree (Tree n v kids).
Record line_sect (c : sect) : Prop := {
  ls_name : line_value (sc_name c);
  ls_cols : Forall line_value (sc_cols c);
  ls_usual : ~ In "header" (map lower (sc_cols c));
  ls_terms : Forall line_tree (sc_terms c)
}.
