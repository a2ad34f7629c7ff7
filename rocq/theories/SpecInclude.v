(** * SpecInclude: files that refer to each other *)

From Verif Require Import SpecNames SpecParse Parser SpecDoc.

(** an Include or a Declare row *)
Definition file_row (kind : string) (row : list string) : Prop :=
  ~ blank_row row /\ cell_names (hd "" row) "root" kind.

(** [row], in a file of the directory [dir], names the file [y] *)
Definition names_file (e : env) (dir : string) (row : list string) (y : string) : Prop :=
  nth 1 row "" <> ""
  /\ ((file_row "include" row /\ find_include_doc dir (strip (nth 1 row "")) = Ok y)
      \/ (file_row "declare" row /\ find_declare_doc e dir (strip (nth 1 row "")) = Ok y)).

(** files do not refer to each other in circles: each one has a height, and
    names only files of smaller heights.  Included and declared files have no
    directory. *)
Definition below (e : env) (height : string -> nat) (k : nat) (dir : string) (rows : list (list string)) : Prop :=
  forall row y, In row rows -> names_file e dir row y -> height y < k.
Definition no_circle (e : env) (height : string -> nat) : Prop :=
  forall x rows, fetch e x = Some rows -> below e height (height x) "" rows.

(** a name that is not a web address *)
Definition local_name (v : string) : Prop := startswith "http" (strip_c "/" (strip v)) = false.

(** files that cannot all be read: each of them names another one of them *)
Definition circle (e : env) (C : string -> Prop) : Prop :=
  forall x rows, C x -> fetch e x = Some rows -> exists row y, In row rows /\ names_file e "" row y /\ C y.

(** the rows of a file up to a row: the loop of the parser, giving the section
    it keeps for the rows that follow *)
Fixpoint rows_to (e : env) (load : bool) (rec : source -> option string -> MM unit)
    (src : source) (ftype : option string) (line : nat) (rows : list (list string)) (ls : nat) : MM nat :=
  match rows with
  | [] => ret ls
  | row :: rows' => ls' <- row_step e load rec src ftype line row ls ;; rows_to e load rec src ftype (S line) rows' ls'
  end.

(** a row the parser theorems speak about, or an Include row *)
Definition usual_or_include (row : list string) : Prop :=
  (exists l, SpecParse.reads row l /\ usual l) \/ file_row "include" row.
Definition usual_files (e : env) : Prop := forall x rows, fetch e x = Some rows -> Forall usual_or_include rows.

(** what the rows that follow are read with: the section, its columns and the
    name of their values *)
Definition force (s : st) : nat * list string * string := (p_lastsec (s_prs s), p_pmap (s_prs s), p_dtvn (s_prs s)).

(** [s] is the state of the parser of the file [rows] after its first rows [pre] *)
Definition steps_to (g : place) (rows pre : list (list string)) (s : st) : Prop :=
  let s0 := new_doc (in_reg g) (in_terms g) (in_secs g) (in_super g) in
  exists ls, rows_to (in_env g) true (generate_terms (in_env g) true (pred (in_fuel g)))
    (mk_source (in_ref g) (in_dir g) rows) None 1 pre 0 (set_s_prs (fresh_parser s0) s0) = (s, Ok ls).
