(** * SpecParse: what the rows of a file mean

    Specification vocabulary of the parser properties.  A file is a list of
    lines; [view] is what a reader of the file knows before a given line.  Only
    [strip], [lower] and [cell_names] (SpecNames.v) are used to read cells. *)

From Verif Require Import SpecNames PyBase.

(** one row: its meaning.  [cells] are the cells from the third on, trimmed. *)
Inductive line :=
| LBlank
| LSection (name : string) (cells : list string)      (* the cell as written *)
| LHeader (name : string) (cells : list string)
| LTerm (parent record value : string) (cells : list string).

(** rows without a name or with a comment *)
Definition blank_row (row : list string) : Prop :=
  row = [] \/ exists c cs, row = c :: cs /\ (white c \/ exists w, trimmed c (String "#" w)).

Inductive reads (row : list string) : line -> Prop :=
| reads_blank : blank_row row -> reads row LBlank
| reads_section : ~ blank_row row -> cell_names (hd "" row) "root" "section" ->
    reads row (LSection (nth 1 row "") (map strip (skipn 2 row)))
| reads_header : ~ blank_row row -> cell_names (hd "" row) "root" "header" ->
    reads row (LHeader (strip (nth 1 row "")) (map strip (skipn 2 row)))
| reads_term : forall p r, ~ blank_row row -> cell_names (hd "" row) p r ->
    (p = "root" -> ~ In r ["section"; "header"]) ->
    reads row (LTerm p r (strip (nth 1 row "")) (map strip (skipn 2 row))).

(** the lines the theorems speak about: no Include or Declare row, no record
    named by a number or by a name the parser uses itself, no column called
    "section" *)
Definition usual (l : line) : Prop :=
  match l with
  | LBlank => True
  | LSection _ cells | LHeader _ cells => ~ In "section" (map lower cells)
  | LTerm p r _ _ =>
      py_int r = None /\ r <> current_parent /\ r <> "root"
      /\ (p = current_parent -> ~ In r ["section"; "header"])
      /\ (p = "root" -> ~ In r ["include"; "declare"])
  end.

(** what is known before a line *)
Record view := mk_view {
  v_line : nat;                          (* its number *)
  v_secs : list (string * list string);  (* sections so far and the columns of their first heading *)
  v_cur : string;                        (* the current section *)
  v_cols : list string;                  (* the columns in force *)
  v_vname : string;                      (* the value name in force *)
  v_parent : string;                     (* the record a name such as ".c" belongs to *)
  v_last : list (string * nat);          (* record names and the lines they were last used on *)
  v_tops : list (nat * string)           (* root-level lines and their sections *)
}.

Definition first_view : view := mk_view 1 [("root", [])] "root" [] "@value" "root" [] [].

Definition assoc {A} (k : string) (l : list (string * A)) : option A :=
  option_map snd (find (fun kv => eqs (fst kv) k) l).

(** one line; [decl] gives the declared columns of a section heading *)
Definition next (decl : string -> list string) (v : view) (l : line) : view :=
  match l with
  | LBlank => mk_view (S (v_line v)) (v_secs v) (v_cur v) (v_cols v) (v_vname v) (v_parent v) (v_last v) (v_tops v)
  | LSection n cells =>
      let k := lower (strip n) in
      if eqs k "root" then
        mk_view (S (v_line v)) (v_secs v) "root" (v_cols v) (v_vname v) (v_parent v) (v_last v) (v_tops v)
      else
        let own := match cells with [] => map strip (decl n) | _ => cells end in
        let cols := match assoc k (v_secs v) with Some c => c | None => own end in
        let secs := match assoc k (v_secs v) with Some _ => v_secs v | None => (v_secs v ++ [(k, own)])%list end in
        mk_view (S (v_line v)) secs k cols "@value" "root" (v_last v) (v_tops v)
  | LHeader n cells =>
      mk_view (S (v_line v)) (v_secs v) (v_cur v) cells (lower n) (v_parent v) (v_last v) (v_tops v)
  | LTerm p r _ _ =>
      if eqs p current_parent then
        mk_view (S (v_line v)) (v_secs v) (v_cur v) (v_cols v) (v_vname v) (v_parent v) (v_last v)
          (v_tops v ++ (if eqs (v_parent v) "root" then [(v_line v, v_cur v)] else []))
      else
        mk_view (S (v_line v)) (v_secs v) (v_cur v) (v_cols v) (v_vname v) r ((r, v_line v) :: v_last v)
          (v_tops v ++ (if eqs p "root" then [(v_line v, v_cur v)] else []))
  end.

Definition view_after (decl : string -> list string) (ls : list line) : view := fold_left (next decl) ls first_view.

(** the name of the child made from the cell in column [i] *)
Definition column_name (cols : list string) (i : nat) : string :=
  match nth_error cols i with
  | Some c => if eqs c "" then str_of_nat i else lower c
  | None => str_of_nat i
  end.

(** the children made from the cells of a row *)
Fixpoint cells_from (cols : list string) (i : nat) (cells : list string) : list (string * string) :=
  match cells with
  | [] => []
  | c :: cs => if eqs c "" then cells_from cols (S i) cs else (column_name cols i, c) :: cells_from cols (S i) cs
  end.
