(** * SpecStream: the terms of a file, as text, one per line

    What [metatab -t] should print: a line for each term, with the place it comes
    from, its section, names and value. *)

From Verif Require Import SpecNames PyBase SpecParse.

(** "file row:col Section:parent.record=value" *)
Definition term_line (f : string) (row col : nat) (sec parent record value : string) : string :=
  (f ++ " " ++ str_of_nat row ++ ":" ++ str_of_nat col ++ " " ++ sec ++ ":" ++ parent ++ "." ++ record ++ "=" ++ value)%string.

(** an empty cell is no value *)
Definition shown_value (c : string) : string := if eqs c "" then "None" else strip c.

(** the first heading of the section [k]: its line, and the name as written there *)
Fixpoint first_heading (k : string) (n : nat) (ls : list line) : option (nat * string) :=
  match ls with
  | [] => None
  | LSection m _ :: ls' => if eqs (lower (strip m)) k then Some (n, strip m) else first_heading k (S n) ls'
  | _ :: ls' => first_heading k (S n) ls'
  end.

Definition root_line : string := "<none> 0:0 None:root.root=Root".
Definition section_title (ls : list line) (k : string) : string :=
  if eqs k "root" then "Root" else match first_heading k 1 ls with Some (_, m) => m | None => "" end.
Definition section_line (f : string) (ls : list line) (k : string) : string :=
  if eqs k "root" then root_line
  else match first_heading k 1 ls with Some (n, m) => term_line f n n "None" "root" "section" m | None => "" end.

(** the cells of a row, from column [i] on *)
Fixpoint cell_lines (f : string) (row : nat) (sec record : string) (cols : list string) (i : nat) (cells : list string) : list string :=
  match cells with
  | [] => []
  | c :: cs =>
      if eqs c "" then cell_lines f row sec record cols (S i) cs
      else term_line f row (i + 2) sec record (column_name cols i) c :: cell_lines f row sec record cols (S i) cs
  end.

(** the lines for one row, read as [l], when [v] is known; [all] is the whole file *)
Definition row_lines (f : string) (all : list line) (v : view) (row : list string) (l : line) : list string :=
  match l with
  | LBlank | LHeader _ _ => []
  | LSection n _ => [section_line f all (lower (strip n))]
  | LTerm p r _ cells =>
      let sec := section_title all (v_cur v) in
      term_line f (v_line v) 1 sec (if eqs p current_parent then v_parent v else p) r (shown_value (nth 1 row ""))
      :: cell_lines f (v_line v) sec r (v_cols v) 0 cells
  end.

Fixpoint file_lines (f : string) (all : list line) (decl : string -> list string) (v : view) (rows : list (list string)) (ls : list line) : list string :=
  match rows, ls with
  | row :: rows', l :: ls' => (row_lines f all v row l ++ file_lines f all decl (next decl v l) rows' ls')%list
  | _, _ => []
  end.

(** as a reader of the file would write it *)
Definition expected (f : string) (decl : string -> list string) (rows : list (list string)) (ls : list line) : list string :=
  root_line :: file_lines f ls decl first_view rows ls.

(** what is known at the start of a second reading by the same parser: the
    sections, and the columns that were in force at the end *)
Definition second_view (decl : string -> list string) (ls : list line) : view :=
  let v := view_after decl ls in mk_view 1 (v_secs v) "root" (v_cols v) "@value" "root" [] [].
Definition printed (f : string) (decl : string -> list string) (rows : list (list string)) (ls : list line) : list string :=
  root_line :: file_lines f ls decl (second_view decl ls) rows ls.

(** rows that say what the columns are *)
Definition sets_columns (l : line) : Prop :=
  match l with
  | LHeader _ _ => True
  | LSection n _ => lower (strip n) <> "root"
  | _ => False
  end.
(** no row has extra cells before the columns are known *)
Definition columns_first (ls : list line) : Prop :=
  forall pre p r x cells post, ls = (pre ++ LTerm p r x cells :: post)%list ->
  Forall (fun c => c = "") cells \/ Exists sets_columns pre.
