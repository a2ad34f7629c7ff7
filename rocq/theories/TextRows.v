(** * TextRows: the reader of the line format (metatab/rowgen.py:118-204) *)

From Verif Require Export PyBase.

(** line boundaries of str.splitlines() in Latin-1 *)
Definition is_linebreak (c : ascii) : bool :=
  let n := nat_of_ascii c in
  ((10 <=? n) && (n <=? 13)) || ((28 <=? n) && (n <=? 30)) || (n =? 133).

(** text.splitlines() (rowgen.py:170): [prev_cr]: the previous character was a
    CR that ended a line; [cur] is the line being read, None before its first
    character *)
Fixpoint splitlines_aux (prev_cr : bool) (cur : option string) (s : string) : list string :=
  match s with
  | "" => match cur with Some l => [l] | None => [] end
  | String c s' =>
      let line := match cur with Some l => l | None => "" end in
      if is_linebreak c then
        if prev_cr && (nat_of_ascii c =? 10) then splitlines_aux false None s'
        else line :: splitlines_aux (nat_of_ascii c =? 13) None s'
      else splitlines_aux false (Some (snoc line c)) s'
  end.
Definition splitlines (s : string) : list string := splitlines_aux false None s.

(** re.match(r'^\s*#', row) (rowgen.py:187); \s is the class of str.isspace *)
Definition is_comment (row : string) : bool := startswith "#" (lstrip row).

(** re.split(r'(?<!\\)\|', s) (rowgen.py:202): split at pipes that do not
    follow a backslash *)
Fixpoint split_pipe (prev_bs : bool) (s : string) : list string :=
  match s with
  | "" => [""]
  | String c s' =>
      if Ascii.eqb c "|" && negb prev_bs then "" :: split_pipe false s'
      else
        match split_pipe (Ascii.eqb c "\") s' with
        | h :: t => String c h :: t
        | [] => [String c ""]
        end
  end.

(** rowgen.py:190-202: the cells of one line *)
Definition line_cells (row : string) : list string :=
  let row := if startswith "====" row then ("Section:" ++ lstrip_c "=" row)%string else row in
  match split_first ":" row with
  | (a, Some b) => strip a :: map (replace "\|" "|") (split_pipe false (strip b))
  | (a, None) => [strip a]
  end.

(** rowgen.py:183-204 TextRowGenerator.__iter__ *)
Definition text_rows (text : string) : list (list string) :=
  map line_cells (filter (fun l => negb (is_comment l)) (splitlines text)).
