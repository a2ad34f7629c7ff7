(** * SpecText: the line format (C37, C38) *)

From Verif Require Import PyStr PyBase SpecNames.

(** an escaped pipe is a backslash followed by a pipe *)
Fixpoint escape (t : string) : string :=
  match t with
  | "" => ""
  | String c t' => if Ascii.eqb c "|" then String "\" (String "|" (escape t')) else String c (escape t')
  end.

Definition ends_in_backslash (s : string) : Prop := exists w, s = (w ++ "\")%string.

(** every pipe is escaped *)
Definition no_open_pipe (s : string) : Prop :=
  forall a b, s = (a ++ "|" ++ b)%string -> ends_in_backslash a.

(** [pipe_cells s cells]: cutting [s] at its unescaped pipes gives [cells] *)
Inductive pipe_cells : string -> list string -> Prop :=
| pipe_last : forall s, no_open_pipe s -> pipe_cells s [s]
| pipe_cut : forall a s cells,
    no_open_pipe a -> ~ ends_in_backslash a -> pipe_cells s cells ->
    pipe_cells (a ++ "|" ++ s) (a :: cells).

(** [plain_line l cells]: the name before the first colon, then the cells *)
Inductive plain_line (l : string) : list string -> Prop :=
| line_no_value : forall n,
    ~ In ":"%char (list_ascii_of_string l) -> trimmed l n -> plain_line l [n]
| line_value : forall a b n v texts,
    l = (a ++ ":" ++ b)%string -> ~ In ":"%char (list_ascii_of_string a) ->
    trimmed a n -> trimmed b v -> pipe_cells v (map escape texts) ->
    plain_line l (n :: texts).

(** four or more equal signs at the start stand for "Section:" *)
Inductive text_line (l : string) : list string -> Prop :=
| line_heading : forall e x cells,
    l = (e ++ x)%string -> Forall (eq "="%char) (list_ascii_of_string e) -> 4 <= String.length e ->
    (forall y, x <> String "=" y) ->
    plain_line ("Section:" ++ x) cells -> text_line l cells
| line_plain : forall cells,
    (forall y, l <> ("====" ++ y)%string) -> plain_line l cells -> text_line l cells.

(** the first character that is not white space is # *)
Definition comment_line (l : string) : Prop := exists u v, white u /\ l = (u ++ "#" ++ v)%string.

(** no line boundary of str.splitlines: LF VT FF CR FS GS RS NEL *)
Definition one_line (l : string) : Prop :=
  forall c, In c (list_ascii_of_string l) -> ~ In (nat_of_ascii c) [10; 11; 12; 13; 28; 29; 30; 133].

Definition LF : string := String (ascii_of_nat 10) "".
Definition CRLF : string := String (ascii_of_nat 13) LF.

(** a text made of lines, each ended by LF or CR LF, and a last line *)
Fixpoint text_of (ls : list (string * bool)) (last : string) : string :=
  match ls with
  | [] => last
  | (l, crlf) :: ls => (l ++ (if crlf : bool then CRLF else LF) ++ text_of ls last)%string
  end.

(** the lines of that text; a final line end does not start a line *)
Definition lines_of (ls : list (string * bool)) (last : string) : list string :=
  map fst ls ++ match last with "" => [] | _ => [last] end.

(** [rows_of lines rows]: comment lines give no row, every other line one *)
Inductive rows_of : list string -> list (list string) -> Prop :=
| rows_nil : rows_of [] []
| rows_comment : forall l ls rows, comment_line l -> rows_of ls rows -> rows_of (l :: ls) rows
| rows_line : forall l ls cells rows, ~ comment_line l -> text_line l cells -> rows_of ls rows ->
    rows_of (l :: ls) (cells :: rows).

(** ** Writing lines (C37) *)

(** a name that can stand before the colon of a line *)
Definition line_name (n : string) : Prop :=
  one_line n /\ ~ In ":"%char (list_ascii_of_string n) /\ (forall y, n <> ("====" ++ y)%string) /\ ~ comment_line n.

(** [line_text v texts]: the text [v] after the colon stands for the cells
    [texts]: they are joined by pipes, with the pipes inside them escaped *)
Definition line_text (v : string) (texts : list string) : Prop :=
  texts <> [] /\ one_line v /\ tidy v /\ v = join "|" (map escape texts)
  /\ Forall (fun t => ~ ends_in_backslash t) texts.

(** [pair_cells (n, v) cells]: the name (printed with an indent in front of a
    child) and the cells of the value *)
Definition pair_cells (text : val -> string) (nv : string * val) (cells : list string) : Prop :=
  exists n texts, line_name (fst nv) /\ trimmed (fst nv) n /\ line_text (text (snd nv)) texts /\ cells = n :: texts.

(** [written pairs rows]: an empty line goes before each Section line *)
Inductive written (text : val -> string) : list (string * val) -> list (list string) -> Prop :=
| written_nil : written text [] []
| written_section : forall v l cells rows, pair_cells text ("Section", v) cells -> written text l rows ->
    written text (("Section", v) :: l) ([""] :: cells :: rows)
| written_term : forall n v l cells rows, n <> "Section" -> pair_cells text (n, v) cells -> written text l rows ->
    written text ((n, v) :: l) (cells :: rows).

(** ** Slugs (C43) *)

Definition slug_letters : list ascii := list_ascii_of_string "abcdefghijklmnopqrstuvwxyz0123456789_.".

(** an ASCII word: no white space and no dash *)
Definition slug_word_text (w : string) : Prop :=
  forall c, In c (list_ascii_of_string w) -> nat_of_ascii c < 128 /\ isspace c = false /\ c <> "-"%char.

(** the letters (in lower case), digits, _ and . of a word *)
Fixpoint slug_clean (w : string) : string :=
  match w with
  | "" => ""
  | String c w' => if existsb (Ascii.eqb (lower_char c)) slug_letters then String (lower_char c) (slug_clean w')
                   else slug_clean w'
  end.

(** a run of white space and dashes *)
Definition slug_gap (g : string) : Prop :=
  g <> "" /\ forall c, In c (list_ascii_of_string g) -> nat_of_ascii c < 128 /\ (isspace c = true \/ c = "-"%char).

Definition gapped (w0 : string) (l : list (string * string)) : string :=
  (w0 ++ fold_right (fun gw acc => fst gw ++ snd gw ++ acc) "" l)%string.
