(** * SpecArgv: what the words of the metatab command say *)

From Verif Require Import Cli Misc.

(** the parts of a command line *)
Inductive item := IType (t : string) | IWrite | IDecl | IFind (v : string) | ICreate (v : option string) | IFile (v : string).

(** options without a value: letter, name and meaning *)
Definition plain_options : list (ascii * string * item) :=
  [("t"%char, "terms", IType "terms"); ("j"%char, "json", IType "json"); ("y"%char, "yaml", IType "yaml"); ("l"%char, "line", IType "line");
   ("c"%char, "csv", IType "csv"); ("p"%char, "prety", IType "prety"); ("W"%char, "write-in-place", IWrite); ("d"%char, "show-declaration", IDecl)].
(** options with a value *)
Definition value_options : list (ascii * string * (string -> item)) :=
  [("f"%char, "find-first", IFind); ("C"%char, "create", fun v => ICreate (Some v))].
Definition known_letters : list ascii := ["h"; "t"; "j"; "y"; "l"; "c"; "p"; "W"; "d"; "f"; "C"]%char.
Definition long_names : list string :=
  ["help"; "terms"; "json"; "yaml"; "line"; "csv"; "prety"; "write-in-place"; "show-declaration"; "find-first"; "create"].

(** [p] is a long name or the start of this one only *)
Definition short_for (p l : string) : Prop :=
  startswith p l = true /\ (p = l \/ forall l', In l' long_names -> startswith p l' = true -> l' = l).

(** letters of options without a value *)
Inductive letters_of : string -> list item -> Prop :=
| lo_nil : letters_of "" []
| lo_cons : forall c l i s is, In (c, l, i) plain_options -> letters_of s is -> letters_of (String c s) (i :: is).

(** a word that cannot be an option *)
Definition argument (v : string) : Prop := forall c s, v <> String "-" (String c s).

(** the words for some parts: letters together or apart, names in full or cut short, a
    value in the word of its option or in the next word *)
Inductive writes : list item -> list string -> Prop :=
| w_letters : forall s is, letters_of s is -> s <> "" -> writes is [("-" ++ s)%string]
| w_long : forall c l i p, In (c, l, i) plain_options -> short_for p l -> writes [i] [("--" ++ p)%string]
| w_value : forall s is c l f v, letters_of s is -> In (c, l, f) value_options -> argument v -> writes (is ++ [f v]) [("-" ++ s ++ String c "")%string; v]
| w_joined : forall s is c l f v, letters_of s is -> In (c, l, f) value_options -> v <> "" -> v <> "--" -> (s = "" -> startswith "=" v = false) ->
    writes (is ++ [f v]) [("-" ++ s ++ String c v)%string]
| w_long_value : forall c l f p v, In (c, l, f) value_options -> short_for p l -> argument v -> writes [f v] [("--" ++ p)%string; v]
| w_long_joined : forall c l f p v, In (c, l, f) value_options -> short_for p l -> v <> "--" -> writes [f v] [("--" ++ p ++ "=" ++ v)%string]
| w_create : forall s is, letters_of s is -> writes (is ++ [ICreate None]) [("-" ++ s ++ "C")%string]
| w_long_create : forall p, short_for p "create" -> writes [ICreate None] [("--" ++ p)%string]
| w_file : forall v, argument v -> writes [IFile v] [v].

(** a -C that has no template yet takes the word after it *)
Definition open_end (is : list item) : Prop := last is IWrite = ICreate None.
Inductive line : list item -> list string -> Prop :=
| l_nil : line [] []
| l_cons : forall is ws is' ws', writes is ws -> line is' ws' -> (open_end is -> forall v, hd_error is' <> Some (IFile v)) -> line (is ++ is') (ws ++ ws').
(** a -- before a file name of any form may end the line *)
Inductive whole : list item -> list string -> Prop :=
| wh_line : forall is ws, line is ws -> whole is ws
| wh_dashes : forall is ws v, line is ws -> whole (is ++ [IFile v]) (ws ++ ["--"; v]).

(** the options that exclude each other *)
Definition kind_of (i : item) : option string :=
  match i with IType t => Some t | ICreate _ => Some "create" | _ => None end.
Definition one_kind (is : list item) : Prop :=
  forall i j k k', In i is -> In j is -> kind_of i = Some k -> kind_of j = Some k' -> k = k'.
Definition files_of (is : list item) : list string := flat_map (fun i => match i with IFile v => [v] | _ => [] end) is.

(** the meaning of the parts; of options that are repeated the last one counts *)
Definition adds (a : args) (i : item) : args :=
  match i with
  | IType t => mk_args (a_create a) t (a_write a) (a_find a) (a_decl a) (a_file a)
  | IWrite => mk_args (a_create a) (a_type a) true (a_find a) (a_decl a) (a_file a)
  | IDecl => mk_args (a_create a) (a_type a) (a_write a) (a_find a) true (a_file a)
  | IFind v => mk_args (a_create a) (a_type a) (a_write a) (Some v) (a_decl a) (a_file a)
  | ICreate v => mk_args (Some v) (a_type a) (a_write a) (a_find a) (a_decl a) (a_file a)
  | IFile v => mk_args (a_create a) (a_type a) (a_write a) (a_find a) (a_decl a) v
  end.
Definition meaning (is : list item) : args := fold_left adds is (mk_args None "csv" false None false "metadata.csv").

(** words that are wrong everywhere *)
Inductive bad_word : string -> Prop :=
| b_letter : forall c s, ~ In c known_letters -> is_digit c = false -> c <> "-"%char -> c <> "."%char ->
    has_char " " (String c s) = false -> bad_word (String "-" (String c s))
| b_letters : forall s is c s', letters_of s is -> s <> "" -> ~ In c known_letters -> (forall d, s = String d "" -> c <> "="%char) -> bad_word ("-" ++ s ++ String c s')%string
| b_long : forall p, p <> "" -> has_char "=" p = false -> has_char " " p = false -> (forall l, In l long_names -> startswith p l = false) -> bad_word ("--" ++ p)%string
| b_long_value : forall p v, has_char "=" p = false -> has_char " " (p ++ v) = false -> (forall l, In l long_names -> startswith p l = false) -> bad_word ("--" ++ p ++ "=" ++ v)%string
| b_many : forall p l l', In l long_names -> In l' long_names -> l <> l' -> p <> l -> p <> l' -> p <> "" -> startswith p l = true -> startswith p l' = true -> bad_word ("--" ++ p)%string
| b_value : forall c l i p v, In (c, l, i) plain_options -> short_for p l -> bad_word ("--" ++ p ++ "=" ++ v)%string.
