(** * Argv: the command line of metatab (metatab/cli.py:26-71)

    The options cli.py declares, and argparse.ArgumentParser.parse_args (Python
    3.8, 3.9) for options of their kinds: without a value (nargs=0), with one value
    (nargs=None), with at most one (nargs='?'), and one positional with nargs='?'.
    Simplifications: the words are classified into a list of tokens that is read
    from left to right, where argparse keeps indices into the words and matches
    patterns of letters; usage and help texts are left out. *)

From Verif Require Export Misc Cli.

(** the actions of the parser; argparse adds -h *)
Inductive act := AHelp | ACreate | AType (t : string) | AWrite | AFind | ADecl.

(** cli.py:35-67 *)
Definition option_names : list (string * act) :=
  [("-h", AHelp); ("--help", AHelp); ("-C", ACreate); ("--create", ACreate); ("-t", AType "terms"); ("--terms", AType "terms");
   ("-j", AType "json"); ("--json", AType "json"); ("-y", AType "yaml"); ("--yaml", AType "yaml"); ("-l", AType "line"); ("--line", AType "line");
   ("-c", AType "csv"); ("--csv", AType "csv"); ("-p", AType "prety"); ("--prety", AType "prety"); ("-W", AWrite); ("--write-in-place", AWrite);
   ("-f", AFind); ("--find-first", AFind); ("-d", ADecl); ("--show-declaration", ADecl)].

(** how many values an action takes from the words after it *)
Inductive arity := Zero | One | AtMostOne.
Definition arity_of (a : act) : arity :=
  match a with ACreate => AtMostOne | AFind => One | _ => Zero end.

(** cli.py:33: the mutually exclusive group; the exclusive actions of an action *)
Definition grouped (a : act) : option string :=
  match a with ACreate => Some "create" | AType t => Some t | _ => None end.

(** what a command line comes to: the arguments, an exit, an uncaught exception *)
Inductive parsed := Parsed (a : args) | Exits (code : nat) | Raises (e : exn).

(** a word of the command line: an argument, the first --, or an option with its
    name and the value in the word; an unknown option has no action *)
Inductive tok := Word (s : string) | Dashes | Opt (a : option act) (name : string) (value : option string).

(** argparse: _negative_number_matcher, '^-\d+$|^-\d*\.\d+$'; $ also matches before a
    line feed at the end *)
Definition drop_newline (s : string) : string :=
  match last (list_ascii_of_string s) "x"%char with
  | "010"%char => substring 0 (String.length s - 1) s
  | _ => s
  end.
Definition negative_number (s : string) : bool :=
  match drop_newline s with
  | String "-" r =>
      match split_first "." r with
      | (a, None) => nonempty a && all_chars is_digit a
      | (a, Some b) => all_chars is_digit a && nonempty b && all_chars is_digit b
      end
  | _ => false
  end.

(** argparse: _get_option_tuples, for a word of two characters or more *)
Definition option_tuples (w : string) : list (act * string * option string) :=
  match w with
  | String _ (String c2 rest) =>
      if Ascii.eqb c2 "-" then
        let (p, v) := split_first "=" w in
        flat_map (fun na : string * act => if startswith p (fst na) then [(snd na, fst na, v)] else []) option_names
      else
        flat_map (fun na : string * act =>
          if eqs (fst na) (String "-" (String c2 "")) then [(snd na, fst na, Some rest)]
          else if startswith w (fst na) then [(snd na, fst na, None)] else []) option_names
  | _ => []
  end.

(** argparse: _parse_optional; None is an ambiguous option *)
Definition classify_word (w : string) : option tok :=
  match w with
  | "" => Some (Word w)
  | String c1 w1 =>
      if negb (Ascii.eqb c1 "-") then Some (Word w) else
      match dget w option_names with
      | Some a => Some (Opt (Some a) w None)
      | None =>
          if eqs w1 "" then Some (Word w) else
          let exact := match split_first "=" w with
                       | (p, Some v) => match dget p option_names with Some a => Some (a, p, v) | None => None end
                       | _ => None
                       end in
          match exact with
          | Some (a, p, v) => Some (Opt (Some a) p (Some v))
          | None =>
              match option_tuples w with
              | [(a, n, v)] => Some (Opt (Some a) n v)
              | _ :: _ :: _ => None
              | [] => if negative_number w || has_char " " w then Some (Word w) else Some (Opt None w None)
              end
          end
      end
  end.

(** argparse: parse_known_args, the classification of the words; None is an
    ambiguous option *)
Fixpoint classify (ws : list string) : option (list tok) :=
  match ws with
  | [] => Some []
  | w :: ws' =>
      if eqs w "--" then Some (Dashes :: map Word ws')
      else match classify_word w, classify ws' with
           | Some t, Some ts => Some (t :: ts)
           | _, _ => None
           end
  end.

(** argparse: the loop of consume_optional over the letters of a word: the actions
    without a value, the last action and the value in the word *)
Fixpoint letters (before : list act) (a : act) (name : string) (value : string) : list act * act * option string + parsed :=
  match arity_of a with
  | Zero =>
      if startswith "--" name then inr (Exits 2) else
      match value with
      | "" => inr (Raises EIndex)
      | String c rest =>
          match dget (String "-" (String c "")) option_names with
          | None => inr (Exits 2)
          | Some a' =>
              match rest with
              | "" => inl ((before ++ [a])%list, a', None)
              | _ => letters (before ++ [a]) a' (String "-" (String c "")) rest
              end
          end
      end
  | _ => inl (before, a, Some value)
  end.

(** the parser at work: the arguments so far, the exclusive options seen, whether
    the file was taken, and whether there are words nobody takes *)
Record pst := mk_pst { p_args : args; p_seen : list string; p_file : bool; p_extra : bool }.

Definition set_create (v : option string) (a : args) : args := mk_args (Some v) (a_type a) (a_write a) (a_find a) (a_decl a) (a_file a).
Definition set_type (v : string) (a : args) : args := mk_args (a_create a) v (a_write a) (a_find a) (a_decl a) (a_file a).
Definition set_write (a : args) : args := mk_args (a_create a) (a_type a) true (a_find a) (a_decl a) (a_file a).
Definition set_find (v : option string) (a : args) : args := mk_args (a_create a) (a_type a) (a_write a) v (a_decl a) (a_file a).
Definition set_decl (a : args) : args := mk_args (a_create a) (a_type a) (a_write a) (a_find a) true (a_file a).
Definition set_file (v : string) (a : args) : args := mk_args (a_create a) (a_type a) (a_write a) (a_find a) (a_decl a) v.

(** argparse: take_action with _get_values, which takes away a value that is --; the
    empty list -f then has for a value is None here, both are false (cli.py:125) *)
Definition take (a : act) (v : option string) (p : pst) : pst + parsed :=
  let v := match v with Some x => if eqs x "--" then None else Some x | None => None end in
  let seen := match grouped a with Some g => g :: p_seen p | None => p_seen p end in
  if match grouped a with Some g => existsb (fun x => negb (eqs x g)) (p_seen p) | None => false end then inr (Exits 2)
  else
    let set f := inl (mk_pst (f (p_args p)) seen (p_file p) (p_extra p)) in
    match a with
    | AHelp => inr (Exits 0)
    | ACreate => set (set_create v)
    | AType t => set (set_type t)
    | AWrite => set set_write
    | AFind => set (set_find v)
    | ADecl => set set_decl
    end.

Fixpoint take_all (l : list act) (p : pst) : pst + parsed :=
  match l with
  | [] => inl p
  | a :: l' => match take a None p with inl p' => take_all l' p' | inr r => inr r end
  end.

Definition extra (p : pst) : pst := mk_pst (p_args p) (p_seen p) (p_file p) true.
Definition take_file (v : string) (p : pst) : pst := mk_pst (set_file v (p_args p)) (p_seen p) true (p_extra p).
Definition no_file (p : pst) : pst := mk_pst (p_args p) (p_seen p) true (p_extra p).

(** argparse: the main loop of parse_known_args with consume_optional and
    consume_positionals, and parse_args.  The pattern of the file takes the -- before
    and after its word. *)
Fixpoint consume (ts : list tok) (p : pst) : parsed :=
  match ts with
  | [] => if p_extra p then Exits 2 else Parsed (p_args p)
  | Word s :: ts1 =>
      if p_file p then consume ts1 (extra p)
      else match ts1 with
           | Dashes :: ts2 => consume ts2 (take_file s p)
           | _ => consume ts1 (take_file s p)
           end
  | Dashes :: ts1 =>
      if p_file p then consume ts1 (extra p)
      else match ts1 with
           | Word s :: ts2 => consume ts2 (take_file s p)
           | _ => consume ts1 (no_file p)
           end
  | Opt None _ _ :: ts1 => consume ts1 (extra p)
  | Opt (Some a) name value :: ts1 =>
      match match value with None => inl ([], a, None) | Some v => letters [] a name v end with
      | inr r => r
      | inl (before, a', v) =>
          match arity_of a', v, ts1 with
          | Zero, _, _ => match take_all (before ++ [a']) p with inl p' => consume ts1 p' | inr r => r end
          | _, Some x, _ =>
              match take_all before p with
              | inl p' => match take a' (Some x) p' with inl p2 => consume ts1 p2 | inr r => r end
              | inr r => r
              end
          | _, None, Word x :: ts2 =>
              match take_all before p with
              | inl p' => match take a' (Some x) p' with inl p2 => consume ts2 p2 | inr r => r end
              | inr r => r
              end
          | One, None, _ => Exits 2
          | AtMostOne, None, _ =>
              match take_all before p with
              | inl p' => match take a' None p' with inl p2 => consume ts1 p2 | inr r => r end
              | inr r => r
              end
          end
      end
  end.

(** cli.py:57, 67: the defaults *)
Definition default_args : args := mk_args None "csv" false None false default_file.

(** cli.py:71 *)
Definition parse_args (ws : list string) : parsed :=
  match classify ws with
  | None => Exits 2
  | Some ts => consume ts (mk_pst default_args [] false false)
  end.

(** cli.py:25-166: the command with its words *)
Definition command (w : world) (rd : renderers) (ws : list string) : CM unit :=
  match parse_args ws with
  | Parsed a => metatab w rd a
  | Exits n => exit_with n
  | Raises e => raise e
  end.
