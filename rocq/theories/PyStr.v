(** * PyStr: the Python [str] primitives used by metatab.

    A Python [str] is modelled as a Coq [string], i.e. a list of 8-bit
    characters read as the code points U+0000..U+00FF (Latin-1).  On that
    domain [isspace], [lower], [strip], [split], [replace], [startswith],
    [splitlines], [int] and [str(int)] agree with CPython (the tables were
    compared with CPython 3.11 on all 256 code points, see PyTests.v).
    [title] agrees except on U+00B5 and U+00FF, whose title case lies
    outside Latin-1; the model leaves these two unchanged.
    Code points above U+00FF are not modelled. *)

From Coq Require Export String Ascii List Bool Arith ZArith NArith Lia.
From Coq Require Import DecimalString.
Export ListNotations.
Open Scope string_scope.
Open Scope list_scope.
Open Scope nat_scope.

(** ** Characters *)

(** models CPython str.isspace / the whitespace set of str.strip() *)
Definition isspace (c : ascii) : bool :=
  let n := nat_of_ascii c in
  ((9 <=? n) && (n <=? 13)) || ((28 <=? n) && (n <=? 32)) || (n =? 133) || (n =? 160).

(** models CPython str.lower on one code point *)
Definition is_upper (c : ascii) : bool :=
  let n := nat_of_ascii c in
  ((65 <=? n) && (n <=? 90)) || ((192 <=? n) && (n <=? 222) && negb (n =? 215)).

Definition lower_char (c : ascii) : ascii :=
  if is_upper c then ascii_of_nat (nat_of_ascii c + 32) else c.

(** cased characters (for str.title) *)
Definition is_cased (c : ascii) : bool :=
  let n := nat_of_ascii c in
  ((65 <=? n) && (n <=? 90)) || ((97 <=? n) && (n <=? 122))
  || (n =? 170) || (n =? 181) || (n =? 186)
  || ((192 <=? n) && negb (n =? 215) && negb (n =? 247)).

(** title case of one code point (a string: U+00DF becomes "Ss") *)
Definition title_char (c : ascii) : string :=
  let n := nat_of_ascii c in
  if ((97 <=? n) && (n <=? 122)) || ((224 <=? n) && (n <=? 254) && negb (n =? 247))
  then String (ascii_of_nat (n - 32)) ""
  else if n =? 223 then "Ss"
  else String c "".

Definition is_digit (c : ascii) : bool :=
  let n := nat_of_ascii c in (48 <=? n) && (n <=? 57).

(** ** Strings *)

Definition eqs (a b : string) : bool := String.eqb a b.

Definition snoc (s : string) (c : ascii) : string := (s ++ String c "")%string.

(** str.lower() *)
Fixpoint lower (s : string) : string :=
  match s with
  | "" => ""
  | String c s' => String (lower_char c) (lower s')
  end.

Fixpoint lstrip (s : string) : string :=
  match s with
  | "" => ""
  | String c s' => if isspace c then lstrip s' else s
  end.

Fixpoint rstrip (s : string) : string :=
  match s with
  | "" => ""
  | String c s' =>
      match rstrip s' with
      | "" => if isspace c then "" else String c ""
      | r => String c r
      end
  end.

(** str.strip() *)
Definition strip (s : string) : string := rstrip (lstrip s).

(** str.title() *)
Fixpoint title_aux (prev_cased : bool) (s : string) : string :=
  match s with
  | "" => ""
  | String c s' =>
      if prev_cased
      then String (lower_char c) (title_aux (is_cased c) s')
      else (title_char c ++ title_aux (is_cased c) s')%string
  end.
Definition title (s : string) : string := title_aux false s.

(** [c in s] for a one-character string *)
Fixpoint has_char (c : ascii) (s : string) : bool :=
  match s with
  | "" => false
  | String d s' => if Ascii.eqb c d then true else has_char c s'
  end.

(** s.split(c) for a one-character separator (always at least one piece) *)
Fixpoint split_on (c : ascii) (s : string) : list string :=
  match s with
  | "" => [""]
  | String d s' =>
      if Ascii.eqb c d then "" :: split_on c s'
      else match split_on c s' with
           | [] => [String d ""]
           | p :: ps => String d p :: ps
           end
  end.

(** s.split(c, 1) : the part before the first separator and the part after *)
Fixpoint split_first (c : ascii) (s : string) : string * option string :=
  match s with
  | "" => ("", None)
  | String d s' =>
      if Ascii.eqb c d then ("", Some s')
      else let '(a, b) := split_first c s' in (String d a, b)
  end.

(** s.startswith(p) *)
Fixpoint startswith (p s : string) : bool :=
  match p, s with
  | "", _ => true
  | String c p', String d s' => Ascii.eqb c d && startswith p' s'
  | String _ _, "" => false
  end.

Fixpoint endswith_char (c : ascii) (s : string) : bool :=
  match s with
  | "" => false
  | String d "" => Ascii.eqb c d
  | String _ s' => endswith_char c s'
  end.

(** s.replace(pat, by) with a non-empty pattern: left to right, not overlapping.
    [skip] counts the characters of a match still to be dropped. *)
Fixpoint replace_aux (pat by_ : string) (skip : nat) (s : string) : string :=
  match s with
  | "" => ""
  | String c s' =>
      match skip with
      | S k => replace_aux pat by_ k s'
      | O => if startswith pat s
             then (by_ ++ replace_aux pat by_ (String.length pat - 1) s')%string
             else String c (replace_aux pat by_ O s')
      end
  end.
Definition replace (pat by_ s : string) : string := replace_aux pat by_ O s.

(** sep.join(l) *)
Fixpoint join (sep : string) (l : list string) : string :=
  match l with
  | [] => ""
  | [x] => x
  | x :: l' => (x ++ sep ++ join sep l')%string
  end.

(** s.strip('/') and the like: strip one given character from both ends *)
Fixpoint lstrip_c (c : ascii) (s : string) : string :=
  match s with
  | "" => ""
  | String d s' => if Ascii.eqb c d then lstrip_c c s' else s
  end.
Fixpoint rstrip_c (c : ascii) (s : string) : string :=
  match s with
  | "" => ""
  | String d s' =>
      match rstrip_c c s' with
      | "" => if Ascii.eqb c d then "" else String d ""
      | r => String d r
      end
  end.
Definition strip_c (c : ascii) (s : string) : string := rstrip_c c (lstrip_c c s).

Fixpoint all_chars (f : ascii -> bool) (s : string) : bool :=
  match s with
  | "" => true
  | String c s' => f c && all_chars f s'
  end.

Definition nonblank (s : string) : bool := negb (eqs (strip s) "").
Definition nonempty (s : string) : bool := negb (eqs s "").

(** ** Integers *)

(** str(n) *)
Definition str_of_N (n : N) : string := NilZero.string_of_uint (N.to_uint n).
Definition str_of_nat (n : nat) : string := str_of_N (N.of_nat n).
Definition str_of_Z (z : Z) : string :=
  match z with
  | Z0 => "0"
  | Zpos p => str_of_N (Npos p)
  | Zneg p => String "-" (str_of_N (Npos p))
  end.

Definition digit_val (c : ascii) : N := N.of_nat (nat_of_ascii c - 48).

(** the digit part of int(): digits, with single underscores between digits.
    [acc] is the value so far, [ok] says the previous character was a digit. *)
Fixpoint parse_digits (acc : N) (ok : bool) (s : string) : option N :=
  match s with
  | "" => if ok then Some acc else None
  | String c s' =>
      if is_digit c then parse_digits (acc * 10 + digit_val c)%N true s'
      else if Ascii.eqb c "_" && ok then parse_digits acc false s'
      else None
  end.

(** the white space that int() allows around a number: not U+001C..U+001F *)
Definition int_space (c : ascii) : bool :=
  isspace c && negb ((28 <=? nat_of_ascii c) && (nat_of_ascii c <=? 31)).

Fixpoint lstrip_by (f : ascii -> bool) (s : string) : string :=
  match s with
  | "" => ""
  | String c s' => if f c then lstrip_by f s' else s
  end.
Fixpoint rstrip_by (f : ascii -> bool) (s : string) : string :=
  match s with
  | "" => ""
  | String c s' =>
      match rstrip_by f s' with
      | "" => if f c then "" else String c ""
      | r => String c r
      end
  end.

(** int(s) for a str argument; None stands for ValueError. *)
Definition py_int (s : string) : option Z :=
  match rstrip_by int_space (lstrip_by int_space s) with
  | "" => None
  | String c s' =>
      if Ascii.eqb c "-" then option_map (fun n => Z.opp (Z.of_N n)) (parse_digits 0 false s')
      else if Ascii.eqb c "+" then option_map Z.of_N (parse_digits 0 false s')
      else option_map Z.of_N (parse_digits 0 false (String c s'))
  end.
