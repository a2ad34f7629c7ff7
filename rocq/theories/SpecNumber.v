(** * SpecNumber: names that are numbers of columns *)

From Coq Require Import NArith.
From Verif Require Import SpecNames State.

(** [numeral s n]: the decimal digits [s] denote [n] *)
Inductive digit : ascii -> N -> Prop :=
| dig0 : digit "0" 0 | dig1 : digit "1" 1 | dig2 : digit "2" 2 | dig3 : digit "3" 3 | dig4 : digit "4" 4
| dig5 : digit "5" 5 | dig6 : digit "6" 6 | dig7 : digit "7" 7 | dig8 : digit "8" 8 | dig9 : digit "9" 9.
Inductive numeral : string -> N -> Prop :=
| num_one : forall c d, digit c d -> numeral (String c "") d
| num_more : forall s n c d, numeral s n -> digit c d -> numeral (s ++ String c "") (10 * n + d)%N.

(** what a record name becomes in a section with the columns [cols] *)
Inductive renames (cols : list string) (name : string) : string -> Prop :=
| ren_column : forall n c, numeral name n -> nth_error cols (N.to_nat n) = Some c -> renames cols name c
| ren_too_far : forall n, numeral name n -> nth_error cols (N.to_nat n) = None -> renames cols name name
| ren_other : ~ (exists n, numeral name n) -> renames cols name name.

(** names without signs and underscores *)
Definition unsigned (s : string) : Prop :=
  forall a c b, s = (a ++ String c b)%string -> c <> "+"%char /\ c <> "-"%char /\ c <> "_"%char.
