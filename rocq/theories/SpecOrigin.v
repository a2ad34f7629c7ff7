(** * SpecOrigin: where documents and terms come from (C79, C80, C81) *)

From Coq Require Import List String Ascii.
From Verif Require Import SpecResolve.
Import ListNotations.
Open Scope string_scope.

(** ** Directories (C79) *)

Definition free_of (c : ascii) (x : string) : Prop := ~ In c (list_ascii_of_string x).

(** the steps a path is written with *)
Definition spells (p : string) (steps : list string) : Prop :=
  steps <> [] /\ Forall (free_of "/") steps /\ p = String.concat "/" steps.

(** walking from the directory [from] (given by the names from the top down): an
    empty step or "." stays, ".." goes up and stays at the top, any other name
    goes down *)
Inductive goes : list string -> list string -> list string -> Prop :=
| goes_end : forall d, goes d [] d
| goes_stay : forall d c steps w, c = "" \/ c = "." -> goes d steps w -> goes d (c :: steps) w
| goes_up : forall d x steps w, goes d steps w -> goes (d ++ [x]) (".." :: steps) w
| goes_top : forall steps w, goes [] steps w -> goes [] (".." :: steps) w
| goes_down : forall d c steps w, c <> "" -> c <> "." -> c <> ".." -> goes (d ++ [c]) steps w -> goes d (c :: steps) w.

(** POSIX keeps exactly two slashes at the beginning of a path *)
Inductive root_of (p : string) : string -> Prop :=
| root_two : forall r, p = "//" ++ r -> ~ absolute r -> root_of p "//"
| root_one : absolute p -> (forall r, p = "//" ++ r -> absolute r) -> root_of p "/".

(** a name that says where it goes *)
Definition ordinary (c : string) : Prop := c <> "" /\ c <> "." /\ c <> "..".

(** ** Dotted names (C80) *)

Section Dotted.
Context {obj : Type} (attr : obj -> string -> obj -> Prop).
Inductive reaches : obj -> list string -> obj -> Prop :=
| reaches_here : forall o, reaches o [] o
| reaches_below : forall o c o1 names o2, attr o c o1 -> reaches o1 names o2 -> reaches o (c :: names) o2.
End Dotted.

Definition dotted_name (name : string) (names : list string) : Prop :=
  names <> [] /\ Forall (free_of ".") names /\ name = String.concat "." names.
