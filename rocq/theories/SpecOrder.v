(** * SpecOrder: orders, columns and class registrations (C29 - C32) *)

From Coq Require Export Permutation Sorting.
From Verif Require Import PyBase SpecNames State.

(** position of the first occurrence *)
Fixpoint position (x : string) (l : list string) : nat :=
  match l with
  | [] => 0
  | y :: l' => if String.eqb x y then 0 else S (position x l')
  end.

(** [reordered order old new]: the entries of [old] named in [order] come
    first, in the order of their first mention; the others follow in their
    previous order *)
Definition reordered {A} (order : list string) (old new : list (string * A)) : Prop :=
  exists first rest,
    new = first ++ rest
    /\ Permutation new old
    /\ (forall kv, In kv first <-> In kv old /\ In (fst kv) order)
    /\ StronglySorted (fun a b => position (fst a) order < position (fst b) order) first
    /\ rest = filter (fun kv => negb (existsb (String.eqb (fst kv)) order)) old.

(** [grouped order matches old groups rest]: one group per pattern, holding in
    the old order what matches that pattern and no earlier one; [rest] is what
    matches none *)
Inductive grouped {A} (matches : string -> A -> Prop) : list string -> list A -> list (list A) -> list A -> Prop :=
| grouped_nil : forall l, grouped matches [] l [] l
| grouped_cons : forall p ps l m r gs rest (f : A -> bool),
    (forall x, In x l -> (f x = true <-> matches p x)) ->
    m = filter f l -> r = filter (fun x => negb (f x)) l ->
    grouped matches ps r gs rest ->
    grouped matches (p :: ps) l (m :: gs) rest.

(** [alphabetical name old new]: [new] is [old] sorted by name (code point
    order), entries of equal name keeping their order *)
Definition alphabetical {A} (name : A -> string) (old new : list A) : Prop :=
  Permutation new old
  /\ StronglySorted (fun a b => String.compare (name a) (name b) <> Gt) new
  /\ forall n, filter (fun x => String.eqb (name x) n) new = filter (fun x => String.eqb (name x) n) old.

(** [cleaned l l']: the columns of [l] that are not blank, trimmed *)
Inductive cleaned : list string -> list string -> Prop :=
| cleaned_nil : cleaned [] []
| cleaned_skip : forall a l l', white a -> cleaned l l' -> cleaned (a :: l) l'
| cleaned_keep : forall a t l l', trimmed a t -> t <> "" -> cleaned l l' -> cleaned (a :: l) (t :: l').

(** some column has this name, ignoring case *)
Definition has_column (name : string) (cols : list string) : Prop :=
  exists c, In c cols /\ lower c = lower name.

(** a history of class registrations and deregistrations *)
Inductive reg_event := Register (name : string) (c : cls) | Unregister (name : string).

(** the class the history leaves for a name: that of the last event about it *)
Fixpoint registered (hist : list reg_event) (name : string) (initial : option cls) : option cls :=
  match hist with
  | [] => initial
  | e :: hist' =>
      registered hist' name
        (match e with
         | Register n c => if String.eqb (lower n) (lower name) then Some c else initial
         | Unregister n => if String.eqb (lower n) (lower name) then None else initial
         end)
  end.
