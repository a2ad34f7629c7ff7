(** * SpecResolve: the files that names in Declare and Include rows mean (C72) *)

From Coq Require Import List String Ascii.
Import ListNotations.
Open Scope string_scope.

(** paths *)
Definition absolute (n : string) : Prop := exists r, n = ("/" ++ r)%string.
Definition ends_in_slash (d : string) : Prop := exists r, d = (r ++ "/")%string.
Inductive joined (d n : string) : string -> Prop :=
| joined_absolute : absolute n -> joined d n n
| joined_nothing : ~ absolute n -> d = "" -> joined d n n
| joined_slash : ~ absolute n -> ends_in_slash d -> joined d n (d ++ n)
| joined_plain : ~ absolute n -> d <> "" -> ~ ends_in_slash d -> joined d n (d ++ "/" ++ n).

(** [t] is [s] without the slashes at its ends *)
Definition slashes (u : string) : Prop := forall c, In c (list_ascii_of_string u) -> c = "/"%char.
Definition unslashed (s t : string) : Prop :=
  exists u v, s = (u ++ t ++ v)%string /\ slashes u /\ slashes v /\ ~ absolute t /\ ~ ends_in_slash t.

Definition on_the_web (n : string) : Prop := exists r, n = ("http" ++ r)%string.

(** the first of [l] that there is *)
Definition first_there (ex : string -> bool) (l : list string) (y : string) : Prop :=
  exists a b, l = (a ++ y :: b)%list /\ ex y = true /\ Forall (fun x => ex x = false) a.

(** where a declaration is looked for: under its name, in the package [pkg] of
    declarations and in the directory [d] of the file, there with or without
    ".csv" *)
Definition places (pkg d n : string) (l : list string) : Prop :=
  exists p1 p2 d1 d2, joined pkg n p1 /\ joined pkg (n ++ ".csv") p2 /\ joined d n d1 /\ joined d (n ++ ".csv") d2
    /\ l = [n; p1; p2; d1; d2].

(** the declaration [n] in a file of the directory [d] *)
Inductive declaration_means (ex : string -> bool) (pkg d n : string) : string -> Prop :=
| means_local : forall l y, places pkg d n l -> first_there ex l y -> declaration_means ex pkg d n y
| means_web : forall l y, places pkg d n l -> Forall (fun x => ex x = false) l -> on_the_web n -> unslashed n y ->
    declaration_means ex pkg d n y.

(** the Include of [n] in a file of the directory [d] *)
Inductive include_means (d n : string) : string -> Prop :=
| means_page : forall r, unslashed n r -> on_the_web r -> include_means d n r
| means_file : forall r y, unslashed n r -> ~ on_the_web r -> d <> "" -> joined d r y -> include_means d n y.
