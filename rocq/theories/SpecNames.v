(** * SpecNames: what a term cell and a term pattern mean

    Specification vocabulary for C01 and C02.  It uses the character classes
    and [lower] of PyStr.v, but none of the splitting or stripping code. *)

From Verif Require Import PyStr.

(** number of dots of a text *)
Definition dots (s : string) : nat := count_occ ascii_dec (list_ascii_of_string s) "."%char.
Definition dot_free (s : string) : Prop := ~ In "."%char (list_ascii_of_string s).

(** only white space *)
Definition white (s : string) : Prop := Forall (fun c => isspace c = true) (list_ascii_of_string s).

(** neither begins nor ends with white space *)
Definition tidy (t : string) : Prop :=
  (forall c w, t = String c w -> isspace c = false)
  /\ (forall c w, t = (w ++ String c "")%string -> isspace c = false).

(** [t] is [s] without its outer white space *)
Definition trimmed (s t : string) : Prop :=
  exists u v, s = (u ++ t ++ v)%string /\ white u /\ white v /\ tidy t.

(** the name of the current parent in a cell such as ".name" *)
Definition current_parent : string := "<elided_term>".

(** [cell_names s p r]: the cell [s] names the record [r] of the parent [p] *)
Inductive cell_names (s : string) : string -> string -> Prop :=
| cell_plain : forall r,
    dot_free s -> trimmed s r -> cell_names s "root" (lower r)
| cell_qualified : forall a b p r,
    s = (a ++ "." ++ b)%string -> dot_free a -> dot_free b ->
    trimmed a p -> trimmed b r -> p <> "" -> cell_names s (lower p) (lower r)
| cell_elided : forall a b r,
    s = (a ++ "." ++ b)%string -> white a -> dot_free b ->
    trimmed b r -> cell_names s current_parent (lower r).

(** one side of a pattern: a star, or the name in any case *)
Definition side (pat name : string) : Prop := pat = "*" \/ lower pat = lower name.

(** [denotes p parent record]: the pattern [p] covers the name parent.record *)
Inductive denotes (p parent record : string) : Prop :=
| denotes_plain :
    dot_free p -> lower parent = "root" -> side p record -> denotes p parent record
| denotes_qualified : forall a b,
    p = (a ++ "." ++ b)%string -> dot_free a -> dot_free b ->
    side a parent -> side b record -> denotes p parent record.

(** a pattern written without white space around its parts, and with a parent
    side if it has a dot *)
Inductive tidy_pattern (p : string) : Prop :=
| tidy_plain : dot_free p -> tidy p -> tidy_pattern p
| tidy_qualified : forall a b,
    p = (a ++ "." ++ b)%string -> dot_free a -> dot_free b ->
    a <> "" -> tidy a -> tidy b -> tidy_pattern p.
