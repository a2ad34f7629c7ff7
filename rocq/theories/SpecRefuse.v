(** * SpecRefuse: which DeclareTerm rows are refused (C93) *)

From Verif Require Import SpecNames Parser SpecInherit.

(** the properties of a row [ap] give [k] the text [x], which is not blank *)
Definition gives (ap : dict val) (k x : string) : Prop := dget k ap = Some (VStr x) /\ nonblank x = true.

(** all properties are texts *)
Definition texts (ap : dict val) : Prop := forall k v, dget k ap = Some v -> exists x, v = VStr x.

(** the section [k] is declared *)
Definition has_section (s : st) (k : string) : Prop := dget k (p_dsecs (s_prs s)) <> None.

(** the row names a section that is not declared, or it inherits and names no section *)
Definition refused (s : st) (ap : dict val) : Prop :=
  (exists sec, gives ap "section" sec /\ ~ has_section s (lower sec))
  \/ ((exists ih, gives ap "inheritsfrom" ih) /\ ~ exists sec, gives ap "section" sec).

(** the text [v] is written as the full name p.n, or it has no dot *)
Definition written (v p n : string) : Prop := dot_free v \/ lower v = (p ++ "." ++ n)%string.

(** every name of a child that a section lists is declared, in a declared section *)
Definition settled (s : st) : Prop := forall k x, listed s k x -> ~ dot_free x ->
  (exists p r, cell_names x p r)
  /\ exists td sc, declared s x td /\ dget "section" (td_props td) = Some sc /\ has_section s (lower sc).
