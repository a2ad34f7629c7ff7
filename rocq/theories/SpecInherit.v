(** * SpecInherit: what inheriting a declaration means *)

From Verif Require Import SpecNames Parser.

(** [x] is a name "I.r" *)
Definition child_name (I x r : string) : Prop :=
  exists a b, x = (a ++ "." ++ b)%string /\ dot_free a /\ dot_free b /\ lower a = lower I /\ trimmed b r.

(** the declared section [sec] lists the name [x] *)
Definition listed (s : st) (sec x : string) : Prop :=
  exists sd, dget sec (p_dsecs (s_prs s)) = Some sd /\ In x (sd_terms sd).

(** the declaration of the name [x] *)
Definition declared (s : st) (x : string) (td : tdecl) : Prop := dget (lower x) (p_dterms (s_prs s)) = Some td.

(** declarations are kept under full names without white space *)
Definition full_keys (s : st) : Prop :=
  forall k td, dget k (p_dterms (s_prs s)) = Some td -> exists p r, cell_names k p r /\ k = (p ++ "." ++ r)%string.

(** [b] is the declaration [a], for the name [n] *)
Record copied (n : string) (a b : tdecl) : Prop := mk_copied {
  cp_term : dget "term" (td_props b) = Some n;
  cp_from : dget "inheritsfrom" (td_props b) = Some "";
  cp_rest : forall k, k <> "term" -> k <> "inheritsfrom" -> dget k (td_props b) = dget k (td_props a);
  cp_vals : td_values b = td_values a }.
