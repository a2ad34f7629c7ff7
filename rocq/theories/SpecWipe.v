(** * SpecWipe: several terms are taken out of a document (C75) *)

From Verif Require Import Ops SpecInv SpecEdit.

(** [l] without all of [ts] *)
Definition except (ts l : list nat) : list nat := filter (fun x => negb (existsb (Nat.eqb x) ts)) l.

(** one of [ts], or below one *)
Definition within (s : st) (ts : list nat) (x : nat) : Prop := exists t, In t ts /\ (x = t \/ under s t x).

(** the parent of the term, if it has one, is attached to the document *)
Definition parent_attached (s : st) (t : nat) : Prop := forall p, t_parent (tget t s) = Some p -> t_doc (tget p s) = true.

(** [s'] is [s] without the terms [ts], and in all else the same *)
Record taken_out (ts : list nat) (s s' : st) : Prop := {
  to_doc : s_doc s' = set_d_terms (except ts (listed s)) (s_doc s);
  to_parser : s_prs s' = s_prs s /\ s_reg s' = s_reg s;
  to_len : hlen s' = hlen s;
  to_section : forall k i, In (k, i) (secs s) ->
    tget i s' = set_t_terms (except ts (t_terms (tget i s))) (set_t_children (except ts (t_children (tget i s))) (tget i s));
  to_term : forall j, (forall k, ~ In (k, j) (secs s)) -> tget j s' = set_t_children (except ts (t_children (tget j s))) (tget j s);
  to_present : forall x, present s' x <-> present s x /\ ~ within s ts x;
  to_found : forall p v sa r x, doc_find s' p v sa = Ok r -> In x r -> ~ within s ts x
}.
