(** * SpecKept: what a parse must not take away from a document *)

From Verif Require Import State.

Definition prefix {A} (a b : list A) : Prop := exists l, b = (a ++ l)%list.

(** what no operation of the parser changes in a term: class, cells, place,
    kind of file, written name *)
Definition core (r : trec) := (t_cls r, t_args r, t_row r, t_col r, t_ftype r, t_term r).

(** [s'] has everything that [s] has, in the same order *)
Record kept (s s' : st) : Prop := mk_kept {
  kp_reg : s_reg s' = s_reg s;
  kp_root : d_root (s_doc s') = d_root (s_doc s);
  kp_decls : d_decl_terms (s_doc s') = d_decl_terms (s_doc s) /\ d_decl_sections (s_doc s') = d_decl_sections (s_doc s);
  kp_terms : prefix (d_terms (s_doc s)) (d_terms (s_doc s'));
  kp_secs : forall k i, dget k (d_sections (s_doc s)) = Some i -> dget k (d_sections (s_doc s')) = Some i;
  kp_len : length (s_heap s) <= length (s_heap s');
  kp_core : forall i, i < length (s_heap s) -> core (hget i (s_heap s')) = core (hget i (s_heap s));
  kp_kids : forall i, i < length (s_heap s) -> prefix (t_children (hget i (s_heap s))) (t_children (hget i (s_heap s')));
  kp_listed : forall i, i < length (s_heap s) -> prefix (t_terms (hget i (s_heap s))) (t_terms (hget i (s_heap s')))
}.

(** a declaration looked up in the newer table first *)
Definition first_of {A} (a b : option A) : option A := match a with Some x => Some x | None => b end.
