(** * SpecKeep: documents in good order after the first rows of a file

    The first rows of a file may leave oddities behind (SpecInv.Quirks).  [ready
    s]: apart from these the state [s] is in good order, and so are the columns
    the next rows are read with. *)

From Verif Require Import SpecNames PyBase State SpecInv SpecEdit SpecParse Parser SpecDoc SpecHead SpecOrderly.

(** the terms [l] have no section of the document, the sections [o] have a
    column called "section" *)
Lemma not_the_root : forall o : list string, ~ (In "root" o /\ "root" <> "root").
Proof. intros o [_ H]. apply H. reflexivity. Qed.
Definition known_quirks (l : list nat) (o : list string) : Quirks :=
  mk_quirks (fun t => In t l) (fun k => In k o /\ k <> "root") (not_the_root o).

Record ready {QK : Quirks} (s : st) : Prop := {
  rd_order : in_order s;
  (* the declared columns of sections *)
  rd_declared : forall k sd, In (k, sd) (p_dsecs (s_prs s)) -> odd k \/ usual_columns (map strip (sd_args sd));
  rd_dots : forall n, Forall dot_free (cols_in s n);
  (* the columns in force *)
  rd_columns : Forall dot_free (p_pmap (s_prs s)) /\ forall k i, In (k, i) (secs s) -> Forall dot_free (t_args (tget i s))
}.
