(** * PropRows03: rows without a term *)

From Verif Require Import SpecNames SpecParse SpecRows03 Parser SimFacts.

(** ** C03: blank and comment rows inserted or deleted anywhere, in the document
    and in the files it includes or declares, change nothing but row numbers:
    the terms, the sections, the declarations and the exception raised are the
    same.  The document may be loaded in any state.  The only limit is that rows
    put above a section heading on the first line of a file are left to the next
    theorem. *)
Theorem C03_rows : forall e1 e2 n ref dir a b s,
  files_alike e1 e2 -> alike a b -> heading_kept a b ->
  same_document (load_source e1 n (mk_source ref dir a) s) (load_source e2 n (mk_source ref dir b) s).
Proof. exact c03_rows. Qed.
Print Assumptions C03_rows.

(** without files to include or declare there is no limit *)
Theorem C03_alone : forall e n a b, no_files e -> alike a b ->
  same_document (parse_rows e n a) (parse_rows e n b).
Proof. exact c03_alone. Qed.
Print Assumptions C03_alone.

Definition c03_none : env := mk_env (fun _ => false) (fun _ => None) (fun _ => None).
Definition c03_rows_a : list (list string) :=
  [["Title"; "A title"]; ["Section"; "Contacts"; "Email"]; ["Wrangler"; "Jane"; "j@x"]].
Definition c03_rows_b : list (list string) :=
  [["# first"]; ["Title"; "A title"]; []; ["Section"; "Contacts"; "Email"]; [" "; "x"]; ["Wrangler"; "Jane"; "j@x"]; ["  #"; "y"]].

Example C03_example_alike : alike c03_rows_a c03_rows_b.
Proof.
  unfold c03_rows_a, c03_rows_b. apply alike_right; [apply ParseFacts.skip_blank; reflexivity|]. apply alike_keep.
  apply alike_right; [apply ParseFacts.skip_blank; reflexivity|]. apply alike_keep.
  apply alike_right; [apply ParseFacts.skip_blank; reflexivity|]. apply alike_keep.
  apply alike_right; [apply ParseFacts.skip_blank; reflexivity|]. apply alike_nil.
Qed.
Example C03_example :
  same_document (parse_rows c03_none 3 c03_rows_a) (parse_rows c03_none 3 c03_rows_b)
  /\ snd (parse_rows c03_none 3 c03_rows_a) = Ok tt
  /\ map t_rt (s_heap (fst (parse_rows c03_none 3 c03_rows_b))) = ["root"; "title"; "section"; "wrangler"; "email"]
  /\ map t_row (s_heap (fst (parse_rows c03_none 3 c03_rows_a))) = [Some 0; Some 1; Some 2; Some 3; Some 3]
  /\ map t_row (s_heap (fst (parse_rows c03_none 3 c03_rows_b))) = [Some 0; Some 2; Some 4; Some 6; Some 6].
Proof.
  split; [apply C03_alone; [intros x; reflexivity|apply C03_example_alike]|]. vm_compute. repeat split; reflexivity.
Qed.

(** a comment above a section on the first line does change the document when a
    synonym is declared for Section and the section is entered again: the section
    takes its row for its column *)
Definition c03_syn : env :=
  mk_env (fun x => eqs x "d") (fun _ => None)
    (fun x => if eqs x "d" then Some [["Section"; "Terms"; "Synonym"]; ["DeclareTerm"; "Section"; "Root.Foo"]] else None).
Definition c03_syn_rows : list (list string) :=
  [["Section"; "Contacts"]; ["Declare"; "d"]; ["Section"; "Contacts"]].
Theorem C03_synonym_refuted :
  ~ (forall e n a b, alike a b -> same_document (parse_rows e n a) (parse_rows e n b)).
Proof.
  intros H. specialize (H c03_syn 4 c03_syn_rows (["# above"] :: c03_syn_rows)
    (alike_right _ _ _ (proj1 (ParseFacts.skip_blank ["# above"]) eq_refl) (alike_keep _ _ _ (alike_keep _ _ _ (alike_keep _ _ _ alike_nil))))).
  destruct H as (H & _).
  assert (E : forall l m, Forall2 same_but_row l m -> map t_parent l = map t_parent m).
  { intros l m F. induction F as [|x y l m G F IH]; [reflexivity|]. cbn [map]. f_equal; [|exact IH]. apply (f_equal t_parent) in G.
    unfold no_row in G. destruct (is_section_cls (t_cls x)), (is_section_cls (t_cls y)); exact G. }
  apply E in H. vm_compute in H. discriminate H.
Qed.
Print Assumptions C03_synonym_refuted.
