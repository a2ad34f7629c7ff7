(** * PropPad: empty cells at the ends of rows (C11) *)

From Verif Require Import StrFacts SpecNames SpecParse SpecNumber Parser SpecDoc SpecPad SpecInclude PadFacts.

(** Two documents, and two sets of files they include, that are the same up to
    empty cells at the ends of rows load with the same outcome: the same terms,
    sections and declarations, or the same error after the same part of them.  Only
    the recorded cells of the padded rows differ, in the empty cells.
    Missing: documents with Declare rows, or with a row whose name is a number; and
    what [may_pad] leaves out: a Section row without cells, where the section has
    declared columns, and a Header row without columns. *)
Theorem C11_document_partial : forall e1 e2 n ref dir a b s, sections_ok s ->
  let cols := declared_columns (d_decl_sections (s_doc s)) in
  files_padded cols e1 e2 -> padded_rows cols a b ->
  same_padded (load_source e1 n (mk_source ref dir a) s) (load_source e2 n (mk_source ref dir b) s).
Proof. exact padded_document. Qed.
Print Assumptions C11_document_partial.

(** Rows that follow other rows: after any first part of a document, Declare rows
    included, that left a state whose sections are sections and which declares no
    synonym, the rest of the rows can be padded. *)
Theorem C11_after_partial : forall e1 e2 n src1 src2 line ls a b s,
  sections_ok s -> no_synonyms (s_prs s) -> is_section_cls (t_cls (tget ls s)) = true ->
  let cols := declared_columns (d_decl_sections (s_doc s)) in
  files_padded cols e1 e2 -> padded_rows cols a b -> src_ref src1 = src_ref src2 -> src_dir src1 = src_dir src2 ->
  same_padded ((rows_loop e1 true (generate_terms e1 true n) src1 None line a ls ;;; finish_load) s)
              ((rows_loop e2 true (generate_terms e2 true n) src2 None line b ls ;;; finish_load) s).
Proof. exact padded_after. Qed.
Print Assumptions C11_after_partial.

Definition kids11 (s : st) : list (string * list (string * val)) :=
  map (fun i => (t_rt (tget i s), map (fun c => (t_rt (tget c s), t_val (tget c s))) (t_children (tget i s)))) (d_terms (s_doc s)).
Definition rows11 (pad : list string) : list (list string) :=
  [("Title" :: "T" :: pad)%list; pad; (["Section"; "Contacts"; "Email"] ++ pad)%list; (["Person"; "Ann"; "a@x"] ++ pad)%list; (["Person.Note"; "n"] ++ pad)%list].
Definition load11 (ds : dict sdecl) (rows : list (list string)) : st * res unit :=
  load_source (mk_env (fun _ => false) (fun _ => None) (fun _ => None)) 2 (mk_source None "" rows) (new_doc default_classes [] ds []).

Lemma sections_ok_new : forall reg dt ds sup, sections_ok (new_doc reg dt ds sup).
Proof.
  intros. split.
  - cbn. intros r [<-|[]] _. split; [reflexivity|right; reflexivity].
  - reflexivity.
  - intros n i H. change (dget n [("root", 0)] = Some i) in H. cbn in H. destruct (eqs n "root"); [injection H as <-; reflexivity|discriminate H].
Qed.

(** the hypotheses hold of the rows of a document and the same rows with two more
    empty cells each, whatever the declared sections *)
Example C11_ex : padded_rows (declared_columns []) (rows11 []) (rows11 [""; ""])
  /\ snd (load11 [] (rows11 [])) = Ok tt
  /\ kids11 (fst (load11 [] (rows11 []))) = [("title", []); ("person", [("email", VStr "a@x"); ("note", VStr "n")])]
  /\ kids11 (fst (load11 [] (rows11 [""; ""]))) = kids11 (fst (load11 [] (rows11 []))).
Proof.
  split; [|vm_compute; repeat split].
  assert (W : forall r p n, split_term_lower (hd "" r) = Ok (p, n) -> wordy n -> n <> "declare" -> n <> "header" -> padded_row (declared_columns []) r (r ++ [""; ""])).
  { intros r p n CN Wn N1 N2. assert (D : forall p' n', cell_names (hd "" r) p' n' -> p' = p /\ n' = n).
    { intros p' n' H. apply NameFacts.split_term_lower_spec in H. rewrite CN in H. injection H as <- <-. auto. }
    split; [exists 2; reflexivity|]. split; [right; intros p' n' H; destruct (D _ _ H) as [-> ->]; split; [exact Wn|intros [_ K]; contradiction]|]. right. split.
    - right. reflexivity.
    - intros p' H. destruct (D _ _ H) as [_ E]. symmetry in E. contradiction. }
  assert (L : forall c, isspace c = false -> (~ exists d, digit c d) -> c <> "+"%char -> c <> "-"%char -> c <> "_"%char -> forall s, wordy (String c s)).
  { intros c H1 H2 H3 H4 H5 s. exists "", c, s. repeat split; assumption. }
  assert (ND : forall c, is_digit c = false -> ~ exists d, digit c d) by (intros c H (d & K); destruct K; discriminate H).
  repeat apply Forall2_cons; try apply Forall2_nil.
  2: { split; [exists 2; reflexivity|]. split; [left; left; reflexivity|]. right. split; [intros [H|H]; apply NameFacts.split_term_lower_spec in H; discriminate H|intros p H; apply NameFacts.split_term_lower_spec in H; discriminate H]. }
  1: apply (W ["Title"; "T"] "root" "title").
  5: apply (W ["Section"; "Contacts"; "Email"] "root" "section").
  9: apply (W ["Person"; "Ann"; "a@x"] "root" "person").
  13: apply (W ["Person.Note"; "n"] "person" "note").
  all: first [reflexivity|apply L; [reflexivity|apply ND; reflexivity|discriminate..]|discriminate].
Qed.

(** a state after a Declare row in which the rest of the rows can be padded *)
Definition decls11 : list (list string) := [["DeclareSection"; "Contacts"; "Email"]; ["Section"; "Decl"; "Section"]; ["DeclareTerm"; "Root.Person"; "Contacts"]].
Definition env11 : env := mk_env (fun x => eqs x "d.csv") (fun _ => None) (fun x => if eqs x "d.csv" then Some decls11 else None).
Definition mid11 : st * res nat :=
  (start_parser ;;; load1 0 ;;; rows_to env11 true (generate_terms env11 true 2) (mk_source None "" []) None 1 [["Declare"; "d.csv"]] 0) (new_doc default_classes [] [] []).
Lemma sections_decided : forall s,
  forallb (fun r => negb (is_section_cls (t_cls r)) || (eqs (t_pt r) "root" && (eqs (t_rt r) "section" || eqs (t_rt r) "root"))) (s_heap s) = true ->
  is_section_cls (t_cls (tget (d_root (s_doc s)) s)) = true ->
  forallb (fun kv => is_section_cls (t_cls (tget (snd kv) s))) (d_sections (s_doc s)) = true -> sections_ok s.
Proof.
  intros s H1 H2 H3. split; [|exact H2|].
  - intros r Hr K. rewrite forallb_forall in H1. specialize (H1 r Hr). cbv beta in H1. rewrite K in H1. cbn [negb orb] in H1. apply andb_true_iff in H1. destruct H1 as [H1 H4]. apply eqs_true in H1.
    apply orb_true_iff in H4. split; [exact H1|]. destruct H4 as [H4|H4]; apply eqs_true in H4; auto.
  - intros n i. induction (d_sections (s_doc s)) as [|[k v] l IH]; intros Hd; [discriminate Hd|]. cbn [forallb snd] in H3. apply andb_true_iff in H3. destruct H3 as [H3 H4].
    cbn [dget] in Hd. destruct (eqs n k); [injection Hd as <-; exact H3|exact (IH H4 Hd)].
Qed.
Lemma synonyms_decided : forall p,
  forallb (fun kv => match dget "synonym" (td_props (snd kv)) with None => true | Some _ => false end) (p_dterms p) = true -> no_synonyms p.
Proof.
  intros p H k td Hi. rewrite forallb_forall in H. specialize (H _ Hi). cbn [snd] in H. destruct (dget "synonym" (td_props td)); [discriminate H|reflexivity].
Qed.
Example C11_after_ex : snd mid11 = Ok 0 /\ sections_ok (fst mid11) /\ no_synonyms (s_prs (fst mid11)) /\ is_section_cls (t_cls (tget 0 (fst mid11))) = true
  /\ dmem "root.person" (p_dterms (s_prs (fst mid11))) = true.
Proof.
  split; [vm_compute; reflexivity|]. split; [apply sections_decided; vm_compute; reflexivity|]. split; [apply synonyms_decided; vm_compute; reflexivity|].
  split; vm_compute; reflexivity.
Qed.

(** As stated the property is false.  A Section row without cells takes the
    declared columns of the section; with an empty cell at its end it does not, and
    the cells below it have other names.  A Header row without columns leaves the
    section its own columns; with an empty cell it does not. *)
Theorem C11_refuted :
  (let ds := [("contacts", mk_sdecl ["Email"] [])] in
   let rows sec := [sec; ["Person"; "A"; "a@x"]] in
   snd (load11 ds (rows ["Section"; "Contacts"])) = Ok tt /\ snd (load11 ds (rows ["Section"; "Contacts"; ""])) = Ok tt
   /\ kids11 (fst (load11 ds (rows ["Section"; "Contacts"]))) = [("person", [("email", VStr "a@x")])]
   /\ kids11 (fst (load11 ds (rows ["Section"; "Contacts"; ""]))) = [("person", [("0", VStr "a@x")])])
  /\ (let rows header := [["Section"; "Contacts"; "Email"]; header] in
   snd (load11 [] (rows ["Header"; "Name"])) = Ok tt /\ snd (load11 [] (rows ["Header"; "Name"; ""])) = Ok tt
   /\ sec_property_names (tget 1 (fst (load11 [] (rows ["Header"; "Name"])))) = ["Email"]
   /\ sec_property_names (tget 1 (fst (load11 [] (rows ["Header"; "Name"; ""])))) = [""]).
Proof. vm_compute. repeat split. Qed.
Print Assumptions C11_refuted.
