(** * PropOrderly: parsed documents are in good order (C22)

    The theorems about operations (PropDoc.v) speak of documents in good order.
    Documents read from files are, when the file holds usual rows (SpecParse.v),
    has no row such as "A.a" that names itself as its parent, and no column with
    a dot in its name ([orderly_file], SpecOrderly.v). *)

From Verif Require Import PyStr PyBase State Ops Parser SpecNames NameFacts SpecDoc SpecInv SpecEdit SpecOrderly OrderlyFacts StepFacts DocProps ParseProps RunFacts RowFacts.

Theorem C22_parsed : forall g rows ls s, orderly_file g rows ls -> loads g rows s -> in_order s.
Proof. exact loads_in_order. Qed.
Print Assumptions C22_parsed.

(** so the lists of a parsed document agree, and after any operations *)
Theorem C22_parsed_agree_partial : forall g rows ls s s', orderly_file g rows ls -> loads g rows s -> edits s s' -> lists_agree s'.
Proof. exact loads_edits_agree. Qed.
Print Assumptions C22_parsed_agree_partial.

Definition nofiles : env := mk_env (fun _ => false) (fun _ => None) (fun _ => None).
Definition place22 : place := mk_place nofiles 1 None "" default_classes [] [("contacts", mk_sdecl ["Email"; " Phone"] [])] [].
Definition rows22 : list (list string) :=
  [["Title"; "T"];
   ["Section"; "Contacts"];
   ["Wrangler"; " Ann "; "a@x"; "555"];
   [".Note"; "one"];
   ["Section"; "Files"; "Path"];
   ["Datafile"; "d.csv"; "p/q"];
   ["Datafile.Column"; "c1"; "x"]].
Definition lines22 : list line :=
  [LTerm "root" "title" "T" [];
   LSection "Contacts" [];
   LTerm "root" "wrangler" "Ann" ["a@x"; "555"];
   LTerm current_parent "note" "one" [];
   LSection "Files" ["Path"];
   LTerm "root" "datafile" "d.csv" ["p/q"];
   LTerm "datafile" "column" "c1" ["x"]].

Example C22_parsed_ex : orderly_file place22 rows22 lines22 /\ exists s s', loads place22 rows22 s
  /\ secs s = [("root", 0); ("contacts", 2); ("files", 7)] /\ listed s = [1; 3; 8]
  /\ edits s s' /\ listed s' = [1; 8; 12] /\ t_terms (tget 2 s') = [12] /\ t_terms (tget 7 s') = [8].
Proof.
  split.
  - split.
    + split; [exact default_good_reg|]. intros k sd [H|[]]. injection H as <- <-. split; [intros H; vm_compute in H; intuition discriminate|].
      repeat constructor; apply dot_free_iff; reflexivity.
    + apply means_by; vm_compute; reflexivity.
    + unfold lines22. repeat (apply Forall_cons; [intros (a & b & c & H); try discriminate H; injection H as H1 H2; rewrite <- H1 in H2; discriminate H2|]). apply Forall_nil.
    + repeat constructor; apply dot_free_iff; reflexivity.
  - set (s := fst (load_into place22 rows22)). set (s1 := fst (doc_remove_term 3 s)). set (s2 := fst (Ops.new_term 2 "Creator" (VStr "Bob") [] s1)).
    exists s, s2. split; [vm_compute; reflexivity|]. split; [vm_compute; reflexivity|]. split; [vm_compute; reflexivity|]. split.
    + eapply edits_more; [eapply edits_more; [apply edits_none|]|].
      * eapply (ed_remove_term s s1 3); [|intros p H; vm_compute in H; injection H as <-; vm_compute; reflexivity|apply surjective_pairing].
        split; [split; [vm_compute; repeat constructor|vm_compute; reflexivity]|]. split; [vm_compute; discriminate|].
        intros _. exists "contacts", 2. split; [vm_compute; auto|]. split; [intros []|vm_compute; reflexivity].
      * eapply (ed_new_term s1 s2 "contacts" 2 "Creator"); [vm_compute; auto|intros []| |apply surjective_pairing].
        exists "creator". apply split_term_lower_spec. vm_compute. reflexivity.
    + vm_compute. repeat split.
Qed.

(** with a row that names itself as its parent the document is not in order *)
Theorem C22_parsed_self_refuted : exists rows ls s, means rows ls /\ Forall dotless_columns ls /\ loads place22 rows s /\ ~ in_order s.
Proof.
  exists [["Title"; "T"]; ["A.a"; "x"]], [LTerm "root" "title" "T" []; LTerm "a" "a" "x" []], (fst (load_into place22 [["Title"; "T"]; ["A.a"; "x"]])).
  split; [apply means_by; vm_compute; reflexivity|]. split; [repeat constructor|]. split; [vm_compute; reflexivity|].
  intros O. destruct (ok_child _ (io_ok _ O) 2 2) as [H _]; [vm_compute; auto|]. inversion H. inversion H1. inversion H3.
Qed.
Print Assumptions C22_parsed_self_refuted.
