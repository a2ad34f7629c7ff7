(** * PropPack: data packages (C47) and schema cleaning (C50) *)

From Verif Require Import PyStr PyBase State Ops Parser Render SpecNames SpecOrder SpecInv SpecFind SpecEdit SpecMaint SpecPack Maint Misc NameFacts OrderFacts StepFacts PackFacts CleanFacts PropDoc.

(** ** C47 *)

(** whenever the conversion succeeds *)
Theorem C47_resources : forall s dp, sectioned s -> convert_to_datapackage s = Ok dp ->
  exists front schema sec tables out, front_of s front /\ dget "schema" (secs s) = Some schema /\ dget "resources" (secs s) = Some sec
    /\ Forall2 (table_of s) (t_terms (tget schema s)) tables /\ packed s tables (datafiles s sec) out
    /\ dget "resources" dp = Some (JList out)
    /\ (forall k, k <> "resources" -> k <> "name" -> dget k dp = dget k front)
    /\ (exists x, dget "name" dp = Some x /\ (dget "name" front = Some x \/ (dget "name" front = None /\ dget "indentifier" front = Some x))).
Proof. exact c47. Qed.
Print Assumptions C47_resources.

Theorem C47_name : forall s d, front_of s d -> dget "name" d = None -> dget "indentifier" d = None -> convert_to_datapackage s = Err EConversion.
Proof. exact c47_name. Qed.
Print Assumptions C47_name.

(** it succeeds when every table has two or more columns with properties and
    every data file a name and a url *)
Theorem C47_total : forall s front schema sec tables, sectioned s -> front_of s front -> (dget "name" front <> None \/ dget "indentifier" front <> None) ->
  dget "schema" (secs s) = Some schema -> dget "resources" (secs s) = Some sec -> Forall2 (table_of s) (t_terms (tget schema s)) tables -> Forall (fun vc => column_list (snd vc)) tables -> Forall (full_row s) (datafiles s sec) ->
  exists dp, convert_to_datapackage s = Ok dp.
Proof. exact c47_total. Qed.
Print Assumptions C47_total.

Theorem C47_schema : forall s front, front_of s front -> (dget "name" front <> None \/ dget "indentifier" front <> None) -> dget "schema" (secs s) = None -> convert_to_datapackage s = Err EConversion.
Proof. exact c47_schema. Qed.
Print Assumptions C47_schema.

(** two tables, and a data file for each of them, one for none of them *)
Definition noenv : env := mk_env (fun _ => false) (fun _ => None) (fun _ => None).
Definition p1 : st := fst (parse_rows noenv 9
  [["Title"; "People"]; ["Name"; "example"]; ["Section"; "Resources"]; ["Header"; "Url"; "Name"; "Table"];
   ["Datafile"; "a.csv"; "persons"; ""]; ["Datafile"; "b.csv"; "other"; ""]; ["Datafile"; "c.csv"; "copy"; "pets"]; ["Documentation"; "d.csv"; "persons"; ""];
   ["Section"; "Schema"]; ["Header"; "Name"; "DataType"; "Description"];
   ["Table"; "persons"]; ["Table.Column"; "id"; "int"; "a number"]; ["Table.Column"; "name"; "str"; ""];
   ["Table"; "pets"]; ["Table.Column"; "id"; "integer"; ""]; ["Table.Column"; "kind"; "text"; ""]]).
Definition sectioned_b (s : st) : bool := forallb (fun r => match t_section r with None => true | Some j => is_section_cls (t_cls (tget j s)) end) (s_heap s).
Lemma sectioned_iff : forall s, sectioned_b s = true -> sectioned s.
Proof.
  intros s H t j J. unfold sectioned_b in H. rewrite forallb_forall in H. destruct (Nat.lt_ge_cases t (hlen s)) as [L|L].
  - specialize (H (tget t s)). rewrite J in H. apply H. unfold tget, hget. apply nth_In. exact L.
  - unfold tget, hget in J. rewrite nth_overflow in J by exact L. discriminate J.
Qed.
Example C47_ex : sectioned p1 /\ convert_to_datapackage p1 =
  Ok [("title", JVal (VStr "People")); ("name", JVal (VStr "example"));
      ("resources", JList [
         JDict [("path", JVal (VStr "a.csv")); ("name", JVal (VStr "persons"));
                ("schema", JDict [("fields", JList [JDict [("name", JVal (VStr "id")); ("description", JVal (VStr "a number")); ("type", JVal (VStr "integer"))];
                                                    JDict [("name", JVal (VStr "name")); ("type", JVal (VStr "string"))]])])];
         JDict [("path", JVal (VStr "c.csv")); ("name", JVal (VStr "copy"));
                ("schema", JDict [("fields", JList [JDict [("name", JVal (VStr "id")); ("type", JVal (VStr "integer"))];
                                                    JDict [("name", JVal (VStr "kind")); ("type", JVal (VStr "string"))]])])]])].
Proof. split; [apply sectioned_iff; vm_compute; reflexivity|vm_compute; reflexivity]. Qed.
(** a row with all it needs, decided *)
Definition full_b (s : st) (t : nat) : bool :=
  match arg_props (s_heap s) (tget t s) with Ok r => match dget "name" r, dget "url" r with Some _, Some _ => true | _, _ => false end | Err _ => false end.
Lemma full_iff : forall s t, sectioned s -> full_b s t = true -> full_row s t.
Proof.
  intros s t SE H. unfold full_b in H. destruct (arg_props (s_heap s) (tget t s)) as [r|e] eqn:A; [|discriminate H]. destruct (dget "name" r) as [n|] eqn:N; [|discriminate H]. destruct (dget "url" r) as [u|] eqn:U; [|discriminate H].
  split; [unfold arg_props in A; destruct (t_section (tget t s)); [discriminate|discriminate A]|]. split; [exists n|exists u]; apply (row_prop_run s t r SE A); assumption.
Qed.
(** the conditions of [C47_total] hold here *)
Example C47_ex_total : exists front tables, front_of p1 front /\ dget "name" front <> None /\ dget "schema" (secs p1) = Some 14 /\ dget "resources" (secs p1) = Some 3
  /\ Forall2 (table_of p1) (t_terms (tget 14 p1)) tables /\ Forall (fun vc => column_list (snd vc)) tables /\ Forall (full_row p1) (datafiles p1 3).
Proof.
  exists [("title", JVal (VStr "People")); ("name", JVal (VStr "example"))].
  exists [(VStr "persons", JList [JDict [("datatype", JVal (VStr "int")); ("description", JVal (VStr "a number")); ("name", JVal (VStr "id"))]; JDict [("datatype", JVal (VStr "str")); ("name", JVal (VStr "name"))]]);
          (VStr "pets", JList [JDict [("datatype", JVal (VStr "integer")); ("name", JVal (VStr "id"))]; JDict [("datatype", JVal (VStr "text")); ("name", JVal (VStr "kind"))]])].
  split; [exists 0; eexists; split; [reflexivity|]; split; [vm_compute; reflexivity|]; right; left; split; reflexivity|]. split; [discriminate|]. split; [reflexivity|]. split; [reflexivity|]. split.
  { change (t_terms (tget 14 p1)) with [16; 22]. apply Forall2_cons; [|apply Forall2_cons; [|apply Forall2_nil]]; (eexists; split; [vm_compute; reflexivity|split; reflexivity]). }
  split.
  { apply Forall_cons; [|apply Forall_cons; [|apply Forall_nil]]; (eexists; split; [reflexivity|]; apply Forall_cons; [|apply Forall_cons; [|apply Forall_nil]]; (eexists; split; [reflexivity|]; right; eexists; reflexivity)). }
  assert (SE : sectioned p1) by (apply sectioned_iff; vm_compute; reflexivity). change (datafiles p1 3) with [5; 7; 9]. repeat (apply Forall_cons; [apply full_iff; [exact SE|vm_compute; reflexivity]|]). apply Forall_nil.
Qed.

(** a table with one column: its columns are not a list, and the conversion
    fails with an AttributeError *)
Definition p2 : st := fst (parse_rows noenv 9
  [["Name"; "example"]; ["Section"; "Resources"]; ["Header"; "Url"; "Name"];
   ["Datafile"; "a.csv"; "persons"]; ["Section"; "Schema"]; ["Header"; "Name"; "DataType"]; ["Table"; "persons"]; ["Table.Column"; "id"; "int"]]).
Theorem C47_single_column_refuted : exists s t c, sectioned s /\ (exists sec, dget "resources" (secs s) = Some sec /\ datafiles s sec = [t]) /\ full_row s t
  /\ (exists sec tb, dget "schema" (secs s) = Some sec /\ t_terms (tget sec s) = [tb] /\ t_val (tget tb s) = VStr "persons" /\ t_children (tget tb s) = [c])
  /\ convert_to_datapackage s = Err EAttr.
Proof.
  assert (SE : sectioned p2) by (apply sectioned_iff; vm_compute; reflexivity).
  exists p2, 4, 9. split; [exact SE|]. split; [exists 2; split; vm_compute; reflexivity|]. split; [apply full_iff; [exact SE|vm_compute; reflexivity]|]. split; [exists 6, 8; repeat split; vm_compute; reflexivity|]. vm_compute. reflexivity.
Qed.
Print Assumptions C47_single_column_refuted.
(** an identifier is not taken for the name: the key is misspelt *)
Definition p3 : st := fst (parse_rows noenv 9 [["Identifier"; "9f3a"]; ["Title"; "People"]; ["Section"; "Resources"]; ["Section"; "Schema"]]).
Theorem C47_identifier_refuted : exists s front, front_of s front /\ dget "identifier" front = Some (JVal (VStr "9f3a")) /\ convert_to_datapackage s = Err EConversion.
Proof.
  exists p3, [("identifier", JVal (VStr "9f3a")); ("title", JVal (VStr "People"))]. split; [exists 0; eexists; split; [reflexivity|]; split; [vm_compute; reflexivity|]; right; left; split; reflexivity|]. split; vm_compute; reflexivity.
Qed.
Print Assumptions C47_identifier_refuted.

(** ** C50 *)

Theorem C50_clean : forall (Q : Quirks) s sec, in_order s -> dget "schema" (secs s) = Some sec -> underived s "Root.Table" -> usual_schema s sec ->
  exists s' added,
    clean_unused_schema_terms s = (s', Ok tt) /\ in_order s'
    (* the columns: those in use are kept, in order, and the missing ones added *)
    /\ (exists kept, t_args (tget sec s') = (kept ++ map title added)%list /\ picked (fun a => used_property s sec (lower a)) (t_args (tget sec s)) kept)
    /\ NoDup added /\ (forall k, In k added <-> used_property s sec k /\ ~ In k (map lower (t_args (tget sec s))))
    (* the properties: those with a text are kept, in order *)
    /\ (forall c, schema_column s sec c -> picked (fun x => has_text (t_val (tget x s))) (t_children (tget c s)) (t_children (tget c s')))
    (* nothing else changes *)
    /\ hlen s' = hlen s /\ s_doc s' = s_doc s /\ s_prs s' = s_prs s
    /\ (forall j, (j <> sec -> t_args (tget j s') = t_args (tget j s)) /\ (~ schema_column s sec j -> t_children (tget j s') = t_children (tget j s))
         /\ set_t_args [] (set_t_children [] (tget j s')) = set_t_args [] (set_t_children [] (tget j s))).
Proof. exact (@c50). Qed.
Print Assumptions C50_clean.

Definition q1 : st := fst (new_section "Schema" ["DataType"; "AltName"; "Description"] e0).
Definition q2 : st := fst (Ops.new_term 1 "Root.Table" (VStr "persons") [] q1).
Definition q3 : st := fst (new_child 2 "Column" (VStr "id") [("DataType", VStr "int"); ("Description", VStr " "); ("Width", VStr "4")] q2).
Lemma q3_order : in_order q3.
Proof.
  eapply order_edits; [|exact (order_init default_classes)]. eapply edits_more; [eapply edits_more; [eapply edits_more; [apply edits_none|]|]|].
  - eapply (ed_new_section e0 q1 "Schema" ["DataType"; "AltName"; "Description"]); [split; [reflexivity|discriminate]|intros H; vm_compute in H; intuition discriminate|reflexivity|]. apply surjective_pairing.
  - eapply (ed_new_term q1 q2 "schema" 1 "Root.Table"); [vm_compute; auto|intros []|top|apply surjective_pairing].
  - eapply (ed_new_child q2 q3 2 "Column"); [split; vm_compute; [repeat constructor|reflexivity]|apply surjective_pairing].
Qed.
Ltac colname := split; [apply tidy_iff; vm_compute; split; reflexivity|split; [vm_compute; discriminate|split; [vm_compute; intuition discriminate|vm_compute; discriminate]]].
Example C50_ex : in_order q3 /\ dget "schema" (secs q3) = Some 1 /\ underived q3 "Root.Table" /\ usual_schema q3 1
  /\ (let s' := fst (clean_unused_schema_terms q3) in t_args (tget 1 q3) = ["DataType"; "AltName"; "Description"] /\ t_args (tget 1 s') = ["DataType"; "Width"] /\ t_children (tget 3 q3) = [4; 5; 6] /\ t_children (tget 3 s') = [4; 6]).
Proof.
  split; [exact q3_order|]. split; [vm_compute; reflexivity|]. split; [vm_compute; reflexivity|]. split; [|vm_compute; repeat split].
  split; [intros t i n []|]. split.
  - change (t_args (tget 1 q3)) with ["DataType"; "AltName"; "Description"]. repeat (apply Forall_cons; [colname|]). apply Forall_nil.
  - intros c (t & I & _ & C & _). vm_compute in I. destruct I as [<-|[]]. vm_compute in C. destruct C as [<-|[]]. split; [vm_compute; reflexivity|].
    intros x X. vm_compute in X. destruct X as [<-|[<-|[<-|[]]]].
    + split; [right; exists "int"; vm_compute; reflexivity|]. split; [colname|]. split; [split; vm_compute; [repeat constructor|reflexivity]|]. split; vm_compute; discriminate.
    + split; [right; exists ""; vm_compute; reflexivity|]. split; [colname|]. split; [split; vm_compute; [repeat constructor|reflexivity]|]. split; vm_compute; discriminate.
    + split; [right; exists "4"; vm_compute; reflexivity|]. split; [colname|]. split; [split; vm_compute; [repeat constructor|reflexivity]|]. split; vm_compute; discriminate.
Qed.

(** a property given twice counts as unused if the last one is blank, although
    the other one is kept *)
Definition q4 : st := fst (new_child 3 "Width" (VStr " ") [] q3).
Theorem C50_duplicate_refuted : exists s s' c x, clean_unused_schema_terms s = (s', Ok tt) /\ in_order s /\ schema_column s 1 c
  /\ In x (t_children (tget c s')) /\ t_rt (tget x s') = "width" /\ t_val (tget x s') = VStr "4" /\ ~ In "width" (map lower (t_args (tget 1 s'))).
Proof.
  exists q4, (fst (clean_unused_schema_terms q4)), 3, 6. split; [vm_compute; reflexivity|]. split.
  { eapply order_edits; [|exact q3_order]. eapply edits_more; [apply edits_none|]. eapply (ed_new_child q3 q4 3 "Width"); [split; vm_compute; [repeat constructor|reflexivity]|apply surjective_pairing]. }
  split; [exists 2; vm_compute; auto 6|]. split; [vm_compute; auto|]. split; [vm_compute; reflexivity|]. split; [vm_compute; reflexivity|]. vm_compute. intuition discriminate.
Qed.
Print Assumptions C50_duplicate_refuted.
(** what hangs below a blank property goes with it *)
Definition q5 : st := fst (new_child 5 "Author" (VStr "Ann") [] q3).
Theorem C50_below_refuted : exists s s' c x, clean_unused_schema_terms s = (s', Ok tt) /\ in_order s /\ schema_column s 1 c
  /\ under s c x /\ t_val (tget x s) = VStr "Ann" /\ ~ under s' c x.
Proof.
  exists q5, (fst (clean_unused_schema_terms q5)), 3, 7. split; [vm_compute; reflexivity|]. split.
  { eapply order_edits; [|exact q3_order]. eapply edits_more; [apply edits_none|]. eapply (ed_new_child q3 q5 5 "Author"); [split; vm_compute; [repeat constructor|reflexivity]|apply surjective_pairing]. }
  split; [exists 2; vm_compute; auto 6|]. split; [apply (under_deep _ _ 5); [apply under_child; vm_compute; auto|vm_compute; auto]|]. split; [vm_compute; reflexivity|].
  assert (X : forall x, under (fst (clean_unused_schema_terms q5)) 3 x -> x = 4 \/ x = 6).
  { intros x U. induction U as [c I|c d U IH I]; [vm_compute in I; intuition congruence|]. destruct IH as [->| ->]; vm_compute in I; destruct I. }
  intros U. apply X in U. destruct U; discriminate.
Qed.
Print Assumptions C50_below_refuted.
