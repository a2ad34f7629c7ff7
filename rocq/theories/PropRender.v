(** * PropRender: what a document looks like from outside (C33, C34, C36, C51) *)

From Verif Require Import PyStr PyBase State Ops Parser Names SpecNames SpecInv SpecFind SpecEdit Render SpecDict SpecRows NameFacts EditFacts SecFacts StepFacts DocProps DictFacts RowsFacts PropDoc.

(** ** The documents used in the examples *)

Definition f1 : st := fst (new_section "Contacts" ["Email"; "Rank"] e0).
Definition f2 : st := fst (Ops.new_term 1 "Wrangler" (VStr "Ann") [("Email", VStr "a@x")] f1).
Definition f3 : st := fst (new_child 2 "Email" (VStr "b@x") [] f2).
Definition f4 : st := fst (new_child 2 "Rank" (VInt 7) [] f3).
Definition f5 : st := fst (new_child 2 "Rank" (VInt 8) [("Since", VStr "2001")] f4).
Definition f6 : st := fst (new_child 2 "Note" (VStr "x") [] f5).
Definition f7 : st := fst (new_child 2 "Note" (VStr "y") [] f6).
Definition f8 : st := fst (new_child 2 "Tag" (VStr "t") [] f7).
Definition f9 : st := fst (Ops.new_term 1 "Wrangler" (VStr "Bob") [] f8).

Lemma f5_edits : edits e0 f5.
Proof.
  eapply edits_more; [eapply edits_more; [eapply edits_more; [eapply edits_more; [eapply edits_more; [apply edits_none|]|]|]|]|].
  - eapply (ed_new_section e0 f1 "Contacts" ["Email"; "Rank"]); [split; [reflexivity|discriminate]|intros H; vm_compute in H; intuition discriminate|reflexivity|]. apply surjective_pairing.
  - eapply (ed_new_term f1 f2 "contacts" 1 "Wrangler"); [vm_compute; auto|intros []|top|apply surjective_pairing].
  - eapply (ed_new_child f2 f3 2 "Email"); [vm_compute; split; [repeat constructor|reflexivity]|apply surjective_pairing].
  - eapply (ed_new_child f3 f4 2 "Rank"); [vm_compute; split; [repeat constructor|reflexivity]|apply surjective_pairing].
  - eapply (ed_new_child f4 f5 2 "Rank"); [vm_compute; split; [repeat constructor|reflexivity]|apply surjective_pairing].
Qed.
Lemma f9_edits : edits e0 f9.
Proof.
  eapply edits_more; [eapply edits_more; [eapply edits_more; [eapply edits_more; [exact f5_edits|]|]|]|].
  - eapply (ed_new_child f5 f6 2 "Note"); [vm_compute; split; [repeat constructor|reflexivity]|apply surjective_pairing].
  - eapply (ed_new_child f6 f7 2 "Note"); [vm_compute; split; [repeat constructor|reflexivity]|apply surjective_pairing].
  - eapply (ed_new_child f7 f8 2 "Tag"); [vm_compute; split; [repeat constructor|reflexivity]|apply surjective_pairing].
  - eapply (ed_new_term f8 f9 "contacts" 1 "Wrangler"); [vm_compute; auto|intros []|top|apply surjective_pairing].
Qed.
Lemma f9_order : in_order f9.
Proof. exact (order_edits e0 f9 f9_edits (order_init default_classes)). Qed.

(** the same document with property types *)
Definition typed : st :=
  fst (modT 10 (set_t_cpt "sequence") (fst (modT 9 (set_t_cpt "sconcat") (fst (modT 8 (set_t_cpt "sconcat") (fst (modT 6 (set_t_cpt "scalar") (fst (modT 5 (set_t_cpt "scalar") f9))))))))).
Lemma typed_ok : doc_ok typed.
Proof. unfold typed. do 5 apply ok_cpt. exact (io_ok _ f9_order). Qed.

Lemma typed_lower : lower_names typed.
Proof. apply lower_check. vm_compute. reflexivity. Qed.
Lemma typed_uniform : uniform typed.
Proof. apply uniform_check. vm_compute. reflexivity. Qed.
Lemma typed_list : uniform_list typed (section_terms typed).
Proof. apply uniform_list_check. vm_compute. reflexivity. Qed.

(** ** C33 *)

Theorem C33_term : forall (Q : Quirks) s rvn i j, doc_ok s -> lower_names s -> uniform s ->
  as_dict (heap_fuel (s_heap s)) (s_heap s) rvn i = Ok j -> dict_rep s rvn i j.
Proof. intros Q s rvn i j K L U. apply (as_dict_rep s U L (kid_bounds s K)). Qed.
Print Assumptions C33_term.

Theorem C33_term_total : forall (Q : Quirks) s rvn i, doc_ok s -> lower_names s -> i < hlen s -> no_concat s i ->
  exists j, as_dict (heap_fuel (s_heap s)) (s_heap s) rvn i = Ok j.
Proof. intros Q s rvn i K L B. apply (as_dict_total s L (kid_bounds s K)); [exact B|]. unfold heap_fuel, hlen. lia. Qed.
Print Assumptions C33_term_total.

Theorem C33_doc : forall (Q : Quirks) s rvn j, doc_ok s -> lower_names s -> uniform s -> uniform_list s (section_terms s) ->
  doc_as_dict s rvn = Ok j -> doc_rep s rvn j.
Proof. intros Q s rvn j K L U UL. exact (doc_as_dict_rep s U L K UL rvn j). Qed.
Print Assumptions C33_doc.

Theorem C33_doc_total : forall (Q : Quirks) s rvn, doc_ok s -> lower_names s ->
  (forall t, In t (section_terms s) -> no_concat s t /\ t_cpt (tget t s) <> "sconcat" /\ t_cpt (tget t s) <> "bconcat") ->
  exists j, doc_as_dict s rvn = Ok j.
Proof. intros Q s rvn K L. exact (doc_as_dict_total s L K rvn). Qed.
Print Assumptions C33_doc_total.

Example C33_ex : doc_ok typed /\ lower_names typed /\ uniform typed /\ uniform_list typed (section_terms typed)
  /\ doc_as_dict typed false = Ok (JDict
      [("wrangler", JList
         [JDict [("email", JList [JVal (VStr "a@x"); JVal (VStr "b@x")]);
                 ("rank", JDict [("since", JVal (VStr "2001")); ("@value", JVal (VStr "8"))]);
                 ("note", JVal (VStr "x y")); ("tag", JList [JVal (VStr "t")]); ("@value", JVal (VStr "Ann"))];
          JVal (VStr "Bob")]);
       ("@value", JVal (VStr "Root"))]).
Proof. split; [exact typed_ok|]. split; [exact typed_lower|]. split; [exact typed_uniform|]. split; [exact typed_list|]. vm_compute. reflexivity. Qed.

(** joining texts fails on a child that is not a text *)
Definition joined : st := fst (modT 6 (set_t_cpt "sconcat") (fst (modT 5 (set_t_cpt "sconcat") f9))).
Theorem C33_joining_refuted : exists s, doc_ok s /\ lower_names s /\ uniform s /\ doc_as_dict s false = Err EType.
Proof.
  exists joined. split; [do 2 apply ok_cpt; exact (io_ok _ f9_order)|]. split; [apply lower_check; vm_compute; reflexivity|]. split; [apply uniform_check; vm_compute; reflexivity|]. vm_compute. reflexivity.
Qed.
Print Assumptions C33_joining_refuted.

(** ** C34 *)

(** [keeps_all]: no child of type scalar, sconcat or bconcat, and none called
    like the value of its parent *)
Theorem C34_term_partial : forall (Q : Quirks) s rvn i j, doc_ok s -> lower_names s -> uniform s ->
  as_dict (heap_fuel (s_heap s)) (s_heap s) rvn i = Ok j -> keeps_all s rvn i -> forall x, x = i \/ under s i x ->
  exists y, dict_rep s rvn x y /\ inside j y /\ (truthy (t_val (tget x s)) = true -> inside j (JVal (t_val (tget x s)))).
Proof. intros Q s rvn i j K L U H KA. exact (c34_all s rvn i j KA (C33_term Q s rvn i j K L U H)). Qed.
Print Assumptions C34_term_partial.

Theorem C34_doc_partial : forall (Q : Quirks) s rvn j, doc_ok s -> lower_names s -> uniform s -> uniform_list s (section_terms s) ->
  doc_as_dict s rvn = Ok j ->
  (forall t, In t (section_terms s) -> keeps_all s rvn t /\ t_cpt (tget t s) <> "scalar" /\ t_cpt (tget t s) <> "sconcat" /\ t_cpt (tget t s) <> "bconcat" /\ lower (t_rt (tget t s)) <> "@value") ->
  forall t x, In t (section_terms s) -> x = t \/ under s t x ->
  exists y, dict_rep s rvn x y /\ inside j y /\ (truthy (t_val (tget x s)) = true -> inside j (JVal (t_val (tget x s)))).
Proof. intros Q s rvn j K L U UL H. exact (doc_dict_all s rvn j (doc_as_dict_rep s U L K UL rvn j H)). Qed.
Print Assumptions C34_doc_partial.

Lemma f9_keeps : forall t, In t (section_terms f9) -> keeps_all f9 false t /\ t_cpt (tget t f9) <> "scalar" /\ t_cpt (tget t f9) <> "sconcat" /\ t_cpt (tget t f9) <> "bconcat" /\ lower (t_rt (tget t f9)) <> "@value".
Proof.
  assert (A : forall c, t_cpt (tget c f9) <> "scalar" /\ t_cpt (tget c f9) <> "sconcat" /\ t_cpt (tget c f9) <> "bconcat" /\ lower (t_rt (tget c f9)) <> "@value").
  { intros c. do 12 (destruct c as [|c]; [vm_compute; repeat split; discriminate|]). destruct c; vm_compute; repeat split; discriminate. }
  intros t _. split; [|exact (A t)]. intros x _ c _. destruct (A c) as (A1 & A2 & A3 & A4). repeat split; auto.
Qed.
Example C34_ex : in_order f9 /\ (forall t, In t (section_terms f9) -> keeps_all f9 false t)
  /\ exists j, doc_as_dict f9 false = Ok j /\ inside j (JVal (VStr "2001")).
Proof.
  split; [exact f9_order|]. split; [intros t T; exact (proj1 (f9_keeps t T))|]. eexists. split; [vm_compute; reflexivity|].
  eapply in_dict; [left; reflexivity|]. eapply in_list; [left; reflexivity|]. eapply in_dict; [right; left; reflexivity|]. eapply in_list; [right; left; reflexivity|].
  eapply in_dict; [left; reflexivity|]. constructor.
Qed.

(** of several scalars only the last is kept *)
Theorem C34_refuted : exists s j c, doc_ok s /\ lower_names s /\ uniform s /\ doc_as_dict s false = Ok j
  /\ In c (t_children (tget 2 s)) /\ t_val (tget c s) = VStr "7" /\ ~ inside j (JVal (VStr "7")).
Proof.
  exists typed. eexists. exists 5. split; [exact typed_ok|]. split; [exact typed_lower|]. split; [exact typed_uniform|]. split; [vm_compute; reflexivity|]. split; [vm_compute; auto|]. split; [vm_compute; reflexivity|].
  intros H. repeat match goal with
    | H : inside (JDict _) _ |- _ => inversion H; subst; clear H
    | H : inside (JList _) _ |- _ => inversion H; subst; clear H
    | H : inside (JVal _) _ |- _ => inversion H; subst; clear H
    | H : In _ (_ :: _) |- _ => destruct H as [H|H]; [try (injection H as <- <-); try subst|]
    | H : In _ [] |- _ => destruct H
    end.
Qed.
Print Assumptions C34_refuted.

(** a child called like the value of its parent is overwritten *)
Definition clash : st := fst (new_child 2 "Name" (VStr "child") [] (fst (modT 2 (set_t_tvn "Name") f2))).
Theorem C34_value_refuted : exists s, in_order s /\ (exists c, In c (t_children (tget 2 s)) /\ t_val (tget c s) = VStr "child")
  /\ as_dict (heap_fuel (s_heap s)) (s_heap s) true 2 = Ok (JDict [("email", JVal (VStr "a@x")); ("name", JVal (VStr "Ann"))]).
Proof.
  exists clash. split; [|split; [exists 4; vm_compute; auto|vm_compute; reflexivity]].
  eapply order_edits; [eapply edits_more; [apply edits_none|]|].
  - eapply (ed_new_child _ clash 2 "Name"); [|apply surjective_pairing]. vm_compute. split; [repeat constructor|reflexivity].
  - apply order_tvn. refine (order_edits e0 f2 _ (order_init default_classes)). eapply edits_more; [eapply edits_more; [apply edits_none|]|].
    + eapply (ed_new_section e0 f1 "Contacts" ["Email"; "Rank"]); [split; [reflexivity|discriminate]|intros H; vm_compute in H; intuition discriminate|reflexivity|]. apply surjective_pairing.
    + eapply (ed_new_term f1 f2 "contacts" 1 "Wrangler"); [vm_compute; auto|intros []|top|apply surjective_pairing].
Qed.
Print Assumptions C34_value_refuted.

(** ** C36 *)

(** [apart]: leaves under one term have different names, none the name of the
    value.  Every term has a row, or is a leaf with a row of its own or a cell in
    the row of its parent. *)
Theorem C36_complete_partial : forall (Q : Quirks) s rows, in_order s -> doc_rows s = Ok rows -> forall k i t x, In (k, i) (secs s) -> In t (t_terms (tget i s)) ->
  (forall y, y = t \/ under s t y -> apart s y) -> x = t \/ under s t x ->
  (exists row, In row rows /\ row_for s (columns_of (tget i s)) x row)
  \/ leaf s x /\ (own_row s rows x \/ in_column s (columns_of (tget i s)) rows x).
Proof. exact (@c36_complete). Qed.
Print Assumptions C36_complete_partial.

Theorem C36_sections : forall s rows, doc_rows s = Ok rows -> forall k i, In (k, i) (secs s) -> t_val (tget i s) <> VStr "Root" ->
  In (VStr "Section" :: t_val (tget i s) :: map VStr (columns_of (tget i s))) rows.
Proof. exact c36_sections. Qed.
Print Assumptions C36_sections.

Theorem C36_sound_partial : forall (Q : Quirks) s rows, in_order s -> doc_rows s = Ok rows -> (forall y, apart s y) -> forall row, In row rows -> row_accounted s row.
Proof. exact (@c36_sound). Qed.
Print Assumptions C36_sound_partial.

Theorem C36_total : forall (Q : Quirks) s, doc_ok s -> value_names s -> (forall x, is_plain s x -> housed s x) -> exists rows, doc_rows s = Ok rows.
Proof. exact (@c36_total). Qed.
Print Assumptions C36_total.

Lemma e5_plain_housed : forall x, is_plain e5 x -> housed e5 x.
Proof. apply housed_check. vm_compute. reflexivity. Qed.
Example C36_ex : in_order e5 /\ (forall y, apart e5 y) /\ value_names e5 /\ (forall x, is_plain e5 x -> housed e5 x)
  /\ doc_rows e5 = Ok [[VStr ""]; [VStr "Section"; VStr "Contacts"; VStr "Email"; VStr "Phone"];
                       [VStr "Wrangler"; VStr "Ann"; VStr "a@x"; VStr ""]; [VStr "Wrangler.Rank"; VStr "7"];
                       [VStr "Wrangler"; VStr "Bob"; VStr ""; VStr ""];
                       [VStr ""]; [VStr "Section"; VStr "Notes"]; [VStr "Note"; VStr "one"]].
Proof.
  split; [exact example_order|]. split; [apply apart_check; vm_compute; reflexivity|]. split; [intros k td H; vm_compute in H; destruct H|]. split; [exact e5_plain_housed|]. vm_compute. reflexivity.
Qed.

(** leaves of the same name: all but the last are lost *)
Theorem C36_refuted : exists s rows c, in_order s /\ doc_rows s = Ok rows /\ In c (t_children (tget 2 s)) /\ t_val (tget c s) = VStr "a@x"
  /\ forall row, In row rows -> ~ In (VStr "a@x") row.
Proof.
  exists f9. eexists. exists 3. split; [exact f9_order|]. split; [vm_compute; reflexivity|]. split; [vm_compute; auto|]. split; [vm_compute; reflexivity|].
  intros row R I. repeat (destruct R as [<-|R]; [repeat (destruct I as [I|I]; [discriminate I|]); exact I|]). destruct R.
Qed.
Print Assumptions C36_refuted.

(** ** C51 *)

Theorem C51_all_terms : forall s, doc_ok s -> exists l, all_terms s = Ok l /\ doc_walk s l /\ NoDup l
  /\ (forall x, In x l <-> (exists k, In (k, x) (secs s) /\ t_val (tget x s) <> VStr "Root") \/ exists t, In t (listed s) /\ (x = t \/ under s t x))
  /\ (forall x c, In x l -> is_plain s x -> In c (t_children (tget x s)) -> before l x c)
  /\ (forall k i t, In (k, i) (secs s) -> t_val (tget i s) <> VStr "Root" -> In t (t_terms (tget i s)) -> before l i t).
Proof. exact c51. Qed.
Print Assumptions C51_all_terms.

(** in a document with declarations, the terms whose section is not in the
    section table are not among them *)
Theorem C51_all_terms_declared : forall (Q : Quirks) s, doc_ok s -> exists l, all_terms s = Ok l /\ doc_walk s l /\ NoDup l
  /\ (forall x, In x l <-> (exists k, In (k, x) (secs s) /\ t_val (tget x s) <> VStr "Root")
        \/ exists t k i, In t (listed s) /\ In (k, i) (secs s) /\ t_section (tget t s) = Some i /\ (x = t \/ under s t x))
  /\ (forall x c, In x l -> is_plain s x -> In c (t_children (tget x s)) -> before l x c)
  /\ (forall k i t, In (k, i) (secs s) -> t_val (tget i s) <> VStr "Root" -> In t (t_terms (tget i s)) -> before l i t).
Proof. exact (@c51_any). Qed.
Print Assumptions C51_all_terms_declared.

Example C51_ex : doc_ok f9 /\ all_terms f9 = Ok [1; 2; 3; 4; 5; 6; 7; 8; 9; 10; 11].
Proof. split; [exact (io_ok _ f9_order)|]. vm_compute. reflexivity. Qed.
