(** * PropDoc: operations on a document (C20 - C28, C53, C54)

    [in_order s]: the document [s] is in good order (SpecEdit.v, SpecInv.v).  An
    empty document is, and all operations of [edit] keep it so ([C22_order]).

    Most statements hold for every [Q : Quirks] (SpecInv.v), the oddities that a
    Declare row leaves in a document: terms whose section is not in the section
    table, and sections with a column called "section".  Where [Q] is not
    mentioned, there are none ([plain_doc]). *)

From Verif Require Import PyStr PyBase State Ops Parser Names SpecNames SpecInv SpecFind SpecEdit NameFacts EditFacts SecFacts StepFacts DocProps.

(** ** The document used in the examples *)

Definition e0 : st := init_st default_classes.
Definition e1 : st := fst (new_section "Contacts" ["Email"; "Phone"] e0).
Definition e2 : st := fst (Ops.new_term 1 "Wrangler" (VStr " Ann ") [("Email", VStr "a@x"); ("Rank", VInt 7)] e1).
Definition e3 : st := fst (new_section "Notes" [] e2).
Definition e4 : st := fst (Ops.new_term 5 "Note" (VStr "one") [] e3).
Definition e5 : st := fst (Ops.new_term 1 "Wrangler" (VStr "Bob") [] e4).

Lemma top_by : forall term n, split_term_lower term = Ok ("root", n) -> top_name term.
Proof. intros term n H. exists n. apply split_term_lower_spec. exact H. Qed.
Ltac top := eapply top_by; vm_compute; reflexivity.
Ltac plainp := apply tidy_plain; [apply dot_free_iff; vm_compute; reflexivity|apply tidy_iff; vm_compute; split; reflexivity].

Lemma example_edits : edits e0 e5.
Proof.
  eapply edits_more; [eapply edits_more; [eapply edits_more; [eapply edits_more; [eapply edits_more; [apply edits_none|]|]|]|]|].
  - eapply (ed_new_section e0 e1 "Contacts" ["Email"; "Phone"]); [split; [reflexivity|discriminate]|intros H; vm_compute in H; intuition discriminate|reflexivity|]. apply surjective_pairing.
  - eapply (ed_new_term e1 e2 "contacts" 1 "Wrangler"); [vm_compute; auto|intros []|top|apply surjective_pairing].
  - eapply (ed_new_section e2 e3 "Notes" []); [split; [reflexivity|discriminate]|intros H; vm_compute in H; intuition discriminate|vm_compute; reflexivity|]. apply surjective_pairing.
  - eapply (ed_new_term e3 e4 "notes" 5 "Note"); [vm_compute; auto|intros []|top|apply surjective_pairing].
  - eapply (ed_new_term e4 e5 "contacts" 1 "Wrangler"); [vm_compute; auto|intros []|top|apply surjective_pairing].
Qed.
Lemma example_order : in_order e5.
Proof. exact (order_edits e0 e5 example_edits (order_init default_classes)). Qed.

(** ** C22 *)

(** good order from an empty document on, and so agreement of the lists.  The
    missing part: new_section over an existing section, del and
    get_or_new_section of an existing section in capitals, and names with outer
    white space or a parent other than root ([edit]). *)
Theorem C22_agree_partial : forall reg s, edits (init_st reg) s -> lists_agree s.
Proof. intros reg s H. exact (ok_agree s (io_ok s (order_edits _ _ H (order_init reg)))). Qed.
Print Assumptions C22_agree_partial.

Theorem C22_order : forall (Q : Quirks) s s', edits s s' -> in_order s -> in_order s'.
Proof. exact (@order_edits). Qed.
Print Assumptions C22_order.

Theorem C22_start : forall reg, in_order (init_st reg).
Proof. exact order_init. Qed.
Print Assumptions C22_start.

Example C22_ex : edits e0 e5 /\ listed e5 = [2; 6; 7] /\ secs e5 = [("root", 0); ("contacts", 1); ("notes", 5)]
  /\ t_terms (tget 1 e5) = [2; 7] /\ t_terms (tget 5 e5) = [6].
Proof. split; [exact example_edits|]. vm_compute. repeat split. Qed.

(** a second new_section of the same name leaves terms that lie in no section *)
Theorem C22_refuted : exists s s' i, in_order s /\ new_section "Contacts" [] s = (s', Ok i) /\ ~ lists_agree s'
  /\ exists t, In t (listed s') /\ forall k j, In (k, j) (secs s') -> ~ In t (t_terms (tget j s')).
Proof.
  exists e5, (fst (new_section "Contacts" [] e5)), 8. split; [exact example_order|]. split; [vm_compute; reflexivity|].
  assert (X : exists t, In t (listed (fst (new_section "Contacts" [] e5))) /\ forall k j, In (k, j) (secs (fst (new_section "Contacts" [] e5))) -> ~ In t (t_terms (tget j (fst (new_section "Contacts" [] e5))))).
  { exists 2. split; [vm_compute; auto|]. intros k j H. vm_compute in H. destruct H as [H|[H|[H|[]]]]; injection H as <- <-; vm_compute; intuition discriminate. }
  split; [|exact X]. intros (_ & _ & _ & A). destruct X as (t & L & N). destruct (A t L (fun x => x)) as (k & i & I & T & _). exact (N k i I T).
Qed.
Print Assumptions C22_refuted.

(** ** C20 *)

Theorem C20_accepted : forall (Q : Quirks) s k sec term value n, doc_ok s -> In (k, sec) (secs s) -> ~ odd k -> cell_names term "root" n ->
  is_section_cls (doc_term_class (lower term) s) = false -> exists s', Ops.new_term sec term value [] s = (s', Ok (hlen s)).
Proof. exact (@OpFacts.new_term_run). Qed.
Print Assumptions C20_accepted.

Theorem C20_effect : forall (Q : Quirks) s k sec term value kw s' t, in_order s -> In (k, sec) (secs s) -> ~ odd k -> top_name term ->
  Ops.new_term sec term value kw s = (s', Ok t) ->
  t = hlen s
  /\ s_doc s' = set_d_terms (listed s ++ [t]) (s_doc s)
  /\ tget sec s' = set_t_terms (t_terms (tget sec s) ++ [t]) (tget sec s)
  /\ (forall j, j < hlen s -> j <> sec -> tget j s' = tget j s)
  /\ (t_pt (tget t s') = "root" /\ cell_names term "root" (t_rt (tget t s')) /\ stored value (t_val (tget t s')) /\ t_section (tget t s') = Some sec)
  /\ Forall2 (fun kv c => hlen s < c /\ t_parent (tget c s') = Some t /\ (exists p, cell_names (fst kv) p (t_rt (tget c s')))
       /\ (exists x, as_text (snd kv) x /\ stored x (t_val (tget c s'))) /\ t_children (tget c s') = []) kw (t_children (tget t s'))
  /\ hlen s' = S (hlen s + List.length kw).
Proof. exact (@c20_effect). Qed.
Print Assumptions C20_effect.

(** find with any value and section that fit returns it last *)
Theorem C20_found : forall (Q : Quirks) s k sec term value kw s' t v sa, in_order s -> In (k, sec) (secs s) -> ~ odd k -> top_name term -> tidy_pattern term ->
  ~ cell_names term "root" "root" -> (forall ds, dget (lower term) (d_derived (s_doc s)) = Some ds -> Forall tidy_pattern ds) ->
  Ops.new_term sec term value kw s = (s', Ok t) -> value_is v (t_val (tget t s')) -> section_is s' sa t ->
  exists r, doc_find s' term v sa = Ok (r ++ [t]).
Proof. exact (@c20_found). Qed.
Print Assumptions C20_found.

(** and other searches at most gain it at the end *)
Theorem C20_others : forall (Q : Quirks) s k sec term value kw s' t p v sa r, in_order s -> In (k, sec) (secs s) -> ~ odd k -> top_name term -> top_name p -> tidy_pattern p ->
  dget (lower p) (d_derived (s_doc s)) = None ->
  Ops.new_term sec term value kw s = (s', Ok t) -> doc_find s p v sa = Ok r -> doc_find s' p v sa = Ok r \/ doc_find s' p v sa = Ok (r ++ [t]).
Proof. exact (@c20_others). Qed.
Print Assumptions C20_others.

Example C20_ex : in_order e5 /\ exists s', Ops.new_term 1 "Wrangler" (VStr " Cid ") [("Email", VInt 3)] e5 = (s', Ok 8)
  /\ t_val (tget 8 s') = VStr "Cid" /\ t_children (tget 8 s') = [9] /\ t_val (tget 9 s') = VStr "3"
  /\ doc_find s' "Wrangler" VFalse SAny = Ok [2; 7; 8] /\ doc_find s' "wrangler" VFalse (SOne "contacts") = Ok [2; 7; 8]
  /\ doc_find s' "Root.Wrangler" (VStr "Cid") SAny = Ok [8] /\ doc_find s' "Note" VFalse SAny = Ok [6].
Proof.
  split; [exact example_order|]. exists (fst (Ops.new_term 1 "Wrangler" (VStr " Cid ") [("Email", VInt 3)] e5)). vm_compute. repeat split.
Qed.

(** with a parent other than root in the name the term enters the document list
    but not the section *)
Theorem C20_other_parent_refuted : exists s s' t, in_order s /\ Ops.new_term 1 "Table.Column" (VStr "x") [] s = (s', Ok t)
  /\ In t (listed s') /\ ~ In t (t_terms (tget 1 s')).
Proof.
  exists e5, (fst (Ops.new_term 1 "Table.Column" (VStr "x") [] e5)), 8. split; [exact example_order|]. split; [vm_compute; reflexivity|]. split; [vm_compute; auto|]. vm_compute. intuition discriminate.
Qed.
Print Assumptions C20_other_parent_refuted.

(** ** C21 *)

Theorem C21_removed : forall (Q : Quirks) s t, doc_ok s -> removable s t -> (forall p, t_parent (tget t s) = Some p -> t_doc (tget p s) = true) ->
  exists s', doc_remove_term t s = (s', Ok tt)
    /\ s_doc s' = set_d_terms (without t (listed s)) (s_doc s) /\ hlen s' = hlen s
    /\ (forall k i, In (k, i) (secs s) -> t_terms (tget i s') = without t (t_terms (tget i s)))
    /\ (forall j, t_children (tget j s') = without t (t_children (tget j s)))
    /\ (forall j, (forall k, ~ In (k, j) (secs s)) -> tget j s' = set_t_children (without t (t_children (tget j s))) (tget j s))
    /\ (forall k i, In (k, i) (secs s) -> tget i s' = set_t_terms (without t (t_terms (tget i s))) (set_t_children (without t (t_children (tget i s))) (tget i s)))
    /\ (forall p v sa r x, doc_find s' p v sa = Ok r -> x = t \/ under s t x -> ~ In x r)
    /\ (forall x, present s x -> x <> t -> ~ under s t x -> present s' x).
Proof. exact (@c21_removed). Qed.
Print Assumptions C21_removed.

Example C21_ex : in_order e5 /\ removable e5 2 /\ removable e5 3
  /\ (exists s', doc_remove_term 2 e5 = (s', Ok tt) /\ listed s' = [6; 7] /\ t_terms (tget 1 s') = [7] /\ doc_find s' "Wrangler" VFalse SAny = Ok [7]
       /\ doc_find s' "Wrangler.Email" VFalse SAny = Ok [])
  /\ (exists s', doc_remove_term 3 e5 = (s', Ok tt) /\ t_children (tget 2 s') = [4] /\ listed s' = [2; 6; 7]).
Proof.
  split; [exact example_order|]. split; [split; [split; vm_compute; [repeat constructor|reflexivity]|]|].
  { split; [vm_compute; discriminate|]. intros _. exists "contacts", 1. split; [vm_compute; auto|]. split; [intros []|reflexivity]. }
  split; [split; [split; vm_compute; [repeat constructor|reflexivity]|]|].
  { split; [vm_compute; discriminate|]. vm_compute. discriminate. }
  split; [exists (fst (doc_remove_term 2 e5))|exists (fst (doc_remove_term 3 e5))]; vm_compute; repeat split.
Qed.

(** a term whose value is called "section" loses that value: the assignment
    to t.section in remove_term (doc.py:233) sets the value (terms.py:357-379) *)
Definition e6 : st := fst (modT 7 (set_t_tvn "Section") e5).
Theorem C21_value_refuted : exists s s' t, doc_remove_term t s = (s', Ok tt) /\ t_val (tget t s) = VStr "Bob" /\ t_val (tget t s') = VRef 1.
Proof. exists e6, (fst (doc_remove_term 7 e6)), 7. vm_compute. repeat split. Qed.
Print Assumptions C21_value_refuted.

(** ** C23 *)

(** missing: an existing section, its name given with capitals *)
Theorem C23_existing_partial : forall s n params i, dget n (secs s) = Some i -> lower n = n -> get_or_new_section n params s = (s, Ok i).
Proof. exact OpFacts.get_or_new_section_old. Qed.
Print Assumptions C23_existing_partial.

Theorem C23_new : forall (Q : Quirks) s n params, doc_ok s -> dget (lower n) (secs s) = None ->
  exists s', get_or_new_section n params s = (s', Ok (hlen s)) /\ secs s' = (secs s ++ [(lower n, hlen s)])%list /\ listed s' = listed s
    /\ t_terms (tget (hlen s) s') = [] /\ stored (VStr n) (t_val (tget (hlen s) s')) /\ forall j, j < hlen s -> tget j s' = tget j s.
Proof. exact (@c23_new). Qed.
Print Assumptions C23_new.

(** an existing section asked for with any capital in the name is replaced by an
    empty one *)
Theorem C23_refuted : forall (Q : Quirks) s n params i, doc_ok s -> lower n <> n -> dget (lower n) (secs s) = Some i ->
  exists s', get_or_new_section n params s = (s', Ok (hlen s)) /\ secs s' = dset (lower n) (hlen s) (secs s)
    /\ listed s' = listed s /\ t_terms (tget (hlen s) s') = [] /\ forall j, j < hlen s -> tget j s' = tget j s.
Proof. exact (@get_or_new_section_clobbers). Qed.
Print Assumptions C23_refuted.

Example C23_ex : get_or_new_section "contacts" ["X"] e5 = (e5, Ok 1)
  /\ (exists s', get_or_new_section "New One" ["X"] e5 = (s', Ok 8) /\ secs s' = [("root", 0); ("contacts", 1); ("notes", 5); ("new one", 8)])
  /\ exists s', get_or_new_section "Contacts" [] e5 = (s', Ok 8) /\ secs s' = [("root", 0); ("contacts", 8); ("notes", 5)]
       /\ t_terms (tget 1 s') = [2; 7] /\ t_terms (tget 8 s') = [].
Proof.
  split; [vm_compute; reflexivity|]. split; [exists (fst (get_or_new_section "New One" ["X"] e5))|exists (fst (get_or_new_section "Contacts" [] e5))]; vm_compute; repeat split.
Qed.

(** ** C24 *)

(** missing: names with capitals *)
Theorem C24_deleted_partial : forall (Q : Quirks) s n, doc_ok s -> lower n = n -> exists s', del_section n s = (s', Ok tt)
  /\ (forall k i, In (k, i) (secs s') <-> In (k, i) (secs s) /\ k <> n)
  /\ (forall j, tget j s' = tget j s)
  /\ (forall i, In (n, i) (secs s) -> forall t x, In t (t_terms (tget i s)) -> x = t \/ under s t x ->
        ~ present s' x /\ forall p v sa r, doc_find s' p v sa = Ok r -> ~ In x r)
  /\ (forall t, In t (listed s') <-> In t (listed s) /\ forall i, In (n, i) (secs s) -> ~ In t (t_terms (tget i s))).
Proof. exact (@c24_deleted). Qed.
Print Assumptions C24_deleted_partial.

(** with any capital in the name all terms stay in the document list *)
Theorem C24_refuted : forall (Q : Quirks) s n, doc_ok s -> lower n <> n ->
  exists s', del_section n s = (s', Ok tt) /\ listed s' = listed s /\ secs s' = ddel (lower n) (secs s) /\ forall j, tget j s' = tget j s.
Proof. exact (@c24_kept). Qed.
Print Assumptions C24_refuted.

Example C24_ex : in_order e5
  /\ (exists s', del_section "contacts" e5 = (s', Ok tt) /\ listed s' = [6] /\ doc_find s' "Wrangler" VFalse SAny = Ok [])
  /\ (exists s', del_section "Contacts" e5 = (s', Ok tt) /\ dget "contacts" (secs s') = None /\ doc_find s' "Wrangler" VFalse SAny = Ok [2; 7]).
Proof.
  split; [exact example_order|]. split; [exists (fst (del_section "contacts" e5))|exists (fst (del_section "Contacts" e5))]; vm_compute; repeat split.
Qed.

(** ** C25 *)

(** the two cases in which it does: no term of the name yet, or the first one
    already has the value *)
Theorem C25_absent_partial : forall (Q : Quirks) s k sec item nm v, in_order s -> In (k, sec) (secs s) -> ~ odd k -> t_val (tget sec s) = VStr nm ->
  top_name item -> ~ cell_names item "root" "root" -> tidy_pattern item -> dget (lower item) (d_derived (s_doc s)) = None ->
  is_section_cls (doc_term_class (lower item) s) = false ->
  doc_find s item VFalse (SOne nm) = Ok [] ->
  exists s' t, section_setitem sec item v s = (s', Ok tt) /\ section_get_term s' sec item VFalse = Ok (Some t)
    /\ stored v (t_val (tget t s')) /\ Ops.new_term sec item v [] s = (s', Ok t).
Proof. exact (@c25_absent). Qed.
Print Assumptions C25_absent_partial.

Theorem C25_same_partial : forall (Q : Quirks) s sec item nm v t r, in_order s -> t_val (tget sec s) = VStr nm -> top_name item -> tidy_pattern item ->
  dget (lower item) (d_derived (s_doc s)) = None -> v <> VNone ->
  doc_find s item VFalse (SOne nm) = Ok (t :: r) -> t_val (tget t s) = v -> section_setitem sec item v s = (s, Ok tt).
Proof. exact (@c25_same). Qed.
Print Assumptions C25_same_partial.

(** whenever the first term has another value, it keeps it *)
Theorem C25_refuted : forall (Q : Quirks) s k sec item nm v t r, in_order s -> In (k, sec) (secs s) -> ~ odd k -> t_val (tget sec s) = VStr nm -> top_name item -> tidy_pattern item ->
  dget (lower item) (d_derived (s_doc s)) = None -> is_section_cls (doc_term_class (lower item) s) = false -> v <> VNone ->
  doc_find s item VFalse (SOne nm) = Ok (t :: r) -> ~ value_is v (t_val (tget t s)) ->
  exists s', section_setitem sec item v s = (s', Ok tt) /\ section_get_term s' sec item VFalse = Ok (Some t) /\ t_val (tget t s') = t_val (tget t s).
Proof. exact (@c25_kept). Qed.
Print Assumptions C25_refuted.

Example C25_ex : in_order e5
  /\ (exists s', section_setitem 5 "Title" (VStr "T") e5 = (s', Ok tt) /\ section_get_value s' 5 "Title" = Ok (VStr "T"))
  /\ (exists s', section_setitem 1 "Wrangler" (VStr "Cid") e5 = (s', Ok tt) /\ section_get_value s' 1 "Wrangler" = Ok (VStr "Ann")
       /\ t_terms (tget 1 s') = [2; 7; 8] /\ t_val (tget 8 s') = VStr "Cid").
Proof.
  split; [exact example_order|]. split; [exists (fst (section_setitem 5 "Title" (VStr "T") e5))|exists (fst (section_setitem 1 "Wrangler" (VStr "Cid") e5))]; vm_compute; repeat split.
Qed.

(** ** C26 *)

(** the name of the term's own value, or "value" *)
Theorem C26_own : forall s i item v, i < hlen s -> own_value s i item ->
  exists s', term_setitem i item v s = (s', Ok tt) /\ s_doc s' = s_doc s /\ hlen s' = hlen s
    /\ forall j, tget j s' = if j =? i then set_t_val v (tget i s) else tget j s.
Proof. exact c26_own. Qed.
Print Assumptions C26_own.

Theorem C26_existing : forall (Q : Quirks) s i n item c v, in_order s -> dot_free n -> tidy n -> child_item s i n item -> ~ own_value s i item ->
  first_child s i n c -> v <> VNone -> v <> VFalse ->
  exists s', term_setitem i item v s = (s', Ok tt) /\ s_doc s' = s_doc s /\ hlen s' = hlen s
    /\ (forall j, tget j s' = if j =? c then set_t_val v (tget c s) else tget j s)
    /\ first_child s' i n c /\ t_val (tget c s') = v.
Proof. exact (@c26_old). Qed.
Print Assumptions C26_existing.

Theorem C26_new : forall (Q : Quirks) s i n item x, in_order s -> is_plain s i -> t_doc (tget i s) = true -> dot_free n -> tidy n -> child_item s i n item -> ~ own_value s i item ->
  no_child s i n -> made_name (t_rt (tget i s)) -> allowed_child s i n ->
  is_section_cls (doc_term_class (lower (t_rt (tget i s) ++ "." ++ n)) s) = false -> tidy x -> x <> "" ->
  exists s', term_setitem i item (VStr x) s = (s', Ok tt) /\ s_doc s' = s_doc s /\ hlen s' = S (hlen s)
    /\ (forall j, j < hlen s -> tget j s' = if j =? i then set_t_children (t_children (tget i s) ++ [hlen s]) (tget i s) else tget j s)
    /\ first_child s' i n (hlen s) /\ t_val (tget (hlen s) s') = VStr x
    /\ t_pt (tget (hlen s) s') = t_rt (tget i s) /\ t_rt (tget (hlen s) s') = lower n /\ t_parent (tget (hlen s) s') = Some i /\ t_children (tget (hlen s) s') = []
    /\ t_section (tget (hlen s) s') = t_section (tget i s).
Proof. exact (@c26_new). Qed.
Print Assumptions C26_new.

Theorem C26_removed : forall (Q : Quirks) s i n item c, in_order s -> is_plain s i -> t_doc (tget i s) = true -> dot_free n -> child_item s i n item -> ~ own_value s i item ->
  first_child s i n c -> removable s c ->
  exists s', term_setitem i item VNone s = (s', Ok tt) /\ s_doc s' = s_doc s /\ hlen s' = hlen s
    /\ forall j, tget j s' = if j =? i then set_t_children (without c (t_children (tget i s))) (tget i s) else tget j s.
Proof. exact (@c26_removed). Qed.
Print Assumptions C26_removed.

Theorem C26_absent : forall s i n item, dot_free n -> child_item s i n item -> ~ own_value s i item -> no_child s i n ->
  term_setitem i item VNone s = (s, Ok tt).
Proof. exact setitem_none. Qed.
Print Assumptions C26_absent.

Example C26_ex : in_order e5 /\ first_child e5 2 "Email" 3 /\ no_child e5 2 "Phone" /\ ~ own_value e5 2 "Wrangler.Phone"
  /\ (exists s', term_setitem 2 "EMAIL" (VStr "b@y") e5 = (s', Ok tt) /\ t_val (tget 3 s') = VStr "b@y" /\ t_children (tget 2 s') = [3; 4])
  /\ (exists s', term_setitem 2 "Wrangler.Phone" (VStr "555") e5 = (s', Ok tt) /\ t_children (tget 2 s') = [3; 4; 8] /\ t_rt (tget 8 s') = "phone" /\ t_val (tget 8 s') = VStr "555")
  /\ (exists s', term_setitem 2 "email" VNone e5 = (s', Ok tt) /\ t_children (tget 2 s') = [4])
  /\ (exists s', term_setitem 2 "Value" (VStr "Eve") e5 = (s', Ok tt) /\ t_val (tget 2 s') = VStr "Eve").
Proof.
  split; [exact example_order|]. split. { exists [], [4]. split; [reflexivity|]. split; [reflexivity|intros x []]. }
  split. { intros x X. vm_compute in X. destruct X as [<-|[<-|[]]]; vm_compute; discriminate. }
  split. { intros [X|X]; vm_compute in X; discriminate X. }
  split; [exists (fst (term_setitem 2 "EMAIL" (VStr "b@y") e5))|split; [exists (fst (term_setitem 2 "Wrangler.Phone" (VStr "555") e5))|split; [exists (fst (term_setitem 2 "email" VNone e5))|exists (fst (term_setitem 2 "Value" (VStr "Eve") e5))]]]; vm_compute; repeat split.
Qed.

(** a value with outer white space is stored without it, and the assertion at
    the end of __setitem__ fails *)
Theorem C26_untrimmed_refuted : exists s, in_order s /\ snd (term_setitem 2 "Phone" (VStr " 555") s) = Err EAssert.
Proof. exists e5. split; [exact example_order|]. vm_compute. reflexivity. Qed.
Print Assumptions C26_untrimmed_refuted.

(** ** C27 *)

Theorem C27_find : forall (Q : Quirks) s p v sa, in_order s -> tidy_pattern p -> dget (lower p) (d_derived (s_doc s)) = None ->
  exists l r, doc_find s p v sa = Ok r /\ candidates s p l /\ picked (found s p v sa) l r /\ NoDup r.
Proof. exact (@c27_find). Qed.
Print Assumptions C27_find.

Theorem C27_find_first : forall s p v sa r, doc_find s p v sa = Ok r -> doc_find_first s p v sa = Ok (hd_error r).
Proof. exact FindFacts.find_first_spec. Qed.
Print Assumptions C27_find_first.

Example C27_ex : in_order e5 /\ tidy_pattern "Wrangler" /\ doc_find e5 "Wrangler" VFalse SAny = Ok [2; 7]
  /\ doc_find e5 "Wrangler" (VStr "Bob") (SList ["Notes"; "CONTACTS"]) = Ok [7] /\ doc_find e5 "*.Email" VFalse SAny = Ok [3]
  /\ doc_find e5 "Wrangler.*" VFalse (SOne "notes") = Ok [] /\ doc_find_first e5 "Root.*" VFalse SAny = Ok (Some 2).
Proof. split; [exact example_order|]. split; [plainp|]. vm_compute. repeat split. Qed.

(** the term "root.root" is in no result: find tests [not root.root] (doc.py:362-363) *)
Theorem C27_root_refuted : exists s s' t, in_order s /\ Ops.new_term 1 "Root" (VStr "x") [] s = (s', Ok t) /\ In t (listed s') /\ doc_find s' "Root" VFalse SAny = Ok [].
Proof.
  exists e5, (fst (Ops.new_term 1 "Root" (VStr "x") [] e5)), 8. split; [exact example_order|]. vm_compute. intuition.
Qed.
Print Assumptions C27_root_refuted.

(** ** C28 *)

(** a single name, written the way the declarations are kept (with its parent).
    Missing: the name without "Root.", and names in a list. *)
Theorem C28_find_partial : forall (Q : Quirks) s p ds v sa, in_order s -> tidy_pattern p -> Forall tidy_pattern ds ->
  dget (lower p) (d_derived (s_doc s)) = Some ds ->
  exists rs, doc_find s p v sa = Ok (concat rs)
    /\ Forall2 (fun q r => exists l, candidates s q l /\ picked (found s q v sa) l r /\ NoDup r) (ds ++ [p]) rs.
Proof. exact (@c28_find). Qed.
Print Assumptions C28_find_partial.

(** the names looked for are the ones that inherit *)
Theorem C28_names : forall s s', finish_load s = (s', Ok tt) -> forall x,
  match dget x (d_derived (s_doc s')) with
  | Some ds => ds <> [] /\ forall y, In y ds <-> In (y, x) (d_super (s_doc s'))
  | None => forall y, ~ In (y, x) (d_super (s_doc s')) end.
Proof. exact c28_names. Qed.
Print Assumptions C28_names.

Definition e7 : st := fst (modD (set_d_derived (derived_of [("root.author", "root.wrangler"); ("root.note", "root.wrangler")])) e5).
Lemma e7_order : in_order e7.
Proof.
  refine (order_derived e5 _ e7 example_order _). unfold e7. apply surjective_pairing.
Qed.
Example C28_ex : in_order e7 /\ doc_find e7 "Root.Wrangler" VFalse SAny = Ok [6; 2; 7].
Proof. split; [exact e7_order|]. vm_compute. reflexivity. Qed.

Theorem C28_refuted : exists s p ds, in_order s /\ dget (lower p) (d_derived (s_doc s)) = Some ds /\ In "root.note" ds
  /\ doc_find s p VFalse SAny = Ok [6; 2; 7] /\ find_list s [p] VFalse SAny = Ok [2; 7]
  /\ p = "Root.Wrangler" /\ doc_find s "Wrangler" VFalse SAny = Ok [2; 7].
Proof. exists e7, "Root.Wrangler", ["root.author"; "root.note"]. split; [exact e7_order|]. vm_compute. intuition. Qed.
Print Assumptions C28_refuted.

(** ** C53 *)

(** missing: "and in no other" *)
Theorem C53_listed_partial : forall s sec t s', sec < hlen s -> section_add_term sec t s = (s', Ok tt) -> In t (t_terms (tget sec s')).
Proof. exact move_listed. Qed.
Print Assumptions C53_listed_partial.

(** it stays in every section it was in *)
Theorem C53_refuted : forall s sec t s' r i, section_add_term sec t s = (s', r) -> In t (t_terms (tget i s)) -> In t (t_terms (tget i s')).
Proof. intros s sec t s' r i H. exact (move_keeps t sec t s s' r H i). Qed.
Print Assumptions C53_refuted.
Example C53_ex : exists s', section_add_term 5 2 e5 = (s', Ok tt) /\ t_terms (tget 5 s') = [6; 2] /\ t_terms (tget 1 s') = [2; 7] /\ t_section (tget 2 s') = Some 1.
Proof. exists (fst (section_add_term 5 2 e5)). vm_compute. repeat split. Qed.

(** ** C54 *)

(** missing: a section with a term of the name *)
Theorem C54_absent_partial : forall s sec item, (forall t, In t (t_terms (tget sec s)) -> lower (t_term (tget t s)) <> lower item) ->
  section_delitem sec item s = (s, Ok tt).
Proof. exact delitem_absent. Qed.
Print Assumptions C54_absent_partial.

(** with one it always raises AttributeError and removes nothing *)
Theorem C54_refuted : forall s sec item t, In t (t_terms (tget sec s)) -> lower (t_term (tget t s)) = lower item ->
  section_delitem sec item s = (s, Err EAttr).
Proof. exact delitem_present. Qed.
Print Assumptions C54_refuted.
Example C54_ex : section_delitem 1 "Note" e5 = (e5, Ok tt) /\ section_delitem 1 "Wrangler" e5 = (e5, Err EAttr).
Proof. split; vm_compute; reflexivity. Qed.
