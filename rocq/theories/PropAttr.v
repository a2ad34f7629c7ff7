(** * PropAttr: attributes of terms (C55), set_terms (C56), property dicts (C57),
    [in] (C58), find with properties (C59), sections by name (C60)

    Attribute names here are those that are not taken by the classes
    ([free_name], SpecAttr.v). *)

From Verif Require Import PyStr PyBase State Ops Attr Parser SpecNames NameFacts SpecDoc SpecInv SpecFind SpecEdit SpecOrderly OrderlyFacts StepFacts DocProps ParseProps RunFacts RowFacts SpecAttr AttrFacts.

(** ** The document of the examples *)

Definition nofiles : env := mk_env (fun _ => false) (fun _ => None) (fun _ => None).
Definition place55 : place := mk_place nofiles 1 None "" default_classes [("root.wrangler", mk_tdecl [("termvaluename", "Person")] [])] [] [].
Definition rows55 : list (list string) :=
  [["Title"; "T"];
   ["Section"; "Contacts"; "Email"; "Phone"];
   ["Wrangler"; "Ann"; "a@x"; "555"];
   [".Note"; "one"];
   [".Note"; "two"];
   ["Creator"; "Bob"; "b@x"]].
Definition lines55 : list line :=
  [LTerm "root" "title" "T" [];
   LSection "Contacts" ["Email"; "Phone"];
   LTerm "root" "wrangler" "Ann" ["a@x"; "555"];
   LTerm current_parent "note" "one" [];
   LTerm current_parent "note" "two" [];
   LTerm "root" "creator" "Bob" ["b@x"]].
Definition doc55 : st := Eval vm_compute in fst (load_into place55 rows55).
Lemma order55 : in_order doc55.
Proof.
  apply (loads_in_order place55 rows55 lines55); [|vm_compute; reflexivity]. split.
  - split; [exact default_good_reg|]. intros k sd [].
  - apply means_by; vm_compute; reflexivity.
  - unfold lines55. repeat (apply Forall_cons; [intros (a & b & c & H); try discriminate H; injection H as H1 H2; rewrite <- H1 in H2; discriminate H2|]). apply Forall_nil.
  - repeat constructor; apply dot_free_iff; reflexivity.
Qed.
Definition objs55 : ast := mk_ast doc55 (fun _ => []).

(** the wrangler Ann of line 3 is 3, the creator Bob is 8; Bob has no phone *)
Lemma plain55 : forall i, In i [1; 3; 4; 5; 6; 7; 8; 9] -> is_plain doc55 i.
Proof. intros i H. cbn in H. repeat (destruct H as [<-|H]; [split; [vm_compute; repeat constructor|reflexivity]|]). destruct H. Qed.

(** ** C55 attributes *)

(** t.item is the value of the first child called item; the name the term gives
    to its value stands for the value *)
Theorem C55_read : forall a i item, is_plain (a_st a) i -> free_name item -> not_stored a i item ->
  (value_name (a_st a) i item -> getattr a i item = Ok (t_val (tget i (a_st a))))
  /\ (forall n c, ~ value_name (a_st a) i item -> dot_free n -> child_item (a_st a) i n item -> first_child (a_st a) i n c ->
        getattr a i item = Ok (t_val (tget c (a_st a))))
  /\ (forall n, ~ value_name (a_st a) i item -> dot_free n -> child_item (a_st a) i n item -> no_child (a_st a) i n ->
        (common item -> getattr a i item = Ok VNone) /\ (~ common item -> getattr a i item = Err EAttr)).
Proof.
  intros a i item P _ N. split; [exact (read_own a i item P N)|]. split.
  - intros n c V D C F. exact (read_child a i n item c P N V D C F).
  - intros n V D C F. exact (read_absent a i n item P N V D C F).
Qed.
Print Assumptions C55_read.

(** t.item = v for the name of the value, or "value" *)
Theorem C55_write_value : forall a i item v, is_plain (a_st a) i -> own_value (a_st a) i item ->
  exists s', setattr i item v a = (mk_ast s' (a_own a), Ok tt) /\ s_doc s' = s_doc (a_st a) /\ hlen s' = hlen (a_st a)
    /\ forall j, tget j s' = if j =? i then set_t_val v (tget i (a_st a)) else tget j (a_st a).
Proof. intros a i item v P. exact (write_own a i item v (proj1 P)). Qed.
Print Assumptions C55_write_value.

(** for a column of the section: the child, an old one or a new one, has the
    value and reading the attribute gives it back *)
Theorem C55_write_old : forall (Q : Quirks) a i item c v, in_order (a_st a) -> is_plain (a_st a) i -> free_name item -> dot_free item -> tidy item -> not_stored a i item ->
  ~ own_value (a_st a) i item -> column (a_st a) i item -> first_child (a_st a) i item c -> v <> VNone -> v <> VFalse ->
  exists a', setattr i item v a = (a', Ok tt) /\ same_stored a a' /\ getattr a' i item = Ok v
    /\ s_doc (a_st a') = s_doc (a_st a) /\ hlen (a_st a') = hlen (a_st a)
    /\ (forall j, tget j (a_st a') = if j =? c then set_t_val v (tget c (a_st a)) else tget j (a_st a)).
Proof. intros Q a i item c v O P _. exact (write_column_old a i item c v O P). Qed.
Print Assumptions C55_write_old.

Theorem C55_write_new : forall (Q : Quirks) a i item x, in_order (a_st a) -> is_plain (a_st a) i -> free_name item -> t_doc (tget i (a_st a)) = true -> dot_free item -> tidy item ->
  not_stored a i item -> ~ own_value (a_st a) i item -> column (a_st a) i item -> no_child (a_st a) i item ->
  made_name (t_rt (tget i (a_st a))) -> allowed_child (a_st a) i item ->
  is_section_cls (doc_term_class (lower (t_rt (tget i (a_st a)) ++ "." ++ item)) (a_st a)) = false -> tidy x -> x <> "" ->
  exists a', setattr i item (VStr x) a = (a', Ok tt) /\ same_stored a a' /\ getattr a' i item = Ok (VStr x)
    /\ s_doc (a_st a') = s_doc (a_st a) /\ hlen (a_st a') = S (hlen (a_st a))
    /\ (forall j, j < hlen (a_st a) -> tget j (a_st a') = if j =? i then set_t_children (t_children (tget i (a_st a)) ++ [hlen (a_st a)]) (tget i (a_st a)) else tget j (a_st a)).
Proof. intros Q a i item x O P _. exact (write_column_new a i item x O P). Qed.
Print Assumptions C55_write_new.

(** any other name leaves the document alone *)
Theorem C55_write_other : forall a i item v, is_plain (a_st a) i -> free_name item -> ~ own_value (a_st a) i item ->
  (~ column (a_st a) i item \/ ~ not_stored a i item) ->
  exists a', setattr i item v a = (a', Ok tt) /\ only_stored a i item v a' /\ getattr a' i item = Ok v.
Proof.
  intros a i item v P _ O C. destruct (write_other a i item v P O C) as (a' & E & S). exists a'. split; [exact E|]. split; [exact S|]. apply read_stored. apply S.
Qed.
Print Assumptions C55_write_other.

Example C55_ex : getattr objs55 3 "Email" = Ok (VStr "a@x") /\ getattr objs55 3 "note" = Ok (VStr "one")
  /\ getattr objs55 3 "person" = Ok (VStr "Ann") /\ getattr objs55 8 "url" = Ok VNone /\ getattr objs55 8 "phone" = Err EAttr
  /\ (exists a', setattr 3 "Email" (VStr "new") objs55 = (a', Ok tt) /\ getattr a' 3 "email" = Ok (VStr "new") /\ t_val (tget 4 (a_st a')) = VStr "new")
  /\ (exists a', setattr 8 "phone" (VStr "77") objs55 = (a', Ok tt) /\ getattr a' 8 "Phone" = Ok (VStr "77") /\ t_children (tget 8 (a_st a')) = [9; 10])
  /\ (exists a', setattr 8 "colour" (VInt 3) objs55 = (a', Ok tt) /\ getattr a' 8 "colour" = Ok (VInt 3) /\ a_st a' = doc55)
  /\ in_order doc55 /\ free_name "phone" /\ column doc55 8 "phone" /\ no_child doc55 8 "phone" /\ ~ own_value doc55 8 "phone" /\ t_doc (tget 8 doc55) = true.
Proof.
  repeat (split; [vm_compute; reflexivity|]).
  split; [eexists; split; [vm_compute; reflexivity|]; split; vm_compute; reflexivity|].
  split; [eexists; split; [vm_compute; reflexivity|]; split; vm_compute; reflexivity|].
  split; [eexists; split; [vm_compute; reflexivity|]; split; vm_compute; reflexivity|].
  split; [exact order55|]. split.
  { split; [vm_compute; intuition discriminate|]. split; [vm_compute; intuition discriminate|]. intros y. discriminate. }
  split; [exists 2; split; [reflexivity|]; vm_compute; auto|]. split; [intros x H; vm_compute in H; destruct H as [<-|[]]; vm_compute; discriminate|].
  split; [|reflexivity]. intros [H|H]; vm_compute in H; discriminate.
Qed.

(** reading does not always agree with the children: an attribute once stored in
    the object hides a child of that name made later, and "Value", which can be
    assigned, cannot be read *)
Theorem C55_shadow_refuted : exists a1 a2,
  setattr 8 "colour" (VStr "red") objs55 = (a1, Ok tt)
  /\ on_st (term_setitem 8 "Colour" (VStr "blue")) a1 = (a2, Ok tt)
  /\ first_child (a_st a2) 8 "colour" 10 /\ t_val (tget 10 (a_st a2)) = VStr "blue" /\ getattr a2 8 "colour" = Ok (VStr "red").
Proof.
  eexists. eexists. split; [vm_compute; reflexivity|]. split; [vm_compute; reflexivity|].
  split; [exists [9], []; split; [reflexivity|]; split; [reflexivity|]; intros x [<-|[]]; vm_compute; discriminate|]. split; vm_compute; reflexivity.
Qed.
Print Assumptions C55_shadow_refuted.
Theorem C55_value_refuted : exists a', setattr 8 "Value" (VStr "Eve") objs55 = (a', Ok tt) /\ t_val (tget 8 (a_st a')) = VStr "Eve" /\ getattr a' 8 "Value" = Err EAttr.
Proof. eexists. split; [vm_compute; reflexivity|]. split; vm_compute; reflexivity. Qed.
Print Assumptions C55_value_refuted.

(** ** C56 set_terms *)

Theorem C56_set_terms : forall (Q : Quirks) s k sec ts kws s', in_order s -> In (k, sec) (secs s) -> ~ odd k -> (forall t, In t ts -> In t (t_terms (tget sec s))) ->
  Forall (fun kv => top_name (fst kv)) kws -> set_terms sec ts kws s = (s', Ok tt) -> in_order s' /\ exists news, added s sec kws news s'.
Proof. exact (@set_terms_ok). Qed.
Print Assumptions C56_set_terms.

(** it succeeds when only values are given, none of them a text of two
    characters *)
Theorem C56_succeeds : forall (Q : Quirks) s k sec ts kws, in_order s -> In (k, sec) (secs s) -> ~ odd k -> (forall t, In t ts -> In t (t_terms (tget sec s))) ->
  Forall (fun kv => top_name (fst kv) /\ is_section_cls (doc_term_class (lower (fst kv)) s) = false /\ exists v, asks (snd kv) v []) kws ->
  exists s', set_terms sec ts kws s = (s', Ok tt).
Proof. exact (@set_terms_runs). Qed.
Print Assumptions C56_succeeds.

Example C56_ex : exists s', set_terms 2 [3; 8] [("Publisher", KVal (VStr "Pub")); ("Creator", KPair (VStr "Cy") [("email", VStr "c@x"); ("phone", VInt 5)])] doc55 = (s', Ok tt)
  /\ listed s' = [1; 3; 8; 10; 11] /\ t_terms (tget 2 s') = [3; 8; 10; 11] /\ t_rt (tget 11 s') = "creator" /\ t_val (tget 11 s') = VStr "Cy"
  /\ map (fun c => (t_rt (tget c s'), t_val (tget c s'))) (t_children (tget 11 s')) = [("email", VStr "c@x"); ("phone", VStr "5")].
Proof. eexists. split; [vm_compute; reflexivity|]. vm_compute. repeat split. Qed.

(** a text of two characters is taken for a pair: TypeError, and the terms
    before it have been made *)
Theorem C56_two_refuted : exists s', set_terms 2 [] [("Publisher", KVal (VStr "Pub")); ("State", KVal (VStr "CA"))] doc55 = (s', Err EType)
  /\ listed s' = [1; 3; 8; 10].
Proof. eexists. split; vm_compute; reflexivity. Qed.
Print Assumptions C56_two_refuted.
(** "create or set": a term that is there is not set, another one is added, and
    looking the name up still gives the old value *)
Theorem C56_set_refuted : exists s', set_terms 2 [] [("Creator", KVal (VStr "Eve"))] doc55 = (s', Ok tt)
  /\ t_val (tget 8 s') = VStr "Bob" /\ t_terms (tget 2 s') = [3; 8; 10] /\ section_get_term s' 2 "Creator" VFalse = Ok (Some 8).
Proof. eexists. split; [vm_compute; reflexivity|]. vm_compute. repeat split. Qed.
Print Assumptions C56_set_refuted.

(** ** C57 property dicts *)

Theorem C57_props : forall s i, dict_holds (props (s_heap s) i) (fun k v => exists c, last_child s i k c /\ v = t_val (tget c s)).
Proof. exact props_spec. Qed.
Print Assumptions C57_props.
Theorem C57_arg_props : forall s i j, t_section (tget i s) = Some j -> is_sec s j ->
  exists d, Attr.arg_props (s_heap s) i = Ok d /\ dict_holds d (row_property s i j).
Proof. exact arg_props_spec. Qed.
Print Assumptions C57_arg_props.
Theorem C57_all_props : forall s i j, t_section (tget i s) = Some j -> is_sec s j ->
  exists d, all_props (s_heap s) i = Ok d /\ dict_holds d (any_property s i j).
Proof. exact all_props_spec. Qed.
Print Assumptions C57_all_props.

Example C57_ex : props (s_heap doc55) 3 = [("email", VStr "a@x"); ("phone", VStr "555"); ("note", VStr "two")]
  /\ Attr.arg_props (s_heap doc55) 3 = Ok [("email", VStr "a@x"); ("phone", VStr "555"); ("person", VStr "Ann")]
  /\ all_props (s_heap doc55) 3 = Ok [("email", VStr "a@x"); ("phone", VStr "555"); ("person", VStr "Ann"); ("note", VStr "two")]
  /\ t_section (tget 3 doc55) = Some 2 /\ is_sec doc55 2.
Proof. repeat (split; [vm_compute; reflexivity|]). split; [vm_compute; repeat constructor|reflexivity]. Qed.

(** "an entry for all of the args declared by the term's section": not when the
    row has no cell for a column *)
Theorem C57_missing_refuted : exists d, all_props (s_heap doc55) 8 = Ok d /\ column doc55 8 "phone" /\ ~ In "phone" (map fst d).
Proof.
  eexists. split; [vm_compute; reflexivity|]. split; [exists 2; split; [reflexivity|]; vm_compute; auto|]. vm_compute. intuition discriminate.
Qed.
Print Assumptions C57_missing_refuted.

(** ** C58 [in] *)

Theorem C58_common_partial : forall f a i item, lower item = "value" \/ common item -> contains (S f) a i item = Ok true.
Proof. exact contains_easy. Qed.
Print Assumptions C58_common_partial.
(** any other name raises, whether there is such a child or not *)
Theorem C58_fails_refuted : forall f a i item, is_plain (a_st a) i -> not_stored a i "properties" -> no_child (a_st a) i "properties" ->
  ~ value_name (a_st a) i "properties" -> lower item <> "value" -> ~ common item -> contains (S f) a i item = Err EAttr.
Proof. exact contains_fails. Qed.
Print Assumptions C58_fails_refuted.
Example C58_ex : contains 5 objs55 3 "email" = Err EAttr /\ first_child doc55 3 "email" 4 /\ contains 5 objs55 3 "Url" = Ok true /\ no_child doc55 3 "url".
Proof.
  split; [vm_compute; reflexivity|]. split; [exists [], [5; 6; 7]; split; [reflexivity|]; split; [reflexivity|intros x []]|]. split; [vm_compute; reflexivity|].
  intros x H. vm_compute in H. repeat (destruct H as [<-|H]; [vm_compute; discriminate|]). destruct H.
Qed.

(** ** C59 find with properties *)

Theorem C59_find : forall s p v sa kw l, doc_find s p v sa = Ok l -> Forall (fun kv => dot_free (fst kv)) kw -> (forall i, In i l -> is_plain s i) ->
  exists r, doc_find_kw s p v sa kw = Ok r /\ picked (has_all s kw) l r.
Proof. exact find_kw. Qed.
Print Assumptions C59_find.
Theorem C59_first : forall s p v sa kw l, doc_find_kw s p v sa kw = Ok l ->
  doc_find_first_kw s p v sa kw = Ok (hd_error l)
  /\ doc_find_first_value_kw s p v sa kw = Ok (match l with i :: _ => t_val (tget i s) | [] => VNone end).
Proof. exact firsts_agree. Qed.
Print Assumptions C59_first.
Theorem C59_get : forall s p sa l d, doc_find s p VFalse sa = Ok l ->
  doc_get_value s p d sa = Ok (match l with i :: _ => t_val (tget i s) | [] => d end) /\ (sa = SAny -> doc_get s p = Ok (hd_error l)).
Proof. exact gets_agree. Qed.
Print Assumptions C59_get.
Example C59_ex : doc_find doc55 "*.email" VFalse SAny = Ok [4; 9] /\ doc_find doc55 "root.*" VFalse (SOne "contacts") = Ok [3; 8]
  /\ doc_find_kw doc55 "root.*" VFalse (SOne "contacts") [("email", VStr "b@x")] = Ok [8]
  /\ doc_find_kw doc55 "root.*" VFalse (SOne "contacts") [("Note", VStr "one"); ("person", VStr "Ann")] = Ok [3]
  /\ doc_find_kw doc55 "root.*" VFalse SAny [("phone", VNone)] = Ok [1; 8]
  /\ doc_find_first_value_kw doc55 "root.*" VFalse SAny [("phone", VNone)] = Ok (VStr "T")
  /\ doc_get_value doc55 "nothing" (VInt 3) SAny = Ok (VInt 3).
Proof. vm_compute. repeat split. Qed.

(** ** C60 sections by name *)

(** doc[name] is the section of the document whose name is this, in any case *)
Theorem C60_get : forall (Q : Quirks) s n i, doc_ok s ->
  (get_section (VStr n) s = Ok i <-> In i (doc_iter s) /\ exists m, t_val (tget i s) = VStr m /\ lower m = lower n).
Proof. exact (@get_section_spec). Qed.
Print Assumptions C60_get.
Theorem C60_missing : forall (Q : Quirks) s n, doc_ok s ->
  (get_section (VStr n) s = Err EKey <-> forall i m, In i (doc_iter s) -> t_val (tget i s) = VStr m -> lower m <> lower n).
Proof. exact (@get_section_none). Qed.
Print Assumptions C60_missing.
(** [name in doc], get_section with default and doc[[names]] agree with it, and
    iteration gives each section once *)
Theorem C60_agree : forall (Q : Quirks) s n, doc_ok s ->
  (doc_contains s n = true <-> exists i, get_section (VStr n) s = Ok i)
  /\ get_section_or s n = (match get_section (VStr n) s with Ok i => Some i | Err _ => None end).
Proof. exact (@sections_agree). Qed.
Print Assumptions C60_agree.
Theorem C60_several : forall s ns l, get_sections s ns = Ok l <-> Forall2 (fun n i => get_section (VStr n) s = Ok i) ns l.
Proof. exact get_sections_spec. Qed.
Print Assumptions C60_several.
Theorem C60_once : forall (Q : Quirks) s, doc_ok s -> NoDup (doc_iter s).
Proof. exact (@iter_once). Qed.
Print Assumptions C60_once.
Example C60_ex : doc_iter doc55 = [0; 2] /\ get_section (VStr "CONTACTS") doc55 = Ok 2 /\ doc_contains doc55 "Contacts" = true
  /\ doc_contains doc55 "Files" = false /\ get_section_or doc55 "Files" = None /\ get_sections doc55 ["contacts"; "Root"] = Ok [2; 0]
  /\ get_sections doc55 ["contacts"; "x"] = Err EKey /\ doc_ok doc55.
Proof. repeat (split; [vm_compute; reflexivity|]). apply order55. Qed.
