(** * PropLook: looking up the children of a term (C76)

    [child_item s i n item]: [item] is [n], or [P.n] with the name [P] of the term
    [i].  [first_child s i n c]: [c] is the first child of [i] called [n], in any
    case.  [value_name s i item]: [item] is the name [i] gives to its own value
    (SpecEdit.v, SpecAttr.v). *)

From Verif Require Import Ops Attr SpecNames SpecInv SpecFind SpecEdit SpecAttr NameFacts LookFacts PropDoc.

(** find gives the children of that name, and of that value if one is given, in
    their order *)
Theorem C76_find : forall s i n item v, dot_free n -> child_item s i n item ->
  exists l, term_find (s_heap s) i item v = Ok l /\ picked (fun c => called s n c /\ value_is v (t_val (tget c s))) (t_children (tget i s)) l.
Proof. exact look_find. Qed.
Print Assumptions C76_find.

(** find_first gives the first of them, if there is one, and raises if find does *)
Theorem C76_first : forall h i item v,
  term_find_first h i item v = match term_find h i item v with Ok l => Ok (hd_error l) | Err e => Err e end.
Proof. exact look_first. Qed.
Print Assumptions C76_first.

(** the name of another term before the dot, or a second dot, is an error *)
Theorem C76_other : forall h i a n v, dot_free a -> dot_free n -> lower a <> lower (t_rt (hget i h)) -> term_find h i (a ++ "." ++ n) v = Err EAssert.
Proof. exact look_other. Qed.
Print Assumptions C76_other.
Theorem C76_dots : forall h i a b c v, term_find h i (a ++ "." ++ b ++ "." ++ c) v = Err EValue.
Proof. exact look_dots. Qed.
Print Assumptions C76_dots.

(** t[item] is the term itself for its value name, else the first child, else an
    error *)
Theorem C76_getitem : forall s i n item, dot_free n -> child_item s i n item ->
  (value_name s i item -> term_getitem (s_heap s) i item = Ok i)
  /\ (~ value_name s i item -> forall c, first_child s i n c -> term_getitem (s_heap s) i item = Ok c)
  /\ (~ value_name s i item -> no_child s i n -> term_getitem (s_heap s) i item = Err EKey).
Proof. exact look_getitem. Qed.
Print Assumptions C76_getitem.

(** get is the same without the error, *)
Theorem C76_get : forall s i n item, dot_free n -> child_item s i n item ->
  (value_name s i item -> term_get (s_heap s) i item = Ok (Some i))
  /\ (~ value_name s i item -> forall c, first_child s i n c -> term_get (s_heap s) i item = Ok (Some c))
  /\ (~ value_name s i item -> no_child s i n -> term_get (s_heap s) i item = Ok None).
Proof. exact look_get. Qed.
Print Assumptions C76_get.

(** get_value is the value of that term, *)
Theorem C76_get_value : forall s i n item x, dot_free n -> child_item s i n item ->
  (term_get_value (s_heap s) i item = Ok x <->
   (value_name s i item /\ x = t_val (tget i s)) \/ (~ value_name s i item /\ exists c, first_child s i n c /\ x = t_val (tget c s))
   \/ (~ value_name s i item /\ no_child s i n /\ x = VNone)).
Proof. exact look_get_value. Qed.
Print Assumptions C76_get_value.

(** and find_first_value that of the first child *)
Theorem C76_first_value : forall s i n item, dot_free n -> child_item s i n item ->
  (forall c, first_child s i n c -> term_find_first_value (s_heap s) i item = Ok (t_val (tget c s)))
  /\ (no_child s i n -> term_find_first_value (s_heap s) i item = Ok VNone).
Proof. exact look_first_value. Qed.
Print Assumptions C76_first_value.

(** if t[item] = v succeeds, the value is found again under the same item; an
    empty text may be found as None *)
Theorem C76_set : forall s i item v s', term_setitem i item v s = (s', Ok tt) -> i < hlen s -> v <> VNone ->
  (lower item = "value" -> value_name s i item) ->
  exists x, term_get_value (s_heap s') i item = Ok x /\ (alike x v \/ (x = VNone /\ v = VStr "")).
Proof. exact look_set. Qed.
Print Assumptions C76_set.

(** "value" always names the value when it is set, but not when it is read *)
Theorem C76_value_refuted : exists s', term_setitem 2 "value" (VStr "Eve") e5 = (s', Ok tt) /\ t_val (tget 2 s') = VStr "Eve"
  /\ term_get_value (s_heap s') 2 "value" = Ok VNone.
Proof. exists (fst (term_setitem 2 "value" (VStr "Eve") e5)). vm_compute. repeat split. Qed.
Print Assumptions C76_value_refuted.

(** the term 2 of [e5] is a Wrangler with an Email; after a second Email both are
    found *)
Definition e76 : st := fst (new_child 2 "Email" (VStr "c@z") [] e5).
Example C76_ex : dot_free "eMail" /\ child_item e76 2 "eMail" "Wrangler.eMail" /\ first_child e76 2 "eMail" 3 /\ value_name e76 2 "@Value" /\ no_child e76 2 "Phone"
  /\ term_find (s_heap e76) 2 "Wrangler.eMail" VFalse = Ok [3; 8] /\ term_find (s_heap e76) 2 "email" (VStr "c@z") = Ok [8]
  /\ term_find_first (s_heap e76) 2 "EMAIL" VFalse = Ok (Some 3) /\ term_find (s_heap e76) 2 "Note.Email" VFalse = Err EAssert
  /\ term_find (s_heap e76) 2 "Wrangler.Email.x" VFalse = Err EValue
  /\ term_getitem (s_heap e76) 2 "@Value" = Ok 2 /\ term_getitem (s_heap e76) 2 "Phone" = Err EKey /\ term_get (s_heap e76) 2 "Phone" = Ok None
  /\ term_get_value (s_heap e76) 2 "email" = Ok (VStr "a@x") /\ term_find_first_value (s_heap e76) 2 "Phone" = Ok VNone
  /\ (exists s', term_setitem 2 "email" (VStr "n@n") e76 = (s', Ok tt) /\ term_get_value (s_heap s') 2 "email" = Ok (VStr "n@n") /\ t_val (tget 8 s') = VStr "c@z").
Proof.
  split; [apply dot_free_iff; vm_compute; reflexivity|]. split; [apply (item_qualified e76 2 "eMail" "Wrangler"); [apply dot_free_iff; vm_compute; reflexivity|vm_compute; reflexivity]|].
  split. { exists [], [4; 8]. split; [vm_compute; reflexivity|]. split; [vm_compute; reflexivity|intros x []]. }
  split; [vm_compute; reflexivity|].
  split. { intros x X. vm_compute in X. destruct X as [<-|[<-|[<-|[]]]]; vm_compute; discriminate. }
  do 10 (split; [vm_compute; reflexivity|]). exists (fst (term_setitem 2 "email" (VStr "n@n") e76)). vm_compute. repeat split.
Qed.
