(** * C93: which DeclareTerm rows are refused *)

From Verif Require Import SpecNames PyBase State SpecParse Parser SpecInherit SpecRefuse ParseFacts RefuseFacts SpecDoc.

(** [ap] are the properties of the DeclareTerm row [t], its value names the record
    [n] of [p].  The row ends in DeclarationError exactly if it names a section that
    is not declared, or inherits without a section.  A row that is refused has
    declared its term all the same, and nothing else. *)
Theorem C93_refused : forall t s s' r v ap p n, t_val (tget t s) = VStr v -> cell_names v p n -> arg_props (s_heap s) (tget t s) = Ok ap -> texts ap ->
  add_declared_term t s = (s', r) ->
  (r = Err EDeclaration <-> refused s ap)
  /\ (refused s ap -> s_heap s' = s_heap s /\ s_doc s' = s_doc s /\ p_dsecs (s_prs s') = p_dsecs (s_prs s)
      /\ exists td, p_dterms (s_prs s') = dset (p ++ "." ++ n)%string td (p_dterms (s_prs s)) /\ dget "term" (td_props td) = Some v).
Proof. exact decl_refused. Qed.
Print Assumptions C93_refused.

(** Any other row is accepted, if the names of children that sections list are
    declared and the row inherits from a name; with a section it is listed
    there and leaves them so. *)
Theorem C93_accepted : forall t s v ap p n, t_val (tget t s) = VStr v -> cell_names v p n -> written v p n -> arg_props (s_heap s) (tget t s) = Ok ap -> texts ap ->
  settled s -> ~ refused s ap -> (forall ih, gives ap "inheritsfrom" ih -> n <> "" /\ exists q i, cell_names ih q i) ->
  exists s', add_declared_term t s = (s', Ok tt) /\ (forall k, has_section s k -> has_section s' k)
    /\ forall sec, gives ap "section" sec -> settled s' /\ listed s' (lower sec) v.
Proof. exact decl_accepted. Qed.
Print Assumptions C93_accepted.

(** A new parser is so, and a DeclareSection row leaves it so and declares its section. *)
Theorem C93_settled : (forall s, settled (started s))
  /\ forall t s s', settled s -> add_declared_section t s = (s', Ok tt) -> settled s' /\ (forall k, has_section s k -> has_section s' k) /\ forall x, t_val (tget t s) = VStr x -> has_section s' (lower x).
Proof. exact (conj settled_first section_settled). Qed.
Print Assumptions C93_settled.

(** the declaration file "d.csv" has the rows [rows] *)
Definition load93 (rows : list (list string)) : st * res unit :=
  load_source (mk_env (fun x => eqs x "d.csv") (fun _ => None) (fun x => if eqs x "d.csv" then Some rows else None)) 3
    (mk_source None "" [["Declare"; "d.csv"]]) (new_doc default_classes [] [] []).
Definition with93 (rows : list (list string)) : list (list string) :=
  ([["DeclareSection"; "Contacts"]; ["Section"; "Decl"; "Section"; "InheritsFrom"]] ++ rows)%list.
Definition fine93 : list (list string) := with93 [["DeclareTerm"; "Person.Email"; "Contacts"]; ["DeclareTerm"; "Creator"; "Contacts"; "Person"]].
Definition doc93 : st := Eval vm_compute in fst (load93 fine93).

Example C93_ex : snd (load93 fine93) = Ok tt
  /\ snd (load93 (with93 [["DeclareTerm"; "Person.Email"; "Contact"]])) = Err EDeclaration
  /\ snd (load93 (with93 [["DeclareTerm"; "Person.Email"; "Contacts"]; ["DeclareTerm"; "Creator"; ""; "Person"]])) = Err EDeclaration
  /\ dmem "person.email" (p_dterms (s_prs (fst (load93 (with93 [["DeclareTerm"; "Person.Email"; "Contact"]]))))) = true
  /\ (exists ap, arg_props (s_heap doc93) (tget 10 doc93) = Ok ap /\ texts ap /\ t_val (tget 10 doc93) = VStr "Creator" /\ cell_names "Creator" "root" "creator"
      /\ written "Creator" "root" "creator" /\ gives ap "section" "Contacts" /\ gives ap "inheritsfrom" "Person" /\ ~ refused doc93 ap)
  /\ listed doc93 "contacts" "Creator.Email" /\ settled doc93.
Proof.
  split; [vm_compute; reflexivity|]. split; [vm_compute; reflexivity|]. split; [vm_compute; reflexivity|]. split; [vm_compute; reflexivity|].
  assert (L : forall k x, listed doc93 k x -> k = "contacts" /\ (x = "Person.Email" \/ x = "Creator" \/ x = "Creator.Email")).
  { intros k x (sd & E & I). apply HeapFacts.dget_in in E. cbn in E.
    destruct E as [E|[E|[E|[E|[]]]]]; injection E as <- <-; cbn in I; try contradiction I. split; [reflexivity|]. destruct I as [<-|[<-|[<-|[]]]]; auto. }
  split; [|split].
  - eexists. split; [vm_compute; reflexivity|]. split; [|split; [vm_compute; reflexivity|split; [apply NameFacts.split_term_lower_spec; vm_compute; reflexivity|split; [left; apply NameFacts.dot_free_iff; vm_compute; reflexivity|]]]].
    + intros k v D. apply HeapFacts.dget_in in D. cbn in D. repeat (destruct D as [D|D]; [injection D as <- <-; eexists; reflexivity|]). contradiction D.
    + split; [split; vm_compute; reflexivity|]. split; [split; vm_compute; reflexivity|]. intros [(sec & [D _] & N)|[_ N]].
      * vm_compute in D. injection D as <-. apply N. vm_compute. discriminate.
      * apply N. exists "Contacts". split; vm_compute; reflexivity.
  - eexists. split; [vm_compute; reflexivity|]. cbn. auto.
  - intros k x Lx Dx. destruct (L _ _ Lx) as [-> [E|[E|E]]]; subst x.
    + split; [eexists; eexists; apply NameFacts.split_term_lower_spec; vm_compute; reflexivity|]. eexists. eexists. split; [vm_compute; reflexivity|]. split; [vm_compute; reflexivity|]. vm_compute. discriminate.
    + contradiction Dx. apply NameFacts.dot_free_iff. vm_compute. reflexivity.
    + split; [eexists; eexists; apply NameFacts.split_term_lower_spec; vm_compute; reflexivity|]. eexists. eexists. split; [vm_compute; reflexivity|]. split; [vm_compute; reflexivity|]. vm_compute. discriminate.
Qed.

(** DeclarationError is not the only way in which a declaration file fails.  A space
    after the dot of a listed name, or a second declaration of it without a section,
    makes a later row that inherits it end in KeyError or AttributeError. *)
Theorem C93_only_refuted : exists rows rows',
  snd (load93 rows) = Ok tt /\ snd (load93 (rows ++ [["DeclareTerm"; "Creator"; "Contacts"; "Person"]])) = Err EKey
  /\ snd (load93 rows') = Ok tt /\ snd (load93 (rows' ++ [["DeclareTerm"; "Creator"; "Contacts"; "Person"]])) = Err EAttr.
Proof.
  exists (with93 [["DeclareTerm"; "Person. Email"; "Contacts"]]), (with93 [["DeclareTerm"; "Person.Email"; "Contacts"]; ["DeclareTerm"; "Person.Email"]]).
  repeat split; vm_compute; reflexivity.
Qed.
Print Assumptions C93_only_refuted.
