(** * PropOrder: C29 sort_sections, C30 sort_by_term, C31 columns, C32 classes *)

From Verif Require Import SpecNames NameFacts SpecOrder OrderFacts Ops Parser.

(** the document used in the examples *)
Definition ex_doc : st := fst (parse_rows (mk_env (fun _ => false) (fun _ => None) (fun _ => None)) 9
  [["Title"; "t"]; ["Section"; "Contacts"; "Email"]; ["Wrangler"; "w"; "e"]; ["Creator"; "c"]; ["Creator"; "b"];
   ["Section"; "Resources"]; ["Datafile"; "f"]]).

(** ** C29.  [NoDup] of the keys says the section table is a Python dict. *)
Theorem C29_sort_sections : forall order s, NoDup (dkeys (d_sections (s_doc s))) ->
  exists new, sort_sections order s = (set_s_doc (set_d_sections new (s_doc s)) s, Ok tt)
    /\ reordered (map lower order) (d_sections (s_doc s)) new.
Proof. exact sort_sections_spec. Qed.
Print Assumptions C29_sort_sections.

Example C29_ex : NoDup (dkeys (d_sections (s_doc ex_doc)))
  /\ dkeys (d_sections (s_doc ex_doc)) = ["root"; "contacts"; "resources"]
  /\ dkeys (d_sections (s_doc (fst (sort_sections ["Nope"; "RESOURCES"; "root"; "resources"] ex_doc))))
     = ["resources"; "root"; "contacts"].
Proof.
  split; [|split; vm_compute; reflexivity].
  vm_compute. repeat constructor; simpl; intuition discriminate.
Qed.

(** ** C30.  Nothing but the term list of the section changes; its new value is
    one group per pattern followed by the rest in alphabetical order. *)
Theorem C30_sort_by_term : forall sec o s,
  (forall t, In t (t_terms (tget sec s)) -> dot_free (t_pt (tget t s))) ->
  Forall tidy_pattern (match o with Some o => o | None => [] end) ->
  exists groups rest srt,
    sort_by_term sec o s
      = (set_s_heap (upd sec (set_t_terms (concat groups ++ srt) (tget sec s)) (s_heap s)) s, Ok tt)
    /\ grouped (fun p t => denotes p (t_pt (tget t s)) (t_rt (tget t s)))
               (match o with Some o => o | None => [] end) (t_terms (tget sec s)) groups rest
    /\ alphabetical (fun t => join_lc (tget t s)) rest srt.
Proof. exact sort_by_term_spec. Qed.
Print Assumptions C30_sort_by_term.

(** hence no term is lost or added *)
Theorem C30_same_terms : forall sec o s,
  (forall t, In t (t_terms (tget sec s)) -> dot_free (t_pt (tget t s))) ->
  Forall tidy_pattern (match o with Some o => o | None => [] end) ->
  sec < List.length (s_heap s) ->
  Permutation (t_terms (tget sec (fst (sort_by_term sec o s)))) (t_terms (tget sec s)).
Proof. exact sort_by_term_perm. Qed.
Print Assumptions C30_same_terms.

Example C30_ex :
  let sec := 2 in
  map (fun t => (t_rt (tget t ex_doc), t_val (tget t ex_doc))) (t_terms (tget sec ex_doc))
    = [("wrangler", VStr "w"); ("creator", VStr "c"); ("creator", VStr "b")]
  /\ (forall t, In t (t_terms (tget sec ex_doc)) -> dot_free (t_pt (tget t ex_doc)))
  /\ Forall tidy_pattern ["Nope"; "*.wrangler"]
  /\ map (fun t => (t_rt (tget t ex_doc), t_val (tget t ex_doc)))
         (t_terms (tget sec (fst (sort_by_term sec None ex_doc))))
     = [("creator", VStr "c"); ("creator", VStr "b"); ("wrangler", VStr "w")]
  /\ map (fun t => (t_rt (tget t ex_doc), t_val (tget t ex_doc)))
         (t_terms (tget sec (fst (sort_by_term sec (Some ["Nope"; "*.wrangler"]) ex_doc))))
     = [("wrangler", VStr "w"); ("creator", VStr "c"); ("creator", VStr "b")].
Proof.
  split; [vm_compute; reflexivity|]. split.
  { intros t H. vm_compute in H. repeat destruct H as [<-|H]; try apply dot_free_iff; try (vm_compute; reflexivity). destruct H. }
  split; [|split; vm_compute; reflexivity].
  constructor; [|constructor; [|constructor]].
  - apply tidy_plain; [apply dot_free_iff|apply tidy_iff; split]; reflexivity.
  - apply (tidy_qualified _ "*" "wrangler"); try reflexivity; try discriminate;
      try (apply dot_free_iff; reflexivity); apply tidy_iff; split; reflexivity.
Qed.

(** ** C31.  [cols] are the cleaned columns: trimmed, without the blank ones. *)
Theorem C31_add_new : forall arg prepend args cols, cleaned args cols -> ~ has_column arg cols ->
  add_arg arg prepend args = if prepend then title arg :: cols else cols ++ [title arg].
Proof. exact add_arg_new. Qed.
Print Assumptions C31_add_new.

Theorem C31_add_existing : forall arg prepend args cols, cleaned args cols -> has_column arg cols ->
  add_arg arg prepend args = cols.
Proof. exact add_arg_old. Qed.
Print Assumptions C31_add_existing.

(** the column added has the given name, up to case (U+00DF has no single
    title-case letter) *)
Theorem C31_added_name : forall arg, no_sharp_s arg -> lower (title arg) = lower arg.
Proof. exact title_lower. Qed.
Print Assumptions C31_added_name.

Theorem C31_remove : forall arg args cols, cleaned args cols ->
  remove_arg arg args = filter (fun c => negb (String.eqb (lower c) (lower arg))) cols.
Proof. exact remove_arg_spec. Qed.
Print Assumptions C31_remove.

(** over any history of additions and removals the columns stay a set, ignoring
    case, of tidy names *)
Theorem C31_no_duplicates : forall evs,
  Forall (fun e => match e with AddCol n _ => tidy n /\ n <> "" /\ no_sharp_s n | DelCol _ => True end) evs ->
  NoDup (map lower (run_cols evs [])) /\ Forall (fun c => tidy c /\ c <> "") (run_cols evs []).
Proof. exact run_cols_set. Qed.
Print Assumptions C31_no_duplicates.

Example C31_ex :
  let evs := [AddCol "name" false; AddCol "Email" false; AddCol "EMAIL" true; AddCol "org" true; DelCol "NAME"] in
  Forall (fun e => match e with AddCol n _ => tidy n /\ n <> "" /\ no_sharp_s n | DelCol _ => True end) evs
  /\ run_cols evs [] = ["Org"; "Email"].
Proof.
  split; [|vm_compute; reflexivity].
  repeat constructor; try discriminate; try (apply tidy_iff; split; reflexivity);
    unfold no_sharp_s; simpl; intuition discriminate.
Qed.

(** without the restriction on U+00DF a column can be added twice *)
Theorem C31_sharp_s_refuted : exists n, tidy n /\ n <> ""
  /\ ~ NoDup (map lower (run_cols [AddCol n false; AddCol n false] [])).
Proof.
  exists (String (ascii_of_nat 223) ""). split; [apply tidy_iff; split; reflexivity|].
  split; [discriminate|]. vm_compute. intros H. inversion H; subst. apply H2. left. reflexivity.
Qed.
Print Assumptions C31_sharp_s_refuted.

(** ** C32.  The class of a name after any history of registrations: its own
    registration if there is one, otherwise that of its super term, otherwise
    Term.  [super] maps a declared term to the term it inherits from. *)
Theorem C32_class_of_name : forall hist reg super name, NoDup (dkeys reg) ->
  (forall k sup, dget k super = Some sup -> lower sup = sup) ->
  class_for (run_reg hist reg) super name
  = match registered hist name (dget (lower name) reg) with
    | Some c => c
    | None =>
        match dget (lower name) super with
        | Some sup => match registered hist sup (dget sup reg) with Some c => c | None => CTerm end
        | None => CTerm
        end
    end.
Proof. exact class_for_run. Qed.
Print Assumptions C32_class_of_name.

(** the single-step consequences named in the property *)
Theorem C32_registered : forall reg super name name' c, lower name' = lower name ->
  class_for (register_class name c reg) super name' = c.
Proof. exact class_registered. Qed.
Print Assumptions C32_registered.

Theorem C32_derived : forall reg super name name' c,
  dget (lower name') super = Some (lower name) -> dget (lower name') reg = None ->
  class_for (register_class name c reg) super name' = c.
Proof. exact class_derived. Qed.
Print Assumptions C32_derived.

Theorem C32_others_unaffected : forall reg super name name' c, lower name' <> lower name ->
  (dget (lower name') super = Some (lower name) -> dget (lower name') reg <> None) ->
  class_for (register_class name c reg) super name' = class_for reg super name'.
Proof. exact class_other. Qed.
Print Assumptions C32_others_unaffected.

Theorem C32_unregister_undoes : forall reg super name name' c,
  NoDup (dkeys reg) -> dget (lower name) reg = None ->
  class_for (unregister_class name (register_class name c reg)) super name' = class_for reg super name'.
Proof. exact class_unregister. Qed.
Print Assumptions C32_unregister_undoes.

Example C32_ex :
  let super := [("root.sql", "root.datafile")] in
  let reg := run_reg [Register "Root.Datafile" (CUser "D"); Register "Root.Title" (CUser "T"); Unregister "root.TITLE"]
                     default_classes in
  class_for reg super "ROOT.DataFile" = CUser "D" /\ class_for reg super "Root.Sql" = CUser "D"
  /\ class_for reg super "Root.Title" = CTerm /\ class_for reg super "Root.Section" = CSection.
Proof. vm_compute. auto. Qed.
