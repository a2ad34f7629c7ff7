(** * PropNames: C01 (names of terms) and C02 (term_is) *)

From Verif Require Import SpecNames NameFacts ConstructFacts Ops Parser.

(** ** C01 *)

(** the text of a cell determines its parent and record name, as [cell_names]
    (SpecNames.v) says *)
Theorem C01_cell_names : forall s p r,
  split_term_lower s = Ok (p, r) <-> cell_names s p r.
Proof. exact split_term_lower_spec. Qed.
Print Assumptions C01_cell_names.

Example C01_cell_names_ex1 : cell_names " Table . Column " "table" "column".
Proof. apply C01_cell_names. vm_compute. reflexivity. Qed.
Example C01_cell_names_ex2 : cell_names ".Note" current_parent "note".
Proof. apply C01_cell_names. vm_compute. reflexivity. Qed.
Example C01_cell_names_ex3 : cell_names "TITLE" "root" "title".
Proof. apply C01_cell_names. vm_compute. reflexivity. Qed.

(** exactly the cells with two or more dots are rejected, with ValueError, and
    nothing else can happen *)
Theorem C01_two_dots_rejected : forall s,
  (split_term_lower s = Err EValue <-> 2 <= dots s)
  /\ (split_term_lower s = Err EValue \/ exists p r, split_term_lower s = Ok (p, r)).
Proof. intros s. exact (conj (split_term_lower_err s) (split_term_lower_total s)). Qed.
Print Assumptions C01_two_dots_rejected.

Example C01_two_dots_ex : 2 <= dots "a.b.c" /\ split_term_lower "a.b.c" = Err EValue.
Proof. vm_compute. split; [auto|reflexivity]. Qed.

(** case and outer white space do not matter *)
Theorem C01_case_and_space : forall u s v s',
  white u -> white v -> lower s = lower s' ->
  split_term_lower (u ++ s ++ v) = split_term_lower s'.
Proof. exact split_term_lower_insensitive. Qed.
Print Assumptions C01_case_and_space.

Example C01_case_and_space_ex :
  white "  " /\ lower "Table.Column" = lower "TABLE.column"
  /\ split_term_lower ("  " ++ "Table.Column" ++ " ") = Ok ("table", "column").
Proof. split; [repeat constructor|]. split; vm_compute; reflexivity. Qed.

(** normalize_term gives parent.record, and doing it again changes nothing *)
Theorem C01_normalize : forall s n,
  normalize_term s = Ok n <-> exists p r, cell_names s p r /\ n = (p ++ "." ++ r)%string.
Proof. exact normalize_spec. Qed.
Print Assumptions C01_normalize.

Theorem C01_normalize_idempotent : forall s n,
  normalize_term s = Ok n -> normalize_term n = Ok n.
Proof. exact normalize_idem. Qed.
Print Assumptions C01_normalize_idempotent.

Example C01_normalize_ex : normalize_term " Title " = Ok "root.title".
Proof. vm_compute. reflexivity. Qed.

(** every way of making a term object gives it these names; only a plain name
    under a parent takes the parent's record name instead of "root" *)
Theorem C01_new_terms : forall c term value args row col ftype parent doc section s s' i,
  construct c term value args row col ftype parent doc section s = (s', Ok i) ->
  exists p, cell_names term p (t_rt (tget i s'))
    /\ t_pt (tget i s') = match parent with
                          | Some j => if eqs p "root" then t_rt (tget j s) else p
                          | None => p
                          end.
Proof. exact construct_names. Qed.
Print Assumptions C01_new_terms.

Example C01_new_terms_ex : exists s' i,
  construct CTerm " Table.Column" (VStr "x") [] None None None None true (Some 0) (init_st default_classes) = (s', Ok i)
  /\ t_rt (tget i s') = "column" /\ t_pt (tget i s') = "table".
Proof. eexists. eexists. split; [vm_compute; reflexivity|]. split; vm_compute; reflexivity. Qed.

(** ** C02 *)

(** for a tidy pattern term_is always answers, and says yes exactly for the
    names the pattern denotes.  [dot_free] holds of the names of all terms made
    by the library, see C02_names_dot_free. *)
Theorem C02_term_is : forall r p,
  dot_free (t_pt r) -> tidy_pattern p ->
  exists b, term_is r p = Ok b /\ (b = true <-> denotes p (t_pt r) (t_rt r)).
Proof. intros r. exact (term_is_decides (t_pt r) (t_rt r)). Qed.
Print Assumptions C02_term_is.

(** a list of patterns: any of them *)
Theorem C02_term_is_list : forall r ps,
  dot_free (t_pt r) -> Forall tidy_pattern ps ->
  exists b, term_is_any (t_pt r) (t_rt r) ps = Ok b
    /\ (b = true <-> Exists (fun p => denotes p (t_pt r) (t_rt r)) ps).
Proof. intros r. exact (term_is_any_decides (t_pt r) (t_rt r)). Qed.
Print Assumptions C02_term_is_list.

Theorem C02_two_dots : forall r p, 2 <= dots p -> term_is r p = Err EValue.
Proof. intros r. exact (term_is_many (t_pt r) (t_rt r)). Qed.
Print Assumptions C02_two_dots.

Theorem C02_names_dot_free : forall c term value args row col ftype parent doc section s s' i,
  construct c term value args row col ftype parent doc section s = (s', Ok i) ->
  (forall j, parent = Some j -> dot_free (t_rt (tget j s))) ->
  dot_free (t_pt (tget i s')) /\ dot_free (t_rt (tget i s')).
Proof. exact construct_dot_free. Qed.
Print Assumptions C02_names_dot_free.

(** the pattern "*.Column" covers table.column but not table.table *)
Example C02_ex :
  let r := set_t_pt "Table" (set_t_rt "Column" dummy_t) in
  dot_free (t_pt r) /\ tidy_pattern "*.COLUMN" /\ term_is r "*.COLUMN" = Ok true
  /\ term_is r "table.*" = Ok true /\ term_is r "column" = Ok false /\ term_is r "*.table" = Ok false.
Proof.
  split; [apply dot_free_iff; reflexivity|]. split; [|vm_compute; auto].
  apply (tidy_qualified _ "*" "COLUMN"); try reflexivity; try discriminate;
    try (apply dot_free_iff; reflexivity); apply tidy_iff; split; reflexivity.
Qed.

(** white space around a part makes a literal pattern miss its term: the
    restriction to tidy patterns cannot be dropped *)
Theorem C02_untidy_pattern_refuted :
  exists r p, dot_free (t_pt r) /\ dot_free (t_rt r)
    /\ cell_names p (lower (t_pt r)) (lower (t_rt r)) /\ term_is r p = Ok false.
Proof.
  exists (set_t_pt "root" (set_t_rt "title" dummy_t)), " title".
  split; [apply dot_free_iff; reflexivity|]. split; [apply dot_free_iff; reflexivity|].
  split; [apply split_term_lower_spec|]; vm_compute; reflexivity.
Qed.
Print Assumptions C02_untidy_pattern_refuted.
