(** * MaintFacts: identifiers, versions, names and writing (C40 - C42, C44, C45) *)

From Verif Require Import ListFacts StrFacts HeapFacts SpecNames NameFacts RunFacts SpecInv InvFacts ChildFacts ListOps SpecFind SpecEdit OpFacts SecFacts FindFacts AddFacts EditFacts StepFacts DocProps SpecDict DictFacts SpecMaint Maint.

Ltac patq a b := apply (tidy_qualified _ a b); [reflexivity|apply dot_free_iff; vm_compute; reflexivity|apply dot_free_iff; vm_compute; reflexivity|discriminate|apply tidy_iff; vm_compute; split; reflexivity|apply tidy_iff; vm_compute; split; reflexivity].

Section WithQuirks.
Context {QK : Quirks}.

(** ** Searches do not look at values *)

Record revalued (s s' : st) : Prop := {
  rv_doc : s_doc s' = s_doc s;
  rv_len : hlen s' = hlen s;
  rv_rec : forall j, exists v, tget j s' = set_t_val v (tget j s) /\ (is_section_cls (t_cls (tget j s)) = true -> v = t_val (tget j s))
}.
Lemma set_same_val : forall r, set_t_val (t_val r) r = r.
Proof. destruct r; reflexivity. Qed.
Lemma revalued_refl : forall s, revalued s s.
Proof. intros s. constructor; auto. intros j. exists (t_val (tget j s)). split; [symmetry; apply set_same_val|reflexivity]. Qed.
Lemma revalued_set : forall s i v, is_section_cls (t_cls (tget i s)) = false -> revalued s (hmod i (set_t_val v) s).
Proof.
  intros s i v P. constructor; [apply doc_hmod|apply hlen_hmod|]. intros j. rewrite tget_hmod_any. destruct ((j =? i) && (i <? hlen s)) eqn:E.
  - apply andb_true_iff in E. destruct E as [E _]. apply Nat.eqb_eq in E. subst j. exists v. split; [reflexivity|congruence].
  - exists (t_val (tget j s)). split; [symmetry; apply set_same_val|reflexivity].
Qed.
Lemma revalued_trans : forall a b c, revalued a b -> revalued b c -> revalued a c.
Proof.
  intros a b c [D1 L1 R1] [D2 L2 R2]. constructor; [congruence|congruence|]. intros j. destruct (R1 j) as (v & E & S), (R2 j) as (w & F & T). exists w. rewrite F, E. split; [reflexivity|].
  intros X. rewrite T; [|rewrite E; exact X]. rewrite E. cbn. apply S. exact X.
Qed.

Section Revalued.
  Variables s s' : st.
  Hypothesis R : revalued s s'.
  Lemma rv_field : forall {A} (f : trec -> A) j, (forall v r, f (set_t_val v r) = f r) -> f (tget j s') = f (tget j s).
  Proof. intros A f j F. destruct (rv_rec s s' R j) as (v & -> & _). apply F. Qed.
  Lemma rv_sec : forall j, is_section_cls (t_cls (tget j s)) = true -> tget j s' = tget j s.
  Proof. intros j S. destruct (rv_rec s s' R j) as (v & -> & E). rewrite (E S). apply set_same_val. Qed.

  Lemma rv_descendents : forall f i, descendents f (s_heap s') i = descendents f (s_heap s) i.
  Proof.
    induction f as [|f IH]; intros i; [reflexivity|]. cbn [descendents]. fold (tget i s') (tget i s). rewrite (rv_field t_children i) by reflexivity.
    generalize (t_children (tget i s)). induction l as [|c l IHl]; [reflexivity|]. rewrite IH, IHl. reflexivity.
  Qed.
  Lemma rv_fuel : heap_fuel (s_heap s') = heap_fuel (s_heap s).
  Proof. unfold heap_fuel. f_equal. exact (rv_len s s' R). Qed.

  Hypothesis O : in_order s.
  Lemma rv_secs : secs s' = secs s.
  Proof. unfold secs. rewrite (rv_doc s s' R). reflexivity. Qed.
  Lemma rmap_ext_in : forall {A B} (f g : A -> res B) l, (forall x, In x l -> f x = g x) -> rmap f l = rmap g l.
  Proof. intros A B f g. induction l as [|a l IH]; intros E; [reflexivity|]. cbn [rmap]. rewrite (E a (or_introl eq_refl)), IH; [reflexivity|]. intros x I. apply E. right. exact I. Qed.
  Lemma rfilter_ext_in : forall {A} (f g : A -> res bool) l, (forall x, In x l -> f x = g x) -> rfilter f l = rfilter g l.
  Proof. intros A f g. induction l as [|a l IH]; intros E; [reflexivity|]. cbn [rfilter]. rewrite (E a (or_introl eq_refl)), IH; [reflexivity|]. intros x I. apply E. right. exact I. Qed.

  Lemma rv_all_terms : all_terms s' = all_terms s.
  Proof.
    unfold all_terms. fold (secs s') (secs s). rewrite rv_secs. rewrite (rmap_ext_in (fun kv => section_all_terms (s_heap s') (snd kv)) (fun kv => section_all_terms (s_heap s) (snd kv))); [reflexivity|].
    intros [k i] I. cbn [snd]. unfold section_all_terms. fold (tget i s') (tget i s). destruct (ok_section s (io_ok s O) k i I) as ((_ & S) & _). rewrite (rv_sec i S), rv_fuel.
    rewrite (rmap_ext_in _ (fun t => do? ds <- descendents (heap_fuel (s_heap s)) (s_heap s) t;; Ok (t :: ds))); [reflexivity|]. intros t _. rewrite rv_descendents. reflexivity.
  Qed.

  Definition sure (i : nat) : Prop := match t_section (tget i s) with None => True | Some j => is_sec s j end.
  Lemma rv_find_test : forall p sa i, sure i -> find_test (s_heap s') p VFalse sa i = find_test (s_heap s) p VFalse sa i.
  Proof.
    intros p sa i S. unfold find_test. fold (tget i s') (tget i s). rewrite (rv_field join_lc i) by reflexivity. rewrite (rv_field t_section i) by reflexivity.
    rewrite (rv_field (fun r => term_is r p) i) by reflexivity. destruct (eqs (join_lc (tget i s)) "root.root"); [reflexivity|]. destruct (negb _); [reflexivity|]. destruct (term_is (tget i s) p) as [[|]|]; [|reflexivity|reflexivity]. cbn [rbind].
    assert (E : in_section (s_heap s') (tget i s') sa = in_section (s_heap s) (tget i s) sa).
    { unfold in_section. rewrite (rv_field t_section i) by reflexivity. unfold sure in S. destruct sa as [|n|l]; [reflexivity| |].
      - destruct (t_section (tget i s)) as [j|]; [|reflexivity]. fold (tget j s') (tget j s). destruct S as (_ & S). rewrite (rv_sec j S). reflexivity.
      - destruct (t_section (tget i s)) as [j|]; [|reflexivity]. destruct S as (_ & S). induction l as [|n l IH]; [reflexivity|]. fold (tget j s') (tget j s) in *. rewrite (rv_sec j S) in *. destruct (as_str _); [|reflexivity]. cbn [rbind]. destruct (eqs _ _); [reflexivity|]. exact IH. }
    rewrite E. reflexivity.
  Qed.
  Lemma plain_sure : forall i, is_plain s i -> sure i.
  Proof. intros i P. unfold sure. destruct (ok_plain s (io_ok s O) i P) as (j & -> & S). exact S. Qed.
  Lemma in_all_sure : forall l i, all_terms s = Ok l -> In i l -> sure i.
  Proof.
    intros l i E I. destruct (c51_any s (io_ok s O)) as (l' & E' & _ & _ & M & _). rewrite E' in E. injection E as <-. apply M in I. destruct I as [(k & I & _)|(t & _ & _ & T & _ & _ & X)].
    - destruct (nm_sections s (io_names s O) k i I) as (_ & _ & S). exact S.
    - apply plain_sure. destruct X as [->|X]; [apply (ok_listed s (io_ok s O) t T)|]. inversion X as [c C|c d U C]; subst; apply (ok_child s (io_ok s O) _ _ C).
  Qed.
  Lemma rv_find1 : forall p sa, find1 s' p VFalse sa = find1 s p VFalse sa.
  Proof.
    intros p sa. unfold find1. rewrite rv_all_terms, (rv_doc s s' R). destruct (startswith _ _).
    - cbn [rbind]. apply rfilter_ext_in. intros i I. apply rv_find_test. apply plain_sure. apply (ok_listed s (io_ok s O) i I).
    - destruct (all_terms s) as [l|] eqn:E; [|reflexivity]. cbn [rbind]. apply rfilter_ext_in. intros i I. apply rv_find_test. eapply in_all_sure; eassumption.
  Qed.
  Lemma rv_find : forall p sa, doc_find s' p VFalse sa = doc_find s p VFalse sa.
  Proof.
    intros p sa. unfold doc_find. rewrite (rv_doc s s' R). destruct (dget _ _); [|apply rv_find1]. unfold find_list. rewrite (rmap_ext_in _ (fun e => find1 s e VFalse sa)); [reflexivity|]. intros e _. apply rv_find1.
  Qed.
  Lemma rv_find_first : forall p sa, doc_find_first s' p VFalse sa = doc_find_first s p VFalse sa.
  Proof. intros p sa. unfold doc_find_first. rewrite rv_find. reflexivity. Qed.
  Lemma rv_get_section : forall v, get_section v s' = get_section v s.
  Proof. intros v. unfold get_section. rewrite (rv_doc s s' R). reflexivity. Qed.
  Lemma rv_section_get_term : forall k i p, In (k, i) (secs s) -> section_get_term s' i p VFalse = section_get_term s i p VFalse.
  Proof. intros k i p I. unfold section_get_term, section_name. rewrite rv_sec by (apply (ok_section s (io_ok s O) k i I)). apply rv_find_first. Qed.
  Lemma rv_term_find_first : forall i p, term_find_first (s_heap s') i p VFalse = term_find_first (s_heap s) i p VFalse.
  Proof.
    intros i p. unfold term_find_first. fold (tget i s') (tget i s). rewrite (rv_field (fun r => child_name r p) i) by reflexivity. destruct (child_name (tget i s) p) as [n|]; [|reflexivity]. cbn [rbind]. f_equal.
    rewrite (rv_field t_children i) by reflexivity. generalize (t_children (tget i s)). induction l as [|c l IH]; [reflexivity|]. cbn [find]. unfold child_matches at 1 3. fold (tget c s') (tget c s).
    rewrite (rv_field rt_lc c) by reflexivity. rewrite IH. reflexivity.
  Qed.
End Revalued.

(** ** Terms of the root section *)

Lemma top_of : forall term n, split_term_lower term = Ok ("root", n) -> top_name term.
Proof. intros term n H. exists n. apply split_term_lower_spec. exact H. Qed.
Lemma not_root_of : forall term n, split_term_lower term = Ok ("root", n) -> n <> "root" -> ~ cell_names term "root" "root".
Proof. intros term n H N C. apply split_term_lower_spec in C. rewrite H in C. injection C as ->. contradiction. Qed.

Lemma find_ok : forall s p sa, in_order s -> tidy_pattern p -> dget (lower p) (d_derived (s_doc s)) = None -> exists r, doc_find s p VFalse sa = Ok r.
Proof. intros s p sa O T D. destruct (c27_find s p VFalse sa O T D) as (l & r & E & _). exists r. exact E. Qed.

Lemma set_val_order : forall s i v, in_order s -> is_plain s i -> in_order (hmod i (set_t_val v) s).
Proof. intros s i v O P. eapply order_edits; [|exact O]. eapply edits_more; [apply edits_none|]. eapply (ed_set_value s _ i v); [exact P|]. apply modT_run. Qed.

(** a search at the top level gives plain terms of the document *)
Lemma found_plain : forall s p sa i, in_order s -> top_name p -> tidy_pattern p -> dget (lower p) (d_derived (s_doc s)) = None -> doc_find_first s p VFalse sa = Ok (Some i) -> is_plain s i /\ In i (listed s).
Proof.
  intros s p sa i O (n & CN) T D H. destruct (cell_denotes p n CN T) as (TP & _). destruct (find_ok s p sa O T D) as (r & E). rewrite (find_first_spec s p VFalse sa r E) in H. destruct r as [|x r]; [discriminate H|]. injection H as ->.
  unfold doc_find in E. rewrite D in E. apply (find1_top s p VFalse sa _ (io_ok s O) (io_names s O) TP) in E. assert (I : In i (i :: r)) by (left; reflexivity). eapply picked_in in I; [|exact E].
  destruct I as (I & _). split; [apply (ok_listed s (io_ok s O) i I)|exact I].
Qed.

Lemma make_root_term : forall sa s r item n v, sa = SAny \/ sa = SOne "Root" -> in_order s -> dget "root" (secs s) = Some r -> split_term_lower item = Ok ("root", n) -> n <> "root" -> tidy_pattern item -> findable s item ->
  doc_find_first s item VFalse sa = Ok None ->
  exists s', Ops.new_term r item v [] s = (s', Ok (hlen s)) /\ doc_find_first s' item VFalse sa = Ok (Some (hlen s)) /\ in_order s'
    /\ stored v (t_val (tget (hlen s) s')) /\ is_plain s' (hlen s) /\ s_doc s' = set_d_terms (listed s ++ [hlen s]) (s_doc s)
    /\ tget r s' = set_t_terms (t_terms (tget r s) ++ [hlen s]) (tget r s) /\ (forall j, j < hlen s -> j <> r -> tget j s' = tget j s) /\ hlen s' = S (hlen s)
    /\ t_section (tget (hlen s) s') = Some r.
Proof.
  intros sa s r item n v SA O RS SP NR TP (DE & CL) F. pose proof (dget_in _ _ _ RS) as I. pose proof (top_of item n SP) as TN.
  destruct (new_term_run s "root" r item v n (io_ok s O) I plain_root) as (s' & H); [apply split_term_lower_spec; exact SP|exact CL|]. exists s'. split; [exact H|].
  destruct (c20_effect s "root" r item v [] s' (hlen s) O I plain_root TN H) as (_ & E1 & E2 & E3 & (E4 & E5 & E6 & E7) & _ & E8).
  destruct (ok_section s (io_ok s O) "root" r I) as ((LR & _) & _ & _ & nm & V & LN).
  assert (O' : in_order s'). { eapply order_edits; [|exact O]. eapply edits_more; [apply edits_none|]. eapply (ed_new_term s s' "root" r item); try eassumption; exact plain_root. }
  assert (VR : t_val (tget r s') = VStr nm) by (rewrite E2; exact V).
  assert (P' : In (hlen s) (listed s')) by (unfold listed; rewrite E1; cbn; apply in_or_app; right; left; reflexivity).
  split.
  - destruct (find_ok s item sa O TP DE) as (l & L). rewrite (find_first_spec _ _ _ _ _ L) in F. destruct l as [|x l]; [|discriminate F].
    destruct (c20_found s "root" r item v [] s' (hlen s) VFalse sa O I plain_root TN TP (not_root_of item n SP NR)) as (m & M); [rewrite DE; discriminate|exact H|left; reflexivity| |].
    + destruct SA as [->| ->]; [exact Logic.I|]. exists r, nm. split; [exact E7|]. split; [exact VR|]. rewrite LN. reflexivity.
    + destruct (c20_others s "root" r item v [] s' (hlen s) item VFalse sa [] O I plain_root TN TN TP DE H L) as [X|X]; rewrite (find_first_spec _ _ _ _ _ X); [|reflexivity].
      rewrite X in M. injection M as M. destruct m; discriminate M.
  - split; [exact O'|]. split; [exact E6|]. split; [apply (ok_listed s' (io_ok s' O') _ P')|]. split; [exact E1|]. split; [exact E2|]. split; [exact E3|]. split; [cbn in E8; lia|exact E7].
Qed.

(** ** ensure_identifier (C45) *)

Lemma ident_top : top_name "Root.Identifier".
Proof. eapply top_of. vm_compute. reflexivity. Qed.
Lemma ident_tidy : tidy_pattern "Root.Identifier".
Proof. patq "Root" "Identifier". Qed.

Lemma bind_reads : forall {A B} (f : st -> res A) (k : A -> MM B) s a, f s = Ok a -> bind (reads f) k s = k a s.
Proof. intros A B f k s a E. unfold bind, reads. rewrite E. reflexivity. Qed.
Lemma hmod_set_same : forall i s, hmod i (set_t_val (t_val (tget i s))) s = s.
Proof. intros i s. apply hmod_id. apply set_same_val. Qed.
Lemma assert_true : forall b (s : st), b = true -> assert_ b s = (s, Ok tt).
Proof. intros b s ->. reflexivity. Qed.

(** the end: give the term a value if it has none *)
Definition fill_value (uuid : string) (i : nat) : MM unit :=
  q <- getT i ;;
  (if truthy (t_val q) then ret tt else modT i (set_t_val (VStr uuid))) ;;;
  q <- getT i ;;
  assert_ (truthy (t_val q)).
Lemma fill_value_old : forall uuid i s, truthy (t_val (tget i s)) = true -> fill_value uuid i s = (s, Ok tt).
Proof. intros uuid i s T. unfold fill_value. rewrite bind_getT, T. change (bind (ret tt) ?k s) with (k tt s). cbv beta. rewrite bind_getT. apply assert_true. exact T. Qed.
Lemma fill_value_new : forall uuid i s, i < hlen s -> uuid <> "" -> truthy (t_val (tget i s)) = false -> fill_value uuid i s = (hmod i (set_t_val (VStr uuid)) s, Ok tt).
Proof.
  intros uuid i s L N T. unfold fill_value. rewrite bind_getT, T, bind_modT. cbv beta. rewrite bind_getT. apply assert_true. rewrite tget_hmod by exact L. rewrite Nat.eqb_refl. cbn. destruct uuid; [contradiction|reflexivity].
Qed.

Lemma identifier_kept : forall s uuid i, identifier s i -> truthy (t_val (tget i s)) = true -> ensure_identifier uuid s = (s, Ok tt).
Proof. intros s uuid i F T. unfold ensure_identifier. rewrite (bind_reads _ _ _ _ F). change (bind (ret i) ?k s) with (k i s). apply fill_value_old. exact T. Qed.

Lemma identifier_filled : forall s uuid i, in_order s -> findable s "Root.Identifier" -> uuid <> "" -> identifier s i -> truthy (t_val (tget i s)) = false ->
  ensure_identifier uuid s = (hmod i (set_t_val (VStr uuid)) s, Ok tt) /\ in_order (hmod i (set_t_val (VStr uuid)) s) /\ identifier (hmod i (set_t_val (VStr uuid)) s) i /\ is_plain s i.
Proof.
  intros s uuid i O FD NU F T. destruct (found_plain s "Root.Identifier" (SOne "Root") i O ident_top ident_tidy (proj1 FD) F) as (P & _). split.
  - unfold ensure_identifier. rewrite (bind_reads _ _ _ _ F). change (bind (ret i) ?k s) with (k i s). apply fill_value_new; [apply P|exact NU|exact T].
  - split; [apply set_val_order; assumption|]. split; [|exact P]. unfold identifier. rewrite (rv_find_first s _ (revalued_set s i _ (proj2 P)) O). exact F.
Qed.

Lemma identifier_made : forall s uuid r, in_order s -> findable s "Root.Identifier" -> uuid <> "" -> dget "root" (secs s) = Some r -> no_identifier s ->
  exists s1 s', Ops.new_term r "Root.Identifier" VNone [] s = (s1, Ok (hlen s)) /\ s' = hmod (hlen s) (set_t_val (VStr uuid)) s1
    /\ ensure_identifier uuid s = (s', Ok tt) /\ in_order s' /\ identifier s' (hlen s) /\ t_val (tget (hlen s) s') = VStr uuid.
Proof.
  intros s uuid r O FD NU RS F. destruct (make_root_term (SOne "Root") s r "Root.Identifier" "identifier" VNone (or_intror eq_refl) O RS eq_refl ltac:(discriminate) ident_tidy FD F) as (s1 & H & F1 & O1 & V1 & P1 & _ & _ & _ & L1 & _).
  exists s1, (hmod (hlen s) (set_t_val (VStr uuid)) s1). split; [exact H|]. split; [reflexivity|].
  assert (T : truthy (t_val (tget (hlen s) s1)) = false) by (inversion V1; subst; reflexivity).
  split; [|split; [apply set_val_order; assumption|]].
  - unfold ensure_identifier. rewrite (bind_reads _ _ _ _ F). unfold bind at 1. unfold root_section. unfold bind at 1. unfold reads at 1. unfold get_section. cbn [as_str rbind]. unfold secs in RS. change (lower "Root") with "root". rewrite RS, H.
    apply fill_value_new; [rewrite L1; lia|exact NU|exact T].
  - split; [unfold identifier; rewrite (rv_find_first s1 _ (revalued_set s1 _ _ (proj2 P1)) O1); exact F1|]. rewrite tget_hmod by (rewrite L1; lia). rewrite Nat.eqb_refl. reflexivity.
Qed.

Lemma c45 : forall s uuid r, in_order s -> findable s "Root.Identifier" -> uuid <> "" -> dget "root" (secs s) = Some r ->
  exists s' i, ensure_identifier uuid s = (s', Ok tt) /\ in_order s' /\ identifier s' i /\ truthy (t_val (tget i s')) = true
    /\ (forall j, identifier s j -> i = j /\ s_doc s' = s_doc s /\ (truthy (t_val (tget j s)) = true -> s' = s)
          /\ forall x, tget x s' = if x =? j then (if truthy (t_val (tget j s)) then tget j s else set_t_val (VStr uuid) (tget j s)) else tget x s)
    /\ (no_identifier s -> i = hlen s /\ t_val (tget i s') = VStr uuid /\ listed s' = (listed s ++ [i])%list /\ forall x, x < hlen s -> x <> r -> tget x s' = tget x s)
    /\ forall uuid', ensure_identifier uuid' s' = (s', Ok tt).
Proof.
  intros s uuid r O FD NU RS. destruct (find_ok s "Root.Identifier" (SOne "Root") O ident_tidy (proj1 FD)) as (l & L). pose proof (find_first_spec _ _ _ _ _ L) as F. destruct l as [|i l]; cbn [hd_error] in F.
  - destruct (identifier_made s uuid r O FD NU RS F) as (s1 & s' & H & E & RUN & O' & F' & V). exists s', (hlen s). split; [exact RUN|]. split; [exact O'|]. split; [exact F'|].
    assert (T : truthy (t_val (tget (hlen s) s')) = true) by (rewrite V; destruct uuid; [contradiction|reflexivity]). split; [exact T|].
    split; [intros j J; unfold identifier in J; congruence|]. split; [|intros; eapply identifier_kept; eassumption].
    intros _. split; [reflexivity|]. split; [exact V|]. destruct (c20_effect s "root" r _ VNone [] s1 (hlen s) O (dget_in _ _ _ RS) plain_root ident_top H) as (_ & E1 & _ & E3 & _ & _ & E8).
    split; [subst s'; unfold listed; rewrite doc_hmod, E1; reflexivity|]. intros x X N. subst s'. rewrite tget_hmod by (cbn in E8; lia). replace (x =? hlen s) with false by (symmetry; apply Nat.eqb_neq; lia). apply E3; assumption.
  - destruct (truthy (t_val (tget i s))) eqn:T.
    + exists s, i. split; [eapply identifier_kept; eassumption|]. split; [exact O|]. split; [exact F|]. split; [exact T|]. split; [|split; [intros X; unfold no_identifier in X; congruence|intros; eapply identifier_kept; eassumption]].
      intros j J. assert (i = j) by (unfold identifier in J; congruence). subst j. rewrite T. repeat split. intros x. destruct (Nat.eqb_spec x i) as [->|]; reflexivity.
    + destruct (identifier_filled s uuid i O FD NU F T) as (RUN & O' & F' & P). set (s' := hmod i (set_t_val (VStr uuid)) s) in *. exists s', i. split; [exact RUN|]. split; [exact O'|]. split; [exact F'|].
      assert (G : forall x, tget x s' = if x =? i then set_t_val (VStr uuid) (tget i s) else tget x s) by (intros x; unfold s'; rewrite tget_hmod by apply P; destruct (Nat.eqb_spec x i) as [->|]; reflexivity).
      assert (T' : truthy (t_val (tget i s')) = true) by (rewrite G, Nat.eqb_refl; cbn; destruct uuid; [contradiction|reflexivity]). split; [exact T'|]. split; [|split; [intros X; unfold no_identifier in X; congruence|intros; eapply identifier_kept; eassumption]].
      intros j J. assert (i = j) by (unfold identifier in J; congruence). subst j. rewrite T. split; [reflexivity|]. split; [apply doc_hmod|]. split; [discriminate|exact G].
Qed.

End WithQuirks.
