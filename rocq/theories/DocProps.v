(** * DocProps: the statements of C20 - C28, C53 and C54 from the facts about
    the operations *)

From Coq Require Import Permutation.
From Verif Require Import ListFacts StrFacts HeapFacts SpecNames NameFacts SpecOrder OrderFacts Ops Parser ConstructFacts RunFacts EmitFacts RowFacts TotalFacts FrameFacts SpecInv InvFacts ChildFacts ListOps SpecFind SpecEdit OpFacts SecFacts FindFacts AddFacts EditFacts StepFacts.

Section WithQuirks.
Context {QK : Quirks}.

Lemma init_val_stored : forall v, stored v (init_val v).
Proof.
  intros [|x|z| |i]; try constructor.
  - destruct (string_dec x "") as [->|N]; [constructor|]. unfold init_val. cbn [truthy strip_val]. destruct x; [congruence|]. constructor; [discriminate|]. apply trimmed_iff. reflexivity.
  - unfold init_val. cbn [truthy strip_val]. destruct (Z.eqb_spec z 0) as [->|N]; cbn [negb]; constructor. exact N.
Qed.
Lemma text_of_text : forall v, as_text v (text_of v).
Proof. intros [|x|z| |i]; cbn [text_of]; try constructor; try discriminate. Qed.

(** ** C20 *)

Lemma c20_effect : forall s k sec term value kw s' t, in_order s -> In (k, sec) (secs s) -> ~ odd k -> top_name term ->
  Ops.new_term sec term value kw s = (s', Ok t) ->
  t = hlen s
  /\ s_doc s' = set_d_terms (listed s ++ [t]) (s_doc s)
  /\ tget sec s' = set_t_terms (t_terms (tget sec s) ++ [t]) (tget sec s)
  /\ (forall j, j < hlen s -> j <> sec -> tget j s' = tget j s)
  /\ (t_pt (tget t s') = "root" /\ cell_names term "root" (t_rt (tget t s')) /\ stored value (t_val (tget t s')) /\ t_section (tget t s') = Some sec)
  /\ Forall2 (fun kv c => hlen s < c /\ t_parent (tget c s') = Some t /\ (exists p, cell_names (fst kv) p (t_rt (tget c s')))
       /\ (exists x, as_text (snd kv) x /\ stored x (t_val (tget c s'))) /\ t_children (tget c s') = []) kw (t_children (tget t s'))
  /\ hlen s' = S (hlen s + List.length kw).
Proof.
  intros s k sec term value kw s' t [K N D] I OD (n0 & TN) H.
  destruct (new_term_ok s k sec term value kw s' t K I OD (cell_names_root _ _ TN) H) as (_ & -> & c & n & R & Rs & C & CN & ER & F & ->).
  pose proof (secs_lt s k sec K I) as L.
  destruct (with_meta_fields (s_doc s) (t_dtvn (tget sec s)) (set_t_children (seq (S (hlen s)) (List.length kw)) (fresh_plain c term "root" n value [] None None None None true (Some sec)))) as (a & b & W).
  rewrite W in ER. pose proof (Forall2_len _ _ _ F) as LF.
  split; [reflexivity|]. split; [apply appended_doc|]. split; [apply appended_sec; exact L|]. split; [intros j J NE; apply appended_old; assumption|].
  rewrite appended_new by exact L. split; [rewrite ER; cbn; split; [reflexivity|]; split; [exact CN|]; split; [apply init_val_stored|reflexivity]|].
  split; [|rewrite appended_hlen; lia].
  assert (CH : t_children R = seq (S (hlen s)) (List.length kw)) by (rewrite ER; reflexivity). rewrite CH.
  assert (G : forall kw' Rs' o, Forall2 (fun kv Q => child_rec (hlen s) R (fst kv) (text_of (snd kv)) Q) kw' Rs' ->
     (forall m, m < List.length Rs' -> tget (S (hlen s) + o + m) (appended (hlen s) sec R Rs s) = nth m Rs' dummy_t) ->
     Forall2 (fun kv c => hlen s < c /\ t_parent (tget c (appended (hlen s) sec R Rs s)) = Some (hlen s) /\ (exists p, cell_names (fst kv) p (t_rt (tget c (appended (hlen s) sec R Rs s))))
       /\ (exists x, as_text (snd kv) x /\ stored x (t_val (tget c (appended (hlen s) sec R Rs s)))) /\ t_children (tget c (appended (hlen s) sec R Rs s)) = []) kw' (seq (S (hlen s) + o) (List.length kw'))).
  { intros kw' Rs' o F'. revert o. induction F' as [|kv Q kw' Rs' CR _ IH]; intros o G; cbn [List.length seq]; constructor.
    - pose proof (G 0 ltac:(cbn; lia)) as E. rewrite Nat.add_0_r in E. cbn [nth] in E. rewrite E. destruct CR as (c0 & p0 & p & m & tvn & _ & CN0 & _ & _ & ->). cbn.
      split; [lia|]. split; [reflexivity|]. split; [exists p0; exact CN0|]. split; [|reflexivity]. exists (text_of (snd kv)). split; [apply text_of_text|apply init_val_stored].
    - replace (S (S (hlen s) + o)) with (S (hlen s) + S o) by lia. apply IH. intros m Lm. specialize (G (S m) ltac:(cbn; lia)). cbn [nth] in G. rewrite <- G. f_equal. lia. }
  specialize (G kw Rs 0 F). rewrite Nat.add_0_r in G. apply G. intros m Lm. replace (S (hlen s) + 0 + m) with (S (hlen s) + m) by lia. apply appended_child; assumption.
Qed.

Lemma c20_found : forall s k sec term value kw s' t v sa, in_order s -> In (k, sec) (secs s) -> ~ odd k -> top_name term -> tidy_pattern term ->
  ~ cell_names term "root" "root" -> (forall ds, dget (lower term) (d_derived (s_doc s)) = Some ds -> Forall tidy_pattern ds) ->
  Ops.new_term sec term value kw s = (s', Ok t) -> value_is v (t_val (tget t s')) -> section_is s' sa t ->
  exists r, doc_find s' term v sa = Ok (r ++ [t]).
Proof.
  intros s k sec term value kw s' t v sa [K N D] I OD (n & TN) TP NR DE H V SA.
  destruct (new_term_found s k sec term value kw s' t K N I OD (cell_names_root _ _ TN) H) as (_ & _ & X & _).
  destruct (X n TN ltac:(intros ->; contradiction) DE TP v sa V SA) as (r & E). exists r. exact E.
Qed.

Lemma c20_others : forall s k sec term value kw s' t p v sa r, in_order s -> In (k, sec) (secs s) -> ~ odd k -> top_name term -> top_name p -> tidy_pattern p ->
  dget (lower p) (d_derived (s_doc s)) = None ->
  Ops.new_term sec term value kw s = (s', Ok t) -> doc_find s p v sa = Ok r -> doc_find s' p v sa = Ok r \/ doc_find s' p v sa = Ok (r ++ [t]).
Proof.
  intros s k sec term value kw s' t p v sa r O I OD TN (np & CP) TP DE H F. pose proof O as [K N D].
  destruct (c20_effect s k sec term value kw s' t O I OD TN H) as (_ & ED & _). destruct TN as (n & TN).
  destruct (new_term_found s k sec term value kw s' t K N I OD (cell_names_root _ _ TN) H) as (_ & _ & _ & X).
  unfold doc_find in *. rewrite ED. cbn [set_d_terms d_derived]. rewrite DE in *. apply X; [apply (cell_denotes p np CP TP)|exact F].
Qed.

(** ** C21 *)
Lemma c21_removed : forall s t, doc_ok s -> removable s t -> (forall p, t_parent (tget t s) = Some p -> t_doc (tget p s) = true) ->
  exists s', doc_remove_term t s = (s', Ok tt)
    /\ s_doc s' = set_d_terms (without t (listed s)) (s_doc s) /\ hlen s' = hlen s
    /\ (forall k i, In (k, i) (secs s) -> t_terms (tget i s') = without t (t_terms (tget i s)))
    /\ (forall j, t_children (tget j s') = without t (t_children (tget j s)))
    /\ (forall j, (forall k, ~ In (k, j) (secs s)) -> tget j s' = set_t_children (without t (t_children (tget j s))) (tget j s))
    /\ (forall k i, In (k, i) (secs s) -> tget i s' = set_t_terms (without t (t_terms (tget i s))) (set_t_children (without t (t_children (tget i s))) (tget i s)))
    /\ (forall p v sa r x, doc_find s' p v sa = Ok r -> x = t \/ under s t x -> ~ In x r)
    /\ (forall x, present s x -> x <> t -> ~ under s t x -> present s' x).
Proof.
  intros s t K RM PD. exists (removed t s). split; [apply remove_term_run; assumption|]. pose proof (proj1 RM) as P.
  assert (CH : forall j, t_children (tget j (removed t s)) = without t (t_children (tget j s))) by (intros j; apply removed_children; assumption).
  assert (TE : forall k i, In (k, i) (secs s) -> t_terms (tget i (removed t s)) = without t (t_terms (tget i s))) by (intros k i I; eapply removed_terms; eassumption).
  split; [rewrite removed_doc, without_first by apply (ok_list s K); reflexivity|]. split; [apply removed_hlen|]. split; [exact TE|]. split; [exact CH|].
  split. { intros j NS. destruct (removed_nothing_else s t j RM) as [E X]. rewrite E, CH, (X NS). destruct (tget j s); reflexivity. }
  split. { intros k i I. destruct (removed_nothing_else s t i RM) as [E _]. rewrite E at 1. rewrite CH, (TE k i I). reflexivity. }
  split; [intros p v sa r x F X; eapply removed_not_found; eassumption|]. intros x A B C. apply removed_other; assumption.
Qed.

(** ** C23 *)
Lemma get_or_new_section_clobbers : forall s n params i, doc_ok s -> lower n <> n -> dget (lower n) (secs s) = Some i ->
  exists s', get_or_new_section n params s = (s', Ok (hlen s)) /\ secs s' = dset (lower n) (hlen s) (secs s)
    /\ listed s' = listed s /\ t_terms (tget (hlen s) s') = [] /\ forall j, j < hlen s -> tget j s' = tget j s.
Proof.
  intros s n params i K L G.
  assert (B : dget n (secs s) = None).
  { destruct (dget n (secs s)) as [j|] eqn:E; [|reflexivity]. destruct L. exact (key_lower s n j K (dget_in _ _ _ E)). }
  set (R := section_rec n (old_columns (s_doc s) n params)).
  exists (dmod (fun d => set_d_sections (dset (lower n) (hlen s) (d_sections d)) d) (push R s)). split.
  - unfold get_or_new_section. fw. unfold dmem. change (d_sections (s_doc s)) with (secs s). rewrite B. cbn [negb when].
    eapply bind_fw; [eapply bind_fw; [apply mk_section_run|]; fold (old_columns (s_doc s) n params); fold R; rewrite modD_run; reflexivity|].
    fw. rewrite doc_dmod. cbn [d_sections set_d_sections]. rewrite doc_push. rewrite dget_dset_same. reflexivity.
  - split; [reflexivity|]. split; [reflexivity|]. split.
    + change (tget (hlen s) (dmod _ (push R s))) with (tget (hlen s) (push R s)). rewrite push_new. reflexivity.
    + intros j J. change (tget j (dmod _ (push R s))) with (tget j (push R s)). apply push_old. exact J.
Qed.

(** ** C24 *)
Lemma c24_deleted : forall s n, doc_ok s -> lower n = n -> exists s', del_section n s = (s', Ok tt)
  /\ (forall k i, In (k, i) (secs s') <-> In (k, i) (secs s) /\ k <> n)
  /\ (forall j, tget j s' = tget j s)
  /\ (forall i, In (n, i) (secs s) -> forall t x, In t (t_terms (tget i s)) -> x = t \/ under s t x ->
        ~ present s' x /\ forall p v sa r, doc_find s' p v sa = Ok r -> ~ In x r)
  /\ (forall t, In t (listed s') <-> In t (listed s) /\ forall i, In (n, i) (secs s) -> ~ In t (t_terms (tget i s))).
Proof.
  intros s n K L. destruct (dget n (secs s)) as [i|] eqn:G.
  - apply (dget_some n i _ (ok_keys s K)) in G. exists (closed n i s). split; [apply del_section_run; assumption|].
    assert (ONE : forall i', In (n, i') (secs s) -> i' = i).
    { intros i' I'. apply (dget_some n i _ (ok_keys s K)) in G. apply (dget_some n i' _ (ok_keys s K)) in I'. congruence. }
    split.
    { intros k j. unfold secs at 1, closed. rewrite doc_dmod. cbn. rewrite ddel_filter by (apply (ok_keys s K)). rewrite filter_In. cbn. split; intros [A B]; (split; [exact A|]).
      - intros ->. rewrite eqs_refl in B. discriminate B.
      - apply negb_true_iff. apply eqs_false. congruence. }
    split; [reflexivity|]. split.
    { intros i' I' t x T X. apply ONE in I'. subst i'. pose proof (closed_absent s n i t x K G T X) as A. split; [exact A|].
      intros p v sa r F J. apply A. eapply find_present; [apply ok_closed; eassumption|exact F|exact J]. }
    intros t. unfold listed at 1, closed. rewrite doc_dmod. cbn. rewrite filter_In. unfold outside. split.
    + intros [A B]. split; [exact A|]. intros i' I' X. apply ONE in I'. subst i'. apply mem_id_in in X. rewrite X in B. discriminate B.
    + intros [A B]. split; [exact A|]. apply negb_true_iff. apply not_true_is_false. intros X. apply mem_id_in in X. exact (B i G X).
  - exists s. split; [apply del_section_absent; [exact K|rewrite L; exact G]|]. apply dget_none in G. split.
    { intros k j. split; [|tauto]. intros I. split; [exact I|]. intros ->. apply G. apply in_map_iff. exists (n, j). auto. }
    split; [reflexivity|]. split.
    + intros i I. destruct G. apply in_map_iff. exists (n, i). auto.
    + intros t. split; [|tauto]. intros X. split; [exact X|]. intros i I. destruct G. apply in_map_iff. exists (n, i). auto.
Qed.

(** in any other spelling the terms stay *)
Lemma c24_kept : forall s n, doc_ok s -> lower n <> n ->
  exists s', del_section n s = (s', Ok tt) /\ listed s' = listed s /\ secs s' = ddel (lower n) (secs s) /\ forall j, tget j s' = tget j s.
Proof.
  intros s n K L. assert (B : dget n (secs s) = None).
  { destruct (dget n (secs s)) as [j|] eqn:E; [|reflexivity]. destruct L. exact (key_lower s n j K (dget_in _ _ _ E)). }
  exists (dmod (fun d => set_d_sections (ddel (lower n) (d_sections d)) d) s). split; [|auto].
  unfold del_section. fw. change (d_sections (s_doc s)) with (secs s). rewrite B. fw. reflexivity.
Qed.

(** ** C28: the table of derived terms *)
Lemma derived_fold : forall (l : list (string * string)) (d : dict (list string)), exists d', fold_left (fun d kv =>
    dset (snd kv) (match dget (snd kv) d with Some l => l ++ [fst kv] | None => [fst kv] end) d) l d = d'
  /\ forall x, dget x d' = match filter (fun kv => eqs (snd kv) x) l with
                           | [] => dget x d
                           | m => Some ((match dget x d with Some l => l | None => [] end) ++ map fst m)%list end.
Proof.
  induction l as [|[y x0] l IH]; intros d; cbn [fold_left].
  - exists d. split; [reflexivity|]. intros x. reflexivity.
  - destruct (IH (dset x0 (match dget x0 d with Some l => l ++ [y] | None => [y] end) d)) as (d' & E & H). exists d'. split; [exact E|].
    intros x. rewrite H. cbn [filter snd]. eqs_cases x0 x.
    + subst x0. rewrite dget_dset_same. destruct (filter _ l) as [|m0 m]; cbn [map fst]; destruct (dget x d) as [l0|]; cbn; rewrite <- ?app_assoc; reflexivity.
    + rewrite dget_dset_other by congruence. reflexivity.
Qed.

Lemma derived_spec : forall sup x, match dget x (derived_of sup) with
  | Some ds => ds <> [] /\ forall y, In y ds <-> In (y, x) sup
  | None => forall y, ~ In (y, x) sup end.
Proof.
  intros sup x. unfold derived_of. set (l := sort_by _ sup). assert (P : Permutation l sup) by (apply sort_perm).
  destruct (derived_fold l []) as (d' & -> & H). rewrite H. cbn [dget].
  assert (X : forall y, In y (map fst (filter (fun kv => eqs (snd kv) x) l)) <-> In (y, x) sup).
  { intros y. rewrite in_map_iff. split.
    - intros ((y' & x') & <- & I). apply filter_In in I. destruct I as [I E]. cbn in *. apply eqs_true in E. subst x'. apply (Permutation_in _ P). exact I.
    - intros I. exists (y, x). split; [reflexivity|]. apply filter_In. split; [apply (Permutation_in _ (Permutation_sym P)); exact I|apply eqs_refl]. }
  destruct (filter (fun kv => eqs (snd kv) x) l) as [|m0 m] eqn:E.
  - intros y I. apply X in I. exact I.
  - split; [discriminate|]. exact X.
Qed.

(** ** C26 *)
Lemma c26_own : forall s i item v, i < hlen s -> own_value s i item ->
  exists s', term_setitem i item v s = (s', Ok tt) /\ s_doc s' = s_doc s /\ hlen s' = hlen s
    /\ forall j, tget j s' = if j =? i then set_t_val v (tget i s) else tget j s.
Proof.
  intros s i item v L O. exists (hmod i (set_t_val v) s). split; [apply setitem_own; exact O|]. split; [reflexivity|]. split; [apply hlen_hmod|]. intros j. rewrite tget_hmod by exact L. destruct (Nat.eqb_spec j i) as [->|]; reflexivity.
Qed.
Lemma c26_old : forall s i n item c v, in_order s -> dot_free n -> tidy n -> child_item s i n item -> ~ own_value s i item ->
  first_child s i n c -> v <> VNone -> v <> VFalse ->
  exists s', term_setitem i item v s = (s', Ok tt) /\ s_doc s' = s_doc s /\ hlen s' = hlen s
    /\ (forall j, tget j s' = if j =? c then set_t_val v (tget c s) else tget j s)
    /\ first_child s' i n c /\ t_val (tget c s') = v.
Proof.
  intros s i n item c v [K _ _] D T CI NO FC N1 N2. exists (hmod c (set_t_val v) s). split; [eapply setitem_old; eassumption|].
  assert (Lc : c < hlen s). { destruct FC as (a & b & E & _). apply (ok_child s K i c). rewrite E. apply in_or_app. right. left. reflexivity. }
  assert (G : forall j, tget j (hmod c (set_t_val v) s) = if j =? c then set_t_val v (tget c s) else tget j s).
  { intros j. rewrite tget_hmod by exact Lc. destruct (Nat.eqb_spec j c) as [->|]; reflexivity. }
  split; [reflexivity|]. split; [apply hlen_hmod|]. split; [exact G|]. split; [apply first_set_val; exact FC|]. rewrite G, Nat.eqb_refl. reflexivity.
Qed.
Lemma c26_new : forall s i n item x, in_order s -> is_plain s i -> t_doc (tget i s) = true -> dot_free n -> tidy n -> child_item s i n item -> ~ own_value s i item ->
  no_child s i n -> made_name (t_rt (tget i s)) -> allowed_child s i n ->
  is_section_cls (doc_term_class (lower (t_rt (tget i s) ++ "." ++ n)) s) = false -> tidy x -> x <> "" ->
  exists s', term_setitem i item (VStr x) s = (s', Ok tt) /\ s_doc s' = s_doc s /\ hlen s' = S (hlen s)
    /\ (forall j, j < hlen s -> tget j s' = if j =? i then set_t_children (t_children (tget i s) ++ [hlen s]) (tget i s) else tget j s)
    /\ first_child s' i n (hlen s) /\ t_val (tget (hlen s) s') = VStr x
    /\ t_pt (tget (hlen s) s') = t_rt (tget i s) /\ t_rt (tget (hlen s) s') = lower n /\ t_parent (tget (hlen s) s') = Some i /\ t_children (tget (hlen s) s') = []
    /\ t_section (tget (hlen s) s') = t_section (tget i s).
Proof.
  intros s i n item x [K _ _] P Di D T CI NO NC MN AL CL TX NX.
  assert (LT : forall c, In c (t_children (tget i s)) -> c < hlen s) by (intros c I; apply (ok_child s K i c I)).
  exists (with_child s i (item_rec s i n (VStr x))). split; [apply setitem_new; assumption|]. pose proof (proj1 P) as Li.
  assert (NEW : tget (hlen s) (with_child s i (item_rec s i n (VStr x))) = item_rec s i n (VStr x)). { rewrite tget_with_child by exact Li. destruct (Nat.eqb_spec (hlen s) i); [lia|]. rewrite Nat.eqb_refl. reflexivity. }
  assert (OLD : forall j, j < hlen s -> tget j (with_child s i (item_rec s i n (VStr x))) = if j =? i then set_t_children (t_children (tget i s) ++ [hlen s]) (tget i s) else tget j s).
  { intros j L. rewrite tget_with_child by exact Li. destruct (j =? i); [reflexivity|]. destruct (Nat.eqb_spec j (hlen s)); [lia|reflexivity]. }
  split; [reflexivity|]. split; [unfold with_child; rewrite hlen_hmod, hlen_push; reflexivity|]. split; [exact OLD|].
  rewrite NEW. split.
  { exists (t_children (tget i s)), []. split; [rewrite OLD, Nat.eqb_refl by exact Li; reflexivity|]. split.
    - unfold called. rewrite NEW. cbn. apply lower_idem.
    - intros y Y C. apply (NC y Y). unfold called in *. rewrite OLD in C by (apply LT; exact Y). destruct (Nat.eqb_spec y i) as [->|]; exact C. }
  split; [|repeat split]. apply init_val_tidy; [apply tidy_strip; exact TX|exact NX].
Qed.
Lemma c26_removed : forall s i n item c, in_order s -> is_plain s i -> t_doc (tget i s) = true -> dot_free n -> child_item s i n item -> ~ own_value s i item ->
  first_child s i n c -> removable s c ->
  exists s', term_setitem i item VNone s = (s', Ok tt) /\ s_doc s' = s_doc s /\ hlen s' = hlen s
    /\ forall j, tget j s' = if j =? i then set_t_children (without c (t_children (tget i s))) (tget i s) else tget j s.
Proof.
  intros s i n item c [K _ _] P Di D CI NO FC RM. exists (orphaned c s). split; [eapply setitem_del; eassumption|].
  assert (I : In c (t_children (tget i s))) by (destruct FC as (a & b & -> & _); apply in_or_app; right; left; reflexivity).
  split; [|split; [|intros j; eapply orphaned_children; eassumption]]; unfold orphaned; destruct (ok_child s K i c I) as (_ & _ & ->); [reflexivity|apply hlen_hmod].
Qed.

(** ** C27, C28 *)
Lemma c27_find : forall s p v sa, in_order s -> tidy_pattern p -> dget (lower p) (d_derived (s_doc s)) = None ->
  exists l r, doc_find s p v sa = Ok r /\ candidates s p l /\ picked (found s p v sa) l r /\ NoDup r.
Proof. intros s p v sa [K N _]. apply find_spec; assumption. Qed.

Lemma c28_find : forall s p ds v sa, in_order s -> tidy_pattern p -> Forall tidy_pattern ds ->
  dget (lower p) (d_derived (s_doc s)) = Some ds ->
  exists rs, doc_find s p v sa = Ok (concat rs)
    /\ Forall2 (fun q r => exists l, candidates s q l /\ picked (found s q v sa) l r /\ NoDup r) (ds ++ [p]) rs.
Proof.
  intros s p ds v sa [K N _] TP TD E. unfold doc_find. rewrite E. apply find_list_spec; [exact K|exact N|]. apply Forall_app. split; [exact TD|constructor; [exact TP|constructor]].
Qed.
Lemma c28_names : forall s s', finish_load s = (s', Ok tt) -> forall x,
  match dget x (d_derived (s_doc s')) with
  | Some ds => ds <> [] /\ forall y, In y ds <-> In (y, x) (d_super (s_doc s'))
  | None => forall y, ~ In (y, x) (d_super (s_doc s')) end.
Proof.
  intros s s' H x. unfold finish_load in H. rb H as s1 p H1. rg H. rb H as s2 sup H2. rg H. rewrite modD_run in H. injection H as <-.
  rewrite !doc_dmod. cbn [set_d_derived d_derived d_super]. apply derived_spec.
Qed.

(** ** C25 *)
Lemma c25_absent : forall s k sec item nm v, in_order s -> In (k, sec) (secs s) -> ~ odd k -> t_val (tget sec s) = VStr nm ->
  top_name item -> ~ cell_names item "root" "root" -> tidy_pattern item -> dget (lower item) (d_derived (s_doc s)) = None ->
  is_section_cls (doc_term_class (lower item) s) = false ->
  doc_find s item VFalse (SOne nm) = Ok [] ->
  exists s' t, section_setitem sec item v s = (s', Ok tt) /\ section_get_term s' sec item VFalse = Ok (Some t)
    /\ stored v (t_val (tget t s')) /\ Ops.new_term sec item v [] s = (s', Ok t).
Proof.
  intros s k sec item nm v [K N _] I OD V (n & CN) NR TP DE CL F.
  destruct (set_absent s k sec item n nm v K N I OD V CN ltac:(intros ->; contradiction) TP DE CL F) as (s' & t & A & B & C & D).
  exists s', t. split; [exact A|]. split; [exact B|]. split; [rewrite C; apply init_val_stored|exact D].
Qed.
Lemma c25_same : forall s sec item nm v t r, in_order s -> t_val (tget sec s) = VStr nm -> top_name item -> tidy_pattern item ->
  dget (lower item) (d_derived (s_doc s)) = None -> v <> VNone ->
  doc_find s item VFalse (SOne nm) = Ok (t :: r) -> t_val (tget t s) = v -> section_setitem sec item v s = (s, Ok tt).
Proof. intros s sec item nm v t r [K N _] V (n & CN) TP DE NN F E. eapply set_first; eassumption. Qed.
Lemma c25_kept : forall s k sec item nm v t r, in_order s -> In (k, sec) (secs s) -> ~ odd k -> t_val (tget sec s) = VStr nm -> top_name item -> tidy_pattern item ->
  dget (lower item) (d_derived (s_doc s)) = None -> is_section_cls (doc_term_class (lower item) s) = false -> v <> VNone ->
  doc_find s item VFalse (SOne nm) = Ok (t :: r) -> ~ value_is v (t_val (tget t s)) ->
  exists s', section_setitem sec item v s = (s', Ok tt) /\ section_get_term s' sec item VFalse = Ok (Some t) /\ t_val (tget t s') = t_val (tget t s).
Proof. intros s k sec item nm v t r [K N _] I OD V (n & CN) TP DE CL NN F E. eapply set_other; eassumption. Qed.

(** ** C23 *)
Lemma c23_new : forall s n params, doc_ok s -> dget (lower n) (secs s) = None ->
  exists s', get_or_new_section n params s = (s', Ok (hlen s)) /\ secs s' = secs s ++ [(lower n, hlen s)] /\ listed s' = listed s
    /\ t_terms (tget (hlen s) s') = [] /\ stored (VStr n) (t_val (tget (hlen s) s')) /\ forall j, j < hlen s -> tget j s' = tget j s.
Proof.
  intros s n params K G. pose proof (get_or_new_section_new s n params G (key_dget s n K G)) as E. eexists. split; [exact E|].
  unfold opened. set (R := section_rec _ _). split; [reflexivity|]. split; [reflexivity|].
  change (tget (hlen s) (dmod _ (push R s))) with (tget (hlen s) (push R s)). rewrite push_new. split; [reflexivity|]. split; [exact (init_val_stored (VStr n))|].
  intros j J. change (tget j (dmod _ (push R s))) with (tget j (push R s)). apply push_old. exact J.
Qed.

Lemma order_derived : forall s x s', in_order s -> modD (set_d_derived x) s = (s', Ok tt) -> in_order s'.
Proof.
  intros s x s' [K N D] H. rewrite modD_run in H. injection H as <-. constructor; [destruct K; constructor; assumption|destruct N; constructor; assumption|exact D].
Qed.

End WithQuirks.
