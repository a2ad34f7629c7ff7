(** * SecFacts: creating, deleting and sorting sections keeps a document in order *)

From Coq Require Import Permutation.
From Verif Require Import ListFacts StrFacts HeapFacts SpecNames NameFacts SpecOrder OrderFacts Ops Parser ConstructFacts RunFacts EmitFacts RowFacts TotalFacts FrameFacts SpecInv InvFacts ChildFacts ListOps OpFacts.

Section WithQuirks.
Context {QK : Quirks}.

Lemma init_val_tidy : forall n, strip n = n -> n <> "" -> init_val (VStr n) = VStr n.
Proof.
  intros n T N. unfold init_val. cbn [truthy strip_val]. rewrite T. destruct n; [congruence|reflexivity].
Qed.

Lemma usual_raw : forall cols, usual_columns (map strip cols) -> usual_columns cols.
Proof.
  intros cols U I. apply U. rewrite map_map. apply in_map_iff in I. destruct I as (x & E & I). apply in_map_iff. exists x. split; [|exact I].
  rewrite <- strip_lower, E. reflexivity.
Qed.

Lemma usual_new_columns : forall s n params, doc_ok s -> usual_columns (map strip params) -> odd (lower n) \/ usual_columns (new_columns (s_doc s) n params).
Proof.
  intros s n params K U. unfold new_columns. destruct (dget _ _) as [sd|] eqn:E; [|right; exact U]. apply dget_in in E. destruct (ok_declared s K _ _ E) as [O|O]; [left; exact O|right; apply usual_raw; exact O].
Qed.
Lemma usual_old_columns : forall s n params, doc_ok s -> usual_columns (map strip params) -> odd (lower n) \/ usual_columns (old_columns (s_doc s) n params).
Proof.
  intros s n params K U. unfold old_columns. destruct params; [|right; exact U]. unfold section_args. destruct (dget _ _) as [sd|] eqn:E; [|right; exact U].
  apply (ok_declared s K (lower n)). apply dget_in. exact E.
Qed.

Lemma ok_new_section : forall s n params, doc_ok s -> dget (lower n) (secs s) = None -> strip n = n -> n <> "" -> usual_columns (map strip params) ->
  doc_ok (opened (section_rec n (new_columns (s_doc s) n params)) n s).
Proof.
  intros s n params K A T N U. apply ok_opened; try reflexivity; try exact K.
  - apply dget_none in A. exact A.
  - cbn. apply init_val_tidy; assumption.
  - apply (usual_new_columns s n params K U).
Qed.
Lemma ok_old_section : forall s n params, doc_ok s -> dget (lower n) (secs s) = None -> strip n = n -> n <> "" -> usual_columns (map strip params) ->
  doc_ok (opened (section_rec n (old_columns (s_doc s) n params)) n s).
Proof.
  intros s n params K A T N U. apply ok_opened; try reflexivity; try exact K.
  - apply dget_none in A. exact A.
  - cbn. apply init_val_tidy; assumption.
  - apply (usual_old_columns s n params K U).
Qed.

(** the keys of the section table are in lower case *)
Lemma key_lower : forall s k i, doc_ok s -> In (k, i) (secs s) -> lower k = k.
Proof. intros s k i K I. destruct (ok_section s K _ _ I) as (_ & _ & _ & n & _ & <-). apply lower_idem. Qed.
Lemma key_dget : forall s n, doc_ok s -> dget (lower n) (secs s) = None -> dget n (secs s) = None.
Proof.
  intros s n K A. destruct (dget n (secs s)) as [i|] eqn:E; [|reflexivity]. pose proof (key_lower s n i K (dget_in _ _ _ E)) as L. rewrite L in A. congruence.
Qed.

(** ** Deleting a section *)

Definition outside (l : list nat) (t : nat) : bool := negb (mem_id t l).

Lemma remove_all_run : forall ts s, NoDup ts -> NoDup (listed s) -> incl ts (listed s) ->
  remove_all ts s = (dmod (set_d_terms (filter (outside ts) (listed s))) s, Ok tt).
Proof.
  induction ts as [|t ts IH]; intros s N NL I.
  - cbn [remove_all]. assert (E : filter (outside []) (listed s) = listed s). { clear. induction (listed s); cbn; [reflexivity|]. rewrite IHl. reflexivity. }
    rewrite E. unfold dmod, listed. destruct s as [h d p r]. cbn. destruct d. reflexivity.
  - cbn [remove_all]. fw. rewrite (proj2 (mem_id_in t (d_terms (s_doc s)))) by (apply I; left; reflexivity). fw. inversion N as [|? ? N1 N2]; subst.
    set (s1 := dmod (fun d => set_d_terms (remove_first t (d_terms d)) d) s).
    assert (L1 : listed s1 = remove_first t (listed s)) by reflexivity.
    rewrite IH; [|exact N2|rewrite L1; apply remove_first_nodup; exact NL|].
    +
      assert (F : filter (outside ts) (remove_first t (listed s)) = filter (outside (t :: ts)) (listed s)).
      { clear - NL. induction (listed s) as [|x l IHl]; [reflexivity|]. inversion NL as [|? ? A B]; subst. cbn [remove_first filter]. unfold outside at 2. cbn [mem_id existsb].
        fold (mem_id x ts). destruct (Nat.eqb_spec t x) as [->|NE].
        - rewrite Nat.eqb_refl. cbn [orb negb]. rewrite <- IHl by exact B. rewrite remove_first_none by exact A. reflexivity.
        - destruct (Nat.eqb_spec x t); [congruence|]. cbn [orb filter]. unfold outside at 1. rewrite IHl by exact B. reflexivity. }
      rewrite L1, F. reflexivity.
    + intros x X. rewrite L1. apply remove_first_iff; [exact NL|]. split; [apply I; right; exact X|]. intros ->. contradiction.
Qed.

Definition closed (k : string) (i : nat) (s : st) : st :=
  dmod (fun d => set_d_sections (ddel k (d_sections d)) (set_d_terms (filter (outside (t_terms (tget i s))) (d_terms d)) d)) s.

Lemma del_section_run : forall s k i, doc_ok s -> In (k, i) (secs s) -> del_section k s = (closed k i s, Ok tt).
Proof.
  intros s k i K I. unfold del_section. fw. change (d_sections (s_doc s)) with (secs s). rewrite (proj2 (dget_some k i _ (ok_keys s K)) I).
  eapply bind_fw.
  - fw. apply remove_all_run; [apply (ok_lists s K _ _ I)|apply (ok_list s K)|]. intros t J. apply (ok_in s K _ _ _ I J).
  - rewrite modD_run. rewrite (key_lower s k i K I). unfold closed, dmod. cbn [s_doc set_s_doc]. reflexivity.
Qed.
Lemma del_section_absent : forall s n, doc_ok s -> dget (lower n) (secs s) = None -> del_section n s = (s, Ok tt).
Proof.
  intros s n K A. unfold del_section. fw. change (d_sections (s_doc s)) with (secs s). rewrite (key_dget s n K A). fw. rewrite modD_run.
  assert (E : ddel (lower n) (secs s) = secs s).
  { rewrite ddel_filter by (apply (ok_keys s K)). apply dget_none in A. unfold dkeys in A. clear K. induction (secs s) as [|[k i] l IH]; [reflexivity|]. cbn in *.
    destruct (eqs (lower n) k) eqn:E; [apply eqs_true in E; subst; tauto|]. cbn. rewrite IH by tauto. reflexivity. }
  f_equal. unfold dmod. change (d_sections (s_doc s)) with (secs s). rewrite E. unfold secs. destruct s as [h d p r]. destruct d. reflexivity.
Qed.

Lemma ok_closed : forall s k i, doc_ok s -> In (k, i) (secs s) -> doc_ok (closed k i s).
Proof.
  intros s k i K I.
  assert (SEC : forall k' i', In (k', i') (secs (closed k i s)) <-> In (k', i') (secs s) /\ k' <> k).
  { intros k' i'. unfold secs, closed. rewrite doc_dmod. cbn. rewrite ddel_filter by (apply (ok_keys s K)). rewrite filter_In. fold (secs s). cbn [fst].
    split; intros [A B]; split; try exact A.
    - intros ->. rewrite eqs_refl in B. discriminate B.
    - apply not_eq_sym in B. apply eqs_false in B. rewrite B. reflexivity. }
  assert (LI : forall t, In t (listed (closed k i s)) <-> In t (listed s) /\ ~ In t (t_terms (tget i s))).
  { intros t. unfold listed, closed. rewrite doc_dmod. cbn. rewrite filter_In. unfold outside. fold (listed s).
    split; intros [A B]; (split; [exact A|]).
    - intros X. apply mem_id_in in X. rewrite X in B. discriminate B.
    - destruct (mem_id t _) eqn:M; [apply mem_id_in in M; contradiction|reflexivity]. }
  assert (OTH : forall k' i', In (k', i') (secs s) -> k' <> k -> i' <> i) by (intros k' i' I' N ->; apply N; eapply secs_inj; eauto).
  constructor; try (first [exact (ok_plain s K)|exact (ok_named s K)|exact (ok_child s K)|exact (ok_children s K)|exact (ok_declared s K)]).
  - unfold secs, closed. rewrite doc_dmod. cbn. rewrite ddel_filter by (apply (ok_keys s K)). apply nodup_map_filter. apply (ok_keys s K).
  - intros k' i' J. apply SEC in J. destruct J as [J _]. apply (ok_section s K _ _ J).
  - unfold listed, closed. rewrite doc_dmod. cbn. apply NoDup_filter. apply (ok_list s K).
  - intros k' i' J. apply SEC in J. destruct J as [J _]. apply (ok_lists s K _ _ J).
  - intros t T. apply LI in T. destruct T as [T N]. destruct (ok_listed s K t T) as (A & B & X). split; [exact A|]. split; [exact B|].
    destruct X as [(k' & i' & J & E & M)|(X & Y)]; [left|right; split; [exact X|]; intros k' i' J; apply SEC in J; apply (Y _ _ (proj1 J))]. exists k', i'.
    split; [|auto]. apply SEC. split; [exact J|]. intros ->. apply N. assert (i' = i). { apply (dget_some _ _ _ (ok_keys s K)) in J. apply (dget_some _ _ _ (ok_keys s K)) in I. congruence. } subst i'. exact M.
  - intros k' i' t J M. apply SEC in J. destruct J as [J NE]. destruct (ok_in s K _ _ _ J M) as [A B]. split; [|exact B]. apply LI. split; [exact A|].
    intros X. apply (ok_in s K _ _ _ I) in X. destruct X as [_ X]. change (t_section (tget t (closed k i s))) with (t_section (tget t s)) in B. apply (OTH _ _ J NE). congruence.
  - intros t T. apply LI in T. exact (ok_top s K t (proj1 T)).
Qed.

(** ** Sorting *)

Lemma ok_table : forall s tab, doc_ok s -> Permutation tab (secs s) -> doc_ok (set_s_doc (set_d_sections tab (s_doc s)) s).
Proof.
  intros s tab K P.
  assert (SEC : forall k i, In (k, i) (secs (set_s_doc (set_d_sections tab (s_doc s)) s)) <-> In (k, i) (secs s)).
  { intros k i. split; intros I; (eapply Permutation_in; [|exact I]); [exact P|symmetry; exact P]. }
  constructor; try (first [exact (ok_list s K)|exact (ok_top s K)|exact (ok_plain s K)|exact (ok_named s K)|exact (ok_child s K)|exact (ok_children s K)|exact (ok_declared s K)]).
  - eapply Permutation_NoDup; [|apply (ok_keys s K)]. apply Permutation_map. symmetry. exact P.
  - intros k i I. apply SEC in I. apply (ok_section s K _ _ I).
  - intros k i I. apply SEC in I. apply (ok_lists s K _ _ I).
  - intros t T. destruct (ok_listed s K t T) as (A & B & Y). split; [exact A|]. split; [exact B|].
    destruct Y as [(k & i & I & X)|(Y & Z)]; [left; exists k, i; rewrite SEC; auto|right; split; [exact Y|]; intros k i I; apply SEC in I; apply (Z _ _ I)].
  - intros k i t I. apply SEC in I. apply (ok_in s K _ _ _ I).
Qed.

Lemma sort_sections_keeps : forall s order s' r, doc_ok s -> sort_sections order s = (s', r) -> doc_ok s'.
Proof.
  intros s order s' r K H. destruct (sort_sections_spec order s (ok_keys s K)) as (tab & E & (a & b & _ & P & _)). rewrite E in H. injection H as <- _.
  apply ok_table; assumption.
Qed.

Lemma take_matching_perm : forall h tn l m r, take_matching h tn l = Ok (m, r) -> Permutation (m ++ r) l.
Proof.
  intros h tn. induction l as [|t l IH]; intros m r H; cbn in H; [injection H as <- <-; reflexivity|].
  destruct (term_is (hget t h) tn) as [b|e]; [|discriminate H]. cbn in H. destruct (take_matching h tn l) as [[m1 r1]|e]; [|discriminate H]. cbn in H.
  specialize (IH _ _ eq_refl). destruct b; injection H as <- <-.
  - cbn. apply perm_skip. exact IH.
  - rewrite <- Permutation_middle. apply perm_skip. exact IH.
Qed.
Lemma take_order_perm : forall h order l m r, take_order h order l = Ok (m, r) -> Permutation (m ++ r) l.
Proof.
  intros h. induction order as [|tn order IH]; intros l m r H; cbn in H; [injection H as <- <-; reflexivity|].
  destruct (take_matching h tn l) as [[m1 r1]|e] eqn:E1; [|discriminate H]. cbn in H. destruct (take_order h order r1) as [[m2 r2]|e] eqn:E2; [|discriminate H]. cbn in H.
  injection H as <- <-. apply IH in E2. apply take_matching_perm in E1. rewrite <- app_assoc, E2. exact E1.
Qed.
Lemma sort_by_perm_any : forall {A} (le : A -> A -> bool) l, Permutation (sort_by le l) l.
Proof.
  intros A le. assert (I : forall x l, Permutation (insert_by le x l) (x :: l)).
  { intros x l. induction l as [|y l IH]; cbn; [reflexivity|]. destruct (le x y); [reflexivity|]. rewrite IH. apply perm_swap. }
  induction l as [|x l IH]; cbn; [reflexivity|]. rewrite I, IH. reflexivity.
Qed.

Lemma sort_by_term_any : forall s sec o s' r, sort_by_term sec o s = (s', r) ->
  (s' = s /\ failed r) \/ exists l, Permutation l (t_terms (tget sec s)) /\ s' = hmod sec (set_t_terms l) s /\ r = Ok tt.
Proof.
  intros s sec o s' r H. unfold sort_by_term in H. rg H. rg H. destruct o as [o|].
  - ra H as s1 x H1. { apply lift_any in H1. destruct H1 as [-> _]. left. split; [reflexivity|eexists; exact H]. }
    apply lift_any in H1. destruct H1 as [-> E]. destruct x as [m r0]. symmetry in E. apply take_order_perm in E. rewrite modT_run in H. injection H as <- <-.
    right. eexists. split; [|split; reflexivity]. unfold sort_terms. rewrite sort_by_perm_any. exact E.
  - rewrite modT_run in H. injection H as <- <-. right. eexists. split; [|split; reflexivity]. unfold sort_terms. apply sort_by_perm_any.
Qed.

Lemma ok_terms : forall s k i l, doc_ok s -> In (k, i) (secs s) -> Permutation l (t_terms (tget i s)) -> doc_ok (hmod i (set_t_terms l) s).
Proof.
  intros s k i l K I P. pose proof (secs_lt s k i K I) as Li. set (s' := hmod i (set_t_terms l) s).
  assert (FLD : forall A (f : trec -> A) j, (forall r x, f (set_t_terms x r) = f r) -> f (tget j s') = f (tget j s)).
  { intros A f j F. unfold s'. rewrite tget_hmod by exact Li. destruct (Nat.eqb_spec j i) as [->|]; [apply F|reflexivity]. }
  assert (SEC : forall j, is_sec s' j <-> is_sec s j) by (intros j; unfold is_sec, s'; rewrite hlen_hmod; fold s'; rewrite (FLD _ t_cls) by reflexivity; reflexivity).
  assert (PLA : forall j, is_plain s' j <-> is_plain s j) by (intros j; unfold is_plain, s'; rewrite hlen_hmod; fold s'; rewrite (FLD _ t_cls) by reflexivity; reflexivity).
  assert (TT : forall j, Permutation (t_terms (tget j s')) (t_terms (tget j s))).
  { intros j. unfold s'. rewrite tget_hmod by exact Li. destruct (Nat.eqb_spec j i) as [->|]; [exact P|reflexivity]. }
  assert (DOC : s_doc s' = s_doc s) by apply doc_hmod.
  constructor; unfold secs, listed; rewrite ?DOC; fold (secs s) (listed s).
  - apply (ok_keys s K).
  - intros k' j J. rewrite SEC, (FLD _ t_doc), (FLD _ columns_of), (FLD _ t_val) by reflexivity. apply (ok_section s K _ _ J).
  - apply (ok_list s K).
  - intros k' j J. eapply Permutation_NoDup; [symmetry; apply TT|]. apply (ok_lists s K _ _ J).
  - intros t T. destruct (ok_listed s K t T) as (A & B & X). rewrite PLA, (FLD _ t_pt), (FLD _ t_section) by reflexivity. split; [exact A|]. split; [exact B|].
    destruct X as [(k' & j & J & E & M)|X]; [left|right; exact X]. exists k', j. split; [exact J|]. split; [exact E|]. eapply Permutation_in; [symmetry; apply TT|exact M].
  - intros k' j t J M. rewrite (FLD _ t_section) by reflexivity. apply (ok_in s K _ _ _ J). eapply Permutation_in; [apply TT|exact M].
  - intros t T. rewrite (FLD _ t_parent) by reflexivity. pose proof (ok_top s K t T) as X. destruct (t_parent _); [apply SEC|]; exact X.
  - intros t T. apply PLA in T. rewrite (FLD _ t_section) by reflexivity. destruct (ok_plain s K t T) as (j & A & B). exists j. rewrite SEC. auto.
  - intros j J. apply SEC in J. rewrite (FLD _ t_val) by reflexivity. apply (ok_named s K j J).
  - intros j c C. rewrite (FLD _ t_children) in C by reflexivity. rewrite PLA, (FLD _ t_parent) by reflexivity. apply (ok_child s K j c C).
  - intros j. rewrite (FLD _ t_children) by reflexivity. apply (ok_children s K).
  - apply (ok_declared s K).
Qed.

Lemma sort_by_term_keeps : forall s k sec o s' r, doc_ok s -> In (k, sec) (secs s) -> sort_by_term sec o s = (s', r) -> doc_ok s'.
Proof.
  intros s k sec o s' r K I H. apply sort_by_term_any in H. destruct H as [[-> _]|(l & P & -> & _)]; [exact K|]. eapply ok_terms; eassumption.
Qed.

(** ** The empty document *)
Lemma ok_init : forall reg, doc_ok (init_st reg).
Proof.
  intros reg. assert (T : forall i, tget i (init_st reg) = if i =? 0 then root_rec else dummy_t) by (intros [|[|i]]; reflexivity).
  constructor; cbn [secs listed init_st s_doc empty_doc d_sections d_terms d_decl_sections].
  - repeat constructor. intros [].
  - intros k i [E|[]]. injection E as <- <-. split; [split; [cbn; lia|reflexivity]|]. split; [reflexivity|]. split; [right; intros []|]. exists "Root". split; reflexivity.
  - constructor.
  - intros k i [E|[]]. injection E as <- <-. constructor.
  - intros t [].
  - intros k i t [E|[]]. injection E as <- <-. intros [].
  - intros t [].
  - intros t [L C]. cbn in L. assert (t = 0) by lia. subst. discriminate C.
  - intros i [L C]. cbn in L. assert (i = 0) by lia. subst. exists "Root". reflexivity.
  - intros i c C. rewrite T in C. destruct (i =? 0); destruct C.
  - intros i. rewrite T. destruct (i =? 0); constructor.
  - intros k sd [].
Qed.

End WithQuirks.
