(** * CalmFacts: first rows that leave the parser in good order *)

From Verif Require Import ListFacts StrFacts SpecNames NameFacts HeapFacts ConstructFacts DictFacts Parser RunFacts EmitFacts DigitFacts RowFacts FrameFacts GrowFacts ParseFacts SpecDoc SpecInclude SpecHead SpecKept DeclFacts PackFacts RowsFacts OrderlyFacts SpecCalm.

Definition okt (x : string) : Prop := lower x <> "synonym".

Section Calm.
Variable odd : list string.
Variable syn : list nat.
(** sections whose value and header are to stay as they are *)
Variable held : nat -> option (val * list string).

(** what is known about a single term *)
Record node_ok (root i : nat) (r : trec) : Prop := {
  n_tvn : okt (t_tvn r);
  n_dtvn : okt (t_dtvn r);
  n_names : is_section_cls (t_cls r) = true -> synonyms_at syn (t_args r) /\ synonyms_at syn (t_hargs r);
  n_pt : is_section_cls (t_cls r) = true -> t_pt r = "root";
  n_rt : is_section_cls (t_cls r) = true -> i <> root -> t_rt r = "section";
  n_at : is_section_cls (t_cls r) = true -> t_tvn r = "@value";
  n_doc : is_section_cls (t_cls r) = true -> t_doc r = true;
  n_val : is_section_cls (t_cls r) = true -> exists n, t_val r = VStr n
    /\ (In "section" (map lower (t_args r)) \/ In "section" (map lower (t_hargs r)) -> In (lower n) odd)
}.

Definition plain (s : st) (i : nat) : Prop := i < hlen s /\ is_section_cls (t_cls (tget i s)) = false.
Definition section (s : st) (i : nat) : Prop := i < hlen s /\ is_section_cls (t_cls (tget i s)) = true.

Definition decl_ok (td : tdecl) : Prop :=
  dget "synonym" (td_props td) = None /\ forall v, dget "termvaluename" (td_props td) = Some v -> okt v.

Record inv (s : st) : Prop := {
  v_reg : good_reg (s_reg s);
  v_odd : ~ In "root" odd;
  v_derived : d_derived (s_doc s) = [];
  v_dterms : forall k td v, dget k (d_decl_terms (s_doc s)) = Some td -> dget "termvaluename" (td_props td) = Some v -> okt v;
  v_dsecs : forall n, (In "section" (map lower (map strip (declared_columns (d_decl_sections (s_doc s)) n))) -> In (lower (strip n)) odd)
    /\ synonyms_at syn (map strip (declared_columns (d_decl_sections (s_doc s)) n));
  v_decl : forall k td, dget k (p_dterms (s_prs s)) = Some td -> decl_ok td;
  v_root : section s (d_root (s_doc s));
  v_rootn : t_rt (tget (d_root (s_doc s)) s) = "root" /\ t_args (tget (d_root (s_doc s)) s) = [];
  v_rootk : dget "root" (d_sections (s_doc s)) = Some (d_root (s_doc s));
  v_known : dget "root" (p_tmap (s_prs s)) = Some (d_root (s_doc s));
  v_lp : dot_free (p_lastparent (s_prs s)) /\ lower (p_lastparent (s_prs s)) = p_lastparent (s_prs s)
    /\ p_lastparent (s_prs s) <> current_parent /\ dget (p_lastparent (s_prs s)) (p_tmap (s_prs s)) <> None;
  v_cols : munge_param_map (p_pmap (s_prs s)) = p_pmap (s_prs s);
  v_dtvn : okt (p_dtvn (s_prs s));
  v_last : section s (p_lastsec (s_prs s));
  v_names : NoDup (dkeys (d_sections (s_doc s)));
  v_secs : forall k i, dget k (d_sections (s_doc s)) = Some i ->
    section s i /\ (exists n, t_val (tget i s) = VStr n /\ lower n = k)
    /\ (In k odd \/ t_section (tget i s) = None /\ t_ftype (tget i s) <> Some "declare");
  v_node : forall i, node_ok (d_root (s_doc s)) i (tget i s);
  v_tmap : forall k i, dget k (p_tmap (s_prs s)) = Some i -> i < hlen s;
  v_terms : forall i, In i (d_terms (s_doc s)) -> plain s i;
  v_tops : forall i j, In j (t_terms (tget i s)) -> In j (d_terms (s_doc s));
  v_kids : forall i j, In j (t_children (tget i s)) -> plain s j;
  v_sect : forall i j, t_section (tget i s) = Some j -> section s j;
  v_nodup : NoDup (dkeys (p_dterms (s_prs s)));
  v_held : forall i v h, held i = Some (v, h) -> section s i /\ t_val (tget i s) = v /\ t_hargs (tget i s) = h
}.

(** ** The primitive changes *)

Lemma hget_out : forall i s, hlen s <= i -> tget i s = dummy_t.
Proof. intros i s H. unfold tget, hget. apply nth_overflow. exact H. Qed.

Record soft (i : nat) (s : st) (r r' : trec) : Prop := {
  so_cls : t_cls r' = t_cls r;
  so_tvn : okt (t_tvn r');
  so_dtvn : okt (t_dtvn r');
  so_sec : is_section_cls (t_cls r) = true ->
    t_pt r' = t_pt r /\ t_rt r' = t_rt r /\ t_tvn r' = t_tvn r /\ t_val r' = t_val r /\ t_doc r' = true
    /\ t_args r' = t_args r /\ t_ftype r' = t_ftype r
    /\ (t_hargs r' = t_hargs r \/ held i = None /\ ~ In "section" (map lower (t_hargs r')) /\ synonyms_at syn (t_hargs r'))
    /\ (t_section r' = t_section r \/ t_section r' = None);
  so_terms : forall j, In j (t_terms r') -> In j (t_terms r) \/ In j (d_terms (s_doc s));
  so_kids : forall j, In j (t_children r') -> In j (t_children r) \/ plain s j;
  so_sect : forall j, t_section r' = Some j -> t_section r = Some j \/ section s j
}.

Lemma inv_hmod : forall i f s, inv s -> soft i s (tget i s) (f (tget i s)) -> inv (hmod i f s).
Proof.
  intros i f s V [A B C D T K W]. destruct (Nat.ltb_spec i (hlen s)) as [L|L]; [|rewrite hmod_out by exact L; exact V].
  destruct V as [V1 Vo V2 V3 V4 V5 V6 V7 V8 V9 V10 V11 V12 V13 V14 V15 V16 V17 V18 V19 V20 V21 V22 V23].
  assert (Cl : forall j, t_cls (tget j (hmod i f s)) = t_cls (tget j s)).
  { intros j. rewrite tget_hmod by exact L. destruct (Nat.eqb_spec j i) as [->|]; [exact A|reflexivity]. }
  assert (Ps : forall j, plain s j -> plain (hmod i f s) j) by (intros j [X Y]; split; [rewrite hlen_hmod; exact X|rewrite Cl; exact Y]).
  assert (Ss : forall j, section s j -> section (hmod i f s) j) by (intros j [X Y]; split; [rewrite hlen_hmod; exact X|rewrite Cl; exact Y]).
  split; rewrite ?doc_hmod, ?prs_hmod, ?reg_hmod; try assumption; auto.
  - rewrite !tget_hmod by exact L. destruct (Nat.eqb_spec (d_root (s_doc s)) i) as [E|]; [|exact V7].
    subst i. destruct (D (proj2 V6)) as (_ & -> & _ & _ & _ & -> & _). exact V7.
  - intros k j E. destruct (V15 _ _ E) as (X & Y & Z). split; [apply Ss; exact X|].
    rewrite tget_hmod by exact L. destruct (Nat.eqb_spec j i) as [->|]; [|split; assumption].
    destruct (D (proj2 X)) as (_ & _ & _ & -> & _ & _ & -> & _ & H). split; [exact Y|]. destruct Z as [Z|[Z1 Z2]]; [left; exact Z|right].
    split; [destruct H; congruence|exact Z2].
  - intros j. rewrite tget_hmod by exact L. destruct (Nat.eqb_spec j i) as [->|]; [|apply V16].
    destruct (V16 i) as [N1 N2 N3 N5 N6 N7 N8 N9]. split; try assumption; rewrite A.
    + intros S. destruct (D S) as (_ & _ & _ & _ & _ & -> & _ & H & _). destruct (N3 S) as [X Y]. split; [exact X|].
      destruct H as [->|(_ & _ & H)]; assumption.
    + intros S. destruct (D S) as (-> & _). apply N5. exact S.
    + intros S. destruct (D S) as (_ & -> & _). apply N6. exact S.
    + intros S. destruct (D S) as (_ & _ & -> & _). apply N7. exact S.
    + intros S. apply (D S).
    + intros S. destruct (D S) as (_ & _ & _ & -> & _ & -> & _ & H & _). destruct (N9 S) as (n & X & Y). exists n. split; [exact X|].
      intros [Z|Z]; apply Y; [left; exact Z|]. destruct H as [H|(_ & H & _)]; [rewrite H in Z; right; exact Z|contradiction].
  - intros k j E. rewrite hlen_hmod. apply (V17 _ _ E).
  - intros j k. rewrite tget_hmod by exact L. destruct (Nat.eqb_spec j i) as [->|]; [|apply V19].
    intros I. destruct (T _ I) as [X|X]; [apply (V19 _ _ X)|exact X].
  - intros j k. rewrite tget_hmod by exact L. destruct (Nat.eqb_spec j i) as [->|]; [|intros I; apply Ps, (V20 _ _ I)].
    intros I. apply Ps. destruct (K _ I) as [X|X]; [apply (V20 _ _ X)|exact X].
  - intros j k. rewrite tget_hmod by exact L. destruct (Nat.eqb_spec j i) as [->|]; [|intros I; apply Ss, (V21 _ _ I)].
    intros I. apply Ss. destruct (W _ I) as [X|X]; [apply (V21 _ _ X)|exact X].
  - intros j v h E. destruct (V23 _ _ _ E) as (X & Y & Z). split; [apply Ss; exact X|]. rewrite tget_hmod by exact L.
    destruct (Nat.eqb_spec j i) as [->|]; [|split; assumption]. destruct (D (proj2 X)) as (_ & _ & _ & -> & _ & _ & _ & H & _).
    split; [exact Y|]. destruct H as [->|(H & _)]; [exact Z|congruence].
Qed.

Lemma old_push : forall r s j, t_cls r = t_cls r -> j < hlen s -> tget j (push r s) = tget j s.
Proof. intros. apply push_old. assumption. Qed.

Lemma tget_push_all : forall r s j, tget j (push r s) = if j <? hlen s then tget j s else if j =? hlen s then r else dummy_t.
Proof.
  intros r s j. destruct (Nat.ltb_spec j (hlen s)) as [L|L]; [apply push_old; exact L|].
  destruct (Nat.eqb_spec j (hlen s)) as [->|N]; [apply push_new|]. apply hget_out. rewrite hlen_push. lia.
Qed.

Lemma dummy_ok : forall root i, node_ok root i dummy_t.
Proof. intros. split; try discriminate; try reflexivity; cbn; intros H; discriminate H. Qed.

Lemma inv_push : forall r s, inv s -> node_ok (d_root (s_doc s)) (hlen s) r -> t_terms r = [] -> t_children r = [] ->
  (forall j, t_section r = Some j -> section s j) -> inv (push r s).
Proof.
  intros r s V Hr Ht Hc Hs. destruct V as [V1 Vo V2 V3 V4 V5 V6 V7 V8 V9 V10 V11 V12 V13 V14 V15 V16 V17 V18 V19 V20 V21 V22 V23].
  assert (Ps : forall j, plain s j -> plain (push r s) j) by (intros j [X Y]; split; [rewrite hlen_push; lia|rewrite push_old by exact X; exact Y]).
  assert (Ss : forall j, section s j -> section (push r s) j) by (intros j [X Y]; split; [rewrite hlen_push; lia|rewrite push_old by exact X; exact Y]).
  split; rewrite ?doc_push, ?prs_push; try assumption; auto.
  - rewrite push_old by apply V6. exact V7.
  - intros k j E. destruct (V15 _ _ E) as (X & Y & Z). split; [apply Ss; exact X|]. rewrite push_old by apply X. split; assumption.
  - intros j. rewrite tget_push_all. destruct (j <? hlen s); [apply V16|]. destruct (Nat.eqb_spec j (hlen s)) as [->|]; [exact Hr|apply dummy_ok].
  - intros k j E. rewrite hlen_push. specialize (V17 _ _ E). lia.
  - intros j k. rewrite tget_push_all. destruct (j <? hlen s); [apply V19|]. destruct (j =? hlen s); [rewrite Ht|]; intros [].
  - intros j k. rewrite tget_push_all. destruct (j <? hlen s); [intros I; apply Ps, (V20 _ _ I)|]. destruct (j =? hlen s); [rewrite Hc|]; intros [].
  - intros j k. rewrite tget_push_all. destruct (j <? hlen s); [intros I; apply Ss, (V21 _ _ I)|]. destruct (j =? hlen s); [intros I; apply Ss, Hs, I|]; intros I; discriminate I.
  - intros j v h E. destruct (V23 _ _ _ E) as (X & Y & Z). split; [apply Ss; exact X|]. rewrite push_old by apply X. split; assumption.
Qed.

Lemma inv_dterm : forall t s, inv s -> plain s t -> inv (dmod (fun d => set_d_terms (d_terms d ++ [t]) d) s).
Proof.
  intros t s V P. destruct V as [V1 Vo V2 V3 V4 V5 V6 V7 V8 V9 V10 V11 V12 V13 V14 V15 V16 V17 V18 V19 V20 V21 V22 V23].
  split; rewrite ?doc_dmod; try assumption.
  - intros i I. apply in_app_or in I. destruct I as [I|[<-|[]]]; [apply V18; exact I|exact P].
  - intros i j I. apply in_or_app. left. apply (V19 _ _ I).
Qed.

Lemma inv_pmod : forall f s, inv s -> NoDup (dkeys (p_dterms (f (s_prs s)))) ->
  (forall k td, dget k (p_dterms (f (s_prs s))) = Some td -> decl_ok td) ->
  dget "root" (p_tmap (f (s_prs s))) = Some (d_root (s_doc s)) ->
  (dot_free (p_lastparent (f (s_prs s))) /\ lower (p_lastparent (f (s_prs s))) = p_lastparent (f (s_prs s))
    /\ p_lastparent (f (s_prs s)) <> current_parent /\ dget (p_lastparent (f (s_prs s))) (p_tmap (f (s_prs s))) <> None) ->
  munge_param_map (p_pmap (f (s_prs s))) = p_pmap (f (s_prs s)) -> okt (p_dtvn (f (s_prs s))) -> section s (p_lastsec (f (s_prs s))) ->
  (forall k i, dget k (p_tmap (f (s_prs s))) = Some i -> i < hlen s) -> inv (pmod f s).
Proof.
  intros f s V N A B C D E F G. destruct V as [V1 Vo V2 V3 V4 V5 V6 V7 V8 V9 V10 V11 V12 V13 V14 V15 V16 V17 V18 V19 V20 V21 V22 V23].
  split; rewrite ?prs_pmod; assumption.
Qed.

Lemma inv_sec : forall i n s, inv s -> section s i -> t_val (tget i s) = VStr n -> dget (lower n) (d_sections (s_doc s)) = None ->
  (In (lower n) odd \/ t_section (tget i s) = None /\ t_ftype (tget i s) <> Some "declare") ->
  inv (dmod (fun d => set_d_sections (dset (lower n) i (d_sections d)) d) s).
Proof.
  intros i n s V P Hv Hn Ho. destruct V as [V1 Vo V2 V3 V4 V5 V6 V7 V8 V9 V10 V11 V12 V13 V14 V15 V16 V17 V18 V19 V20 V21 V22 V23].
  split; rewrite ?doc_dmod; try assumption.
  - cbn [d_sections set_d_sections d_root]. rewrite dget_dset. eqs_cases "root" (lower n); [|exact V8]. rewrite <- E in Hn. congruence.
  - cbn [d_sections set_d_sections]. apply nodup_dset. exact V14.
  - intros k j. cbn [d_sections set_d_sections]. rewrite dget_dset. eqs_cases k (lower n); [|apply V15].
    intros X. injection X as <-. subst k. split; [exact P|]. split; [exists n; auto|exact Ho].
Qed.

(** ** Frames *)

Definition fr (s s' : st) : Prop := kept s s' /\ s_prs s' = s_prs s /\ forall i, i < hlen s -> t_rt (tget i s') = t_rt (tget i s).
Lemma fr_po : preorder fr.
Proof.
  split.
  - intros s. split; [apply kept_po|auto].
  - intros a b c (A & B & C) (A' & B' & C'). split; [eapply kept_po; eassumption|]. split; [congruence|].
    intros i Hi. rewrite C' by (pose proof (kp_len _ _ A) as L; unfold hlen in *; lia). auto.
Qed.
Lemma fr_push : forall r s, fr s (push r s).
Proof. intros r s. split; [apply kept_push|]. split; [reflexivity|]. intros i Hi. rewrite push_old by exact Hi. reflexivity. Qed.
Lemma fr_hmod : forall i f s, ext f -> (forall r, t_rt (f r) = t_rt r) -> fr s (hmod i f s).
Proof. intros i f s E R. split; [apply kept_hmod; exact E|]. split; [reflexivity|]. intros j _. apply (field_hmod t_rt). exact R. Qed.
Lemma fr_dmod : forall f s, dext f -> fr s (dmod f s).
Proof. intros f s E. split; [apply kept_dmod; exact E|]. split; reflexivity. Qed.
Lemma fr_sec : forall i name s, dget (lower name) (d_sections (s_doc s)) = None ->
  fr s (dmod (fun d => set_d_sections (dset (lower name) i (d_sections d)) d) s).
Proof. intros i name s E. split; [apply kept_sec; exact E|]. split; reflexivity. Qed.

Lemma kept_cls : forall s s' i, kept s s' -> i < hlen s -> t_cls (tget i s') = t_cls (tget i s).
Proof. intros s s' i K Hi. pose proof (kp_core _ _ K i Hi) as E. unfold core in E. unfold tget. congruence. Qed.
Lemma kept_hlen : forall s s', kept s s' -> hlen s <= hlen s'.
Proof. intros s s' K. exact (kp_len _ _ K). Qed.
Lemma kept_plain : forall s s' i, kept s s' -> plain s i -> plain s' i.
Proof. intros s s' i K [A B]. split; [apply kept_hlen in K; lia|rewrite (kept_cls _ _ _ K A); exact B]. Qed.
Lemma kept_section : forall s s' i, kept s s' -> section s i -> section s' i.
Proof. intros s s' i K [A B]. split; [apply kept_hlen in K; lia|rewrite (kept_cls _ _ _ K A); exact B]. Qed.

(** a plain term may be changed freely *)
Lemma soft_plain : forall s i f, inv s -> plain s i -> let r := tget i s in
  t_cls (f r) = t_cls r -> okt (t_tvn (f r)) -> t_dtvn (f r) = t_dtvn r -> t_terms (f r) = t_terms r ->
  (forall j, In j (t_children (f r)) -> In j (t_children r) \/ plain s j) ->
  (forall j, t_section (f r) = Some j -> t_section r = Some j \/ section s j) -> soft i s r (f r).
Proof.
  intros s i f V [_ P] r A B C D E F. split; auto.
  - rewrite C. apply (n_dtvn _ _ _ (v_node _ V i)).
  - intros S. unfold r in S. congruence.
  - rewrite D. auto.
Qed.
Lemma soft_any : forall s i f, inv s -> (forall r, t_cls (f r) = t_cls r /\ t_tvn (f r) = t_tvn r /\ t_dtvn (f r) = t_dtvn r
    /\ t_pt (f r) = t_pt r /\ t_rt (f r) = t_rt r /\ t_val (f r) = t_val r /\ (t_doc (f r) = t_doc r \/ t_doc (f r) = true)
    /\ t_args (f r) = t_args r /\ t_ftype (f r) = t_ftype r /\ t_hargs (f r) = t_hargs r /\ t_section (f r) = t_section r
    /\ t_terms (f r) = t_terms r /\ t_children (f r) = t_children r) -> soft i s (tget i s) (f (tget i s)).
Proof.
  intros s i f V H. destruct (H (tget i s)) as (A & B & C & D & E & F & G & H1 & H2 & H3 & H4 & H5 & H6).
  pose proof (v_node _ V i) as N. split; try congruence.
  - rewrite B. apply N.
  - rewrite C. apply N.
  - intros S. repeat split; auto. destruct G as [->|G]; [apply (n_doc _ _ _ N S)|exact G].
  - rewrite H5. auto.
  - rewrite H6. auto.
  - rewrite H4. auto.
Qed.

Lemma o_doc : forall i s, inv s -> inv (hmod i (set_t_doc true) s).
Proof. intros i s V. apply inv_hmod; [exact V|]. apply soft_any; [exact V|]. intros r. repeat split; auto. Qed.

(** ** Sections and terms of the document *)

Lemma o_add_section : forall i n s s' j, inv s -> section s i -> t_val (tget i s) = VStr n ->
  (In (lower n) odd \/ t_section (tget i s) = None /\ t_ftype (tget i s) <> Some "declare") ->
  add_section i s = (s', Ok j) ->
  inv s' /\ section s' j
  /\ (dget (lower n) (d_sections (s_doc s)) = Some j /\ d_sections (s_doc s') = d_sections (s_doc s)
      \/ dget (lower n) (d_sections (s_doc s)) = None /\ j = i /\ d_sections (s_doc s') = dset (lower n) i (d_sections (s_doc s))).
Proof.
  intros i n s s' j V S Hv Ho H. unfold add_section in H. rg H. rg H.
  rewrite tget_hmod in H by apply S. rewrite Nat.eqb_refl in H.
  change (t_cls (set_t_doc true (tget i s))) with (t_cls (tget i s)) in H. rewrite (proj2 S) in H.
  change (t_val (set_t_doc true (tget i s))) with (t_val (tget i s)) in H. rewrite Hv in H.
  rb H as s1 u H1. apply assert_ok in H1. destruct H1 as [_ ->]. cbn [as_str] in H. rg H. rg H. rewrite doc_hmod in H.
  pose proof (o_doc i s V) as V1.
  destruct (dget (lower n) (d_sections (s_doc s))) as [k|] eqn:E.
  - apply ret_ok in H. destruct H as [-> ->]. split; [exact V1|]. split; [|left; auto].
    destruct (v_secs _ V _ _ E) as (X & _). destruct X as [X Y]. split; [rewrite hlen_hmod; exact X|]. rewrite (field_hmod t_cls) by reflexivity. exact Y.
  - rg H. apply ret_ok in H. destruct H as [-> ->].
    assert (S1 : section (hmod i (set_t_doc true) s) i).
    { destruct S as [X Y]. split; [rewrite hlen_hmod; exact X|]. rewrite (field_hmod t_cls) by reflexivity. exact Y. }
    split; [|split; [exact S1|right; auto]].
    apply inv_sec; auto.
    + rewrite (field_hmod t_val) by reflexivity. exact Hv.
    + rewrite (field_hmod t_section), (field_hmod t_ftype) by reflexivity. exact Ho.
Qed.

Lemma o_add_list : forall t s s' b, inv s -> plain s t -> add_term_list t s = (s', Ok b) ->
  inv s' /\ In t (d_terms (s_doc s')) /\ d_sections (s_doc s') = d_sections (s_doc s).
Proof.
  intros t s s' b V P H. unfold add_term_list in H. rg H. rg H. rewrite doc_hmod in H. pose proof (o_doc t s V) as V1.
  destruct (mem_id t (d_terms (s_doc s))) eqn:M.
  - apply ret_ok in H. destruct H as [-> _]. split; [exact V1|]. split; [|reflexivity].
    unfold mem_id in M. apply existsb_exists in M. destruct M as (x & I & X). apply Nat.eqb_eq in X. subst x. exact I.
  - rg H. rb H as s1 u H1. apply assert_ok in H1. destruct H1 as [_ ->].
    rewrite (field_hmod t_cls) in H by reflexivity. rewrite (proj2 P) in H. rb H as s1 u1 H1. rewrite modD_run in H1. injection H1 as <- <-.
    apply ret_ok in H. destruct H as [-> _]. split; [|split; [apply in_or_app; right; left; reflexivity|reflexivity]].
    apply inv_dterm; [exact V1|]. destruct P as [X Y]. split; [rewrite hlen_hmod; exact X|]. rewrite (field_hmod t_cls) by reflexivity. exact Y.
Qed.

Lemma soft_tvn : forall s t v, inv s -> plain s t -> okt v -> inv (hmod t (set_t_tvn v) s).
Proof. intros s t v V P O. apply inv_hmod; [exact V|]. apply soft_plain; auto. Qed.
Lemma soft_cpt : forall s t v, inv s -> inv (hmod t (set_t_cpt v) s).
Proof. intros s t v V. apply inv_hmod; [exact V|]. apply soft_any; [exact V|]. intros r. repeat split; auto. Qed.
Lemma plain_hmod : forall s t i f, (forall r, t_cls (f r) = t_cls r) -> plain s t -> plain (hmod i f s) t.
Proof. intros s t i f H [A B]. split; [rewrite hlen_hmod; exact A|]. rewrite (field_hmod t_cls) by exact H. exact B. Qed.
Lemma section_hmod : forall s t i f, (forall r, t_cls (f r) = t_cls r) -> section s t -> section (hmod i f s) t.
Proof. intros s t i f H [A B]. split; [rewrite hlen_hmod; exact A|]. rewrite (field_hmod t_cls) by exact H. exact B. Qed.

Lemma o_add_meta : forall t s s', inv s -> plain s t -> add_term_meta t s = (s', Ok tt) -> inv s' /\ s_doc s' = s_doc s.
Proof.
  intros t s s' V P H. unfold add_term_meta in H. rg H. rg H. cbv zeta in H. rb H as s1 u H1. destruct u.
  assert (V1 : inv s1 /\ plain s1 t /\ s_doc s1 = s_doc s).
  { apply when_ok in H1. destruct (_ || _); [|subst; auto]. rewrite modT_run in H1. injection H1 as <-.
    split; [apply soft_cpt; exact V|]. split; [apply plain_hmod; auto|reflexivity]. }
  destruct V1 as (V1 & P1 & D1).
  rb H as s2 u H2. assert (s2 = s1) by (destruct (eqs _ _) in H2; [|destruct (t_section _) in H2]; first [apply ret_ok in H2; tauto|discriminate H2]). subst s2.
  rg H. rb H as s2 u2 H3. apply assert_ok in H; destruct H as [_ ->].
  destruct (_ || _) in H3; [|apply ret_ok in H3; destruct H3 as [-> _]; auto].
  destruct (t_section (tget t s)) as [j|]; [|discriminate H3]. rewrite modT_run in H3. injection H3 as <- _.
  split; [|exact D1]. apply soft_tvn; [exact V1|exact P1|].
  destruct (dget (tjoin (tget t s)) _) as [td|] eqn:E; [|apply (n_dtvn _ _ _ (v_node _ V1 j))].
  destruct (dget "termvaluename" (td_props td)) eqn:E2; [exact (v_dterms _ V _ _ _ E E2)|apply (n_dtvn _ _ _ (v_node _ V1 j))].
Qed.

Lemma o_own : forall f t s s', inv s -> set_ownership f t s = (s', Ok tt) -> inv s' /\ s_doc s' = s_doc s.
Proof.
  induction f as [|f IH]; intros t s s' V H; cbn [set_ownership] in H; [discriminate H|]. rg H.
  rb H as s1 u H1. apply assert_ok in H1. destruct H1 as [_ ->].
  assert (Kd : forall c, In c (t_children (tget t s)) -> plain s c) by (intros c I; apply (v_kids _ V _ _ I)).
  assert (Sec : forall j, t_section (tget t s) = Some j -> section s j) by (intros j E; apply (v_sect _ V _ _ E)).
  set (r := tget t s) in *. clearbody r. revert s s' V H Kd Sec. induction (t_children r) as [|c l IHl]; intros s s' V H Kd Sec.
  { cbn [mapM_] in H. apply ret_ok in H. destruct H as [-> _]. auto. }
  cbn [mapM_] in H. rb H as s1 u1 H1. rg H1. destruct u1.
  match type of H1 with set_ownership f c (hmod c ?g s) = _ => set (g0 := g) in H1 end.
  assert (V1 : inv (hmod c g0 s)).
  { apply inv_hmod; [exact V|]. apply soft_plain; auto; try (apply Kd; left; reflexivity); try reflexivity.
    cbn. apply (n_tvn _ _ _ (v_node _ V c)). }
  pose proof H1 as F. apply IH in H1; [|exact V1]. destruct H1 as [V2 D2].
  assert (K : fr s s1).
  { eapply fr_po; [apply (fr_hmod c g0 s); [intro; repeat split; apply prefix_refl|reflexivity]|].
    eapply pres_ownership; [exact fr_po| |exact F]. intros. apply fr_hmod; [intro; repeat split; apply prefix_refl|reflexivity]. }
  apply IHl in H; [|exact V2| |].
  - destruct H as [V3 D3]. split; [exact V3|]. rewrite D3, D2. reflexivity.
  - intros x I. eapply kept_plain; [apply K|]. apply Kd. right. exact I.
  - intros j E. eapply kept_section; [apply K|]. apply Sec. exact E.
Qed.

Lemma o_section_add : forall sec t s s', inv s -> plain s t -> section_add_term sec t s = (s', Ok tt) ->
  inv s' /\ In t (d_terms (s_doc s')) /\ d_sections (s_doc s') = d_sections (s_doc s).
Proof.
  intros sec t s s' V P H. unfold section_add_term in H. rg H. rg H. rb H as s1 u H1. rg H. apply assert_ok in H. destruct H as [_ ->].
  destruct (mem_id t (t_terms (tget sec s))) eqn:M.
  { apply ret_ok in H1. destruct H1 as [-> _]. split; [exact V|]. split; [|reflexivity].
    unfold mem_id in M. apply existsb_exists in M. destruct M as (x & I & X). apply Nat.eqb_eq in X. subst x. apply (v_tops _ V _ _ I). }
  destruct (eqs _ "root"); [|discriminate H1]. rg H1. destruct (t_doc (tget sec s)); [|discriminate H1]. rg H1.
  rb H1 as s2 u2 H2. rg H1. unfold doc_add_term_nosec in H2.
  assert (X : inv s2 /\ In t (d_terms (s_doc s2)) /\ d_sections (s_doc s2) = d_sections (s_doc s)).
  { clear H1. rb H2 as s3 b H3. unfold add_term_list in H3. rg H3. rg H3. rewrite !doc_hmod in H3.
    set (top := fun r => set_t_terms (t_terms r ++ [t]) r) in *.
    destruct (mem_id t (d_terms (s_doc s))) eqn:Md.
    - assert (Hi : In t (d_terms (s_doc s))).
      { unfold mem_id in Md. apply existsb_exists in Md. destruct Md as (x & I & E). apply Nat.eqb_eq in E. subst x. exact I. }
      apply ret_ok in H3. destruct H3 as [-> ->]. cbn [when] in H2. apply ret_ok in H2. destruct H2 as [-> _].
      split; [|split; [exact Hi|reflexivity]]. apply o_doc. apply inv_hmod; [exact V|].
      pose proof (v_node _ V sec) as N. split; cbn; auto; try apply N.
      + intros S. repeat split; auto. apply (n_doc _ _ _ N S).
      + intros j I. apply in_app_or in I. destruct I as [I|[<-|[]]]; auto.
    - rg H3. rb H3 as s4 u4 H4. apply assert_ok in H4. destruct H4 as [_ ->].
      rewrite !(field_hmod t_cls) in H3 by reflexivity. rewrite (proj2 P) in H3. rb H3 as s4 u5 H5. rewrite modD_run in H5. injection H5 as <- <-.
      apply ret_ok in H3. destruct H3 as [-> ->]. cbn [when] in H2.
      set (add := fun d => set_d_terms (d_terms d ++ [t]) d) in *.
      change (dmod add (hmod t (set_t_doc true) (hmod sec top s))) with (hmod t (set_t_doc true) (hmod sec top (dmod add s))) in H2.
      assert (V1 : inv (dmod add s)) by (apply inv_dterm; assumption).
      assert (V2 : inv (hmod sec top (dmod add s))).
      { apply inv_hmod; [exact V1|]. pose proof (v_node _ V1 sec) as N. split; cbn; auto; try apply N.
        - intros S. repeat split; auto. apply (n_doc _ _ _ N S).
        - intros j I. apply in_app_or in I. destruct I as [I|[<-|[]]]; [left; exact I|right; apply in_or_app; right; left; reflexivity]. }
      apply (o_doc t) in V2. destruct u2. apply o_add_meta in H2; [|exact V2|repeat (apply plain_hmod; [reflexivity|]); exact P].
      destruct H2 as [V3 D3]. split; [exact V3|]. rewrite D3. split; [apply in_or_app; right; left; reflexivity|reflexivity]. }
  destruct X as (X1 & X2 & X3). destruct u. apply o_own in H1; [|exact X1]. destruct H1 as [Y1 Y2]. rewrite Y2. auto.
Qed.

Lemma fresh_ok_node : forall c term p r value args row col ft parent doc sec root i, is_section_cls c = false ->
  node_ok root i (fresh_plain c term p r value args row col ft parent doc sec).
Proof. intros. split; cbn; try (rewrite H; discriminate); discriminate. Qed.

Lemma o_goc : forall i item v s s' c, inv s -> get_or_new_child0 i item v s = (s', Ok c) -> inv s' /\ s_doc s' = s_doc s.
Proof.
  intros i item v s s' c V H. unfold get_or_new_child0 in H. rb H as s1 x H1. apply lift_ok in H1. destruct H1 as [-> H1].
  destruct x as [x0 rt]. rg H. cbv zeta in H. rg H. rb H as s2 o H2. apply lift_ok in H2. destruct H2 as [-> H2].
  rb H as s3 c' H3. rb H as s4 u H4. apply ret_ok in H. destruct H as [-> _].
  assert (s4 = s3).
  { unfold goc_check in H4. rg H4. rb H4 as s5 o5 H5. apply lift_ok in H5. destruct H5 as [-> _]. apply assert_ok in H4. tauto. }
  subst s4. clear H4. destruct o as [k|].
  - rb H3 as s5 u5 H5. apply ret_ok in H3. destruct H3 as [-> _].
    assert (P : plain s k).
    { unfold term_find_first in H2. destruct (child_name _ _) as [n|]; [|discriminate H2]. cbn [rbind] in H2. injection H2 as H2.
      apply find_some in H2. apply (v_kids _ V i). apply H2. }
    assert (X : forall w, inv (hmod k (set_t_val w) s)).
    { intros w. apply inv_hmod; [exact V|]. apply soft_plain; auto. apply (n_tvn _ _ _ (v_node _ V k)). }
    destruct v; first [rewrite modT_run in H5; injection H5 as <- _; split; [apply X|reflexivity]|apply ret_ok in H5; destruct H5 as [-> _]; auto].
  - rb H3 as s5 u5 H5. assert (s5 = s) by (destruct (t_doc (tget i s)); [apply ret_ok in H5; tauto|discriminate H5]). subst s5.
    rg H3. rb H3 as s6 k H6. assert (Hc := H6). apply construct_sec_parent in Hc; [|discriminate].
    apply construct_plain in H6; [|exact Hc]. destruct H6 as (p & r & _ & _ & -> & ->).
    set (R := fresh_plain _ _ _ _ _ _ _ _ _ _ _ _) in *.
    assert (V1 : inv (push R s)).
    { apply inv_push; auto; [apply fresh_ok_node; exact Hc|]. intros j E. apply (v_sect _ V i). exact E. }
    rg H3. rb H3 as s7 b H7. apply lift_ok in H7. destruct H7 as [-> _]. rb H3 as s7 b7 H7. apply assert_ok in H7. destruct H7 as [_ ->].
    rg H3. apply ret_ok in H3. destruct H3 as [-> _]. split; [|reflexivity].
    apply inv_hmod; [exact V1|]. pose proof (v_node _ V1 i) as N. split; cbn; auto; try apply N.
    + intros S. repeat split; auto. apply (n_doc _ _ _ N S).
    + intros j I. apply in_app_or in I. destruct I as [I|[<-|[]]]; [left; exact I|right].
      split; [rewrite hlen_push; lia|rewrite push_new; exact Hc].
Qed.

Lemma soft_section : forall s t o, inv s -> plain s t -> (forall j, o = Some j -> section s j) -> inv (hmod t (set_t_section o) s).
Proof.
  intros s t o V P S. apply inv_hmod; [exact V|]. apply soft_plain; auto; cbn; auto. apply (n_tvn _ _ _ (v_node _ V t)).
Qed.

Lemma o_set_plain : forall t sec s s', inv s -> plain s t -> section s sec -> set_section_plain t sec s = (s', Ok tt) -> inv s' /\ s_doc s' = s_doc s.
Proof.
  intros t sec s s' V P S H. unfold set_section_plain in H. rg H. rg H. destruct (eqs _ "section").
  - rewrite modT_run in H. injection H as <-. split; [|reflexivity]. apply inv_hmod; [exact V|]. apply soft_plain; auto. apply (n_tvn _ _ _ (v_node _ V t)).
  - destruct (mem_str _ _).
    + unfold set_child_item in H. rb H as s1 c H1. apply o_goc in H1; [|exact V]. rg H. rb H as s2 c2 H2. apply lift_ok in H2. destruct H2 as [-> _].
      apply assert_ok in H. destruct H as [_ ->]. exact H1.
    + rewrite modT_run in H. injection H as <-. split; [|reflexivity]. apply soft_section; auto. intros j E. injection E as <-. exact S.
Qed.

(** the sections change at most by the addition of [sec] *)
Definition sec_step (sec : nat) (n : string) (s s' : st) : Prop :=
  d_sections (s_doc s') = d_sections (s_doc s) \/ d_sections (s_doc s') = dset (lower n) sec (d_sections (s_doc s)).

Lemma o_doc_add : forall t sid n s s', inv s -> plain s t -> t_section (tget t s) = Some sid -> t_val (tget sid s) = VStr n -> In (lower n) odd ->
  doc_add_term t s = (s', Ok tt) -> inv s' /\ sec_step sid n s s'.
Proof.
  intros t sid n s s' V P E Hv Ho H. unfold doc_add_term in H. rb H as s1 b H1.
  pose proof H1 as F. apply (w_add_list fr fr_po fr_hmod fr_dmod fr_sec) in F.
  assert (Esec : t_section (tget t s1) = Some sid /\ t_val (tget sid s1) = VStr n).
  { revert H1. clear - E Hv P. intros H1. unfold add_term_list in H1. rg H1. rg H1. rewrite doc_hmod in H1.
    assert (X : t_section (tget t (hmod t (set_t_doc true) s)) = Some sid /\ t_val (tget sid (hmod t (set_t_doc true) s)) = VStr n).
    { rewrite (field_hmod t_section), (field_hmod t_val) by reflexivity. auto. }
    destruct (mem_id _ _); [apply ret_ok in H1; destruct H1 as [-> _]; exact X|].
    rg H1. rb H1 as s2 u H2. apply assert_ok in H2. destruct H2 as [_ ->]. rewrite (field_hmod t_cls) in H1 by reflexivity. rewrite (proj2 P) in H1.
    rb H1 as s2 u2 H2. rewrite modD_run in H2. injection H2 as <- <-. apply ret_ok in H1. destruct H1 as [-> _]. exact X. }
  destruct Esec as [E1 Hv1]. apply o_add_list in H1; auto. destruct H1 as (V1 & I1 & D1).
  assert (P1 : plain s1 t) by (eapply kept_plain; [apply F|exact P]).
  assert (S1 : section s1 sid) by (apply (v_sect _ V1 _ _ E1)).
  destruct b; cbn [when] in H; [|apply ret_ok in H; destruct H as [-> _]; split; [exact V1|left; exact D1]].
  rg H. rb H as s2 u H2. destruct u. rewrite E1 in H2.
  assert (X : inv s2 /\ plain s2 t /\ sec_step sid n s1 s2).
  { destruct (eqs _ "root"); [|apply ret_ok in H2; destruct H2 as [-> _]; split; [exact V1|split; [exact P1|left; reflexivity]]].
    rb H2 as s3 j H3. pose proof H3 as F3. apply (w_add_section fr fr_po fr_hmod fr_sec) in F3.
    apply (o_add_section _ n) in H3; auto. destruct H3 as (V3 & S3 & D3).
    rb H2 as s4 u4 H4. destruct u4. pose proof H4 as F4. apply (w_set_section_plain fr fr_po fr_push fr_hmod) in F4.
    apply o_set_plain in H4; auto; [|eapply kept_plain; [apply F3|exact P1]]. destruct H4 as (V4 & D4).
    rg H2. destruct (t_section (tget t s4)) as [q|]; [|discriminate H2].
    assert (P4 : plain s4 t) by (eapply kept_plain; [apply F4|]; eapply kept_plain; [apply F3|exact P1]).
    pose proof H2 as F5. apply (w_section_add fr fr_po fr_hmod fr_dmod fr_sec) in F5.
    apply o_section_add in H2; auto. destruct H2 as (V5 & _ & D5). split; [exact V5|]. split; [eapply kept_plain; [apply F5|exact P4]|].
    unfold sec_step. rewrite D5, D4. destruct D3 as [(_ & ->)|(_ & _ & ->)]; auto. }
  destruct X as (V2 & P2 & D2). apply o_add_meta in H; auto. destruct H as [V3 D3]. split; [exact V3|].
  unfold sec_step in *. rewrite D3, <- D1. exact D2.
Qed.

Lemma o_setitem : forall sec n v s s', inv s -> section s sec -> t_val (tget sec s) = VStr n -> In (lower n) odd ->
  section_setitem sec "section" v s = (s', Ok tt) -> inv s' /\ sec_step sec n s s'.
Proof.
  intros sec n v s s' V S Hv Ho H. unfold section_setitem, get_or_new_term in H. rb H as s1 t H1. apply ret_ok in H. destruct H as [-> _].
  rb H1 as s2 o H2. apply reads_ok in H2. destruct H2 as [-> H2]. destruct o as [k|].
  - rb H1 as s3 u H3. cbn [mapM_] in H1. rg H1. apply ret_ok in H1. destruct H1 as [-> _].
    assert (P : plain s k).
    { unfold section_get_term, doc_find_first, doc_find in H2. rewrite (v_derived _ V) in H2. cbn [dget] in H2. unfold find1 in H2.
      change (has_char "." (lower "section")) with false in H2. cbv zeta iota in H2.
      change (startswith "root." ("root." ++ lower "section")) with true in H2. cbv iota in H2. cbn [rbind] in H2.
      destruct (rfilter _ _) as [l|] eqn:Ef in H2; [|discriminate H2]. cbn [rbind] in H2. injection H2 as H2.
      destruct l as [|y l]; [discriminate H2|]. cbn in H2. injection H2 as <-. apply (v_terms _ V).
      assert (forall f (a : list nat) b, rfilter f a = Ok b -> forall z, In z b -> In z a).
      { clear. intros f a. induction a as [|x a IH]; intros b H z I; cbn [rfilter] in H; [injection H as <-; exact I|].
        destruct (f x) as [c|]; [|discriminate H]. cbn [rbind] in H. destruct (rfilter f a) as [q|]; [|discriminate H]. cbn [rbind] in H. injection H as <-.
        destruct c; [destruct I as [<-|I]; [left; reflexivity|]|]; right; eapply IH; eauto. }
      eapply H; [exact Ef|left; reflexivity]. }
    assert (X : forall w, inv (hmod k (set_t_val w) s)).
    { intros w. apply inv_hmod; [exact V|]. apply soft_plain; auto. apply (n_tvn _ _ _ (v_node _ V k)). }
    destruct v; first [rewrite modT_run in H3; injection H3 as <- _; split; [apply X|left; reflexivity]
                      |apply ret_ok in H3; destruct H3 as [-> _]; split; [exact V|left; reflexivity]].
  - unfold Ops.new_term in H1. rg H1. destruct (t_doc _); [|discriminate H1]. rg H1. rg H1. rb H1 as s3 k H3.
    assert (Hc : is_section_cls (doc_term_class (lower "section") s) = false).
    { destruct (doc_term_class (lower "section") s) eqn:Ec; try reflexivity; cbn [construct] in H3; discriminate H3. }
    apply construct_plain in H3; [|exact Hc]. destruct H3 as (p & r & _ & _ & -> & ->). set (R := fresh_plain _ _ _ _ _ _ _ _ _ _ _ _) in *.
    assert (V1 : inv (push R s)).
    { apply inv_push; auto; [apply fresh_ok_node; exact Hc|]. intros j E. injection E as <-. exact S. }
    unfold new_children in H1. cbn [mapM_] in H1. rg H1. rb H1 as s4 u H4. apply ret_ok in H1. destruct H1 as [-> _]. destruct u.
    apply (o_doc_add _ sec n) in H4; auto.
    + split; [rewrite hlen_push; lia|rewrite push_new; exact Hc].
    + rewrite push_new. reflexivity.
    + rewrite push_old by apply S. exact Hv.
Qed.

(** ** Declarations *)

Definition only_decls (s s' : st) : Prop :=
  s_heap s' = s_heap s /\ s_doc s' = s_doc s /\ s_reg s' = s_reg s /\ p_pmap (s_prs s') = p_pmap (s_prs s)
  /\ p_lastparent (s_prs s') = p_lastparent (s_prs s) /\ p_tmap (s_prs s') = p_tmap (s_prs s)
  /\ p_dtvn (s_prs s') = p_dtvn (s_prs s) /\ p_lastsec (s_prs s') = p_lastsec (s_prs s).
Lemma only_po : preorder only_decls.
Proof. split; unfold only_decls; intros; repeat split; intuition congruence. Qed.

Lemma only_inherit : forall f t_r ih_r sec n, pres only_decls (inherit_loop f t_r ih_r sec n).
Proof.
  pose proof only_po as PO. intros f t_r ih_r sec. induction f as [|f IH]; intros; cbn [inherit_loop]; [apply pres_raise; exact PO|].
  apply pres_bind; [exact PO|apply pres_gets; exact PO|]. intros p. destruct (dget sec (p_dsecs p)); [|apply pres_raise; exact PO].
  destruct (nth_error _ n); [|apply pres_ret; exact PO]. apply pres_bind; [exact PO| |intros; apply IH].
  apply pres_when; [exact PO|]. apply pres_bind; [exact PO|apply pres_lift; exact PO|]. intros [a b].
  destruct (dget _ _); [|apply pres_raise; exact PO]. cbv zeta. apply pres_bind; [exact PO|apply pres_lift; exact PO|]. intros k.
  apply pres_bind; [exact PO|apply pres_modP; intros; repeat split|]. intros _.
  unfold add_term_to_section. apply pres_bind; [exact PO|apply pres_gets; exact PO|]. intros q. cbv zeta.
  repeat match goal with |- pres _ (match ?x with _ => _ end) => destruct x end; try (apply pres_raise; exact PO); try (apply pres_ret; exact PO).
  apply pres_modP. intros; repeat split.
Qed.
Lemma only_declare : forall t, pres only_decls (manage_declare_terms t).
Proof.
  pose proof only_po as PO. intros t.
  unfold manage_declare_terms, add_declared_section, add_declared_term, add_value_set_value, add_term_to_section.
  repeat (cbv beta; match goal with
    | |- forall _, _ => intro
    | |- pres _ (bind _ _) => apply pres_bind; [exact PO| |]
    | |- pres _ (ret _) => apply pres_ret; exact PO
    | |- pres _ (raise _) => apply pres_raise; exact PO
    | |- pres _ (lift _) => apply pres_lift; exact PO
    | |- pres _ (gets _) => apply pres_gets; exact PO
    | |- pres _ (getT _) => apply pres_gets; exact PO
    | |- pres _ getP => apply pres_gets; exact PO
    | |- pres _ (when _ _) => apply pres_when; [exact PO|]
    | |- pres _ (modP _) => apply pres_modP; intro; repeat split
    | |- pres _ (inherit_loop _ _ _ _ _) => apply only_inherit
    | |- pres _ (if ?b then _ else _) => destruct b
    | |- pres _ (match ?x with _ => _ end) => destruct x
    | |- pres _ (let _ := _ in _) => cbv zeta
    end).
Qed.

Lemma inv_decls : forall s s', inv s -> only_decls s s' -> NoDup (dkeys (p_dterms (s_prs s'))) -> (forall k td, dget k (p_dterms (s_prs s')) = Some td -> decl_ok td) -> inv s'.
Proof.
  intros s s' V (A & B & C & D & E & F & G & H) N X. destruct V as [V1 Vo V2 V3 V4 V5 V6 V7 V8 V9 V10 V11 V12 V13 V14 V15 V16 V17 V18 V19 V20 V21 V22 V23].
  assert (T : forall i, tget i s' = tget i s) by (intros; unfold tget; rewrite A; reflexivity).
  assert (L : hlen s' = hlen s) by (unfold hlen; rewrite A; reflexivity).
  assert (Ps : forall j, plain s j -> plain s' j) by (intros j [? ?]; split; [rewrite L|rewrite T]; assumption).
  assert (Ss : forall j, section s j -> section s' j) by (intros j [? ?]; split; [rewrite L|rewrite T]; assumption).
  split; rewrite ?B, ?C, ?D, ?E, ?F, ?G, ?H, ?T; try assumption; auto.
  - intros k i Hk. rewrite T. destruct (V15 _ _ Hk) as (? & ?). split; auto.
  - intros i. rewrite T. apply V16.
  - intros k i Hk. rewrite L. apply (V17 _ _ Hk).
  - intros i j. rewrite T. apply V19.
  - intros i j. rewrite T. intros I. apply Ps, (V20 _ _ I).
  - intros i j. rewrite T. intros I. apply Ss, (V21 _ _ I).
  - intros i v h I. rewrite T. destruct (V23 _ _ _ I) as (? & ?). split; auto.
Qed.

(** the cells of a row that declares a term *)
Definition declares (r : trec) : Prop :=
  (forall x, t_val r = VStr x -> okt x) /\ Forall okt (t_args r) /\ forall i c, In i syn -> nth_error (t_args r) i = Some c -> c = "".

Lemma nth_combine : forall {A B} (a : list A) (b : list B) n x y, nth_error (combine a b) n = Some (x, y) -> nth_error a n = Some x /\ nth_error b n = Some y.
Proof.
  intros A B a. induction a as [|a0 a IH]; intros b n x y H; destruct b as [|b0 b]; try (destruct n; discriminate H).
  destruct n as [|n]; [injection H as -> ->; auto|]. exact (IH b n x y H).
Qed.

Lemma props_ok : forall s t v ap np, inv s -> declares (tget t s) -> arg_props (s_heap s) (tget t s) = Ok ap -> nonblank_props ap = Ok np ->
  decl_ok (mk_tdecl (dset "term" v np) []).
Proof.
  intros s t v ap np V (D1 & D2 & D3) Ha Hn. pose proof (v_node _ V t) as N. set (r := tget t s) in *.
  assert (X : forall k x, dget k np = Some x -> nonblank x = true /\ In (k, VStr x) ap).
  { intros k x E. unfold nonblank_props in Hn. destruct (rmap _ ap) as [l|] eqn:Er; [|discriminate Hn]. cbn [rbind] in Hn. injection Hn as <-.
    apply dget_in in E. apply in_concat in E. destruct E as (y & I & J). destruct (rmap_back _ _ _ Er _ I) as ((k' & v') & I' & F). cbn [fst snd] in F.
    destruct (as_str v') as [w|] eqn:Ew; [|discriminate F]. cbn [rbind] in F. injection F as <-.
    destruct (nonblank w) eqn:Nb; [|destruct J]. destruct J as [J|[]]. injection J as -> ->. split; [exact Nb|].
    destruct v'; cbn in Ew; try discriminate Ew; injection Ew as ->; exact I'. }
  unfold arg_props in Ha. destruct (t_section r) as [j|] eqn:Es; [|discriminate Ha].
  pose proof (v_sect _ V _ _ Es) as (Sj & Cj). unfold tget in Cj. rewrite Cj in Ha. injection Ha as <-.
  pose proof (n_names _ _ _ (v_node _ V j) Cj) as [Y1 Y2].
  assert (Y : synonyms_at syn (sec_property_names (hget j (s_heap s)))).
  { unfold sec_property_names. fold (tget j s). destruct (t_hargs (tget j s)) eqn:Eh; [exact Y1|exact Y2]. }
  assert (Z : forall k x, In (k, VStr x) (dict_of (combine (map lower (sec_property_names (hget j (s_heap s)))) (map VStr (t_args r)))) ->
    exists i c, nth_error (sec_property_names (hget j (s_heap s))) i = Some c /\ lower c = k /\ nth_error (t_args r) i = Some x).
  { intros k x I.
    assert (I' : In (k, VStr x) (combine (map lower (sec_property_names (hget j (s_heap s)))) (map VStr (t_args r)))).
    { clear - I. unfold dict_of, dupdate in I. revert I. generalize (combine (map lower (sec_property_names (hget j (s_heap s)))) (map VStr (t_args r))).
      intros l. induction l as [|[a b] l IH] using rev_ind; [intros []|]. rewrite fold_left_app. cbn [fold_left fst snd]. intros I.
      apply in_or_app. apply in_dset in I. destruct I as [I|I]; [right; left; congruence|left; auto]. }
    apply In_nth_error in I'. destruct I' as (i & E). apply nth_combine in E. destruct E as [E1 E2].
    rewrite nth_error_map in E1, E2. destruct (nth_error _ i) as [c|] eqn:Ec in E1; [|discriminate E1].
    destruct (nth_error (t_args r) i) as [x'|] eqn:Ex; [|discriminate E2]. injection E1 as <-. injection E2 as ->. exists i, c. auto. }
  split; cbn [td_props].
  - rewrite dget_dset. change (eqs "synonym" "term") with false. cbv iota. destruct (dget "synonym" np) as [x|] eqn:E; [|reflexivity]. exfalso.
    destruct (X _ _ E) as [Nb I]. apply in_dset in I. destruct I as [I|I].
    + injection I as I _. symmetry in I. apply (n_tvn _ _ _ N). exact I.
    + destruct (Z _ _ I) as (i & c & A & B & C). pose proof (D3 i x (Y i c A B) C) as ->. discriminate Nb.
  - intros w. rewrite dget_dset. change (eqs "termvaluename" "term") with false. cbv iota. intros E.
    destruct (X _ _ E) as [Nb I]. apply in_dset in I. destruct I as [I|I].
    + injection I as _ I. apply D1. auto.
    + destruct (Z _ _ I) as (i & c & A & B & C). rewrite Forall_forall in D2. apply D2. eapply nth_error_In. exact C.
Qed.

Lemma decl_inh : forall (k0 : string) td v (k : string), decl_ok td -> normalize_term v = Ok k ->
  decl_ok (set_td_props (dset "term" v (dset "inheritsfrom" "" (td_props td))) td).
Proof.
  intros k0 td v k [A B] _. split; cbn [td_props set_td_props]; rewrite !dget_dset; [exact A|exact B].
Qed.

Lemma o_declare : forall t s s', inv s -> lc_name (tget t s) -> (named_root (tget t s) "declareterm" = true -> declares (tget t s)) ->
  manage_declare_terms t s = (s', Ok tt) -> inv s' /\ only_decls s s'.
Proof.
  intros t s s' V LC D H. pose proof H as O. apply only_declare in O. split; [|exact O]. eapply inv_decls; [exact V|exact O| |]; clear O.
  { eapply (pres_declare (fun a b => NoDup (dkeys (p_dterms (s_prs a))) -> NoDup (dkeys (p_dterms (s_prs b))))); [split; auto| |exact H|apply (v_nodup _ V)].
    intros f s0 K N. apply (K (s_prs s0)). exact N. }
  set (Q := fun (_ : string) td => decl_ok td). change (all_decl Q s'). assert (A : all_decl Q s) by exact (v_decl _ V).
  pose proof (keeps_po Q) as PO.
  unfold manage_declare_terms in H. rg H. rb H as s1 b1 H1. apply lift_ok in H1. destruct H1 as [-> _]. destruct b1.
  { unfold add_declared_section in H. rg H. rb H as s2 n H2. apply lift_ok in H2. destruct H2 as [-> _]. rewrite modP_run in H. injection H as <-. exact A. }
  rb H as s1 b2 H2. apply lift_ok in H2. destruct H2 as [-> H2].
  change "root.declareterm" with (dotted "root" "declareterm") in H2.
  rewrite term_is_root in H2; [|apply dot_free_iff; reflexivity|apply tidy_iff; split; reflexivity|reflexivity|discriminate|exact LC].
  injection H2 as H2. destruct b2.
  - specialize (D H2). unfold add_declared_term in H. rg H. rb H as s2 v H3.
    assert (E3 : s2 = s) by (destruct (t_val (tget t s)); try discriminate H3; apply ret_ok in H3; tauto). subst s2. clear H3.
    rb H as s2 nm H3. apply lift_ok in H3. destruct H3 as [-> H3]. rg H.
    rb H as s2 ap H4. apply lift_ok in H4. destruct H4 as [-> H4]. rb H as s2 np H5. apply lift_ok in H5. destruct H5 as [-> H5].
    cbv zeta in H. pose proof (props_ok s t v ap np V D H4 H5) as Ok0.
    rb H as s2 u H6. rewrite modP_run in H6. injection H6 as <- <-.
    set (s2 := pmod _ s) in H. assert (A2 : all_decl Q s2) by (apply keeps_new; [exact Ok0|exact A]).
    rb H as s3 u H6.
    assert (A3 : all_decl Q s3).
    { destruct (dget "section" _) in H6.
      - revert A2. destruct u. apply when_ok in H6. destruct (nonempty _) in H6; [apply (keeps_section Q) in H6; exact H6|subst; auto].
      - apply ret_ok in H6. destruct H6 as [-> _]. exact A2. }
    destruct (dget "inheritsfrom" _) in H; [|apply ret_ok in H; destruct H as [-> _]; exact A3].
    destruct (nonempty _) in H; [|apply ret_ok in H; destruct H as [-> _]; exact A3].
    destruct (dget "section" _) in H; [|discriminate H].
    rb H as s4 x4 H7. apply lift_ok in H7. destruct H7 as [-> _]. destruct x4 as [xa xb]. rb H as s4 x4 H7. apply lift_ok in H7. destruct H7 as [-> _]. destruct x4 as [xc xd].
    rg H. eapply (keeps_inherit Q decl_inh) in H. exact (H A3).
  - rb H as s1 b3 H3. apply lift_ok in H3. destruct H3 as [-> _]. destruct b3; [|apply ret_ok in H; destruct H as [-> _]; exact A].
    unfold add_value_set_value in H. rg H. rg H. destruct (t_parent (tget t s)) as [q|]; [|discriminate H].
    rg H. rb H as s2 ap H4. apply lift_ok in H4. destruct H4 as [-> H4]. cbv zeta in H. rewrite modP_run in H. injection H as <-.
    intros k td E. cbn in E. rewrite dget_map_vals in E.
    2:{ clear E. intros [k' td']. cbn [fst snd]. destruct (dget "valuesetname" (td_props td')); [|reflexivity].
        match goal with |- context [if ?b then _ else _] => destruct b end; reflexivity. }
    destruct (dget k (p_dterms (s_prs s))) as [td0|] eqn:Ed; [|discriminate E]. injection E as <-. cbn [fst snd]. apply A in Ed.
    destruct (dget "valuesetname" (td_props td0)) as [n|] eqn:Ev; [|exact Ed].
    match goal with |- context [if ?b then _ else _] => destruct b end; exact Ed.
Qed.

End Calm.
