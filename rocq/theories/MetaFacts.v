(** * MetaFacts: the meta data of a parsed term *)

From Verif Require Import ListFacts StrFacts SpecNames NameFacts HeapFacts Parser RunFacts EmitFacts FrameFacts SpecDoc.

Lemma add_term_meta_keeps : forall t s s', add_term_meta t s = (s', Ok tt) -> t < hlen s ->
  t_cpt (tget t s) <> "" ->
  (t_cpt (tget t s) = "any" -> forall x, decl_prop (d_decl_terms (s_doc s)) (tjoin (tget t s)) "childpropertytype" = Some x -> x = "any") ->
  t_tvn (tget t s) <> "" ->
  (forall x, decl_prop (d_decl_terms (s_doc s)) (tjoin (tget t s)) "termvaluename" = Some x -> x = t_tvn (tget t s)) ->
  t_cpt (tget t s') = t_cpt (tget t s) /\ t_tvn (tget t s') = t_tvn (tget t s).
Proof.
  intros t s s' H Ht C1 C2 V1 V2. unfold add_term_meta in H. rg H. rg H. cbv zeta in H.
  set (P := fun k => match dget (tjoin (tget t s)) (d_decl_terms (s_doc s)) with Some td => dget k (td_props td) | None => None end).
  assert (EP : forall k, decl_prop (d_decl_terms (s_doc s)) (tjoin (tget t s)) k = P k) by reflexivity.
  rewrite EP in C2, V2. change (match dget (tjoin (tget t s)) (d_decl_terms (s_doc s)) with Some td => dget "childpropertytype" (td_props td) | None => None end)
    with (P "childpropertytype") in H.
  change (match dget (tjoin (tget t s)) (d_decl_terms (s_doc s)) with Some td => dget "termvaluename" (td_props td) | None => None end)
    with (P "termvaluename") in H.
  clearbody P. clear EP. set (r := tget t s) in *.
  rb H as s1 u H1.
  assert (A1 : t_cpt (tget t s1) = t_cpt r /\ t_tvn (tget t s1) = t_tvn r /\ hlen s1 = hlen s).
  { destruct (eqs (t_cpt r) "") eqn:E1; [apply eqs_true in E1; contradiction|].
    eqs_cases (t_cpt r) "any"; cbn [orb when] in H1.
    - apply modT_inv in H1. destruct H1 as [-> _]. rewrite tget_hmod by exact Ht. rewrite Nat.eqb_refl. rewrite hlen_hmod. split; [|split; reflexivity].
      cbn [t_cpt set_t_cpt]. destruct (P "childpropertytype") as [x|]; [|congruence]. rewrite (C2 E x eq_refl). congruence.
    - injection H1 as <- _. auto. }
  destruct A1 as (A1 & A2 & A3). clear H1.
  assert (E0 : eqs (t_tvn r) "" = false) by (apply eqs_false; exact V1). rewrite E0 in H. cbn [orb] in H.
  rb H as s2 u2 H2. destruct (t_section r) as [sc|]; [|discriminate H2]. injection H2 as <- _.
  rg H. rb H as s3 u3 H3. apply assert_ok in H. destruct H as [_ ->].
  eqs_cases (t_tvn r) (t_dtvn (hget sc (s_heap s1))).
  - apply modT_inv in H3. destruct H3 as [-> _]. rewrite tget_hmod by lia. rewrite Nat.eqb_refl. split; [exact A1|].
    cbn [t_tvn set_t_tvn]. destruct (P "termvaluename") as [x|]; [apply V2; reflexivity|symmetry; exact E].
  - injection H3 as <- _. auto.
Qed.

Lemma same_fields_ownership : forall {A} (f : trec -> A) i fuel t,
  (forall a b d q, f (set_t_doc a (set_t_section b (set_t_parent d q))) = f q) -> pres (keeps f i) (set_ownership fuel t).
Proof. intros A f i fuel t H. apply pres_ownership; [apply keeps_po|]. intros. apply field_hmod. intros. apply H. Qed.

Lemma valid_section_add : forall i sec t, pres (keeps t_valid i) (section_add_term sec t).
Proof.
  intros i sec t. unfold section_add_term. repeat pres1.
  - unfold doc_add_term_nosec, add_term_list, add_section, add_term_meta. presa.
  - apply same_fields_ownership. reflexivity.
Qed.

Lemma valid_attach : forall i t, pres (keeps t_valid i) (attach t).
Proof. intros i t. unfold attach, add_child. presa. Qed.

Lemma section_add_keeps : forall sec t s s', section_add_term sec t s = (s', Ok tt) -> t < hlen s ->
  t_cpt (tget t s) <> "" ->
  (t_cpt (tget t s) = "any" -> forall x, decl_prop (d_decl_terms (s_doc s)) (tjoin (tget t s)) "childpropertytype" = Some x -> x = "any") ->
  t_tvn (tget t s) <> "" ->
  (forall x, decl_prop (d_decl_terms (s_doc s)) (tjoin (tget t s)) "termvaluename" = Some x -> x = t_tvn (tget t s)) ->
  t_cpt (tget t s') = t_cpt (tget t s) /\ t_tvn (tget t s') = t_tvn (tget t s).
Proof.
  intros sec t s s' H Ht C1 C2 V1 V2. unfold section_add_term in H. rg H. rg H. rb H as s1 u H1. destruct u.
  rg H. apply assert_ok in H. destruct H as [_ ->].
  destruct (mem_id t (t_terms (tget sec s))); [injection H1 as <-; auto|].
  destruct (eqs (pt_lc (tget t s)) "root"); [|discriminate H1].
  rg H1. set (s2 := hmod sec _ s) in *.
  assert (F2 : forall {A} (f : trec -> A), (forall x r, f (set_t_terms x r) = f r) -> f (tget t s2) = f (tget t s)) by (intros A f Hf; apply field_hmod; intros; apply Hf).
  assert (L2 : hlen s2 = hlen s) by apply hlen_hmod.
  rb H1 as s3 u3 H3. destruct (t_doc (tget sec s)); [|discriminate H3]. injection H3 as <- _.
  rb H1 as s4 u4 H4. destruct u4. rg H1.
  assert (K : t_cpt (tget t s4) = t_cpt (tget t s) /\ t_tvn (tget t s4) = t_tvn (tget t s)).
  { unfold doc_add_term_nosec in H4. rb H4 as s5 b5 H5. unfold add_term_list in H5. rg H5. set (s6 := hmod t _ s2) in *.
    assert (F6 : forall {A} (f : trec -> A), (forall x r, f (set_t_terms x r) = f r) -> (forall x r, f (set_t_doc x r) = f r) -> f (tget t s6) = f (tget t s)).
    { intros A f Ha Hb. unfold s6. rewrite <- (F2 _ f Ha). apply field_hmod. intros; apply Hb. }
    assert (L6 : hlen s6 = hlen s) by (unfold s6; rewrite hlen_hmod; exact L2).
    rg H5. destruct (mem_id t _).
    - injection H5 as <- <-. cbn [when] in H4. injection H4 as <-. split; apply F6; reflexivity.
    - rg H5. rb H5 as s7 u7 H7. apply assert_ok in H7. destruct H7 as [_ ->].
      rb H5 as s8 u8 H8. apply ret_ok in H5. destruct H5 as [-> ->]. cbn [when] in H4.
      assert (F8 : forall {A} (f : trec -> A), (forall x r, f (set_t_terms x r) = f r) -> (forall x r, f (set_t_doc x r) = f r) -> f (tget t s8) = f (tget t s)).
      { intros A f Ha Hb. rewrite <- (F6 _ f Ha Hb). destruct (is_section_cls _).
        - usep (keeps f t) H8; [|exact H8]. unfold add_section. repeat pres1. apply keeps_modT. intros; apply Hb.
        - apply modD_inv in H8. destruct H8 as [-> _]. reflexivity. }
      assert (D8 : d_decl_terms (s_doc s8) = d_decl_terms (s_doc s) /\ hlen s8 = hlen s).
      { destruct (is_section_cls _).
        - set (RR := fun a b : st => d_decl_terms (s_doc b) = d_decl_terms (s_doc a) /\ hlen b = hlen a).
          assert (PO : preorder RR) by (split; unfold RR; [auto|intros a b c [? ?] [? ?]; split; congruence]).
          rewrite <- L6. change (d_decl_terms (s_doc s)) with (d_decl_terms (s_doc s6)). change (RR s6 s8). usep RR H8; [|exact H8]. unfold add_section. repeat pres1; try exact PO.
          + apply pres_modT. intros s0. unfold RR. rewrite hlen_hmod. split; reflexivity.
          + apply pres_modD. intros s0. split; reflexivity.
        - apply modD_inv in H8. destruct H8 as [-> _]. split; [reflexivity|exact L6]. }
      destruct D8 as [D8 L8].
      pose proof (F8 _ t_cpt (fun _ _ => eq_refl) (fun _ _ => eq_refl)) as Ec.
      pose proof (F8 _ t_tvn (fun _ _ => eq_refl) (fun _ _ => eq_refl)) as Ev.
      pose proof (F8 _ tjoin (fun _ _ => eq_refl) (fun _ _ => eq_refl)) as Ej.
      apply add_term_meta_keeps in H4; rewrite ?Ec, ?Ev, ?Ej, ?D8 in *; auto. lia. }
  destruct K as [<- <-]. split; [apply (same_fields_ownership t_cpt t) in H1|apply (same_fields_ownership t_tvn t) in H1]; try exact H1; reflexivity.
Qed.

Lemma declares_iff : forall dt n k v, decl_prop dt n k = Some v <-> declares dt n k v.
Proof.
  intros dt n k v. unfold decl_prop, declares. destruct (dget n dt) as [td|].
  - split; [eauto|]. intros (td' & E & H). injection E as <-. exact H.
  - split; [discriminate|]. intros (td' & E & _). discriminate E.
Qed.
Lemma declared_or_iff : forall dt n k d x, (match decl_prop dt n k with Some v => v | None => d end) = x -> declared_or dt n k d x.
Proof.
  intros dt n k d x H. unfold declared_or. destruct (decl_prop dt n k) as [v|] eqn:E.
  - left. subst. apply declares_iff. exact E.
  - right. split; [auto|]. intros v V. apply declares_iff in V. congruence.
Qed.

Lemma c16 : forall t s s' p r, t < hlen s -> t_pt (tget t s) = p -> t_rt (tget t s) = r -> lower p = p -> lower r = r ->
  p <> ELIDED_TERM -> consume_normal t s = (s', Ok tt) ->
  let dt := p_dterms (s_prs s) in let n := dotted p r in
  (exists b, t_valid (tget t s') = Some b /\ (b = true <-> exists td, dget n dt = Some td))
  /\ ((p = "root" ->
        (* the document declares the term as the parser does, or not at all; no empty declaration *)
        (dget n (d_decl_terms (s_doc s)) = None \/ dget n (d_decl_terms (s_doc s)) = dget n dt)
        /\ p_dtvn (s_prs s) <> "" /\ ~ declares dt n "termvaluename" "" /\ ~ declares dt n "childpropertytype" "") ->
      declared_or dt n "childpropertytype" "any" (t_cpt (tget t s'))
      /\ declared_or dt n "termvaluename" (p_dtvn (s_prs s)) (t_tvn (tget t s'))).
Proof.
  intros t s s' p r Ht Ep Er Lp Lr Ne H dt n. unfold consume_normal in H. rb H as s1 u1 H1. destruct u1. rewrite set_meta_run in H1. injection H1 as <-.
  set (f := metaF (p_dterms (s_prs s)) (p_dtvn (s_prs s))) in *. set (s1 := hmod t f s) in *. fold dt in f.
  assert (T1 : tget t s1 = f (tget t s)) by (unfold s1; rewrite tget_hmod by exact Ht; rewrite Nat.eqb_refl; reflexivity).
  assert (J : tjoin (tget t s) = n /\ join_lc (tget t s) = n).
  { unfold tjoin, join_lc, pt_lc, rt_lc, n. rewrite Ep, Er, Lp, Lr. split; reflexivity. }
  destruct J as [J1 J2].
  set (C := match decl_prop dt n "childpropertytype" with Some v => v | None => "any" end).
  set (V := match decl_prop dt n "termvaluename" with Some v => v | None => p_dtvn (s_prs s) end).
  assert (M1 : t_valid (tget t s1) = Some (dmem n dt) /\ t_cpt (tget t s1) = C /\ t_tvn (tget t s1) = V /\ tjoin (tget t s1) = n /\ pt_lc (tget t s1) = p).
  { rewrite T1. unfold f, metaF. rewrite J1, J2. cbn [t_valid t_cpt t_tvn set_t_options set_t_valid set_t_tvn set_t_cpt].
    repeat split; [exact J1|]. unfold pt_lc. cbn [t_pt set_t_options set_t_valid set_t_tvn set_t_cpt]. rewrite Ep. exact Lp. }
  destruct M1 as (M1 & M2 & M3 & M4 & M5).
  rb H as s2 u2 H2. destruct u2.
  assert (F2 : forall {A} (f : trec -> A), (forall x r, f (set_t_children x r) = f r) -> (forall x r, f (set_t_parent x r) = f r) -> f (tget t s2) = f (tget t s1)).
  { intros A g Ha Hb. revert H2. unfold attach. intros H2. rg H2. rg H2. rewrite T1 in H2. change (t_pt (f (tget t s))) with (t_pt (tget t s)) in H2.
    rewrite Ep in H2. apply eqs_false in Ne. rewrite Ne in H2. usep (keeps g t) H2; [|exact H2]. unfold add_child. repeat pres1; apply keeps_modT; intros; auto. }
  assert (D2 : d_decl_terms (s_doc s2) = d_decl_terms (s_doc s) /\ hlen s2 = hlen s).
  { set (RR := fun a b : st => d_decl_terms (s_doc b) = d_decl_terms (s_doc a) /\ hlen b = hlen a).
    assert (PO : preorder RR) by (split; unfold RR; [auto|intros a b c [? ?] [? ?]; split; congruence]).
    assert (X : pres RR (attach t)).
    { unfold attach, add_child. repeat pres1; try exact PO; first [apply pres_modT|apply pres_modP]; intros s0; unfold RR; rewrite ?hlen_hmod; split; reflexivity. }
    apply X in H2. destruct H2 as [H2 H3]. unfold s1 in H3. rewrite hlen_hmod in H3. split; assumption. }
  destruct D2 as [D2 L2].
  pose proof (F2 _ t_cpt (fun _ _ => eq_refl) (fun _ _ => eq_refl)) as Ec. rewrite M2 in Ec.
  pose proof (F2 _ t_tvn (fun _ _ => eq_refl) (fun _ _ => eq_refl)) as Ev. rewrite M3 in Ev.
  pose proof (F2 _ tjoin (fun _ _ => eq_refl) (fun _ _ => eq_refl)) as Ej. rewrite M4 in Ej.
  pose proof (F2 _ t_valid (fun _ _ => eq_refl) (fun _ _ => eq_refl)) as El. rewrite M1 in El.
  pose proof (F2 _ pt_lc (fun _ _ => eq_refl) (fun _ _ => eq_refl)) as Epl. rewrite M5 in Epl.
  rg H. rg H. rewrite Epl in H.
  split.
  - exists (dmem n dt). split.
    + rewrite <- El. usep (keeps t_valid t) H; [|exact H]. apply pres_when; [apply keeps_po|apply valid_section_add].
    + unfold dmem. destruct (dget n dt); split; eauto; try discriminate. intros (td & E). discriminate E.
  - intros Hr. eqs_cases p "root".
    + destruct (Hr E) as (Hd & Hv & Hdv & Hdc). cbn [when] in H.
      apply section_add_keeps in H; rewrite ?Ec, ?Ev, ?Ej, ?D2, ?L2 in *.
      * destruct H as [-> ->]. split; apply declared_or_iff; reflexivity.
      * exact Ht.
      * unfold C. destruct (decl_prop dt n "childpropertytype") eqn:E1; [|discriminate]. intros ->. apply Hdc. apply declares_iff. exact E1.
      * intros Ca x Hx. unfold decl_prop in Hx. destruct Hd as [Hd|Hd]; rewrite Hd in Hx; [discriminate Hx|].
        change (decl_prop dt n "childpropertytype" = Some x) in Hx. unfold C in Ca. rewrite Hx in Ca. exact Ca.
      * unfold V. destruct (decl_prop dt n "termvaluename") eqn:E1; [|exact Hv]. intros ->. apply Hdv. apply declares_iff. exact E1.
      * intros x Hx. unfold decl_prop in Hx. destruct Hd as [Hd|Hd]; rewrite Hd in Hx; [discriminate Hx|].
        change (decl_prop dt n "termvaluename" = Some x) in Hx. unfold V. rewrite Hx. reflexivity.
    + cbn [when] in H. injection H as <-. rewrite Ec, Ev. split; apply declared_or_iff; reflexivity.
Qed.
