(** * DeclaredFileFacts: the declarations after a declaration file *)

From Verif Require Import ListFacts StrFacts SpecNames NameFacts HeapFacts ConstructFacts DictFacts Parser RunFacts EmitFacts DigitFacts RowFacts FrameFacts GrowFacts ParseFacts SpecDoc SpecInclude SpecHead SpecKept InheritFacts DeclFacts DeclareFacts SpecCalm CalmFacts CalmRowFacts IncFacts SynFacts ParseProps SpecOutline SpecDeclared DeclaredFacts DeclaredRowFacts.

(** ** The section a term belongs to does not change the columns *)
Definition desks (s s' : st) : Prop := hlen s <= hlen s' /\ forall i, i < hlen s -> desk3 (tget i s') = desk3 (tget i s).
Lemma desks_po : preorder desks.
Proof. split; [intros s; split; [lia|reflexivity]|]. intros a b c [A A'] [B B']. split; [lia|]. intros i Hi. rewrite B' by lia. apply A'. exact Hi. Qed.
Lemma desks_push : forall r s, desks s (push r s).
Proof. intros r s. split; [rewrite hlen_push; lia|]. intros i Hi. rewrite push_old by exact Hi. reflexivity. Qed.
Lemma desks_hmod : forall i f s, (forall r, desk3 (f r) = desk3 r) -> desks s (hmod i f s).
Proof. intros i f s H. split; [rewrite hlen_hmod; lia|]. intros j _. apply (field_hmod desk3). exact H. Qed.
Lemma desks_doc : forall f s, desks s (dmod f s).
Proof. intros. split; [apply Nat.le_refl|reflexivity]. Qed.

(** .. and the parser stays as it is *)
Definition desksP (s s' : st) : Prop := desks s s' /\ s_prs s' = s_prs s.
Lemma desksP_po : preorder desksP.
Proof. split; [intros s; split; [apply desks_po|reflexivity]|]. intros a b c [A A'] [B B']. split; [exact (proj2 desks_po _ _ _ A B)|congruence]. Qed.
Lemma desks_alloc : forall r, pres desksP (allocT r).
Proof. intros r s s' x H. injection H as <- _. split; [apply desks_push|reflexivity]. Qed.

Ltac leaf2 := repeat match goal with |- context [match ?x with _ => _ end] => destruct x end; reflexivity.
Ltac d1 :=
  match goal with
  | |- forall _, _ => intro
  | |- pres _ (bind _ _) => apply pres_bind; [exact desksP_po| |]
  | |- pres _ (ret _) => apply pres_ret; exact desksP_po
  | |- pres _ (raise _) => apply pres_raise; exact desksP_po
  | |- pres _ (lift _) => apply pres_lift; exact desksP_po
  | |- pres _ (gets _) => apply pres_gets; exact desksP_po
  | |- pres _ (getT _) => apply pres_gets; exact desksP_po
  | |- pres _ getD => apply pres_gets; exact desksP_po
  | |- pres _ getP => apply pres_gets; exact desksP_po
  | |- pres _ (PyBase.reads _) => apply pres_reads; exact desksP_po
  | |- pres _ (assert_ _) => apply pres_assert; exact desksP_po
  | |- pres _ (allocT _) => apply desks_alloc
  | |- pres _ (when _ _) => apply pres_when; [exact desksP_po|]
  | |- pres _ (mapM_ _ _) => apply pres_mapM; [exact desksP_po|intros ? _]
  | |- pres _ (modT _ _) => apply pres_modT; intro; split; [apply desks_hmod; intro; leaf2|reflexivity]
  | |- pres _ (modD _) => apply pres_modD; intro; split; [apply desks_doc|reflexivity]
  | |- pres _ (set_ownership _ _) => apply pres_ownership; [exact desksP_po|intros; split; [apply desks_hmod; intro; leaf2|reflexivity]]
  | |- pres _ (if ?b then _ else _) => destruct b
  | |- pres _ (match ?x with _ => _ end) => destruct x
  | |- pres _ (let _ := _ in _) => cbv zeta
  end.
Ltac dw := repeat (cbv beta; d1).

Lemma d_construct : forall c term value args row col ftype parent doc section, pres desksP (construct c term value args row col ftype parent doc section).
Proof. intros. unfold construct. destruct c; unfold mk_section, mk_plain; dw. Qed.
Lemma d_new_child0 : forall i term value, pres desksP (new_child0 i term value).
Proof. intros. unfold new_child0. dw. apply d_construct. Qed.
Lemma d_new_children : forall i kw, pres desksP (new_children i kw).
Proof. intros. unfold new_children. dw. apply d_new_child0. Qed.
Lemma d_add_section : forall sid, pres desksP (add_section sid).
Proof. intros. unfold add_section. dw. Qed.
Lemma d_add_list : forall t, pres desksP (add_term_list t).
Proof. intros. unfold add_term_list. dw. apply d_add_section. Qed.
Lemma d_add_meta : forall t, pres desksP (add_term_meta t).
Proof. intros. unfold add_term_meta. dw. Qed.
Lemma d_section_add : forall sec t, pres desksP (section_add_term sec t).
Proof. intros. unfold section_add_term, doc_add_term_nosec. dw; first [apply d_add_list|apply d_add_meta]. Qed.
Lemma d_goc : forall i item v, pres desksP (get_or_new_child0 i item v).
Proof. intros. unfold get_or_new_child0, goc_check. dw; apply d_construct. Qed.
Lemma d_set_child : forall i item v, pres desksP (set_child_item i item v).
Proof. intros. unfold set_child_item. dw. apply d_goc. Qed.
Lemma d_set_section_plain : forall t s, pres desksP (set_section_plain t s).
Proof. intros. unfold set_section_plain. dw. apply d_set_child. Qed.
Lemma d_doc_add : forall t, pres desksP (doc_add_term t).
Proof. intros. unfold doc_add_term. dw; first [apply d_add_list|apply d_add_section|apply d_section_add|apply d_add_meta|apply d_set_section_plain]. Qed.
Lemma d_new_term : forall sec term value kw, pres desksP (Ops.new_term sec term value kw).
Proof. intros. unfold Ops.new_term. dw; first [apply d_construct|apply d_new_children|apply d_doc_add]. Qed.
Lemma d_set_section : forall t o, pres desksP (set_section t o).
Proof.
  intros. unfold set_section, set_section_sec, section_setitem, get_or_new_term.
  dw; first [apply d_goc|apply d_new_term|apply d_set_section_plain].
Qed.

Lemma d_load1 : forall t, pres desksP (load1 t).
Proof. intros. unfold load1. dw; first [apply d_add_section|apply d_doc_add]. Qed.
Lemma emit_less : forall load t s s', emit load t s = (s', Ok tt) -> exists s1, emit false t s = (s1, Ok tt) /\ desksP s1 s'.
Proof.
  intros load t s s' H. unfold emit in H. rb H as s1 b Hc. exists s1. split.
  - unfold emit. unfold bind. rewrite Hc. rewrite andb_false_r. reflexivity.
  - destruct (b && load); cbn [when] in H; [apply d_load1 in H; exact H|]. apply ret_ok in H. destruct H as [-> _]. apply desksP_po.
Qed.

Lemma sec_step_keys : forall t n s s' m, sec_step t n s s' -> In m (dkeys (d_sections (s_doc s'))) -> In m (dkeys (d_sections (s_doc s))) \/ m = lower n.
Proof.
  intros t n s s' m [->| ->] I; [auto|]. destruct (dget m (d_sections (s_doc s))) as [v|] eqn:E.
  - left. destruct (in_dec string_dec m (dkeys (d_sections (s_doc s)))) as [X|X]; [exact X|]. apply dget_none in X. congruence.
  - destruct (string_dec m (lower n)) as [->|N]; [auto|]. exfalso. revert I. apply dget_none. rewrite dget_dset_other by congruence. exact E.
Qed.

Lemma kept_args : forall load ft line args t col, pres kept (emit_args load ft line t col args).
Proof. intros. apply w_emit_args; auto using kept_po, kept_push, kept_hmod, kept_dmod, kept_sec, kept_pmod, kept_declare. Qed.

Lemma strip_cells : forall l, map strip (map strip l) = map strip l.
Proof. intros. rewrite map_map. apply map_ext. apply strip_idem. Qed.

Section Rows.
Variable odd : list string.
Variable syn : list nat.
Notation inv := (inv odd syn free).

Lemma t_set_sec : forall t o n s s', inv s -> section s t -> t_val (tget t s) = VStr n ->
  In "section" (map lower (sec_property_names (tget t s))) -> set_section t o s = (s', Ok tt) -> sec_step t n s s'.
Proof.
  intros t o n s s' V S Hv I H. pose proof (column_odd odd syn _ _ _ V S Hv I) as O.
  unfold set_section in H. rg H. rewrite (proj2 S) in H. unfold set_section_sec in H. rg H.
  rewrite (n_at _ _ _ _ _ (v_node _ _ _ _ V t) (proj2 S)) in H. change (eqs (lower "@value") "section") with false in H. cbv iota in H.
  rewrite (proj2 (mem_str_in _ _) I) in H.
  assert (W : CalmFacts.inv odd syn (hold t s) s).
  { apply with_held; [exact V|]. intros i v a. unfold hold. destruct (Nat.eqb_spec i t) as [->|]; [|discriminate]. intros E. injection E as <- <-. auto. }
  apply (o_setitem odd syn (hold t s) t n) in H; auto. apply H.
Qed.

Lemma t_enter : forall load t n s s', inv s -> section s t -> t_val (tget t s) = VStr n -> emit load t s = (s', Ok tt) ->
  (load = false \/ t_ftype (tget t s) = Some "declare") ->
  Dof s' = Dof s
  /\ (t <> d_root (s_doc s) -> t_dtvn (tget t s) = "@value" ->
      at_desk (mk_desk (t_args (tget t s)) (t_hargs (tget t s)) "@value" "@value" "root") s')
  /\ (forall m, In m (dkeys (d_sections (s_doc s'))) -> In m (dkeys (d_sections (s_doc s))) \/ In "section" (map lower (sec_property_names (tget t s))) /\ m = lower n)
  /\ p_lastsec (s_prs s') = t /\ desks s s'
  /\ (t = d_root (s_doc s) -> p_dtvn (s_prs s') = p_dtvn (s_prs s) /\ p_pmap (s_prs s') = p_pmap (s_prs s) /\ p_lastparent (s_prs s') = p_lastparent (s_prs s))
  /\ (t <> d_root (s_doc s) -> p_pmap (s_prs s') = munge_param_map (t_args (tget t s))).
Proof.
  intros load t n s s' V S Hv H Hl. destruct (sec_lc odd syn _ _ V S) as [LC Rt].
  unfold emit in H. rb H as s5 b Hc. unfold consume in Hc. rb Hc as s1 u Hr.
  rewrite rename_id in Hr; [|apply (no_synonyms odd syn); exact V|destruct Rt as [[-> _]|[-> _]]; reflexivity]. injection Hr as <- <-. rg Hc.
  rb Hc as s1 u1 H1. destruct u1. rg Hc.
  pose proof H1 as De1. apply d_set_section in De1. apply proj1 in De1.
  assert (C1 : s_prs s1 = s_prs s /\ rts s s1 /\ (inv s1 /\ sec_step t n s s1 /\ In "section" (map lower (sec_property_names (tget t s))) /\ t_val (tget t s1) = VStr n
      \/ s1 = hmod t (set_t_section (Some (p_lastsec (s_prs s)))) s /\ ~ In "section" (map lower (sec_property_names (tget t s))))).
  { destruct (in_dec string_dec "section" (map lower (sec_property_names (tget t s)))) as [I|I].
    - pose proof H1 as H2. apply (t_set_sec _ _ n) in H2; auto. apply (o_set_sec odd syn _ _ n) in H1; auto. destruct H1 as (A & B & C & D).
      split; [apply B|]. split; [apply fr_rts; exact B|]. left. auto.
    - unfold set_section in H1. rg H1. rewrite (proj2 S) in H1. unfold set_section_sec in H1. rg H1.
      rewrite (n_at _ _ _ _ _ (v_node _ _ _ _ V t) (proj2 S)) in H1. change (eqs (lower "@value") "section") with false in H1. cbv iota in H1.
      destruct (mem_str _ _) eqn:M in H1; [apply mem_str_in in M; contradiction|]. rewrite modT_run in H1. injection H1 as <-.
      split; [reflexivity|]. split; [apply rts_hmod; [intro; repeat split; apply prefix_refl|reflexivity]|]. right. auto. }
  clear H1. destruct C1 as (E1 & K1 & C1).
  assert (F1 : t_pt (tget t s1) = t_pt (tget t s) /\ t_rt (tget t s1) = t_rt (tget t s) /\ t_args (tget t s1) = t_args (tget t s)
     /\ t_ftype (tget t s1) = t_ftype (tget t s) /\ t_rt (tget (d_root (s_doc s1)) s1) = "root" /\ d_root (s_doc s1) = d_root (s_doc s) /\ section s1 t).
  { destruct K1 as [K K']. assert (S1 : section s1 t) by (eapply kept_section; [exact K|exact S]).
    pose proof (kp_core _ _ K t (proj1 S)) as C. unfold core in C. fold (tget t s1) (tget t s) in C. injection C as _ C1' _ _ C2' _.
    pose proof (kp_root _ _ K) as Kr. split; [|split; [apply K'; apply S|split; [exact C1'|split; [exact C2'|split; [rewrite Kr, K'; [apply V|apply V]|split; [exact Kr|exact S1]]]]]].
    rewrite (n_pt _ _ _ _ _ (v_node _ _ _ _ V t) (proj2 S)). destruct C1 as [(V1 & _)|(-> & _)].
    - apply (n_pt _ _ _ _ _ (v_node _ _ _ _ V1 t) (proj2 S1)).
    - rewrite (field_hmod t_pt) by reflexivity. apply (n_pt _ _ _ _ _ (v_node _ _ _ _ V t) (proj2 S)). }
  destruct F1 as (P1 & R1 & A1 & T1 & Q1 & D1 & S1).
  assert (LC1 : lc_name (tget t s1)) by (unfold lc_name; rewrite P1, R1; exact LC).
  rewrite is_header_eq in Hc by exact LC1. rg Hc.
  assert (Nh : named_root (tget t s1) "header" = false).
  { unfold named_root. rewrite R1. destruct Rt as [[-> _]|[-> _]]; apply andb_false_r. }
  rewrite Nh in Hc. cbv iota in Hc. rewrite is_section_eq in Hc by exact LC1. rg Hc. rewrite is_root_eq in Hc by exact LC1. rg Hc.
  assert (Pr : t_pt (tget t s) = "root") by apply (n_pt _ _ _ _ _ (v_node _ _ _ _ V t) (proj2 S)).
  rb Hc as s4 u4 Hn. destruct u4.
  assert (X : set_section t None (pmod (enterF s t) s1) = (s4, Ok tt)).
  { unfold named_root in Hn. rewrite P1, R1, Pr in Hn. unfold enterF. destruct Rt as [[Er Nr]|[Er Nr]]; rewrite Er in Hn.
    - change (eqs "root" "root" && eqs "section" "section") with true in Hn. cbv iota in Hn. rg Hn. rg Hn. rg Hn. rewrite A1 in Hn.
      fold (tget (d_root (s_doc s1)) s1) in Hn. rewrite Q1 in Hn. apply Nat.eqb_neq in Nr. rewrite Nr. exact Hn.
    - change (eqs "root" "root" && eqs "section" "root") with false in Hn. change (eqs "root" "root" && eqs "root" "root") with true in Hn. cbv iota in Hn.
      rg Hn. apply Nat.eqb_eq in Nr. rewrite Nr. exact Hn. }
  clear Hn.
  pose proof X as De4. apply d_set_section in De4. apply proj1 in De4.
  assert (Y : rts s1 s4 /\ t_pt (tget t s4) = "root" /\ s_prs s4 = enterF s t (s_prs s) /\ (forall m, In m (dkeys (d_sections (s_doc s4))) -> In m (dkeys (d_sections (s_doc s))) \/ In "section" (map lower (sec_property_names (tget t s))) /\ m = lower n)).
  { assert (Cn : sec_property_names (tget t s1) = sec_property_names (tget t s)).
    { pose proof (proj2 De1 t (proj1 S)) as Z. unfold desk3 in Z. injection Z as Z1 Z2 Z3. unfold sec_property_names. rewrite Z1, Z2. reflexivity. }
    destruct C1 as [(V1 & St1 & I1 & Hv1)|(-> & I1)].
    - assert (V2 : inv (pmod (enterF s t) s1)).
      { replace (enterF s t) with (enterF s1 t) by (unfold enterF; rewrite D1, A1; reflexivity). apply o_enter; assumption. }
      pose proof X as X2. apply (t_set_sec _ _ n) in X2; [|exact V2|exact S1|exact Hv1|rewrite tget_pmod, Cn; exact I1].
      apply (o_set_sec odd syn _ _ n) in X; [|exact V2|exact S1|exact Hv1|rewrite tget_pmod, Cn; exact I1]. destruct X as (A & B & C & D).
      assert (Rs : rts s1 s4) by (eapply rts_po; [apply rts_pmod|apply fr_rts; exact B]).
      split; [exact Rs|]. split; [apply (n_pt _ _ _ _ _ (v_node _ _ _ _ A t)); apply (kept_section _ _ _ (proj1 Rs) S1)|].
      split; [rewrite (proj1 (proj2 B)), prs_pmod, E1; reflexivity|].
      intros m I. apply (sec_step_keys _ _ _ _ m) in X2; [|exact I]. destruct X2 as [X2|X2]; [|auto].
      apply (sec_step_keys _ _ _ _ m) in St1; [|exact X2]. destruct St1; auto.
    - unfold set_section in X. rg X. rewrite tget_pmod, (field_hmod t_cls) in X by reflexivity. rewrite (proj2 S) in X. unfold set_section_sec in X. rg X.
      rewrite tget_pmod, (field_hmod t_tvn), (field_hmod sec_property_names) in X by reflexivity.
      rewrite (n_at _ _ _ _ _ (v_node _ _ _ _ V t) (proj2 S)) in X. change (eqs (lower "@value") "section") with false in X. cbv iota in X.
      destruct (mem_str _ _) eqn:M in X; [apply mem_str_in in M; contradiction|]. rewrite modT_run in X. injection X as <-.
      split; [|split; [rewrite (field_hmod t_pt), tget_pmod, (field_hmod t_pt) by reflexivity; exact Pr|split; [reflexivity|auto]]].
      eapply rts_po; [apply rts_pmod|]. apply rts_hmod; [intro; repeat split; apply prefix_refl|reflexivity]. }
  clear X. destruct Y as (K4 & Pt4 & P4 & M4).
  assert (K14 : rts s s4) by (eapply rts_po; eassumption).
  assert (De : desks s s4) by (eapply desks_po; [exact De1|]; destruct De4 as [De4 De4']; split; assumption).
  assert (T4 : t_ftype (tget t s4) = t_ftype (tget t s) /\ t_rt (tget t s4) = t_rt (tget t s)).
  { pose proof (kp_core _ _ (proj1 K14) t (proj1 S)) as C. unfold core in C. fold (tget t s4) (tget t s) in C. split; [congruence|apply K14; apply S]. }
  assert (Dd : Dof s4 = Dof s) by (unfold Dof; rewrite P4; unfold enterF; destruct (t =? d_root (s_doc s)); reflexivity).
  assert (Ak : forall x, s_heap x = s_heap s4 -> p_lastsec (s_prs x) = p_lastsec (s_prs s4) -> p_dtvn (s_prs x) = p_dtvn (s_prs s4) -> p_lastparent (s_prs x) = p_lastparent (s_prs s4) ->
    t <> d_root (s_doc s) -> t_dtvn (tget t s) = "@value" -> at_desk (mk_desk (t_args (tget t s)) (t_hargs (tget t s)) "@value" "@value" "root") x).
  { intros x G1 G2 G3 G4 N Dv. apply Nat.eqb_neq in N. unfold at_desk. rewrite G2, G3, G4, P4. unfold enterF. rewrite N. cbn [p_lastsec p_dtvn p_lastparent set_p_lastsec set_p_dtvn set_p_lastparent set_p_pmap].
    split; [|split; reflexivity]. unfold tget. rewrite G1. fold (tget t s4). rewrite (proj2 De t (proj1 S)). unfold desk3. rewrite Dv. reflexivity. }
  assert (Ek : forall x, s_heap x = s_heap s4 -> p_lastsec (s_prs x) = p_lastsec (s_prs s4) -> p_dtvn (s_prs x) = p_dtvn (s_prs s4) ->
    p_pmap (s_prs x) = p_pmap (s_prs s4) -> p_lastparent (s_prs x) = p_lastparent (s_prs s4) ->
    p_lastsec (s_prs x) = t /\ desks s x
    /\ (t = d_root (s_doc s) -> p_dtvn (s_prs x) = p_dtvn (s_prs s) /\ p_pmap (s_prs x) = p_pmap (s_prs s) /\ p_lastparent (s_prs x) = p_lastparent (s_prs s))
    /\ (t <> d_root (s_doc s) -> p_pmap (s_prs x) = munge_param_map (t_args (tget t s)))).
  { intros x G1 G2 G3 G4 G5. rewrite G2, G3, G4, G5, P4. split; [unfold enterF; destruct (t =? d_root (s_doc s)); reflexivity|]. split.
    - destruct De as [Da Db]. split; [unfold hlen in *; rewrite G1; exact Da|]. intros i Hi. unfold tget. rewrite G1. apply Db. exact Hi.
    - split; intros E; [apply Nat.eqb_eq in E|apply Nat.eqb_neq in E]; unfold enterF; rewrite E; repeat split. }
  rg Hc.
  assert (Df : {t_ftype (tget t s4) = Some "declare"} + {t_ftype (tget t s4) <> Some "declare"}) by (decide equality; apply string_dec).
  destruct Df as [Ef|Ef].
  - rewrite Ef in Hc. rb Hc as s7 u7 H7. destruct u7. apply ret_ok in Hc. destruct Hc as [-> ->]. cbn [andb when] in H. apply ret_ok in H. destruct H as [-> _].
    pose proof H7 as O7. apply only_declare in O7. destruct O7 as (B1 & B0 & _ & B5 & B2 & _ & B3 & B4).
    assert (Nr : t_rt (tget t s4) = "section" \/ t_rt (tget t s4) = "root") by (rewrite (proj2 T4); destruct Rt as [[-> _]|[-> _]]; auto).
    split; [|split; [apply Ak; assumption|split; [rewrite B0; exact M4|apply Ek; assumption]]]. rewrite <- Dd.
    assert (LC4 : lc_name (tget t s4)).
    { unfold lc_name. rewrite (proj2 T4), Pt4, <- Pr. exact LC. }
    apply (manage_told _ _ _ 0) in H7; [|exact LC4|intros _ E; exfalso; destruct Nr as [Nr|Nr]; rewrite Nr in E; discriminate E].
    cbv zeta in H7. rewrite Pt4 in H7. destruct Nr as [Nr|Nr]; rewrite Nr in H7; exact H7.
  - destruct Hl as [->|Hl]; [|exfalso; apply Ef; rewrite (proj1 T4); exact Hl].
    rewrite not_declare in Hc by exact Ef. apply ret_ok in Hc. destruct Hc as [-> ->]. cbn [andb when] in H. apply ret_ok in H. destruct H as [-> _].
    split; [exact Dd|]. split; [apply Ak; reflexivity|]. split; [exact M4|apply Ek; reflexivity].
Qed.

(** ** A row *)
Definition root_at (b : bool * (list string * string)) (s : st) : Prop :=
  desk3 (tget (d_root (s_doc s)) s) = ([], fst (snd b), snd (snd b)) /\ (fst b = true <-> p_lastsec (s_prs s) = d_root (s_doc s)).
Lemma root_still : forall b s s', inv s -> root_at b s -> still s s' -> d_root (s_doc s') = d_root (s_doc s) -> root_at b s'.
Proof.
  intros b s s' V [A B] [[C _] D] E. pose proof (v_root _ _ _ _ V) as [L _]. split; rewrite E; [rewrite D by exact L; exact A|rewrite C; exact B].
Qed.

Definition cols_at (c : list string) (s : st) : Prop := p_pmap (s_prs s) = munge_param_map c.
Lemma t_row : forall e load rec src line row l ls k seen s s' ls', inv s -> section s ls -> reads row l -> quiet_line odd syn l ->
  let doc := props (d_decl_terms (s_doc s)) in let decl := declared_columns (d_decl_sections (s_doc s)) in
  at_desk k s -> (forall m, In m (dkeys (d_sections (s_doc s))) -> In m seen) ->
  one_file l -> from_another doc k (Dof s) l -> new_heading seen l ->
  row_step e load rec src (Some "declare") line row ls s = (s', Ok ls') ->
  at_desk (desk_next decl k l) s' /\ Dof s' = told doc k (Dof s) l
  /\ (forall m, In m (dkeys (d_sections (s_doc s'))) -> In m (seen_after decl seen l))
  /\ (forall b, root_at b s -> root_at (root_next b l) s')
  /\ (forall c, cols_at c s -> cols_at (cols_next decl c l) s').
Proof.
  intros e load rec src line row l ls k seen s s' ls' V Sl Rl Q doc decl K Sn One Fa Nh H. unfold row_step in H.
  destruct (skip_row row) eqn:Sk.
  { apply ret_ok in H. destruct H as [-> ->]. inversion Rl as [|B|B|? ? B]; subst; try (apply not_blank in Sk; contradiction); [split; [exact K|split; [reflexivity|split; [exact Sn|split; auto]]]|exfalso; apply B; apply skip_blank; exact Sk..]. }
  destruct (split_term_lower (hd "" row)) as [[p n]|er] eqn:Sp; [|discriminate H].
  rg H. cbn iota beta in H. rg H.
  assert (CN : cell_names (hd "" row) p n) by (apply split_term_lower_spec; exact Sp).
  pose proof (cell_names_tidy _ _ _ CN) as (T1 & T2 & T3 & T4 & T5 & T6 & T7).
  assert (Sp2 : split_term_lower (dotted p n) = Ok (p, n)).
  { apply split_term_lower_spec. apply (cell_names_dotted _ _ _ CN). }
  assert (Fn : forall p' n', cell_names (hd "" row) p' n' -> p' = p /\ n' = n).
  { intros p' n' C. apply split_term_lower_spec in C. rewrite Sp in C. injection C as <- <-. auto. }
  rb H as s1 t Hc.
  pose proof (construct_cls _ _ _ _ _ _ _ _ _ _ _ T3 T4 Sp2 T5 T6 Hc) as [Cc|(Cc & Ep & Cn)].
  - (* an ordinary class *)
    assert (NS : ~ (p = "root" /\ n = "section")).
    { intros [-> ->]. change (dotted "root" "section") with "root.section" in Cc. rewrite (class_section odd syn) in Cc by exact V. discriminate Cc. }
    apply construct_plain in Hc; [|exact Cc]. destruct Hc as (p' & r' & Tn & _ & -> & ->).
    unfold term_names in Tn. rewrite Sp2 in Tn. cbn in Tn. injection Tn as <- <-.
    fold (row_rec (parser_term_class (dotted p n) s) line (Some "declare") p n row) in H.
    set (c := parser_term_class (dotted p n) s) in *. set (R := row_rec c line (Some "declare") p n row) in *.
    assert (Vr : forall x, t_val R = VStr x -> x = strip (nth 1 row "")).
    { intros x E. cbn [R row_rec fresh_plain t_val] in E. destruct (string_dec (nth 1 row "") "") as [Z|Z]; [rewrite Z in E; discriminate E|].
      rewrite init_val_str in E by exact Z. congruence. }
    assert (LS : match l with LSection _ _ => False | _ => True end).
    { inversion Rl as [|? C|? C|]; subst; auto. destruct (Fn _ _ C) as [<- <-]. apply NS. auto. }
    assert (F : fresh_calm syn R).
    { inversion Rl as [B|B C|B C|p0 n0 B C D]; subst l.
      - apply skip_blank in B. congruence.
      - destruct LS.
      - destruct (Fn _ _ C) as [<- <-]. destruct Q as (Q1 & Q2 & Q3). split; try reflexivity; try exact Cc; try discriminate; cbn; auto.
        + intros _. repeat split; try discriminate. apply dot_free_iff. reflexivity.
        + intros _. split; [reflexivity|]. split; [intros [E|[E|[]]]; discriminate E|discriminate].
        + intros _ _. split; [exact Q1|]. split; [exact Q2|]. intros x E. apply Vr in E. subst x. exact Q3.
      - destruct (Fn _ _ C) as [-> ->]. destruct Q as (Q1 & Q2 & Q3 & Q4 & Q5). split; try reflexivity; try exact Cc; try discriminate; cbn; auto.
        + intros Hp. split; [exact Q1|]. split.
          * intros [<-|[<-|[]]]; [|congruence]. destruct Hp as [Hp|Hp]; [apply NS; auto|]. apply (Q4 Hp). left. reflexivity.
          * intros E. destruct (Q5 E) as (U1 & U2 & U3). split; [|split; [exact U2|exact U3]]. intros x Ex. apply Vr in Ex. subst x. exact U1.
        + intros Hp Hn. apply (Q4 Hp). right. left. congruence.
        + intros Hp Hn. exfalso. apply (D Hp). right. left. congruence. }
    rg H. rewrite push_new in H.
    assert (LC : lc_name R) by (unfold lc_name; cbn; auto).
    rewrite is_include_bare in H by exact LC. rg H. rewrite is_declare_bare in H by exact LC. rg H.
    assert (NI : named_root R "include" || named_root R "declare" = false).
    { change ((eqs "root" p && eqs "include" n) || (eqs "root" p && eqs "declare" n) = false).
      inversion Rl as [B|B C|B C|p0 n0 B C D]; subst l.
      - apply skip_blank in B. congruence.
      - destruct LS.
      - destruct (Fn _ _ C) as [<- <-]. reflexivity.
      - destruct (Fn _ _ C) as [-> ->]. cbn [one_file] in One. eqs_cases "root" p; [|reflexivity]. specialize (One (eq_sym E)). cbn [andb].
        rewrite (proj2 (eqs_false "include" n)), (proj2 (eqs_false "declare" n)); [reflexivity|intros <-; apply One; cbn; auto..]. }
    rewrite NI in H.
    rewrite is_section_bare in H by exact LC. rg H.
    assert (NSc : named_root R "section" = false).
    { change (eqs "root" p && eqs "section" n = false). eqs_cases "root" p; [|reflexivity]. cbn [andb]. apply eqs_false. intros <-. apply NS. auto. }
    rewrite NSc in H. rg H. rb H as s2 u He. destruct u.
    pose proof He as E2. apply (o_emit odd syn) in E2; [|exact V|exact F]. pose proof (emitted_step _ _ _ _ _ _ He E2) as [A1 A2 A3].
    assert (Ht : hlen s < hlen s2) by apply (em_plain _ _ _ _ _ E2).
    pose proof (em_rt _ _ _ _ _ E2) as Er. pose proof (em_pt _ _ _ _ _ E2) as Ept. pose proof (em_args _ _ _ _ _ E2) as Ea. change (t_rt R) with n in Er.
    assert (Nn : py_int n = None /\ good_name n).
    { inversion Rl as [B|B C|B C|p0 n0 B C D]; subst l.
      - apply skip_blank in B. congruence.
      - destruct LS.
      - destruct (Fn _ _ C) as [<- <-]. split; [reflexivity|]. refine (conj T2 (conj T4 (conj T6 (conj _ _)))); discriminate.
      - destruct (Fn _ _ C) as [-> ->]. destruct Q as (Q1 & Q2 & Q3 & _). split; [exact Q1|]. exact (conj T2 (conj T4 (conj T6 (conj Q3 Q2)))). }
    destruct Nn as [N1 G]. pose proof Er as Er0. unfold renamed in Er0. rewrite N1 in Er0.
    rg H.
    assert (LC2 : lc_name (tget (hlen s) s2)).
    { unfold lc_name. rewrite Er0, Ept. unfold final_pt. change (t_pt R) with p. destruct (eqs p ELIDED_TERM); [|auto].
      destruct (v_lp _ _ _ _ V) as (X1 & X2 & _). auto. }
    rewrite is_section_bare in H by exact LC2. rg H. rewrite is_header_bare in H by exact LC2. rg H.
    rb H as s3 u He3. destruct u. apply ret_ok in H. destruct H as [-> ->].
    assert (X : forall k2, at_desk k2 s2 -> at_desk k2 s3 /\ Dof s3 = Dof s2 /\ d_sections (s_doc s3) = d_sections (s_doc s2) /\ still s2 s3).
    { intros k2 K2. destruct (_ || _) in He3; [apply ret_ok in He3; destruct He3 as [-> _]; auto using still_refl|]. eapply t_cells in He3; eauto. }
    assert (Sn2 : forall m, In m (dkeys (d_sections (s_doc s2))) -> In m (seen_after decl seen l)).
    { intros m. rewrite (em_secs _ _ _ _ _ E2). intros Im. apply Sn in Im. destruct l; [exact Im|destruct LS|exact Im..]. }
    assert (Rk : d_root (s_doc s2) = d_root (s_doc s) /\ d_root (s_doc s3) = d_root (s_doc s2) /\ hlen s <= hlen s2).
    { split; [apply (kp_root _ _ (proj1 A2))|]. split; [|lia]. destruct (_ || _) in He3; [apply ret_ok in He3; destruct He3 as [-> _]; reflexivity|].
      apply kept_args in He3. apply (kp_root _ _ He3). }
    destruct Rk as (Rk1 & Rk2 & Rk3).
    clear He3.
    inversion Rl as [B|B C|B C|p0 n0 B C D]; subst l.
    + apply skip_blank in B. congruence.
    + destruct LS.
    + destruct (Fn _ _ C) as [<- <-]. apply (t_header odd syn load k) in He; auto. destruct He as (v & E & B1 & B2 & B3 & B5 & B4). apply Vr in E. subst v.
      destruct (X _ B1) as (X1 & X2 & X3 & X4). split; [exact X1|]. split; [cbn [told]; congruence|]. split; [rewrite X3; exact Sn2|].
      split; [|intros c0 _; unfold cols_at; rewrite (proj2 (proj1 X4)), B5; reflexivity].
      intros b Rb. apply (root_still _ s2); [exact A1| |exact X4|exact Rk2]. destruct Rb as [Ra Rb]. unfold root_next.
      pose proof (v_root _ _ _ _ V) as [Lr _]. pose proof (v_rootn _ _ _ _ A1) as [_ Za]. destruct (fst b) eqn:Eb.
      * assert (Er1 : p_lastsec (s_prs s2) = d_root (s_doc s2)) by (rewrite B3, Rk1; apply Rb; reflexivity). split; [|split; [intros _; exact Er1|reflexivity]].
        destruct B1 as (B1 & _). rewrite Er1 in B1. rewrite B1. cbn [fst snd k_columns k_header k_own]. unfold desk3 in B1. injection B1 as B1 _ _. rewrite <- B1, Za. reflexivity.
      * assert (Nr1 : d_root (s_doc s) <> p_lastsec (s_prs s)) by (intros Z; symmetry in Z; apply Rb in Z; discriminate Z).
        split; [rewrite Rk1, B4 by assumption; exact Ra|]. rewrite B3, Rk1, Eb. exact Rb.
    + destruct (Fn _ _ C) as [-> ->]. apply (t_emit odd syn load k) in He; auto.
      2:{ intros [Z1 Z2]. change (t_pt R) with p in Z1. change (t_rt R) with n in Z2. apply (D Z1). right. left. congruence. }
      destruct He as [B1 B2 _ B4]. specialize (B2 eq_refl).
      assert (Rr : renamed (p_pmap (s_prs s)) (t_rt R) = n) by (change (t_rt R) with n; rewrite <- Er; exact Er0). rewrite Rr in B1, B2.
      change (t_pt R) with p in B2. change (t_args R) with (map strip (skipn 2 row)) in B2.
      destruct (X _ B1) as (X1 & X2 & X3 & X4). rewrite X2, X3. split; [|split; [|split; [exact Sn2|split]]].
      4:{ intros c0 Hc. unfold cols_at. rewrite (proj2 (proj1 X4)), (proj2 (proj1 B4)). exact Hc. }
      3:{ intros b Rb. cbn [root_next]. apply (root_still _ s2); [exact A1| |exact X4|exact Rk2]. apply (root_still _ s); assumption. }
      * cbn [desk_next]. unfold registers in X1. change (t_pt R) with p in X1. change (t_col R) with (Some 1) in X1. change ELIDED_TERM with current_parent in X1.
        destruct (eqs p current_parent); exact X1.
      * cbn [told]. unfold top_level. unfold outcome, final_pt in B2. change (t_pt R) with p in B2. change ELIDED_TERM with current_parent in B2. rewrite (proj2 (proj2 K)) in B2.
        cbn [from_another] in Fa. unfold top_level in Fa.
        destruct (eqs (if eqs p current_parent then k_parent k else p) "root"); [|exact B2].
        destruct (eqs n "declaresection").
        { destruct B2 as (x & Ex & ->). apply Vr in Ex. subst x. unfold clean_args. rewrite strip_cells. reflexivity. }
        eqs_cases n "declareterm"; [|exact B2]. destruct B2 as (x & Ex & B2). apply Vr in Ex. subst x. apply B2. apply (Fa eq_refl E).
  - (* a section *)
    subst p.
    assert (En : n = "section").
    { destruct Cn as [->| ->]; [reflexivity|]. exfalso. inversion Rl as [B|B C|B C|p0 n0 B C D]; subst l.
      - apply skip_blank in B. congruence.
      - destruct (Fn _ _ C) as [_ E]. discriminate E.
      - destruct (Fn _ _ C) as [_ E]. discriminate E.
      - destruct (Fn _ _ C) as [-> ->]. destruct Q as (_ & _ & Q3 & _). congruence. }
    subst n. set (v := nth 1 row "") in *.
    assert (Ql : l = LSection v (map strip (skipn 2 row))).
    { inversion Rl as [B|B C|B C|p0 n0 B C D]; subst l.
      - apply skip_blank in B. congruence.
      - reflexivity.
      - destruct (Fn _ _ C) as [_ E]. discriminate E.
      - destruct (Fn _ _ C) as [-> ->]. exfalso. apply D; [reflexivity|left; reflexivity]. }
    subst l. destruct Q as [Q1 Q2]. cbn [new_heading] in Nh.
    change (dotted "root" "section") with "root.section" in *. rewrite Cc in Hc.
    apply (construct_section _ _ _ _ _ _ _ _ _ "root" "section" v) in Hc; [|exact Sp2|reflexivity].
    destruct Hc as [-> ->].
    match type of H with context [push ?r0 s] => change r0 with (section_rec v (heading_args (s_doc s) v (skipn 2 row)) line (Some "declare") "root.section") in H end.
    set (R := section_rec _ _ _ _ _) in *.
    rg H. rewrite push_new in H. assert (LC : lc_name R) by (split; [apply dot_free_iff; reflexivity|split; reflexivity]).
    rewrite is_include_bare in H by exact LC. rg H. rewrite is_declare_bare in H by exact LC. rg H.
    change (named_root R "include" || named_root R "declare") with false in H. cbn iota in H.
    rewrite is_section_bare in H by exact LC. rg H. change (named_root R "section") with true in H. cbn iota in H.
    rb H as s1 i Hi. unfold section_for in Hi. rg Hi. rg Hi. rewrite push_new in Hi. change (is_section_cls (t_cls R)) with true in Hi. cbn iota in Hi.
    assert (Vn : v <> "").
    { intros E. unfold get_section in Hi. cbn [R section_rec fresh_plain t_val] in Hi. rewrite E in Hi. discriminate Hi. }
    assert (Tv : t_val R = VStr (strip v)) by (apply init_val_str; exact Vn).
    unfold get_section in Hi. rewrite Tv in Hi. cbn [as_str rbind] in Hi. rewrite doc_push in Hi.
    assert (Dn : dget (lower (strip v)) (d_sections (s_doc s)) = None) by (apply dget_none; intros Z; apply Nh, Sn, Z).
    rewrite Dn in Hi. apply ret_ok in Hi. destruct Hi as [-> ->].
    assert (Ta : t_args R = own_columns decl v (map strip (skipn 2 row))).
    { cbn [R section_rec fresh_plain t_args]. unfold heading_args, own_columns. destruct (skipn 2 row); reflexivity. }
    assert (Ha : (In "section" (map lower (t_args R)) -> In (lower (strip v)) odd) /\ synonyms_at syn (t_args R)).
    { cbn [R section_rec fresh_plain t_args]. unfold heading_args. destruct (skipn 2 row) eqn:Ek; [|auto]. apply (v_dsecs _ _ _ _ V v). }
    pose proof (v_root _ _ _ _ V) as [Lr _].
    assert (V1 : inv (push R s)).
    { apply inv_push; try reflexivity; [exact V| |discriminate]. split; try reflexivity; try discriminate.
      - intros _. split; [apply Ha|]. intros j c E. destruct j; discriminate E.
      - intros _. exists (strip v). split; [exact Tv|]. intros [I|[]]. apply Ha. exact I. }
    assert (Si : section (push R s) (hlen s)) by (split; [rewrite hlen_push; lia|rewrite push_new; reflexivity]).
    rb H as s2 u He. destruct u. pose proof He as K2. apply kept_emit in K2. pose proof He as Te.
    apply (t_enter load (hlen s) (strip v)) in Te; [|exact V1|exact Si|rewrite push_new; exact Tv|right; rewrite push_new; reflexivity].
    destruct Te as (D1 & D2 & D3 & D4 & D5 & _ & D6). rewrite push_new in D2, D3, D6. specialize (D6 ltac:(rewrite doc_push; lia)). change (t_dtvn R) with "@value" in D2. change (t_hargs R) with (@nil string) in D2.
    specialize (D2 ltac:(rewrite doc_push; lia) eq_refl).
    apply (o_emit_sec odd syn) in He; [|exact V1|exact Si]. destruct He as [[E1 E2 E3] E4].
    rg H. assert (S2 : section s2 (hlen s)) by (eapply kept_section; [exact K2|exact Si]).
    destruct (sec_lc odd syn _ _ E1 S2) as [LC2 Rt2].
    rewrite is_section_bare in H by exact LC2. rg H. rewrite is_header_bare in H by exact LC2. rg H.
    rb H as s3 u He3. destruct u. apply ret_ok in H. destruct H as [-> ->].
    assert (X : s3 = s2).
    { destruct Rt2 as [[X _]|[X Y]].
      - unfold named_root in He3. rewrite X, (n_pt _ _ _ _ _ (v_node _ _ _ _ E1 (hlen s)) (proj2 S2)) in He3.
        change (eqs "root" "root" && eqs "section" "section") with true in He3. cbn [orb] in He3. apply ret_ok in He3. tauto.
      - assert (Za : t_args (tget (hlen s) s2) = []) by (rewrite Y; apply (v_rootn _ _ _ _ E1)). rewrite Za in He3.
        destruct (_ || _) in He3; [|cbn [emit_args] in He3]; apply ret_ok in He3; tauto. }
    subst s3. split; [cbn [desk_next]; rewrite <- Ta; exact D2|]. split; [exact D1|]. split; [|split].
    3:{ intros c0 _. unfold cols_at. rewrite D6, Ta. reflexivity. }
    2:{ intros b [Ra Rb]. cbn [root_next]. pose proof (kp_root _ _ K2) as Kr. rewrite doc_push in Kr. unfold root_at. cbn [fst snd]. rewrite Kr. split.
        - rewrite (proj2 D5) by (rewrite hlen_push; lia). rewrite push_old by exact Lr. exact Ra.
        - split; [discriminate|]. rewrite D4. lia. }
    intros m Im. apply D3 in Im. cbn [seen_after]. rewrite <- Ta. unfold sec_property_names in Im. change (t_hargs R) with (@nil string) in Im. cbv iota in Im.
    destruct (mem_str _ _) eqn:M.
    + destruct Im as [Im|[_ ->]]; [right; apply Sn; exact Im|left; reflexivity].
    + destruct Im as [Im|[Im _]]; [apply Sn; exact Im|]. destruct (mem_str_not _ _ M Im).
Qed.

(** ** A file *)
Lemma t_loop : forall e load n, (forall x rows, fetch e x = Some rows -> Forall (quiet_row odd syn) rows) ->
  forall src rows lines line ls k seen b c doc decl s s', inv s -> section s ls -> Forall2 reads rows lines -> Forall (quiet_line odd syn) lines ->
  props (d_decl_terms (s_doc s)) = doc -> declared_columns (d_decl_sections (s_doc s)) = decl ->
  at_desk k s -> (forall m, In m (dkeys (d_sections (s_doc s))) -> In m seen) -> well_told decl doc seen k (Dof s) lines ->
  (forall m, In m seen -> m = "root" \/ In m odd) -> root_at b s -> cols_at c s ->
  rows_loop e load (generate_terms e load n) src (Some "declare") line rows ls s = (s', Ok tt) ->
  Dof s' = told_all decl doc k (Dof s) lines /\ at_desk (fold_left (desk_next decl) lines k) s' /\ root_at (fold_left root_next lines b) s' /\ cols_at (fold_left (cols_next decl) lines c) s'
  /\ (forall m, In m (dkeys (d_sections (s_doc s'))) -> In m (fold_left (seen_after decl) lines seen))
  /\ (forall m, In m (fold_left (seen_after decl) lines seen) -> m = "root" \/ In m odd).
Proof.
  intros e load n Fe src. induction rows as [|row rows IH]; intros lines line ls k seen b c doc decl s s' V S R Q Ed Ec K Sn W So Rb Cb H; inversion R; subst; cbn [rows_loop] in H.
  - apply ret_ok in H. destruct H as [-> _]. cbn [fold_left told_all]. auto 10.
  - rb H as s1 ls1 H1. inversion Q as [|? ? Ql Q2]; subst. destruct W as (W1 & W2 & W3 & W4).
    pose proof H1 as T. eapply t_row in T; try eassumption. destruct T as (B1 & B2 & B3 & B4 & B5). specialize (B4 _ Rb). specialize (B5 _ Cb).
    eapply o_row in H1; eauto; [|intros; eapply o_generate; eassumption|intros; apply kept_generate]. destruct H1 as [A1 A2 A3 A4 A5].
    cbn [told_all fold_left]. rewrite <- B2 in W4 |- *. destruct (kp_decls _ _ A2) as [K1 K2].
    eapply IH with (doc := props (d_decl_terms (s_doc s))) (decl := declared_columns (d_decl_sections (s_doc s))) in H; try eassumption; [congruence|congruence|].
    intros m I. destruct y as [|nm cells| |]; try (apply So; exact I). cbn [seen_after] in I. destruct (mem_str _ _) eqn:M in I; [|apply So; exact I].
    destruct I as [<-|I]; [|apply So; exact I]. right. apply mem_str_in in M. unfold own_columns in M. destruct cells; [apply (v_dsecs _ _ _ _ V nm); exact M|apply Ql; exact M].
Qed.

Lemma t_generate : forall e load n src lines k seen b c s s', (forall x rows, fetch e x = Some rows -> Forall (quiet_row odd syn) rows) ->
  inv s -> Forall2 reads (src_rows src) lines -> Forall (quiet_line odd syn) lines ->
  let doc := props (d_decl_terms (s_doc s)) in let decl := declared_columns (d_decl_sections (s_doc s)) in
  at_desk k s -> (forall m, In m (dkeys (d_sections (s_doc s))) -> In m seen) -> well_told decl doc seen k (Dof s) lines ->
  (forall m, In m seen -> m = "root" \/ In m odd) -> root_at b s -> cols_at c s ->
  generate_terms e load n src (Some "declare") s = (s', Ok tt) ->
  Dof s' = told_all decl doc k (Dof s) lines /\ at_desk (fold_left (desk_next decl) lines k) s' /\ root_at (fold_left root_next lines b) s' /\ cols_at (fold_left (cols_next decl) lines c) s'
  /\ (forall m, In m (dkeys (d_sections (s_doc s'))) -> In m (fold_left (seen_after decl) lines seen))
  /\ (forall m, In m (fold_left (seen_after decl) lines seen) -> m = "root" \/ In m odd).
Proof.
  intros e load n src lines k seen b c s s' Fe V R Q doc decl K Sn W So Rb Cb H. destruct n as [|n]; cbn [generate_terms] in H; [discriminate H|].
  rg H. eapply t_loop in H; eauto. apply (v_root _ _ _ _ V).
Qed.
End Rows.

Lemma fold_overlay : forall a b c d, decls_of (dupdate a c) (dupdate b d) = overlay (decls_of a b) (decls_of c d).
Proof.
  intros a b c d. unfold overlay, decls_of. cbn [dc_terms dc_secs]. f_equal. unfold dupdate. rewrite (fold_vals _ _ td_props). reflexivity.
Qed.

Lemma reads_same : forall row l l', reads row l -> reads row l' -> l = l'.
Proof.
  intros row l l' R R'.
  assert (Fn : forall p n p' n', cell_names (hd "" row) p n -> cell_names (hd "" row) p' n' -> p = p' /\ n = n').
  { intros p n p' n' C C'. apply split_term_lower_spec in C, C'. rewrite C in C'. injection C' as <- <-. auto. }
  inversion R as [B|B C|B C|p n B C D]; inversion R' as [B'|B' C'|B' C'|p' n' B' C' D']; subst; try contradiction; try reflexivity;
    destruct (Fn _ _ _ _ C C') as [E1 E2]; subst; try discriminate; try reflexivity; exfalso.
  all: match goal with D : _ -> ~ In _ _ |- _ => apply (D eq_refl); cbn; auto end.
Qed.

Lemma reads_quiet : forall odd syn rows ls, Forall2 reads rows ls -> Forall (quiet_row odd syn) rows -> Forall (quiet_line odd syn) ls.
Proof.
  intros odd syn rows ls R. induction R as [|row l rows ls Rl R IH]; intros Q; [constructor|]. inversion Q as [|? ? (l' & R' & Q') Q2]; subst.
  constructor; [|apply IH; exact Q2]. rewrite (reads_same _ _ _ Rl R'). exact Q'.
Qed.

(** coming back to the root section adds no section *)
Lemma root_keys : forall odd syn load r m s s', inv odd syn free s -> section s r -> d_root (s_doc s) = r -> t_val (tget r s) = VStr m -> emit load r s = (s', Ok tt) ->
  forall m0, In m0 (dkeys (d_sections (s_doc s'))) -> In m0 (dkeys (d_sections (s_doc s))) \/ In "section" (map lower (sec_property_names (tget r s))) /\ m0 = lower m.
Proof.
  intros odd syn load r m s s' V S Er Hm H m0 I. destruct load; [|apply (t_enter odd syn false r m) in H; auto; apply H; exact I].
  unfold emit in H. rb H as s1 b Hc. assert (He : emit false r s = (s1, Ok tt)) by (unfold emit, bind; rewrite Hc, andb_false_r; reflexivity).
  pose proof He as V1. apply (o_emit_sec odd syn) in V1; [|exact V|exact S]. destruct V1 as [[V1 _ K1] _]. pose proof (kept_section _ _ _ (proj1 K1) S) as S1.
  apply (t_enter odd syn false r m) in He; auto. destruct He as (_ & _ & He & _). apply He. clear He.
  destruct b; cbn [andb when] in H; [|apply ret_ok in H; destruct H as [-> _]; exact I].
  destruct (sec_lc odd syn _ _ V1 S1) as [LC1 Rt1]. pose proof (kp_root _ _ (proj1 K1)) as Kr.
  unfold load1 in H. rg H. rg H. rewrite tget_hmod in H by apply S1. rewrite Nat.eqb_refl in H. rewrite is_root_eq in H by exact LC1. rg H.
  unfold named_root in H at 1. change (t_pt (set_t_doc true (tget r s1))) with (t_pt (tget r s1)) in H. change (t_rt (set_t_doc true (tget r s1))) with (t_rt (tget r s1)) in H.
  rewrite (n_pt _ _ _ _ _ (v_node _ _ _ _ V1 r) (proj2 S1)) in H. destruct Rt1 as [[_ N]|[E _]]; [congruence|]. rewrite E in H.
  change (eqs "root" "root" && eqs "root" "root") with true in H. cbv iota in H. apply ret_ok in H. destruct H as [-> _]. exact I.
Qed.

(** one Declare row of the list *)
Lemma declare_one : forall odd syn e load n x lines src line hv v c seen s s' ls', (forall x rows, fetch e x = Some rows -> Forall (quiet_row odd syn) rows) ->
  file_says e (src_dir src) x lines -> inv odd syn free s -> root_at (true, hv) s -> p_dtvn (s_prs s) = v -> cols_at c s ->
  (forall m, In m (dkeys (d_sections (s_doc s))) -> In m seen) -> (forall m, In m seen -> m = "root" \/ In m odd) ->
  let doc := props (d_decl_terms (s_doc s)) in let decl := declared_columns (d_decl_sections (s_doc s)) in let k := file_desk hv v in
  well_told decl doc seen k (Dof s) lines ->
  row_step e load (generate_terms e load n) src None line ["Declare"; x] (d_root (s_doc s)) s = (s', Ok ls') ->
  inv odd syn free s' /\ ls' = d_root (s_doc s) /\ kept s s' /\ root_at (true, root_after hv lines) s' /\ p_dtvn (s_prs s') = k_value (fold_left (desk_next decl) lines k)
  /\ p_lastparent (s_prs s') = k_parent (fold_left (desk_next decl) lines k) /\ cols_at (fold_left (cols_next decl) lines c) s'
  /\ (forall m, In m (dkeys (d_sections (s_doc s'))) -> In m (fold_left (seen_after decl) lines seen))
  /\ (forall m, In m (fold_left (seen_after decl) lines seen) -> m = "root" \/ In m odd)
  /\ Dof s' = told_all decl doc k (Dof s) lines.
Proof.
  intros odd syn e load n x lines src line hv v c seen s s' ls' Fe (y & rows & Fd & Ff & R) V0 Rb Pv Cb Sn So doc decl k W H8.
  pose proof (reads_quiet _ _ _ _ R (Fe _ _ Ff)) as Q. pose proof (v_root _ _ _ _ V0) as S0.
  unfold row_step in H8. change (skip_row ["Declare"; x]) with false in H8. cbv iota in H8. cbn [hd nth skipn] in H8.
  change (split_term_lower "Declare") with (Ok ("root", "declare") : res (string * string)) in H8. rg H8. cbn iota beta in H8. rg H8.
  change (dotted "root" "declare") with "root.declare" in *.
  rb H8 as s2 t Hc.
  assert (Cc : is_section_cls (parser_term_class "root.declare" s) = false).
  { assert (Sp : split_term_lower "root.declare" = Ok ("root", "declare")) by reflexivity.
    apply (construct_cls _ "root" "declare") in Hc; [|apply dot_free_iff; reflexivity|apply dot_free_iff; reflexivity|exact Sp|reflexivity|reflexivity].
    destruct Hc as [C|(_ & _ & [C|C])]; [exact C|discriminate C..]. }
  apply construct_plain in Hc; [|exact Cc]. destruct Hc as (p' & r' & Tn & _ & -> & ->).
  assert (p' = "root" /\ r' = "declare") as [-> ->] by (vm_compute in Tn; injection Tn as <- <-; auto).
  match type of H8 with context [push ?r0 s] => set (R1 := r0) in * end.
  rg H8. rewrite push_new in H8.
  assert (LC : lc_name R1) by (split; [apply dot_free_iff; reflexivity|split; reflexivity]).
  rewrite is_include_bare in H8 by exact LC. rg H8. rewrite is_declare_bare in H8 by exact LC. rg H8.
  change (named_root R1 "include") with false in H8. change (named_root R1 "declare") with true in H8. cbn [orb] in H8.
  rb H8 as s7 u7 H7. destruct u7. apply ret_ok in H8. destruct H8 as [-> Hls].
  assert (F : fresh_calm syn R1).
  { split; try reflexivity; try exact Cc; try discriminate; cbn; auto.
    - split; [apply dot_free_iff; reflexivity|reflexivity].
    - intros _. split; [discriminate|]. split; [reflexivity|]. split; [apply dot_free_iff; reflexivity|discriminate].
    - intros _. split; [reflexivity|]. split; [intros [E|[E|[]]]; discriminate E|discriminate]. }
  set (r := d_root (s_doc s)) in *.
  unfold include_row in H7. rg H7. rewrite push_new in H7. rb H7 as s2 v0 Hv. apply lift_ok in Hv. destruct Hv as [-> Hv].
  assert (v0 = strip x) as ->.
  { cbn [R1 fresh_plain t_val] in Hv. destruct (string_dec x "") as [->|Z]; [discriminate Hv|]. rewrite init_val_str in Hv by exact Z. injection Hv as <-. reflexivity. }
  rewrite strip_idem, Fd in H7. rg H7. rb H7 as sx ux Hx.
  assert (sx = push R1 s) as -> by (destruct (src_ref src); [destruct (eqs _ _) in Hx; [discriminate Hx|]|]; apply ret_ok in Hx; apply Hx). clear Hx ux.
  rb H7 as s2 u2 H2. destruct u2. pose proof H2 as E2. apply (o_emit odd syn) in E2; [|exact V0|exact F].
  pose proof (emitted_step _ _ _ _ _ _ H2 E2) as [A1 [A2 _] A3].
  pose proof (kp_root _ _ A2) as Kr2. fold r in Kr2.
  assert (Lr : p_lastsec (s_prs s) = r) by (apply Rb; reflexivity).
  destruct (emit_less _ _ _ _ H2) as (s1 & H1 & De2 & Pr2). pose proof H1 as E1. apply (o_emit odd syn) in E1; [|exact V0|exact F].
  pose proof (v_last _ _ _ _ (em_inv _ _ _ _ _ E1)) as [Ls1 _]. clear H2.
  apply (t_emit odd syn false (mk_desk [] (fst hv) (snd hv) v (p_lastparent (s_prs s)))) in H1; auto; [|split; [rewrite Lr; apply Rb|split; [exact Pv|reflexivity]]|intros [_ X]; discriminate X].
  destruct H1 as [B1 _ B3 B4]. specialize (B3 ltac:(discriminate) eq_refl).
  assert (B3' : Dof s2 = Dof s) by (unfold Dof in *; rewrite Pr2; exact B3).
  assert (L12 : hlen s <= hlen s1) by (pose proof (em_plain _ _ _ _ _ E1) as [Z _]; lia).
  assert (B4' : still s s2).
  { destruct B4 as [B4 B5]. split; [rewrite Pr2; exact B4|]. intros i Hi. rewrite (proj2 De2) by lia. apply B5. exact Hi. }
  assert (Rn : renamed (p_pmap (s_prs s)) (t_rt R1) = "declare") by reflexivity.
  change (registers R1) with true in B1. cbv iota in B1. rewrite Rn in B1. cbn [k_columns k_header k_own k_value] in B1. fold (file_desk hv v) in B1. fold k in B1.
  assert (B1' : at_desk k s2) by (unfold at_desk in *; rewrite Pr2; rewrite (proj2 De2) by exact Ls1; exact B1).
  rewrite Ff in H7. rg H7. unfold rt_lc in H7. rewrite (em_rt _ _ _ _ _ E2), Rn in H7. change (lower "declare") with "declare" in H7.
  rb H7 as s3 u3 H3. destruct u3. pose proof H3 as K3. apply kept_generate in K3. pose proof H3 as V3. apply (o_generate odd syn) in V3; [|exact Fe|apply (Fe _ _ Ff)|exact A1].
  destruct (kp_decls _ _ A2) as [Y1 Y2].
  assert (Rb2 : root_at (true, hv) s2) by (eapply (root_still odd syn); [exact V0|exact Rb|exact B4'|exact Kr2]).
  assert (Cb2 : cols_at c s2) by (unfold cols_at; rewrite (proj2 (proj1 B4')); exact Cb).
  apply (t_generate odd syn _ _ _ _ lines k seen (true, hv) c) in H3; auto.
  2:{ rewrite (em_secs _ _ _ _ _ E2). exact Sn. }
  2:{ rewrite Y1, Y2, B3'. exact W. }
  rewrite Y1, Y2, B3' in H3. destruct H3 as (H3 & Dk3 & Rb3 & Cb3 & Sn3 & So3).
  assert (K13 : kept s s3) by (eapply kept_po; [exact A2|exact K3]).
  assert (S3 : section s3 r) by (eapply kept_section; [exact K13|exact S0]).
  pose proof (kp_root _ _ K13) as Kr3. fold r in Kr3.
  destruct (CalmFacts.v_secs _ _ _ _ V3 _ _ (v_rootk _ _ _ _ V3)) as (_ & (m & Hm & Lm) & _). rewrite Kr3 in Hm.
  destruct (n_val _ _ _ _ _ (v_node _ _ _ _ V3 r) (proj2 S3)) as (m' & Hm' & Om). assert (m' = m) as -> by congruence.
  pose proof H7 as K7. apply kept_emit in K7. pose proof H7 as V7. apply (o_emit_sec odd syn) in V7; [|exact V3|exact S3]. destruct V7 as [[V7 _ _] _].
  assert (Ks7 : forall m0, In m0 (dkeys (d_sections (s_doc s7))) -> In m0 (dkeys (d_sections (s_doc s3))) \/ In "section" (map lower (sec_property_names (tget r s3))) /\ m0 = lower m).
  { eapply root_keys; eassumption. }
  destruct (emit_less _ _ _ _ H7) as (s6 & H6 & De6 & Pr6).
  apply (t_enter odd syn false r m) in H6; auto. destruct H6 as (H6 & _ & So6 & L6 & De7 & Dv6 & _). rewrite Kr3 in Dv6. destruct (Dv6 eq_refl) as (Dv7 & Pm7 & Lp7).
  pose proof (kp_root _ _ K7) as Kr7. rewrite Kr3 in Kr7.
  assert (Nr : ~ In "section" (map lower (sec_property_names (tget r s3)))).
  { intros I. apply (v_odd _ _ _ _ V3). rewrite <- Lm. apply Om. unfold sec_property_names in I. destruct (t_hargs (tget r s3)); auto. }
  split; [exact V7|]. split; [congruence|]. split; [eapply kept_po; [exact K13|exact K7]|]. split; [|split; [|split; [|split; [|split; [|split; [exact So3|]]]]]].
  - destruct Rb3 as [Ra3 _]. split; rewrite Kr7, ?Pr6; [|split; [intros _; exact L6|reflexivity]].
    rewrite (proj2 De6) by (destruct De7 as [De7 _]; pose proof (proj1 S3); lia). rewrite (proj2 De7) by apply S3. rewrite Kr3 in Ra3. exact Ra3.
  - rewrite Pr6, Dv7. apply Dk3.
  - rewrite Pr6, Lp7. apply Dk3.
  - unfold cols_at. rewrite Pr6, Pm7. exact Cb3.
  - intros m0 I. apply Ks7 in I. destruct I as [I|[I _]]; [apply Sn3; exact I|contradiction].
  - unfold Dof in *. rewrite Pr6, H6. exact H3.
Qed.

(** all of them *)
Lemma declare_list : forall odd syn e load n src, (forall x rows, fetch e x = Some rows -> Forall (quiet_row odd syn) rows) ->
  forall xs fs, Forall2 (file_says e (src_dir src)) xs fs -> forall line hv k c seen doc decl s s' ls', inv odd syn free s -> root_at (true, hv) s ->
  p_dtvn (s_prs s) = k_value k -> p_lastparent (s_prs s) = k_parent k -> cols_at c s ->
  (forall m, In m (dkeys (d_sections (s_doc s))) -> In m seen) -> (forall m, In m seen -> m = "root" \/ In m odd) ->
  props (d_decl_terms (s_doc s)) = doc -> declared_columns (d_decl_sections (s_doc s)) = decl ->
  well_told_files decl doc seen hv (k_value k) (Dof s) fs ->
  rows_to e load (generate_terms e load n) src None line (map (fun d => ["Declare"; d]) xs) (d_root (s_doc s)) s = (s', Ok ls') ->
  inv odd syn free s' /\ ls' = d_root (s_doc s) /\ kept s s' /\ root_at (true, roots_after hv fs) s'
  /\ (forall m, In m (dkeys (d_sections (s_doc s'))) -> m = "root" \/ In m odd)
  /\ Dof s' = told_files decl doc hv (k_value k) (Dof s) fs
  /\ p_dtvn (s_prs s') = k_value (desk_past decl k hv fs) /\ p_lastparent (s_prs s') = k_parent (desk_past decl k hv fs)
  /\ cols_at (cols_past decl c fs) s'.
Proof.
  intros odd syn e load n src Fe xs fs F. induction F as [|x lines xs fs Hx F IH]; intros line hv k c seen doc decl s s' ls' V Rb Pv Lp Cb Sn So Ed Ec W H; cbn [map rows_to] in H.
  - apply ret_ok in H. destruct H as [-> ->]. split; [exact V|]. split; [reflexivity|]. split; [apply kept_po|]. split; [exact Rb|]. split; [auto|]. split; [reflexivity|]. cbn [desk_past fold_left]. auto.
  - rb H as s1 ls1 H1. subst doc decl. destruct W as [W1 W2].
    destruct (declare_one odd syn _ _ _ _ _ _ _ _ _ _ _ _ _ _ Fe Hx V Rb Pv Cb Sn So W1 H1) as (V1 & -> & K1 & Rb1 & Pv1 & Lp1 & Cb1 & Sn1 & So1 & D1).
    destruct (kp_decls _ _ K1) as [Y1 Y2]. pose proof (kp_root _ _ K1) as Kr. rewrite <- Kr in H.
    eapply IH with (doc := props (d_decl_terms (s_doc s))) (decl := declared_columns (d_decl_sections (s_doc s))) in H; try eassumption; [|congruence|congruence|rewrite D1; exact W2].
    destruct H as (V2 & -> & K2 & Rb2 & So2 & D2 & Dk2 & Lp2 & Cb2). split; [exact V2|]. split; [exact Kr|]. split; [eapply kept_po; [exact K1|exact K2]|]. split; [exact Rb2|]. split; [exact So2|].
    split; [rewrite D2, D1; reflexivity|]. cbn [desk_past]. split; [exact Dk2|]. split; [exact Lp2|]. unfold cols_past in *. cbn [concat]. rewrite fold_left_app. exact Cb2.
Qed.

(** the parser after the declaration files *)
Lemma declared_run : forall odd syn g xs fs s', quiet_place odd syn g -> xs <> [] -> Forall2 (file_says (in_env g) "") xs fs ->
  well_told_files (cols_of g) (props (in_terms g)) ["root"] first_root "@value" (decls_of installed_terms installed_sections) fs ->
  load_declarations (in_env g) (in_fuel g) xs (new_doc (in_reg g) (in_terms g) (in_secs g) (in_super g)) = (s', Ok tt) ->
  exists s, inv odd syn free s
    /\ s' = set_s_doc (set_d_decl_sections (dupdate (in_secs g) (p_dsecs (s_prs s))) (set_d_decl_terms (dupdate (in_terms g) (p_dterms (s_prs s))) (s_doc s))) s
    /\ (forall m, In m (dkeys (d_sections (s_doc s))) -> m = "root" \/ In m odd) /\ root_at (true, roots_after first_root fs) s
    /\ Dof s = told_files (cols_of g) (props (in_terms g)) first_root "@value" (decls_of installed_terms installed_sections) fs.
Proof.
  intros odd syn g xs fs s' P Nx F W H. destruct xs as [|x0 xs0]; [contradiction|]. clear Nx. set (xs := x0 :: xs0) in *. unfold load_declarations in H. change (match xs with [] => ret tt | _ :: _ => ?q end) with q in H.
  destruct (o_start odd syn g P) as [V0 [S0 _]]. set (s0 := new_doc _ _ _ _) in *. set (s1 := set_s_prs (fresh_parser s0) s0) in *. cbv zeta in V0, S0.
  assert (Fe : PyBase.reads (fun s => doc_find s "Root.Declare" VFalse SAny) s0 = (s0, Ok [])) by reflexivity.
  rb H as sa l Ha. rewrite Fe in Ha. injection Ha as <- <-. rg H. cbn [map existsb negb] in H.
  assert (Fx : filter (fun _ : string => true) xs = xs) by (clear; induction xs as [|a l IH]; [reflexivity|cbn; rewrite IH; reflexivity]). rewrite Fx in H.
  rb H as sb u Hb. unfold start_parser in Hb. apply modify_ok in Hb. fold s1 in Hb. subst sb. rb H as s9 u9 H9. destruct u9. rg H. apply modify_ok in H.
  destruct (in_fuel g) as [|n]; [discriminate H9|]. cbn [generate_terms src_rows] in H9. rg H9.
  rewrite <- (app_nil_r (map _ xs)) in H9. rewrite rows_to_app in H9. rb H9 as s8 ls8 H8. cbn [rows_loop] in H9. apply ret_ok in H9. destruct H9 as [-> _].
  eapply (declare_list odd syn) with (hv := first_root) (k := blank_desk) (c := []) (seen := ["root"]) in H8; try reflexivity; try eassumption.
  - destruct H8 as (V9 & _ & K9 & Rb9 & So9 & D9 & _). destruct (kp_decls _ _ K9) as [Y1 Y2]. exists s8. split; [exact V9|]. split; [|split; [exact So9|split; [exact Rb9|exact D9]]].
    subst s'. rewrite Y1, Y2. reflexivity.
  - apply (qp_files _ _ _ P).
  - split; [reflexivity|split; reflexivity].
  - intros m I. exact I.
  - intros m [<-|[]]. left. reflexivity.
Qed.

Lemma t_declared : forall odd syn g xs fs s', quiet_place odd syn g -> xs <> [] -> Forall2 (file_says (in_env g) "") xs fs ->
  well_told_files (cols_of g) (props (in_terms g)) ["root"] first_root "@value" (decls_of installed_terms installed_sections) fs ->
  load_declarations (in_env g) (in_fuel g) xs (new_doc (in_reg g) (in_terms g) (in_secs g) (in_super g)) = (s', Ok tt) ->
  decls_of (d_decl_terms (s_doc s')) (d_decl_sections (s_doc s'))
  = overlay (decls_of (in_terms g) (in_secs g)) (told_files (cols_of g) (props (in_terms g)) first_root "@value" (decls_of installed_terms installed_sections) fs).
Proof.
  intros odd syn g xs fs s' P Nx F W H. destruct (declared_run _ _ _ _ _ _ P Nx F W H) as (s & _ & -> & _ & _ & D).
  cbn [s_doc set_s_doc d_decl_terms d_decl_sections set_d_decl_terms set_d_decl_sections]. rewrite fold_overlay. fold (Dof s). rewrite D. reflexivity.
Qed.

Lemma t_declared_one : forall odd syn g x y rows lines s', quiet_place odd syn g ->
  find_declare_doc (in_env g) "" (strip x) = Ok y -> fetch (in_env g) y = Some rows -> Forall2 reads rows lines ->
  well_told (cols_of g) (props (in_terms g)) ["root"] first_desk (decls_of installed_terms installed_sections) lines ->
  load_declarations (in_env g) (in_fuel g) [x] (new_doc (in_reg g) (in_terms g) (in_secs g) (in_super g)) = (s', Ok tt) ->
  decls_of (d_decl_terms (s_doc s')) (d_decl_sections (s_doc s'))
  = overlay (decls_of (in_terms g) (in_secs g)) (told_all (cols_of g) (props (in_terms g)) first_desk (decls_of installed_terms installed_sections) lines).
Proof.
  intros odd syn g x y rows lines s' P Fd Ff R W H.
  apply (t_declared odd syn g [x] [lines]) in H; [exact H|exact P|discriminate|constructor; [exists y, rows; auto|constructor]|exact (conj W Logic.I)].
Qed.

(** ** Deciding whether a file is spoken about *)
Definition one_fileb (l : line) : bool :=
  match l with LTerm p r _ _ => negb (eqs p "root") || negb (mem_str r ["include"; "declare"]) | _ => true end.
Definition from_anotherb (doc : string -> string -> option string) (k : desk) (D : decls) (l : line) : bool :=
  match l with
  | LTerm p r x cells => negb (top_level k p) || negb (eqs r "declareterm")
      || match dget "inheritsfrom" (row_props (value_name doc k D p r) (desk_columns k) cells x) with
         | Some i => negb (eqs (lower (record_in x)) (lower (record_in i))) | None => true end
  | _ => true
  end.
Definition new_headingb (seen : list string) (l : line) : bool :=
  match l with LSection n _ => negb (mem_str (lower (strip n)) seen) | _ => true end.
Fixpoint well_toldb (decl : string -> list string) (doc : string -> string -> option string) (seen : list string) (k : desk) (D : decls) (ls : list line) : bool :=
  match ls with
  | [] => true
  | l :: ls' => one_fileb l && from_anotherb doc k D l && new_headingb seen l
                && well_toldb decl doc (seen_after decl seen l) (desk_next decl k l) (told doc k D l) ls'
  end.
Lemma well_told_by : forall decl doc ls seen k D, well_toldb decl doc seen k D ls = true -> well_told decl doc seen k D ls.
Proof.
  intros decl doc. induction ls as [|l ls IH]; intros seen k D H; [exact Logic.I|]. cbn [well_toldb] in H.
  apply andb_prop in H. destruct H as [H H4]. apply andb_prop in H. destruct H as [H H3]. apply andb_prop in H. destruct H as [H1 H2].
  cbn [well_told]. split; [|split; [|split; [|apply IH; exact H4]]]; destruct l as [|n c|n c|p r x c]; try exact Logic.I.
  - cbn [one_file one_fileb] in *. intros ->. cbn [negb orb] in H1. change (eqs "root" "root") with true in H1. cbn [negb orb] in H1. apply negb_true_iff in H1. apply mem_str_not. exact H1.
  - cbn [from_another from_anotherb] in *. intros Tl -> i E. rewrite Tl in H2. change (eqs "declareterm" "declareterm") with true in H2. cbn [negb orb] in H2. rewrite E in H2.
    apply negb_true_iff, eqs_false in H2. exact H2.
  - cbn [new_heading new_headingb] in *. apply negb_true_iff in H3. apply mem_str_not. exact H3.
Qed.
