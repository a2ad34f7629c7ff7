(** * WhereFacts: terms are read from cells (C73) *)

From Verif Require Import ListFacts StrFacts SpecNames NameFacts HeapFacts Parser RunFacts EmitFacts RowFacts TotalFacts FrameFacts ConstructFacts InvFacts OrderlyFacts SpecKept GrowFacts SpecWhere.

(** ** What taking in a term does not do: no text is made *)

Definition textless (v : val) : Prop := forall w, v <> VStr w.
(** [b] is [a] later: the same place, and no new text *)
Definition later (a b : trec) : Prop := core b = core a /\ forall w, t_val b = VStr w -> t_val a = VStr w.
Lemma later_refl : forall a, later a a.
Proof. intros a. split; auto. Qed.
Lemma later_trans : forall a b c, later a b -> later b c -> later a c.
Proof. intros a b c [A1 A2] [B1 B2]. split; [congruence|auto]. Qed.
Definition silent (f : trec -> trec) : Prop := forall r, later r (f r).
Definition placeless (r : trec) : Prop := t_row r = None /\ textless (t_val r).
Lemma placeless_later : forall a b, later a b -> placeless a -> placeless b.
Proof.
  intros a b [A B] [C D]. injection A as _ _ A _ _ _. split; [rewrite A; exact C|]. intros w H. exact (D w (B w H)).
Qed.

(** a relation that speaks of old terms and of new terms *)
Definition secs_ok (s : st) : Prop := forall k i, In (k, i) (d_sections (s_doc s)) -> section_term (tget i s).
Definition from (P : st -> trec -> Prop) (s s' : st) : Prop :=
  hlen s <= hlen s' /\ (forall i, i < hlen s -> later (tget i s) (tget i s')) /\ (forall i, hlen s <= i -> i < hlen s' -> P s' (tget i s'))
  /\ (secs_ok s -> secs_ok s').
Lemma in_range : forall i s, section_term (tget i s) -> i < hlen s.
Proof.
  intros i s H. destruct (Nat.lt_ge_cases i (hlen s)) as [L|L]; [exact L|]. unfold tget, hget in H. rewrite nth_overflow in H by exact L. discriminate H.
Qed.
Lemma later_sec : forall a b, later a b -> section_term a -> section_term b.
Proof. intros a b [A _] B. injection A as A _ _ _ _ _. unfold section_term in *. rewrite A. exact B. Qed.
Lemma secs_kept : forall s s', (forall i, i < hlen s -> later (tget i s) (tget i s')) -> d_sections (s_doc s') = d_sections (s_doc s) -> secs_ok s -> secs_ok s'.
Proof.
  intros s s' L E K k i H. rewrite E in H. apply K in H. eapply later_sec; [apply L; apply in_range; exact H|exact H].
Qed.
Definition grows (s s' : st) : Prop := hlen s <= hlen s' /\ forall i, i < hlen s -> later (tget i s) (tget i s').
Definition stable (P : st -> trec -> Prop) : Prop := forall s s' r r', grows s s' -> later r r' -> P s r -> P s' r'.
Lemma from_grows : forall P s s', from P s s' -> grows s s'.
Proof. intros P s s' (A & B & _). split; assumption. Qed.
Lemma from_po : forall P, stable P -> preorder (from P).
Proof.
  intros P S. split.
  - intros s. split; [lia|]. split; [intros; apply later_refl|]. split; [intros; lia|auto].
  - intros a b c (A1 & A2 & A3 & A4) (B1 & B2 & B3 & B4). split; [lia|]. split; [|split; [|auto]].
    + intros i Hi. eapply later_trans; [apply A2; exact Hi|apply B2; lia].
    + intros i H1 H2. destruct (Nat.lt_ge_cases i (hlen b)) as [L|L]; [|apply B3; assumption].
      eapply S; [split; [exact B1|exact B2]|apply B2; exact L|apply A3; assumption].
Qed.
Lemma from_weaken : forall (P Q : st -> trec -> Prop) s s', (forall s r, P s r -> Q s r) -> from P s s' -> from Q s s'.
Proof. intros P Q s s' H (A & B & C & D). split; [exact A|]. split; [exact B|]. auto. Qed.

Definition quiet : st -> st -> Prop := from (fun _ => placeless).
Lemma quiet_po : preorder quiet.
Proof. apply from_po. intros s s' r r' _ L P. eapply placeless_later; eassumption. Qed.
Lemma push_from : forall (P : st -> trec -> Prop) r s, P (push r s) r -> from P s (push r s).
Proof.
  intros P r s H. assert (L : forall i, i < hlen s -> later (tget i s) (tget i (push r s))).
  { intros i Hi. rewrite push_old by exact Hi. apply later_refl. }
  split; [rewrite hlen_push; lia|]. split; [exact L|]. split; [|apply secs_kept; [exact L|reflexivity]].
  intros i H1 H2. rewrite hlen_push in H2. replace i with (hlen s) by lia. rewrite push_new. exact H.
Qed.
Lemma quiet_hmod : forall i f s, silent f -> quiet s (hmod i f s).
Proof.
  intros i f s H. assert (L : forall j, j < hlen s -> later (tget j s) (tget j (hmod i f s))).
  2:{ split; [rewrite hlen_hmod; lia|]. split; [exact L|]. split; [rewrite hlen_hmod; intros; lia|]. apply secs_kept; [exact L|reflexivity]. }
  intros j Hj. rewrite tget_hmod_any. destruct ((j =? i) && (i <? hlen s)) eqn:E; [|apply later_refl].
  apply andb_prop in E. destruct E as [E _]. apply Nat.eqb_eq in E. subst j. apply H.
Qed.
Lemma quiet_same : forall s s', s_heap s' = s_heap s -> (secs_ok s -> secs_ok s') -> quiet s s'.
Proof.
  intros s s' E K. unfold quiet, from, hlen, tget. rewrite E. split; [lia|]. split; [intros; apply later_refl|]. split; [intros; lia|exact K].
Qed.
Lemma quiet_dmod : forall f s, d_sections (f (s_doc s)) = d_sections (s_doc s) -> quiet s (dmod f s).
Proof. intros f s E. apply quiet_same; [reflexivity|]. intros K k i H. cbn in H. rewrite E in H. exact (K k i H). Qed.
Lemma quiet_pmod : forall f s, quiet s (pmod f s).
Proof. intros. apply quiet_same; [reflexivity|auto]. Qed.

Lemma textless_init : forall v, textless v -> textless (init_val v).
Proof. intros v H w. unfold init_val. destruct v; cbn; try discriminate; [exfalso; eapply H; reflexivity|]. destruct (z =? 0)%Z; discriminate. Qed.
Lemma textless_ref : forall o, textless (opt_ref o).
Proof. intros [i|] w; discriminate. Qed.

Ltac qleaf := intro; unfold later, core;
  repeat match goal with |- context [match ?x with _ => _ end] => destruct x end;
  (split; [reflexivity|intros ?w ?Hw; first [exact Hw|discriminate Hw|exfalso; eapply textless_ref; exact Hw|exfalso; match goal with X : textless _ |- _ => eapply X; exact Hw end]]).
Ltac q1 :=
  match goal with
  | |- forall _, _ => intro
  | |- pres _ (bind _ _) => apply pres_bind; [exact quiet_po| |]
  | |- pres _ (ret _) => apply pres_ret; exact quiet_po
  | |- pres _ (raise _) => apply pres_raise; exact quiet_po
  | |- pres _ (lift _) => apply pres_lift; exact quiet_po
  | |- pres _ (gets _) => apply pres_gets; exact quiet_po
  | |- pres _ (getT _) => apply pres_gets; exact quiet_po
  | |- pres _ getD => apply pres_gets; exact quiet_po
  | |- pres _ getP => apply pres_gets; exact quiet_po
  | |- pres _ (reads _) => apply pres_reads; exact quiet_po
  | |- pres _ (assert_ _) => apply pres_assert; exact quiet_po
  | |- pres _ (when _ _) => apply pres_when; [exact quiet_po|]
  | |- pres _ (mapM_ _ _) => apply pres_mapM; [exact quiet_po|intros ? _]
  | |- pres _ (modT _ _) => apply pres_modT; intro; apply quiet_hmod; qleaf
  | |- pres _ (modD _) => apply pres_modD; intro; apply quiet_dmod; reflexivity
  | |- pres _ (modP _) => apply pres_modP; intro; apply quiet_pmod
  | |- pres _ (set_ownership _ _) => apply pres_ownership; [exact quiet_po|intros; apply quiet_hmod; qleaf]
  | |- pres _ (if ?b then _ else _) => destruct b
  | |- pres _ (match ?x with _ => _ end) => destruct x
  | |- pres _ (let _ := _ in _) => cbv zeta
  end.
Ltac qw := repeat (cbv beta; q1).

Lemma quiet_alloc : forall r, placeless r -> pres quiet (allocT r).
Proof. intros r P s s' x H. injection H as <- _. apply push_from. exact P. Qed.
Lemma q_construct : forall c term value args col ftype parent doc section, textless value ->
  pres quiet (construct c term value args None col ftype parent doc section).
Proof.
  intros. unfold construct. destruct c; unfold mk_section, mk_plain; qw; apply quiet_alloc; (split; [reflexivity|apply textless_init; assumption]).
Qed.
Lemma q_add_section : forall sid, pres quiet (add_section sid).
Proof.
  intros sid s s' x H. unfold add_section in H. rg H. set (s0 := hmod sid (set_t_doc true) s) in *.
  assert (Q : quiet s s0) by (apply quiet_hmod; qleaf). rg H. eapply (proj2 quiet_po); [exact Q|]. clear Q.
  unfold assert_, bind at 1 in H. destruct (is_section_cls (t_cls (tget sid s0))) eqn:E; [|injection H as <- _; apply quiet_po].
  unfold ret at 1 in H. cbv beta iota in H. unfold bind at 1, lift in H. destruct (as_str (t_val (tget sid s0))) as [name|e]; [|injection H as <- _; apply quiet_po].
  unfold ret at 1 in H. cbv beta iota in H. rg H. destruct (dget (lower name) (d_sections (s_doc s0))) eqn:G; [injection H as <- _; apply quiet_po|].
  rg H. injection H as <- _. apply quiet_same; [reflexivity|]. intros K k i Hi. cbn in Hi. apply in_dset in Hi.
  destruct Hi as [Hi|Hi]; [injection Hi as -> ->; exact E|exact (K k i Hi)].
Qed.
Lemma q_add_list : forall t, pres quiet (add_term_list t).
Proof. intros. unfold add_term_list. qw. apply q_add_section. Qed.
Lemma q_add_meta : forall t, pres quiet (add_term_meta t).
Proof. intros. unfold add_term_meta. qw. Qed.
Lemma q_section_add : forall sec t, pres quiet (section_add_term sec t).
Proof. intros. unfold section_add_term, doc_add_term_nosec. qw; first [apply q_add_list|apply q_add_meta]. Qed.
Lemma q_goc : forall i item v, textless v -> pres quiet (get_or_new_child0 i item v).
Proof. intros i item v T. unfold get_or_new_child0, goc_check. qw; apply q_construct; exact T. Qed.
Lemma q_set_section_plain : forall t s, pres quiet (set_section_plain t s).
Proof. intros. unfold set_section_plain, set_child_item. qw. apply q_goc. discriminate. Qed.
Lemma q_doc_add : forall t, pres quiet (doc_add_term t).
Proof. intros. unfold doc_add_term. qw; first [apply q_add_list|apply q_add_section|apply q_section_add|apply q_add_meta|apply q_set_section_plain]. Qed.
Lemma q_new_term : forall sec term v, textless v -> pres quiet (Ops.new_term sec term v []).
Proof. intros. unfold Ops.new_term, new_children. cbn [mapM_]. qw; first [apply q_construct; assumption|apply q_doc_add|idtac]. Qed.
Lemma q_set_section : forall t o, pres quiet (set_section t o).
Proof.
  intros t o. pose proof (textless_ref o) as T. unfold set_section, set_section_sec, section_setitem, get_or_new_term. cbn [mapM_].
  destruct o; cbn [opt_ref] in *; qw; first [apply q_goc; exact T|apply q_new_term; exact T|apply q_set_section_plain|idtac].
Qed.
Lemma q_declare : forall t, pres quiet (manage_declare_terms t).
Proof. intros t. apply pres_declare; [exact quiet_po|]. intros f s _. apply quiet_pmod. Qed.
Lemma q_normal : forall t, pres quiet (consume_normal t).
Proof. intros. unfold consume_normal, set_meta, attach, add_child. qw; apply q_section_add. Qed.
Lemma q_rename : forall t, pres quiet (rename_term t).
Proof. intros. unfold rename_term. qw. Qed.
Lemma q_load1 : forall t, pres quiet (load1 t).
Proof. intros. unfold load1. qw; first [apply q_add_section|apply q_doc_add]. Qed.
Lemma q_consume : forall t, pres quiet (consume t).
Proof. intros. unfold consume. qw; first [apply q_rename|apply q_set_section|apply q_normal|apply q_declare]. Qed.
Lemma q_emit : forall load t, pres quiet (emit load t).
Proof. intros. unfold emit. qw; first [apply q_consume|apply q_load1]. Qed.

(** ** The terms a row makes *)

Lemma construct_made : forall c term value args row col ftype parent doc section s s' i,
  construct c term value args row col ftype parent doc section s = (s', Ok i) ->
  exists r, s' = push r s /\ i = hlen s /\ t_cls r = c /\ t_row r = row /\ t_ftype r = ftype /\ t_term r = term /\ t_val r = init_val value
    /\ (~ section_term r -> t_col r = col /\ t_args r = map strip args) /\ (section_term r -> parent = None).
Proof.
  intros until i. intros H. unfold construct in H. destruct c; try discriminate H.
  - apply mk_plain_ok in H. destruct H as (p & r & _ & _ & -> & ->). eexists. do 7 (split; [reflexivity|]). split; [intros _; split; reflexivity|intros S; discriminate S].
  - destruct parent, section, doc; try discriminate H. apply mk_section_ok in H. destruct H as (p & r & a & _ & -> & -> & _).
    eexists. do 7 (split; [reflexivity|]). split; [intros S; destruct S; reflexivity|intros _; reflexivity].
  - apply mk_plain_ok in H. destruct H as (p & r & _ & _ & -> & ->). eexists. do 7 (split; [reflexivity|]). split; [intros _; split; reflexivity|intros S; discriminate S].
Qed.
Lemma init_text : forall v w, init_val (VStr v) = VStr w -> w = strip v.
Proof. intros v w H. unfold init_val in H. destruct (truthy (VStr v)); [injection H as <-; reflexivity|discriminate]. Qed.

Definition column_text (s : st) (w : string) : Prop := exists i a, i < hlen s /\ section_term (tget i s) /\ In a (t_args (tget i s)) /\ w = strip a.
Lemma column_stable : forall s s' w, grows s s' -> column_text s w -> column_text s' w.
Proof.
  intros s s' w [G L] (i & a & Hi & S & I & E). specialize (L i Hi). exists i, a. split; [lia|]. split; [eapply later_sec; eassumption|].
  destruct L as [L _]. injection L as _ L _ _ _ _. rewrite L. auto.
Qed.
Lemma written_stable : forall e main, stable (written e main).
Proof.
  intros e main s s' r r' G L (rows & n & row & F & A & N & D). destruct L as [L V]. injection L as L1 L2 L3 L4 L5 L6.
  exists rows, n, row. rewrite L5, L3. split; [exact F|]. split; [exact A|]. split; [exact N|]. unfold of_row, of_cell, of_column in *; unfold section_term in *. rewrite L1, L2, L4, L6.
  destruct D as [(D1 & D2 & D3)|(D0 & c & [(D1 & D2 & D3 & D4)|(D1 & D2 & D3)])].
  - left. auto.
  - right. split; [exact D0|]. exists c. left. split; [exact D1|]. split; [exact D2|]. split; [exact D3|auto].
  - right. split; [exact D0|]. exists c. right. split; [exact D1|]. split; [exact D2|]. intros w Hw. eapply column_stable; [exact G|apply D3; auto].
Qed.
Definition known (e : env) (main : list (list string)) (s : st) (r : trec) : Prop := placeless r \/ written e main s r.
Lemma known_stable : forall e main, stable (known e main).
Proof.
  intros e main s s' r r' G L [H|H]; [left; eapply placeless_later; eassumption|right; eapply written_stable; eassumption].
Qed.
Lemma quiet_known : forall e main s s', quiet s s' -> from (known e main) s s'.
Proof. intros e main s s'. apply from_weaken. intros. left. assumption. Qed.

Lemma third_cell : forall (row : list string) k x, nth_error (skipn 2 row) k = Some x -> nth (2 + k) row "" = x.
Proof. intros [|a [|b row]] k x H; cbn in H |- *; [destruct k; discriminate H..|]. apply nth_error_nth. exact H. Qed.

Section Rows.
  Variable e : env.
  Variable main : list (list string).
  Notation fr := (from (known e main)).
  Let tr : forall a b c, fr a b -> fr b c -> fr a c := proj2 (from_po _ (known_stable e main)).

  Lemma args_from : forall rows row load ft line, file_rows e main ft rows -> row_at rows line row -> forall args t col s s',
    (forall k v, nth_error args k = Some v -> strip v = strip (nth (col + k + 2) row "") \/ column_text s (strip v)) ->
    emit_args load ft line t col args s = (s', Ok tt) -> fr s s'.
  Proof.
    intros rows row load ft line F A. induction args as [|v args IH]; intros t col s s' G H; cbn [emit_args] in H.
    - apply ret_ok in H. destruct H as [-> _]. apply (from_po _ (known_stable e main)).
    - rb H as s1 x H1. assert (F1 : fr s s1).
      { unfold when in H1. destruct (nonempty (strip v)); [|apply ret_ok in H1; destruct H1 as [-> _]; apply (from_po _ (known_stable e main))].
        rg H1. rg H1. rb H1 as s2 k H2. apply construct_made in H2. destruct H2 as (r & -> & -> & R1 & R2 & R3 & R4 & R5 & R6 & R7).
        eapply tr; [|apply quiet_known; eapply q_emit; exact H1]. apply push_from. right.
        assert (NS : ~ section_term r) by (intros S; specialize (R7 S); discriminate R7). specialize (R6 NS). destruct R6 as [R6 _].
        exists rows, line, row. rewrite R3. split; [exact F|]. split; [exact A|]. split; [exact R2|]. right. split; [exact NS|]. exists (col + 2).
        destruct (G 0 v eq_refl) as [E|E].
        - left. split; [lia|]. split; [exact R6|]. split; [exists (rt_lc (tget t s)); rewrite R4; replace (col + 2 - 2) with col by lia; reflexivity|].
          intros w Hw. rewrite R5 in Hw. apply init_text in Hw. rewrite Hw, E. f_equal. f_equal. lia.
        - right. split; [exact R6|]. split; [lia|]. intros w Hw. rewrite R5 in Hw. apply init_text in Hw. subst w.
          assert (X : column_text (push r s) (strip v)) by (eapply column_stable; [|exact E]; eapply from_grows; apply (push_from (fun _ _ => True)); exact Logic.I).
          exact X. }
      eapply tr; [exact F1|]. eapply IH; [|exact H]. intros k u K. destruct (G (S k) u K) as [E|E].
      + left. rewrite E. f_equal. f_equal. lia.
      + right. eapply column_stable; [eapply from_grows; exact F1|exact E].
  Qed.

  Lemma section_for_made : forall t s s' i, section_for t s = (s', Ok i) -> s' = s /\ section_term (tget t s) /\ (i = t \/ exists k, In (k, i) (d_sections (s_doc s))).
  Proof.
    intros t s s' i H. unfold section_for in H. rg H. rg H. destruct (is_section_cls (t_cls (tget t s))) eqn:E; [|discriminate H].
    destruct (get_section (t_val (tget t s)) s) as [j|x] eqn:G.
    - apply ret_ok in H. destruct H as [-> ->]. split; [reflexivity|]. split; [exact E|]. right.
      unfold get_section in G. destruct (as_str (t_val (tget t s))) as [n|]; [|discriminate G]. cbn in G. destruct (dget (lower n) (d_sections (s_doc s))) eqn:D; [|discriminate G].
      injection G as ->. exists (lower n). apply dget_in in D. exact D.
    - destruct x; try discriminate H. apply ret_ok in H. destruct H as [-> ->]. split; [reflexivity|]. split; [exact E|auto].
  Qed.

  Variable rec : source -> option string -> MM unit.
  Hypothesis Hrec : forall f rows ft s s', fetch e f = Some rows -> secs_ok s -> rec (mk_source (Some f) "" rows) (Some ft) s = (s', Ok tt) -> fr s s'.
  Variable load : bool.

  Lemma include_from : forall src ls t b s s', secs_ok s -> include_row e load rec src ls t b s = (s', Ok tt) -> fr s s'.
  Proof.
    intros src ls t b s s' K H. unfold include_row in H. rg H. rb H as s1 v H1. apply lift_ok in H1. destruct H1 as [-> _].
    rb H as s2 f H2. apply lift_ok in H2. destruct H2 as [-> _]. rb H as s3 x H3.
    assert (s3 = s). { destruct (src_ref src); [destruct (eqs _ _); [discriminate H3|]|]; apply ret_ok in H3; apply H3. } subst s3.
    rb H as s4 x4 H4. assert (Q : fr s s4) by (apply quiet_known; eapply q_emit; exact H4).
    destruct (fetch e f) as [rows|] eqn:F; [|discriminate H]. rg H. rb H as s5 x5 H5. destruct x5.
    assert (Q5 : fr s4 s5) by (eapply Hrec; [exact F|apply Q; exact K|exact H5]).
    eapply tr; [exact Q|]. eapply tr; [exact Q5|]. apply quiet_known. eapply q_emit. exact H.
  Qed.

  Lemma row_from : forall rows src ft line row ls s s' i, file_rows e main ft rows -> row_at rows line row -> secs_ok s ->
    row_step e load rec src ft line row ls s = (s', Ok i) -> fr s s'.
  Proof.
    intros rows src ft line row ls s s' i F A K H. unfold row_step in H. destruct (skip_row row) eqn:Sk.
    { apply ret_ok in H. destruct H as [-> _]. apply (from_po _ (known_stable e main)). }
    rb H as s1 pn H1. apply lift_ok in H1. destruct H1 as [-> N]. destruct pn as [p n]. cbv zeta in H. rg H.
    rb H as s2 t H2. apply construct_made in H2. destruct H2 as (r & -> & -> & R1 & R2 & R3 & R4 & R5 & R6 & R7).
    assert (P : fr s (push r s)).
    { apply push_from. right. exists rows, line, row. rewrite R3. split; [exact F|]. split; [exact A|]. split; [exact R2|]. left. split; [|split].
      - exists p, n. split; [|exact R4]. apply split_term_lower_spec. destruct row; exact N.
      - intros w Hw. rewrite R5 in Hw. apply init_text in Hw. exact Hw.
      - intros S. split; [apply R6; exact S|]. apply R6. exact S. }
    eapply tr; [exact P|]. assert (K1 : secs_ok (push r s)) by (apply P; exact K).
    rg H. rewrite push_new in H. rb H as s3 b1 H3. apply lift_ok in H3. destruct H3 as [-> _].
    rb H as s4 b2 H4. apply lift_ok in H4. destruct H4 as [-> _]. destruct (b1 || b2).
    { rb H as s5 x5 H5. destruct x5. apply ret_ok in H. destruct H as [-> _]. eapply include_from; eassumption. }
    rb H as s5 b3 H5. apply lift_ok in H5. destruct H5 as [-> _]. rb H as s6 t H6.
    assert (T : s6 = push r s /\ (t = hlen s \/ section_term (tget t s6))).
    { destruct b3.
      - apply section_for_made in H6. destruct H6 as (-> & S & [->|(k & D)]); split; auto. right. exact (K1 _ _ D).
      - apply ret_ok in H6. destruct H6 as [-> ->]. auto. }
    destruct T as [-> T]. rb H as s7 x7 H7. destruct x7. apply q_emit in H7.
    eapply tr; [apply quiet_known; exact H7|]. rg H.
    rb H as s8 b4 H8. apply lift_ok in H8. destruct H8 as [-> _]. rb H as s9 b5 H9. apply lift_ok in H9. destruct H9 as [-> _].
    rb H as s10 x10 H10. destruct x10. apply ret_ok in H. destruct H as [-> _].
    destruct (b4 || b5); [apply ret_ok in H10; destruct H10 as [-> _]; apply (from_po _ (known_stable e main))|].
    eapply args_from; [exact F|exact A| |exact H10]. intros k v Kv. destruct H7 as (G1 & G2 & _).
    destruct T as [->|T].
    - assert (L : later r (tget (hlen s) s7)). { rewrite <- (push_new r s) at 1. apply G2. rewrite hlen_push. lia. }
      pose proof L as [L' _]. injection L' as L1 L2 _ _ _ _. destruct (is_section_cls (t_cls r)) eqn:C.
      + right. exists (hlen s), v. rewrite hlen_push in G1. split; [lia|]. split; [unfold section_term; rewrite L1; exact C|]. split; [eapply nth_error_In; exact Kv|reflexivity].
      + left. rewrite L2 in Kv. destruct R6 as [_ R6]; [unfold section_term; rewrite C; discriminate|]. rewrite R6, nth_error_map in Kv.
        destruct (nth_error (skipn 2 row) k) as [x|] eqn:E; [|discriminate Kv]. injection Kv as <-. rewrite strip_idem.
        replace (0 + k + 2) with (2 + k) by lia. rewrite (third_cell _ _ _ E). reflexivity.
    - right. pose proof (in_range _ _ T) as Ht. exists t, v. split; [lia|]. split; [eapply later_sec; [apply G2; exact Ht|exact T]|].
      split; [eapply nth_error_In; exact Kv|reflexivity].
  Qed.

  Lemma rows_from : forall all ft src, file_rows e main ft all -> forall rows before line ls s s', all = (before ++ rows)%list -> line = S (List.length before) -> secs_ok s ->
    rows_loop e load rec src ft line rows ls s = (s', Ok tt) -> fr s s'.
  Proof.
    intros all ft src F. induction rows as [|row rows IH]; intros before line ls s s' E L K H; cbn [rows_loop] in H.
    - apply ret_ok in H. destruct H as [-> _]. apply (from_po _ (known_stable e main)).
    - rb H as s1 ls1 H1. assert (Q : fr s s1). { eapply row_from; [exact F| |exact K|exact H1]. exists before, rows. auto. }
      eapply tr; [exact Q|]. eapply (IH (before ++ [row])%list (S line)); [|subst line; rewrite app_length; cbn [List.length]; lia|apply Q; exact K|exact H]. rewrite <- app_assoc. exact E.
  Qed.
End Rows.

Lemma generate_from : forall e main load fuel src ft s s', file_rows e main ft (src_rows src) -> secs_ok s ->
  generate_terms e load fuel src ft s = (s', Ok tt) -> from (known e main) s s'.
Proof.
  intros e main load fuel. induction fuel as [|n IH]; intros src ft s s' F K H; cbn [generate_terms] in H; [discriminate H|]. rg H.
  eapply (rows_from e main (generate_terms e load n)) with (before := []); [|exact F|reflexivity|reflexivity|exact K|exact H].
  intros f rows ft0 a b Hf Ka Hr. eapply IH; [|exact Ka|exact Hr]. exists f. exact Hf.
Qed.

Lemma load_from : forall e fuel src s s', secs_ok s -> load_source e fuel src s = (s', Ok tt) -> from (known e (src_rows src)) s s'.
Proof.
  intros e fuel src s s' K H. pose proof (proj2 (from_po _ (known_stable e (src_rows src)))) as tr. unfold load_source in H.
  rb H as s1 x1 H1. injection H1 as <- _. eapply tr; [apply quiet_known, (quiet_pmod (fun _ => fresh_parser s))|].
  rg H. rb H as s2 x2 H2. apply q_load1 in H2. eapply tr; [apply quiet_known; exact H2|].
  rb H as s3 x3 H3. destruct x3. eapply tr; [eapply (generate_from e (src_rows src) true fuel src None); [exact eq_refl|apply H2; exact K|exact H3]|].
  apply quiet_known. revert H. generalize (Ok tt : res unit). intros r H. assert (Q : pres quiet finish_load) by (unfold finish_load; qw). eapply Q. exact H.
Qed.

(** ** No cell makes two terms *)

(** terms of the file itself that are not sections *)
Definition own (r : trec) : Prop := t_ftype r = None /\ t_row r <> None /\ ~ section_term r.
Lemma own_later : forall a b, later a b -> own b -> own a /\ t_row b = t_row a /\ t_col b = t_col a.
Proof.
  intros a b [A _] (O1 & O2 & O3). injection A as A1 A2 A3 A4 A5 A6. unfold own, section_term in *. rewrite A1 in O3. rewrite A3 in O2. rewrite A5 in O1. auto.
Qed.
Record spread (Z : nat -> nat -> Prop) (s s' : st) : Prop := {
  sp_grows : grows s s';
  sp_place : forall i, hlen s <= i -> i < hlen s' -> own (tget i s') -> exists n c, t_row (tget i s') = Some n /\ t_col (tget i s') = Some c /\ Z n c;
  sp_once : forall i j, hlen s <= i -> i < j -> j < hlen s' -> own (tget i s') -> own (tget j s') ->
    ~ (t_row (tget i s') = t_row (tget j s') /\ t_col (tget i s') = t_col (tget j s'))
}.
Lemma spread_trans : forall (Z1 Z2 : nat -> nat -> Prop) a b c, (forall m k, Z1 m k -> Z2 m k -> False) -> spread Z1 a b -> spread Z2 b c -> spread (fun m k => Z1 m k \/ Z2 m k) a c.
Proof.
  intros Z1 Z2 a b c D [[A0 A0'] A1 A2] [[B0 B0'] B1 B2]. split.
  - split; [lia|]. intros i Hi. eapply later_trans; [apply A0'; exact Hi|apply B0'; lia].
  - intros i H1 H2 O. destruct (Nat.lt_ge_cases i (hlen b)) as [L|L].
    + destruct (own_later _ _ (B0' i L) O) as (O' & E1 & E2). rewrite E1, E2. destruct (A1 i H1 L O') as (n & k & X & Y & W). exists n, k. auto.
    + destruct (B1 i L H2 O) as (n & k & X & Y & W). exists n, k. auto.
  - intros i j H1 H2 H3 Oi Oj [E F]. destruct (Nat.lt_ge_cases i (hlen b)) as [L|L]; [|apply (B2 i j); auto].
    destruct (own_later _ _ (B0' i L) Oi) as (Oi' & E1 & E2). destruct (Nat.lt_ge_cases j (hlen b)) as [M|M].
    + destruct (own_later _ _ (B0' j M) Oj) as (Oj' & F1 & F2). apply (A2 i j H1 H2 M Oi' Oj'). split; congruence.
    + destruct (A1 i H1 L Oi') as (n & k & X1 & X2 & X3). destruct (B1 j M H3 Oj) as (n' & k' & Y1 & Y2 & Y3). apply (D n k X3).
      replace n with n' by congruence. replace k with k' by congruence. exact Y3.
Qed.
Lemma spread_weaken : forall (Z1 Z2 : nat -> nat -> Prop) a b, (forall m k, Z1 m k -> Z2 m k) -> spread Z1 a b -> spread Z2 a b.
Proof. intros Z1 Z2 a b H [A B C]. split; [exact A| |exact C]. intros i H1 H2 O. destruct (B i H1 H2 O) as (n & c & X & Y & W). exists n, c. auto. Qed.
(** the term is not of the file itself *)
Definition elsewhere (s : st) (r : trec) : Prop := t_row r = None \/ t_ftype r <> None.
Lemma elsewhere_stable : stable elsewhere.
Proof. intros s s' r r' _ [L _] H. injection L as _ _ L3 _ L5 _. unfold elsewhere. rewrite L3, L5. exact H. Qed.
Lemma spread_none : forall s s', from elsewhere s s' -> spread (fun _ _ => False) s s'.
Proof.
  intros s s' F. pose proof F as (A & B & C & _). split.
  - eapply from_grows. exact F.
  - intros i H1 H2 (O1 & O2 & O3). destruct (C i H1 H2) as [X|X]; contradiction.
  - intros i j H1 H2 H3 (O1 & O2 & O3) _. exfalso. destruct (C i H1) as [X|X]; [lia|contradiction..].
Qed.
Lemma quiet_else : forall s s', quiet s s' -> from elsewhere s s'.
Proof. intros s s'. apply from_weaken. intros s0 r [A _]. left. exact A. Qed.
Lemma spread_quiet : forall s s', quiet s s' -> spread (fun _ _ => False) s s'.
Proof. intros. apply spread_none, quiet_else. assumption. Qed.
Lemma spread_refl : forall s, spread (fun _ _ => False) s s.
Proof. intros. apply spread_quiet. apply quiet_po. Qed.

Lemma else_po : preorder (from elsewhere).
Proof. apply from_po. exact elsewhere_stable. Qed.
Lemma pres_else : forall {A} (m : MM A), pres quiet m -> pres (from elsewhere) m.
Proof. intros A m H s s' r E. apply quiet_else. eapply H. exact E. Qed.
Ltac e1 :=
  match goal with
  | |- forall _, _ => intro
  | |- pres _ (bind _ _) => apply pres_bind; [exact else_po| |]
  | |- pres _ (ret _) => apply pres_ret; exact else_po
  | |- pres _ (raise _) => apply pres_raise; exact else_po
  | |- pres _ (lift _) => apply pres_lift; exact else_po
  | |- pres _ (gets _) => apply pres_gets; exact else_po
  | |- pres _ (getT _) => apply pres_gets; exact else_po
  | |- pres _ getD => apply pres_gets; exact else_po
  | |- pres _ (when _ _) => apply pres_when; [exact else_po|]
  | |- pres _ (if ?b then _ else _) => destruct b
  | |- pres _ (match ?x with _ => _ end) => destruct x
  | |- pres _ (let _ := _ in _) => cbv zeta
  end.
Ltac ew := repeat (cbv beta; e1).
Lemma e_construct : forall c term value args row col ft parent doc section, pres (from elsewhere) (construct c term value args row col (Some ft) parent doc section).
Proof.
  intros. assert (E : forall r, t_ftype r = Some ft -> pres (from elsewhere) (allocT r)).
  { intros r Hr s s' x H. injection H as <- _. apply push_from. right. rewrite Hr. discriminate. }
  unfold construct. destruct c; unfold mk_section, mk_plain, assert_; ew; apply E; reflexivity.
Qed.
Lemma e_args : forall load ft line args t col, pres (from elsewhere) (emit_args load (Some ft) line t col args).
Proof. intros load ft line args. induction args; intros; cbn [emit_args]; ew; first [apply e_construct|apply pres_else, q_emit|apply IHargs]. Qed.
Lemma e_include : forall e load (rec : source -> option string -> MM unit) src ls t b, (forall src ft, pres (from elsewhere) (rec src (Some ft))) -> pres (from elsewhere) (include_row e load rec src ls t b).
Proof. intros. unfold include_row. ew; first [apply pres_else, q_emit|auto]. Qed.
Lemma e_generate : forall e load n src ft, pres (from elsewhere) (generate_terms e load n src (Some ft)).
Proof.
  intros e load n. induction n as [|n IH]; intros; cbn [generate_terms]; ew.
  generalize (d_root a) 1. induction (src_rows src) as [|row rows IHr]; intros ls line; cbn [rows_loop]; ew; [|apply IHr].
  unfold row_step, section_for. ew; first [apply e_construct|apply e_include; exact IH|apply pres_else, q_emit|apply e_args].
Qed.

Section Once.
  Variable e : env.
  Variable load : bool.

  Lemma args_once : forall line args t col s s', emit_args load None line t col args s = (s', Ok tt) -> spread (fun m k => m = line /\ col + 2 <= k) s s'.
  Proof.
    intros line. induction args as [|v args IH]; intros t col s s' H; cbn [emit_args] in H.
    - apply ret_ok in H. destruct H as [-> _]. eapply spread_weaken; [|apply spread_refl]. contradiction.
    - rb H as s1 x H1. apply IH in H. assert (F1 : spread (fun m k => m = line /\ k = col + 2) s s1).
      { unfold when in H1. destruct (nonempty (strip v)); [|apply ret_ok in H1; destruct H1 as [-> _]; eapply spread_weaken; [|apply spread_refl]; contradiction].
        rg H1. rg H1. rb H1 as s2 k H2. apply construct_made in H2. destruct H2 as (r & -> & -> & R1 & R2 & R3 & R4 & R5 & R6 & R7).
        assert (NS : ~ section_term r) by (intros S; specialize (R7 S); discriminate R7). specialize (R6 NS). destruct R6 as [R6 _].
        eapply spread_weaken; [|eapply (spread_trans (fun m k => m = line /\ k = col + 2)); [intros ? ? _ X; exact X| |apply spread_quiet; eapply q_emit; exact H1]]; [intros m k [X|[]]; exact X|].
        split.
        - eapply from_grows. apply (push_from (fun _ _ => True)). exact Logic.I.
        - intros i A B _. rewrite hlen_push in B. replace i with (hlen s) by lia. rewrite push_new. exists line, (col + 2). auto.
        - intros i j A B C. rewrite hlen_push in C. lia. }
      eapply spread_weaken; [|eapply spread_trans; [|exact F1|exact H]]; cbv beta; intros m k; lia.
  Qed.

  Lemma row_once : forall n src line row ls s s' i, row_step e load (generate_terms e load n) src None line row ls s = (s', Ok i) -> spread (fun m _ => m = line) s s'.
  Proof.
    intros n src line row ls s s' i H. unfold row_step in H. destruct (skip_row row) eqn:Sk.
    { apply ret_ok in H. destruct H as [-> _]. eapply spread_weaken; [|apply spread_refl]; contradiction. }
    rb H as s1 pn H1. apply lift_ok in H1. destruct H1 as [-> N]. destruct pn as [p q]. cbv zeta in H. rg H.
    rb H as s2 t H2. apply construct_made in H2. destruct H2 as (r & -> & -> & R1 & R2 & R3 & R4 & R5 & R6 & R7).
    assert (P : spread (fun m k => m = line /\ k = 1) s (push r s)).
    { split.
      - eapply from_grows. apply (push_from (fun _ _ => True)). exact Logic.I.
      - intros j A B (_ & _ & O). rewrite hlen_push in B. replace j with (hlen s) in * by lia. rewrite push_new in *. exists line, 1. split; [exact R2|]. split; [apply R6; exact O|auto].
      - intros j k A B C. rewrite hlen_push in C. lia. }
    rg H. rewrite push_new in H. rb H as s3 b1 H3. apply lift_ok in H3. destruct H3 as [-> _].
    rb H as s4 b2 H4. apply lift_ok in H4. destruct H4 as [-> _]. destruct (b1 || b2).
    { rb H as s5 x5 H5. apply ret_ok in H. destruct H as [-> _]. eapply spread_weaken; [|eapply spread_trans; [|exact P|apply spread_none; eapply e_include; [|exact H5]]].
      - cbv beta. intros m k. tauto.
      - cbv beta. tauto.
      - intros. apply e_generate. }
    rb H as s5 b3 H5. apply lift_ok in H5. destruct H5 as [-> _]. rb H as s6 t H6.
    assert (T : s6 = push r s).
    { destruct b3; [apply section_for_made in H6; apply H6|apply ret_ok in H6; apply H6]. }
    subst s6. rb H as s7 x7 H7. destruct x7. apply q_emit in H7. rg H.
    rb H as s8 b4 H8. apply lift_ok in H8. destruct H8 as [-> _]. rb H as s9 b5 H9. apply lift_ok in H9. destruct H9 as [-> _].
    rb H as s10 x10 H10. destruct x10. apply ret_ok in H. destruct H as [-> _].
    assert (A : spread (fun m k => m = line /\ 2 <= k) s7 s10).
    { destruct (b4 || b5); [apply ret_ok in H10; destruct H10 as [-> _]; eapply spread_weaken; [|apply spread_refl]; contradiction|]. apply args_once in H10. exact H10. }
    eapply spread_weaken; [|eapply spread_trans; [|eapply spread_trans; [|exact P|apply spread_quiet; exact H7]|exact A]]; cbv beta; intros m k; lia.
  Qed.

  Lemma rows_once : forall n src rows line ls s s', rows_loop e load (generate_terms e load n) src None line rows ls s = (s', Ok tt) -> spread (fun m _ => line <= m) s s'.
  Proof.
    intros n src. induction rows as [|row rows IH]; intros line ls s s' H; cbn [rows_loop] in H.
    - apply ret_ok in H. destruct H as [-> _]. eapply spread_weaken; [|apply spread_refl]; contradiction.
    - rb H as s1 ls1 H1. apply row_once in H1. apply IH in H. eapply spread_weaken; [|eapply spread_trans; [|exact H1|exact H]]; cbv beta; intros m k; lia.
  Qed.
End Once.

Lemma load_once : forall e fuel src s s', load_source e fuel src s = (s', Ok tt) -> spread (fun m _ => 1 <= m) s s'.
Proof.
  intros e fuel src s s' H. unfold load_source in H. rb H as s1 x1 H1. injection H1 as <- _. rg H. rb H as s2 x2 H2. apply q_load1 in H2.
  rb H as s3 x3 H3. destruct x3. destruct fuel; [discriminate H3|]. cbn [generate_terms] in H3. rg H3. apply rows_once in H3.
  assert (Q : pres quiet finish_load) by (unfold finish_load; qw). apply Q in H. pose proof (quiet_pmod (fun _ => fresh_parser s) s) as Q0.
  eapply spread_weaken; [|eapply spread_trans; [|eapply spread_trans; [|eapply spread_trans; [|apply spread_quiet; exact Q0|apply spread_quiet; exact H2]|exact H3]|apply spread_quiet; exact H]];
    cbv beta; intros m k; tauto.
Qed.

(** ** The theorems *)

From Verif Require Import SpecDoc.

Lemma c73_text : forall e fuel src s s', sections_ok s -> load_source e fuel src s = (s', Ok tt) ->
  forall i w, hlen s <= i < hlen s' -> t_val (tget i s') = VStr w -> written e (src_rows src) s' (tget i s').
Proof.
  intros e fuel src s s' K H i w [A B] V. apply load_from in H; [|exact K]. destruct H as (_ & _ & H & _). destruct (H i A B) as [[_ P]|P]; [destruct (P w V)|exact P].
Qed.
Lemma c73_row : forall e fuel src s s', sections_ok s -> load_source e fuel src s = (s', Ok tt) ->
  forall i, hlen s <= i < hlen s' -> t_row (tget i s') <> None -> written e (src_rows src) s' (tget i s').
Proof.
  intros e fuel src s s' K H i [A B] V. apply load_from in H; [|exact K]. destruct H as (_ & _ & H & _). destruct (H i A B) as [[P _]|P]; [contradiction|exact P].
Qed.
Lemma c73_old : forall e fuel src s s', sections_ok s -> load_source e fuel src s = (s', Ok tt) ->
  forall i w, i < hlen s -> t_val (tget i s') = VStr w -> t_val (tget i s) = VStr w.
Proof. intros e fuel src s s' K H i w A. apply load_from in H; [|exact K]. destruct H as (_ & H & _). apply (H i A). Qed.
Lemma c73_once : forall e fuel src s s', load_source e fuel src s = (s', Ok tt) ->
  forall i j, hlen s <= i -> hlen s <= j -> of_file s' i -> of_file s' j -> t_row (tget i s') = t_row (tget j s') -> t_col (tget i s') = t_col (tget j s') -> i = j.
Proof.
  intros e fuel src s s' H i j A B (I1 & I2 & I3 & I4) (J1 & J2 & J3 & J4) E F. apply load_once in H. destruct H as [_ _ H].
  destruct (Nat.lt_trichotomy i j) as [L|[L|L]]; [|exact L|]; exfalso.
  - apply (H i j); try assumption; repeat split; auto.
  - apply (H j i); try assumption; repeat split; auto.
Qed.
Lemma new_doc_sections : forall reg dt ds sup, sections_ok (new_doc reg dt ds sup).
Proof. intros reg dt ds sup k i H. cbn in H. destruct H as [H|[]]. injection H as <- <-. reflexivity. Qed.
Lemma c73_document : forall g rows s, loads g rows s -> forall i w, 0 < i < hlen s -> t_val (tget i s) = VStr w -> written (in_env g) rows s (tget i s).
Proof.
  intros g rows s H i w A V. unfold loads, load_into in H. eapply (c73_text _ _ _ _ _ (new_doc_sections _ _ _ _) H); [|exact V]. split; [exact (proj1 A)|apply A].
Qed.
