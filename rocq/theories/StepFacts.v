(** * StepFacts: every operation keeps a document in good order (C22) *)

From Coq Require Import Permutation.
From Verif Require Import ListFacts StrFacts HeapFacts SpecNames NameFacts SpecOrder OrderFacts Ops Parser ConstructFacts RunFacts EmitFacts RowFacts TotalFacts FrameFacts SpecInv InvFacts ChildFacts ListOps SpecEdit OpFacts SecFacts SpecFind FindFacts AddFacts EditFacts.

Section WithQuirks.
Context {QK : Quirks}.

(** ** Names without dots *)

Definition dl (s s' : st) : Prop := dotless s -> dotless s'.
Lemma dl_po : preorder dl.
Proof. split; unfold dl; auto. Qed.

Lemma dotless_get : forall s i, dotless s -> dot_free (t_rt (tget i s)).
Proof.
  intros s i D. destruct (Nat.lt_ge_cases i (hlen s)) as [L|L]; [apply (D i L)|]. rewrite tget_out by exact L. apply dot_free_iff. reflexivity.
Qed.
Lemma dl_hmod : forall i f s, (forall r, t_pt (f r) = t_pt r) -> (forall r, t_rt (f r) = t_rt r) -> dl s (hmod i f s).
Proof.
  intros i f s A B D j L. rewrite hlen_hmod in L. rewrite (field_hmod t_pt), (field_hmod t_rt) by assumption. apply D. exact L.
Qed.
Lemma dl_push : forall r s, dot_free (t_pt r) -> dot_free (t_rt r) -> dl s (push r s).
Proof.
  intros r s A B D j L. rewrite hlen_push in L. rewrite tget_push_any. destruct (Nat.eqb_spec j (hlen s)); [auto|]. apply D. lia.
Qed.

Lemma dl_construct : forall c term value args row col ftype i doc section, pres dl (construct c term value args row col ftype (Some i) doc section).
Proof.
  intros until section. intros s s' r H. apply construct_child in H. destruct H as [[-> _]|(p & n & _ & T & _ & _ & ->)]; [intros D; exact D|].
  intros D. apply term_names_ok in T. destruct T as (p0 & T & E). apply cell_names_tidy in T. destruct T as (_ & _ & D1 & D2 & _).
  apply dl_push; [| exact D2|exact D]. cbn. subst p. destruct (eqs p0 "root"); [apply (dotless_get s i D)|exact D1].
Qed.

Lemma dl_construct_none : forall c term value args row col ftype doc sec, pres dl (construct c term value args row col ftype None doc (Some sec)).
Proof.
  intros until sec. intros s s' r H. apply construct_in_section in H. destruct H as [[-> _]|(p & n & _ & T & _ & ->)]; [intros D; exact D|].
  intros D. apply cell_names_tidy in T. destruct T as (_ & _ & D1 & D2 & _). apply dl_push; [exact D1|exact D2|exact D].
Qed.
Lemma dl_modD : forall f, pres dl (modD f).
Proof. intros f. apply pres_modD. intros s D. exact D. Qed.

Ltac dla := repeat match goal with
  | |- pres dl (construct _ _ _ _ _ _ _ (Some _) _ _) => apply dl_construct
  | |- pres dl (construct _ _ _ _ _ _ _ None _ (Some _)) => apply dl_construct_none
  | |- pres dl (modD _) => apply dl_modD
  | |- pres dl (modT _ (fun q => match dget _ _ with _ => _ end)) => apply pres_modT; intro; apply dl_hmod; intro; repeat (match goal with |- context[match ?x with Some _ => _ | None => _ end] => destruct x end); reflexivity
  | |- pres dl (modT _ _) => apply pres_modT; intro; apply dl_hmod; intro; reflexivity
  | |- pres dl (let _ := _ in _) => cbv zeta
  | |- pres dl (match ?x with (_, _) => _ end) => destruct x
  | |- preorder dl => exact dl_po
  | _ => pres1
  end.

Lemma dl_new_child0 : forall i term value, pres dl (new_child0 i term value).
Proof. intros. unfold new_child0. dla. Qed.
Lemma dl_new_children : forall i kw, pres dl (new_children i kw).
Proof. intros. unfold new_children. apply pres_mapM; [exact dl_po|]. intros kv _. apply pres_bind; [exact dl_po|apply dl_new_child0|]. intros k. apply pres_ret. exact dl_po. Qed.
Lemma dl_new_child : forall i term value kw, pres dl (new_child i term value kw).
Proof. intros. unfold new_child. repeat (first [apply dl_new_children|progress dla]). Qed.
Lemma dl_check : forall i rt c, pres dl (goc_check i rt c).
Proof. intros. unfold goc_check. dla. Qed.
Lemma dl_get_or_new_child0 : forall i term value, pres dl (get_or_new_child0 i term value).
Proof. intros. unfold get_or_new_child0. repeat (first [apply dl_check|progress dla]). Qed.
Lemma dl_get_or_new_child : forall i term value kw, pres dl (get_or_new_child i term value kw).
Proof. intros. unfold get_or_new_child. repeat (first [apply dl_check|apply dl_new_children|apply dl_get_or_new_child0|progress dla]). Qed.
Lemma dl_set_child_item : forall i item value, pres dl (set_child_item i item value).
Proof. intros. unfold set_child_item. repeat (first [apply dl_get_or_new_child0|progress dla]). Qed.

Lemma dl_ownership : forall fuel t, pres dl (set_ownership fuel t).
Proof. intros. apply pres_ownership; [exact dl_po|]. intros. apply dl_hmod; reflexivity. Qed.
Lemma dl_set_section_plain : forall t x, pres dl (set_section_plain t x).
Proof. intros. unfold set_section_plain. repeat (first [apply dl_set_child_item|progress dla]). Qed.
Lemma dl_add_section : forall i, pres dl (add_section i).
Proof. intros. unfold add_section. dla. Qed.
Lemma dl_add_term_meta : forall t, pres dl (add_term_meta t).
Proof. intros. unfold add_term_meta. dla. Qed.
Lemma dl_add_term_list : forall t, pres dl (add_term_list t).
Proof. intros. unfold add_term_list. repeat (first [apply dl_add_section|progress dla]). Qed.
Lemma dl_section_add_term : forall x t, pres dl (section_add_term x t).
Proof. intros. unfold section_add_term, doc_add_term_nosec. repeat (first [apply dl_ownership|apply dl_add_term_list|apply dl_add_term_meta|progress dla]). Qed.
Lemma dl_doc_add_term : forall t, pres dl (doc_add_term t).
Proof. intros. unfold doc_add_term. repeat (first [apply dl_add_term_list|apply dl_add_section|apply dl_set_section_plain|apply dl_section_add_term|apply dl_add_term_meta|progress dla]). Qed.
Lemma dl_new_term : forall sec term value kw, pres dl (Ops.new_term sec term value kw).
Proof. intros. unfold Ops.new_term. repeat (first [apply dl_new_children|apply dl_doc_add_term|progress dla]). Qed.

(** ** Good order including names *)

Lemma order_grows : forall s s', in_order s -> doc_ok s' -> grows s s' -> dotless s' -> in_order s'.
Proof.
  intros s s' [K N D] K' (L & DC & G) D'. constructor; [exact K'| |exact D']. constructor.
  - intros i Li. apply (D' i Li).
  - intros k i I. unfold secs in I. rewrite DC in I. pose proof (secs_lt s k i K I) as Li. destruct (nm_sections s N _ _ I) as (A & B & C).
    destruct (G i Li) as (G1 & G2 & G3 & G4 & G5 & _). rewrite G3, G4, G5. split; [exact A|]. split; [exact B|].
    destruct (t_section (tget i s)) as [j|]; [|exact C]. destruct C as [C1 C2]. split; [lia|]. destruct (G j C1) as (X & _). rewrite X. exact C2.
Qed.
Lemma order_tends : forall {A} i (m : MM A) s s' r, pres (tends i) m -> pres dl m -> in_order s -> is_plain s i -> m s = (s', r) -> in_order s'.
Proof.
  intros A i m s s' r T D O P H. destruct (T s s' r H (io_ok s O) P) as [K G]. apply (order_grows s); [exact O|exact K|exact G|]. apply (D s s' r H). apply (io_dots s O).
Qed.

Lemma order_value : forall s i v, in_order s -> is_plain s i -> in_order (hmod i (set_t_val v) s).
Proof.
  intros s i v O P. destruct (tends_mod s i (set_t_val v) (io_ok s O) (proj2 P)) as [K G]; [intros r; auto 10|].
  apply (order_grows s); [exact O|exact K|exact G|]. apply dl_hmod; [reflexivity|reflexivity|apply (io_dots s O)].
Qed.

Lemma order_new_term : forall s k sec term value kw s' r, in_order s -> In (k, sec) (secs s) -> ~ odd k -> top_name term ->
  Ops.new_term sec term value kw s = (s', r) -> in_order s'.
Proof.
  intros s k sec term value kw s' r O I OD (n0 & TN) H. pose proof (cell_names_root _ _ TN) as NM. pose proof O as [K N D]. pose proof (secs_lt s k sec K I) as L.
  assert (D' : dotless s') by (apply (dl_new_term sec term value kw s s' r H D)).
  destruct (new_term_any s k sec term value kw s' r K I OD NM H) as (K' & [[F E]|(t & Er & -> & c & n & R & Rs & C & CN & ER & F & ->)]).
  - apply (order_grows s); assumption.
  - constructor; [exact K'| |exact D']. apply (names_appended s k); try assumption.
    + pose proof (D' (hlen s)) as X. rewrite appended_new, appended_hlen in X by exact L. apply X. lia.
    + intros m Lm. pose proof (D' (S (hlen s) + m)) as X. rewrite appended_child, appended_hlen in X by assumption. apply X. lia.
Qed.

(** names after an operation that leaves all names alone *)
Lemma order_same : forall s s', in_order s -> doc_ok s' -> hlen s' = hlen s -> (forall k i, In (k, i) (secs s') -> In (k, i) (secs s)) ->
  (forall i, t_pt (tget i s') = t_pt (tget i s) /\ t_rt (tget i s') = t_rt (tget i s) /\ t_cls (tget i s') = t_cls (tget i s) /\ t_section (tget i s') = t_section (tget i s)) -> in_order s'.
Proof.
  intros s s' [K N D] K' L S F. constructor; [exact K'| |].
  - constructor.
    + intros i Li. rewrite L in Li. destruct (F i) as (-> & _). apply (nm_dots s N i Li).
    + intros k i I. apply S in I. destruct (nm_sections s N k i I) as (A & B & C). destruct (F i) as (-> & -> & _ & ->). split; [exact A|]. split; [exact B|].
      destruct (t_section (tget i s)) as [j|]; [|exact C]. destruct C as [C1 C2]. split; [lia|]. destruct (F j) as (_ & _ & -> & _). exact C2.
  - intros i Li. rewrite L in Li. destruct (F i) as (-> & -> & _). apply D. exact Li.
Qed.

Lemma order_removed : forall s t, in_order s -> removable s t -> in_order (removed t s).
Proof.
  intros s t O R. apply (order_same s); [exact O|apply ok_removed; [apply O|exact R]|apply removed_hlen| |].
  - intros k i I. unfold secs in I. rewrite removed_doc in I. exact I.
  - intros i. rewrite (removed_field t_pt), (removed_field t_rt), (removed_field t_cls), (removed_field t_section) by reflexivity. auto.
Qed.

Lemma order_opened : forall s n cols, in_order s -> doc_ok (opened (section_rec n cols) n s) -> in_order (opened (section_rec n cols) n s).
Proof.
  intros s n cols [K N D] K'. set (R := section_rec n cols) in *.
  assert (FR : dot_free "root") by (apply dot_free_iff; reflexivity). assert (FS : dot_free "section") by (apply dot_free_iff; reflexivity).
  assert (D' : dotless (opened R n s)). { apply (dl_push R s FR FS D). }
  constructor; [exact K'| |exact D']. constructor; [intros i Li; apply (D' i Li)|]. intros k i I. unfold secs, opened in I. rewrite doc_dmod in I. cbn in I.
  apply in_app_or in I. destruct I as [I|[I|[]]].
  - pose proof (secs_lt s k i K I) as Li. destruct (nm_sections s N k i I) as (A & B & C). 
    assert (E : tget i (opened R n s) = tget i s). { change (tget i (opened R n s)) with (tget i (push R s)). apply push_old. exact Li. }
    rewrite E. split; [exact A|]. split; [exact B|]. destruct (t_section (tget i s)) as [j|]; [|exact C]. apply (is_sec_push R s j C).
  - injection I as <- <-. change (tget (hlen s) (opened R n s)) with (tget (hlen s) (push R s)). rewrite push_new. cbn. auto.
Qed.

Lemma order_get_or_new_term : forall s k sec term value kw s' r, in_order s -> In (k, sec) (secs s) -> ~ odd k -> top_name term -> tidy_pattern term ->
  (forall ds, dget (lower term) (d_derived (s_doc s)) = Some ds -> Forall (fun d => top_name d /\ tidy_pattern d) ds) ->
  get_or_new_term sec term value kw s = (s', r) -> in_order s'.
Proof.
  intros s k sec term value kw s' r O I OD TN TP DE H. pose proof O as [K N D]. unfold get_or_new_term in H.
  assert (TOP : forall d, top_name d -> tidy_pattern d -> top_pattern d) by (intros d (n & CN) T; apply (cell_denotes d n CN T)).
  ra H as s1 o H1. { unfold PyBase.reads in H1. destruct (section_get_term _ _ _ _); injection H1 as <- _; exact O. }
  assert (G : s1 = s /\ section_get_term s sec term value = Ok o) by (unfold PyBase.reads in H1; destruct (section_get_term s sec term value); [injection H1 as <- <-; auto|discriminate H1]).
  destruct G as [-> G]. destruct o as [t|]; [|eapply order_new_term; eassumption].
  assert (P : is_plain s t).
  { unfold section_get_term, doc_find_first in G. destruct (doc_find s term value _) as [l|] eqn:DF; [|discriminate G]. cbn [rbind] in G. injection G as G.
    assert (IT : In t l) by (destruct l; [discriminate G|injection G as ->; left; reflexivity]).
    assert (LI : forall d w sa r0, top_pattern d -> find1 s d w sa = Ok r0 -> incl r0 (listed s)).
    { intros d w sa r0 T F x X. apply (find1_top s d w sa r0 K N T) in F. apply (picked_in _ _ _ x) in F. destruct F as [F _]. apply F. exact X. }
    apply (ok_listed s K). unfold doc_find in DF. destruct (dget (lower term) _) as [ds|]; [|eapply LI; [apply TOP; eassumption|exact DF|exact IT]].
    specialize (DE ds eq_refl). unfold find_list in DF. destruct (rmap _ _) as [ls|] eqn:E; [|discriminate DF]. cbn [rbind] in DF. injection DF as <-.
    apply in_concat in IT. destruct IT as (m & M & IT).
    assert (FT : Forall top_pattern (ds ++ [term])). { apply Forall_app. split; [|constructor; [apply TOP; assumption|constructor]]. eapply Forall_impl; [|exact DE]. intros d [A B]. apply TOP; assumption. }
    clear DE G H H1. revert ls E M. induction FT as [|e es Te _ IH]; intros ls E M; cbn [rmap] in E; [injection E as <-; destruct M|].
    destruct (find1 s e value _) as [r1|] eqn:E1; [|discriminate]. cbn [rbind] in E. destruct (rmap _ es) as [rs|]; [|discriminate]. cbn [rbind] in E. injection E as <-.
    destruct M as [->|M]; [eapply LI; [exact Te|exact E1|exact IT]|eapply IH; [reflexivity|exact M]]. }
  assert (V : forall s2 r2, (match value with VNone => ret tt | _ => modT t (set_t_val value) end) s = (s2, r2) -> in_order s2 /\ is_plain s2 t).
  { intros s2 r2 V. assert (W : s2 = s \/ s2 = hmod t (set_t_val value) s) by (destruct value; injection V as <- _; auto). destruct W as [->| ->]; [auto|].
    split; [apply order_value; assumption|apply is_plain_hmod; [reflexivity|exact P]]. }
  ra H as s2 u H2; [apply V in H2; tauto|]. apply V in H2. destruct H2 as [O2 P2].
  assert (W : forall s3 r3, mapM_ (fun kv => k <- get_or_new_child0 t (fst kv) (snd kv) ;; ret tt) kw s2 = (s3, r3) -> in_order s3).
  { intros s3 r3 W. eapply (order_tends t); [| |exact O2|exact P2|exact W].
    - apply pres_mapM; [apply tends_po|]. intros kv _. apply pres_bind; [apply tends_po|apply get_or_new_child0_tends|]. intros c. apply pres_ret. apply tends_po.
    - apply pres_mapM; [exact dl_po|]. intros kv _. apply pres_bind; [exact dl_po|apply dl_get_or_new_child0|]. intros c. apply pres_ret. exact dl_po. }
  ra H as s3 u3 H3; [apply W in H3; exact H3|]. apply W in H3. injection H as <- _. exact H3.
Qed.

Lemma order_edit : forall s s', in_order s -> edit s s' -> in_order s'.
Proof.
  intros s s' O E. pose proof O as [K N D].
  destruct E as [n ps r [T NE] U A H|n ps r [T NE] U A H|n r A H|o r H|k sec o r I H|k sec term v kw r I OD TN H|k sec term v kw r I OD TN TP DE H|t r RM PD H|i term v kw r P H|i term v kw r P H|i item v r P NV H|i v P H].
  - rewrite new_section_run in H by exact A. injection H as <- _. apply order_opened; [exact O|]. apply ok_new_section; assumption.
  - destruct (dget (lower n) (secs s)) as [i|] eqn:G.
    + destruct A as [A|A]; [|discriminate A]. rewrite (get_or_new_section_old s n ps i) in H; [|rewrite <- A at 1; exact G|exact A]. injection H as <- _. exact O.
    + rewrite get_or_new_section_new in H; [|exact G|apply (key_dget s n K G)]. injection H as <- _. apply order_opened; [exact O|]. apply ok_old_section; assumption.
  - destruct (dget (lower n) (secs s)) as [i|] eqn:G.
    + destruct A as [A|A]; [|discriminate A]. rewrite A in G. apply (dget_some n i _ (ok_keys s K)) in G. rewrite (del_section_run s n i K G) in H. injection H as <- _.
      apply (order_same s); [exact O|apply ok_closed; assumption|reflexivity| |intros j; auto].
      intros k' j I. unfold secs, closed in I. rewrite doc_dmod in I. cbn in I. rewrite ddel_filter in I by (apply (ok_keys s K)). apply filter_In in I. apply I.
    + rewrite (del_section_absent s n K G) in H. injection H as <- _. exact O.
  - pose proof (sort_sections_keeps s o s' r K H) as K'. destruct (sort_sections_spec o s (ok_keys s K)) as (tab & E & (a & b & _ & P & _)). rewrite E in H. injection H as <- _.
    apply (order_same s); [exact O|exact K'|reflexivity| |intros j; auto]. intros k i X. apply (Permutation_in _ P). exact X.
  - pose proof (sort_by_term_keeps s k sec o s' r K I H) as K'. apply sort_by_term_any in H. destruct H as [[-> _]|(l & P & -> & _)]; [exact O|].
    apply (order_same s); [exact O|exact K'|apply hlen_hmod|intros k' i X; exact X|]. intros j. rewrite (field_hmod t_pt), (field_hmod t_rt), (field_hmod t_cls), (field_hmod t_section) by reflexivity. auto.
  - eapply order_new_term; eassumption.
  - eapply order_get_or_new_term; eassumption.
  - rewrite (remove_term_run s t K RM PD) in H. injection H as <- _. apply order_removed; assumption.
  - eapply (order_tends i); [apply new_child_tends|apply dl_new_child|exact O|exact P|exact H].
  - eapply (order_tends i); [apply get_or_new_child_tends|apply dl_get_or_new_child|exact O|exact P|exact H].
  - unfold term_setitem in H. rg H. destruct (_ || _).
    + injection H as <- _. apply order_value; assumption.
    + assert (X : set_child_item i item v s = (s', r)) by (destruct v; try contradiction; exact H).
      eapply (order_tends i); [apply set_child_item_tends|apply dl_set_child_item|exact O|exact P|exact X].
  - injection H as <-. apply order_value; assumption.
Qed.

Lemma order_init : forall reg, in_order (init_st reg).
Proof.
  intros reg. assert (T : forall i, tget i (init_st reg) = if i =? 0 then root_rec else dummy_t) by (intros [|[|i]]; reflexivity).
  assert (D : dotless (init_st reg)). { intros i L. assert (i = 0) by (cbn in L; lia). subst i. rewrite T. split; apply dot_free_iff; reflexivity. }
  constructor; [apply ok_init| |exact D]. constructor; [intros i L; apply (D i L)|]. intros k i [E|[]]. injection E as <- <-. rewrite T. cbn. auto.
Qed.

Lemma order_edits : forall s s', edits s s' -> in_order s -> in_order s'.
Proof. intros s s' E. induction E as [|a b c _ IH E]; intros O; [exact O|]. eapply order_edit; [apply IH; exact O|exact E]. Qed.

(** ** The lists agree *)
Lemma ok_agree : forall s, doc_ok s -> lists_agree s.
Proof.
  intros s K. split; [apply (ok_list s K)|]. split; [intros k i I; apply (ok_lists s K k i I)|]. split.
  - intros k i t I J. apply (ok_in s K _ _ _ I J).
  - intros t L NL. destruct (ok_listed s K t L) as (_ & _ & [(k & i & I & S & J)|(X & _)]); [|contradiction]. exists k, i. split; [exact I|]. split; [exact J|].
    intros k' i' I' J'. destruct (ok_in s K _ _ _ I' J') as [_ S']. assert (i' = i) by congruence. subst i'. split; [|reflexivity]. eapply secs_inj; eassumption.
Qed.

End WithQuirks.
