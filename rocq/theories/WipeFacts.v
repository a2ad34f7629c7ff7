(** * WipeFacts: clean, and remove_term and remove_child (C75) *)

From Verif Require Import ListFacts StrFacts HeapFacts SpecNames NameFacts SpecOrder OrderFacts Ops ConstructFacts RunFacts EmitFacts RowFacts TotalFacts FrameFacts SpecInv InvFacts ChildFacts ListOps SpecFind SpecEdit OpFacts SecFacts FindFacts AddFacts EditFacts SpecWipe.

Section WithQuirks.
Context {QK : Quirks}.

Lemma except_cons : forall t ts l, except (t :: ts) l = except ts (without t l).
Proof.
  intros t ts l. unfold except, without. induction l as [|x l IH]; [reflexivity|]. assert (C : existsb (Nat.eqb x) (t :: ts) = orb (x =? t) (existsb (Nat.eqb x) ts)) by reflexivity.
  cbn [filter]. rewrite C. destruct (Nat.eqb x t) eqn:E; cbn [negb orb]; [exact IH|]. cbn [filter]. destruct (existsb (Nat.eqb x) ts); cbn [negb]; [exact IH|]. rewrite IH. reflexivity.
Qed.
Lemma except_nil : forall l, except [] l = l.
Proof. intros l. unfold except. cbn. induction l as [|x l IH]; [reflexivity|]. cbn. rewrite IH. reflexivity. Qed.
Lemma except_all : forall l, except l l = [].
Proof.
  intros l. unfold except. assert (G : forall m, incl m l -> filter (fun x => negb (existsb (Nat.eqb x) l)) m = []).
  { induction m as [|x m IH]; intros I; [reflexivity|]. cbn. assert (E : existsb (Nat.eqb x) l = true).
    { apply existsb_exists. exists x. split; [apply I; left; reflexivity|apply Nat.eqb_refl]. }
    rewrite E. apply IH. intros y Y. apply I. right. exact Y. }
  apply G. intros x X. exact X.
Qed.

Lemma removed_removable : forall s t u, removable s u -> removable (removed t s) u.
Proof.
  intros s t u ((L & P) & TV & RT). split; [|split].
  - split; [rewrite removed_hlen; exact L|]. rewrite (removed_field t_cls) by reflexivity. exact P.
  - rewrite (removed_field t_tvn) by reflexivity. exact TV.
  - rewrite (removed_field t_pt), (removed_field t_section) by reflexivity. intros X. destruct (RT X) as (k & i & I & E). exists k, i.
    split; [|exact E]. unfold secs. rewrite removed_doc. exact I.
Qed.
Lemma removed_attached : forall s t u, parent_attached s u -> parent_attached (removed t s) u.
Proof. intros s t u H p E. rewrite (removed_field t_parent) in E by reflexivity. rewrite (removed_field t_doc) by reflexivity. exact (H p E). Qed.
Lemma removed_under : forall s t a b, doc_ok s -> is_plain s t -> under (removed t s) a b -> under s a b.
Proof.
  intros s t a b K P U. induction U as [c C|c d _ IH D]; rewrite removed_children in * by assumption.
  - apply under_child. apply filter_In in C. apply C.
  - apply filter_In in D. eapply under_deep; [exact IH|apply D].
Qed.
Lemma removed_present : forall s t x, doc_ok s -> is_plain s t -> present (removed t s) x -> present s x.
Proof.
  intros s t x K P [(k & I)|(u & L & U)].
  - left. exists k. unfold secs in I. rewrite removed_doc in I. exact I.
  - right. exists u. unfold listed in L. rewrite removed_doc in L. cbn in L. split; [apply remove_first_in in L; exact L|].
    destruct U as [E|U]; [left; exact E|right; eapply removed_under; eassumption].
Qed.
(** what is below [u] and no longer is, is below the term taken out *)
Lemma under_removed : forall s t u x, doc_ok s -> is_plain s t -> under s u x -> under (removed t s) u x \/ x = t \/ under s t x.
Proof.
  intros s t u x K P U. induction U as [c C|c d U IH D].
  - destruct (Nat.eqb_spec c t) as [E|NE]; [auto|]. left. apply under_child. rewrite removed_children by assumption. apply filter_In. split; [exact C|].
    apply Nat.eqb_neq in NE. rewrite NE. reflexivity.
  - destruct (Nat.eqb_spec d t) as [E|NE]; [auto|]. destruct IH as [IH|[->|IH]].
    + left. eapply under_deep; [exact IH|]. rewrite removed_children by assumption. apply filter_In. split; [exact D|]. apply Nat.eqb_neq in NE. rewrite NE. reflexivity.
    + right. right. apply under_child. exact D.
    + right. right. eapply under_deep; eassumption.
Qed.

Lemma removed_prs : forall t s, s_prs (removed t s) = s_prs s /\ s_reg (removed t s) = s_reg s.
Proof. intros t s. unfold removed, orphaned, unlisted. destruct (home t s); destruct (t_parent _); split; reflexivity. Qed.

Lemma wipe : forall ts s, doc_ok s -> Forall (removable s) ts -> Forall (parent_attached s) ts ->
  exists s', mapM_ doc_remove_term ts s = (s', Ok tt) /\ doc_ok s' /\ edits s s' /\ taken_out ts s s'.
Proof.
  induction ts as [|t ts IH]; intros s K RM PA.
  - exists s. split; [reflexivity|]. split; [exact K|]. split; [constructor|]. split.
    + rewrite except_nil. unfold listed. destruct (s_doc s); reflexivity.
    + split; reflexivity.
    + reflexivity.
    + intros k i _. rewrite !except_nil. destruct (tget i s); reflexivity.
    + intros j _. rewrite except_nil. destruct (tget j s); reflexivity.
    + intros x. split; [|tauto]. intros H. split; [exact H|]. intros (u & [] & _).
    + intros p v sa r x _ _ (u & [] & _).
  - inversion RM as [|? ? R1 R2]; subst. inversion PA as [|? ? P1 P2]; subst. pose proof (proj1 R1) as Pt.
    pose proof (remove_term_run s t K R1 P1) as RUN. pose proof (ok_removed s t K R1) as K1.
    destruct (IH (removed t s) K1) as (s' & E & K' & ED & [D PR L S T Pr Fo]).
    { eapply Forall_impl; [|exact R2]. intros u U. apply removed_removable. exact U. }
    { eapply Forall_impl; [|exact P2]. intros u U. apply removed_attached. exact U. }
    exists s'. split; [cbn [mapM_]; eapply bind_fw; [exact RUN|exact E]|]. split; [exact K'|].
    assert (EDT : edit s (removed t s)) by (eapply ed_remove_term; [exact R1|exact P1|exact RUN]).
    split. { clear - ED EDT. induction ED as [a|a b c _ IH X]; [eapply edits_more; [constructor|exact EDT]|eapply edits_more; [apply IH; exact EDT|exact X]]. }
    assert (SE : secs (removed t s) = secs s) by (unfold secs; rewrite removed_doc; reflexivity).
    assert (W : forall x, present s x -> (within s (t :: ts) x <-> (x = t \/ under s t x) \/ within (removed t s) ts x)).
    { intros x _. split.
      - intros (u & [<-|I] & U); [left; exact U|]. destruct U as [->|U]; [right; exists u; auto|].
        destruct (under_removed s t u x K Pt U) as [X|X]; [right; exists u; auto|left; exact X].
      - intros [X|(u & I & [->|U])]; [exists t; split; [left; reflexivity|exact X]|exists u; split; [right; exact I|auto]|].
        exists u. split; [right; exact I|]. right. eapply removed_under; eassumption. }
    assert (Q : forall x, present s' x <-> present s x /\ ~ within s (t :: ts) x).
    { intros x. rewrite Pr. split.
      - intros [A B]. pose proof (removed_present s t x K Pt A) as A0. split; [exact A0|]. rewrite (W x A0). intros [C|C]; [|exact (B C)].
        exact (removed_absent s t x K R1 C A).
      - intros [A B]. rewrite (W x A) in B. split; [|tauto]. apply removed_other; tauto. }
    split.
    + rewrite D, except_cons. unfold listed at 1. rewrite removed_doc. cbn. rewrite without_first by apply (ok_list s K). destruct (s_doc s); reflexivity.
    + destruct (removed_prs t s) as [A B]. rewrite A, B in PR. exact PR.
    + rewrite L. apply removed_hlen.
    + intros k i I. assert (I1 : In (k, i) (secs (removed t s))) by (rewrite SE; exact I). rewrite (S k i I1), !except_cons.
      rewrite removed_children, (removed_terms s t k i) by assumption. destruct (removed_nothing_else s t i R1) as [X _]. rewrite X. destruct (tget i s); reflexivity.
    + intros j NJ. rewrite T by (rewrite SE; exact NJ). rewrite except_cons, removed_children by assumption.
      destruct (removed_nothing_else s t j R1) as [X Y]. rewrite X, (Y NJ). destruct (tget j s); reflexivity.
    + exact Q.
    + intros p v sa r x F I. apply (find_present _ _ _ _ _ _ K' F) in I. apply Q in I. apply I.
Qed.

Lemma clean_run : forall s k sec, doc_ok s -> In (k, sec) (secs s) -> ~ odd k ->
  (forall t, In t (t_terms (tget sec s)) -> lower (t_tvn (tget t s)) <> "section" /\ parent_attached s t) ->
  exists s', section_clean sec s = (s', Ok tt) /\ doc_ok s' /\ edits s s' /\ taken_out (t_terms (tget sec s)) s s' /\ t_terms (tget sec s') = [].
Proof.
  intros s k sec K I OD H. unfold section_clean. rewrite bind_getT. destruct (wipe (t_terms (tget sec s)) s K) as (s' & E & K' & ED & T).
  - apply Forall_forall. intros t J. destruct (H t J) as [TV _]. destruct (ok_in s K _ _ _ I J) as [A B]. destruct (ok_listed s K t A) as (C & _).
    split; [exact C|]. split; [exact TV|]. intros _. exists k, sec. auto.
  - apply Forall_forall. intros t J. apply (H t J).
  - exists s'. split; [exact E|]. split; [exact K'|]. split; [exact ED|]. split; [exact T|]. rewrite (to_section _ _ _ T k sec I). cbn. apply except_all.
Qed.

(** ** remove_term of a section *)
Lemma lists_run_near : forall s s1 sec t, doc_ok s -> removable s t -> s_doc s1 = s_doc s -> s_prs s1 = s_prs s -> s_reg s1 = s_reg s -> hlen s1 = hlen s ->
  t_section (tget t s) = Some sec ->
  (forall j, tget j s1 = if j =? sec then set_t_terms (remove_first t (t_terms (tget j s))) (tget j s) else tget j s) ->
  lower (t_pt (tget t s)) = "root" -> NoDup (t_terms (tget sec s)) ->
  remove_from_lists t s1 = (unlisted t s, Ok tt).
Proof.
  intros s s1 sec t K (P & TV & RT) ED EP ER EL SE G RO ND. destruct (RT RO) as (k & i & I & OD & SE'). rewrite SE in SE'. injection SE' as <-.
  destruct (ok_section s K _ _ I) as (Si & D & _ & n & V & En). pose proof (usual_section s k sec K I OD) as U.
  assert (NE : t <> sec) by (intros ->; exact (sec_plain _ _ Si P)).
  assert (Gt : tget t s1 = tget t s) by (rewrite G; apply Nat.eqb_neq in NE; rewrite NE; reflexivity).
  assert (Gs : tget sec s1 = set_t_terms (remove_first t (t_terms (tget sec s))) (tget sec s)) by (rewrite G, Nat.eqb_refl; reflexivity).
  unfold remove_from_lists. fw. fw. set (s2 := dmod (fun d => set_d_terms (remove_first t (d_terms d)) d) s1).
  change (tget t s2) with (tget t s1). rewrite Gt, SE. unfold pt_lc. rewrite RO, eqs_refl.
  assert (ADD : add_section sec s2 = (s2, Ok sec)).
  { unfold add_section. fw. rewrite hmod_id by (change (tget sec s2) with (tget sec s1); rewrite Gs; destruct (tget sec s); cbn in *; subst; reflexivity). fw.
    change (tget sec s2) with (tget sec s1). rewrite Gs. cbn [t_cls set_t_terms t_val]. rewrite (proj2 Si). fx. rewrite V. cbn [as_str]. fw. fw. rewrite En.
    change (d_sections (s_doc s2)) with (secs s1). unfold secs. rewrite ED. fold (secs s). rewrite (proj2 (dget_some k sec _ (ok_keys s K)) I). reflexivity. }
  eapply bind_fw; [exact ADD|].
  assert (SET : set_section_plain t sec s2 = (s2, Ok tt)).
  { unfold set_section_plain. fw. fw. change (tget t s2) with (tget t s1). rewrite Gt. apply eqs_false in TV. rewrite TV.
    unfold property_names. rewrite (proj2 P), SE. change (hget sec (s_heap s2)) with (tget sec s1). rewrite Gs.
    change (sec_property_names (set_t_terms _ (tget sec s))) with (sec_property_names (tget sec s)).
    rewrite (mem_str_false "section" (map lower (sec_property_names (tget sec s)))) by exact U. rewrite modT_run.
    rewrite hmod_id by (change (tget t s2) with (tget t s1); rewrite Gt; destruct (tget t s); cbn in *; subst; reflexivity). reflexivity. }
  eapply bind_fw; [exact SET|]. fw. change (tget t s2) with (tget t s1). rewrite Gt, SE.
  unfold section_remove_only. rewrite modT_run. f_equal. apply st_ext.
  - rewrite hlen_hmod, hlen_unlisted. exact EL.
  - intros j _. rewrite tget_hmod_any, tget_unlisted. unfold home. rewrite RO, eqs_refl, SE. change (tget j s2) with (tget j s1). rewrite G.
    change (hlen s2) with (hlen s1). rewrite EL. rewrite (proj2 (Nat.ltb_lt _ _) (proj1 Si)).
    change (tget sec s2) with (tget sec s1). rewrite Gs. destruct (Nat.eqb_spec j sec) as [->|N]; cbn [andb]; [|reflexivity]. cbn [t_terms set_t_terms].
    rewrite (remove_first_none _ (remove_first t _)); [reflexivity|]. intros J. apply remove_first_iff in J; [tauto|exact ND].
  - rewrite doc_hmod, doc_unlisted. unfold s2. rewrite doc_dmod, ED. reflexivity.
  - unfold unlisted. destruct (home t s); cbn; exact EP.
  - unfold unlisted. destruct (home t s); cbn; exact ER.
Qed.

Lemma section_remove_run : forall s k sec t, doc_ok s -> In (k, sec) (secs s) -> removable s t ->
  section_remove_term sec t s = doc_remove_term t s.
Proof.
  intros s k sec t K I RM. unfold section_remove_term, section_remove_only. rewrite bind_modT.
  pose proof (secs_lt s k sec K I) as LS.
  destruct (mem_id t (t_terms (tget sec s))) eqn:M.
  - apply mem_id_in in M. destruct (ok_in s K _ _ _ I M) as [A B]. destruct (ok_listed s K t A) as (P & RO & _).
    destruct (ok_section s K _ _ I) as (Si & _).
    assert (NE : t <> sec) by (intros ->; exact (sec_plain _ _ Si P)).
    set (s1 := hmod sec (fun q => set_t_terms (remove_first t (t_terms q)) q) s).
    assert (G : forall j, tget j s1 = if j =? sec then set_t_terms (remove_first t (t_terms (tget j s))) (tget j s) else tget j s).
    { intros j. unfold s1. rewrite tget_hmod_any. destruct (Nat.eqb_spec j sec) as [->|]; cbn [andb]; [|reflexivity]. apply Nat.ltb_lt in LS. rewrite LS. reflexivity. }
    assert (R1 : remove_from_lists t s1 = (unlisted t s, Ok tt)).
    { apply lists_run_near with (sec := sec); try assumption; try reflexivity; [apply hlen_hmod|apply (ok_lists s K _ _ I)]. }
    assert (FU : remove_fuel t s1 = remove_fuel t s).
    { unfold remove_fuel. rewrite (G t). apply Nat.eqb_neq in NE. rewrite NE. destruct (t_parent (tget t s)) as [p|]; [|reflexivity].
      rewrite G. destruct (p =? sec); reflexivity. }
    unfold doc_remove_term. fw. change (remove_term_fuel (remove_fuel t s1) t s1 = remove_term_fuel (remove_fuel t s) t s). rewrite FU.
    destruct (remove_fuel t s) as [|f] eqn:F; [unfold remove_fuel in F; destruct (t_parent (tget t s)); discriminate F|].
    rewrite remove_fuel_S. assert (Q : forall (k2 : unit -> MM unit), bind (remove_from_lists t) k2 s1 = bind (remove_from_lists t) k2 s).
    { intros k2. unfold bind. rewrite R1, (remove_lists_run s t K RM). reflexivity. }
    apply Q.
  - rewrite hmod_id; [reflexivity|]. rewrite remove_first_none; [destruct (tget sec s); reflexivity|]. intros J. apply mem_id_in in J. congruence.
Qed.

(** ** remove_child *)
Lemma remove_child_effect : forall s p c, doc_ok s -> is_plain s p -> t_doc (tget p s) = true -> In c (t_children (tget p s)) -> removable s c ->
  exists s', remove_child p c s = (s', Ok tt) /\ doc_ok s' /\ taken_out [c] s s' /\ listed s' = listed s
    /\ forall j, tget j s' = if j =? p then set_t_children (without c (t_children (tget p s))) (tget p s) else tget j s.
Proof.
  intros s p c K P DP I RM. exists (orphaned c s). rewrite (remove_child_run s p c K P DP I RM). split; [reflexivity|].
  destruct (ok_child s K _ _ I) as (L & Pc & PA).
  assert (N : ~ In c (listed s)). { intros X. pose proof (ok_top s K c X) as Y. rewrite PA in Y. exact (sec_plain _ _ Y P). }
  assert (E : removed c s = orphaned c s) by (unfold removed; rewrite (unlisted_again s c K N RM); reflexivity).
  assert (AT : parent_attached s c) by (intros q Q; rewrite PA in Q; injection Q as <-; exact DP).
  destruct (wipe [c] s K (Forall_cons _ RM (Forall_nil _)) (Forall_cons _ AT (Forall_nil _))) as (s' & R & K' & _ & T).
  assert (X : s' = orphaned c s).
  { cbn [mapM_] in R. unfold bind in R. rewrite (remove_term_run s c K RM AT), E in R. injection R as <-. reflexivity. }
  subst s'. split; [exact K'|]. split; [exact T|]. split; [unfold listed; rewrite doc_orphaned; reflexivity|].
  intros j. unfold orphaned. rewrite PA, tget_hmod_any. destruct (Nat.eqb_spec j p) as [->|]; cbn [andb]; [|reflexivity].
  destruct P as [LP _]. apply Nat.ltb_lt in LP. rewrite LP. rewrite without_first by apply (ok_children s K). reflexivity.
Qed.

End WithQuirks.
