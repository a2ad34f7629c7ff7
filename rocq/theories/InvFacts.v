(** * InvFacts: primitive steps that keep a document in good order *)

From Coq Require Import Permutation.
From Verif Require Import ListFacts StrFacts HeapFacts SpecNames NameFacts Ops RunFacts EmitFacts RowFacts FrameFacts SpecInv.

Section WithQuirks.
Context {QK : Quirks}.

(** what [doc_ok] reads of a record, apart from its children *)
Definition core (r : trec) :=
  (t_cls r, t_parent r, lower (t_pt r), t_section r,
   if is_section_cls (t_cls r) then Some (t_val r, t_doc r, t_terms r, columns_of r) else None).

Lemma core_inv : forall r r', core r = core r' ->
  t_cls r = t_cls r' /\ t_parent r = t_parent r' /\ lower (t_pt r) = lower (t_pt r') /\ t_section r = t_section r'
  /\ (is_section_cls (t_cls r) = true -> t_val r = t_val r' /\ t_doc r = t_doc r' /\ t_terms r = t_terms r' /\ columns_of r = columns_of r').
Proof.
  intros r r' H. unfold core in H. injection H as H1 H2 H3 H4 H5. rewrite H1 in H5.
  repeat (split; [assumption|]). intros S. rewrite H1 in S. rewrite S in H5. injection H5 as -> -> -> ->. auto.
Qed.

Lemma sec_plain : forall s i, is_sec s i -> is_plain s i -> False.
Proof. intros s i [_ A] [_ B]. congruence. Qed.

Section Core.
  Variables s s' : st.
  Hypothesis HL : hlen s' = hlen s.
  Hypothesis HC : forall j, core (tget j s') = core (tget j s).

  Lemma core_sec : forall i, is_sec s' i <-> is_sec s i.
  Proof. intros i. unfold is_sec. rewrite HL. destruct (core_inv _ _ (HC i)) as (E & _). rewrite E. reflexivity. Qed.
  Lemma core_plain : forall i, is_plain s' i <-> is_plain s i.
  Proof. intros i. unfold is_plain. rewrite HL. destruct (core_inv _ _ (HC i)) as (E & _). rewrite E. reflexivity. Qed.
  Lemma core_secval : forall i, is_sec s i -> t_val (tget i s') = t_val (tget i s) /\ t_doc (tget i s') = t_doc (tget i s)
    /\ t_terms (tget i s') = t_terms (tget i s) /\ columns_of (tget i s') = columns_of (tget i s).
  Proof. intros i [_ H]. destruct (core_inv _ _ (HC i)) as (E & _ & _ & _ & F). apply F. rewrite E. exact H. Qed.

  Lemma ok_core : s_doc s' = s_doc s -> 
    (forall i c, In c (t_children (tget i s')) -> i < c /\ is_plain s' c /\ t_parent (tget c s') = Some i) ->
    (forall i, NoDup (t_children (tget i s'))) -> doc_ok s -> doc_ok s'.
  Proof.
    intros HD C1 C2 [ok_keys0 ok_section0 ok_list0 ok_lists0 ok_listed0 ok_in0 ok_top0 ok_plain0 ok_named0 ok_child0 ok_children0 ok_declared0]. unfold secs, listed in *.
    assert (SEC : forall k i, In (k, i) (d_sections (s_doc s)) -> is_sec s i) by (intros k i I; apply (ok_section0 _ _ I)).
    assert (TT : forall k i, In (k, i) (d_sections (s_doc s)) -> t_terms (tget i s') = t_terms (tget i s))
      by (intros k i I; apply core_secval; eapply SEC; exact I).
    assert (TS : forall i, t_section (tget i s') = t_section (tget i s)) by (intros i; apply (core_inv _ _ (HC i))).
    assert (TP : forall i, t_parent (tget i s') = t_parent (tget i s)) by (intros i; apply (core_inv _ _ (HC i))).
    assert (TL : forall i, lower (t_pt (tget i s')) = lower (t_pt (tget i s))) by (intros i; apply (core_inv _ _ (HC i))).
    constructor; unfold secs, listed; try rewrite HD.
    - assumption.
    - intros k i I. pose proof (ok_section0 _ _ I) as (A & B & C & D). destruct (core_secval i A) as (-> & -> & _ & ->).
      split; [apply core_sec; exact A|]. auto.
    - assumption.
    - intros k i I. rewrite (TT _ _ I). eauto.
    - intros t I. destruct (ok_listed0 _ I) as (A & B & H). split; [apply core_plain; exact A|].
      rewrite TL, TS. split; [exact B|]. destruct H as [(k & i & C & D & E)|H]; [left|right; exact H]. exists k, i. rewrite (TT _ _ C). auto.
    - intros k i t I J. rewrite (TT _ _ I) in J. rewrite TS. eauto.
    - intros t I. rewrite TP. specialize (ok_top0 _ I). destruct (t_parent (tget t s)); [apply core_sec; assumption|exact Logic.I].
    - intros t I. apply core_plain in I. destruct (ok_plain0 _ I) as (i & A & B). exists i. rewrite TS. split; [exact A|apply core_sec; exact B].
    - intros i I. apply core_sec in I. destruct (core_secval i I) as (-> & _). auto.
    - assumption.
    - assumption.
    - assumption.
  Qed.
End Core.

(** nothing that matters *)
Lemma ok_same : forall s s', hlen s' = hlen s -> s_doc s' = s_doc s ->
  (forall j, core (tget j s') = core (tget j s) /\ t_children (tget j s') = t_children (tget j s)) -> doc_ok s -> doc_ok s'.
Proof.
  intros s s' HL HD H K. assert (HC : forall j, core (tget j s') = core (tget j s)) by (intros j; apply H).
  apply (ok_core s s' HL HC HD); [| |exact K].
  - intros i c I. rewrite (proj2 (H i)) in I. destruct (ok_child s K i c I) as (A & B & C). split; [exact A|].
    split; [apply (core_plain s s' HL HC); exact B|]. rewrite (proj1 (proj2 (core_inv _ _ (HC c)))). exact C.
  - intros i. rewrite (proj2 (H i)). apply (ok_children s K).
Qed.

Lemma tget_hmod_any : forall i j f s, tget i (hmod j f s) = if (i =? j) && (j <? hlen s) then f (tget j s) else tget i s.
Proof.
  intros i j f s. destruct (Nat.ltb_spec j (hlen s)) as [L|L].
  - rewrite tget_hmod by exact L. rewrite andb_true_r. destruct (Nat.eqb_spec i j); reflexivity.
  - rewrite hmod_out by exact L. rewrite andb_false_r. reflexivity.
Qed.

Lemma ok_hmod : forall i f s, (forall r, t_cls (f r) = t_cls r /\ t_parent (f r) = t_parent r /\ t_pt (f r) = t_pt r /\ t_children (f r) = t_children r) ->
  t_section (f (tget i s)) = t_section (tget i s) ->
  (is_section_cls (t_cls (tget i s)) = true -> core (f (tget i s)) = core (tget i s)) ->
  doc_ok s -> doc_ok (hmod i f s).
Proof.
  intros i f s F S C K. apply (ok_same s); [apply hlen_hmod|apply doc_hmod| |exact K].
  intros j. rewrite tget_hmod_any. destruct ((j =? i) && (i <? hlen s)) eqn:E; [|auto].
  apply andb_true_iff in E. destruct E as [E _]. apply Nat.eqb_eq in E. subst j.
  destruct (F (tget i s)) as (F1 & F2 & F3 & F4). split; [|exact F4].
  destruct (is_section_cls (t_cls (tget i s))) eqn:G; [auto|]. unfold core. rewrite F1, F2, F3, S, G. reflexivity.
Qed.

(** ** Children *)

Lemma ok_add_child : forall s i c, doc_ok s -> i < c -> is_plain s c -> t_parent (tget c s) = Some i ->
  (forall j, ~ In c (t_children (tget j s))) ->
  doc_ok (hmod i (fun r => set_t_children (t_children r ++ [c]) r) s).
Proof.
  intros s i c K L P PA N. set (s' := hmod i _ s).
  assert (HC : forall j, core (tget j s') = core (tget j s)).
  { intros j. unfold s'. rewrite tget_hmod_any. destruct ((j =? i) && (i <? hlen s)) eqn:E; [|reflexivity].
    apply andb_true_iff in E. destruct E as [E _]. apply Nat.eqb_eq in E. subst j. reflexivity. }
  assert (HL : hlen s' = hlen s) by apply hlen_hmod.
  assert (HP : forall j, t_parent (tget j s') = t_parent (tget j s)) by (intros j; apply (core_inv _ _ (HC j))).
  apply (ok_core s s' HL HC); [apply doc_hmod| | |exact K].
  - intros j d I. unfold s' in I. rewrite tget_hmod_any in I. rewrite HP. rewrite (core_plain s s' HL HC).
    destruct ((j =? i) && (i <? hlen s)) eqn:E; [|apply (ok_child s K); exact I].
    apply andb_true_iff in E. destruct E as [E _]. apply Nat.eqb_eq in E. subst j.
    change (In d (t_children (tget i s) ++ [c])) in I. apply in_app_or in I. destruct I as [I|[<-|[]]]; [apply (ok_child s K); exact I|auto].
  - intros j. unfold s'. rewrite tget_hmod_any. destruct ((j =? i) && (i <? hlen s)) eqn:E; [|apply (ok_children s K)].
    change (NoDup (t_children (tget i s) ++ [c])). apply NoDup_app_intro; [apply (ok_children s K)|repeat constructor; intros []|].
    intros x A [<-|[]]. exact (N _ A).
Qed.

Lemma remove_first_in : forall x y l, In x (remove_first y l) -> In x l.
Proof.
  induction l as [|z l IH]; [auto|]. cbn [remove_first]. destruct (Nat.eqb y z); [intros H; right; exact H|].
  intros [->|H]; [left; reflexivity|right; apply IH; exact H].
Qed.
Lemma remove_first_nodup : forall y l, NoDup l -> NoDup (remove_first y l).
Proof.
  induction l as [|z l IH]; [auto|]. intros H. inversion H as [|? ? N D]; subst. cbn [remove_first].
  destruct (Nat.eqb y z); [exact D|]. constructor; [|auto]. intros I. apply N. eapply remove_first_in. exact I.
Qed.
Lemma remove_first_iff : forall x y l, NoDup l -> (In x (remove_first y l) <-> In x l /\ x <> y).
Proof.
  induction l as [|z l IH]; intros H; [cbn; tauto|]. inversion H as [|? ? N D]; subst. cbn [remove_first].
  destruct (Nat.eqb_spec y z) as [->|NE].
  - split; [intros I; split; [right; exact I|intros ->; contradiction]|]. intros [[->|I] ?]; [congruence|exact I].
  - cbn [In]. rewrite IH by exact D. intuition congruence.
Qed.
Lemma remove_first_none : forall y l, ~ In y l -> remove_first y l = l.
Proof.
  induction l as [|z l IH]; [auto|]. intros N. cbn [remove_first]. destruct (Nat.eqb_spec y z) as [->|NE]; [exfalso; apply N; left; reflexivity|].
  f_equal. apply IH. intros I. apply N. right. exact I.
Qed.

Lemma ok_del_child : forall s i c, doc_ok s -> doc_ok (hmod i (set_t_children (remove_first c (t_children (tget i s)))) s).
Proof.
  intros s i c K. set (s' := hmod i _ s).
  assert (HC : forall j, core (tget j s') = core (tget j s)).
  { intros j. unfold s'. rewrite tget_hmod_any. destruct ((j =? i) && (i <? hlen s)) eqn:E; [|reflexivity].
    apply andb_true_iff in E. destruct E as [E _]. apply Nat.eqb_eq in E. subst j. reflexivity. }
  assert (HL : hlen s' = hlen s) by apply hlen_hmod.
  assert (HP : forall j, t_parent (tget j s') = t_parent (tget j s)) by (intros j; apply (core_inv _ _ (HC j))).
  assert (SUB : forall j, t_children (tget j s') = t_children (tget j s) \/ t_children (tget j s') = remove_first c (t_children (tget j s))).
  { intros j. unfold s'. rewrite tget_hmod_any. destruct ((j =? i) && (i <? hlen s)) eqn:E; [|auto].
    apply andb_true_iff in E. destruct E as [E _]. apply Nat.eqb_eq in E. subst j. right. reflexivity. }
  apply (ok_core s s' HL HC); [apply doc_hmod| | |exact K].
  - intros j d I. rewrite HP. rewrite (core_plain s s' HL HC). apply (ok_child s K). destruct (SUB j) as [E|E]; rewrite E in I; [exact I|].
    eapply remove_first_in. exact I.
  - intros j. destruct (SUB j) as [E|E]; rewrite E; [|apply remove_first_nodup]; apply (ok_children s K).
Qed.

(** ** New objects *)

Lemma tget_out : forall i s, hlen s <= i -> tget i s = dummy_t.
Proof. intros i s H. apply hget_out. exact H. Qed.
Lemma tget_push_any : forall i r s, tget i (push r s) = if i =? hlen s then r else tget i s.
Proof.
  intros i r s. destruct (Nat.leb_spec i (hlen s)) as [L|L]; [apply tget_push; exact L|].
  replace (i =? hlen s) with false by (symmetry; apply Nat.eqb_neq; lia). rewrite !tget_out; [reflexivity|lia|rewrite hlen_push; lia].
Qed.

Lemma is_sec_push : forall r s i, is_sec s i -> is_sec (push r s) i.
Proof. intros r s i [L C]. split; [rewrite hlen_push; lia|]. rewrite push_old by exact L. exact C. Qed.
Lemma is_plain_push : forall r s i, is_plain s i -> is_plain (push r s) i.
Proof. intros r s i [L C]. split; [rewrite hlen_push; lia|]. rewrite push_old by exact L. exact C. Qed.
Lemma is_plain_lt : forall s i, is_plain s i -> i < hlen s.
Proof. intros s i [L _]. exact L. Qed.

Lemma ok_push : forall s r, doc_ok s -> t_children r = [] ->
  (if is_section_cls (t_cls r) then exists n, t_val r = VStr n else exists i, t_section r = Some i /\ is_sec s i) ->
  doc_ok (push r s).
Proof.
  intros s r K CH H.
  assert (OLD : forall i, i < hlen s -> tget i (push r s) = tget i s) by (intros; apply push_old; assumption).
  assert (SL : forall k i, In (k, i) (secs s) -> i < hlen s) by (intros k i I; apply (ok_section s K _ _ I)).
  assert (TL : forall t, In t (listed s) -> t < hlen s) by (intros t I; apply (ok_listed s K _ I)).
  constructor; unfold secs, listed; rewrite ?doc_push; fold (secs s) (listed s).
  - apply (ok_keys s K).
  - intros k i I. rewrite OLD by eauto. destruct (ok_section s K _ _ I) as (A & B). split; [apply is_sec_push; exact A|exact B].
  - apply (ok_list s K).
  - intros k i I. rewrite OLD by eauto. eapply ok_lists; eauto.
  - intros t I. rewrite OLD by eauto. destruct (ok_listed s K _ I) as (A & B & X).
    split; [apply is_plain_push; exact A|]. split; [exact B|]. destruct X as [(k & i & C & D & E)|X]; [left|right; exact X]. exists k, i. rewrite OLD by eauto. auto.
  - intros k i t I J. rewrite OLD in J by eauto. destruct (ok_in s K _ _ _ I J) as [A B]. rewrite OLD by eauto. auto.
  - intros t I. rewrite OLD by eauto. pose proof (ok_top s K _ I) as T. destruct (t_parent (tget t s)); [apply is_sec_push; exact T|exact T].
  - intros t [L P]. rewrite hlen_push in L. destruct (Nat.eq_dec t (hlen s)) as [->|NE].
    + rewrite push_new in *. rewrite P in H. destruct H as (i & A & B). exists i. split; [exact A|apply is_sec_push; exact B].
    + rewrite OLD in * by lia. destruct (ok_plain s K t) as (i & A & B); [split; [lia|exact P]|]. exists i. split; [exact A|apply is_sec_push; exact B].
  - intros t [L P]. rewrite hlen_push in L. destruct (Nat.eq_dec t (hlen s)) as [->|NE].
    + rewrite push_new in *. rewrite P in H. exact H.
    + rewrite OLD in * by lia. apply (ok_named s K). split; [lia|exact P].
  - intros i c I. rewrite tget_push_any in I. destruct (Nat.eqb_spec i (hlen s)) as [->|NE]; [rewrite CH in I; destruct I|].
    destruct (ok_child s K _ _ I) as (A & B & C). split; [exact A|]. split; [apply is_plain_push; exact B|]. rewrite OLD by (apply is_plain_lt; exact B). exact C.
  - intros i. rewrite tget_push_any. destruct (Nat.eqb_spec i (hlen s)); [rewrite CH; constructor|apply (ok_children s K)].
  - apply (ok_declared s K).
Qed.

End WithQuirks.
