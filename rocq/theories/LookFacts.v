(** * LookFacts: looking up the children of a term (C76) *)

From Verif Require Import ListFacts StrFacts HeapFacts SpecNames NameFacts SpecOrder OrderFacts Ops Attr ConstructFacts RunFacts EmitFacts RowFacts TotalFacts FrameFacts SpecInv InvFacts ChildFacts ListOps SpecFind SpecEdit OpFacts SecFacts FindFacts AddFacts EditFacts SpecAttr.

Lemma matches_spec : forall s n v c, child_matches (s_heap s) n v c = true <-> called s n c /\ value_is v (t_val (tget c s)).
Proof.
  intros s n v c. unfold child_matches. rewrite andb_true_iff. unfold called, rt_lc. fold (tget c s). rewrite eqs_true.
  assert (E : (match v with VFalse => true | _ => veq (t_val (tget c s)) v end) = true <-> value_is v (t_val (tget c s))).
  { rewrite <- value_is_spec. assert (S : veq (t_val (tget c s)) v = veq v (t_val (tget c s))).
    { destruct v, (t_val (tget c s)); cbn; try reflexivity; [apply eqs_sym|apply Z.eqb_sym|apply Nat.eqb_sym]. }
    rewrite S. reflexivity. }
  rewrite E. reflexivity.
Qed.

Lemma look_find : forall s i n item v, dot_free n -> child_item s i n item ->
  exists l, term_find (s_heap s) i item v = Ok l /\ picked (fun c => called s n c /\ value_is v (t_val (tget c s))) (t_children (tget i s)) l.
Proof.
  intros s i n item v D C. unfold term_find. fold (tget i s). rewrite (item_name s i n item D C). cbn [rbind].
  eexists. split; [reflexivity|]. exists (child_matches (s_heap s) n v). split; [|reflexivity]. intros x _. apply matches_spec.
Qed.

Lemma look_first : forall h i item v,
  term_find_first h i item v = match term_find h i item v with Ok l => Ok (hd_error l) | Err e => Err e end.
Proof.
  intros h i item v. unfold term_find_first, term_find. destruct (child_name _ _) as [n|e]; [|reflexivity]. cbn [rbind]. f_equal.
  induction (t_children (hget i h)) as [|x l IH]; [reflexivity|]. cbn. destruct (child_matches h n v x); [reflexivity|exact IH].
Qed.

Lemma look_other : forall h i a n v, dot_free a -> dot_free n -> lower a <> lower (t_rt (hget i h)) ->
  term_find h i (a ++ "." ++ n) v = Err EAssert.
Proof.
  intros h i a n v Da D NE. unfold term_find, child_name. rewrite has_dot_mid. apply dot_free_iff in Da, D.
  assert (X : split_on "." (a ++ "." ++ n) = [a; n]).
  { change (a ++ "." ++ n)%string with (a ++ String "." n)%string. rewrite split_on_app by exact Da. rewrite split_on_none by exact D. reflexivity. }
  rewrite X. unfold rt_lc. apply eqs_false in NE. rewrite NE. reflexivity.
Qed.

Lemma split_three : forall a b c, exists x y z l, split_on "." (a ++ "." ++ b ++ "." ++ c) = x :: y :: z :: l.
Proof.
  assert (NE : forall b, exists x l, split_on "." b = x :: l).
  { intros b. destruct (split_on "." b) as [|x l] eqn:E; [exact (False_ind _ (split_on_nonnil _ _ E))|eauto]. }
  assert (TWO : forall b c, exists x y l, split_on "." (b ++ String "." c) = x :: y :: l).
  { intros b c. induction b as [|k b IH]; cbn [append split_on].
    - destruct (NE c) as (x & l & E). rewrite E. eexists; eexists; eexists. reflexivity.
    - destruct IH as (x & y & l & E). destruct (Ascii.eqb "." k); rewrite E; do 3 eexists; reflexivity. }
  intros a b c. induction a as [|k a IH]; cbn [append split_on].
  - destruct (TWO b c) as (x & y & l & E). change (String "." "" ++ c)%string with (String "." c). rewrite E. do 4 eexists. reflexivity.
  - destruct IH as (x & y & z & l & E). destruct (Ascii.eqb "." k); cbn [append] in E; rewrite E; do 4 eexists; reflexivity.
Qed.

Lemma look_dots : forall h i a b c v, term_find h i (a ++ "." ++ b ++ "." ++ c) v = Err EValue.
Proof.
  intros h i a b c v. unfold term_find, child_name. rewrite has_dot_mid. destruct (split_three a b c) as (x & y & z & l & ->). reflexivity.
Qed.

(** t[item] *)
Lemma look_own : forall s i item, value_name s i item -> term_getitem (s_heap s) i item = Ok i.
Proof. intros s i item V. unfold term_getitem. fold (tget i s). apply eqs_true in V. rewrite V. reflexivity. Qed.
Lemma look_item : forall s i n item c, dot_free n -> child_item s i n item -> ~ value_name s i item -> first_child s i n c ->
  term_getitem (s_heap s) i item = Ok c.
Proof.
  intros s i n item c D C V F. unfold term_getitem. fold (tget i s). apply eqs_false in V. rewrite V, (find_first_one s i n item c D C F). reflexivity.
Qed.
Lemma look_none : forall s i n item, dot_free n -> child_item s i n item -> ~ value_name s i item -> no_child s i n ->
  term_getitem (s_heap s) i item = Err EKey.
Proof.
  intros s i n item D C V F. unfold term_getitem. fold (tget i s). apply eqs_false in V. rewrite V, (find_first_no s i n item D C F). reflexivity.
Qed.

Lemma look_getitem : forall s i n item, dot_free n -> child_item s i n item ->
  (value_name s i item -> term_getitem (s_heap s) i item = Ok i)
  /\ (~ value_name s i item -> forall c, first_child s i n c -> term_getitem (s_heap s) i item = Ok c)
  /\ (~ value_name s i item -> no_child s i n -> term_getitem (s_heap s) i item = Err EKey).
Proof.
  intros s i n item D C. split; [apply look_own|]. split; [intros V c F; eapply look_item; eassumption|intros V F; eapply look_none; eassumption].
Qed.

Lemma look_get : forall s i n item, dot_free n -> child_item s i n item ->
  (value_name s i item -> term_get (s_heap s) i item = Ok (Some i))
  /\ (~ value_name s i item -> forall c, first_child s i n c -> term_get (s_heap s) i item = Ok (Some c))
  /\ (~ value_name s i item -> no_child s i n -> term_get (s_heap s) i item = Ok None).
Proof.
  intros s i n item D C. destruct (look_getitem s i n item D C) as (A & B & E). unfold term_get.
  split; [intros V; rewrite (A V); reflexivity|]. split; [intros V c F; rewrite (B V c F); reflexivity|intros V F; rewrite (E V F); reflexivity].
Qed.

Lemma value_name_dec : forall s i item, value_name s i item \/ ~ value_name s i item.
Proof. intros s i item. unfold value_name. eqs_cases (lower item) (lower (t_tvn (tget i s))); auto. Qed.

Lemma look_get_value : forall s i n item x, dot_free n -> child_item s i n item ->
  (term_get_value (s_heap s) i item = Ok x <->
   (value_name s i item /\ x = t_val (tget i s)) \/ (~ value_name s i item /\ exists c, first_child s i n c /\ x = t_val (tget c s))
   \/ (~ value_name s i item /\ no_child s i n /\ x = VNone)).
Proof.
  intros s i n item x D C. destruct (look_getitem s i n item D C) as (A & B & E). unfold term_get_value.
  destruct (value_name_dec s i item) as [V|V].
  - rewrite (A V). fold (tget i s). split; [intros H; injection H as <-; auto|]. intros [(_ & ->)|[(N & _)|(N & _)]]; [reflexivity|contradiction|contradiction].
  - destruct (first_or_none s i n) as [(c & F)|F].
    + rewrite (B V c F). fold (tget c s). split; [intros H; injection H as <-; right; left; eauto|].
      intros [(N & _)|[(_ & c' & F' & ->)|(_ & N & _)]]; [contradiction| |].
      * assert (Q : c' = c) by (pose proof (B V c F) as X; rewrite (B V c' F') in X; congruence). subst c'. reflexivity.
      * pose proof (E V N) as X. rewrite (B V c F) in X. discriminate X.
    + rewrite (E V F). split; [intros H; injection H as <-; right; right; auto|].
      intros [(N & _)|[(_ & c' & F' & ->)|(_ & _ & ->)]]; [contradiction| |reflexivity]. pose proof (B V c' F') as X. rewrite (E V F) in X. discriminate X.
Qed.

Lemma look_first_value : forall s i n item, dot_free n -> child_item s i n item ->
  (forall c, first_child s i n c -> term_find_first_value (s_heap s) i item = Ok (t_val (tget c s)))
  /\ (no_child s i n -> term_find_first_value (s_heap s) i item = Ok VNone).
Proof.
  intros s i n item D C. unfold term_find_first_value. split.
  - intros c F. rewrite (find_first_one s i n item c D C F). reflexivity.
  - intros F. rewrite (find_first_no s i n item D C F). reflexivity.
Qed.

(** after t[item] = v the value is found again *)
Lemma look_set : forall s i item v s', term_setitem i item v s = (s', Ok tt) -> i < hlen s -> v <> VNone ->
  (lower item = "value" -> value_name s i item) ->
  exists x, term_get_value (s_heap s') i item = Ok x /\ (alike x v \/ (x = VNone /\ v = VStr "")).
Proof.
  intros s i item v s' H L NV VN. unfold term_setitem in H. rewrite bind_getT in H.
  destruct (eqs (lower item) (lower (t_tvn (tget i s))) || eqs (lower item) "value") eqn:O.
  - assert (V : value_name s i item) by (apply orb_true_iff in O; destruct O as [O|O]; apply eqs_true in O; [exact O|apply VN; exact O]).
    rewrite modT_run in H. injection H as <-. exists v. split; [|left; left; reflexivity].
    assert (E : tget i (hmod i (set_t_val v) s) = set_t_val v (tget i s)) by (rewrite tget_hmod, Nat.eqb_refl by exact L; reflexivity).
    unfold term_get_value. rewrite look_own.
    + fold (tget i (hmod i (set_t_val v) s)). rewrite E. reflexivity.
    + unfold value_name. rewrite E. exact V.
  - assert (H' : set_child_item i item v s = (s', Ok tt)) by (destruct v; try exact H; contradiction). clear H.
    unfold set_child_item, bind in H'. destruct (get_or_new_child0 i item v s) as [s1 [c|e]]; [|discriminate H'].
    unfold gets in H'. cbv beta iota zeta in H'. destruct (term_getitem (s_heap s1) i item) as [c'|e] eqn:G; [|discriminate H'].
    unfold lift in H'. cbv beta iota in H'. unfold assert_ in H'.
    destruct (veq (t_val (hget c' (s_heap s1))) v || (veq (t_val (hget c' (s_heap s1))) VNone && veq v (VStr ""))) eqn:Q; [|discriminate H'].
    injection H' as <-. exists (t_val (hget c' (s_heap s1))). split; [unfold term_get_value; rewrite G; reflexivity|].
    set (x := t_val (hget c' (s_heap s1))) in *. apply orb_true_iff in Q. unfold alike. destruct Q as [Q|Q].
    + left. destruct x, v; cbn in Q; try discriminate Q; try (left; reflexivity); try contradiction.
      * apply eqs_true in Q. subst. auto.
      * apply Z.eqb_eq in Q. subst. auto.
      * apply Z.eqb_eq in Q. subst. auto.
      * apply Z.eqb_eq in Q. subst. auto.
      * apply Nat.eqb_eq in Q. subst. auto.
    + right. apply andb_true_iff in Q. destruct Q as [Q1 Q2]. destruct x; try discriminate Q1. destruct v; try discriminate Q2. cbn in Q2. apply eqs_true in Q2. subst. auto.
Qed.
