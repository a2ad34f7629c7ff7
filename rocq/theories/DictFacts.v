(** * DictFacts: as_dict (C33, C34) and all_terms (C51) *)

From Verif Require Import ListFacts StrFacts HeapFacts Render SpecInv InvFacts SpecFind FindFacts SpecDict RunFacts.

Section WithQuirks.
Context {QK : Quirks}.

(** ** Groups of children *)

Fixpoint grp (s : st) (k : string) (cs : list nat) (xs : list jv) : list jv :=
  match cs, xs with
  | c :: cs', x :: xs' => if eqs (lower (t_rt (tget c s))) k then x :: grp s k cs' xs' else grp s k cs' xs'
  | _, _ => []
  end.
Lemma grp_named : forall s k cs xs, List.length cs = List.length xs -> named s k cs xs (grp s k cs xs).
Proof.
  intros s k. induction cs as [|c cs IH]; intros [|x xs] L; try discriminate L; [constructor|]. cbn [grp]. injection L as L. eqs_cases (lower (t_rt (tget c s))) k; [apply nm_take|apply nm_skip]; auto.
Qed.
Lemma grp_app : forall s k cs xs c x, List.length cs = List.length xs ->
  grp s k (cs ++ [c]) (xs ++ [x]) = grp s k cs xs ++ (if eqs (lower (t_rt (tget c s))) k then [x] else []).
Proof.
  intros s k. induction cs as [|a cs IH]; intros [|y xs] c x L; try discriminate L; cbn [app grp].
  - destruct (eqs _ _); reflexivity.
  - injection L as L. rewrite IH by exact L. destruct (eqs (lower (t_rt (tget a s))) k); reflexivity.
Qed.
Lemma grp_some : forall s k cs xs c, List.length cs = List.length xs -> In c cs -> lower (t_rt (tget c s)) = k -> grp s k cs xs <> [].
Proof.
  intros s k. induction cs as [|a cs IH]; intros [|y xs] c L I E; try discriminate L; [destruct I|]. injection L as L. cbn [grp].
  destruct I as [->|I]; [rewrite E, eqs_refl; discriminate|]. destruct (eqs _ k); [discriminate|]. eapply IH; eassumption.
Qed.
Lemma grp_in : forall s k cs xs y, In y (grp s k cs xs) -> In y xs.
Proof.
  intros s k. induction cs as [|a cs IH]; intros [|x xs] y I; [destruct I|destruct I|destruct I|]. cbn [grp] in I. destruct (eqs _ k); [destruct I as [->|I]; [left; reflexivity|]|]; right; eapply IH; exact I.
Qed.

Definition no_list (j : jv) : Prop := forall l, j <> JList l.

(** what [conv_kids] has built after the children [cs] *)
Definition built (s : st) (cs : list nat) (xs : list jv) (d : dict jv) : Prop :=
  List.length cs = List.length xs /\ NoDup (map fst d) /\ Forall no_list xs
  /\ forall k, match grp s k cs xs with
               | [] => dget k d = None
               | g => exists j c, dget k d = Some j /\ In c cs /\ lower (t_rt (tget c s)) = k /\ shaped (t_cpt (tget c s)) g j end.

Lemma special_dec : forall p, special p \/ ~ special p.
Proof.
  intros p. destruct (string_dec p "scalar") as [->|A]; [left; unfold special; auto|]. destruct (string_dec p "sequence") as [->|B]; [left; unfold special; auto|].
  destruct (string_dec p "sconcat") as [->|C]; [left; unfold special; auto|]. destruct (string_dec p "bconcat") as [->|D]; [left; unfold special; auto|]. right. intros [|[|[|]]]; contradiction.
Qed.

Lemma concat_snoc : forall sep ts t, ts <> [] -> String.concat sep (ts ++ [t]) = (String.concat sep ts ++ sep ++ t)%string.
Proof.
  intros sep. induction ts as [|a ts IH]; intros t N; [contradiction|]. destruct ts as [|b ts]; [reflexivity|].
  change ((a :: b :: ts) ++ [t]) with (a :: (b :: ts) ++ [t]). change (String.concat sep (a :: (b :: ts) ++ [t])) with (a ++ sep ++ String.concat sep ((b :: ts) ++ [t]))%string.
  rewrite IH by discriminate. change (String.concat sep (a :: b :: ts)) with (a ++ sep ++ String.concat sep (b :: ts))%string. rewrite <- !app_s_assoc. reflexivity.
Qed.

Lemma built_set : forall s cs xs d c x j, built s cs xs d -> no_list x -> shaped (t_cpt (tget c s)) (grp s (lower (t_rt (tget c s))) cs xs ++ [x]) j ->
  built s (cs ++ [c]) (xs ++ [x]) (dset (lower (t_rt (tget c s))) j d).
Proof.
  intros s cs xs d c x j (L & N & NL & G) NX S. split; [rewrite !app_length, L; reflexivity|]. split; [apply (nodup_dset (lower (t_rt (tget c s))) j d N)|].
  split; [apply Forall_app; split; [exact NL|constructor; [exact NX|constructor]]|].
  intros k. rewrite grp_app by exact L. eqs_cases (lower (t_rt (tget c s))) k.
  - subst k. destruct (grp s _ cs xs ++ [x]) as [|y g] eqn:E; [destruct (grp s _ cs xs); discriminate E|]. exists j, c. split; [apply dget_dset_same|]. split; [apply in_or_app; right; left; reflexivity|]. auto.
  - rewrite app_nil_r. specialize (G k). destruct (grp s k cs xs) as [|y g].
    + rewrite dget_dset_other by congruence. exact G.
    + destruct G as (j' & a & A & B & C & D). exists j', a. split; [rewrite dget_dset_other by congruence; exact A|]. split; [apply in_or_app; left; exact B|]. auto.
Qed.

Lemma text_in_or : forall x t, jor_empty x = JVal (VStr t) -> text_in x t.
Proof. intros x t H. unfold jor_empty in H. destruct (jtruthy x) eqn:T; [subst x; constructor|]. injection H as <-. apply text_falsy. exact T. Qed.
Lemma jadd_str : forall a y r, jadd (JVal (VStr a)) y = Ok r -> exists b, y = JVal (VStr b) /\ r = JVal (VStr (a ++ b)).
Proof. intros a y r H. destruct y as [[| | | |]| |]; try discriminate H. injection H as <-. eexists. split; reflexivity. Qed.

Lemma conv_step_built : forall s cs xs d c x d', built s cs xs d -> no_list x -> (forall a, In a cs -> lower (t_rt (tget a s)) = lower (t_rt (tget c s)) -> t_cpt (tget a s) = t_cpt (tget c s)) ->
  lower (t_rt (tget c s)) = t_rt (tget c s) -> conv_step d (tget c s) x = Ok d' -> built s (cs ++ [c]) (xs ++ [x]) d'.
Proof.
  intros s cs xs d c x d' B NX U LN H. set (k := lower (t_rt (tget c s))) in *. set (p := t_cpt (tget c s)) in *.
  assert (X : exists j, d' = dset k j d /\ shaped p (grp s k cs xs ++ [x]) j).
  { destruct B as (L & N & NL & G). specialize (G k).
    assert (Y : grp s k cs xs = [] /\ dget k d = None \/ exists y g j, grp s k cs xs = y :: g /\ dget k d = Some j /\ shaped p (y :: g) j).
    { destruct (grp s k cs xs) as [|y g]; [left; auto|]. right. destruct G as (j & a & A & I & E & S). exists y, g, j. rewrite (U a I E) in S. auto. }
    assert (GL : Forall no_list (grp s k cs xs)). { apply Forall_forall. intros y Iy. rewrite Forall_forall in NL. apply NL. eapply grp_in. exact Iy. }
    clear G. unfold conv_step in H. change (rt_lc (tget c s)) with k in H. fold p in H.
    eqs_cases p "scalar". { injection H as <-. exists x. split; [reflexivity|]. rewrite E. constructor. }
    eqs_cases p "sequence".
    { destruct Y as [[-> DN]|(y & g & j & -> & DN & S)]; rewrite DN in H.
      - injection H as <-. exists (JList [x]). split; [reflexivity|]. rewrite E0. apply sh_sequence.
      - rewrite E0 in S. inversion S as [|? E1| | |? ? NS|? ? ? ? NS]; subst; [|destruct NS; unfold special; auto|destruct NS; unfold special; auto]. injection H as <-.
        eexists. split; [reflexivity|]. rewrite E0. apply (sh_sequence ((y :: g) ++ [x])). }
    eqs_cases p "sconcat".
    { destruct Y as [[-> DN]|(y & g & j & -> & DN & S)]; rewrite DN in H.
      - cbn [rbind] in H. destruct (jadd (JVal (VStr "")) (jor_empty x)) as [r|] eqn:J; [|discriminate H]. injection H as <-. apply jadd_str in J. destruct J as (b & J & ->).
        exists (JVal (VStr b)). split; [reflexivity|]. rewrite E1. apply (sh_sconcat [x] [b]). constructor; [apply text_in_or; exact J|constructor].
      - rewrite E1 in S. inversion S as [| |? ts F| |? ? NS|? ? ? ? NS]; subst; [|destruct NS; unfold special; auto|destruct NS; unfold special; auto].
        change (jadd (JVal (VStr (String.concat " " ts))) (JVal (VStr " "))) with (Ok (JVal (VStr (String.concat " " ts ++ " ")))) in H.
        cbn [rbind] in H. destruct (jadd _ (jor_empty x)) as [r|] eqn:J; [|discriminate H]. injection H as <-. apply jadd_str in J. destruct J as (b & J & ->).
        eexists. split; [reflexivity|]. rewrite E1. replace ((String.concat " " ts ++ " ") ++ b)%string with (String.concat " " (ts ++ [b])).
        + apply sh_sconcat. apply Forall2_app; [exact F|]. constructor; [apply text_in_or; exact J|constructor].
        + rewrite concat_snoc by (intros ->; inversion F). rewrite <- app_s_assoc. reflexivity. }
    eqs_cases p "bconcat".
    { destruct Y as [[-> DN]|(y & g & j & -> & DN & S)]; rewrite DN in H.
      - cbn [rbind] in H. destruct (jadd (JVal (VStr "")) (jor_empty x)) as [r|] eqn:J; [|discriminate H]. injection H as <-. apply jadd_str in J. destruct J as (b & J & ->).
        exists (JVal (VStr b)). split; [reflexivity|]. rewrite E2. apply (sh_bconcat [x] [b]). constructor; [apply text_in_or; exact J|constructor].
      - rewrite E2 in S. inversion S as [| | |? ts F|? ? NS|? ? ? ? NS]; subst; [|destruct NS; unfold special; auto|destruct NS; unfold special; auto].
        destruct (jadd _ (jor_empty x)) as [r|] eqn:J; [|discriminate H]. cbn [rbind] in H. injection H as <-. apply jadd_str in J. destruct J as (b & J & ->).
        eexists. split; [reflexivity|]. rewrite E2. replace (String.concat "" ts ++ b)%string with (String.concat "" (ts ++ [b])).
        + apply sh_bconcat. apply Forall2_app; [exact F|]. constructor; [apply text_in_or; exact J|constructor].
        + rewrite concat_snoc by (intros ->; inversion F). reflexivity. }
    assert (NS : ~ special p) by (intros [|[|[|]]]; contradiction).
    rewrite <- LN in H. fold k in H.
    destruct Y as [[-> DN]|(y & g & j & Eg & DN & S)]; rewrite DN in H.
    - injection H as <-. exists x. split; [reflexivity|]. apply sh_one. exact NS.
    - rewrite Eg in *. inversion S as [? ? Ep E4|? Ep E4|? ? ? Ep|? ? ? Ep|? ? NS' Ep E4|? ? y' g' NS' Ep E4]; try (rewrite <- Ep in NS; destruct NS; unfold special; tauto).
      + subst. inversion GL as [|? ? NY _]; subst. destruct j as [v|l|dd]; [|destruct (NY l eq_refl)|]; injection H as <-; (eexists; split; [reflexivity|]; apply sh_more; exact NS).
      + subst. injection H as <-. eexists. split; [reflexivity|]. apply (sh_more p y y' (g' ++ [x])). exact NS. }
  destruct X as (j & -> & S). apply built_set; assumption.
Qed.

Lemma built_entries : forall s cs xs d, built s cs xs d -> (forall a b, In a cs -> In b cs -> lower (t_rt (tget a s)) = lower (t_rt (tget b s)) -> t_cpt (tget a s) = t_cpt (tget b s)) -> entries s cs xs d.
Proof.
  intros s cs xs d (L & N & _ & G) U. split; [exact N|]. split.
  - intros k j I. apply (dget_some k j d N) in I. specialize (G k). destruct (grp s k cs xs); [congruence|]. destruct G as (_ & c & _ & C & E & _). exists c. auto.
  - intros c C. specialize (G (lower (t_rt (tget c s)))). pose proof (grp_some s _ cs xs c L C eq_refl) as NE. pose proof (grp_named s (lower (t_rt (tget c s))) cs xs L) as NM.
    destruct (grp s _ cs xs) as [|y g]; [contradiction|]. destruct G as (j & a & A & I & E & S). exists (y :: g), j. split; [exact NM|]. rewrite (U a c I C E) in S. split; [exact S|apply dget_in; exact A].
Qed.

Lemma conv_kids_built : forall s cv cs pre xs d d', built s pre xs d -> (forall c x, In c cs -> cv c = Ok x -> no_list x) ->
  (forall a b, In a (pre ++ cs) -> In b (pre ++ cs) -> lower (t_rt (tget a s)) = lower (t_rt (tget b s)) -> t_cpt (tget a s) = t_cpt (tget b s)) ->
  (forall c, In c cs -> lower (t_rt (tget c s)) = t_rt (tget c s)) -> conv_kids cv (s_heap s) cs d = Ok d' ->
  exists ys, Forall2 (fun c y => cv c = Ok y) cs ys /\ built s (pre ++ cs) (xs ++ ys) d'.
Proof.
  intros s cv. induction cs as [|c cs IH]; intros pre xs d d' B NL U LN H; cbn [conv_kids] in H.
  - injection H as <-. exists []. split; [constructor|]. rewrite !app_nil_r. exact B.
  - destruct (cv c) as [x|] eqn:E; [|discriminate H]. cbn [rbind] in H. fold (tget c s) in H. destruct (conv_step d (tget c s) x) as [d1|] eqn:E1; [|discriminate H]. cbn [rbind] in H.
    assert (B1 : built s (pre ++ [c]) (xs ++ [x]) d1).
    { eapply conv_step_built; [exact B|apply (NL c x (or_introl eq_refl) E)| |apply LN; left; reflexivity|exact E1]. intros a A. apply U; apply in_or_app; [left; exact A|right; left; reflexivity]. }
    destruct (IH (pre ++ [c]) (xs ++ [x]) d1 d' B1) as (ys & F & B2).
    + intros c' x' I. apply NL. right. exact I.
    + intros a b. rewrite <- !app_assoc. apply U.
    + intros c' I. apply LN. right. exact I.
    + exact H.
    + exists (x :: ys). split; [constructor; assumption|]. rewrite <- !app_assoc in B2. exact B2.
Qed.
Lemma built_nil : forall s, built s [] [] [].
Proof. intros s. split; [reflexivity|]. split; [constructor|]. split; [constructor|]. intros k. reflexivity. Qed.

Lemma as_dict_no_list : forall f h rvn i j, as_dict f h rvn i = Ok j -> no_list j.
Proof.
  intros [|f] h rvn i j H; [discriminate H|]. cbn [as_dict] in H. unfold conv_node in H. intros l ->. destruct (t_children _); [discriminate H|].
  destruct (conv_kids _ _ _ _); [|discriminate H]. discriminate H.
Qed.

Lemma dset_lookup : forall {A} k (v : A) d x j, dget x (dset k v d) = Some j <-> (x = k /\ j = v) \/ (x <> k /\ dget x d = Some j).
Proof.
  intros A k v d x j. destruct (string_dec x k) as [->|N].
  - rewrite dget_dset_same. split; [intros H; injection H as <-; auto|intros [[_ ->]|[X _]]; [reflexivity|contradiction]].
  - rewrite dget_dset_other by exact N. split; [auto|intros [[X _]|[_ X]]; [contradiction|exact X]].
Qed.

Lemma dget_ddel_other : forall {A} k k' (d : dict A), k <> k' -> dget k (ddel k' d) = dget k d.
Proof.
  intros A k k' d N. induction d as [|[a v] d IH]; [reflexivity|]. cbn. eqs_cases k' a.
  - eqs_cases k a; [congruence|reflexivity].
  - cbn. eqs_cases k a; [reflexivity|exact IH].
Qed.

Lemma dget_ddel : forall {A} k k' v (d : dict A), NoDup (dkeys d) -> dget k (ddel k' d) = Some v -> k <> k' /\ dget k d = Some v.
Proof.
  intros A k k' v d N H. assert (K : k <> k').
  { intros ->. apply dget_in in H. rewrite ddel_filter in H by exact N. apply filter_In in H. destruct H as (_ & H). cbn in H. rewrite eqs_refl in H. discriminate H. }
  split; [exact K|]. rewrite dget_ddel_other in H by exact K. exact H.
Qed.
Section Dicts.
  Variable s : st.
  Hypothesis U : uniform s.
  Hypothesis LN : lower_names s.
  Hypothesis K : forall i c, In c (t_children (tget i s)) -> i < c /\ c < hlen s.

  Lemma as_dict_rep : forall f rvn i j, as_dict f (s_heap s) rvn i = Ok j -> dict_rep s rvn i j.
  Proof.
    induction f as [|f IH]; intros rvn i j H; [discriminate H|]. cbn [as_dict] in H. fold (tget i s) in H. unfold conv_node in H.
    destruct (t_children (tget i s)) as [|c0 cs0] eqn:EC; [injection H as <-; apply dr_leaf; exact EC|]. rewrite <- EC in H.
    assert (NE : t_children (tget i s) <> []) by (rewrite EC; discriminate).
    destruct (conv_kids (as_dict f (s_heap s) rvn) (s_heap s) (t_children (tget i s)) []) as [d|] eqn:E; [|discriminate H]. cbn [rbind] in H.
    destruct (conv_kids_built s (as_dict f (s_heap s) rvn) (t_children (tget i s)) [] [] [] d (built_nil s)) as (ys & F & B).
    + intros c x _. apply as_dict_no_list.
    + intros a b. apply (U i).
    + intros c I. apply LN. apply (K i c I).
    + exact E.
    + cbn [app] in B. assert (EN : entries s (t_children (tget i s)) ys d) by (apply built_entries; [exact B|intros a b; apply (U i)]).
      assert (F' : Forall2 (dict_rep s rvn) (t_children (tget i s)) ys). { clear - F IH. induction F; constructor; [eapply IH; eassumption|assumption]. }
      injection H as <-. destruct (truthy (t_val (tget i s))) eqn:T.
      * eapply dr_value; [exact NE|exact F'|exact EN|exact T|]. intros k j. unfold value_key. apply dset_lookup.
      * eapply dr_plain; eassumption.
  Qed.

  Lemma conv_step_total : forall d q x, t_cpt q <> "sconcat" -> t_cpt q <> "bconcat" -> lower (t_rt q) = t_rt q -> exists d', conv_step d q x = Ok d'.
  Proof.
    intros d q x N1 N2 L. unfold conv_step. destruct (eqs (t_cpt q) "scalar"); [eauto|]. destruct (eqs (t_cpt q) "sequence"); [eauto|].
    apply eqs_false in N1, N2. rewrite N1, N2. unfold rt_lc. rewrite L. destruct (dget (t_rt q) d) as [[| |]|]; eauto.
  Qed.

  Lemma as_dict_total : forall f rvn i, i < hlen s -> hlen s < i + f -> no_concat s i -> exists j, as_dict f (s_heap s) rvn i = Ok j.
  Proof.
    induction f as [|f IH]; intros rvn i L F NC; [lia|]. cbn [as_dict]. fold (tget i s). unfold conv_node.
    assert (C : forall c, In c (t_children (tget i s)) -> (exists j, as_dict f (s_heap s) rvn c = Ok j) /\ t_cpt (tget c s) <> "sconcat" /\ t_cpt (tget c s) <> "bconcat" /\ lower (t_rt (tget c s)) = t_rt (tget c s)).
    { intros c I. destruct (K i c I) as [A B]. split; [apply IH; [exact B|lia|]|].
      - intros x X. apply NC. eapply under_head. exists c. split; [exact I|]. right. exact X.
      - destruct (NC c) as [N1 N2]; [constructor; exact I|]. split; [exact N1|]. split; [exact N2|apply LN; exact B]. }
    assert (G : forall cs d, (forall c, In c cs -> In c (t_children (tget i s))) -> exists d', conv_kids (as_dict f (s_heap s) rvn) (s_heap s) cs d = Ok d').
    { induction cs as [|c cs IHc]; intros d I; [exists d; reflexivity|]. destruct (C c (I c (or_introl eq_refl))) as ((x & E) & N1 & N2 & LL). cbn [conv_kids]. rewrite E. cbn [rbind]. fold (tget c s).
      destruct (conv_step_total d (tget c s) x N1 N2 LL) as (d1 & ->). cbn [rbind]. apply IHc. intros c' I'. apply I. right. exact I'. }
    destruct (t_children (tget i s)) as [|c0 cs0] eqn:EC; [eauto|]. rewrite <- EC in *. destruct (G (t_children (tget i s)) [] (fun c X => X)) as (d & ->). cbn [rbind]. eauto.
  Qed.
End Dicts.

(** ** Nothing lost *)

Lemma named_in : forall s k cs xs g, named s k cs xs g -> forall c x, In (c, x) (combine cs xs) -> lower (t_rt (tget c s)) = k -> In x g.
Proof.
  induction 1 as [|c0 cs x0 xs g E _ IH|c0 cs x0 xs g E _ IH]; intros c x I L; [destruct I| |].
  - destruct I as [I|I]; [injection I as <- <-; left; reflexivity|right; eapply IH; eassumption].
  - destruct I as [I|I]; [injection I as <- <-; contradiction|eapply IH; eassumption].
Qed.
Lemma combine_forall2 : forall {A B} (R : A -> B -> Prop) l m, Forall2 R l m -> forall a, In a l -> exists b, In (a, b) (combine l m) /\ R a b.
Proof. induction 1 as [|a b l m H _ IH]; intros x I; [destruct I|]. destruct I as [<-|I]; [exists b; cbn; auto|]. destruct (IH x I) as (y & Y & R'). exists y. cbn. auto. Qed.

Lemma inside_trans : forall a b c, inside a b -> inside b c -> inside a c.
Proof. induction 1; intros; [assumption|eapply in_dict; eauto|eapply in_list; eauto]. Qed.

Lemma dict_child : forall s rvn i j c, dict_rep s rvn i j -> In c (t_children (tget i s)) ->
  t_cpt (tget c s) <> "scalar" -> t_cpt (tget c s) <> "sconcat" -> t_cpt (tget c s) <> "bconcat" ->
  (truthy (t_val (tget i s)) = true -> lower (t_rt (tget c s)) <> value_key s rvn i) ->
  exists x, dict_rep s rvn c x /\ inside j x.
Proof.
  intros s rvn i j c H C N1 N2 N3 NV.
  assert (X : forall xs d, Forall2 (dict_rep s rvn) (t_children (tget i s)) xs -> entries s (t_children (tget i s)) xs d -> exists x y, dict_rep s rvn c x /\ In (lower (t_rt (tget c s)), y) d /\ inside y x).
  { intros xs d F (_ & _ & E). destruct (combine_forall2 _ _ _ F c C) as (x & I & R). exists x. destruct (E c C) as (g & y & NM & S & D). exists y. split; [exact R|]. split; [exact D|].
    pose proof (named_in _ _ _ _ _ NM c x I eq_refl) as G. inversion S; subst; try congruence.
    - eapply in_list; [exact G|constructor].
    - destruct G as [<-|[]]. constructor.
    - eapply in_list; [exact G|constructor]. }
  destruct H as [i E|i xs d NE F EN T|i xs d d' NE F EN T D].
  - rewrite E in C. destruct C.
  - destruct (X xs d F EN) as (x & y & R & I & IN). exists x. split; [exact R|]. eapply in_dict; eassumption.
  - destruct (X xs d F EN) as (x & y & R & I & IN). exists x. split; [exact R|]. apply (in_dict _ (lower (t_rt (tget c s))) y); [|exact IN]. apply dget_in. apply D. right.
    split; [apply NV; exact T|]. apply dget_some; [apply EN|exact I].
Qed.

Lemma dict_value : forall s rvn i j, dict_rep s rvn i j -> truthy (t_val (tget i s)) = true -> inside j (JVal (t_val (tget i s))).
Proof.
  intros s rvn i j H T. destruct H as [i E|i xs d NE F EN T'|i xs d d' NE F EN T' D]; [constructor|congruence|].
  apply (in_dict _ (value_key s rvn i) (JVal (t_val (tget i s)))); [|constructor]. apply dget_in. apply D. left. auto.
Qed.

Lemma c34_all : forall s rvn i j, keeps_all s rvn i -> dict_rep s rvn i j -> forall x, x = i \/ under s i x ->
  exists y, dict_rep s rvn x y /\ inside j y /\ (truthy (t_val (tget x s)) = true -> inside j (JVal (t_val (tget x s)))).
Proof.
  intros s rvn i j KA R x X.
  assert (G : exists y, dict_rep s rvn x y /\ inside j y).
  { destruct X as [->|X]; [exists j; split; [exact R|constructor]|]. induction X as [c C|c d U IH D].
    - destruct (KA i (or_introl eq_refl) c C) as (N1 & N2 & N3 & NV). eapply dict_child; eassumption.
    - destruct IH as (y & Ry & Iy). destruct (KA c (or_intror U) d D) as (N1 & N2 & N3 & NV). destruct (dict_child s rvn c y d Ry D N1 N2 N3 NV) as (z & Rz & Iz).
      exists z. split; [exact Rz|]. eapply inside_trans; eassumption. }
  destruct G as (y & Ry & Iy). exists y. split; [exact Ry|]. split; [exact Iy|]. intros T. eapply inside_trans; [exact Iy|]. apply dict_value with rvn; assumption.
Qed.

(** ** C51 *)
Lemma before_app_l : forall {A} (l m : list A) x y, before l x y -> before (l ++ m) x y.
Proof. intros A l m x y (a & b & c & ->). exists a, b, (c ++ m). rewrite <- !app_assoc. cbn. rewrite <- !app_assoc. reflexivity. Qed.
Lemma before_app_r : forall {A} (l m : list A) x y, before m x y -> before (l ++ m) x y.
Proof. intros A l m x y (a & b & c & ->). exists (l ++ a), b, c. rewrite <- !app_assoc. reflexivity. Qed.
Lemma before_head : forall {A} (l : list A) x y, In y l -> before (x :: l) x y.
Proof. intros A l x y I. apply in_split in I. destruct I as (a & b & ->). exists [], a, b. reflexivity. Qed.

Lemma walk_before : forall s, (forall i l, walk (kids_of s) i l -> forall x c, In x l -> In c (t_children (tget x s)) -> before l x c)
  /\ (forall cs l, walks (kids_of s) cs l -> forall x c, In x l -> In c (t_children (tget x s)) -> before l x c).
Proof.
  intros s. apply walk_walks_ind.
  - intros i l W IH x c [<-|X] C; [|apply (before_app_r [i] l); apply IH; assumption]. apply before_head. apply (proj2 (walk_in s) _ _ W). exists c. auto.
  - intros x c [].
  - intros c0 cs l m _ IH1 _ IH2 x c X C. apply in_app_iff in X. destruct X as [X|X]; [apply before_app_l|apply before_app_r]; auto.
Qed.

Lemma c51_any : forall s, doc_ok s -> exists l, all_terms s = Ok l /\ doc_walk s l /\ NoDup l
  /\ (forall x, In x l <-> (exists k, In (k, x) (secs s) /\ t_val (tget x s) <> VStr "Root")
        \/ exists t k i, In t (listed s) /\ In (k, i) (secs s) /\ t_section (tget t s) = Some i /\ (x = t \/ under s t x))
  /\ (forall x c, In x l -> is_plain s x -> In c (t_children (tget x s)) -> before l x c)
  /\ (forall k i t, In (k, i) (secs s) -> t_val (tget i s) <> VStr "Root" -> In t (t_terms (tget i s)) -> before l i t).
Proof.
  intros s K. destruct (all_terms_walk s K) as (l & E & W). exists l. split; [exact E|]. split; [exact W|]. split; [eapply doc_walk_nodup; eassumption|].
  destruct W as (ls & F & ->).
  assert (SEC : forall k i, In (k, i) (secs s) -> exists m, In m ls /\ section_walk s i m).
  { intros k i I. destruct (combine_forall2 _ _ _ F (k, i) I) as (m & M & SW). exists m. split; [eapply in_combine_r; exact M|exact SW]. }
  assert (LS : forall m, In m ls -> exists k i, In (k, i) (secs s) /\ section_walk s i m).
  { intros m M. clear - F M. induction F as [|[k i] b tab ls0 W' _ IHF]; [destruct M|]. destruct M as [->|M]; [exists k, i; split; [left; reflexivity|exact W']|].
    destruct (IHF M) as (k2 & i2 & A & B). exists k2, i2. split; [right; exact A|exact B]. }
  assert (BEF : forall m x c, In m ls -> before m x c -> before (concat ls) x c).
  { intros m x c M B. apply in_split in M. destruct M as (a & b & ->). rewrite concat_app. cbn [concat]. apply before_app_r. apply before_app_l. exact B. }
  split; [|split].
  - intros x. rewrite in_concat. split.
    + intros (m & M & X). destruct (LS m M) as (k & i & I & l0 & W & C).
      assert (Y : In x l0 -> exists t k i, In t (listed s) /\ In (k, i) (secs s) /\ t_section (tget t s) = Some i /\ (x = t \/ under s t x)).
      { intros Y. apply (proj2 (walk_in s) _ _ W) in Y. destruct Y as (t & T & U). exists t, k, i. destruct (ok_in s K _ _ _ I T) as (A & B). auto. }
      destruct C as [[_ ->]|[N ->]]; [right; auto|]. destruct X as [<-|X]; [left; exists k; auto|right; auto].
    + intros [(k & I & N)|(t & k & i & T & I & SE & U)].
      * destruct (SEC k x I) as (m & M & l0 & W & C). exists m. split; [exact M|]. destruct C as [[E' _]|[_ ->]]; [contradiction|left; reflexivity].
      * assert (TI : In t (t_terms (tget i s))).
        { destruct (ok_listed s K t T) as (_ & _ & [(k' & i' & _ & SE' & TI)|(_ & X)]); [rewrite SE in SE'; injection SE' as <-; exact TI|destruct (X k i I SE)]. }
        destruct (SEC k i I) as (m & M & l0 & W & C). exists m. split; [exact M|].
        assert (Y : In x l0) by (apply (proj2 (walk_in s) _ _ W); exists t; auto). destruct C as [[_ ->]|[_ ->]]; [exact Y|right; exact Y].
  - intros x c X P C. apply in_concat in X. destruct X as (m & M & X). apply (BEF m); [exact M|]. destruct (LS m M) as (k & i & I & l0 & W & D).
    assert (Y : In x l0 -> before l0 x c) by (intros Y; apply (proj2 (walk_before s) _ _ W); assumption).
    destruct D as [[_ ->]|[_ ->]]; [auto|]. destruct X as [<-|X]; [|apply (before_app_r [i] l0); auto]. destruct (ok_section s K _ _ I) as (S0 & _). destruct (sec_plain _ _ S0 P).
  - intros k i t I N T. destruct (SEC k i I) as (m & M & l0 & W & C). apply (BEF m); [exact M|]. destruct C as [[E' _]|[_ ->]]; [contradiction|]. apply before_head. apply (proj2 (walk_in s) _ _ W). exists t. auto.
Qed.

(** ** Whole documents *)
Section DocDict.
  Variable s : st.
  Hypothesis U : uniform s.
  Hypothesis LN : lower_names s.
  Hypothesis OK : doc_ok s.
  Hypothesis UL : uniform_list s (section_terms s).
  Lemma kid_bounds : forall i c, In c (t_children (tget i s)) -> i < c /\ c < hlen s.
  Proof. intros i c C. destruct (ok_child s OK i c C) as (A & (B & _) & _). auto. Qed.

  Lemma section_terms_in : forall t, In t (section_terms s) -> In t (listed s) /\ t < hlen s.
  Proof.
    intros t T. unfold section_terms in T. apply in_concat in T. destruct T as (l & L & T). apply in_map_iff in L. destruct L as ([k i] & <- & I). cbn [snd] in T.
    destruct (ok_in s OK k i t I T) as (A & _). split; [exact A|]. destruct (ok_listed s OK t A) as ((B & _) & _). exact B.
  Qed.

  Lemma doc_as_dict_rep : forall rvn j, doc_as_dict s rvn = Ok j -> doc_rep s rvn j.
  Proof.
    intros rvn j H. unfold doc_as_dict in H. cbv zeta in H. change (concat (map (fun kv => t_terms (hget (snd kv) (s_heap s))) (d_sections (s_doc s)))) with (section_terms s) in H.
    destruct (section_terms s) as [|t0 ts0] eqn:EC; [injection H as <-; constructor; exact EC|]. rewrite <- EC in H, UL.
    destruct (conv_kids (as_dict (heap_fuel (s_heap s)) (s_heap s) rvn) (s_heap s) (section_terms s) []) as [d|] eqn:E; [|discriminate H]. cbn [rbind] in H.
    destruct (conv_kids_built s (as_dict (heap_fuel (s_heap s)) (s_heap s) rvn) (section_terms s) [] [] [] d (built_nil s)) as (ys & F & B).
    - intros c x _. apply as_dict_no_list.
    - exact UL.
    - intros c I. apply LN. apply section_terms_in. exact I.
    - exact E.
    - cbn [app] in B. assert (EN : entries s (section_terms s) ys d) by (apply built_entries; [exact B|exact UL]).
      assert (F' : Forall2 (dict_rep s rvn) (section_terms s) ys). { clear - F U LN OK. induction F; constructor; [eapply as_dict_rep; try eassumption; apply kid_bounds|assumption]. }
      injection H as <-. apply (doc_terms s rvn ys d); [rewrite EC; discriminate|exact F'|exact EN| |].
      + intros k N. destruct rvn; [rewrite dget_ddel_other by exact N|]; apply dget_dset_other; exact N.
      + destruct rvn; [|apply dget_dset_same].
        destruct (dget "@value" (ddel "@value" (dset "@value" (JVal (VStr "Root")) d))) as [y|] eqn:D; [|reflexivity]. apply dget_ddel in D; [destruct D as (X & _); contradiction|]. apply nodup_dset. apply EN.
  Qed.

  Lemma doc_as_dict_total : forall rvn, (forall t, In t (section_terms s) -> no_concat s t /\ t_cpt (tget t s) <> "sconcat" /\ t_cpt (tget t s) <> "bconcat") -> exists j, doc_as_dict s rvn = Ok j.
  Proof.
    clear UL U. intros rvn NC. unfold doc_as_dict. cbv zeta. change (concat (map (fun kv => t_terms (hget (snd kv) (s_heap s))) (d_sections (s_doc s)))) with (section_terms s).
    assert (G : forall cs d, (forall c, In c cs -> In c (section_terms s)) -> exists d', conv_kids (as_dict (heap_fuel (s_heap s)) (s_heap s) rvn) (s_heap s) cs d = Ok d').
    { induction cs as [|c cs IHc]; intros d I; [exists d; reflexivity|]. destruct (NC c (I c (or_introl eq_refl))) as (N0 & N1 & N2). destruct (section_terms_in c (I c (or_introl eq_refl))) as (_ & B).
      destruct (as_dict_total s LN kid_bounds (heap_fuel (s_heap s)) rvn c B) as (x & E); [unfold heap_fuel, hlen in *; lia|exact N0|].
      cbn [conv_kids]. rewrite E. cbn [rbind]. fold (tget c s). destruct (conv_step_total d (tget c s) x N1 N2 (LN c B)) as (d1 & ->). cbn [rbind]. apply IHc. intros c' I'. apply I. right. exact I'. }
    destruct (section_terms s) as [|t0 ts0] eqn:EC; [eauto|]. rewrite <- EC in *. destruct (G (section_terms s) [] (fun c X => X)) as (d & ->). cbn [rbind]. eauto.
  Qed.
End DocDict.

(** every term of a document is in its dict *)
Lemma doc_dict_all : forall s rvn j, doc_rep s rvn j -> (forall t, In t (section_terms s) -> keeps_all s rvn t /\ t_cpt (tget t s) <> "scalar" /\ t_cpt (tget t s) <> "sconcat" /\ t_cpt (tget t s) <> "bconcat" /\ lower (t_rt (tget t s)) <> "@value") ->
  forall t x, In t (section_terms s) -> x = t \/ under s t x -> exists y, dict_rep s rvn x y /\ inside j y /\ (truthy (t_val (tget x s)) = true -> inside j (JVal (t_val (tget x s)))).
Proof.
  intros s rvn j R KA t x T X. destruct R as [E|xs d d' NE F EN O V]; [rewrite E in T; destruct T|]. destruct (KA t T) as (K & N1 & N2 & N3 & NV).
  destruct EN as (ND & _ & E). destruct (combine_forall2 _ _ _ F t T) as (xt & I & R). destruct (E t T) as (g & y & NM & S & D).
  assert (IN : inside y xt).
  { pose proof (named_in _ _ _ _ _ NM t xt I eq_refl) as G. inversion S; subst; try congruence.
    - eapply in_list; [exact G|constructor].
    - destruct G as [<-|[]]. constructor.
    - eapply in_list; [exact G|constructor]. }
  assert (IJ : inside (JDict d') xt) by (apply (in_dict _ (lower (t_rt (tget t s))) y); [apply dget_in; rewrite O by exact NV; apply dget_some; assumption|exact IN]).
  destruct (c34_all s rvn t xt K R x X) as (z & RZ & IZ & TZ). exists z. split; [exact RZ|]. split; [eapply inside_trans; eassumption|]. intros TR. eapply inside_trans; [exact IJ|apply TZ; exact TR].
Qed.

(** used in examples *)
Lemma ok_cpt : forall i v s, doc_ok s -> doc_ok (fst (modT i (set_t_cpt v) s)).
Proof. intros i v s K. rewrite modT_run. cbn [fst]. apply ok_hmod; [auto 10|reflexivity|auto|exact K]. Qed.

Definition uniform_listb (s : st) (l : list nat) : bool :=
  forallb (fun a => forallb (fun b => implb (eqs (lower (t_rt (tget a s))) (lower (t_rt (tget b s)))) (eqs (t_cpt (tget a s)) (t_cpt (tget b s)))) l) l.
Lemma uniform_list_check : forall s l, uniform_listb s l = true -> uniform_list s l.
Proof.
  intros s l H a b A B E. unfold uniform_listb in H. rewrite forallb_forall in H. specialize (H a A). rewrite forallb_forall in H. specialize (H b B).
  rewrite E, eqs_refl in H. apply eqs_true. exact H.
Qed.
Lemma uniform_check : forall s, forallb (fun i => uniform_listb s (t_children (tget i s))) (seq 0 (hlen s)) = true -> uniform s.
Proof.
  intros s H i a b A. destruct (Nat.lt_ge_cases i (hlen s)) as [X|X].
  - rewrite forallb_forall in H. revert A. apply (uniform_list_check s _ (H i ltac:(apply in_seq; lia))).
  - rewrite tget_out in A by exact X. destruct A.
Qed.
Lemma lower_check : forall s, forallb (fun i => eqs (lower (t_rt (tget i s))) (t_rt (tget i s))) (seq 0 (hlen s)) = true -> lower_names s.
Proof. intros s H i L. rewrite forallb_forall in H. apply eqs_true. apply (H i). apply in_seq. lia. Qed.

End WithQuirks.

Lemma c51 : forall s, doc_ok s -> exists l, all_terms s = Ok l /\ doc_walk s l /\ NoDup l
  /\ (forall x, In x l <-> (exists k, In (k, x) (secs s) /\ t_val (tget x s) <> VStr "Root") \/ exists t, In t (listed s) /\ (x = t \/ under s t x))
  /\ (forall x c, In x l -> is_plain s x -> In c (t_children (tget x s)) -> before l x c)
  /\ (forall k i t, In (k, i) (secs s) -> t_val (tget i s) <> VStr "Root" -> In t (t_terms (tget i s)) -> before l i t).
Proof.
  intros s K. destruct (c51_any s K) as (l & A & B & C & D & E). exists l. split; [exact A|]. split; [exact B|]. split; [exact C|]. split; [|exact E].
  intros x. rewrite D. split; (intros [H|H]; [left; exact H|right]).
  - destruct H as (t & _ & _ & T & _ & _ & U). exists t. auto.
  - destruct H as (t & T & U). destruct (ok_listed s K t T) as (_ & _ & [(k & i & I & SE & _)|([] & _)]). exists t, k, i. auto.
Qed.
