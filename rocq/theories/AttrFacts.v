(** * AttrFacts: attributes, property dicts, set_terms, sections by name *)

From Verif Require Import ListFacts StrFacts HeapFacts SpecNames NameFacts OrderFacts Ops Attr ConstructFacts RunFacts EmitFacts RowFacts TotalFacts FrameFacts SpecInv InvFacts ChildFacts ListOps SpecFind SpecEdit OpFacts SecFacts FindFacts AddFacts EditFacts StepFacts DocProps PackFacts SpecAttr MFrame DeclareFacts OrderlyFacts.
From Verif Require Parser Render.

Section WithQuirks.
Context {QK : Quirks}.

Lemma common_iff : forall x, mem_str (lower x) common_properties = true <-> common x.
Proof. intros x. rewrite mem_str_in. reflexivity. Qed.

(** ** Reading *)

Lemma getitem_own : forall s i item, value_name s i item -> term_getitem (s_heap s) i item = Ok i.
Proof. intros s i item V. unfold term_getitem. fold (tget i s). apply eqs_true in V. rewrite V. reflexivity. Qed.
Lemma getitem_child : forall s i n item c, ~ value_name s i item -> dot_free n -> child_item s i n item -> first_child s i n c ->
  term_getitem (s_heap s) i item = Ok c.
Proof.
  intros s i n item c V D C F. unfold term_getitem. fold (tget i s). apply eqs_false in V. rewrite V.
  rewrite (find_first_one s i n item c D C F). reflexivity.
Qed.
Lemma getitem_absent : forall s i n item, ~ value_name s i item -> dot_free n -> child_item s i n item -> no_child s i n ->
  term_getitem (s_heap s) i item = Err EKey.
Proof.
  intros s i n item V D C F. unfold term_getitem. fold (tget i s). apply eqs_false in V. rewrite V.
  rewrite (find_first_no s i n item D C F). reflexivity.
Qed.

Lemma getattr_plain : forall a i item, is_plain (a_st a) i -> not_stored a i item -> getattr a i item = plain_getattr (a_st a) i item.
Proof. intros a i item [_ P] N. unfold getattr. rewrite N, P. reflexivity. Qed.

Lemma read_stored : forall a i item v, dget item (a_own a i) = Some v -> getattr a i item = Ok v.
Proof. intros a i item v H. unfold getattr. rewrite H. reflexivity. Qed.
Lemma read_own : forall a i item, is_plain (a_st a) i -> not_stored a i item -> value_name (a_st a) i item ->
  getattr a i item = Ok (t_val (tget i (a_st a))).
Proof. intros a i item P N V. rewrite getattr_plain by assumption. unfold plain_getattr. rewrite getitem_own by exact V. reflexivity. Qed.
Lemma read_child : forall a i n item c, is_plain (a_st a) i -> not_stored a i item -> ~ value_name (a_st a) i item -> dot_free n ->
  child_item (a_st a) i n item -> first_child (a_st a) i n c -> getattr a i item = Ok (t_val (tget c (a_st a))).
Proof.
  intros a i n item c P N V D C F. rewrite getattr_plain by assumption. unfold plain_getattr. rewrite (getitem_child _ _ _ _ _ V D C F). reflexivity.
Qed.
Lemma read_absent : forall a i n item, is_plain (a_st a) i -> not_stored a i item -> ~ value_name (a_st a) i item -> dot_free n ->
  child_item (a_st a) i n item -> no_child (a_st a) i n ->
  (common item -> getattr a i item = Ok VNone) /\ (~ common item -> getattr a i item = Err EAttr).
Proof.
  intros a i n item P N V D C F. rewrite getattr_plain by assumption. unfold plain_getattr. rewrite (getitem_absent _ _ _ _ V D C F).
  split; intros H.
  - apply common_iff in H. rewrite H. reflexivity.
  - destruct (mem_str (lower item) common_properties) eqn:E; [apply common_iff in E; contradiction|reflexivity].
Qed.

(** sections: the terms of the section *)
Lemma read_section : forall a i item t, is_sec (a_st a) i -> not_stored a i item ->
  section_get_term (a_st a) i item VFalse = Ok t ->
  getattr a i item = match t with Some t => Ok (t_val (tget t (a_st a))) | None => Err EAttr end.
Proof. intros a i item t [_ P] N H. unfold getattr. rewrite N, P. unfold section_getattr. rewrite H. reflexivity. Qed.

(** ** Writing *)

Lemma own_iff : forall s i item, eqs (lower item) (lower (t_tvn (tget i s))) || eqs (lower item) "value" = true <-> own_value s i item.
Proof. intros s i item. rewrite orb_true_iff, !eqs_true. reflexivity. Qed.
Lemma column_iff : forall s i item, is_plain s i -> (mem_str (lower item) (map lower (property_names (s_heap s) (tget i s))) = true <-> column s i item).
Proof.
  intros s i item [_ P]. unfold property_names, column. rewrite P. destruct (t_section (tget i s)) as [j|].
  - rewrite mem_str_in. split; [intros H; exists j; auto|intros (j' & E & H); injection E as <-; exact H].
  - split; [discriminate|intros (j & E & _); discriminate E].
Qed.
Lemma not_iff : forall (b : bool) (P : Prop), (b = true <-> P) -> ~ P -> b = false.
Proof. intros [|] P H N; [destruct N; apply H; reflexivity|reflexivity]. Qed.

Lemma write_own : forall a i item v, i < hlen (a_st a) -> own_value (a_st a) i item ->
  exists s', setattr i item v a = (mk_ast s' (a_own a), Ok tt) /\ s_doc s' = s_doc (a_st a) /\ hlen s' = hlen (a_st a)
    /\ forall j, tget j s' = if j =? i then set_t_val v (tget i (a_st a)) else tget j (a_st a).
Proof.
  intros a i item v L O. exists (hmod i (set_t_val v) (a_st a)). split; [|split; [reflexivity|split; [apply hlen_hmod|]]].
  - unfold setattr. cbn [bind gets]. apply own_iff in O. rewrite O. cbn [negb]. rewrite andb_false_r. reflexivity.
  - intros j. rewrite tget_hmod by exact L. destruct (Nat.eqb_spec j i) as [->|]; reflexivity.
Qed.
Lemma write_column : forall a i item v, is_plain (a_st a) i -> not_stored a i item -> ~ own_value (a_st a) i item -> column (a_st a) i item ->
  setattr i item v a = let (s', r) := term_setitem i item v (a_st a) in (mk_ast s' (a_own a), r).
Proof.
  intros a i item v P N O C. unfold setattr. cbn [bind gets]. unfold bind, gets. 
  rewrite (not_iff _ _ (own_iff (a_st a) i item) O). unfold dmem. rewrite N. cbn [andb].
  apply (proj2 (column_iff (a_st a) i item P)) in C. rewrite C. rewrite (proj2 P). reflexivity.
Qed.
Lemma write_other : forall a i item v, is_plain (a_st a) i -> ~ own_value (a_st a) i item -> (~ column (a_st a) i item \/ ~ not_stored a i item) ->
  exists a', setattr i item v a = (a', Ok tt) /\ only_stored a i item v a'.
Proof.
  intros a i item v P O C. unfold setattr, bind, gets. rewrite (not_iff _ _ (own_iff (a_st a) i item) O). cbn [negb]. rewrite andb_true_r.
  assert (X : exists a', set_own i item v a = (a', Ok tt) /\ only_stored a i item v a').
  { eexists. split; [reflexivity|]. split; [reflexivity|]. cbn [a_own]. rewrite Nat.eqb_refl. split; [apply dget_dset_same|].
    intros j x H. destruct (Nat.eqb_spec j i) as [->|]; [|reflexivity]. apply dget_dset_other. destruct H as [H|H]; [contradiction|]. congruence. }
  destruct (dmem item (a_own a i)) eqn:E; [exact X|]. destruct C as [C|C].
  - rewrite (not_iff _ _ (column_iff (a_st a) i item P) C). exact X.
  - destruct C. unfold not_stored, dmem in *. destruct (dget item (a_own a i)); [discriminate|reflexivity].
Qed.

Lemma write_column_old : forall a i item c v, in_order (a_st a) -> is_plain (a_st a) i -> dot_free item -> tidy item -> not_stored a i item ->
  ~ own_value (a_st a) i item -> column (a_st a) i item -> first_child (a_st a) i item c -> v <> VNone -> v <> VFalse ->
  exists a', setattr i item v a = (a', Ok tt) /\ same_stored a a' /\ getattr a' i item = Ok v
    /\ s_doc (a_st a') = s_doc (a_st a) /\ hlen (a_st a') = hlen (a_st a)
    /\ (forall j, tget j (a_st a') = if j =? c then set_t_val v (tget c (a_st a)) else tget j (a_st a)).
Proof.
  intros a i item c v O P D T N NO C F N1 N2. rewrite write_column by assumption.
  destruct (c26_old (a_st a) i item item c v O D T (item_plain _ _ _) NO F N1 N2) as (s' & E & E1 & E2 & E3 & E4 & E5). rewrite E. eexists. split; [reflexivity|].
  split; [intros j; reflexivity|]. split; [|auto]. rewrite <- E5.
  assert (TV : forall j, t_tvn (tget j s') = t_tvn (tget j (a_st a)) /\ t_cls (tget j s') = t_cls (tget j (a_st a))).
  { intros j. rewrite E3. destruct (Nat.eqb_spec j c) as [->|]; split; reflexivity. }
  apply (read_child (mk_ast s' (a_own a)) i item item c); try assumption.
  - split; cbn [a_st]; [rewrite E2; apply P|rewrite (proj2 (TV i)); apply P].
  - unfold value_name. cbn [a_st]. rewrite (proj1 (TV i)). intros X. apply NO. left. exact X.
  - constructor.
Qed.

Lemma write_column_new : forall a i item x, in_order (a_st a) -> is_plain (a_st a) i -> t_doc (tget i (a_st a)) = true -> dot_free item -> tidy item ->
  not_stored a i item -> ~ own_value (a_st a) i item -> column (a_st a) i item -> no_child (a_st a) i item ->
  made_name (t_rt (tget i (a_st a))) -> allowed_child (a_st a) i item ->
  is_section_cls (doc_term_class (lower (t_rt (tget i (a_st a)) ++ "." ++ item)) (a_st a)) = false -> tidy x -> x <> "" ->
  exists a', setattr i item (VStr x) a = (a', Ok tt) /\ same_stored a a' /\ getattr a' i item = Ok (VStr x)
    /\ s_doc (a_st a') = s_doc (a_st a) /\ hlen (a_st a') = S (hlen (a_st a))
    /\ (forall j, j < hlen (a_st a) -> tget j (a_st a') = if j =? i then set_t_children (t_children (tget i (a_st a)) ++ [hlen (a_st a)]) (tget i (a_st a)) else tget j (a_st a)).
Proof.
  intros a i item x O P Di D T N NO C NC MN AL CL TX NX. rewrite write_column by assumption.
  destruct (c26_new (a_st a) i item item x O P Di D T (item_plain _ _ _) NO NC MN AL CL TX NX) as (s' & E & E1 & E2 & E3 & E4 & E5 & _). rewrite E. eexists. split; [reflexivity|].
  split; [intros j; reflexivity|]. split; [|auto]. rewrite <- E5.
  assert (TV : t_tvn (tget i s') = t_tvn (tget i (a_st a)) /\ t_cls (tget i s') = t_cls (tget i (a_st a))).
  { rewrite E3 by apply P. rewrite Nat.eqb_refl. split; reflexivity. }
  apply (read_child (mk_ast s' (a_own a)) i item item (hlen (a_st a))); try assumption.
  - split; cbn [a_st]; [rewrite E2; pose proof (proj1 P); lia|rewrite (proj2 TV); apply P].
  - unfold value_name. cbn [a_st]. rewrite (proj1 TV). intros X. apply NO. left. exact X.
  - constructor.
Qed.

(** a name stored in the object hides the child of that name for ever *)
Lemma shadowed : forall a i item v s', dget item (a_own a i) = Some v -> getattr (mk_ast s' (a_own a)) i item = Ok v.
Proof. intros a i item v s' H. apply read_stored. exact H. Qed.

(** ** [in] *)

Lemma contains_easy : forall f a i item, lower item = "value" \/ common item -> contains (S f) a i item = Ok true.
Proof.
  intros f a i item H. cbn [contains]. destruct (eqs (lower item) "value") eqn:E; [reflexivity|]. destruct H as [H|H].
  - apply eqs_true in H. congruence.
  - apply common_iff in H. rewrite H. reflexivity.
Qed.
Lemma contains_fails : forall f a i item, is_plain (a_st a) i -> not_stored a i "properties" -> no_child (a_st a) i "properties" ->
  ~ value_name (a_st a) i "properties" -> lower item <> "value" -> ~ common item -> contains (S f) a i item = Err EAttr.
Proof.
  intros f a i item P N NC V NV CM. cbn [contains]. apply eqs_false in NV. rewrite NV.
  destruct (mem_str (lower item) common_properties) eqn:E; [apply common_iff in E; contradiction|].
  assert (D : dot_free "properties") by (apply dot_free_iff; reflexivity).
  destruct (read_absent a i "properties" "properties" P N V D (item_plain _ _ _) NC) as [_ R]. rewrite R; [reflexivity|].
  unfold common. cbn. intuition discriminate.
Qed.

(** ** Property dicts *)

Lemma dict_of_nodup : forall {A} (l : list (string * A)), NoDup (map fst (dict_of l)).
Proof.
  intros A l. unfold dict_of, dupdate. assert (G : forall l (d : dict A), NoDup (map fst d) -> NoDup (map fst (fold_left (fun d kv => dset (fst kv) (snd kv) d) l d))).
  { clear l. induction l as [|[k v] l IH]; intros d N; [exact N|]. cbn [fold_left]. apply IH. apply nodup_dset. exact N. }
  apply G. constructor.
Qed.
Lemma dict_of_none : forall {A} (l : list (string * A)) k, dget k (dict_of l) = None <-> ~ In k (map fst l).
Proof.
  intros A l k. unfold dict_of, dupdate. induction l as [|[k' v] l IH] using rev_ind; [cbn; tauto|].
  rewrite fold_left_app, map_app, in_app_iff. cbn [fold_left fst snd map In]. rewrite dget_dset. destruct (eqs k k') eqn:E.
  - apply eqs_true in E. subst. split; [discriminate|intros H; destruct H; auto].
  - apply eqs_false in E. rewrite IH. intuition congruence.
Qed.
Lemma dupdate_nodup : forall {A} (l d : dict A), NoDup (map fst d) -> NoDup (map fst (dupdate d l)).
Proof.
  intros A l. unfold dupdate. induction l as [|[k v] l IH]; intros d N; [exact N|]. cbn [fold_left]. apply IH. apply nodup_dset. exact N.
Qed.

Lemma nth_last : forall {A} (P : A -> Prop) (l : list A) n x, nth_error l n = Some x -> (forall n' y, nth_error l n' = Some y -> P y -> n' <= n) ->
  exists a b, l = (a ++ x :: b)%list /\ forall y, In y b -> ~ P y.
Proof.
  intros A P l n x H L. destruct (nth_error_split l n H) as (a & b & -> & E). exists a, b. split; [reflexivity|]. intros y Y PY.
  apply In_nth_error in Y. destruct Y as (m & Y). specialize (L (S (n + m)) y).
  assert (X : nth_error (a ++ x :: b) (S (n + m)) = Some y).
  { rewrite nth_error_app2 by lia. rewrite E. replace (S (n + m) - n) with (S m) by lia. exact Y. }
  apply L in X; [lia|exact PY].
Qed.

Lemma props_get : forall s i k v, lower k = k -> (dget k (props (s_heap s) i) = Some v <-> exists c, last_child s i k c /\ v = t_val (tget c s)).
Proof.
  intros s i k v L. unfold props. fold (tget i s). rewrite dict_of_last. split.
  - intros (n & E & M). rewrite nth_error_map in E. destruct (nth_error (t_children (tget i s)) n) as [c|] eqn:Ec; [|discriminate]. cbn in E. injection E as Ek Ev.
    destruct (nth_last (called s k) _ _ _ Ec) as (a & b & E & B).
    { intros n' y Y CY. apply (M n' (t_val (tget y s))). rewrite nth_error_map, Y. cbn. unfold called in CY. unfold rt_lc. fold (tget y s). rewrite CY, L. reflexivity. }
    exists c. split; [|symmetry; exact Ev]. exists a, b. split; [exact E|]. split; [unfold called; rewrite L; exact Ek|exact B].
  - intros (c & (a & b & E & C & B) & ->). exists (List.length a). rewrite E. split.
    + rewrite nth_error_map. rewrite nth_error_app2, Nat.sub_diag by lia. cbn. unfold called in C. unfold rt_lc. fold (tget c s). rewrite C, L. reflexivity.
    + intros n' v' H. rewrite nth_error_map in H. destruct (nth_error (a ++ c :: b) n') as [y|] eqn:Y; [|discriminate]. cbn in H. injection H as Hk _.
      destruct (Nat.le_gt_cases n' (List.length a)) as [|G]; [assumption|exfalso].
      rewrite nth_error_app2 in Y by lia. destruct (n' - List.length a) as [|m] eqn:Em; [lia|]. cbn in Y. apply (B y); [eapply nth_error_In; exact Y|]. unfold called. rewrite L. exact Hk.
Qed.
Lemma props_none : forall s i k, lower k = k -> (dget k (props (s_heap s) i) = None <-> no_child s i k).
Proof.
  intros s i k L. unfold props. fold (tget i s). rewrite dict_of_none, map_map. cbn. unfold no_child, called, rt_lc. rewrite L. split.
  - intros H c I C. apply H. apply in_map_iff. exists c. split; [exact C|exact I].
  - intros H X. apply in_map_iff in X. destruct X as (c & E & I). exact (H c I E).
Qed.
Lemma props_lower : forall s i k v, In (k, v) (props (s_heap s) i) -> lower k = k.
Proof.
  intros s i k v H. destruct (string_dec (lower k) k) as [E|E]; [exact E|]. exfalso.
  assert (X : In k (map fst (props (s_heap s) i))) by (apply in_map_iff; exists (k, v); auto). revert X. apply dget_none. unfold props. apply dict_of_none.
  rewrite map_map. cbn. intros X. apply in_map_iff in X. destruct X as (c & Ec & _). apply E. rewrite <- Ec. unfold rt_lc. apply lower_idem.
Qed.

Lemma props_spec : forall s i, dict_holds (props (s_heap s) i) (fun k v => exists c, last_child s i k c /\ v = t_val (tget c s)).
Proof.
  intros s i. split; [apply dict_of_nodup|]. split; [apply props_lower|]. intros k v L. rewrite <- (props_get s i k v L).
  rewrite <- dget_some by apply dict_of_nodup. reflexivity.
Qed.

Lemma nth_combine : forall {A B} (l : list A) (m : list B) n x y, nth_error (combine l m) n = Some (x, y) <-> nth_error l n = Some x /\ nth_error m n = Some y.
Proof.
  intros A B l. induction l as [|a l IH]; intros [|b m] [|n] x y; cbn; try (split; [discriminate|intros [? ?]; discriminate]).
  - split; [intros E; split; congruence|intros [E E2]; congruence].
  - apply IH.
Qed.

Section Row.
  Variables (s : st) (i j : nat).
  Let cells := dict_of (combine (map lower (columns_of (tget j s))) (map VStr (t_args (tget i s)))).
  Lemma cells_get : forall k v, lower k = k -> (dget k cells = Some v <-> exists c, cell_under s i j k c /\ v = VStr c).
  Proof.
    intros k v L. unfold cells. rewrite dict_of_last. split.
    - intros (n & E & M). apply nth_combine in E. destruct E as [E1 E2]. rewrite nth_error_map in E1, E2.
      destruct (nth_error (columns_of (tget j s)) n) as [h|] eqn:Eh; [|discriminate]. destruct (nth_error (t_args (tget i s)) n) as [c|] eqn:Ec; [|discriminate].
      cbn in E1, E2. injection E1 as E1. injection E2 as <-. exists c. split; [|reflexivity]. exists n. split; [exists h; split; [exact Eh|congruence]|]. split; [exact Ec|].
      intros m' h' c' H1 H2 H3. apply (M m' (VStr c')). apply nth_combine. rewrite !nth_error_map, H1, H3. cbn. split; [congruence|reflexivity].
    - intros (c & (m & (h & Eh & Lh) & Ec & M) & ->). exists m. split.
      + apply nth_combine. rewrite !nth_error_map, Eh, Ec. cbn. split; [congruence|reflexivity].
      + intros n' v' H. apply nth_combine in H. destruct H as [H1 H2]. rewrite nth_error_map in H1, H2.
        destruct (nth_error (columns_of (tget j s)) n') as [h'|] eqn:Eh'; [|discriminate]. destruct (nth_error (t_args (tget i s)) n') as [c'|] eqn:Ec'; [|discriminate].
        cbn in H1. injection H1 as H1. apply (M n' h' c' Eh'); [congruence|exact Ec'].
  Qed.
  Lemma cells_lower : forall k, In k (map fst cells) -> lower k = k.
  Proof.
    intros k H. destruct (string_dec (lower k) k) as [E|E]; [exact E|]. exfalso. revert H. apply dget_none. unfold cells. apply dict_of_none. intros H.
    apply in_map_iff in H. destruct H as ([k' v] & Ek & H). cbn in Ek. subst k'. apply in_combine_l in H. apply in_map_iff in H. destruct H as (h & <- & _). apply E. apply lower_idem.
  Qed.
  Hypothesis sect : t_section (tget i s) = Some j.
  Hypothesis issec : is_sec s j.
  Lemma arg_props_get : exists d, arg_props (s_heap s) i = Ok d /\ NoDup (map fst d) /\ (forall k, In k (map fst d) -> lower k = k)
    /\ forall k v, lower k = k -> (dget k d = Some v <-> row_property s i j k v).
  Proof.
    unfold arg_props. fold (tget i s). rewrite sect. fold (tget j s). eexists. split; [reflexivity|].
    unfold property_names. rewrite (proj2 issec). change (sec_property_names (tget j s)) with (columns_of (tget j s)). fold cells. split; [apply nodup_dset; apply dict_of_nodup|]. split.
    - intros k H. destruct (string_dec (lower k) k) as [E|E]; [exact E|]. exfalso. revert H. apply dget_none. rewrite dget_dset. destruct (eqs k (lower (t_tvn (tget i s)))) eqn:X.
      + apply eqs_true in X. subst k. destruct E. apply lower_idem.
      + apply dget_none. intros H. apply E. apply cells_lower. exact H.
    - intros k v L. rewrite dget_dset. destruct (eqs k (lower (t_tvn (tget i s)))) eqn:X.
      + apply eqs_true in X. split; [intros E; injection E as <-; constructor; unfold value_name; congruence|]. intros H. destruct H as [V|c V _]; [reflexivity|]. destruct V. unfold value_name. congruence.
      + apply eqs_false in X. rewrite (cells_get k v L). split.
        * intros (c & C & ->). constructor; [|exact C]. unfold value_name. congruence.
        * intros H. destruct H as [V|c V C]; [|exists c; auto]. destruct X. unfold value_name in V. congruence.
  Qed.
  Lemma arg_props_spec : exists d, arg_props (s_heap s) i = Ok d /\ dict_holds d (row_property s i j).
  Proof.
    destruct arg_props_get as (d & E & N & LW & G). exists d. split; [exact E|]. split; [exact N|]. split.
    - intros k v H. apply LW. apply in_map_iff. exists (k, v). auto.
    - intros k v L. rewrite <- (dget_some k v d N). apply G. exact L.
  Qed.
  Lemma all_props_spec : exists d, all_props (s_heap s) i = Ok d /\ dict_holds d (any_property s i j).
  Proof.
    destruct arg_props_get as (d & E & N & LW & G). unfold all_props. rewrite E. cbn [rbind]. eexists. split; [reflexivity|].
    assert (GET : forall k v, lower k = k -> (dget k (dupdate d (props (s_heap s) i)) = Some v <-> any_property s i j k v)).
    { intros k v L. rewrite dget_dupdate. rewrite DeclareFacts.dget_dict_of by apply dict_of_nodup. destruct (dget k (props (s_heap s) i)) as [x|] eqn:X.
      - pose proof (proj1 (props_get s i k x L) X) as (c & C & ->). split.
        + intros H. injection H as <-. constructor. exact C.
        + intros H. destruct H as [c' C'|v NC _].
          * pose proof (proj2 (props_get s i k _ L) (ex_intro _ c' (conj C' eq_refl))) as Y. congruence.
          * destruct C as (a & b & Ea & Cc & _). destruct (NC c); [rewrite Ea; apply in_or_app; right; left; reflexivity|exact Cc].
      - pose proof (proj1 (props_none s i k L) X) as NC. rewrite (G k v L). split; [intros H; apply ap_row; assumption|]. intros H. destruct H as [c (a & b & Ea & Cc & _)|v _ R]; [|exact R].
        destruct (NC c); [rewrite Ea; apply in_or_app; right; left; reflexivity|exact Cc]. }
    assert (ND : NoDup (map fst (dupdate d (props (s_heap s) i)))) by (apply dupdate_nodup; exact N).
    split; [exact ND|]. split.
    - intros k v H. destruct (OrderlyFacts.in_dupdate _ _ _ H) as [H'|H']; [eapply props_lower; exact H'|]. apply LW. apply in_map_iff. exists (k, v). auto.
    - intros k v L. rewrite <- (dget_some k v _ ND). apply GET. exact L.
  Qed.
End Row.

(** a column without a cell has no entry *)
Lemma no_entry : forall s i j k d, t_section (tget i s) = Some j -> is_sec s j -> all_props (s_heap s) i = Ok d -> lower k = k ->
  no_child s i k -> ~ value_name s i k -> (forall c, ~ cell_under s i j k c) -> ~ In k (map fst d).
Proof.
  intros s i j k d S IS E L NC V C X. destruct (all_props_spec s i j S IS) as (d' & E' & N & _ & H). rewrite E in E'. injection E' as <-.
  apply in_map_iff in X. destruct X as ([k' v] & Ek & X). cbn in Ek. subst k'. apply (H k v L) in X. destruct X as [c (a & b & Ea & Cc & _)|v _ R].
  - apply (NC c); [rewrite Ea; apply in_or_app; right; left; reflexivity|exact Cc].
  - destruct R as [R|c _ R]; [contradiction|exact (C c R)].
Qed.

(** ** find with properties *)

Lemma get_value_spec : forall s i k, dot_free k -> exists x, term_get_value (s_heap s) i k = Ok x /\ property s i k x /\ forall y, property s i k y -> y = x.
Proof.
  intros s i k D. unfold term_get_value. destruct (string_dec (lower k) (lower (t_tvn (tget i s)))) as [V|V].
  - rewrite (getitem_own s i k V). eexists. split; [reflexivity|]. split; [apply pr_own; exact V|]. intros y Y. destruct Y; try contradiction; reflexivity.
  - destruct (first_or_none s i k) as [(c & F)|NC].
    + rewrite (getitem_child s i k k c V D (item_plain _ _ _) F). eexists. split; [reflexivity|]. split; [apply pr_child; assumption|].
      intros y Y. destruct Y as [V'|c' _ F'|_ NC]; [contradiction| |].
      * pose proof (getitem_child s i k k c V D (item_plain _ _ _) F) as A. pose proof (getitem_child s i k k c' V D (item_plain _ _ _) F') as B. rewrite A in B. injection B as <-. reflexivity.
      * destruct F as (a & b & E & C & _). destruct (NC c); [rewrite E; apply in_or_app; right; left; reflexivity|exact C].
    + rewrite (getitem_absent s i k k V D (item_plain _ _ _) NC). eexists. split; [reflexivity|]. split; [apply pr_none; assumption|].
      intros y Y. destruct Y as [V'|c' _ F'|_ _]; [contradiction| |reflexivity].
      destruct F' as (a & b & E & C & _). destruct (NC c'); [rewrite E; apply in_or_app; right; left; reflexivity|exact C].
Qed.
Lemma veq_alike : forall x v, veq x v = true <-> alike x v.
Proof.
  intros x v. unfold alike. destruct x as [|a|a| |a], v as [|b|b| |b]; cbn; rewrite ?eqs_true, ?Z.eqb_eq, ?Nat.eqb_eq; split; intros H; try discriminate; try (left; congruence);
    try (right; left; split; congruence); try (right; right; split; congruence); try (destruct H as [H|[[H1 H2]|[H1 H2]]]; congruence); auto.
Qed.
Lemma kw_test_spec : forall s kw i, is_plain s i -> Forall (fun kv => dot_free (fst kv)) kw -> exists b, kw_test s kw i = Ok b /\ (b = true <-> has_all s kw i).
Proof.
  intros s kw i P F. unfold kw_test, has_all. induction F as [|[k v] kw D F IH].
  - exists true. split; [reflexivity|]. split; [intros _ k v []|reflexivity].
  - cbn in D. destruct IH as (b & E & H). unfold any_get_value at 1. rewrite (proj2 P). destruct (get_value_spec s i k D) as (x & X & PX & U). rewrite X. cbn [rbind].
    destruct (veq x v) eqn:Q.
    + exists b. split; [exact E|]. rewrite H. apply veq_alike in Q. split.
      * intros A k' v' [I|I]; [injection I as <- <-; exists x; auto|apply A; exact I].
      * intros A k' v' I. apply A. right. exact I.
    + exists false. split; [reflexivity|]. split; [discriminate|]. intros A. destruct (A k v (or_introl eq_refl)) as (y & Y & Al). apply U in Y. subst y. apply veq_alike in Al. congruence.
Qed.
Lemma find_kw : forall s p v sa kw l, doc_find s p v sa = Ok l -> Forall (fun kv => dot_free (fst kv)) kw -> (forall i, In i l -> is_plain s i) ->
  exists r, doc_find_kw s p v sa kw = Ok r /\ picked (has_all s kw) l r.
Proof.
  intros s p v sa kw l E F P. unfold doc_find_kw. rewrite E. cbn [rbind].
  destruct (rfilter_spec (kw_test s kw) (has_all s kw) l) as (r & E' & Pk); [intros x X; apply kw_test_spec; auto|].
  destruct kw as [|kv kw]; [|exists r; auto]. exists l. split; [reflexivity|]. exists (fun _ => true). split.
  - intros x X. split; [intros _ k v0 []|reflexivity].
  - clear. induction l as [|x l IH]; cbn; [reflexivity|rewrite <- IH; reflexivity].
Qed.

Lemma firsts_agree : forall s p v sa kw l, doc_find_kw s p v sa kw = Ok l ->
  doc_find_first_kw s p v sa kw = Ok (hd_error l)
  /\ doc_find_first_value_kw s p v sa kw = Ok (match l with i :: _ => t_val (tget i s) | [] => VNone end).
Proof.
  intros s p v sa kw l E. unfold doc_find_first_value_kw, doc_find_first_kw. rewrite E. cbn [rbind]. split; [reflexivity|]. destruct l; reflexivity.
Qed.
Lemma gets_agree : forall s p sa l d, doc_find s p VFalse sa = Ok l ->
  doc_get_value s p d sa = Ok (match l with i :: _ => t_val (tget i s) | [] => d end) /\ (sa = SAny -> doc_get s p = Ok (hd_error l)).
Proof.
  intros s p sa l d E. unfold doc_get_value, doc_get, doc_find_first. rewrite E. cbn [rbind]. split; [destruct l; reflexivity|].
  intros ->. rewrite E. reflexivity.
Qed.

(** ** set_terms *)

Lemma kwterm_run : forall sec kv s s' r, set_kwterm sec kv s = (s', r) ->
  (exists v ps, asks (snd kv) v ps /\ (exists t, Ops.new_term sec (fst kv) v ps s = (s', Ok t) /\ r = Ok tt \/ exists e, Ops.new_term sec (fst kv) v ps s = (s', Err e) /\ r = Err e))
  \/ (s' = s /\ r = Err EType).
Proof.
  intros sec [k x] s s' r H. unfold set_kwterm in H. cbn [snd fst] in *.
  assert (G : forall v ps, (t <- Ops.new_term sec k v ps ;; ret tt) s = (s', r) -> asks x v ps ->
    exists v ps, asks x v ps /\ (exists t, Ops.new_term sec k v ps s = (s', Ok t) /\ r = Ok tt \/ exists e, Ops.new_term sec k v ps s = (s', Err e) /\ r = Err e)).
  { intros v ps E A. exists v, ps. split; [exact A|]. unfold bind in E. destruct (Ops.new_term sec k v ps s) as [s1 [t|e]] eqn:Q.
    - exists t. left. injection E as <- <-. auto.
    - exists 0. right. exists e. injection E as <- <-. auto. }
  destruct x as [v|v ps].
  - destruct v as [|x|z| |j]; try (left; eapply G; [exact H|constructor; [discriminate|intros; discriminate]]).
    + destruct (String.length x =? 2) eqn:E; [right; injection H as <- <-; auto|]. left. eapply G; [exact H|]. constructor; [discriminate|]. intros y Y. injection Y as <-. apply Nat.eqb_neq. exact E.
    + right. injection H as <- <-. auto.
  - left. eapply G; [exact H|]. constructor.
Qed.

Lemma made_stable : forall s s' sec kv t, in_order s -> is_sec s sec -> t <> sec -> t < hlen s -> (forall j, j < hlen s -> j <> sec -> tget j s' = tget j s) ->
  made_for s sec kv t -> made_for s' sec kv t.
Proof.
  intros s s' sec kv t O SE T L ST (v & ps & A & B & C & D & E & F). exists v, ps. rewrite !ST by assumption. split; [exact A|]. split; [exact B|]. split; [exact C|]. split; [exact D|]. split; [exact E|].
  assert (CH : forall c, In c (t_children (tget t s)) -> tget c s' = tget c s).
  { intros c I. destruct (ok_child s (io_ok s O) _ _ I) as (_ & [Lc Pc] & _). apply ST; [exact Lc|]. intros ->. destruct SE as [_ SE]. congruence. }
  clear - F CH. induction F as [|kv' c ps l H F IH]; [constructor|]. constructor.
  - rewrite (CH c) by (left; reflexivity). exact H.
  - apply IH. intros c' I. apply CH. right. exact I.
Qed.

Lemma kwterms_run : forall sec k kws s s', in_order s -> In (k, sec) (secs s) -> ~ odd k -> Forall (fun kv => top_name (fst kv)) kws ->
  mapM_ (set_kwterm sec) kws s = (s', Ok tt) -> in_order s' /\ exists news, added s sec kws news s'.
Proof.
  intros sec k kws. induction kws as [|kv kws IH]; intros s s' O I OD F H.
  - injection H as <-. split; [exact O|]. exists []. split; [constructor|]. split; [rewrite app_nil_r; destruct s as [? [] ? ?]; reflexivity|]. split; [rewrite app_nil_r; destruct (tget sec s); reflexivity|].
    split; [reflexivity|]. split; [lia|]. split; constructor.
  - cbn [mapM_] in H. apply bind_ok in H. destruct H as (s1 & [] & H1 & H). inversion F as [|x y TN F']; subst.
    apply kwterm_run in H1. destruct H1 as [(v & ps & A & t & [[H1 _]|(e & _ & X)])|[_ X]]; try discriminate X.
    pose proof (order_new_term s k sec (fst kv) v ps s1 (Ok t) O I OD TN H1) as O1.
    destruct (c20_effect s k sec (fst kv) v ps s1 t O I OD TN H1) as (-> & ED & ES & OLD & (N1 & N2 & N3 & N4) & CH & HL).
    assert (I1 : In (k, sec) (secs s1)) by (unfold secs; rewrite ED; exact I).
    destruct (IH s1 s' O1 I1 OD F' H) as (O' & news & M & ED' & ES' & OLD' & HL' & RG & ND). split; [exact O'|]. exists (hlen s :: news).
    destruct (ok_section s (io_ok s O) _ _ I) as (SE & _). pose proof (proj1 SE) as Ls.
    destruct (ok_section s1 (io_ok s1 O1) _ _ I1) as (SE1 & _).
    split; [|split; [|split; [|split; [|split; [|split]]]]].
    + constructor; [|exact M]. apply (made_stable s1 s'); [exact O1|exact SE1|lia|lia|exact OLD'|]. exists v, ps. split; [exact A|]. split; [exact N1|]. split; [exact N2|]. split; [exact N3|]. split; [exact N4|].
      clear - CH. induction CH as [|kv' c ps l H CH IH]; constructor; [|exact IH]. destruct H as (_ & H1 & H2 & H3 & _). auto.
    + rewrite ED'. unfold listed at 1. rewrite ED. cbn. rewrite <- app_assoc. reflexivity.
    + rewrite ES', ES. cbn. rewrite <- app_assoc. destruct (tget sec s); reflexivity.
    + intros j J NE. rewrite OLD' by (try assumption; lia). apply OLD; assumption.
    + lia.
    + constructor; [lia|]. eapply Forall_impl; [|exact RG]. cbn. intros x X. lia.
    + constructor; [|exact ND]. intros X. rewrite Forall_forall in RG. apply RG in X. lia.
Qed.

Lemma add_present : forall s k sec t, in_order s -> In (k, sec) (secs s) -> In t (t_terms (tget sec s)) -> section_add_term sec t s = (s, Ok tt).
Proof.
  intros s k sec t O I T. unfold section_add_term. apply bind_fw with (s1 := s) (a := tget sec s); [reflexivity|]. apply bind_fw with (s1 := s) (a := tget t s); [reflexivity|].
  apply bind_fw with (s1 := s) (a := tt); [pose proof (proj2 (mem_id_in _ _) T) as E; rewrite E; reflexivity|]. apply bind_fw with (s1 := s) (a := tget t s); [reflexivity|].
  destruct (ok_in s (io_ok s O) _ _ _ I T) as [_ E]. rewrite E. reflexivity.
Qed.
Lemma adds_present : forall k sec ts s, in_order s -> In (k, sec) (secs s) -> (forall t, In t ts -> In t (t_terms (tget sec s))) -> mapM_ (section_add_term sec) ts s = (s, Ok tt).
Proof.
  intros k sec ts. induction ts as [|t ts IH]; intros s O I H; [reflexivity|]. cbn [mapM_]. apply bind_fw with (s1 := s) (a := tt).
  - eapply add_present; [exact O|exact I|]. apply H. left. reflexivity.
  - apply IH; [exact O|exact I|]. intros x X. apply H. right. exact X.
Qed.

Lemma set_terms_ok : forall s k sec ts kws s', in_order s -> In (k, sec) (secs s) -> ~ odd k -> (forall t, In t ts -> In t (t_terms (tget sec s))) ->
  Forall (fun kv => top_name (fst kv)) kws -> set_terms sec ts kws s = (s', Ok tt) -> in_order s' /\ exists news, added s sec kws news s'.
Proof.
  intros s k sec ts kws s' O I OD T F H. unfold set_terms in H. apply bind_ok in H. destruct H as (s1 & u & H1 & H). rewrite (adds_present k) in H1 by assumption. injection H1 as <- _.
  eapply kwterms_run; eassumption.
Qed.

Lemma set_terms_runs : forall s k sec ts kws, in_order s -> In (k, sec) (secs s) -> ~ odd k -> (forall t, In t ts -> In t (t_terms (tget sec s))) ->
  Forall (fun kv => top_name (fst kv) /\ is_section_cls (doc_term_class (lower (fst kv)) s) = false /\ exists v, asks (snd kv) v []) kws ->
  exists s', set_terms sec ts kws s = (s', Ok tt).
Proof.
  intros s k sec ts kws O I OD T F. unfold set_terms.
  assert (G : exists s', mapM_ (set_kwterm sec) kws s = (s', Ok tt)).
  { clear T. revert s O I F. induction kws as [|kv kws IH]; intros s O I F; [exists s; reflexivity|]. inversion F as [|x y (TN & CL & v & A) F']; subst.
    destruct TN as (n & TN). destruct (new_term_run s k sec (fst kv) v n (io_ok s O) I OD TN CL) as (s1 & H1).
    assert (E : set_kwterm sec kv s = (s1, Ok tt)).
    { unfold set_kwterm. destruct kv as [x y]. cbn [fst snd] in *. assert (R : (t <- Ops.new_term sec x v [] ;; ret tt) s = (s1, Ok tt)) by (unfold bind; rewrite H1; reflexivity).
      inversion A as [v' ps|v' A1 A2]; subst; [exact R|]. destruct v as [|z|z| |z]; try exact R.
      - destruct (Nat.eqb_spec (String.length z) 2) as [Q|_]; [destruct (A2 z eq_refl Q)|exact R].
      - destruct (A1 z eq_refl). }
    assert (TN' : top_name (fst kv)) by (exists n; exact TN).
    pose proof (order_new_term s k sec (fst kv) v [] s1 _ O I OD TN' H1) as O1. destruct (c20_effect s k sec (fst kv) v [] s1 _ O I OD TN' H1) as (_ & ED & _).
    assert (RG : s_reg s1 = s_reg s) by (apply (reg_new_term _ _ _ _ _ _ _ H1)).
    destruct (IH s1 O1) as (s' & H).
    - unfold secs. rewrite ED. exact I.
    - eapply Forall_impl; [|exact F']. cbn. intros a (X1 & X2 & X3). split; [exact X1|]. split; [|exact X3]. unfold doc_term_class in *. rewrite RG, ED. exact X2.
    - exists s'. cbn [mapM_]. eapply bind_fw; [exact E|exact H]. }
  destruct G as (s' & G). exists s'. eapply bind_fw; [apply (adds_present k); assumption|exact G].
Qed.

(** ** Sections by name *)

Lemma in_keys : forall {A} (d : dict A) k, dmem k d = true <-> In k (map fst d).
Proof.
  intros A d k. unfold dmem. destruct (dget k d) as [x|] eqn:E.
  - split; [intros _; apply dget_in in E; apply in_map_iff; exists (k, x); auto|reflexivity].
  - apply dget_none in E. split; [discriminate|contradiction].
Qed.
Lemma contains_doc : forall s n, doc_ok s -> (doc_contains s n = true <-> exists i, In (lower n, i) (secs s)).
Proof.
  intros s n K. unfold doc_contains. rewrite in_keys. split.
  - intros H. apply in_map_iff in H. destruct H as ([k i] & E & H). cbn in E. subst k. exists i. exact H.
  - intros (i & H). apply in_map_iff. exists (lower n, i). auto.
Qed.
(** a section is known by its name, in any case *)
Lemma sec_named : forall s k i, doc_ok s -> In (k, i) (secs s) -> exists n, t_val (tget i s) = VStr n /\ lower n = k.
Proof. intros s k i K I. destruct (ok_section s K _ _ I) as (_ & _ & _ & H). exact H. Qed.
Lemma get_section_spec : forall s n i, doc_ok s -> (get_section (VStr n) s = Ok i <-> In i (doc_iter s) /\ exists m, t_val (tget i s) = VStr m /\ lower m = lower n).
Proof.
  intros s n i K. unfold get_section, doc_iter. cbn [as_str rbind]. change (d_sections (s_doc s)) with (secs s). split.
  - intros H. destruct (dget (lower n) (secs s)) as [j|] eqn:E; [|discriminate]. injection H as <-. apply dget_in in E. split; [apply in_map_iff; exists (lower n, j); auto|]. apply (sec_named s _ _ K E).
  - intros [H (m & V & L)]. apply in_map_iff in H. destruct H as ([k j] & E & H). cbn in E. subst j. destruct (sec_named s k i K H) as (m' & V' & L'). rewrite V in V'. injection V' as <-.
    assert (E : k = lower n) by congruence. subst k. apply (dget_some _ _ _ (ok_keys s K)) in H. rewrite E in H. rewrite H. reflexivity.
Qed.
Lemma get_section_none : forall s n, doc_ok s -> (get_section (VStr n) s = Err EKey <-> forall i m, In i (doc_iter s) -> t_val (tget i s) = VStr m -> lower m <> lower n).
Proof.
  intros s n K. split.
  - intros H i m I V L. assert (X : get_section (VStr n) s = Ok i) by (apply get_section_spec; [exact K|split; [exact I|exists m; auto]]). congruence.
  - intros H. destruct (get_section (VStr n) s) as [i|e] eqn:E.
    + apply get_section_spec in E; [|exact K]. destruct E as [I (m & V & L)]. destruct (H i m I V L).
    + unfold get_section in E. cbn [as_str rbind] in E. destruct (dget _ _); [discriminate|exact (eq_sym E)].
Qed.
Lemma sections_agree : forall s n, doc_ok s ->
  (doc_contains s n = true <-> exists i, get_section (VStr n) s = Ok i)
  /\ get_section_or s n = (match get_section (VStr n) s with Ok i => Some i | Err _ => None end).
Proof.
  intros s n K. unfold doc_contains, get_section_or, get_section, dmem. cbn [as_str rbind]. destruct (dget (lower n) (d_sections (s_doc s))) as [i|]; split; try reflexivity.
  - split; [intros _; exists i; reflexivity|reflexivity].
  - split; [discriminate|intros (i & H); discriminate].
Qed.
Lemma get_sections_spec : forall s ns l, get_sections s ns = Ok l <-> Forall2 (fun n i => get_section (VStr n) s = Ok i) ns l.
Proof.
  intros s ns. unfold get_sections. induction ns as [|n ns IH]; intros l; cbn [rmap].
  - split; [intros H; injection H as <-; constructor|intros H; inversion H; reflexivity].
  - destruct (get_section (VStr n) s) as [i|e] eqn:E; cbn [rbind].
    + destruct (rmap _ ns) as [m|e] eqn:Em; cbn [rbind].
      * split.
        -- intros H. injection H as <-. constructor; [exact E|apply IH; reflexivity].
        -- intros H. inversion H as [|x y ns' l' E1 F]; subst. apply IH in F. injection F as <-. rewrite E in E1. injection E1 as <-. reflexivity.
      * split; [discriminate|]. intros H. inversion H as [|x y ns' l' E1 F]; subst. apply IH in F. discriminate F.
    + split; [discriminate|]. intros H. inversion H as [|x y ns' l' E1 F]; subst. congruence.
Qed.
Lemma iter_once : forall s, doc_ok s -> NoDup (doc_iter s).
Proof.
  intros s K. unfold doc_iter. pose proof (ok_keys s K) as N.
  assert (G : forall l, incl l (secs s) -> NoDup (map fst l) -> NoDup (map snd l)).
  { induction l as [|[k i] l IH]; intros IN NK; [constructor|]. cbn in *. inversion NK as [|x y NI NK']; subst. constructor.
    - intros X. apply in_map_iff in X. destruct X as ([k' i'] & E & X). cbn in E. subst i'. 
      destruct (sec_named s k i K (IN _ (or_introl eq_refl))) as (m & V & L). destruct (sec_named s k' i K (IN _ (or_intror X))) as (m' & V' & L'). rewrite V in V'. injection V' as <-. apply NI.
      apply in_map_iff. exists (k', i). split; [cbn; congruence|exact X].
    - apply IH; [|exact NK']. intros x X. apply IN. right. exact X. }
  apply G; [apply incl_refl|exact N].
Qed.

(** the parser and the converter use the same dicts *)
Lemma arg_props_same : forall h i, Attr.arg_props h i = Parser.arg_props h (hget i h).
Proof. intros h i. unfold arg_props, Parser.arg_props. destruct (t_section (hget i h)) as [j|]; [|reflexivity]. unfold property_names. destruct (is_section_cls (t_cls (hget j h))) eqn:E; reflexivity. Qed.
Lemma props_same : forall h i, Attr.props h i = Render.props h i.
Proof. reflexivity. Qed.

End WithQuirks.
