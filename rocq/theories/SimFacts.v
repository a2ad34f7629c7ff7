(** * SimFacts: two runs that differ only in recorded row numbers

    [rel V m1 m2]: from states that agree except in row numbers, the two runs
    end in such states, and with results related by [V] or the same exception. *)

From Verif Require Import ListFacts StrFacts HeapFacts Ops Parser RunFacts NameFacts ParseFacts SpecNames SpecParse SpecRows03.

Definition rc (x y : option nat) (r : trec) : trec := set_t_row x (set_t_col y r).

Definition colflag (r : trec) : option bool := option_map (Nat.ltb 1) (t_col r).

Definition secname (r : trec) : Prop := t_pt r = "root" /\ (t_rt r = "section" \/ t_rt r = "root").

Lemma dotted_one : forall p r a b, dotted p r = dotted a b -> has_char "." a = false -> has_char "." b = false -> p = a /\ r = b.
Proof.
  unfold dotted. induction p as [|c p IH]; intros r a b H HA HB.
  - destruct a as [|d a].
    + cbn in H. injection H as ->. split; reflexivity.
    + cbn in H. injection H as E _. subst d. discriminate HA.
  - destruct a as [|d a].
    + exfalso. cbn in H. injection H as -> H. subst b. clear - HB. induction p as [|c p IH]; [discriminate HB|].
      cbn [append has_char] in HB. apply orb_false_iff in HB. apply IH, HB.
    + cbn in H. injection H as -> H. cbn [has_char] in HA. apply orb_false_iff in HA. destruct (IH r a b H (proj2 HA) HB) as [-> ->]. split; reflexivity.
Qed.

Section Sim.
  (** [strict]: the rows of sections may differ, but not the first from others;
      otherwise nothing is declared and sections keep their names *)
  Variable strict : bool.

  Definition Rr (a b : trec) : Prop :=
    same_but_row a b
    /\ (is_section_cls (t_cls a) = true -> if strict then colflag a = colflag b else secname a)
    /\ (strict = false -> t_ftype a <> Some "declare").

  Definition sim (s1 s2 : st) : Prop :=
    Forall2 Rr (s_heap s1) (s_heap s2) /\ s_doc s1 = s_doc s2 /\ s_prs s1 = s_prs s2 /\ s_reg s1 = s_reg s2
    /\ (strict = false -> p_dterms (s_prs s1) = installed_terms).

  Definition rres {A} (V : A -> A -> Prop) (a b : res A) : Prop :=
    match a, b with Ok x, Ok y => V x y | Err e, Err e' => e = e' | _, _ => False end.

  Definition rel {A} (V : A -> A -> Prop) (m1 m2 : MM A) : Prop :=
    forall s1 s2, sim s1 s2 -> sim (fst (m1 s1)) (fst (m2 s2)) /\ rres V (snd (m1 s1)) (snd (m2 s2)).

  Lemma Rr_form : forall a b, Rr a b -> exists x y, b = rc x y a.
  Proof.
    intros a b [E _]. exists (t_row b), (t_col b). unfold same_but_row, no_row in E.
    destruct a, b. unfold rc, set_t_row, set_t_col in *. cbn in *.
    destruct (is_section_cls t_cls); destruct (is_section_cls t_cls0); injection E; intros; subst; reflexivity.
  Qed.

  Lemma Rr_dummy : Rr dummy_t dummy_t.
  Proof. split; [reflexivity|]. split; [intros E; discriminate E|discriminate]. Qed.

  Lemma sim_get : forall i h1 h2, Forall2 Rr h1 h2 -> Rr (hget i h1) (hget i h2).
  Proof.
    intros i h1 h2 H. revert i. unfold hget. induction H as [|a b l1 l2 Hab H IH]; intros [|i]; cbn; try apply Rr_dummy; [exact Hab|apply IH].
  Qed.

  Lemma sim_upd : forall i a b h1 h2, Forall2 Rr h1 h2 -> Rr a b -> Forall2 Rr (upd i a h1) (upd i b h2).
  Proof.
    intros i a b h1 h2 H Hab. revert i. induction H as [|x y l1 l2 Hxy H IH]; intros [|i]; cbn; constructor; auto.
  Qed.

  (** ** heaps as seen by the code *)
  Definition heq (h1 h2 : list trec) : Prop := map (rc None None) h1 = map (rc None None) h2.

  Lemma sim_heq : forall h1 h2, Forall2 Rr h1 h2 -> heq h1 h2.
  Proof.
    intros h1 h2 H. unfold heq. induction H as [|a b l1 l2 Hab H IH]; [reflexivity|]. cbn [map]. f_equal; [|exact IH].
    destruct (Rr_form _ _ Hab) as (x & y & ->). reflexivity.
  Qed.

  (** ** the monad *)
  Lemma rel_ret : forall {A} (V : A -> A -> Prop) a b, V a b -> rel V (ret a) (ret b).
  Proof. intros A V a b H s1 s2 S. split; [exact S|exact H]. Qed.
  Lemma rel_raise : forall {A} (V : A -> A -> Prop) e, rel V (raise e) (raise e).
  Proof. intros A V e s1 s2 S. split; [exact S|reflexivity]. Qed.
  Lemma rel_lift : forall {A} (x y : res A), x = y -> rel eq (lift x) (lift y).
  Proof. intros A x y <- s1 s2 S. split; [exact S|]. destruct x; reflexivity. Qed.
  Lemma rel_assert : forall a b, a = b -> rel eq (assert_ a) (assert_ b).
  Proof. intros a b <-. destruct a; [apply rel_ret; reflexivity|apply rel_raise]. Qed.
  Lemma rel_bind : forall {A B} (V : A -> A -> Prop) (W : B -> B -> Prop) m1 m2 k1 k2,
    rel V m1 m2 -> (forall a b, V a b -> rel W (k1 a) (k2 b)) -> rel W (bind m1 k1) (bind m2 k2).
  Proof.
    intros A B V W m1 m2 k1 k2 Hm Hk s1 s2 S. unfold bind. destruct (Hm s1 s2 S) as [S' R].
    destruct (m1 s1) as [s1' [a|e]], (m2 s2) as [s2' [b|e']]; cbn in S', R; try contradiction.
    - apply Hk; assumption.
    - split; assumption.
  Qed.
  Lemma rel_bind_eq : forall {A B} (W : B -> B -> Prop) (m1 m2 : MM A) k1 k2,
    rel eq m1 m2 -> (forall a, rel W (k1 a) (k2 a)) -> rel W (bind m1 k1) (bind m2 k2).
  Proof. intros A B W m1 m2 k1 k2 Hm Hk. eapply rel_bind; [exact Hm|]. intros a b <-. apply Hk. Qed.
  Lemma rel_when : forall b m1 m2, rel eq m1 m2 -> rel eq (when b m1) (when b m2).
  Proof. intros [|] m1 m2 H; [exact H|apply rel_ret; reflexivity]. Qed.
  Lemma rel_mapM : forall {A} (f g : A -> MM unit) l, (forall x, rel eq (f x) (g x)) -> rel eq (mapM_ f l) (mapM_ g l).
  Proof.
    intros A f g l H. induction l as [|x l IH]; [apply rel_ret; reflexivity|]. cbn [mapM_]. apply rel_bind_eq; [apply H|]. intros _. exact IH.
  Qed.

  (** ** the state *)
  Lemma rel_getT_V : forall i, rel Rr (getT i) (getT i).
  Proof. intros i s1 s2 S. split; [exact S|]. cbn. apply sim_get, S. Qed.

  (** a record read by code that does not look at its row or column *)
  Lemma rel_getT : forall {A} (W : A -> A -> Prop) i k1 k2,
    (forall x y r, k2 (rc x y r) = k2 r) -> (forall r, rel W (k1 r) (k2 r)) ->
    rel W (bind (getT i) k1) (bind (getT i) k2).
  Proof.
    intros A W i k1 k2 HI HK. eapply rel_bind; [apply rel_getT_V|]. intros a b Hab. destruct (Rr_form _ _ Hab) as (x & y & ->). rewrite HI. apply HK.
  Qed.
  Lemma rel_heap : rel heq (gets s_heap) (gets s_heap).
  Proof. intros s1 s2 S. split; [exact S|]. cbn. apply sim_heq, S. Qed.
  Lemma rel_getD : rel eq getD getD.
  Proof. intros s1 s2 S. split; [exact S|]. cbn. apply S. Qed.
  Lemma rel_getP : rel eq getP getP.
  Proof. intros s1 s2 S. split; [exact S|]. cbn. apply S. Qed.
  Lemma rel_gets : forall {A} (f : st -> A), (forall s1 s2, sim s1 s2 -> f s1 = f s2) -> rel eq (gets f) (gets f).
  Proof. intros A f H s1 s2 S. split; [exact S|]. cbn. apply H, S. Qed.
  Lemma rel_reads : forall {A} (f : st -> res A), (forall s1 s2, sim s1 s2 -> f s1 = f s2) -> rel eq (PyBase.reads f) (PyBase.reads f).
  Proof. intros A f H s1 s2 S. split; [exact S|]. cbn. rewrite (H _ _ S). destruct (f s2); reflexivity. Qed.
  Lemma rel_modT_V : forall i f g, (forall a b, Rr a b -> Rr (f a) (g b)) -> rel eq (modT i f) (modT i g).
  Proof.
    intros i f g H s1 s2 (Hh & Hd & Hp & Hr & Hs). split; [|reflexivity]. cbn.
    split; [|cbn; auto]. cbn. apply sim_upd; [exact Hh|]. apply H. apply sim_get, Hh.
  Qed.
  (** an update that leaves the row, the column, the class and the name alone *)
  Definition plain_upd (f : trec -> trec) : Prop :=
    forall r, (forall x y, f (rc x y r) = rc x y (f r)) /\ t_cls (f r) = t_cls r /\ t_col (f r) = t_col r
              /\ t_pt (f r) = t_pt r /\ t_rt (f r) = t_rt r /\ t_ftype (f r) = t_ftype r.
  Lemma rel_modT : forall i f, plain_upd f -> rel eq (modT i f) (modT i f).
  Proof.
    intros i f H. apply rel_modT_V. intros a b Hab. destruct (Rr_form _ _ Hab) as (x & y & ->). destruct (H a) as (C & Ec & Eo & Ep & Er & Ef).
    destruct Hab as (HE & HS & HF). unfold Rr. rewrite C. unfold same_but_row, no_row in *.
    change (is_section_cls (t_cls (rc x y (f a)))) with (is_section_cls (t_cls (f a))). change (is_section_cls (t_cls (rc x y a))) with (is_section_cls (t_cls a)) in HE.
    rewrite Ec. split; [|split; [|rewrite Ef; exact HF]].
    - destruct (is_section_cls (t_cls a)) eqn:K; [reflexivity|].
      assert (E : t_col a = y). { apply (f_equal t_col) in HE. exact HE. }
      rewrite <- E. rewrite <- Eo. destruct (f a). reflexivity.
    - intros K. specialize (HS K). destruct strict.
      + unfold colflag in *. rewrite Eo. exact HS.
      + unfold secname in *. rewrite Ep, Er. exact HS.
  Qed.
  Lemma rel_modD : forall f, rel eq (modD f) (modD f).
  Proof. intros f s1 s2 (Hh & Hd & Hp & Hr & Hs). split; [|reflexivity]. cbn. split; [exact Hh|]. cbn. rewrite Hd. auto. Qed.
  Lemma rel_modP : forall f, (strict = false -> forall p, p_dterms (f p) = p_dterms p) -> rel eq (modP f) (modP f).
  Proof.
    intros f H s1 s2 (Hh & Hd & Hp & Hr & Hs). split; [|reflexivity]. cbn. split; [exact Hh|]. cbn. rewrite Hp in *. repeat split; auto.
    intros K. rewrite (H K). auto.
  Qed.
  Lemma rel_alloc : forall a b, Rr a b -> rel eq (allocT a) (allocT b).
  Proof.
    intros a b Hab s1 s2 (Hh & Hd & Hp & Hr & Hs). split; cbn.
    - split; [|cbn; auto]. cbn. apply Forall2_app; [exact Hh|]. constructor; [exact Hab|constructor].
    - clear - Hh. induction Hh; cbn; congruence.
  Qed.

  (** ** pure readings of the heap *)
  Lemma hget_rc : forall i h, hget i (map (rc None None) h) = rc None None (hget i h).
  Proof. intros i h. unfold hget. change dummy_t with (rc None None dummy_t) at 1. apply map_nth. Qed.

  Lemma heq_get : forall i h1 h2, heq h1 h2 -> exists x y, hget i h2 = rc x y (hget i h1).
  Proof.
    intros i h1 h2 H. unfold heq in H. assert (E : rc None None (hget i h1) = rc None None (hget i h2)).
    { rewrite <- !hget_rc, H. reflexivity. }
    exists (t_row (hget i h2)), (t_col (hget i h2)). destruct (hget i h1), (hget i h2). unfold rc, set_t_row, set_t_col in *. cbn in *.
    injection E; intros; subst; reflexivity.
  Qed.

  (** a reading through one record *)
  Lemma heq_read : forall {A} (f : trec -> A) i h1 h2, (forall x y r, f (rc x y r) = f r) -> heq h1 h2 -> f (hget i h1) = f (hget i h2).
  Proof. intros A f i h1 h2 HF H. destruct (heq_get i _ _ H) as (x & y & ->). symmetry. apply HF. Qed.

  Ltac hr H := first [exact H | reflexivity].

  Lemma heq_names : forall h1 h2 parent term, heq h1 h2 -> term_names h1 parent term = term_names h2 parent term.
  Proof.
    intros h1 h2 [i|] term H; unfold term_names; [|reflexivity]. rewrite (heq_read t_rt i _ _ (fun _ _ _ => eq_refl) H). reflexivity.
  Qed.
  Lemma heq_child_matches : forall h1 h2 n v c, heq h1 h2 -> child_matches h1 n v c = child_matches h2 n v c.
  Proof.
    intros h1 h2 n v c H. apply (heq_read (fun r => eqs (rt_lc r) (lower n) && match v with VFalse => true | _ => veq (t_val r) v end)); [reflexivity|exact H].
  Qed.
  Lemma find_ext' : forall {A} (f g : A -> bool) l, (forall x, f x = g x) -> find f l = find g l.
  Proof. intros A f g l H. induction l as [|x l IH]; [reflexivity|]. cbn. rewrite H, IH. reflexivity. Qed.
  Lemma rmap_ext' : forall {A B} (f g : A -> res B) l, (forall x, f x = g x) -> rmap f l = rmap g l.
  Proof. intros A B f g l H. induction l as [|x l IH]; [reflexivity|]. cbn. rewrite H, IH. reflexivity. Qed.
  Lemma rfilter_ext' : forall {A} (f g : A -> res bool) l, (forall x, f x = g x) -> rfilter f l = rfilter g l.
  Proof. intros A f g l H. induction l as [|x l IH]; [reflexivity|]. cbn. rewrite H, IH. reflexivity. Qed.

  Lemma heq_find_first : forall h1 h2 i term v, heq h1 h2 -> term_find_first h1 i term v = term_find_first h2 i term v.
  Proof.
    intros h1 h2 i term v H. unfold term_find_first.
    rewrite (heq_read (fun r => child_name r term) i _ _ (fun _ _ _ => eq_refl) H). destruct (child_name (hget i h2) term) as [n|e]; [|reflexivity]. cbn [rbind].
    rewrite (heq_read t_children i _ _ (fun _ _ _ => eq_refl) H). f_equal. apply find_ext'. intros c. apply heq_child_matches, H.
  Qed.
  Lemma heq_getitem : forall h1 h2 i item, heq h1 h2 -> term_getitem h1 i item = term_getitem h2 i item.
  Proof.
    intros h1 h2 i item H. unfold term_getitem. rewrite (heq_read (fun r => lower (t_tvn r)) i _ _ (fun _ _ _ => eq_refl) H), (heq_find_first _ _ _ _ _ H). reflexivity.
  Qed.
  Lemma heq_property_names : forall h1 h2 r, heq h1 h2 -> property_names h1 r = property_names h2 r.
  Proof.
    intros h1 h2 r H. unfold property_names. destruct (is_section_cls (t_cls r)); [reflexivity|]. destruct (t_section r) as [i|]; [|reflexivity].
    apply (heq_read sec_property_names); [reflexivity|exact H].
  Qed.
  Lemma heq_arg_props : forall h1 h2 r, heq h1 h2 -> arg_props h1 r = arg_props h2 r.
  Proof.
    intros h1 h2 r H. unfold arg_props. destruct (t_section r) as [i|]; [|reflexivity].
    rewrite (heq_read (fun r => is_section_cls (t_cls r)) i _ _ (fun _ _ _ => eq_refl) H).
    rewrite (heq_read sec_property_names i _ _ (fun _ _ _ => eq_refl) H).
    rewrite (heq_property_names h1 h2 _ H).
    rewrite (heq_read (property_names h2) i _ _ (fun _ _ _ => eq_refl) H). reflexivity.
  Qed.
  Lemma heq_length : forall h1 h2, heq h1 h2 -> List.length h1 = List.length h2.
  Proof. intros h1 h2 H. rewrite <- (map_length (rc None None) h1), <- (map_length (rc None None) h2), H. reflexivity. Qed.
  Lemma heq_desc : forall h1 h2, heq h1 h2 -> forall n i, descendents n h1 i = descendents n h2 i.
  Proof.
    intros h1 h2 H n. induction n as [|n IH]; intros i; [reflexivity|]. cbn [descendents].
    rewrite (heq_read t_children i _ _ (fun _ _ _ => eq_refl) H). induction (t_children (hget i h2)) as [|c cs IHc]; [reflexivity|].
    rewrite IH, IHc. reflexivity.
  Qed.
  Lemma heq_section_terms : forall h1 h2, heq h1 h2 -> forall i, section_all_terms h1 i = section_all_terms h2 i.
  Proof.
    intros h1 h2 H i. unfold section_all_terms, heap_fuel. rewrite (heq_length _ _ H).
    rewrite (heq_read t_terms i _ _ (fun _ _ _ => eq_refl) H), (heq_read t_val i _ _ (fun _ _ _ => eq_refl) H).
    erewrite rmap_ext'; [reflexivity|]. intros t. cbn beta. rewrite (heq_desc _ _ H). reflexivity.
  Qed.
  Lemma heq_in_section : forall h1 h2 r sa, heq h1 h2 -> in_section h1 r sa = in_section h2 r sa.
  Proof.
    intros h1 h2 r sa H. unfold in_section. destruct sa as [|n|l]; [reflexivity| |]; destruct (t_section r) as [i|]; try reflexivity.
    - rewrite (heq_read t_val i _ _ (fun _ _ _ => eq_refl) H). reflexivity.
    - rewrite (heq_read t_val i _ _ (fun _ _ _ => eq_refl) H). reflexivity.
  Qed.
  Lemma heq_find_test : forall h1 h2 term v sa i, heq h1 h2 -> find_test h1 term v sa i = find_test h2 term v sa i.
  Proof.
    intros h1 h2 term v sa i H. unfold find_test. cbv zeta. destruct (heq_get i _ _ H) as (x & y & ->).
    rewrite (heq_in_section h1 h2 _ _ H). reflexivity.
  Qed.
  Lemma sim_find1 : forall s1 s2 term v sa, sim s1 s2 -> find1 s1 term v sa = find1 s2 term v sa.
  Proof.
    intros s1 s2 term v sa (Hh & Hd & Hp & Hr & Hs). apply sim_heq in Hh. unfold find1, all_terms. cbv zeta. rewrite Hd.
    erewrite (rmap_ext' (fun kv => section_all_terms (s_heap s1) (snd kv))); [|intros kv; apply heq_section_terms, Hh].
    destruct (if startswith _ _ then _ else _) as [l|e]; [|reflexivity]. cbn [rbind]. apply rfilter_ext'. intros i. apply heq_find_test, Hh.
  Qed.
  Lemma sim_doc_find : forall s1 s2 term v sa, sim s1 s2 -> doc_find s1 term v sa = doc_find s2 term v sa.
  Proof.
    intros s1 s2 term v sa S. unfold doc_find, find_list. assert (Hd : s_doc s1 = s_doc s2) by apply S. rewrite Hd.
    destruct (dget _ _) as [ds|]; [|apply sim_find1, S]. erewrite rmap_ext'; [reflexivity|]. intros e. apply sim_find1, S.
  Qed.
  Lemma sim_val : forall s1 s2 i, sim s1 s2 -> t_val (tget i s1) = t_val (tget i s2).
  Proof. intros s1 s2 i (Hh & _). apply sim_heq in Hh. exact (heq_read t_val i _ _ (fun _ _ _ => eq_refl) Hh). Qed.
  Lemma sim_section_get_term : forall s1 s2 sec term v, sim s1 s2 -> section_get_term s1 sec term v = section_get_term s2 sec term v.
  Proof.
    intros s1 s2 sec term v S. unfold section_get_term, doc_find_first, section_name. rewrite (sim_val _ _ sec S), (sim_doc_find _ _ _ _ _ S). reflexivity.
  Qed.
  Lemma sim_class : forall name s1 s2, sim s1 s2 -> doc_term_class name s1 = doc_term_class name s2.
  Proof. intros name s1 s2 (Hh & Hd & Hp & Hr & Hs). unfold doc_term_class. rewrite Hd, Hr. reflexivity. Qed.
  Lemma sim_super : forall s1 s2, sim s1 s2 -> super_terms s1 = super_terms s2.
  Proof. intros s1 s2 (Hh & Hd & Hp & Hr & Hs). unfold super_terms. rewrite Hd, Hp. reflexivity. Qed.
  Lemma sim_pclass : forall name s1 s2, sim s1 s2 -> parser_term_class name s1 = parser_term_class name s2.
  Proof. intros name s1 s2 S. unfold parser_term_class. rewrite (sim_super _ _ S). destruct S as (_ & _ & _ & Hr & _). rewrite Hr. reflexivity. Qed.

  (** ** the operations *)
  Ltac pu := intros ?; repeat split; reflexivity.
  Ltac rstep :=
    match goal with
    | |- forall _, _ => intro
    | |- rel _ (bind (getT _) _) (bind (getT _) _) => apply rel_getT; [intros; reflexivity|intro]
    | |- rel _ (bind (gets s_heap) _) _ => eapply rel_bind; [apply rel_heap|let h1 := fresh "h1" in let h2 := fresh "h2" in let H := fresh "HQ" in intros h1 h2 H]
    | |- rel _ (bind _ _) _ => apply rel_bind_eq; [|intro]
    | |- rel _ (ret _) _ => apply rel_ret; reflexivity
    | |- rel _ (raise _) _ => apply rel_raise
    | |- rel _ (lift _) _ => apply rel_lift; try reflexivity
    | |- rel _ (assert_ _) _ => apply rel_assert; try reflexivity
    | |- rel _ (when _ _) _ => apply rel_when
    | |- rel _ (modT _ _) _ => apply rel_modT; pu
    | |- rel _ (modD _) _ => apply rel_modD
    | |- rel _ getD _ => apply rel_getD
    | |- rel _ getP _ => apply rel_getP
    | |- rel _ (gets (doc_term_class _)) _ => apply rel_gets; apply sim_class
    | |- rel _ (gets (parser_term_class _)) _ => apply rel_gets; apply sim_pclass
    | |- rel _ (mapM_ _ _) _ => apply rel_mapM; intro
    | |- rel _ (if ?b then _ else _) (if ?b then _ else _) => destruct b
    | |- rel _ (match ?x with _ => _ end) (match ?x with _ => _ end) => destruct x
    end.

  Lemma r_add_child : forall p c, rel eq (add_child p c) (add_child p c).
  Proof. intros p c. unfold add_child. repeat rstep. Qed.
  Lemma r_add_section : forall i, rel eq (add_section i) (add_section i).
  Proof. intros i. unfold add_section. repeat rstep. Qed.

  Definition ft_ok (ft : option string) : Prop := strict = false -> ft <> Some "declare".

  Lemma r_mk_plain : forall c term v args row1 row2 col ft parent doc sec, ft_ok ft -> is_section_cls c = false ->
    rel eq (mk_plain c term v args row1 col ft parent doc sec) (mk_plain c term v args row2 col ft parent doc sec).
  Proof.
    intros c term v args row1 row2 col ft parent doc sec HF HC. unfold mk_plain. rstep. apply rel_bind_eq; [apply rel_lift, heq_names, HQ|]. intros [p r].
    apply rel_bind_eq.
    { apply rel_assert. destruct parent as [i|]; [|reflexivity]. rewrite (heq_read rt_lc i _ _ (fun _ _ _ => eq_refl) HQ). reflexivity. }
    intros _. apply rel_alloc. split; [|split; [cbn; rewrite HC; discriminate|exact HF]]. unfold same_but_row, no_row. cbn. rewrite HC. reflexivity.
  Qed.

  (** rows of the two runs that may hold a section *)
  Definition rows_ok (r1 r2 : option nat) : Prop :=
    strict = true -> option_map (Nat.ltb 1) r1 = option_map (Nat.ltb 1) r2.

  Lemma term_is_name_sec : forall p r v, v = "Root.Section" \/ v = "Root.Root" -> term_is_name p r v = Ok true ->
    dotted (lower p) (lower r) = lower v.
  Proof.
    intros p r v [->| ->] H; unfold term_is_name in H; cbn in H; injection H as H;
      destruct (eqs (dotted (lower p) (lower r)) _) eqn:E; try (apply eqs_true in E; exact E);
      repeat match type of H with context [if ?b then _ else _] => destruct b eqn:?; try discriminate H end; discriminate H.
  Qed.

  Lemma split_lower_id : forall term p r, split_term_lower term = Ok (p, r) -> lower p = p /\ lower r = r.
  Proof.
    intros term p r H. unfold split_term_lower in H. destruct (split_term term) as [[a b]|e]; [|discriminate H]. cbn in H. injection H as <- <-.
    split; apply lower_idem.
  Qed.

  Lemma r_mk_section : forall c term v args row1 row2 ft, ft_ok ft -> is_section_cls c = true ->
    (forall p r, split_term_lower term = Ok (p, r) ->
        dotted (lower p) (lower r) = "root.section" \/ dotted (lower p) (lower r) = "root.root" -> rows_ok row1 row2) ->
    rel eq (mk_section c term v args row1 ft) (mk_section c term v args row2 ft).
  Proof.
    intros c term v args row1 row2 ft HF HC HK. unfold mk_section. rstep; [apply rel_getD|]. apply rel_bind_eq; [repeat rstep|]. intros sargs.
    destruct (split_term_lower term) as [[p r]|e] eqn:EST; [|intros s1 s2 S; split; [exact S|reflexivity]].
    intros s1 s2 S.
    assert (AL : dotted (lower p) (lower r) = "root.section" \/ dotted (lower p) (lower r) = "root.root" ->
        rel eq (allocT (mk_trec c None term p r (init_val v) (map strip sargs) None true ft row1 row1 "@value" "any" None [] [] [] [] "@value"))
               (allocT (mk_trec c None term p r (init_val v) (map strip sargs) None true ft row2 row2 "@value" "any" None [] [] [] [] "@value"))).
    { intros HN. apply rel_alloc. split.
      - unfold same_but_row, no_row. cbn. rewrite HC. reflexivity.
      - split; [|exact HF]. intros _. specialize (HK p r eq_refl HN). unfold rows_ok in HK. destruct strict.
        + unfold colflag. cbn. auto.
        + destruct (split_lower_id _ _ _ EST) as [E1 E2]. rewrite E1, E2 in HN. unfold secname. cbn.
          destruct HN as [HN|HN]; [destruct (dotted_one p r "root" "section" HN eq_refl eq_refl)|destruct (dotted_one p r "root" "root" HN eq_refl eq_refl)]; auto. }
    unfold bind, lift. destruct (term_is_name p r "Root.Section") as [[|]|e1] eqn:E1.
    - cbn [ret fst snd assert_ orb]. unfold ret. apply AL; [|exact S]. left. apply (term_is_name_sec p r "Root.Section"); auto.
    - destruct (term_is_name p r "Root.Root") as [[|]|e2] eqn:E2; cbn [assert_ orb]; unfold ret, raise.
      + apply AL; [|exact S]. right. apply (term_is_name_sec p r "Root.Root"); auto.
      + split; [exact S|reflexivity].
      + split; [exact S|reflexivity].
    - split; [exact S|reflexivity].
  Qed.

  Lemma r_construct : forall c term v args row1 row2 col ft parent doc sec, ft_ok ft ->
    (forall p r, split_term_lower term = Ok (p, r) ->
        dotted (lower p) (lower r) = "root.section" \/ dotted (lower p) (lower r) = "root.root" -> rows_ok row1 row2) ->
    rel eq (construct c term v args row1 col ft parent doc sec) (construct c term v args row2 col ft parent doc sec).
  Proof.
    intros c term v args row1 row2 col ft parent doc sec HF HK. unfold construct.
    destruct c; try (apply r_mk_plain; [exact HF|reflexivity]); [|apply rel_raise].
    destruct parent; [apply rel_raise|]. destruct sec; [apply rel_raise|]. destruct doc; [|apply rel_raise].
    apply r_mk_section; [exact HF|reflexivity|exact HK].
  Qed.
  Lemma r_construct_same : forall c term v args row col ft parent doc sec, ft_ok ft ->
    rel eq (construct c term v args row col ft parent doc sec) (construct c term v args row col ft parent doc sec).
  Proof. intros. apply r_construct; [assumption|]. intros p r _ _ _. reflexivity. Qed.

  Lemma r_goc_check : forall i rt c, rel eq (goc_check i rt c) (goc_check i rt c).
  Proof. intros i rt c. unfold goc_check. rstep. rstep; [apply rel_lift, heq_find_first, HQ|]. repeat rstep. Qed.

  Lemma r_goc0 : forall i term v, rel eq (get_or_new_child0 i term v) (get_or_new_child0 i term v).
  Proof.
    intros i term v. unfold get_or_new_child0. rstep; [repeat rstep|]. destruct a as [x rt]. rstep. cbv zeta. rstep. rstep; [apply rel_lift, heq_find_first, HQ|].
    rstep; [|rstep; [apply r_goc_check|repeat rstep]].
    destruct a as [c|].
    - repeat rstep.
    - rstep; [repeat rstep|]. rstep; [repeat rstep|]. rstep; [apply r_construct_same; intros _; discriminate|]. repeat rstep.
  Qed.

  Lemma r_set_child_item : forall i item v, rel eq (set_child_item i item v) (set_child_item i item v).
  Proof.
    intros i item v. unfold set_child_item. rstep; [apply r_goc0|]. rstep. rstep; [apply rel_lift, heq_getitem, HQ|].
    cbv zeta. rstep. rewrite (heq_read t_val a0 _ _ (fun _ _ _ => eq_refl) HQ). reflexivity.
  Qed.

  Lemma r_set_section_plain : forall t i, rel eq (set_section_plain t i) (set_section_plain t i).
  Proof.
    intros t i. unfold set_section_plain. rstep. rstep. destruct (eqs (lower (t_tvn r)) "section"); [repeat rstep|].
    rewrite (heq_property_names h1 h2 r HQ). destruct (mem_str _ _); [apply r_set_child_item|repeat rstep].
  Qed.

  Lemma r_set_ownership : forall n t, rel eq (set_ownership n t) (set_ownership n t).
  Proof. induction n as [|n IH]; intros t; [apply rel_raise|]. cbn [set_ownership]. repeat rstep. apply IH. Qed.

  Lemma r_add_term_meta : forall t, rel eq (add_term_meta t) (add_term_meta t).
  Proof.
    intros t. unfold add_term_meta. rstep. rstep; [repeat rstep|]. cbv zeta. rstep; [repeat rstep|]. rstep; [repeat rstep|]. rstep.
    assert (E : match t_section r with Some s => t_dtvn (hget s h1) | None => "" end = match t_section r with Some s => t_dtvn (hget s h2) | None => "" end).
    { destruct (t_section r) as [i|]; [|reflexivity]. exact (heq_read t_dtvn i _ _ (fun _ _ _ => eq_refl) HQ). }
    rstep; [|repeat rstep]. rewrite E. destruct (eqs (t_tvn r) "" || _); [|repeat rstep].
    repeat rstep.
  Qed.

  Lemma r_add_term_list : forall t, rel eq (add_term_list t) (add_term_list t).
  Proof.
    intros t. unfold add_term_list. rstep; [repeat rstep|]. rstep; [repeat rstep|]. destruct (mem_id _ _); [repeat rstep|].
    rstep. rstep; [repeat rstep|]. rstep; [|repeat rstep]. destruct (is_section_cls (t_cls r)); [|repeat rstep]. rstep; [apply r_add_section|repeat rstep].
  Qed.

  Lemma r_nosec : forall t, rel eq (doc_add_term_nosec t) (doc_add_term_nosec t).
  Proof. intros t. unfold doc_add_term_nosec. rstep; [apply r_add_term_list|]. rstep. apply r_add_term_meta. Qed.

  Lemma r_section_add_term : forall sec t, rel eq (section_add_term sec t) (section_add_term sec t).
  Proof.
    intros sec t. unfold section_add_term. rstep. rstep. rstep; [|repeat rstep]. destruct (mem_id _ _); [repeat rstep|]. destruct (eqs _ _); [|apply rel_raise].
    rstep; [repeat rstep|]. rstep; [repeat rstep|]. rstep; [apply r_nosec|]. rstep. unfold heap_fuel. rewrite (heq_length _ _ HQ). apply r_set_ownership.
  Qed.

  Lemma r_doc_add_term : forall t, rel eq (doc_add_term t) (doc_add_term t).
  Proof.
    intros t. unfold doc_add_term. rstep; [apply r_add_term_list|]. rstep. rstep. rstep; [|apply r_add_term_meta].
    destruct (t_section r) as [i|]; [|repeat rstep]. destruct (eqs _ _); [|repeat rstep]. rstep; [apply r_add_section|]. rstep; [apply r_set_section_plain|].
    rstep. destruct (t_section r0); [apply r_section_add_term|apply rel_raise].
  Qed.

  Lemma r_new_child0 : forall i term v, rel eq (new_child0 i term v) (new_child0 i term v).
  Proof.
    intros i term v. unfold new_child0. rstep. rstep; [repeat rstep|]. rstep; [repeat rstep|]. rstep; [apply r_construct_same; intros _; discriminate|]. rstep; [repeat rstep|].
    rstep; [|repeat rstep]. apply rel_modT. intros q. split; [|split; [|split; [|split; [|split]]]]; intros; cbv beta;
      try change (tjoin (rc x y q)) with (tjoin q);
      destruct (dget (tjoin q) (d_decl_terms a2)) as [td|]; try reflexivity; destruct (dget "termvaluename" (td_props td)); reflexivity.
  Qed.
  Lemma r_new_children : forall i kw, rel eq (new_children i kw) (new_children i kw).
  Proof. intros i kw. unfold new_children. rstep. rstep; [apply r_new_child0|repeat rstep]. Qed.

  Lemma r_new_term : forall sec term v kw, rel eq (Ops.new_term sec term v kw) (Ops.new_term sec term v kw).
  Proof.
    intros sec term v kw. unfold Ops.new_term. rstep. rstep; [repeat rstep|]. rstep; [repeat rstep|]. rstep; [apply r_construct_same; intros _; discriminate|].
    rstep; [apply r_new_children|]. rstep; [apply r_doc_add_term|repeat rstep].
  Qed.
  Lemma r_goc_term : forall sec term v kw, rel eq (get_or_new_term sec term v kw) (get_or_new_term sec term v kw).
  Proof.
    intros sec term v kw. unfold get_or_new_term. rstep; [apply rel_reads; intros s1 s2; apply sim_section_get_term|].
    destruct a as [t|]; [|apply r_new_term]. rstep; [repeat rstep|]. rstep; [|repeat rstep]. rstep. rstep; [apply r_goc0|repeat rstep].
  Qed.
  Lemma r_set_section_sec : forall t o, rel eq (set_section_sec t o) (set_section_sec t o).
  Proof.
    intros t o. unfold set_section_sec, section_setitem. rstep. destruct (eqs _ _); [repeat rstep|]. destruct (mem_str _ _); [|repeat rstep].
    rstep; [apply r_goc_term|repeat rstep].
  Qed.
  Lemma r_set_section : forall t o, rel eq (set_section t o) (set_section t o).
  Proof.
    intros t o. unfold set_section. rstep. destruct (is_section_cls _); [apply r_set_section_sec|]. destruct o; [apply r_set_section_plain|repeat rstep].
  Qed.

  (** ** the consumer *)
  Ltac rmore :=
    match goal with
    | |- rel _ (modP _) _ => apply rel_modP; intros _ ?; reflexivity
    | _ => rstep
    end.

  Lemma upd_same_tget : forall i f s, tget i (fst (modT i f s)) = f (tget i s) \/ fst (modT i f s) = s.
  Proof.
    intros i f s. destruct (Nat.ltb_spec i (hlen s)) as [L|L].
    - left. cbn. unfold tget, hget. cbn. unfold hlen in L. revert i L. induction (s_heap s) as [|x l IH]; intros i L; [cbn in L; lia|].
      destruct i; [reflexivity|]. cbn in *. destruct (nth i l dummy_t) eqn:E; rewrite <- E. apply (IH i). lia.
    - right. cbn. unfold hlen in L. assert (E : upd i (f (tget i s)) (s_heap s) = s_heap s).
      { revert L. generalize (f (tget i s)). intros x. revert i. induction (s_heap s) as [|y l IH]; intros i L; [destruct i; reflexivity|].
        destruct i; [cbn in L; lia|]. cbn. f_equal. apply IH. cbn in L. lia. }
      rewrite E. destruct s. reflexivity.
  Qed.

  Lemma r_rename : forall t, rel eq (rename_term t) (rename_term t).
  Proof.
    intros t. destruct strict eqn:ES.
    - assert (PU : forall f, (forall r, (forall x y, f (rc x y r) = rc x y (f r)) /\ t_cls (f r) = t_cls r /\ t_col (f r) = t_col r /\ t_ftype (f r) = t_ftype r) ->
                rel eq (modT t f) (modT t f)).
      { intros f H. apply rel_modT_V. intros a b Hab. destruct (Rr_form _ _ Hab) as (x & y & ->). destruct (H a) as (C & Ec & Eo & Ef).
        destruct Hab as (HE & HS & HF). unfold Rr. rewrite C. unfold same_but_row, no_row in *.
        change (is_section_cls (t_cls (rc x y (f a)))) with (is_section_cls (t_cls (f a))). change (is_section_cls (t_cls (rc x y a))) with (is_section_cls (t_cls a)) in HE.
        rewrite Ec. split; [|split; [|rewrite Ef; exact HF]].
        - destruct (is_section_cls (t_cls a)) eqn:K; [reflexivity|]. assert (E : t_col a = y). { apply (f_equal t_col) in HE. exact HE. }
          rewrite <- E. rewrite <- Eo. destruct (f a). reflexivity.
        - intros K. specialize (HS K). rewrite ES in *. unfold colflag in *. rewrite Eo. exact HS. }
      unfold rename_term. rstep. rstep; [repeat rstep|]. rstep.
      + destruct (dget _ _); [|repeat rstep]. rstep; [repeat rstep|]. destruct a0 as [x y]. apply PU. intros q. repeat split; reflexivity.
      + rstep. destruct (py_int _); [|repeat rstep]. destruct (pindex _ _); [|repeat rstep]. apply PU. intros q. repeat split; reflexivity.
    - intros s1 s2 S. assert (S0 := S). destruct S as (Hh & Hd & Hp & Hr & Hs). unfold rename_term, bind, getT, getP, gets. rewrite <- Hp. rewrite (Hs ES).
      change (synonyms installed_terms) with (@nil (string * string)). cbn [dget]. unfold ret.
      assert (HR := sim_get t _ _ Hh). fold (tget t s1) (tget t s2) in HR. destruct (Rr_form _ _ HR) as (x & y & E). rewrite E. change (t_rt (rc x y (tget t s1))) with (t_rt (tget t s1)).
      destruct (py_int (t_rt (tget t s1))) as [z|] eqn:EI; [|split; [exact S0|reflexivity]].
      destruct (pindex z (p_pmap (s_prs s1))) as [n|]; [|split; [exact S0|reflexivity]].
      assert (K : is_section_cls (t_cls (tget t s1)) = false).
      { destruct (is_section_cls (t_cls (tget t s1))) eqn:K; [|reflexivity]. exfalso. destruct HR as (_ & HS & _). specialize (HS K). rewrite ES in HS.
        destruct HS as [_ [E'|E']]; rewrite E' in EI; discriminate EI. }
      cbn. split; [|reflexivity]. split; [|cbn; auto]. cbn. apply sim_upd; [exact Hh|]. rewrite E.
      destruct HR as (HE & HS & HF). split; [|split].
      + rewrite E in HE. unfold same_but_row, no_row in *. change (t_cls (set_t_rt n ?q)) with (t_cls q). change (t_cls (rc x y ?q)) with (t_cls q) in *. rewrite K in *.
        apply (f_equal (set_t_rt n)) in HE. exact HE.
      + change (t_cls (set_t_rt n ?q)) with (t_cls q). rewrite K. discriminate.
      + exact HF.
  Qed.

  Lemma r_set_meta : forall t, rel eq (set_meta t) (set_meta t).
  Proof. intros t. unfold set_meta. rstep; [repeat rstep|]. apply rel_modT. pu. Qed.

  (** code run on a term that is not a section (unless [strict]) *)
  Definition relp {A} (t : nat) (V : A -> A -> Prop) (m1 m2 : MM A) : Prop :=
    forall s1 s2, sim s1 s2 -> (strict = true \/ is_section_cls (t_cls (tget t s1)) = false) ->
    sim (fst (m1 s1)) (fst (m2 s2)) /\ rres V (snd (m1 s1)) (snd (m2 s2)).

  Lemma sim_modT_at : forall t f s1 s2, sim s1 s2 -> Rr (f (tget t s1)) (f (tget t s2)) -> sim (fst (modT t f s1)) (fst (modT t f s2)).
  Proof. intros t f s1 s2 (Hh & Hd & Hp & Hr & Hs) H. split; [|cbn; auto]. cbn. apply sim_upd; assumption. Qed.

  Lemma bind_ok_run : forall {A B} (m : MM A) (k : A -> MM B) s a, snd (m s) = Ok a -> bind m k s = k a (fst (m s)).
  Proof. intros A B m k s a H. unfold bind. destruct (m s) as [s' r]. cbn in *. subst r. reflexivity. Qed.

  Lemma bind_at : forall {A B} (W : B -> B -> Prop) (m1 m2 : MM A) k1 k2 s1 s2,
    sim (fst (m1 s1)) (fst (m2 s2)) /\ rres eq (snd (m1 s1)) (snd (m2 s2)) -> (forall a, rel W (k1 a) (k2 a)) ->
    sim (fst (bind m1 k1 s1)) (fst (bind m2 k2 s2)) /\ rres W (snd (bind m1 k1 s1)) (snd (bind m2 k2 s2)).
  Proof.
    intros A B W m1 m2 k1 k2 s1 s2 [S R] HK. unfold bind. destruct (m1 s1) as [u1 [a1|e1]], (m2 s2) as [u2 [a2|e2]]; cbn in S, R; try contradiction.
    - subst a2. apply HK. exact S.
    - split; assumption.
  Qed.

  Lemma r_attach : forall t, relp t eq (attach t) (attach t).
  Proof.
    intros t s1 s2 S HT. assert (Hp : s_prs s1 = s_prs s2) by apply S.
    assert (HR : Rr (tget t s1) (tget t s2)) by (apply sim_get, S). destruct (Rr_form _ _ HR) as (x & y & E).
    unfold attach. rewrite !(bind_ok_run (getT t) _ _ _ eq_refl), !(bind_ok_run getP _ _ _ eq_refl). cbn [getT getP gets fst]. rewrite <- Hp, E.
    change (t_pt (rc x y (tget t s1))) with (t_pt (tget t s1)). change (t_rt (rc x y (tget t s1))) with (t_rt (tget t s1)). change (t_col (rc x y (tget t s1))) with y.
    assert (HC : option_map (Nat.ltb 1) (t_col (tget t s1)) = option_map (Nat.ltb 1) y).
    { destruct HR as (HE & HS & _). unfold same_but_row, no_row in HE. rewrite E in HE. change (t_cls (rc x y (tget t s1))) with (t_cls (tget t s1)) in HE.
      destruct (is_section_cls (t_cls (tget t s1))) eqn:K.
      - destruct HT as [HT|HT]; [|discriminate HT]. specialize (HS eq_refl). rewrite HT in HS. unfold colflag in HS. rewrite E in HS. exact HS.
      - apply (f_equal t_col) in HE. cbn in HE. rewrite HE. reflexivity. }
    destruct (eqs (t_pt (tget t s1)) ELIDED_TERM) eqn:EE.
    - rewrite !(bind_ok_run (modT t _) _ _ tt eq_refl).
      assert (S' : sim (fst (modT t (set_t_pt (p_lastparent (s_prs s1))) s1)) (fst (modT t (set_t_pt (p_lastparent (s_prs s1))) s2))).
      { apply sim_modT_at; [exact S|]. rewrite E. destruct HR as (HE & HS & HF). rewrite E in *. split; [|split].
        - apply (f_equal (set_t_pt (p_lastparent (s_prs s1)))) in HE. unfold same_but_row, no_row in *. change (t_cls (set_t_pt ?v ?q)) with (t_cls q).
          change (t_cls (rc x y ?q)) with (t_cls q) in *. destruct (is_section_cls (t_cls (tget t s1))); exact HE.
        - change (t_cls (set_t_pt ?v ?q)) with (t_cls q). intros K. rewrite K in HT. destruct HT as [HT|HT]; [|discriminate HT]. rewrite HT in *. exact (HS K).
        - exact HF. }
      destruct (dget _ _); [apply r_add_child; exact S'|split; [exact S'|reflexivity]].
    - destruct (t_col (tget t s1)) as [c|] eqn:EC, y as [c'|]; try discriminate HC; [|split; [exact S|reflexivity]].
      cbn [option_map] in HC. injection HC as HC. rewrite HC. destruct (Nat.ltb 1 c').
      + destruct (dget _ _); [apply r_add_child; exact S|split; [exact S|reflexivity]].
      + apply rel_bind_eq; [rmore| |exact S]. intros _. apply rel_bind_eq; [rmore|]. intros p'. destruct (dget _ _); [apply r_add_child|apply rel_raise].
  Qed.

  Lemma r_consume_normal : forall t, relp t eq (consume_normal t) (consume_normal t).
  Proof.
    intros t s1 s2 S HT. unfold consume_normal. rewrite !(bind_ok_run (set_meta t) _ _ tt eq_refl).
    assert (S1 := proj1 (r_set_meta t s1 s2 S)).
    assert (HT1 : strict = true \/ is_section_cls (t_cls (tget t (fst (set_meta t s1)))) = false).
    { destruct HT as [HT|HT]; [left; exact HT|right]. unfold set_meta. rewrite (bind_ok_run getP _ _ _ eq_refl). cbn [getP gets fst].
      match goal with |- context [modT t ?f s1] => destruct (upd_same_tget t f s1) as [E|E]; rewrite E; [exact HT|exact HT] end. }
    apply bind_at; [exact (r_attach t _ _ S1 HT1)|]. intros _. rstep. rstep; [repeat rstep|]. rstep. apply r_section_add_term.
  Qed.

  (** ** declarations; only when [strict] *)
  Section Declare.
    Hypothesis HS : strict = true.
    Ltac rd :=
      match goal with
      | |- rel _ (modP _) _ => apply rel_modP; rewrite HS; discriminate
      | _ => rstep
      end.

    Lemma r_add_to_section : forall x props, rel eq (add_term_to_section x props) (add_term_to_section x props).
    Proof. intros x props. unfold add_term_to_section. repeat rd. Qed.
    Lemma r_inherit : forall n a b c k, rel eq (inherit_loop n a b c k) (inherit_loop n a b c k).
    Proof.
      induction n as [|n IH]; intros a b c k; [apply rel_raise|]. cbn [inherit_loop]. rd; [rd|]. destruct (dget c (p_dsecs a0)) as [sd|]; [|apply rel_raise].
      destruct (nth_error _ _); [|rd]. rd; [|apply IH]. rd. rd; [rd|]. destruct a1 as [z w]. destruct (dget _ _); [|apply rel_raise]. cbv zeta.
      rd; [rd|]. rd; [rd|]. apply r_add_to_section.
    Qed.
    Lemma r_add_declared : forall t, rel eq (add_declared_term t) (add_declared_term t).
    Proof.
      intros t. unfold add_declared_term. rd. rd; [repeat rd|]. rd; [repeat rd|]. rd. rd; [apply rel_lift, heq_arg_props, HQ|]. rd; [repeat rd|]. cbv zeta.
      rd; [rd|]. rd.
      - destruct (dget "section" _); [|rd]. rd. apply r_add_to_section.
      - destruct (dget "inheritsfrom" _); [|rd]. destruct (nonempty _); [|rd]. destruct (dget "section" _); [|rd].
        rd; [rd|]. rd. rd; [rd|]. rd.
        apply rel_bind_eq; [|intro; apply r_inherit].
        apply rel_gets. intros u1 u2 (Hh & Hd & Hp & Hr & _). unfold inherit_fuel. rewrite Hp. reflexivity.
    Qed.
    Lemma r_add_value : forall t, rel eq (add_value_set_value t) (add_value_set_value t).
    Proof.
      intros t. unfold add_value_set_value. rd. rd. rd.
      - destruct (t_parent r) as [q|]; [|rd]. rewrite (heq_read join_lc q _ _ (fun _ _ _ => eq_refl) HQ). rd.
      - rd; [apply rel_lift, heq_arg_props, HQ|]. cbv zeta. rd.
    Qed.
    Lemma r_manage : forall t, rel eq (manage_declare_terms t) (manage_declare_terms t).
    Proof.
      intros t. unfold manage_declare_terms. rd. rd; [rd|]. destruct a; [|rd; [rd|]].
      - unfold add_declared_section. repeat rd.
      - destruct a; [apply r_add_declared|]. rd; [rd|]. destruct a; [apply r_add_value|rd].
    Qed.
  End Declare.

  Lemma term_is_root_section : forall r, secname r -> term_is r "root.section" = Ok true \/ term_is r "root.root" = Ok true.
  Proof. intros r [Ep [Er|Er]]; unfold term_is; rewrite Ep, Er; [left|right]; reflexivity. Qed.

  Lemma r_consume : forall t, rel eq (consume t) (consume t).
  Proof.
    intros t. unfold consume. rstep; [apply r_rename|]. rstep; [repeat rstep|]. rstep; [apply r_set_section|].
    intros s1 s2 S. rewrite !(bind_ok_run (getT t) _ _ _ eq_refl). cbn [getT gets fst].
    assert (HR : Rr (tget t s1) (tget t s2)) by (apply sim_get, S). destruct (Rr_form _ _ HR) as (x & y & E). rewrite E.
    change (term_is (rc x y (tget t s1))) with (term_is (tget t s1)). change (t_args (rc x y (tget t s1))) with (t_args (tget t s1)). change (t_val (rc x y (tget t s1))) with (t_val (tget t s1)).
    set (r := tget t s1) in *.
    assert (FIN : rel eq (r <- getT t ;; match t_ftype r with Some "declare" => manage_declare_terms t ;;; ret false | _ => ret true end)
                         (r <- getT t ;; match t_ftype r with Some "declare" => manage_declare_terms t ;;; ret false | _ => ret true end)).
    { clear. intros s1 s2 S. rewrite !(bind_ok_run (getT t) _ _ _ eq_refl). cbn [getT gets fst].
      assert (HR : Rr (tget t s1) (tget t s2)) by (apply sim_get, S). destruct (Rr_form _ _ HR) as (x & y & E). rewrite E. change (t_ftype (rc x y (tget t s1))) with (t_ftype (tget t s1)).
      destruct strict eqn:ES.
      - revert s1 s2 S HR E. intros s1 s2 S _ _. destruct (t_ftype (tget t s1)) as [f|]; [|apply rel_ret; [reflexivity|exact S]].
        assert (RM : rel eq (manage_declare_terms t ;;; ret false) (manage_declare_terms t ;;; ret false)) by (rstep; [apply r_manage; exact ES|rstep]).
        assert (RT : rel eq (ret true) (ret true)) by (apply rel_ret; reflexivity).
        repeat (match goal with |- context [match ?f with EmptyString => _ | String _ _ => _ end] => destruct f | |- context [match ?c with Ascii.Ascii _ _ _ _ _ _ _ _ => _ end] => destruct c
                | |- context [match ?b with true => _ | false => _ end] => destruct b end; try (apply RT; exact S)); first [apply RM; exact S|apply RT; exact S].
      - destruct HR as (_ & _ & HF). specialize (HF ES). assert (RT : rel eq (ret true) (ret true)) by (apply rel_ret; reflexivity).
        destruct (t_ftype (tget t s1)) as [f|]; [|apply RT; exact S].
        repeat (match goal with |- context [match ?f with EmptyString => _ | String _ _ => _ end] => destruct f | |- context [match ?c with Ascii.Ascii _ _ _ _ _ _ _ _ => _ end] => destruct c
                | |- context [match ?b with true => _ | false => _ end] => destruct b end; try (apply RT; exact S)); try (apply RT; exact S). contradiction HF; reflexivity. }
    destruct (term_is r "root.header") as [[|]|e]; [| |split; [exact S|reflexivity]].
    - rewrite !(bind_ok_run (lift (Ok true)) _ _ true eq_refl). cbn [lift fst]. generalize (t_args r) (t_val r). intros ar va. clear - S. revert s1 s2 S.
      match goal with |- forall u1 u2, sim u1 u2 -> sim (fst (?m1 u1)) (fst (?m2 u2)) /\ _ => change (rel eq m1 m2) end. repeat rmore.
    - rewrite !(bind_ok_run (lift (Ok false)) _ _ false eq_refl). cbn [lift fst].
      destruct (term_is r "root.section") as [b2|e] eqn:E2; [|split; [exact S|reflexivity]]. rewrite !(bind_ok_run (lift (Ok b2)) _ _ b2 eq_refl). cbn [lift fst].
      destruct (term_is r "root.root") as [b3|e] eqn:E3; [|split; [exact S|reflexivity]]. rewrite !(bind_ok_run (lift (Ok b3)) _ _ b3 eq_refl). cbn [lift fst].
      destruct b2; [|destruct b3].
      + generalize (t_args r). intros ar. clear - S FIN. revert s1 s2 S.
        match goal with |- forall u1 u2, sim u1 u2 -> sim (fst (?m1 u1)) (fst (?m2 u2)) /\ _ => change (rel eq m1 m2) end.
        apply rel_bind_eq; [|intros _; exact FIN]. rmore; [rmore|]. rmore.
        rewrite (heq_read t_rt (d_root a) _ _ (fun _ _ _ => eq_refl) HQ). apply rel_bind_eq; [rmore|]. intros _. apply r_set_section.
      + clear - S FIN. revert s1 s2 S.
        match goal with |- forall u1 u2, sim u1 u2 -> sim (fst (?m1 u1)) (fst (?m2 u2)) /\ _ => change (rel eq m1 m2) end.
        apply rel_bind_eq; [|intros _; exact FIN]. apply rel_bind_eq; [rmore|]. intros _. apply r_set_section.
      + assert (HT : strict = true \/ is_section_cls (t_cls (tget t s1)) = false).
        { destruct strict eqn:ES; [left; reflexivity|right]. destruct HR as (_ & HS & _). fold r. destruct (is_section_cls (t_cls r)); [|reflexivity].
          specialize (HS eq_refl). rewrite ES in HS. destruct (term_is_root_section _ HS) as [K|K]; rewrite K in *; discriminate. }
        apply bind_at; [exact (r_consume_normal t s1 s2 S HT)|]. intros _. exact FIN.
  Qed.

  (** ** the producer *)
  Lemma r_load1 : forall t, rel eq (load1 t) (load1 t).
  Proof.
    intros t. unfold load1. rstep; [repeat rstep|]. rstep. rstep; [repeat rstep|]. destruct a0; [repeat rstep|]. rstep; [repeat rstep|].
    destruct a0; [rstep; [apply r_add_section|repeat rstep]|]. destruct (eqs _ _); [apply r_doc_add_term|repeat rstep].
  Qed.
  Lemma r_emit : forall load t, rel eq (emit load t) (emit load t).
  Proof. intros load t. unfold emit. rstep; [apply r_consume|]. rstep. apply r_load1. Qed.

  Lemma r_construct_child : forall c term v args row1 row2 col ft p doc sec, ft_ok ft ->
    rel eq (construct c term v args row1 col ft (Some p) doc sec) (construct c term v args row2 col ft (Some p) doc sec).
  Proof.
    intros c term v args row1 row2 col ft p doc sec HF. unfold construct.
    destruct c; try (apply r_mk_plain; [exact HF|reflexivity]); apply rel_raise.
  Qed.

  Lemma r_emit_args : forall load ft l1 l2 t args col, ft_ok ft -> rel eq (emit_args load ft l1 t col args) (emit_args load ft l2 t col args).
  Proof.
    intros load ft l1 l2 t args col HF. revert col. induction args as [|v args IH]; intros col; [apply rel_ret; reflexivity|]. cbn [emit_args].
    rstep; [|apply IH]. rstep. rstep. cbv zeta. rstep; [repeat rstep|]. rstep; [apply r_construct_child, HF|]. apply r_emit.
  Qed.

  Lemma r_section_for : forall t, rel eq (section_for t) (section_for t).
  Proof.
    intros t. unfold section_for. rstep. eapply (rel_bind sim).
    - intros s1 s2 S. split; exact S.
    - intros u1 u2 U. assert (E : get_section (t_val r) u1 = get_section (t_val r) u2).
      { unfold get_section. destruct U as (_ & Hd & _). rewrite Hd. reflexivity. }
      rewrite E. repeat rstep.
  Qed.

  Section Files.
    Variables e1 e2 : env.
    Hypothesis HE : files_alike e1 e2.
    (** without [strict] there is nothing to fetch *)
    Hypothesis HN : strict = false -> no_files e1.

    Definition src_alike (a b : source) : Prop :=
      src_ref a = src_ref b /\ src_dir a = src_dir b /\ alike (src_rows a) (src_rows b)
      /\ (strict = true -> heading_kept (src_rows a) (src_rows b)).

    Lemma find_declare_same : forall d n, find_declare_doc e1 d n = find_declare_doc e2 d n.
    Proof. intros d n. destruct HE as (Hf & Hd & _). unfold find_declare_doc. rewrite !Hf, Hd. reflexivity. Qed.

    Lemma r_include : forall load rec1 rec2 a b ls t inc,
      src_ref a = src_ref b -> src_dir a = src_dir b ->
      (forall a b ft, ft_ok ft -> src_alike a b -> rel eq (rec1 a ft) (rec2 b ft)) ->
      rel eq (include_row e1 load rec1 a ls t inc) (include_row e2 load rec2 b ls t inc).
    Proof.
      intros load rec1 rec2 a b ls t inc HR HD HRec. unfold include_row. rstep. rstep; [repeat rstep|]. rewrite HD, HR, find_declare_same.
      rstep; [repeat rstep|]. rstep; [repeat rstep|]. rstep; [apply r_emit|].
      destruct HE as (_ & _ & Hf). specialize (Hf a1). destruct (fetch e1 a1) as [r1|] eqn:E1, (fetch e2 a1) as [r2|]; try contradiction; [|repeat rstep].
      assert (ES : strict = true). { destruct strict eqn:ES; [reflexivity|]. rewrite (HN eq_refl) in E1. discriminate E1. }
      rstep. rstep; [|apply r_emit]. apply HRec; [intros K; rewrite ES in K; discriminate K|]. cbn [src_ref src_dir src_rows]. destruct Hf as [F1 F2]. split; [reflexivity|]. split; [reflexivity|]. split; [exact F1|]. intros _. exact F2.
    Qed.

    Definition lines_ok (a b : list (list string)) (l1 l2 : nat) : Prop :=
      strict = true -> starts_section a -> ((1 < l1 \/ blank_first a) <-> (1 < l2 \/ blank_first b)).

    Lemma r_row : forall load rec1 rec2 a b ft l1 l2 row ls,
      src_ref a = src_ref b -> src_dir a = src_dir b -> ft_ok ft ->
      (forall a b ft, ft_ok ft -> src_alike a b -> rel eq (rec1 a ft) (rec2 b ft)) ->
      (strict = true -> skip_row row = false -> (cell_names (hd "" row) "root" "section" \/ cell_names (hd "" row) "root" "root") -> (1 < l1 <-> 1 < l2)) ->
      rel eq (row_step e1 load rec1 a ft l1 row ls) (row_step e2 load rec2 b ft l2 row ls).
    Proof.
      intros load rec1 rec2 a b ft l1 l2 row ls HR HD HF HRec HL. unfold row_step. destruct (skip_row row) eqn:ESK; [repeat rstep|].
      destruct (split_term_lower (hd "" row)) as [[p n]|e] eqn:ES; [|intros s1 s2 S; split; [exact S|reflexivity]].
      intros s1 s2 S. rewrite !(bind_ok_run (lift (Ok (p, n))) _ _ (p, n) eq_refl). cbn [lift fst]. revert s1 s2 S.
      match goal with |- forall u1 u2, sim u1 u2 -> sim (fst (?m1 u1)) (fst (?m2 u2)) /\ _ => change (rel eq m1 m2) end.
      cbv zeta. rstep; [repeat rstep|]. rstep.
      { apply r_construct; [exact HF|]. intros p' n' E' HN' ST. apply split_term_lower_spec in ES. assert (ED := cell_names_dotted _ _ _ ES). apply split_term_lower_spec in ED.
        unfold dotted in E'. rewrite ED in E'. injection E' as <- <-. cbn [option_map]. f_equal.
        destruct (split_lower_id _ _ _ (proj2 (split_term_lower_spec _ _ _) ES)) as [K1 K2]. rewrite K1, K2 in HN'.
        assert (HH : 1 < l1 <-> 1 < l2).
        { apply HL; [exact ST|reflexivity|]. destruct HN' as [HN'|HN'].
          - destruct (dotted_one p n "root" "section" HN' eq_refl eq_refl) as [-> ->]. left. exact ES.
          - destruct (dotted_one p n "root" "root" HN' eq_refl eq_refl) as [-> ->]. right. exact ES. }
        destruct (Nat.ltb_spec 1 l1), (Nat.ltb_spec 1 l2); try reflexivity; lia. }
      rstep. rstep; [repeat rstep|]. rstep; [repeat rstep|]. destruct (_ || _).
      - rstep; [apply r_include; assumption|repeat rstep].
      - rstep; [repeat rstep|]. rstep; [destruct a4; [apply r_section_for|repeat rstep]|]. rstep; [apply r_emit|]. rstep. rstep; [repeat rstep|]. rstep; [repeat rstep|].
        rstep; [|repeat rstep]. destruct (_ || _); [repeat rstep|]. apply r_emit_args, HF.
    Qed.

    Lemma starts_blank : forall r a, blank_row r -> starts_section a -> starts_section (r :: a).
    Proof. intros r a HB (bs & q & more & -> & F & N & C). exists (r :: bs), q, more. split; [reflexivity|]. split; [constructor; assumption|auto]. Qed.

    Lemma r_rows : forall load rec1 rec2 a b ft,
      src_ref a = src_ref b -> src_dir a = src_dir b -> ft_ok ft ->
      (forall a b ft, ft_ok ft -> src_alike a b -> rel eq (rec1 a ft) (rec2 b ft)) ->
      forall rows1 rows2, alike rows1 rows2 -> forall l1 l2 ls, 1 <= l1 -> 1 <= l2 -> lines_ok rows1 rows2 l1 l2 ->
      rel eq (rows_loop e1 load rec1 a ft l1 rows1 ls) (rows_loop e2 load rec2 b ft l2 rows2 ls).
    Proof.
      intros load rec1 rec2 a b ft HR HD HF HRec rows1 rows2 HA. induction HA as [|r x y HB HA IH|r x y HB HA IH|r x y HA IH]; intros l1 l2 ls G1 G2 HL.
      - apply rel_ret. reflexivity.
      - cbn [rows_loop]. intros s1 s2 S. rewrite (bind_ok_run (row_step e1 load rec1 a ft l1 r ls) _ s1 ls) by (unfold row_step; rewrite (proj2 (skip_blank r) HB); reflexivity).
        replace (fst (row_step e1 load rec1 a ft l1 r ls s1)) with s1 by (unfold row_step; rewrite (proj2 (skip_blank r) HB); reflexivity).
        apply IH; [lia|exact G2| |exact S]. intros ST SS. specialize (HL ST (starts_blank _ _ HB SS)). split; [intros _|intros _; left; lia].
        apply HL. right. exists r, x. auto.
      - cbn [rows_loop]. intros s1 s2 S. rewrite (bind_ok_run (row_step e2 load rec2 b ft l2 r ls) _ s2 ls) by (unfold row_step; rewrite (proj2 (skip_blank r) HB); reflexivity).
        replace (fst (row_step e2 load rec2 b ft l2 r ls s2)) with s2 by (unfold row_step; rewrite (proj2 (skip_blank r) HB); reflexivity).
        apply IH; [exact G1|lia| |exact S]. intros ST SS. specialize (HL ST SS). split; [intros _; left; lia|intros _].
        apply HL. right. exists r, y. auto.
      - cbn [rows_loop]. apply rel_bind_eq.
        + apply r_row; try assumption. intros ST SK CN. assert (NB := proj1 (not_blank r) SK).
          assert (SS : starts_section (r :: x)). { exists [], r, x. split; [reflexivity|]. split; [constructor|]. split; assumption. }
          specialize (HL ST SS). assert (N1 : forall z, ~ blank_first (r :: z)). { intros z (q & more & E & B). injection E as -> ->. contradiction. }
          specialize (N1 x) as Nx. specialize (N1 y) as Ny. tauto.
        + intros ls'. apply IH; [lia|lia|]. intros _ _. split; intros _; left; lia.
    Qed.

    Lemma r_generate : forall load n a b ft, ft_ok ft -> src_alike a b -> rel eq (generate_terms e1 load n a ft) (generate_terms e2 load n b ft).
    Proof.
      intros load n. induction n as [|n IH]; intros a b ft HF HS; [apply rel_raise|]. cbn [generate_terms]. rstep; [repeat rstep|].
      destruct HS as (HR & HD & HA & HK). apply r_rows; auto. intros ST SS. specialize (HK ST SS). split; (intros [K|K]; [lia|right; apply HK, K]).
    Qed.

    Lemma r_start : forall s1 s2, sim s1 s2 -> sim (fst (start_parser s1)) (fst (start_parser s2)) /\ rres eq (snd (start_parser s1)) (snd (start_parser s2)).
    Proof.
      intros s1 s2 (Hh & Hd & Hp & Hr & Hs). split; [|reflexivity]. split; [exact Hh|]. split; [exact Hd|]. split; [|split; [exact Hr|reflexivity]].
      cbn. unfold fresh_parser. rewrite Hd. f_equal. f_equal. apply sim_heq in Hh. exact (heq_read t_rt (d_root (s_doc s2)) _ _ (fun _ _ _ => eq_refl) Hh).
    Qed.

    Lemma r_load : forall n a b, src_alike a b -> rel eq (load_source e1 n a) (load_source e2 n b).
    Proof.
      intros n a b HS. unfold load_source. apply rel_bind_eq; [intros s1 s2 S; apply r_start, S|]. intros _. rstep; [repeat rstep|].
      rstep; [apply r_load1|]. rstep; [apply r_generate; [intros _; discriminate|exact HS]|].
      unfold finish_load. rstep; [repeat rstep|]. rstep; [repeat rstep|]. rstep; [apply rel_gets; apply sim_super|]. repeat rstep.
    Qed.
  End Files.
End Sim.

(** ** the theorems *)
Lemma Rr_same : forall strict a b, Rr strict a b -> same_but_row a b.
Proof. intros strict a b H. apply H. Qed.

Lemma rel_document : forall strict m1 m2 s1 s2, @rel strict unit eq m1 m2 -> sim strict s1 s2 -> same_document (m1 s1) (m2 s2).
Proof.
  intros strict m1 m2 s1 s2 H S. destruct (H s1 s2 S) as [(Hh & Hd & Hp & Hr & _) R]. unfold same_document. split; [|split; [|split; [|split]]]; try assumption.
  - clear - Hh. induction Hh as [|a b x y Hab Hh IH]; constructor; [exact (Rr_same _ _ _ Hab)|exact IH].
  - destruct (snd (m1 s1)), (snd (m2 s2)); cbn in R; congruence || contradiction.
Qed.

Lemma c03_rows : forall e1 e2 n ref dir a b s,
  files_alike e1 e2 -> alike a b -> heading_kept a b ->
  same_document (load_source e1 n (mk_source ref dir a) s) (load_source e2 n (mk_source ref dir b) s).
Proof.
  intros e1 e2 n ref dir a b s HE HA HK. apply (rel_document true).
  - apply r_load; [exact HE|discriminate|]. repeat split; auto; cbn; intros; try assumption; apply HK; assumption.
  - split; [|repeat split; discriminate]. induction (s_heap s) as [|r l IH]; constructor; [|exact IH]. split; [reflexivity|]. split; [reflexivity|discriminate].
Qed.

Lemma c03_alone : forall e n a b, no_files e -> alike a b -> same_document (parse_rows e n a) (parse_rows e n b).
Proof.
  intros e n a b HN HA. unfold parse_rows.
  assert (HE : files_alike e e). { split; [reflexivity|]. split; [reflexivity|]. intros x. rewrite HN. exact Logic.I. }
  assert (ID : forall src, load_source e n src (init_st default_classes) = load_source e n src (fst (start_parser (init_st default_classes)))).
  { intros src. reflexivity. }
  rewrite !ID. apply (rel_document false).
  - apply r_load; [exact HE|intros _; exact HN|]. repeat split; auto; cbn; discriminate.
  - split; [|repeat split]. constructor; [|constructor]. split; [reflexivity|]. split; [intros _; split; auto|discriminate].
Qed.
