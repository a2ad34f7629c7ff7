(** * SynFacts: two runs that differ only in the spelling of names *)

From Verif Require SlugFacts.
From Verif Require Import ListFacts StrFacts HeapFacts Ops Parser RunFacts NameFacts ParseFacts SpecNames SpecParse SimFacts TotalFacts HeadFacts IncFacts SpecDoc SpecInclude SpecSyn.

Definition tc (x : string) (c : cls) (r : trec) : trec := set_t_term x (set_t_cls c r).

Lemma same_form : forall a b, same_but_spelling a b -> exists x c, b = tc x c a /\ is_section_cls c = is_section_cls (t_cls a).
Proof.
  intros a b E. exists (t_term b), (t_cls b). unfold same_but_spelling, unspelled in E.
  assert (K : is_section_cls (t_cls b) = is_section_cls (t_cls a)).
  { apply (f_equal t_cls) in E. cbn in E. destruct (is_section_cls (t_cls a)) eqn:A, (is_section_cls (t_cls b)) eqn:B; try reflexivity; [rewrite E in A|rewrite <- E in B]; discriminate. }
  split; [|exact K]. destruct a, b. unfold tc, set_t_term, set_t_cls in *. cbn in *. injection E; intros; subst; reflexivity.
Qed.
Lemma same_upd : forall f a b, same_but_spelling a b -> (forall x c r, f (tc x c r) = tc x c (f r)) -> (forall r, t_cls (f r) = t_cls r) -> same_but_spelling (f a) (f b).
Proof.
  intros f a b H C K. unfold same_but_spelling, unspelled in *. rewrite !K. fold (tc "" (if is_section_cls (t_cls a) then t_cls a else CTerm) (f a)).
  fold (tc "" (if is_section_cls (t_cls b) then t_cls b else CTerm) (f b)). rewrite <- !C. f_equal. exact H.
Qed.

Section Syn.
  Notation Rr := same_but_spelling.

  Definition sim (s1 s2 : st) : Prop :=
    Forall2 Rr (s_heap s1) (s_heap s2) /\ s_doc s1 = s_doc s2 /\ s_prs s1 = s_prs s2 /\ s_reg s1 = s_reg s2.

  Definition rel {A} (V : A -> A -> Prop) (m1 m2 : MM A) : Prop :=
    forall s1 s2, sim s1 s2 -> sim (fst (m1 s1)) (fst (m2 s2)) /\ rres V (snd (m1 s1)) (snd (m2 s2)).

  Lemma sim_get : forall i h1 h2, Forall2 Rr h1 h2 -> Rr (hget i h1) (hget i h2).
  Proof.
    intros i h1 h2 H. revert i. unfold hget. induction H as [|a b l1 l2 Hab H IH]; intros [|i]; cbn; try reflexivity; [exact Hab|apply IH].
  Qed.
  Lemma sim_upd : forall i a b h1 h2, Forall2 Rr h1 h2 -> Rr a b -> Forall2 Rr (upd i a h1) (upd i b h2).
  Proof.
    intros i a b h1 h2 H Hab. revert i. induction H as [|x y l1 l2 Hxy H IH]; intros [|i]; cbn; constructor; auto.
  Qed.

  (** ** heaps as seen by the code *)
  Definition heq (h1 h2 : list trec) : Prop := map unspelled h1 = map unspelled h2.
  Lemma sim_heq : forall h1 h2, Forall2 Rr h1 h2 -> heq h1 h2.
  Proof. intros h1 h2 H. unfold heq. induction H as [|a b l1 l2 Hab H IH]; [reflexivity|]. cbn [map]. f_equal; assumption. Qed.

  (** ** the monad *)
  Lemma rel_ret : forall {A} (V : A -> A -> Prop) a b, V a b -> rel V (ret a) (ret b).
  Proof. intros A V a b H s1 s2 S. split; [exact S|exact H]. Qed.
  Lemma rel_raise : forall {A} (V : A -> A -> Prop) e, rel V (raise e) (raise e).
  Proof. intros A V e s1 s2 S. split; [exact S|reflexivity]. Qed.
  Lemma rel_lift : forall {A} (x y : res A), x = y -> rel eq (lift x) (lift y).
  Proof. intros A x y <- s1 s2 S. split; [exact S|]. destruct x; reflexivity. Qed.
  Lemma rel_assert : forall a b, a = b -> rel eq (assert_ a) (assert_ b).
  Proof. intros a b <-. destruct a; [apply rel_ret; reflexivity|apply rel_raise]. Qed.
  Lemma rel_bind : forall {A B} (V : A -> A -> Prop) (W : B -> B -> Prop) m1 m2 k1 k2,
    rel V m1 m2 -> (forall a b, V a b -> rel W (k1 a) (k2 b)) -> rel W (bind m1 k1) (bind m2 k2).
  Proof.
    intros A B V W m1 m2 k1 k2 Hm Hk s1 s2 S. unfold bind. destruct (Hm s1 s2 S) as [S' R].
    destruct (m1 s1) as [s1' [a|e]], (m2 s2) as [s2' [b|e']]; cbn in S', R; try contradiction.
    - apply Hk; assumption.
    - split; assumption.
  Qed.
  Lemma rel_bind_eq : forall {A B} (W : B -> B -> Prop) (m1 m2 : MM A) k1 k2,
    rel eq m1 m2 -> (forall a, rel W (k1 a) (k2 a)) -> rel W (bind m1 k1) (bind m2 k2).
  Proof. intros A B W m1 m2 k1 k2 Hm Hk. eapply rel_bind; [exact Hm|]. intros a b <-. apply Hk. Qed.
  Lemma rel_when : forall b m1 m2, rel eq m1 m2 -> rel eq (when b m1) (when b m2).
  Proof. intros [|] m1 m2 H; [exact H|apply rel_ret; reflexivity]. Qed.
  Lemma rel_mapM : forall {A} (f g : A -> MM unit) l, (forall x, rel eq (f x) (g x)) -> rel eq (mapM_ f l) (mapM_ g l).
  Proof.
    intros A f g l H. induction l as [|x l IH]; [apply rel_ret; reflexivity|]. cbn [mapM_]. apply rel_bind_eq; [apply H|]. intros _. exact IH.
  Qed.

  (** ** the state *)
  Lemma rel_getT_V : forall i, rel Rr (getT i) (getT i).
  Proof. intros i s1 s2 S. split; [exact S|]. cbn. apply sim_get, S. Qed.

  (** a record read by code that looks at its class only to tell sections *)
  Lemma rel_getT : forall {A} (W : A -> A -> Prop) i k1 k2,
    (forall x c r, is_section_cls c = is_section_cls (t_cls r) -> k2 (tc x c r) = k2 r) -> (forall r, rel W (k1 r) (k2 r)) ->
    rel W (bind (getT i) k1) (bind (getT i) k2).
  Proof.
    intros A W i k1 k2 HI HK. eapply rel_bind; [apply rel_getT_V|]. intros a b Hab. destruct (same_form _ _ Hab) as (x & c & -> & E). rewrite HI by exact E. apply HK.
  Qed.
  Lemma rel_heap : rel heq (gets s_heap) (gets s_heap).
  Proof. intros s1 s2 S. split; [exact S|]. cbn. apply sim_heq, S. Qed.
  Lemma rel_getD : rel eq getD getD.
  Proof. intros s1 s2 S. split; [exact S|]. cbn. apply S. Qed.
  Lemma rel_getP : rel eq getP getP.
  Proof. intros s1 s2 S. split; [exact S|]. cbn. apply S. Qed.
  Lemma rel_gets : forall {A} (f : st -> A), (forall s1 s2, sim s1 s2 -> f s1 = f s2) -> rel eq (gets f) (gets f).
  Proof. intros A f H s1 s2 S. split; [exact S|]. cbn. apply H, S. Qed.
  Lemma rel_reads : forall {A} (f : st -> res A), (forall s1 s2, sim s1 s2 -> f s1 = f s2) -> rel eq (PyBase.reads f) (PyBase.reads f).
  Proof. intros A f H s1 s2 S. split; [exact S|]. cbn. rewrite (H _ _ S). destruct (f s2); reflexivity. Qed.
  Lemma rel_modT : forall i f, (forall x c r, f (tc x c r) = tc x c (f r)) -> (forall r, t_cls (f r) = t_cls r) -> rel eq (modT i f) (modT i f).
  Proof.
    intros i f C K s1 s2 (Hh & Hd & Hp & Hr). split; [|reflexivity]. cbn.
    split; [|cbn; auto]. cbn. apply sim_upd; [exact Hh|]. apply same_upd; [apply sim_get, Hh|exact C|exact K].
  Qed.
  Lemma rel_modD : forall f, rel eq (modD f) (modD f).
  Proof. intros f s1 s2 (Hh & Hd & Hp & Hr). split; [|reflexivity]. cbn. split; [exact Hh|]. cbn. rewrite Hd. auto. Qed.
  Lemma rel_modP : forall f, rel eq (modP f) (modP f).
  Proof. intros f s1 s2 (Hh & Hd & Hp & Hr). split; [|reflexivity]. cbn. split; [exact Hh|]. cbn. rewrite Hp in *. repeat split; auto. Qed.
  Lemma rel_alloc : forall a b, Rr a b -> rel eq (allocT a) (allocT b).
  Proof.
    intros a b Hab s1 s2 (Hh & Hd & Hp & Hr). split; cbn.
    - split; [|cbn; auto]. cbn. apply Forall2_app; [exact Hh|]. constructor; [exact Hab|constructor].
    - clear - Hh. induction Hh; cbn; congruence.
  Qed.

  (** ** pure readings of the heap *)
  Lemma hget_un : forall i h, hget i (map unspelled h) = unspelled (hget i h).
  Proof. intros i h. unfold hget. change dummy_t with (unspelled dummy_t) at 1. apply map_nth. Qed.
  Lemma heq_get : forall i h1 h2, heq h1 h2 -> exists x c, hget i h2 = tc x c (hget i h1) /\ is_section_cls c = is_section_cls (t_cls (hget i h1)).
  Proof. intros i h1 h2 H. apply same_form. unfold same_but_spelling. rewrite <- !hget_un. unfold heq in H. rewrite H. reflexivity. Qed.
  (** a reading through one record *)
  Lemma heq_read : forall {A} (f : trec -> A) i h1 h2, (forall x c r, is_section_cls c = is_section_cls (t_cls r) -> f (tc x c r) = f r) -> heq h1 h2 -> f (hget i h1) = f (hget i h2).
  Proof. intros A f i h1 h2 HF H. destruct (heq_get i _ _ H) as (x & y & -> & E). symmetry. apply HF, E. Qed.

  Ltac sc := let x := fresh in let c := fresh in let r := fresh in let E := fresh in intros x c r E;
    first [reflexivity | cbv beta; unfold property_names; change (t_cls (tc x c r)) with c; rewrite E; reflexivity].
  Lemma heq_names : forall h1 h2 parent term, heq h1 h2 -> term_names h1 parent term = term_names h2 parent term.
  Proof.
    intros h1 h2 [i|] term H; unfold term_names; [|reflexivity]. rewrite (heq_read t_rt i _ _ ltac:(sc) H). reflexivity.
  Qed.
  Lemma heq_child_matches : forall h1 h2 n v c, heq h1 h2 -> child_matches h1 n v c = child_matches h2 n v c.
  Proof.
    intros h1 h2 n v c H. apply (heq_read (fun r => eqs (rt_lc r) (lower n) && match v with VFalse => true | _ => veq (t_val r) v end)); [sc|exact H].
  Qed.
  Lemma heq_find_first : forall h1 h2 i term v, heq h1 h2 -> term_find_first h1 i term v = term_find_first h2 i term v.
  Proof.
    intros h1 h2 i term v H. unfold term_find_first.
    rewrite (heq_read (fun r => child_name r term) i _ _ ltac:(sc) H). destruct (child_name (hget i h2) term) as [n|e]; [|reflexivity]. cbn [rbind].
    rewrite (heq_read t_children i _ _ ltac:(sc) H). f_equal. apply find_ext'. intros c. apply heq_child_matches, H.
  Qed.
  Lemma heq_getitem : forall h1 h2 i item, heq h1 h2 -> term_getitem h1 i item = term_getitem h2 i item.
  Proof.
    intros h1 h2 i item H. unfold term_getitem. rewrite (heq_read (fun r => lower (t_tvn r)) i _ _ ltac:(sc) H), (heq_find_first _ _ _ _ _ H). reflexivity.
  Qed.
  Lemma heq_property_names : forall h1 h2 r, heq h1 h2 -> property_names h1 r = property_names h2 r.
  Proof.
    intros h1 h2 r H. unfold property_names. destruct (is_section_cls (t_cls r)); [reflexivity|]. destruct (t_section r) as [i|]; [|reflexivity].
    apply (heq_read sec_property_names); [sc|exact H].
  Qed.
  Lemma heq_arg_props : forall h1 h2 r, heq h1 h2 -> arg_props h1 r = arg_props h2 r.
  Proof.
    intros h1 h2 r H. unfold arg_props. destruct (t_section r) as [i|]; [|reflexivity].
    rewrite (heq_read (fun r => is_section_cls (t_cls r)) i _ _ ltac:(sc) H).
    rewrite (heq_read sec_property_names i _ _ ltac:(sc) H).
    rewrite (heq_property_names h1 h2 _ H).
    rewrite (heq_read (property_names h2) i _ _ ltac:(sc) H). reflexivity.
  Qed.
  Lemma heq_length : forall h1 h2, heq h1 h2 -> List.length h1 = List.length h2.
  Proof. intros h1 h2 H. unfold heq in H. rewrite <- (map_length unspelled h1), <- (map_length unspelled h2), H. reflexivity. Qed.
  Lemma heq_desc : forall h1 h2, heq h1 h2 -> forall n i, descendents n h1 i = descendents n h2 i.
  Proof.
    intros h1 h2 H n. induction n as [|n IH]; intros i; [reflexivity|]. cbn [descendents].
    rewrite (heq_read t_children i _ _ ltac:(sc) H). induction (t_children (hget i h2)) as [|c cs IHc]; [reflexivity|].
    rewrite IH, IHc. reflexivity.
  Qed.
  Lemma heq_section_terms : forall h1 h2, heq h1 h2 -> forall i, section_all_terms h1 i = section_all_terms h2 i.
  Proof.
    intros h1 h2 H i. unfold section_all_terms, heap_fuel. rewrite (heq_length _ _ H).
    rewrite (heq_read t_terms i _ _ ltac:(sc) H), (heq_read t_val i _ _ ltac:(sc) H).
    erewrite rmap_ext'; [reflexivity|]. intros t. cbn beta. rewrite (heq_desc _ _ H). reflexivity.
  Qed.
  Lemma heq_in_section : forall h1 h2 r sa, heq h1 h2 -> in_section h1 r sa = in_section h2 r sa.
  Proof.
    intros h1 h2 r sa H. unfold in_section. destruct sa as [|n|l]; [reflexivity| |]; destruct (t_section r) as [i|]; try reflexivity.
    - rewrite (heq_read t_val i _ _ ltac:(sc) H). reflexivity.
    - rewrite (heq_read t_val i _ _ ltac:(sc) H). reflexivity.
  Qed.
  Lemma heq_find_test : forall h1 h2 term v sa i, heq h1 h2 -> find_test h1 term v sa i = find_test h2 term v sa i.
  Proof.
    intros h1 h2 term v sa i H. unfold find_test. cbv zeta. destruct (heq_get i _ _ H) as (x & y & -> & EC).
    rewrite (heq_in_section h1 h2 _ _ H). reflexivity.
  Qed.
  Lemma sim_find1 : forall s1 s2 term v sa, sim s1 s2 -> find1 s1 term v sa = find1 s2 term v sa.
  Proof.
    intros s1 s2 term v sa (Hh & Hd & Hp & Hr). apply sim_heq in Hh. unfold find1, all_terms. cbv zeta. rewrite Hd.
    erewrite (rmap_ext' (fun kv => section_all_terms (s_heap s1) (snd kv))); [|intros kv; apply heq_section_terms, Hh].
    destruct (if startswith _ _ then _ else _) as [l|e]; [|reflexivity]. cbn [rbind]. apply rfilter_ext'. intros i. apply heq_find_test, Hh.
  Qed.
  Lemma sim_doc_find : forall s1 s2 term v sa, sim s1 s2 -> doc_find s1 term v sa = doc_find s2 term v sa.
  Proof.
    intros s1 s2 term v sa S. unfold doc_find, find_list. assert (Hd : s_doc s1 = s_doc s2) by apply S. rewrite Hd.
    destruct (dget _ _) as [ds|]; [|apply sim_find1, S]. erewrite rmap_ext'; [reflexivity|]. intros e. apply sim_find1, S.
  Qed.
  Lemma sim_val : forall s1 s2 i, sim s1 s2 -> t_val (tget i s1) = t_val (tget i s2).
  Proof. intros s1 s2 i (Hh & _). apply sim_heq in Hh. exact (heq_read t_val i _ _ ltac:(sc) Hh). Qed.
  Lemma sim_section_get_term : forall s1 s2 sec term v, sim s1 s2 -> section_get_term s1 sec term v = section_get_term s2 sec term v.
  Proof.
    intros s1 s2 sec term v S. unfold section_get_term, doc_find_first, section_name. rewrite (sim_val _ _ sec S), (sim_doc_find _ _ _ _ _ S). reflexivity.
  Qed.
  Lemma sim_class : forall name s1 s2, sim s1 s2 -> doc_term_class name s1 = doc_term_class name s2.
  Proof. intros name s1 s2 (Hh & Hd & Hp & Hr). unfold doc_term_class. rewrite Hd, Hr. reflexivity. Qed.
  Lemma sim_super : forall s1 s2, sim s1 s2 -> super_terms s1 = super_terms s2.
  Proof. intros s1 s2 (Hh & Hd & Hp & Hr). unfold super_terms. rewrite Hd, Hp. reflexivity. Qed.
  Lemma sim_pclass : forall name s1 s2, sim s1 s2 -> parser_term_class name s1 = parser_term_class name s2.
  Proof. intros name s1 s2 S. unfold parser_term_class. rewrite (sim_super _ _ S). destruct S as (_ & _ & _ & Hr). rewrite Hr. reflexivity. Qed.

  (** ** the operations *)
  Ltac rstep :=
    match goal with
    | |- forall _, _ => intro
    | |- rel _ (bind (getT _) _) (bind (getT _) _) => apply rel_getT; [sc|intro]
    | |- rel _ (bind (gets s_heap) _) _ => eapply rel_bind; [apply rel_heap|let h1 := fresh "h1" in let h2 := fresh "h2" in let H := fresh "HQ" in intros h1 h2 H]
    | |- rel _ (bind _ _) _ => apply rel_bind_eq; [|intro]
    | |- rel _ (ret _) _ => apply rel_ret; reflexivity
    | |- rel _ (raise _) _ => apply rel_raise
    | |- rel _ (lift _) _ => apply rel_lift; try reflexivity
    | |- rel _ (assert_ _) _ => apply rel_assert; try reflexivity
    | |- rel _ (when _ _) _ => apply rel_when
    | |- rel _ (modT _ _) _ => apply rel_modT; [intros; reflexivity|intros; reflexivity]
    | |- rel _ (modD _) _ => apply rel_modD
    | |- rel _ (modP _) _ => apply rel_modP
    | |- rel _ getD _ => apply rel_getD
    | |- rel _ getP _ => apply rel_getP
    | |- rel _ (gets (doc_term_class _)) _ => apply rel_gets; apply sim_class
    | |- rel _ (gets (parser_term_class _)) _ => apply rel_gets; apply sim_pclass
    | |- rel _ (mapM_ _ _) _ => apply rel_mapM; intro
    | |- rel _ (if ?b then _ else _) (if ?b then _ else _) => destruct b
    | |- rel _ (match ?x with _ => _ end) (match ?x with _ => _ end) => destruct x
    end.

  Lemma r_add_child : forall p c, rel eq (add_child p c) (add_child p c).
  Proof. intros p c. unfold add_child. repeat rstep. Qed.
  Lemma r_add_section : forall i, rel eq (add_section i) (add_section i).
  Proof. intros i. unfold add_section. repeat rstep. Qed.

  Lemma r_construct_same : forall c term v args row col ft parent doc sec,
    rel eq (construct c term v args row col ft parent doc sec) (construct c term v args row col ft parent doc sec).
  Proof.
    intros c term v args row col ft parent doc sec. unfold construct.
    assert (PL : rel eq (mk_plain c term v args row col ft parent doc sec) (mk_plain c term v args row col ft parent doc sec)).
    { unfold mk_plain. rstep. apply rel_bind_eq; [apply rel_lift, heq_names, HQ|]. intros [p r]. apply rel_bind_eq.
      { apply rel_assert. destruct parent as [i|]; [|reflexivity]. rewrite (heq_read rt_lc i _ _ ltac:(sc) HQ). reflexivity. }
      intros _. apply rel_alloc. reflexivity. }
    destruct c; try exact PL; [|apply rel_raise]. clear PL.
    destruct parent; [apply rel_raise|]. destruct sec; [apply rel_raise|]. destruct doc; [|apply rel_raise].
    unfold mk_section. repeat rstep. apply rel_alloc. reflexivity.
  Qed.

  Lemma r_goc_check : forall i rt c, rel eq (goc_check i rt c) (goc_check i rt c).
  Proof. intros i rt c. unfold goc_check. rstep. rstep; [apply rel_lift, heq_find_first, HQ|]. repeat rstep. Qed.

  Lemma r_goc0 : forall i term v, rel eq (get_or_new_child0 i term v) (get_or_new_child0 i term v).
  Proof.
    intros i term v. unfold get_or_new_child0. rstep; [repeat rstep|]. destruct a as [x rt]. rstep. cbv zeta. rstep. rstep; [apply rel_lift, heq_find_first, HQ|].
    rstep; [|rstep; [apply r_goc_check|repeat rstep]].
    destruct a as [c|].
    - repeat rstep.
    - rstep; [repeat rstep|]. rstep; [repeat rstep|]. rstep; [apply r_construct_same|]. repeat rstep.
  Qed.

  Lemma r_set_child_item : forall i item v, rel eq (set_child_item i item v) (set_child_item i item v).
  Proof.
    intros i item v. unfold set_child_item. rstep; [apply r_goc0|]. rstep. rstep; [apply rel_lift, heq_getitem, HQ|].
    cbv zeta. rstep. rewrite (heq_read t_val a0 _ _ ltac:(sc) HQ). reflexivity.
  Qed.

  Lemma r_set_section_plain : forall t i, rel eq (set_section_plain t i) (set_section_plain t i).
  Proof.
    intros t i. unfold set_section_plain. rstep. rstep. destruct (eqs (lower (t_tvn r)) "section"); [repeat rstep|].
    rewrite (heq_property_names h1 h2 r HQ). destruct (mem_str _ _); [apply r_set_child_item|repeat rstep].
  Qed.

  Lemma r_set_ownership : forall n t, rel eq (set_ownership n t) (set_ownership n t).
  Proof. induction n as [|n IH]; intros t; [apply rel_raise|]. cbn [set_ownership]. repeat rstep. apply IH. Qed.

  Lemma r_add_term_meta : forall t, rel eq (add_term_meta t) (add_term_meta t).
  Proof.
    intros t. unfold add_term_meta. rstep. rstep; [repeat rstep|]. cbv zeta. rstep; [repeat rstep|]. rstep; [repeat rstep|]. rstep.
    assert (E : match t_section r with Some s => t_dtvn (hget s h1) | None => "" end = match t_section r with Some s => t_dtvn (hget s h2) | None => "" end).
    { destruct (t_section r) as [i|]; [|reflexivity]. exact (heq_read t_dtvn i _ _ ltac:(sc) HQ). }
    rstep; [|repeat rstep]. rewrite E. destruct (eqs (t_tvn r) "" || _); [|repeat rstep].
    repeat rstep.
  Qed.

  Lemma r_add_term_list : forall t, rel eq (add_term_list t) (add_term_list t).
  Proof.
    intros t. unfold add_term_list. rstep; [repeat rstep|]. rstep; [repeat rstep|]. destruct (mem_id _ _); [repeat rstep|].
    rstep. rstep; [repeat rstep|]. rstep; [|repeat rstep]. destruct (is_section_cls (t_cls r)); [|repeat rstep]. rstep; [apply r_add_section|repeat rstep].
  Qed.

  Lemma r_nosec : forall t, rel eq (doc_add_term_nosec t) (doc_add_term_nosec t).
  Proof. intros t. unfold doc_add_term_nosec. rstep; [apply r_add_term_list|]. rstep. apply r_add_term_meta. Qed.

  Lemma r_section_add_term : forall sec t, rel eq (section_add_term sec t) (section_add_term sec t).
  Proof.
    intros sec t. unfold section_add_term. rstep. rstep. rstep; [|repeat rstep]. destruct (mem_id _ _); [repeat rstep|]. destruct (eqs _ _); [|apply rel_raise].
    rstep; [repeat rstep|]. rstep; [repeat rstep|]. rstep; [apply r_nosec|]. rstep. unfold heap_fuel. rewrite (heq_length _ _ HQ). apply r_set_ownership.
  Qed.

  Lemma r_doc_add_term : forall t, rel eq (doc_add_term t) (doc_add_term t).
  Proof.
    intros t. unfold doc_add_term. rstep; [apply r_add_term_list|]. rstep. rstep. rstep; [|apply r_add_term_meta].
    destruct (t_section r) as [i|]; [|repeat rstep]. destruct (eqs _ _); [|repeat rstep]. rstep; [apply r_add_section|]. rstep; [apply r_set_section_plain|].
    rstep. destruct (t_section r0); [apply r_section_add_term|apply rel_raise].
  Qed.

  Lemma r_new_child0 : forall i term v, rel eq (new_child0 i term v) (new_child0 i term v).
  Proof.
    intros i term v. unfold new_child0. rstep. rstep; [repeat rstep|]. rstep; [repeat rstep|]. rstep; [apply r_construct_same|]. rstep; [repeat rstep|].
    rstep; [|repeat rstep]. apply rel_modT; [intros x y q|intros q]; cbv beta;
      try change (tjoin (tc x y q)) with (tjoin q);
      destruct (dget (tjoin q) (d_decl_terms a2)) as [td|]; try reflexivity; destruct (dget "termvaluename" (td_props td)); reflexivity.
  Qed.
  Lemma r_new_children : forall i kw, rel eq (new_children i kw) (new_children i kw).
  Proof. intros i kw. unfold new_children. rstep. rstep; [apply r_new_child0|repeat rstep]. Qed.

  Lemma r_new_term : forall sec term v kw, rel eq (Ops.new_term sec term v kw) (Ops.new_term sec term v kw).
  Proof.
    intros sec term v kw. unfold Ops.new_term. rstep. rstep; [repeat rstep|]. rstep; [repeat rstep|]. rstep; [apply r_construct_same|].
    rstep; [apply r_new_children|]. rstep; [apply r_doc_add_term|repeat rstep].
  Qed.
  Lemma r_goc_term : forall sec term v kw, rel eq (get_or_new_term sec term v kw) (get_or_new_term sec term v kw).
  Proof.
    intros sec term v kw. unfold get_or_new_term. rstep; [apply rel_reads; intros s1 s2; apply sim_section_get_term|].
    destruct a as [t|]; [|apply r_new_term]. rstep; [repeat rstep|]. rstep; [|repeat rstep]. rstep. rstep; [apply r_goc0|repeat rstep].
  Qed.
  Lemma r_set_section_sec : forall t o, rel eq (set_section_sec t o) (set_section_sec t o).
  Proof.
    intros t o. unfold set_section_sec, section_setitem. rstep. destruct (eqs _ _); [repeat rstep|]. destruct (mem_str _ _); [|repeat rstep].
    rstep; [apply r_goc_term|repeat rstep].
  Qed.
  Lemma r_set_section : forall t o, rel eq (set_section t o) (set_section t o).
  Proof.
    intros t o. unfold set_section. rstep. destruct (is_section_cls _); [apply r_set_section_sec|]. destruct o; [apply r_set_section_plain|repeat rstep].
  Qed.

  (** ** the consumer *)
  Lemma r_rename : forall t, rel eq (rename_term t) (rename_term t).
  Proof. intros t. unfold rename_term. repeat rstep. Qed.

  Lemma r_set_meta : forall t, rel eq (set_meta t) (set_meta t).
  Proof. intros t. unfold set_meta. rstep; [repeat rstep|]. apply rel_modT; intros; reflexivity. Qed.

  Lemma r_attach : forall t, rel eq (attach t) (attach t).
  Proof. intros t. unfold attach. repeat (first [rstep|match goal with |- rel _ (add_child _ _) _ => apply r_add_child end]). Qed.
  Lemma r_consume_normal : forall t, rel eq (consume_normal t) (consume_normal t).
  Proof. intros t. unfold consume_normal. rstep; [apply r_set_meta|]. rstep; [apply r_attach|]. rstep. rstep; [rstep|]. rstep. apply r_section_add_term. Qed.

  Section Declare.
    Ltac rd := rstep.
    Lemma r_add_to_section : forall x props, rel eq (add_term_to_section x props) (add_term_to_section x props).
    Proof. intros x props. unfold add_term_to_section. repeat rd. Qed.
    Lemma r_inherit : forall n a b c k, rel eq (inherit_loop n a b c k) (inherit_loop n a b c k).
    Proof.
      induction n as [|n IH]; intros a b c k; [apply rel_raise|]. cbn [inherit_loop]. rd; [rd|]. destruct (dget c (p_dsecs a0)) as [sd|]; [|apply rel_raise].
      destruct (nth_error _ _); [|rd]. rd; [|apply IH]. rd. rd; [rd|]. destruct a1 as [z w]. destruct (dget _ _); [|apply rel_raise]. cbv zeta.
      rd; [rd|]. rd; [rd|]. apply r_add_to_section.
    Qed.
    Lemma r_add_declared : forall t, rel eq (add_declared_term t) (add_declared_term t).
    Proof.
      intros t. unfold add_declared_term. rd. rd; [repeat rd|]. rd; [repeat rd|]. rd. rd; [apply rel_lift, heq_arg_props, HQ|]. rd; [repeat rd|]. cbv zeta.
      rd; [rd|]. rd.
      - destruct (dget "section" _); [|rd]. rd. apply r_add_to_section.
      - destruct (dget "inheritsfrom" _); [|rd]. destruct (nonempty _); [|rd]. destruct (dget "section" _); [|rd].
        rd; [rd|]. rd. rd; [rd|]. rd.
        apply rel_bind_eq; [|intro; apply r_inherit].
        apply rel_gets. intros u1 u2 (Hh & Hd & Hp & Hr). unfold inherit_fuel. rewrite Hp. reflexivity.
    Qed.
    Lemma r_add_value : forall t, rel eq (add_value_set_value t) (add_value_set_value t).
    Proof.
      intros t. unfold add_value_set_value. rd. rd. rd.
      - destruct (t_parent r) as [q|]; [|rd]. rewrite (heq_read join_lc q _ _ ltac:(sc) HQ). rd.
      - rd; [apply rel_lift, heq_arg_props, HQ|]. cbv zeta. rd.
    Qed.
    Lemma r_manage : forall t, rel eq (manage_declare_terms t) (manage_declare_terms t).
    Proof.
      intros t. unfold manage_declare_terms. rd. rd; [rd|]. destruct a; [|rd; [rd|]].
      - unfold add_declared_section. repeat rd.
      - destruct a; [apply r_add_declared|]. rd; [rd|]. destruct a; [apply r_add_value|rd].
    Qed.
  End Declare.

  (** consume after the renaming *)
    Definition consume_rest (t : nat) : MM bool :=
    p <- getP ;;
    set_section t (Some (p_lastsec p)) ;;;
    r <- getT t ;;
    is_header <- lift (term_is r "root.header") ;;
    if is_header then
      modP (set_p_pmap (munge_param_map (t_args r))) ;;;
      v <- lift (as_str (t_val r)) ;;
      modP (set_p_dtvn (lower v)) ;;;
      modT (p_lastsec p) (fun s => set_t_dtvn (lower v) (set_t_hargs (t_args r) s)) ;;;
      ret false
    else
      is_section <- lift (term_is r "root.section") ;;
      is_root <- lift (term_is r "root.root") ;;
      (if is_section then
         d <- getD ;;
         h <- gets s_heap ;;
         modP (fun p => set_p_dtvn "@value" (set_p_lastsec t
                          (set_p_lastparent (t_rt (hget (d_root d) h))
                            (set_p_pmap (munge_param_map (t_args r)) p)))) ;;;
         set_section t None
       else if is_root then
         modP (set_p_lastsec t) ;;;
         set_section t None
       else consume_normal t) ;;;
      r <- getT t ;;
      match t_ftype r with
      | Some "declare" => manage_declare_terms t ;;; ret false
      | _ => ret true
      end.
  Lemma r_consume_rest : forall t, rel eq (consume_rest t) (consume_rest t).
  Proof.
    intros t. unfold consume_rest. rstep; [rstep|]. rstep; [apply r_set_section|]. rstep. apply rel_bind_eq; [rstep|]. intros hd.
    destruct hd; [repeat rstep|]. apply rel_bind_eq; [rstep|]. intros sc0. apply rel_bind_eq; [rstep|]. intros rt0. rstep.
    - destruct sc0; [|destruct rt0].
      + apply rel_bind_eq; [rstep|]. intros d0. rstep. rewrite (heq_read t_rt (d_root d0) _ _ ltac:(sc) HQ). rstep; [rstep|]. apply r_set_section.
      + rstep; [rstep|]. apply r_set_section.
      + apply r_consume_normal.
    - rstep. assert (RM : rel eq (manage_declare_terms t ;;; ret false) (manage_declare_terms t ;;; ret false)) by (rstep; [apply r_manage|rstep]).
      assert (RT : rel eq (ret true) (ret true)) by (apply rel_ret; reflexivity).
      destruct (t_ftype r0) as [f|]; [|exact RT].
      repeat (match goal with |- context [match ?f with EmptyString => _ | String _ _ => _ end] => destruct f | |- context [match ?c with Ascii.Ascii _ _ _ _ _ _ _ _ => _ end] => destruct c
                | |- context [match ?b with true => _ | false => _ end] => destruct b end; try exact RT); first [exact RM|exact RT].
  Qed.

  Lemma r_consume : forall t, rel eq (consume t) (consume t).
  Proof. intros t. change (consume t) with (rename_term t ;;; consume_rest t). rstep; [apply r_rename|apply r_consume_rest]. Qed.

  (** ** the producer *)
  Lemma r_load1 : forall t, rel eq (load1 t) (load1 t).
  Proof.
    intros t. unfold load1. rstep; [repeat rstep|]. rstep. rstep; [repeat rstep|]. destruct a0; [repeat rstep|]. rstep; [repeat rstep|].
    destruct a0; [rstep; [apply r_add_section|repeat rstep]|]. destruct (eqs _ _); [apply r_doc_add_term|repeat rstep].
  Qed.
  Lemma r_emit : forall load t, rel eq (emit load t) (emit load t).
  Proof. intros load t. unfold emit. rstep; [apply r_consume|]. rstep. apply r_load1. Qed.

  Lemma r_emit_args : forall load ft l t args col, rel eq (emit_args load ft l t col args) (emit_args load ft l t col args).
  Proof.
    intros load ft l t args col. revert col. induction args as [|v args IH]; intros col; [apply rel_ret; reflexivity|]. cbn [emit_args].
    rstep; [|apply IH]. rstep. rstep. cbv zeta. rstep; [repeat rstep|]. rstep; [apply r_construct_same|]. apply r_emit.
  Qed.

  Lemma r_section_for : forall t, rel eq (section_for t) (section_for t).
  Proof.
    intros t. unfold section_for. rstep. eapply (rel_bind sim).
    - intros s1 s2 S. split; exact S.
    - intros u1 u2 U. assert (E : get_section (t_val r) u1 = get_section (t_val r) u2).
      { unfold get_section. destruct U as (_ & Hd & _). rewrite Hd. reflexivity. }
      rewrite E. repeat rstep.
  Qed.

  Section Files.
    Variable e : env.
    Definition src_alike (a b : source) : Prop := src_ref a = src_ref b /\ src_dir a = src_dir b.

    Lemma r_include : forall load rec a b ls t inc, src_alike a b ->
      (forall a ft, rel eq (rec a ft) (rec a ft)) ->
      rel eq (include_row e load rec a ls t inc) (include_row e load rec b ls t inc).
    Proof.
      intros load rec a b ls t inc [HR HD] HRec. unfold include_row. rstep. rstep; [repeat rstep|]. rewrite HD, HR.
      rstep; [repeat rstep|]. rstep; [repeat rstep|]. rstep; [apply r_emit|].
      destruct (fetch e a1); [|rstep]. rstep. rstep; [apply HRec|apply r_emit].
    Qed.

    (** a row from its term on *)
    Definition row_rest (load : bool) (rec : source -> option string -> MM unit) (src : source) (ftype : option string) (line last_section t : nat) : MM nat :=
      r <- getT t ;;
      is_include <- lift (term_is r "include") ;;
      is_declare <- lift (term_is r "declare") ;;
      if is_include || is_declare then
        include_row e load rec src last_section t is_include ;;;
        ret last_section
      else
        is_section <- lift (term_is r "section") ;;
        t <- (if is_section then section_for t else ret t) ;;
        emit load t ;;;
        r <- getT t ;;
        sec <- lift (term_is r "section") ;;
        hdr <- lift (term_is r "header") ;;
        (if sec || hdr then ret tt else emit_args load ftype line t 0 (t_args r)) ;;;
        ret (if is_section then t else last_section).

    Lemma r_row_rest : forall load rec a b ft l ls t, src_alike a b -> (forall a ft, rel eq (rec a ft) (rec a ft)) ->
      rel eq (row_rest load rec a ft l ls t) (row_rest load rec b ft l ls t).
    Proof.
      intros load rec a b ft l ls t HA HRec. unfold row_rest.
      rstep. rstep; [repeat rstep|]. rstep; [repeat rstep|]. destruct (_ || _).
      - rstep; [apply r_include; assumption|repeat rstep].
      - rstep; [repeat rstep|]. rstep; [destruct a2; [apply r_section_for|repeat rstep]|]. rstep; [apply r_emit|]. rstep. rstep; [repeat rstep|]. rstep; [repeat rstep|].
        rstep; [|repeat rstep]. destruct (_ || _); [repeat rstep|]. apply r_emit_args.
    Qed.

    Lemma r_row : forall load rec a b ft l row ls, src_alike a b -> (forall a ft, rel eq (rec a ft) (rec a ft)) ->
      rel eq (row_step e load rec a ft l row ls) (row_step e load rec b ft l row ls).
    Proof.
      intros load rec a b ft l row ls HA HRec. unfold row_step. destruct (skip_row row); [repeat rstep|].
      rstep; [rstep|]. destruct a0 as [p n]. cbv zeta. rstep; [rstep|]. rstep; [apply r_construct_same|]. apply (r_row_rest load rec a b ft l ls); assumption.
    Qed.

    Lemma r_rows : forall load rec a b ft, src_alike a b -> (forall a ft, rel eq (rec a ft) (rec a ft)) ->
      forall rows l ls, rel eq (rows_loop e load rec a ft l rows ls) (rows_loop e load rec b ft l rows ls).
    Proof.
      intros load rec a b ft HA HRec rows. induction rows as [|r rows IH]; intros l ls; [apply rel_ret; reflexivity|]. cbn [rows_loop]. apply rel_bind_eq; [apply r_row; assumption|]. apply IH.
    Qed.

    Lemma r_generate : forall load n a b ft, src_alike a b -> src_rows a = src_rows b -> rel eq (generate_terms e load n a ft) (generate_terms e load n b ft).
    Proof.
      intros load n. induction n as [|n IH]; intros a b ft HA HB; [apply rel_raise|]. cbn [generate_terms]. rstep; [rstep|]. rewrite HB. apply r_rows; [exact HA|].
      intros c f. apply IH; [split; reflexivity|reflexivity].
    Qed.
    Lemma r_finish : rel eq finish_load finish_load.
    Proof. unfold finish_load. rstep; [repeat rstep|]. rstep; [repeat rstep|]. rstep; [apply rel_gets; apply sim_super|]. repeat rstep. Qed.
  End Files.
End Syn.

(** ** a name that stands for another *)

Lemma makes_key : forall k td x v, makes_synonym (k, td) x v <->
  dget "synonym" (td_props td) = Some v /\ nonempty v = true
  /\ (x = lower (strip k) \/ (has_char "." (strip k) = false /\ x = dotted ROOT_TERM (lower (strip k)))).
Proof.
  intros k td x v. unfold makes_synonym. cbn [fst snd]. split.
  - intros (S & N & k0 & T & X). apply trimmed_iff in T. subst k0. split; [exact S|]. split; [destruct v; [congruence|reflexivity]|].
    destruct X as [X|[D X]]; [left; exact X|right]. split; [apply dot_free_iff, D|exact X].
  - intros (S & N & X). split; [exact S|]. split; [intros ->; discriminate N|]. exists (strip k). split; [apply trimmed_iff; reflexivity|].
    destruct X as [X|[D X]]; [left; exact X|right]. split; [apply dot_free_iff, D|exact X].
Qed.

Definition syn_step (syns : dict string) (kv : string * tdecl) : dict string :=
  let k := strip (fst kv) in
  match dget "synonym" (td_props (snd kv)) with
  | Some s =>
      if nonempty s then
        let syns := dset (lower k) s syns in
        if has_char "." k then syns else dset (dotted ROOT_TERM (lower k)) s syns
      else syns
  | None => syns
  end.

Lemma syn_step_get : forall acc d x,
  (exists v, makes_synonym d x v /\ dget x (syn_step acc d) = Some v) \/ ((forall v, ~ makes_synonym d x v) /\ dget x (syn_step acc d) = dget x acc).
Proof.
  intros acc [k td] x. unfold syn_step. cbn [fst snd]. cbv zeta.
  destruct (dget "synonym" (td_props td)) as [v|] eqn:S; [|right; split; [|reflexivity]; intros v M; apply makes_key in M; destruct M as (M & _); congruence].
  destruct (nonempty v) eqn:N; [|right; split; [|reflexivity]; intros w M; apply makes_key in M; destruct M as (M & M2 & _); congruence].
  destruct (has_char "." (strip k)) eqn:D.
  - rewrite dget_dset. destruct (eqs x (lower (strip k))) eqn:E.
    + left. exists v. split; [|reflexivity]. apply makes_key. apply eqs_true in E. auto.
    + right. split; [|reflexivity]. intros w M. apply makes_key in M. destruct M as (_ & _ & [->|[M _]]); [rewrite eqs_refl in E; discriminate|congruence].
  - rewrite !dget_dset. destruct (eqs x (dotted ROOT_TERM (lower (strip k)))) eqn:E1; [|destruct (eqs x (lower (strip k))) eqn:E].
    + left. exists v. split; [|reflexivity]. apply makes_key. apply eqs_true in E1. auto.
    + left. exists v. split; [|reflexivity]. apply makes_key. apply eqs_true in E. auto.
    + right. split; [|reflexivity]. intros w M. apply makes_key in M. destruct M as (_ & _ & [->|[_ ->]]); [rewrite eqs_refl in E|rewrite eqs_refl in E1]; discriminate.
Qed.

Lemma makes_fun : forall d x v w, makes_synonym d x v -> makes_synonym d x w -> v = w.
Proof. intros d x v w (A & _) (B & _). congruence. Qed.

Lemma synonyms_get : forall ds x v, dget x (synonyms ds) = Some v <-> stands_for ds x v.
Proof.
  intros ds x v. assert (G : forall acc, dget x (fold_left syn_step ds acc) = Some v <-> stands_for ds x v \/ ((forall d w, In d ds -> ~ makes_synonym d x w) /\ dget x acc = Some v)).
  { induction ds as [|d ds IH]; intros acc; cbn [fold_left].
    - split; [intros H; right; split; [intros d w []|exact H]|intros [(b & d & a & E & _)|[_ H]]; [destruct b; discriminate E|exact H]].
    - rewrite IH. clear IH. destruct (syn_step_get acc d x) as [(w & M & ->)|[NM ->]]; split.
      + intros [(b & d' & a & -> & H)|[N H]].
        * left. exists (d :: b), d', a. split; [reflexivity|exact H].
        * injection H as ->. left. exists [], d, ds. split; [reflexivity|]. split; [exact M|exact N].
      + intros [(b & d' & a & E & M' & N)|[N _]]; [|exfalso; exact (N d w (or_introl eq_refl) M)].
        destruct b as [|b0 b]; injection E as -> ->; [right; split; [exact N|rewrite (makes_fun _ _ _ _ M M'); reflexivity]|].
        left. exists b, d', a. split; [reflexivity|split; assumption].
      + intros [(b & d' & a & -> & H)|[N H]].
        * left. exists (d :: b), d', a. split; [reflexivity|exact H].
        * right. split; [|exact H]. intros d' w [<-|I]; [apply NM|apply N, I].
      + intros [(b & d' & a & E & M' & N)|[N H]]; [|right; split; [|exact H]; intros d' w I; apply N; right; exact I].
        destruct b as [|b0 b]; injection E as -> ->; [exfalso; exact (NM v M')|].
        left. exists b, d', a. split; [reflexivity|split; assumption]. }
  change (synonyms ds) with (fold_left syn_step ds []). rewrite G. cbn [dget]. split; [intros [H|[_ H]]; [exact H|discriminate H]|auto].
Qed.

(** ** the row *)

(** rename_term after the synonym *)
Definition number_name (pm : list string) (t : nat) : MM unit :=
  r <- getT t ;;
  match py_int (t_rt r) with
  | Some z => match pindex z pm with Some n => modT t (set_t_rt n) | None => ret tt end
  | None => ret tt
  end.
Lemma r_number : forall pm t, rel eq (number_name pm t) (number_name pm t).
Proof.
  intros pm t. unfold number_name. apply rel_getT; [intros; reflexivity|]. intros r. destruct (py_int _); [|apply rel_ret; reflexivity].
  destruct (pindex _ _); [|apply rel_ret; reflexivity]. apply rel_modT; intros; reflexivity.
Qed.
Lemma rename_syn : forall t s v a b, dget (join_lc (tget t s)) (synonyms (p_dterms (s_prs s))) = Some v -> split_term_lower v = Ok (a, b) ->
  rename_term t s = number_name (p_pmap (s_prs s)) t (fst (modT t (fun r => set_t_rt b (set_t_pt a r)) s)).
Proof.
  intros t s v a b H E. unfold rename_term. unfold bind at 1. cbn [getT gets]. unfold bind at 1. cbn [getP gets]. rewrite H. unfold bind at 2. rewrite E. cbn [lift ret].
  unfold bind at 1. reflexivity.
Qed.
Lemma rename_nosyn : forall t s, dget (join_lc (tget t s)) (synonyms (p_dterms (s_prs s))) = None ->
  rename_term t s = number_name (p_pmap (s_prs s)) t s.
Proof. intros t s H. unfold rename_term. unfold bind at 1. cbn [getT gets]. unfold bind at 1. cbn [getP gets]. rewrite H. reflexivity. Qed.

Lemma bind_at : forall {A B} (W : B -> B -> Prop) (m1 m2 : MM A) k1 k2 s1 s2,
  sim (fst (m1 s1)) (fst (m2 s2)) /\ rres eq (snd (m1 s1)) (snd (m2 s2)) -> (forall a, rel W (k1 a) (k2 a)) ->
  sim (fst (bind m1 k1 s1)) (fst (bind m2 k2 s2)) /\ rres W (snd (bind m1 k1 s1)) (snd (bind m2 k2 s2)).
Proof.
  intros A B W m1 m2 k1 k2 s1 s2 [S R] HK. unfold bind. destruct (m1 s1) as [u1 [a1|e1]], (m2 s2) as [u2 [a2|e2]]; cbn in S, R; try contradiction.
  - subst a2. apply HK. exact S.
  - split; assumption.
Qed.

Lemma sim_refl : forall s, sim s s.
Proof. intros s. split; [|auto]. induction (s_heap s); constructor; [reflexivity|assumption]. Qed.

(** the term a row begins with *)
Definition row_term (c : cls) (name p r : string) (row : list string) (line : nat) (ft : option string) : trec :=
  {| t_cls := c; t_parent := None; t_term := name; t_pt := p; t_rt := r;
     t_val := init_val (VStr (nth 1 row "")); t_args := map strip (skipn 2 row); t_section := None;
     t_doc := true; t_ftype := ft; t_row := Some line; t_col := Some 1;
     t_tvn := "@value"; t_cpt := "any"; t_valid := None; t_options := [];
     t_children := []; t_terms := []; t_hargs := []; t_dtvn := "@value" |}.
Definition with_term (r : trec) (s : st) : st := set_s_heap (s_heap s ++ [r]) s.

Lemma row_step_term : forall e load rec src ft line row ls s p r c, ~ blank_row row -> cell_names (hd "" row) p r ->
  parser_term_class (p ++ "." ++ r) s = c -> is_section_cls c = false ->
  row_step e load rec src ft line row ls s = row_rest e load rec src ft line ls (hlen s) (with_term (row_term c (p ++ "." ++ r) p r row line ft) s).
Proof.
  intros e load rec src ft line row ls s p r c NB CN Ec K. unfold row_step. rewrite (proj2 (not_blank row) NB).
  assert (D := cell_names_dotted _ _ _ CN). apply split_term_lower_spec in CN, D. rewrite CN. unfold bind at 1. cbn [lift ret]. cbv zeta.
  change (dotted p r) with (p ++ "." ++ r)%string. unfold bind at 1. cbn [gets]. rewrite Ec. unfold bind at 1.
  assert (X : construct c (p ++ "." ++ r) (VStr (nth 1 row "")) (skipn 2 row) (Some line) (Some 1) ft None true None s
    = (with_term (row_term c (p ++ "." ++ r) p r row line ft) s, Ok (hlen s))).
  { transitivity (mk_plain c (p ++ "." ++ r) (VStr (nth 1 row "")) (skipn 2 row) (Some line) (Some 1) ft None true None s); [destruct c; try discriminate K; reflexivity|].
    unfold mk_plain. unfold bind at 1. cbn [gets]. unfold term_names. rewrite D. reflexivity. }
  rewrite X. reflexivity.
Qed.

Lemma not_special : forall p r x, dot_free p -> dot_free r -> lower p = p -> lower r = r -> In x ["include"; "declare"; "section"] -> ~ special p r -> term_is_name p r x = Ok false.
Proof.
  intros p r x Dp Dr Lp Lr Ix Ns.
  assert (G : forall x, In x ["include"; "declare"; "section"] -> dotted p r = ("root." ++ x)%string -> special p r).
  { clear x Ix. intros x Ix E. change ("root." ++ x)%string with (dotted "root" x) in E.
    destruct (dotted_one _ _ _ _ E) as [-> ->]; [reflexivity|cbn in Ix; destruct Ix as [<-|[<-|[<-|[]]]]; reflexivity|]. split; [reflexivity|]. cbn in Ix. intuition. }
  assert (F : term_is_name p r x = Ok (eqs (dotted p r) ("root." ++ x))).
  { unfold term_is_name. rewrite Lp, Lr. cbn in Ix. destruct Ix as [<-|[<-|[<-|[]]]]; cbv zeta.
    - change (has_char "." "include") with false. cbv iota. change (split_term_lower ("root." ++ "include")) with (Ok ("root", "include")). change (lower ("root." ++ "include")) with "root.include".
      cbn [rbind]. change (eqs "include" "*") with false. change (eqs "root" "*") with false. cbn [andb]. change ("root." ++ "include")%string with "root.include". destruct (eqs _ _); reflexivity.
    - change (has_char "." "declare") with false. cbv iota. change (split_term_lower ("root." ++ "declare")) with (Ok ("root", "declare")). change (lower ("root." ++ "declare")) with "root.declare".
      cbn [rbind]. change (eqs "declare" "*") with false. change (eqs "root" "*") with false. cbn [andb]. change ("root." ++ "declare")%string with "root.declare". destruct (eqs _ _); reflexivity.
    - change (has_char "." "section") with false. cbv iota. change (split_term_lower ("root." ++ "section")) with (Ok ("root", "section")). change (lower ("root." ++ "section")) with "root.section".
      cbn [rbind]. change (eqs "section" "*") with false. change (eqs "root" "*") with false. cbn [andb]. change ("root." ++ "section")%string with "root.section". destruct (eqs _ _); reflexivity. }
  rewrite F. destruct (eqs _ _) eqn:E; [|reflexivity]. exfalso. apply eqs_true in E. exact (Ns (G x Ix E)).
Qed.

(** what is done with a row that is no Include, Declare or Section row *)
Definition plain_rest (load : bool) (ftype : option string) (line ls t : nat) : MM nat :=
  emit load t ;;;
  r <- getT t ;;
  sec <- lift (term_is r "section") ;;
  hdr <- lift (term_is r "header") ;;
  (if sec || hdr then ret tt else emit_args load ftype line t 0 (t_args r)) ;;;
  ret ls.
Lemma row_rest_plain : forall e load rec src ft line ls t s, let r := tget t s in
  term_is r "include" = Ok false -> term_is r "declare" = Ok false -> term_is r "section" = Ok false ->
  row_rest e load rec src ft line ls t s = plain_rest load ft line ls t s.
Proof.
  intros e load rec src ft line ls t s r A B C. unfold row_rest. unfold bind at 1. cbn [getT gets]. fold r. rewrite A, B, C. reflexivity.
Qed.

Lemma tget_with : forall r s, tget (hlen s) (with_term r s) = r.
Proof. intros r s. unfold tget, hget, with_term. cbn. rewrite app_nth2 by (unfold hlen; lia). unfold hlen. rewrite Nat.sub_diag. reflexivity. Qed.
Lemma upd_last : forall {A} (l : list A) x y, upd (List.length l) y (l ++ [x]) = (l ++ [y])%list.
Proof. intros A l x y. induction l as [|z l IH]; [reflexivity|]. cbn. rewrite IH. reflexivity. Qed.

Lemma syn_row : forall e load rec src ft line row1 row2 ls s, respells s row1 row2 ->
  (forall a ft, rel eq (rec a ft) (rec a ft)) ->
  sim (fst (row_step e load rec src ft line row1 ls s)) (fst (row_step e load rec src ft line row2 ls s))
  /\ rres eq (snd (row_step e load rec src ft line row1 ls s)) (snd (row_step e load rec src ft line row2 ls s)).
Proof.
  intros e load rec src ft line row1 row2 ls s [(N1 & N2 & T) (p & r & v & p' & r' & C1 & SF & Cv & C2 & NS & S1 & S2 & K1 & K2)] HR.
  rewrite (row_step_term _ _ _ _ _ _ _ _ _ p r _ N1 C1 eq_refl K1), (row_step_term _ _ _ _ _ _ _ _ _ p' r' _ N2 C2 eq_refl K2).
  assert (ER : forall n, nth (S n) row1 "" = nth (S n) row2 "" /\ skipn (S n) row1 = skipn (S n) row2).
  { intros n. destruct row1 as [|x row1]; [contradiction N1; left; reflexivity|]. destruct row2 as [|y row2]; [contradiction N2; left; reflexivity|]. cbn in T. subst row2. split; reflexivity. }
  set (c1 := parser_term_class (p ++ "." ++ r) s) in *. set (c2 := parser_term_class (p' ++ "." ++ r') s) in *.
  set (R1 := row_term c1 (p ++ "." ++ r) p r row1 line ft). set (R2 := row_term c2 (p' ++ "." ++ r') p' r' row2 line ft).
  destruct (cell_names_tidy _ _ _ C1) as (_ & _ & Dp & Dr & Lp & Lr & _). destruct (cell_names_tidy _ _ _ C2) as (_ & _ & Dp' & Dr' & Lp' & Lr' & _).
  assert (PL : forall R a b, t_pt R = a -> t_rt R = b -> dot_free a -> dot_free b -> lower a = a -> lower b = b -> ~ special a b ->
    row_rest e load rec src ft line ls (hlen s) (with_term R s) = plain_rest load ft line ls (hlen s) (with_term R s)).
  { intros R a b <- <- Da Db La Lb Ns. apply row_rest_plain; rewrite tget_with; apply not_special; try assumption; cbn; auto. }
  rewrite (PL R1 p r eq_refl eq_refl), (PL R2 p' r' eq_refl eq_refl) by assumption.
  unfold plain_rest. apply bind_at; [|].
  - unfold emit. apply bind_at.
    + change (consume (hlen s)) with (rename_term (hlen s) ;;; consume_rest (hlen s)). apply bind_at; [|intros _; apply r_consume_rest].
      apply split_term_lower_spec in Cv. apply synonyms_get in SF.
      rewrite (rename_syn (hlen s) (with_term R1 s) v p' r'); [| |exact Cv].
      2:{ rewrite tget_with. unfold join_lc, pt_lc, rt_lc. cbn [t_pt t_rt R1 row_term]. rewrite Lp, Lr. exact SF. }
      rewrite (rename_nosyn (hlen s) (with_term R2 s)).
      2:{ rewrite tget_with. unfold join_lc, pt_lc, rt_lc. cbn [t_pt t_rt R2 row_term]. rewrite Lp', Lr'. cbn [s_prs with_term set_s_heap].
          destruct (dget (dotted p' r') (synonyms (p_dterms (s_prs s)))) as [w|] eqn:E; [|reflexivity]. apply synonyms_get in E. exfalso. exact (NS w E). }
      apply r_number. assert (E1 : fst (modT (hlen s) (fun q => set_t_rt r' (set_t_pt p' q)) (with_term R1 s)) = with_term (set_t_rt r' (set_t_pt p' R1)) s).
      { cbn [modT modify fst]. rewrite tget_with. unfold with_term. cbn [s_heap set_s_heap]. unfold hlen at 1. rewrite upd_last. reflexivity. }
      rewrite E1. split; [|auto]. cbn [s_heap with_term set_s_heap]. apply Forall2_app; [apply sim_refl|]. constructor; [|constructor].
      unfold same_but_spelling, unspelled. cbn. rewrite K1, K2. unfold R1, R2, row_term, set_t_rt, set_t_pt, set_t_term, set_t_cls. cbn [t_cls t_parent t_term t_pt t_rt t_val t_args t_section t_doc t_ftype t_row t_col t_tvn t_cpt t_valid t_options t_children t_terms t_hargs t_dtvn].
      rewrite (proj1 (ER 0)), (proj2 (ER 1)). reflexivity.
    + intros b. apply rel_when, r_load1.
  - intros _. apply rel_getT; [intros; reflexivity|]. intros q. apply rel_bind_eq; [apply rel_lift; reflexivity|]. intros b1. apply rel_bind_eq; [apply rel_lift; reflexivity|]. intros b2.
    apply rel_bind_eq; [|intros _; apply rel_ret; reflexivity]. destruct (b1 || b2); [apply rel_ret; reflexivity|apply r_emit_args].
Qed.

(** ** the file *)
Lemma rows_to_src : forall e load rec r d x y ft rows l ls s, rows_to e load rec (mk_source r d x) ft l rows ls s = rows_to e load rec (mk_source r d y) ft l rows ls s.
Proof.
  intros e load rec r d x y ft rows. induction rows as [|row rows IH]; intros l ls s; [reflexivity|]. cbn [rows_to].
  change (row_step e load rec (mk_source r d x) ft l row ls) with (row_step e load rec (mk_source r d y) ft l row ls).
  unfold bind. destruct (row_step _ _ _ _ _ _ _ _ s) as [s' [a|e0]]; [apply IH|reflexivity].
Qed.

Lemma outcome_of : forall (m1 m2 : MM unit) s1 s2, sim (fst (m1 s1)) (fst (m2 s2)) /\ rres eq (snd (m1 s1)) (snd (m2 s2)) -> same_outcome (m1 s1) (m2 s2).
Proof.
  intros m1 m2 s1 s2 [(Hh & Hd & Hp & Hr) R]. unfold same_outcome. repeat (split; [assumption|]). destruct (snd (m1 s1)), (snd (m2 s2)); cbn in R; congruence || contradiction.
Qed.

Lemma syn_file : forall g head row1 row2 post s0, steps_to g (head ++ row1 :: post) head s0 -> respells s0 row1 row2 ->
  same_outcome (load_into g (head ++ row1 :: post)) (load_into g (head ++ row2 :: post)).
Proof.
  intros g head row1 row2 post s0 St R. destruct (Nat.eq_dec (in_fuel g) 0) as [Z|Fu].
  { unfold load_into. rewrite Z. apply outcome_of. split; [apply sim_refl|reflexivity]. }
  assert (St2 : steps_to g (head ++ row2 :: post) head s0).
  { destruct St as (ls & St). exists ls. cbv zeta in *. rewrite <- St. apply rows_to_src. }
  destruct St as (ls & St), St2 as (ls2 & St2). pose proof St as SS. cbv zeta in St, St2, SS.
  rewrite (rows_to_src _ _ _ _ _ _ (head ++ row2 :: post)) in SS. rewrite SS in St2. injection St2 as <-.
  unfold load_into. destruct (in_fuel g) as [|f]; [congruence|]. cbn [pred] in *. rewrite !load_source_fw.
  fold (started (new_doc (in_reg g) (in_terms g) (in_secs g) (in_super g))) in St, SS.
  assert (Q : forall row, bind (rows_loop (in_env g) true (generate_terms (in_env g) true f) (mk_source (in_ref g) (in_dir g) (head ++ row :: post)) None 1 (head ++ row :: post) 0)
     (fun _ => finish_load) (started (new_doc (in_reg g) (in_terms g) (in_secs g) (in_super g)))
     = bind (row_step (in_env g) true (generate_terms (in_env g) true f) (mk_source (in_ref g) (in_dir g) []) None (1 + List.length head) row ls)
         (fun ls' => bind (rows_loop (in_env g) true (generate_terms (in_env g) true f) (mk_source (in_ref g) (in_dir g) (head ++ row :: post)) None (S (1 + List.length head)) post ls') (fun _ => finish_load)) s0).
  { intros row. unfold bind at 1. rewrite rows_to_app. unfold bind at 1. rewrite (rows_to_src _ _ _ _ _ _ (head ++ row1 :: post)), St. cbn [rows_loop].
    change (row_step (in_env g) true (generate_terms (in_env g) true f) (mk_source (in_ref g) (in_dir g) (head ++ row :: post))) with
           (row_step (in_env g) true (generate_terms (in_env g) true f) (mk_source (in_ref g) (in_dir g) [])).
    unfold bind. destruct (row_step _ _ _ _ _ _ _ _ s0) as [s1 [a|e]]; reflexivity. }
  rewrite !Q. apply outcome_of. apply bind_at.
  - apply syn_row; [exact R|]. intros a ft. apply r_generate; [split; reflexivity|reflexivity].
  - intros ls'. apply rel_bind_eq; [|intros _; apply r_finish]. apply r_rows; [split; reflexivity|]. intros a ft. apply r_generate; [split; reflexivity|reflexivity].
Qed.

(** searches see no difference *)
Lemma syn_find : forall x y term v sa, same_outcome x y -> doc_find (fst x) term v sa = doc_find (fst y) term v sa.
Proof. intros x y term v sa (Hh & Hd & Hp & Hr & _). apply sim_doc_find. repeat split; assumption. Qed.

(** ** tables of declarations as the parser makes them *)
Lemma stands_for_key : forall ds x v, NoDup (map fst ds) -> (forall k td, In (k, td) ds -> exists p r, cell_names k p r /\ k = (p ++ "." ++ r)%string) ->
  (stands_for ds x v <-> exists td, In (x, td) ds /\ dget "synonym" (td_props td) = Some v /\ v <> "").
Proof.
  intros ds x v ND KN.
  assert (M : forall k td y w, In (k, td) ds -> (makes_synonym (k, td) y w <-> y = k /\ dget "synonym" (td_props td) = Some w /\ w <> "")).
  { intros k td y w I. destruct (KN k td I) as (p & r & C & E). destruct (cell_names_tidy _ _ _ C) as (Tp & Tr & Dp & Dr & Lp & Lr & Np).
    assert (TK : tidy k).
    { rewrite E. assert (X := Tp). assert (Y := Tr). destruct Tp as [Tp1 Tp2], Tr as [Tr1 Tr2]. split.
      - intros c z H. destruct p as [|c0 p]; [congruence|]. injection H as <- _. exact (Tp1 _ _ eq_refl).
      - intros c z H. destruct r as [|c0 r0] eqn:Er.
        + change (p ++ "." ++ "")%string with (p ++ String "." "")%string in H. apply (f_equal (fun q => list_ascii_of_string q)) in H. rewrite !SlugFacts.chars_app in H. cbn in H.
          apply app_inj_tail in H. destruct H as [_ H]. subst c. reflexivity.
        + rewrite <- Er in *. assert (Z : exists z', r = (z' ++ String c "")%string).
          { assert (G : forall q y, (q ++ r)%string = (y ++ String c "")%string -> exists z', r = (z' ++ String c "")%string).
            { clear - Er. induction q as [|a q IH]; intros y H; [exists y; exact H|]. destruct y as [|b y]; [cbn in H; injection H as _ H; destruct q; [rewrite Er in H; discriminate H|discriminate H]|].
              cbn in H. injection H as _ H. exact (IH y H). }
            apply (G (p ++ ".")%string z). rewrite <- H. clear. induction p as [|a p IH]; [reflexivity|]. cbn. rewrite IH. reflexivity. }
          destruct Z as (z' & Z). exact (Tr2 _ _ Z). }
    assert (SK : strip k = k) by (apply tidy_strip, TK).
    rewrite makes_key, SK. assert (LK : lower k = k). { rewrite E, !lower_app, Lp, Lr. reflexivity. } rewrite LK.
    assert (HD : has_char "." k = true). { rewrite E, has_char_app. cbn. apply orb_true_r. } rewrite HD.
    split; [intros (A & B & [C1|[C1 _]]); [|discriminate C1]; split; [exact C1|]; split; [exact A|intros ->; discriminate B]|].
    intros (-> & A & B). split; [exact A|]. split; [destruct w; [congruence|reflexivity]|auto]. }
  split.
  - intros (b & [k td] & a & E & Mk & _). apply M in Mk; [|rewrite E; apply in_or_app; right; left; reflexivity]. destruct Mk as (-> & A & B).
    exists td. split; [rewrite E; apply in_or_app; right; left; reflexivity|auto].
  - intros (td & I & A & B). destruct (in_split _ _ I) as (b & a & E). exists b, (x, td), a. split; [exact E|]. split; [apply M; auto|].
    intros [k' td'] w I' Mk. apply M in Mk; [|rewrite E; apply in_or_app; right; right; exact I']. destruct Mk as (-> & _).
    rewrite E, map_app in ND. cbn in ND. apply NoDup_remove_2 in ND. apply ND. apply in_or_app. right. apply in_map_iff. exists (k', td'). auto.
Qed.

(** ** the tables of a parse *)
From Verif Require Import SpecInherit FrameFacts GrowFacts DeclFacts OrderFacts.

Definition one_each (s : st) : Prop := NoDup (map fst (p_dterms (s_prs s))).
Definition tables (s s' : st) : Prop := one_each s -> one_each s'.

Lemma tables_po : preorder tables.
Proof. split; unfold tables; auto. Qed.
Lemma tables_pmod : forall f s, (forall p, p_dterms (f p) = p_dterms p) -> tables s (pmod f s).
Proof. intros f s H A. unfold one_each. cbn. rewrite H. exact A. Qed.
Lemma tables_new : forall s k td, tables s (pmod (fun p => set_p_dterms (dset k td (p_dterms p)) p) s).
Proof. intros s k td A. unfold one_each. cbn. apply nodup_dset. exact A. Qed.

Lemma tables_section : forall x props, pres tables (add_term_to_section x props).
Proof.
  pose proof tables_po as PO. intros. unfold add_term_to_section. apply pres_bind; [exact PO|apply pres_gets; exact PO|]. intros q. cbv zeta.
  repeat match goal with |- pres _ (match ?x with _ => _ end) => destruct x end; try (apply pres_raise; exact PO); try (apply pres_ret; exact PO).
  apply pres_modP. intros; apply tables_pmod. reflexivity.
Qed.

Lemma tables_inherit : forall f t_r ih_r sec n, pres tables (inherit_loop f t_r ih_r sec n).
Proof.
  pose proof tables_po as PO. intros f. induction f as [|f IH]; intros; cbn [inherit_loop]; [apply pres_raise; exact PO|].
  apply pres_bind; [exact PO|apply pres_gets; exact PO|]. intros q. destruct (dget sec (p_dsecs q)) as [sd|]; [|apply pres_raise; exact PO].
  destruct (nth_error _ n) as [nm|]; [|apply pres_ret; exact PO].
  apply pres_bind; [exact PO| |intros _; apply IH]. apply pres_when; [exact PO|].
  apply pres_bind; [exact PO|apply pres_lift; exact PO|]. intros [? ?].
  destruct (dget _ _); [|apply pres_raise; exact PO]. cbv zeta.
  apply pres_bind; [exact PO|apply pres_lift; exact PO|]. intros k.
  apply pres_bind; [exact PO|apply pres_modP; intros; apply tables_new|]. intros _. apply tables_section.
Qed.

Lemma tables_declare : forall t, pres tables (manage_declare_terms t).
Proof.
  pose proof tables_po as PO. intros t. unfold manage_declare_terms.
  apply pres_bind; [exact PO|apply pres_gets; exact PO|]. intros r.
  apply pres_bind; [exact PO|apply pres_lift; exact PO|]. intros [|].
  { unfold add_declared_section. apply pres_bind; [exact PO|apply pres_gets; exact PO|]. intros r'.
    apply pres_bind; [exact PO|apply pres_lift; exact PO|]. intros n. apply pres_modP. intros; apply tables_pmod. reflexivity. }
  apply pres_bind; [exact PO|apply pres_lift; exact PO|]. intros [|].
  { unfold add_declared_term. apply pres_bind; [exact PO|apply pres_gets; exact PO|]. intros r'.
    apply pres_bind; [exact PO|destruct (t_val r'); first [apply pres_ret; exact PO|apply pres_raise; exact PO]|]. intros v.
    apply pres_bind; [exact PO|apply pres_lift; exact PO|]. intros k.
    apply pres_bind; [exact PO|apply pres_gets; exact PO|]. intros h.
    apply pres_bind; [exact PO|apply pres_lift; exact PO|]. intros ap.
    apply pres_bind; [exact PO|apply pres_lift; exact PO|]. intros np. cbv zeta.
    apply pres_bind; [exact PO|apply pres_modP; intros; apply tables_new|]. intros _.
    apply pres_bind; [exact PO| |intros _].
    - destruct (dget _ _); [apply pres_when; [exact PO|apply tables_section]|apply pres_ret; exact PO].
    - destruct (dget _ _) as [ih|]; [|apply pres_ret; exact PO]. destruct (nonempty ih); [|apply pres_ret; exact PO].
      destruct (dget _ _); [|apply pres_raise; exact PO].
      apply pres_bind; [exact PO|apply pres_lift; exact PO|]. intros [? ?].
      apply pres_bind; [exact PO|apply pres_lift; exact PO|]. intros [? ?].
      apply pres_bind; [exact PO|apply pres_gets; exact PO|]. intros f. apply tables_inherit. }
  apply pres_bind; [exact PO|apply pres_lift; exact PO|]. intros [|]; [|apply pres_ret; exact PO].
  unfold add_value_set_value. apply pres_bind; [exact PO|apply pres_gets; exact PO|]. intros r'.
  apply pres_bind; [exact PO|apply pres_gets; exact PO|]. intros h.
  destruct (t_parent r') as [q|]; [|intros s s' x H; injection H as <- _; intros A; exact A].
  match goal with |- pres _ (bind (ret ?v) ?f) => change (pres tables (f v)) end. cbv beta.
  apply pres_bind; [exact PO|apply pres_lift; exact PO|]. intros ap. cbv zeta. apply pres_modP. intros s A. unfold one_each in *. cbn.
  rewrite map_map. rewrite (map_ext _ fst); [exact A|].
  intros [k' td']. cbn [fst snd]. destruct (dget "valuesetname" (td_props td')); [|reflexivity].
  match goal with |- context [if ?b then _ else _] => destruct b end; reflexivity.
Qed.

Section Rows.
  Variable R : st -> st -> Prop.
  Hypothesis PO : preorder R.
  Variables (e : env) (load : bool) (rec : source -> option string -> MM unit).
  Hypothesis Rrow : forall src ft line row ls, pres R (row_step e load rec src ft line row ls).
  Lemma pres_rows_to : forall src ft rows line ls, pres R (rows_to e load rec src ft line rows ls).
  Proof.
    intros src ft rows. induction rows as [|row rows IH]; intros; cbn [rows_to]; [apply pres_ret; exact PO|].
    apply pres_bind; [exact PO|apply Rrow|]. intros ls'. apply IH.
  Qed.
End Rows.

Lemma tables_generate : forall e load n src ft, pres tables (generate_terms e load n src ft).
Proof.
  intros. apply w_generate; try exact tables_po; try exact tables_declare; try (intros; intros A; exact A).
  intros f s H. apply tables_pmod. intros p. apply H.
Qed.
Lemma tables_row : forall e load n src ft line row ls, pres tables (row_step e load (generate_terms e load n) src ft line row ls).
Proof.
  intros. apply w_row; try exact tables_po; try exact tables_declare; try (intros; intros A; exact A); [|intros; apply tables_generate].
  intros f s H. apply tables_pmod. intros p. apply H.
Qed.
Lemma full_row : forall e load n src ft line row ls, pres (keeps full_name) (row_step e load (generate_terms e load n) src ft line row ls).
Proof.
  assert (Q1 : forall v k props, normalize_term v = Ok k -> full_name k (mk_tdecl props [])) by (intros v k props E; exact (normal_full _ _ E)).
  assert (Q2 : forall k0 td v k, full_name k0 td -> normalize_term v = Ok k -> full_name k (set_td_props (dset "term" v (dset "inheritsfrom" "" (td_props td))) td)) by (intros k0 td v k _ E; exact (normal_full _ _ E)).
  assert (Q3 : forall k td n a b key x, full_name k td -> dget "valuesetname" (td_props td) = Some n -> lower n = dotted a b -> full_name k (set_td_values (dset key x (td_values td)) td)) by (intros k td n a b key x E _ _; exact E).
  intros. apply w_row; try exact (keeps_po full_name); try (intros; apply keeps_declare; assumption); try (intros; intros A; exact A); [|intros; apply keeps_generate; assumption].
  intros f s H. apply keeps_pmod. intros p. apply H.
Qed.

(** in every state of a load a name has at most one declaration, and is a full name *)
Lemma steps_tables : forall g rows pre s, steps_to g rows pre s -> NoDup (map fst (p_dterms (s_prs s))) /\ full_keys s.
Proof.
  intros g rows pre s (ls & E). split.
  - apply (pres_rows_to tables tables_po) in E; [|intros; apply tables_row]. apply E. unfold one_each. cbn.
    repeat (apply NoDup_cons; [cbn; intuition discriminate|]). apply NoDup_nil.
  - apply (pres_rows_to _ (keeps_po full_name)) in E; [|intros; apply full_row]. apply E. intros k td H. exact (full_installed _ _ H).
Qed.

Lemma steps_synonym : forall g rows pre s x v, steps_to g rows pre s ->
  (stands_for (p_dterms (s_prs s)) x v <-> exists td, dget x (p_dterms (s_prs s)) = Some td /\ dget "synonym" (td_props td) = Some v /\ v <> "").
Proof.
  intros g rows pre s x v St. destruct (steps_tables _ _ _ _ St) as [ND FK]. rewrite stands_for_key.
  - split; intros (td & A & B); exists td; (split; [|exact B]); [apply dget_in_nodup; assumption|apply dget_in; exact A].
  - exact ND.
  - intros k td I. apply (FK k td). apply dget_in_nodup; assumption.
Qed.

(** ** what is shown of the documents *)
From Verif Require Import Render.

Section Shown.
  Variable h : list trec.
  Notation u := (map unspelled h).
  Lemma rmap_same : forall {A B} (f g : A -> res B) l, (forall x, f x = g x) -> rmap f l = rmap g l.
  Proof. intros A B f g l H. induction l as [|x l IH]; [reflexivity|]. cbn [rmap]. rewrite H, IH. reflexivity. Qed.

  Lemma u_conv_step : forall d q x, conv_step d (unspelled q) x = conv_step d q x.
  Proof. intros. reflexivity. Qed.
  Lemma u_conv_kids : forall f g cs d, (forall i, f i = g i) -> conv_kids f u cs d = conv_kids g h cs d.
  Proof.
    intros f g cs. induction cs as [|c cs IH]; intros d E; [reflexivity|]. cbn [conv_kids]. rewrite E, hget_un.
    destruct (g c); [|reflexivity]. cbn [rbind]. rewrite u_conv_step. destruct (conv_step _ _ _); [|reflexivity]. cbn [rbind]. apply IH, E.
  Qed.
  Lemma u_as_dict : forall n rvn i, as_dict n u rvn i = as_dict n h rvn i.
  Proof.
    intros n rvn. induction n as [|n IH]; intros i; [reflexivity|]. cbn [as_dict]. rewrite hget_un. unfold conv_node.
    change (t_children (unspelled (hget i h))) with (t_children (hget i h)). destruct (t_children (hget i h)) as [|c cs]; [reflexivity|].
    rewrite (u_conv_kids _ (as_dict n h rvn)) by exact IH. reflexivity.
  Qed.

  Lemma u_row_props : forall tvm r, row_props u tvm (unspelled r) = row_props h tvm r.
  Proof.
    intros tvm r. unfold row_props. change (t_children (unspelled r)) with (t_children r). change (t_val (unspelled r)) with (t_val r).
    generalize [(tvm, t_val r)]. induction (t_children r) as [|c cs IH]; intros d; [reflexivity|]. cbn [fold_left]. cbv zeta. rewrite hget_un.
    change (is_terminal (unspelled (hget c h))) with (is_terminal (hget c h)). change (rt_lc (unspelled (hget c h))) with (rt_lc (hget c h)).
    change (t_val (unspelled (hget c h))) with (t_val (hget c h)). apply IH.
  Qed.
  Lemma u_qualified : forall r, qualified_term u (unspelled r) = qualified_term h r.
  Proof.
    intros r. unfold qualified_term. change (t_parent (unspelled r)) with (t_parent r). destruct (t_parent r) as [p|]; [|reflexivity].
    rewrite hget_un. reflexivity.
  Qed.
  Lemma u_term_rows : forall n d i, term_rows n u d i = term_rows n h d i.
  Proof.
    intros n d. induction n as [|n IH]; intros i; [reflexivity|]. cbn [term_rows]. cbv zeta. rewrite !hget_un.
    change (t_section (unspelled (hget i h))) with (t_section (hget i h)). destruct (t_section (hget i h)) as [q|]; [|reflexivity].
    rewrite hget_un. change (t_doc (unspelled (hget q h))) with (t_doc (hget q h)). destruct (negb _); [reflexivity|].
    rewrite u_qualified. destruct (qualified_term h (hget i h)); [|reflexivity]. cbn [rbind]. destruct (eqs _ ""); [reflexivity|].
    rewrite u_row_props. change (t_children (unspelled (hget i h))) with (t_children (hget i h)).
    rewrite (rmap_same _ (term_rows n h d)) by exact IH. erewrite filter_ext; [reflexivity|]. intros c. cbv beta. rewrite hget_un. reflexivity.
  Qed.
  Lemma u_fuel : heap_fuel u = heap_fuel h.
  Proof. unfold heap_fuel. rewrite map_length. reflexivity. Qed.
  Lemma u_section_rows : forall d i, section_rows u d i = section_rows h d i.
  Proof.
    intros d i. unfold section_rows. rewrite hget_un, u_fuel. change (t_terms (unspelled (hget i h))) with (t_terms (hget i h)).
    rewrite (rmap_same _ (fun t => term_rows (heap_fuel h) h d t)) by (intros t; apply u_term_rows). reflexivity.
  Qed.
  Lemma u_section_lines : forall d i, section_lines u d i = section_lines h d i.
  Proof. intros d i. unfold section_lines. cbv zeta. rewrite u_section_rows, hget_un. reflexivity. Qed.
End Shown.

Lemma syn_shown : forall x y, same_outcome x y ->
  (forall rvn, doc_as_dict (fst x) rvn = doc_as_dict (fst y) rvn) /\ doc_rows (fst x) = doc_rows (fst y) /\ doc_lines (fst x) = doc_lines (fst y).
Proof.
  intros x y (Hh & Hd & Hp & Hr & _). apply sim_heq in Hh. unfold heq in Hh. destruct x as [s1 r1], y as [s2 r2]. cbn [fst] in *. split; [|split].
  - intros rvn. assert (G : forall s, doc_as_dict s rvn = let h := map unspelled (s_heap s) in
      let terms := concat (map (fun kv => t_terms (hget (snd kv) h)) (d_sections (s_doc s))) in
      match terms with [] => Ok (JVal (VStr "Root")) | _ => do? d <- conv_kids (as_dict (heap_fuel h) h rvn) h terms [] ;;
        let d := dset "@value" (JVal (VStr "Root")) d in Ok (JDict (if rvn then ddel "@value" d else d)) end).
    { intros s. unfold doc_as_dict. cbv zeta.
      rewrite (map_ext (fun kv => t_terms (hget (snd kv) (map unspelled (s_heap s)))) (fun kv => t_terms (hget (snd kv) (s_heap s)))) by (intros kv; rewrite hget_un; reflexivity).
      rewrite u_fuel. destruct (concat _) as [|t ts]; [reflexivity|]. rewrite (u_conv_kids _ _ (as_dict (heap_fuel (s_heap s)) (s_heap s) rvn)) by (intros i; apply u_as_dict). reflexivity. }
    rewrite !G, Hh, Hd. reflexivity.
  - assert (G : forall s, doc_rows s = do? l <- rmap (fun kv => do? rows <- section_rows (map unspelled (s_heap s)) (s_doc s) (snd kv) ;;
             Ok (section_heading (hget (snd kv) (map unspelled (s_heap s))) ++ map print_row rows)%list) (d_sections (s_doc s)) ;; Ok (concat l)).
    { intros s. unfold doc_rows. erewrite rmap_same; [reflexivity|]. intros kv. cbv beta. rewrite u_section_rows, hget_un. reflexivity. }
    rewrite !G, Hh, Hd. reflexivity.
  - assert (G : forall s, doc_lines s = do? l <- rmap (fun kv => section_lines (map unspelled (s_heap s)) (s_doc s) (snd kv)) (d_sections (s_doc s)) ;; Ok (concat l)).
    { intros s. unfold doc_lines. erewrite rmap_same; [reflexivity|]. intros kv. cbv beta. rewrite u_section_lines. reflexivity. }
    rewrite !G, Hh, Hd. reflexivity.
Qed.
