(** * SharedFacts: proofs about the parser's cache and shared dicts (C85) *)

From Coq Require Import Lia.
From Verif Require Import ListFacts StrFacts HeapFacts Shared RunFacts FrameFacts DictFacts OrderFacts CalmRowFacts.

(** ** Programs that do not change declarations *)

Definition quiet {A} (m : MM A) : Prop := forall s,
  p_dterms (s_prs (fst (m s))) = p_dterms (s_prs s) /\ d_super (s_doc (fst (m s))) = d_super (s_doc s).

Lemma q_bind : forall A B (m : MM A) (f : A -> MM B), quiet m -> (forall a, quiet (f a)) -> quiet (bind m f).
Proof.
  intros A B m f H1 H2 s. unfold bind. specialize (H1 s). destruct (m s) as [s1 [a|e]]; cbn [fst] in *; [|exact H1]. destruct (H2 a s1) as [X Y]. rewrite X, Y. exact H1.
Qed.
Lemma q_ret : forall A (a : A), quiet (ret a).
Proof. intros A a s. split; reflexivity. Qed.
Lemma q_raise : forall A e, quiet (@raise st A e).
Proof. intros A e s. split; reflexivity. Qed.
Lemma q_lift : forall A (r : res A), quiet (lift r).
Proof. intros A r s. split; reflexivity. Qed.
Lemma q_gets : forall A (f : st -> A), quiet (gets f).
Proof. intros A f s. split; reflexivity. Qed.
Lemma q_reads : forall A (f : st -> res A), quiet (PyBase.reads f).
Proof. intros A f s. split; reflexivity. Qed.
Lemma q_assert : forall b, quiet (assert_ b).
Proof. intros [|] s; split; reflexivity. Qed.
Lemma q_when : forall b m, quiet m -> quiet (when b m).
Proof. intros [|] m H; [exact H|apply q_ret]. Qed.
Lemma q_mapM : forall A (f : A -> MM unit) l, (forall a, quiet (f a)) -> quiet (mapM_ f l).
Proof. intros A f l H. induction l as [|a l IH]; [apply q_ret|]. apply q_bind; [apply H|intros _; exact IH]. Qed.
Lemma q_modT : forall t f, quiet (modT t f).
Proof. intros t f s. split; reflexivity. Qed.
Lemma q_modP : forall f, (forall p, p_dterms (f p) = p_dterms p) -> quiet (modP f).
Proof. intros f H s. split; [apply H|reflexivity]. Qed.
Lemma q_modD : forall f, (forall d, d_super (f d) = d_super d) -> quiet (modD f).
Proof. intros f H s. split; [reflexivity|apply H]. Qed.
Lemma q_alloc : forall r, quiet (allocT r).
Proof. intros r s. split; reflexivity. Qed.

Ltac q1 :=
  match goal with
  | |- forall _, _ => intro
  | |- quiet (bind _ _) => apply q_bind
  | |- quiet (ret _) => apply q_ret
  | |- quiet (raise _) => apply q_raise
  | |- quiet (lift _) => apply q_lift
  | |- quiet (gets _) => apply q_gets
  | |- quiet (getT _) => apply q_gets
  | |- quiet getD => apply q_gets
  | |- quiet getP => apply q_gets
  | |- quiet (PyBase.reads _) => apply q_reads
  | |- quiet (assert_ _) => apply q_assert
  | |- quiet (when _ _) => apply q_when
  | |- quiet (mapM_ _ _) => apply q_mapM
  | |- quiet (modT _ _) => apply q_modT
  | |- quiet (modD _) => apply q_modD; intros; reflexivity
  | |- quiet (modP _) => apply q_modP; intros; reflexivity
  | |- quiet (allocT _) => apply q_alloc
  | |- quiet (if ?b then _ else _) => destruct b
  | |- quiet (match ?x with _ => _ end) => destruct x
  | |- quiet (let _ := _ in _) => cbv zeta
  | |- _ => assumption
  end.
Ltac qw := repeat (cbv beta; q1).

Lemma q_construct : forall c term v args row col ft parent doc sec, quiet (construct c term v args row col ft parent doc sec).
Proof. intros. unfold construct, mk_section, mk_plain. destruct c; qw. Qed.
Lemma q_add_section : forall sid, quiet (add_section sid).
Proof. intros. unfold add_section. qw. Qed.
Lemma q_add_list : forall t, quiet (add_term_list t).
Proof. intros. unfold add_term_list. qw; first [apply q_add_section|idtac]. Qed.
Lemma q_add_meta : forall t, quiet (add_term_meta t).
Proof. intros. unfold add_term_meta. qw. Qed.
Lemma q_ownership : forall n t, quiet (set_ownership n t).
Proof. intros n. induction n as [|n IH]; intros t; cbn [set_ownership]; qw. apply IH. Qed.
Lemma q_section_add : forall sec t, quiet (section_add_term sec t).
Proof. intros. unfold section_add_term, doc_add_term_nosec. qw; first [apply q_add_list|apply q_add_meta|apply q_ownership]. Qed.
Lemma q_goc : forall i item v, quiet (get_or_new_child0 i item v).
Proof. intros i item v. unfold get_or_new_child0, goc_check. qw; apply q_construct. Qed.
Lemma q_set_section_plain : forall t s, quiet (set_section_plain t s).
Proof. intros. unfold set_section_plain, set_child_item. qw; apply q_goc. Qed.
Lemma q_doc_add : forall t, quiet (doc_add_term t).
Proof. intros. unfold doc_add_term. qw; first [apply q_add_list|apply q_add_section|apply q_section_add|apply q_add_meta|apply q_set_section_plain|apply q_ownership]. Qed.
Lemma q_new_term : forall sec term v, quiet (Ops.new_term sec term v []).
Proof. intros. unfold Ops.new_term, new_children. cbn [mapM_]. qw; first [apply q_doc_add|apply q_construct]. Qed.
Lemma q_set_section : forall t o, quiet (set_section t o).
Proof.
  intros t o. unfold set_section, set_section_sec, section_setitem, get_or_new_term. cbn [mapM_].
  destruct o; qw; first [apply q_goc|apply q_new_term|apply q_set_section_plain].
Qed.
Lemma q_to_section : forall x props, quiet (add_term_to_section x props).
Proof. intros. unfold add_term_to_section. qw. Qed.
Lemma q_normal : forall t, quiet (consume_normal t).
Proof. intros. unfold consume_normal, set_meta, attach, add_child. qw; apply q_section_add. Qed.
Lemma q_rename : forall t, quiet (rename_term t).
Proof. intros. unfold rename_term. qw. Qed.
Lemma q_load1 : forall t, quiet (load1 t).
Proof. intros. unfold load1. qw; first [apply q_add_section|apply q_doc_add]. Qed.
Lemma q_section_for : forall t, quiet (section_for t).
Proof. intros t. unfold section_for. qw. Qed.

(** ** The invariant *)

(** the address and the contents of the values of a declared term *)
Definition shares_of (pdt : dict tdecl) (refs : dict nat) (vals : list (dict val)) : Prop :=
  NoDup (dkeys pdt) /\ NoDup (dkeys refs)
  /\ (forall n td, dget n pdt = Some td -> match dget n refs with
                                          | Some a => nth_error vals a = Some (td_values td)
                                          | None => td_values td = [] /\ dget "valuesetname" (td_props td) = None
                                          end)
  /\ (forall n m a tn tm, dget n refs = Some a -> dget m refs = Some a -> dget n pdt = Some tn -> dget m pdt = Some tm ->
        dget "valuesetname" (td_props tn) = dget "valuesetname" (td_props tm))
  /\ (forall n a, dget n refs = Some a -> a < List.length vals).
Definition shares (k : kst) : Prop := shares_of (p_dterms (s_prs (k_st k))) (k_refs k) (k_vals k).
Definition current (k : kst) : Prop := forall c, k_cache k = Some c -> cached_dict c (k_st k) = super_terms (k_st k).
Definition sound (k : kst) : Prop := current k /\ shares k.

Definition sims (I : kst -> Prop) {A} (m : M kst A) (p : MM A) : Prop := forall k k' r, I k -> m k = (k', r) ->
  p (k_st k) = (k_st k', r) /\ (forall a, r = Ok a -> I k').

Lemma si_bind : forall I A B (m : M kst A) p (f : A -> M kst B) g, sims I m p -> (forall a, sims I (f a) (g a)) -> sims I (bind m f) (bind p g).
Proof.
  intros I A B m p f g H1 H2 k k' r K H. unfold bind in *. destruct (m k) as [k1 [a|e]] eqn:E.
  - destruct (H1 _ _ _ K E) as [P Q]. rewrite P. exact (H2 a _ _ _ (Q a eq_refl) H).
  - destruct (H1 _ _ _ K E) as [P Q]. rewrite P. injection H as <- <-. split; [reflexivity|discriminate].
Qed.
Lemma si_ret : forall I A (a : A), sims I (ret a) (ret a).
Proof. intros I A a k k' r K H. injection H as <- <-. split; [reflexivity|intros _ _; exact K]. Qed.
Lemma si_when : forall I b m p, sims I m p -> sims I (when b m) (when b p).
Proof. intros I [|] m p H; [exact H|apply si_ret]. Qed.

Lemma super_eq : forall s s', p_dterms (s_prs s') = p_dterms (s_prs s) -> d_super (s_doc s') = d_super (s_doc s) -> super_terms s' = super_terms s.
Proof. intros s s' A B. unfold super_terms. rewrite A, B. reflexivity. Qed.
Lemma si_shares : forall A (m : MM A), quiet m -> sims shares (on_st m) m.
Proof.
  intros A m Q k k' r K H. unfold on_st in H. specialize (Q (k_st k)). destruct (m (k_st k)) as [s r'] eqn:E. cbn [fst] in Q. injection H as <- <-. split; [reflexivity|]. intros _ _.
  destruct Q as [Q _]. unfold shares in *. cbn [k_st k_refs k_vals]. rewrite Q. exact K.
Qed.
Lemma si_on : forall A (m : MM A), quiet m -> sims sound (on_st m) m.
Proof.
  intros A m Q k k' r [C K] H. destruct (si_shares A m Q k k' r K H) as [P S]. split; [exact P|]. intros a Ea. split; [|exact (S a Ea)].
  unfold on_st in H. specialize (Q (k_st k)). destruct (m (k_st k)) as [s r'] eqn:E. cbn [fst] in Q. injection H as <- <-. intros c Hc. cbn [k_cache k_st] in *. destruct Q as [Q1 Q2].
  rewrite (super_eq _ _ Q1 Q2), <- (C c Hc). destruct c; cbn [cached_dict]; [exact Q2|reflexivity].
Qed.
Ltac qq := first [apply q_construct|apply q_set_section|apply q_to_section|apply q_normal|apply q_rename|apply q_load1|apply q_section_for|apply q_set_section|qw].

(** ** The cache *)

Lemma si_super : sims sound super_terms_k (gets super_terms).
Proof.
  intros k k' r [C K] H. unfold super_terms_k, gets, bind in H. destruct (k_cache k) as [c|] eqn:E.
  - injection H as <- <-. unfold gets. rewrite <- (C c E). split; [reflexivity|]. intros _ _. split; assumption.
  - unfold modify, ret in H. set (c := match d_super _ with [] => _ | _ => _ end) in H. assert (X : cached_dict c (k_st k) = super_terms (k_st k)) by (unfold c, super_terms; destruct (d_super (s_doc (k_st k))) as [|x l] eqn:D; cbn [cached_dict]; [reflexivity|exact D]).
    clearbody c. injection H as <- <-. unfold gets. cbn [set_cache k_st]. rewrite X. split; [reflexivity|]. intros _ _. split; [|exact K]. intros c' Hc. cbn [set_cache k_cache k_st] in *. injection Hc as <-. exact X.
Qed.
Lemma si_class : forall name, sims sound (term_class_k name) (gets (parser_term_class name)).
Proof.
  intros name k k' r K H. unfold term_class_k in H. unfold bind at 1 in H. unfold gets at 1 in H. unfold gets, parser_term_class, class_for. cbv zeta.
  destruct (dget (lower name) (s_reg (k_st k))) as [c|] eqn:E; [injection H as <- <-; split; [reflexivity|intros _ _; exact K]|].
  unfold bind in H. destruct (super_terms_k k) as [k1 r1] eqn:S. destruct (si_super _ _ _ K S) as [P Q]. unfold gets in P. injection P as P1 P2. subst r1. unfold ret in H. injection H as <- <-. rewrite <- P1. split.
  - unfold class_for. rewrite E. reflexivity.
  - intros _ _. exact (Q _ eq_refl).
Qed.

(** ** The values *)

Lemma sh_new : forall pdt refs vals name props, shares_of pdt refs vals ->
  shares_of (dset name (mk_tdecl props []) pdt) (dset name (List.length vals) refs) (vals ++ [[]]).
Proof.
  intros pdt refs vals name props (N1 & N2 & V & S & B). split; [apply nodup_dset; exact N1|]. split; [apply nodup_dset; exact N2|]. split; [|split].
  - intros n td. rewrite !dget_dset. eqs_cases n name.
    + intros [= <-]. rewrite nth_error_app2, Nat.sub_diag by lia. reflexivity.
    + intros H1. specialize (V n td H1). destruct (dget n refs) as [a|] eqn:R; [|exact V]. rewrite nth_error_app1; [exact V|exact (B _ _ R)].
  - intros n m a tn tm. rewrite !dget_dset. eqs_cases n name; eqs_cases m name; try congruence.
    + intros [= <-] H1. apply B in H1. lia.
    + intros H1 [= <-]. apply B in H1. lia.
    + apply S.
  - intros n a. rewrite dget_dset, app_length. cbn [List.length]. eqs_cases n name; [intros [= <-]; lia|]. intros H1. apply B in H1. lia.
Qed.

Lemma sh_same : forall pdt refs vals name from td props, shares_of pdt refs vals -> dget from pdt = Some td ->
  dget "valuesetname" props = dget "valuesetname" (td_props td) ->
  shares_of (dset name (set_td_props props td) pdt) (match dget from refs with Some a => dset name a refs | None => ddel name refs end) vals.
Proof.
  intros pdt refs vals name from td props (N1 & N2 & V & S & B) F P. split; [apply nodup_dset; exact N1|]. pose proof (V _ _ F) as VF. destruct (dget from refs) as [a|] eqn:R.
  - split; [apply nodup_dset; exact N2|]. split; [|split].
    + intros n t. rewrite !dget_dset. eqs_cases n name; [intros [= <-]; exact VF|apply V].
    + intros n m b tn tm. rewrite !dget_dset. eqs_cases n name; eqs_cases m name.
      * intros _ _ [= <-] [= <-]. reflexivity.
      * intros [= <-] H1 [= <-] H2. cbn [td_props set_td_props]. rewrite P. exact (S _ _ _ _ _ R H1 F H2).
      * intros H1 [= <-] H2 [= <-]. cbn [td_props set_td_props]. rewrite P. exact (S _ _ _ _ _ H1 R H2 F).
      * apply S.
    + intros n b. rewrite dget_dset. eqs_cases n name; [intros [= <-]; exact (B _ _ R)|apply B].
  - split; [apply nodup_ddel; exact N2|]. split; [|split].
    + intros n t. rewrite dget_dset, dget_ddel, (eqs_sym name) by exact N2. eqs_cases n name; [|apply V]. intros [= <-]. cbn [td_props td_values set_td_props]. rewrite P. exact VF.
    + intros n m b tn tm. rewrite !dget_ddel, !dget_dset, !(eqs_sym name) by exact N2. eqs_cases n name; eqs_cases m name; try discriminate. apply S.
    + intros n b. rewrite dget_ddel, (eqs_sym name) by exact N2. eqs_cases n name; [discriminate|apply B].
Qed.

Section AddValue.
  Variables (vs key : string) (disp : val) (refs : dict nat).
  Definition put (v : dict val) : dict val := if dmem key v then v else dset key disp v.
  Definition takes (td : tdecl) : bool := match dget "valuesetname" (td_props td) with Some n => eqs vs (lower n) | None => false end.
  Definition hits (a : nat) (kv : string * tdecl) : bool := match dget (fst kv) refs with Some b => Nat.eqb a b && takes (snd kv) | None => false end.
  Lemma put_put : forall v, put (put v) = put v.
  Proof. intros v. unfold put. destruct (dmem key v) eqn:E; [rewrite E; reflexivity|]. unfold dmem. rewrite dget_dset_same. reflexivity. Qed.
  Lemma set_nth_get : forall A (l : list A) n a m, n < List.length l -> nth_error (set_nth n a l) m = if Nat.eqb m n then Some a else nth_error l m.
  Proof.
    intros A l. induction l as [|b l IH]; intros n a m L; [cbn in L; lia|]. destruct n as [|n], m as [|m]; cbn [set_nth nth_error Nat.eqb]; try reflexivity. apply IH. cbn in L. lia.
  Qed.
  Lemma set_nth_length : forall A (l : list A) n a, List.length (set_nth n a l) = List.length l.
  Proof. intros A l. induction l as [|b l IH]; intros [|n] a; cbn [set_nth List.length]; try reflexivity. rewrite IH. reflexivity. Qed.
  Lemma add_nth : forall terms vals a, (forall n b, dget n refs = Some b -> b < List.length vals) ->
    nth_error (add_to_values vs key disp refs terms vals) a = if existsb (hits a) terms then option_map put (nth_error vals a) else nth_error vals a.
  Proof.
    intros terms. induction terms as [|[n td] terms IH]; intros vals a B; cbn [add_to_values existsb]; [reflexivity|]. unfold hits at 1. cbn [fst snd]. unfold takes.
    destruct (dget "valuesetname" (td_props td)) as [vn|]; destruct (dget n refs) as [b|] eqn:R; rewrite ?andb_false_r; try (apply IH; exact B).
    cbv zeta. set (vals1 := if eqs vs (lower vn) && _ then _ else vals).
    assert (L1 : List.length vals1 = List.length vals) by (unfold vals1; destruct (_ && _); [apply set_nth_length|reflexivity]).
    assert (X : nth_error vals1 a = if Nat.eqb a b && eqs vs (lower vn) then option_map put (nth_error vals a) else nth_error vals a).
    { unfold vals1. pose proof (B _ _ R) as Lb. destruct (eqs vs (lower vn)); cbn [andb]; [rewrite andb_true_r|rewrite andb_false_r; reflexivity].
      assert (Y : nth_error vals b = Some (nth b vals [])) by (apply nth_error_nth'; exact Lb). destruct (dmem key (nth b vals [])) eqn:D; cbn [negb].
      - destruct (Nat.eqb_spec a b) as [->|]; [|reflexivity]. rewrite Y. cbn [option_map]. unfold put. rewrite D. reflexivity.
      - rewrite set_nth_get by exact Lb. destruct (Nat.eqb_spec a b) as [->|]; [|reflexivity]. rewrite Y. cbn [option_map]. unfold put. rewrite D. reflexivity. }
    rewrite IH by (rewrite L1; exact B). rewrite X. destruct (Nat.eqb a b && eqs vs (lower vn)); cbn [orb]; [|reflexivity]. destruct (existsb (hits a) terms); [|reflexivity]. destruct (nth_error vals a); cbn [option_map]; [rewrite put_put|]; reflexivity.
  Qed.
  Lemma add_length : forall terms vals, List.length (add_to_values vs key disp refs terms vals) = List.length vals.
  Proof.
    intros terms. induction terms as [|[n td] terms IH]; intros vals; cbn [add_to_values]; [reflexivity|]. rewrite IH. destruct (dget _ _); [|reflexivity]. destruct (dget _ _); [|reflexivity]. cbv zeta. destruct (_ && _); [apply set_nth_length|reflexivity].
  Qed.

  Definition valued (kv : string * tdecl) : string * tdecl :=
    match dget "valuesetname" (td_props (snd kv)) with
    | Some n => if eqs vs (lower n) && negb (dmem key (td_values (snd kv)))
                then (fst kv, set_td_values (dset key disp (td_values (snd kv))) (snd kv))
                else kv
    | None => kv
    end.
  Lemma valued_fst : forall kv, fst (valued kv) = fst kv.
  Proof. intros kv. unfold valued. destruct (dget _ _); [|reflexivity]. destruct (_ && _); reflexivity. Qed.
  Lemma valued_props : forall kv, td_props (snd (valued kv)) = td_props (snd kv).
  Proof. intros kv. unfold valued. destruct (dget _ _); [|reflexivity]. destruct (_ && _); reflexivity. Qed.
  Lemma valued_values : forall kv, td_values (snd (valued kv)) = if takes (snd kv) then put (td_values (snd kv)) else td_values (snd kv).
  Proof. intros kv. unfold valued, takes, put. destruct (dget _ _); [|reflexivity]. destruct (eqs _ _); cbn [andb]; [|reflexivity]. destruct (dmem _ _); reflexivity. Qed.
  Lemma dget_valued : forall n pdt, dget n (map valued pdt) = option_map (fun td => snd (valued (n, td))) (dget n pdt).
  Proof.
    intros n pdt. induction pdt as [|[m td] pdt IH]; [reflexivity|]. cbn [map dget]. pose proof (valued_fst (m, td)) as F. destruct (valued (m, td)) as [m' td'] eqn:Ev. cbn [fst] in F. subst m'. eqs_cases n m; [|exact IH]. cbn [option_map]. try subst n; rewrite Ev. reflexivity.
  Qed.
  Lemma sh_add : forall pdt vals, shares_of pdt refs vals -> shares_of (map valued pdt) refs (add_to_values vs key disp refs pdt vals).
  Proof.
    intros pdt vals (N1 & N2 & V & S & B). split; [unfold dkeys in *; rewrite map_map, (map_ext _ _ valued_fst); exact N1|]. split; [exact N2|]. split; [|split].
    - intros n td. rewrite dget_valued. destruct (dget n pdt) as [t|] eqn:G; [|discriminate]. intros [= <-]. specialize (V n t G). destruct (dget n refs) as [a|] eqn:R.
      + rewrite add_nth by exact B. rewrite V. cbn [option_map]. rewrite valued_values. cbn [snd].
        assert (H : existsb (hits a) pdt = takes t); [|rewrite H; destruct (takes t); reflexivity].
        destruct (takes t) eqn:T.
        * apply existsb_exists. exists (n, t). split; [apply dget_in; exact G|]. unfold hits. cbn [fst snd]. rewrite R, Nat.eqb_refl, T. reflexivity.
        * destruct (existsb (hits a) pdt) eqn:X; [|reflexivity]. apply existsb_exists in X. destruct X as ([m tm] & I & H). unfold hits in H. cbn [fst snd] in H. destruct (dget m refs) as [b|] eqn:Rm; [|discriminate]. apply andb_true_iff in H. destruct H as [H1 H2]. apply Nat.eqb_eq in H1. subst b.
          assert (Gm : dget m pdt = Some tm) by (apply CalmRowFacts.in_dget; assumption). unfold takes in *. rewrite (S _ _ _ _ _ Rm R Gm G) in H2. congruence.
      + rewrite valued_props. destruct V as [V1 V2]. split; [|exact V2]. rewrite valued_values. unfold takes. cbn [snd]. rewrite V2. exact V1.
    - intros n m a tn tm R1 R2. rewrite !dget_valued. destruct (dget n pdt) as [t1|] eqn:G1; [|discriminate]. destruct (dget m pdt) as [t2|] eqn:G2; [|discriminate]. intros [= <-] [= <-]. rewrite !valued_props. exact (S _ _ _ _ _ R1 R2 G1 G2).
    - intros n a. rewrite add_length. apply B.
  Qed.
End AddValue.

(** ** The parser *)

Lemma on_pure : forall A (r : res A) k, on_st (lift r) k = (k, r).
Proof. intros A r [s c f v]. reflexivity. Qed.
Lemma si_copy : forall name from props td k k' r, shares k -> dget from (p_dterms (s_prs (k_st k))) = Some td -> dget "valuesetname" props = dget "valuesetname" (td_props td) ->
  (on_st (modP (fun p => set_p_dterms (dset name (set_td_props props td) (p_dterms p)) p)) ;;; modify (same_values name from)) k = (k', r) ->
  modP (fun p => set_p_dterms (dset name (set_td_props props td) (p_dterms p)) p) (k_st k) = (k_st k', r) /\ (forall a, r = Ok a -> shares k').
Proof.
  intros name from props td k k' r K F P H. cbn in H. injection H as <- <-. split; [reflexivity|]. intros _ _. unfold shares. cbn [k_st k_refs k_vals same_values]. apply sh_same; assumption.
Qed.
Lemma bind_assoc : forall S A B C (m : M S A) (f : A -> M S B) (g : B -> M S C) s, bind (bind m f) g s = bind m (fun a => bind (f a) g) s.
Proof. intros. unfold bind. destruct (m s) as [s1 [a|e]]; reflexivity. Qed.

Lemma si_inherit : forall n t_r ih_r sec i, sims shares (inherit_loop_k n t_r ih_r sec i) (inherit_loop n t_r ih_r sec i).
Proof.
  intros n. induction n as [|n IH]; intros; cbn [inherit_loop_k inherit_loop]; [apply si_shares; qw|].
  intros k k' r K H. unfold bind at 1 in H. unfold on_st at 1, getP at 1, gets at 1 in H. unfold bind at 1. unfold getP at 1, gets at 1.
  replace (mk_kst (k_st k) (k_cache k) (k_refs k) (k_vals k)) with k in H by (destruct k; reflexivity).
  destruct (dget sec (p_dsecs (s_prs (k_st k)))) as [sd|]; [|revert H; apply si_shares; [qw|exact K]].
  destruct (nth_error (sd_terms sd) i) as [st_name|]; [|revert H; apply si_ret; exact K].
  destruct (startswith _ _); [|cbn [when] in *; revert H; apply (si_bind shares); [apply si_ret|intros _; apply IH|exact K]]. cbn [when] in *.
  rewrite bind_assoc in H. rewrite bind_assoc. unfold bind at 1 in H. unfold bind at 1. rewrite on_pure in H. unfold lift at 1. destruct (split_term st_name) as [[a st_r]|e]; [|injection H as <- <-; split; [reflexivity|discriminate]].
  destruct (dget (lower st_name) (p_dterms (s_prs (k_st k)))) as [td|] eqn:G; [|cbn in H; injection H as <- <-; split; [reflexivity|discriminate]]. cbv zeta in *.
  rewrite bind_assoc in H. rewrite bind_assoc. unfold bind at 1 in H. unfold bind at 1. rewrite on_pure in H. unfold lift at 1. destruct (normalize_term _) as [name|e]; [|injection H as <- <-; split; [reflexivity|discriminate]].
  set (props := dset "term" _ _) in *. assert (P : dget "valuesetname" props = dget "valuesetname" (td_props td)) by (unfold props; rewrite !dget_dset; reflexivity). clearbody props.
  rewrite bind_assoc in H. rewrite bind_assoc. unfold bind at 1. unfold bind at 1 in H.
  destruct (on_st (modP _) k) as [k1 r1] eqn:E1. unfold on_st in E1. destruct (modP _ (k_st k)) as [s1 r2] eqn:E2. injection E1 as <- <-.
  assert (X : (on_st (modP (fun p => set_p_dterms (dset name (set_td_props props td) (p_dterms p)) p)) ;;; modify (same_values name (lower st_name))) k = (same_values name (lower st_name) (mk_kst s1 (k_cache k) (k_refs k) (k_vals k)), r2)) by (unfold bind, on_st; rewrite E2; unfold modP, modify in E2; injection E2 as _ <-; reflexivity).
  destruct (si_copy _ _ _ _ _ _ _ K G P X) as [_ Y]. unfold modP, modify in E2. injection E2 as E2 <-. specialize (Y _ eq_refl).
  rewrite bind_assoc in H. unfold bind at 1 in H. unfold modify at 1 in H. change s1 with (k_st (same_values name (lower st_name) (mk_kst s1 (k_cache k) (k_refs k) (k_vals k)))).
  revert H. refine (si_bind shares _ _ _ _ _ _ _ _ _ _ _ Y); [apply si_shares; apply q_to_section|intros _; apply IH].
Qed.

Lemma si_new : forall name props, sims shares (on_st (modP (fun p => set_p_dterms (dset name (mk_tdecl props []) (p_dterms p)) p)) ;;; modify (new_values name)) (modP (fun p => set_p_dterms (dset name (mk_tdecl props []) (p_dterms p)) p)).
Proof.
  intros name props k k' r K H. cbn in H. injection H as <- <-. split; [reflexivity|]. intros _ _. unfold shares. cbn [k_st k_refs k_vals new_values]. apply sh_new. exact K.
Qed.
Lemma si_assoc : forall I A B C (m : M kst A) (f : A -> M kst B) (g : B -> M kst C) p, sims I (bind (bind m f) g) p -> sims I (bind m (fun a => bind (f a) g)) p.
Proof. intros I A B C m f g p H k k' r K E. apply (H k k' r K). rewrite bind_assoc. exact E. Qed.
Ltac sb := apply si_bind; [apply si_shares; qq|intros].
Lemma si_declared : forall t, sims shares (add_declared_term_k t) (add_declared_term t).
Proof.
  intros t. unfold add_declared_term_k, add_declared_term. do 6 sb. cbv zeta. apply si_assoc. apply si_bind; [apply si_new|intros _].
  apply si_bind; [apply si_shares; qw; apply q_to_section|intros _]. destruct (dget "inheritsfrom" _) as [ih|]; [|apply si_ret]. destruct (nonempty ih); [|apply si_ret]. destruct (dget "section" _) as [sec|]; [|apply si_shares; qw].
  sb. destruct a5. sb. destruct a5. sb. apply si_inherit.
Qed.
Definition disp_of (ap : dict val) : val := match dget "displayvalue" ap with Some v => v | None => VNone end.
Lemma add_value_is : forall t s, add_value_set_value t s =
  match t_parent (tget t s) with
  | None => (s, Err EAttr)
  | Some p => match arg_props (s_heap s) (tget t s) with
              | Err e => (s, Err e)
              | Ok ap => modP (fun q => set_p_dterms (map (valued (join_lc (hget p (s_heap s))) (str_val (t_val (tget t s))) (disp_of ap)) (p_dterms q)) q) s
              end
  end.
Proof.
  intros t s. unfold add_value_set_value, bind, getT, gets, lift. destruct (t_parent (tget t s)) as [p|]; [|reflexivity]. cbn [ret]. unfold ret. destruct (arg_props (s_heap s) (tget t s)) as [ap|e]; reflexivity.
Qed.
Lemma add_value_k_is : forall t k, add_value_set_value_k t k =
  match t_parent (tget t (k_st k)) with
  | None => (k, Err EAttr)
  | Some p => match arg_props (s_heap (k_st k)) (tget t (k_st k)) with
              | Err e => (k, Err e)
              | Ok ap => on_st (add_value_set_value t) (mk_kst (k_st k) (k_cache k) (k_refs k)
                  (add_to_values (join_lc (hget p (s_heap (k_st k)))) (str_val (t_val (tget t (k_st k)))) (disp_of ap) (k_refs k) (p_dterms (s_prs (k_st k))) (k_vals k)))
              end
  end.
Proof.
  intros t [s c f v]. unfold add_value_set_value_k, bind. unfold on_st at 1 2 3 4. unfold getT at 1, gets. cbn [k_st k_cache k_refs k_vals]. destruct (t_parent (tget t s)) as [p|]; [|reflexivity]. cbn [ret]. unfold ret. unfold lift. destruct (arg_props (s_heap s) (tget t s)) as [ap|e]; reflexivity.
Qed.
Lemma si_add_value : forall t, sims shares (add_value_set_value_k t) (add_value_set_value t).
Proof.
  intros t k k' r K H. rewrite add_value_k_is in H. unfold on_st in H. cbn [k_st k_cache k_refs k_vals] in H. rewrite add_value_is in *. destruct (t_parent (tget t (k_st k))) as [p|]; [|injection H as <- <-; split; [reflexivity|discriminate]].
  destruct (arg_props _ _) as [ap|e]; [|injection H as <- <-; split; [reflexivity|discriminate]]. unfold modP, modify in *. injection H as <- <-. split; [reflexivity|]. intros _ _. unfold shares. cbn [k_st k_refs k_vals]. apply sh_add. exact K.
Qed.

Lemma si_clear : forall A (m : M kst unit) p (a : A), sims shares m p -> sims sound (m ;;; modify (set_cache None)) p.
Proof.
  intros A m p a H k k' r [_ K] E. unfold bind in E. destruct (m k) as [k1 [[]|e]] eqn:Em; destruct (H _ _ _ K Em) as [P Q].
  - unfold modify in E. injection E as <- <-. split; [exact P|]. intros _ _. split; [intros c Hc; discriminate Hc|exact (Q tt eq_refl)].
  - injection E as <- <-. split; [exact P|discriminate].
Qed.
Lemma si_manage : forall t, sims sound (manage_declare_terms_k t) (manage_declare_terms t).
Proof.
  intros t. unfold manage_declare_terms_k, manage_declare_terms. apply si_bind; [apply si_on; qq|intros r]. apply si_bind; [apply si_on; qq|intros b1]. apply (si_clear unit _ _ tt).
  destruct b1; [apply si_shares; unfold add_declared_section; qw|]. sb. destruct a; [apply si_declared|]. sb. destruct a; [apply si_add_value|apply si_ret].
Qed.
Ltac so := apply si_bind; [apply si_on; qq|intros].
Lemma si_consume : forall t, sims sound (consume_k t) (consume t).
Proof.
  intros t. unfold consume_k, consume. do 5 so. destruct a3; [apply si_on; qw|]. do 2 so. apply si_bind; [apply si_on; destruct a3; [qw; apply q_set_section|]; destruct a4; [qw; apply q_set_section|apply q_normal]|intros _].
  so. destruct (t_ftype a5) as [f|]; [|apply si_ret]. repeat match goal with |- context [match ?x with _ => _ end] => destruct x end; try apply si_ret. apply si_bind; [apply si_manage|intros _; apply si_ret].
Qed.
Lemma si_emit : forall load t, sims sound (emit_k load t) (emit load t).
Proof. intros load t. unfold emit_k, emit. apply si_bind; [apply si_consume|intros b]. apply si_on. apply q_when. apply q_load1. Qed.
Lemma si_args : forall load ft line t args col, sims sound (emit_args_k load ft line t col args) (emit_args load ft line t col args).
Proof.
  intros load ft line t args. induction args as [|v args IH]; intros col; cbn [emit_args_k emit_args]; [apply si_ret|]. apply si_bind; [|intros _; apply IH]. apply si_when. so. cbv zeta. apply si_bind; [apply si_class|intros c]. so. apply si_emit.
Qed.
Lemma si_generate : forall e load n src ft, sims sound (generate_terms_k e load n src ft) (generate_terms e load n src ft).
Proof.
  intros e load n. induction n as [|n IH]; intros src ft; cbn [generate_terms_k generate_terms]; [apply si_on; qw|]. so.
  generalize 1. generalize (d_root a). generalize (src_rows src). intros rows. induction rows as [|row rows IHr]; intros ls line; cbn [rows_loop_k rows_loop]; [apply si_ret|]. apply si_bind; [|intros l; apply IHr].
  unfold row_step_k, row_step. destruct (skip_row row); [apply si_ret|]. so. destruct a0 as [p q]. cbv zeta. apply si_bind; [apply si_class|intros c]. do 4 so.
  destruct (a2 || a3).
  - apply si_bind; [|intros _; apply si_ret]. unfold include_row_k, include_row. do 4 so. apply si_bind; [apply si_emit|intros _]. destruct (fetch e a6); [|apply si_on; qw]. so. apply si_bind; [apply IH|intros _; apply si_emit].
  - so. apply si_bind; [apply si_on; destruct a4; [apply q_section_for|qw]|intros t2]. apply si_bind; [apply si_emit|intros _]. do 3 so. apply si_bind; [destruct (_ || _); [apply si_ret|apply si_args]|intros _; apply si_ret].
Qed.

(** ** The whole *)

Lemma installed_shares : shares_of installed_terms [] [].
Proof.
  split; [apply (NoDup_map_inv (fun x => x)); rewrite map_id; repeat constructor; cbn; intuition discriminate|]. split; [constructor|]. split; [|split; discriminate].
  intros n td H. apply dget_in in H. cbn in H. cbn [dget]. repeat (destruct H as [H|H]; [injection H as <- <-; split; reflexivity|]). contradiction H.
Qed.
Lemma si_start : forall k k' r, start_parser_k k = (k', r) -> start_parser (k_st k) = (k_st k', r) /\ sound k'.
Proof.
  intros k k' r H. cbn in H. injection H as <- <-. split; [reflexivity|]. split; [discriminate|]. exact installed_shares.
Qed.

Definition shared_values (k : kst) : Prop := forall n td, dget n (p_dterms (s_prs (k_st k))) = Some td ->
  match dget n (k_refs k) with Some a => nth_error (k_vals k) a = Some (td_values td) | None => td_values td = [] end.
Lemma shares_values : forall k, shares k -> shared_values k.
Proof. intros k (_ & _ & V & _) n td H. specialize (V n td H). destruct (dget n (k_refs k)); [exact V|apply V]. Qed.

Lemma finish_shares : forall k k' r, sound k -> finish_load_k k = (k', r) -> finish_load (k_st k) = (k_st k', r) /\ shares k'.
Proof.
  intros k k' r K H. unfold finish_load_k in H. unfold bind at 1 in H. unfold on_st at 1, getP, gets in H. replace (mk_kst (k_st k) (k_cache k) (k_refs k) (k_vals k)) with k in H by (destruct k; reflexivity).
  unfold finish_load. unfold bind at 1. unfold getP, gets at 1. unfold bind at 1 in H. unfold bind at 1. set (f := fun d => set_d_decl_sections _ _) in *.
  destruct (on_st (modD f) k) as [k1 r1] eqn:E1. assert (Q : quiet (modD f)) by (apply q_modD; intros; reflexivity).
  destruct (si_on _ _ Q _ _ _ K E1) as [P1 S1]. rewrite P1. unfold modD, modify in P1. injection P1 as P1 <-. specialize (S1 _ eq_refl). unfold bind at 1 in H. unfold bind at 1.
  destruct (super_terms_k k1) as [k2 r2] eqn:E2. destruct (si_super _ _ _ S1 E2) as [P2 S2]. rewrite P2. unfold gets in P2. injection P2 as P2 <-. specialize (S2 _ eq_refl). rewrite <- P2 in *.
  cbn in H. injection H as <- <-. split; [rewrite P2; reflexivity|]. destruct S2 as [_ S2]. exact S2.
Qed.

Lemma c85_load : forall e n src k k' r, load_source_k e n src k = (k', r) -> load_source e n src (k_st k) = (k_st k', r) /\ (r = Ok tt -> shared_values k').
Proof.
  intros e n src k k' r H. unfold load_source_k in H. unfold load_source. unfold bind at 1 in H. unfold bind at 1. destruct (start_parser_k k) as [k1 r1] eqn:E1. destruct (si_start _ _ _ E1) as [P1 S1]. rewrite P1. cbn in P1. injection P1 as _ <-.
  set (m := fun d : docrec => load1 (d_root d)) in *.
  assert (G : sims sound (d <- on_st getD ;; on_st (load1 (d_root d)) ;;; generate_terms_k e true n src None) (d <- getD ;; load1 (d_root d) ;;; generate_terms e true n src None)) by (so; so; apply si_generate).
  assert (H' : ((d <- on_st getD ;; on_st (load1 (d_root d)) ;;; generate_terms_k e true n src None) ;;; finish_load_k) k1 = (k', r)).
  { rewrite bind_assoc. rewrite <- H. unfold bind at 1 4. destruct (on_st getD k1) as [k2 [d|er]]; [|reflexivity]. rewrite bind_assoc. reflexivity. }
  clear H. assert (X : (d <- getD ;; load1 (d_root d) ;;; generate_terms e true n src None ;;; finish_load) (k_st k1) = ((d <- getD ;; load1 (d_root d) ;;; generate_terms e true n src None) ;;; finish_load) (k_st k1)).
  { rewrite bind_assoc. unfold bind at 1 4. destruct (getD (k_st k1)) as [k2 [d|er]]; [|reflexivity]. rewrite bind_assoc. reflexivity. }
  rewrite X. clear X. unfold bind at 1 in H'. unfold bind at 1. destruct ((d <- on_st getD ;; _) k1) as [k2 r2] eqn:E2. destruct (G _ _ _ S1 E2) as [P2 S2]. rewrite P2. destruct r2 as [[]|er].
  - destruct (finish_shares _ _ _ (S2 tt eq_refl) H') as [P3 S3]. split; [exact P3|]. intros _. apply shares_values. exact S3.
  - injection H' as <- <-. split; [reflexivity|discriminate].
Qed.

(** at each place of a parse: what the parser has cached is what it would compute *)
Lemma c85_place : forall e load n src ft k k' a, sound k -> generate_terms_k e load n src ft k = (k', Ok a) -> sound k'.
Proof. intros e load n src ft k k' a K H. destruct (si_generate _ _ _ _ _ _ _ _ K H) as [_ S]. exact (S a eq_refl). Qed.

Definition any (k : kst) : Prop := True.
Lemma sa_on : forall A (m : MM A), sims any (on_st m) m.
Proof. intros A m k k' r K H. unfold on_st in H. destruct (m (k_st k)) as [s r']. injection H as <- <-. split; [reflexivity|intros; exact Logic.I]. Qed.
Lemma sa_declarations : forall e n decls, sims any (load_declarations_k e n decls) (load_declarations e n decls).
Proof.
  intros e n decls. unfold load_declarations_k, load_declarations. destruct decls as [|d decls]; [apply si_ret|]. apply si_bind; [apply sa_on|intros found]. apply si_bind; [apply sa_on|intros h]. cbv zeta.
  set (src := mk_source None "" _). clearbody src. intros k k' r _ H. unfold bind at 1 in H. unfold bind at 1. destruct (start_parser_k k) as [k1 r1] eqn:E1. destruct (si_start _ _ _ E1) as [P1 S1]. rewrite P1. cbn in P1. injection P1 as _ <-.
  unfold bind at 1 in H. unfold bind at 1. destruct (generate_terms_k e false n src None k1) as [k2 r2] eqn:E2. destruct (si_generate _ _ _ _ _ _ _ _ S1 E2) as [P2 _]. rewrite P2. destruct r2 as [[]|er].
  - revert H. assert (A : any k2) by exact Logic.I. revert A. generalize k2 k' r. change (sims any (p <- on_st getP ;; on_st (modD (fun d => set_d_decl_sections (dupdate (d_decl_sections d) (p_dsecs p)) (set_d_decl_terms (dupdate (d_decl_terms d) (p_dterms p)) d)))) (p <- getP ;; modD (fun d => set_d_decl_sections (dupdate (d_decl_sections d) (p_dsecs p)) (set_d_decl_terms (dupdate (d_decl_terms d) (p_dterms p)) d)))).
    apply si_bind; [apply sa_on|intros p; apply sa_on].
  - injection H as <- <-. split; [reflexivity|discriminate].
Qed.
Lemma c85_open : forall e n decls src k k' r, open_doc_k e n decls src k = (k', r) -> open_doc e n decls src (k_st k) = (k_st k', r) /\ (r = Ok tt -> shared_values k').
Proof.
  intros e n decls src k k' r H. unfold open_doc_k in H. unfold open_doc. unfold bind in *. destruct (load_declarations_k e n decls k) as [k1 r1] eqn:E1. destruct (sa_declarations _ _ _ _ _ _ Logic.I E1) as [P1 _]. rewrite P1. destruct r1 as [[]|er].
  - exact (c85_load _ _ _ _ _ _ H).
  - injection H as <- <-. split; [reflexivity|discriminate].
Qed.
