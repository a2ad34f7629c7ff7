(** * ParseFacts: the state after the rows of a file *)

From Verif Require Import ListFacts StrFacts SpecNames NameFacts HeapFacts ConstructFacts Parser RunFacts EmitFacts TreeFacts DigitFacts RowFacts SpecDoc.

(** ** Growth: earlier terms are only extended *)

Record grow (s s' : st) : Prop := {
  gw_len : hlen s <= hlen s';
  gw_same : forall i, i < hlen s -> same_term (tget i s) (tget i s');
  gw_kids : forall i, i < hlen s -> exists ext, t_children (tget i s') = (t_children (tget i s) ++ ext)%list
                                     /\ Forall (fun c => hlen s <= c) ext;
  gw_terms : forall i, i < hlen s -> exists ext, t_terms (tget i s') = (t_terms (tget i s) ++ ext)%list
                                     /\ Forall (fun c => hlen s <= c) ext
}.

Lemma grow_refl : forall s, grow s s.
Proof.
  intros s. split; [lia|intros; apply same_refl|..]; intros i Hi; exists []; rewrite app_nil_r; split; auto.
Qed.

Lemma grow_trans : forall a b c, grow a b -> grow b c -> grow a c.
Proof.
  intros a b c H1 H2. pose proof (gw_len _ _ H1) as L1. pose proof (gw_len _ _ H2) as L2. split.
  - lia.
  - intros i Hi. eapply same_trans; [apply H1; exact Hi|apply H2; lia].
  - intros i Hi. destruct (gw_kids _ _ H1 i Hi) as (e1 & E1 & F1). destruct (gw_kids _ _ H2 i ltac:(lia)) as (e2 & E2 & F2).
    exists (e1 ++ e2)%list. rewrite E2, E1, app_assoc. split; [reflexivity|]. apply Forall_app. split; [exact F1|].
    eapply Forall_impl; [|exact F2]. cbn. lia.
  - intros i Hi. destruct (gw_terms _ _ H1 i Hi) as (e1 & E1 & F1). destruct (gw_terms _ _ H2 i ltac:(lia)) as (e2 & E2 & F2).
    exists (e1 ++ e2)%list. rewrite E2, E1, app_assoc. split; [reflexivity|]. apply Forall_app. split; [exact F1|].
    eapply Forall_impl; [|exact F2]. cbn. lia.
Qed.

Lemma new_term_grow : forall s r q s', new_term s r q s' -> grow s s'.
Proof.
  intros s r q s' N. split.
  - rewrite (nt_len _ _ _ _ N). lia.
  - intros i Hi. rewrite (nt_old _ _ _ _ _ N Hi). apply with_new_same.
  - intros i Hi. rewrite (nt_old _ _ _ _ _ N Hi). destruct (with_new_fields s r q i (tget i s)) as (-> & _).
    eexists. split; [reflexivity|]. destruct (_ =? _); auto.
  - intros i Hi. rewrite (nt_old _ _ _ _ _ N Hi). destruct (with_new_fields s r q i (tget i s)) as (_ & -> & _).
    eexists. split; [reflexivity|]. destruct (_ && _); auto.
Qed.

Lemma kids_grow : forall line ftype t n col args s s', kids line ftype t n col args s s' -> grow s s'.
Proof.
  induction 1; [apply grow_refl|exact IHkids|]. eapply grow_trans; [eapply new_term_grow; eassumption|exact IHkids].
Qed.

Lemma grow_heap : forall s s', hlen s <= hlen s' ->
  (forall i, i < hlen s -> same_term (tget i s) (tget i s') /\ t_children (tget i s') = t_children (tget i s) /\ t_terms (tget i s') = t_terms (tget i s)) ->
  grow s s'.
Proof.
  intros s s' L H. split; [exact L|intros i Hi; apply H; exact Hi|..]; intros i Hi; destruct (H i Hi) as (_ & H1 & H2); exists [];
  rewrite app_nil_r; split; auto.
Qed.

Lemma section_effect_old : forall v args line ftype s i, i < hlen s -> tget i (section_effect v args line ftype s) = tget i s.
Proof.
  intros v args line ftype s i Hi. unfold section_effect. destruct (dget _ _); [|rewrite tget_dmod];
  unfold tget; rewrite (proj1 (enter_fields _ _)); fold (tget i s); apply push_old; exact Hi.
Qed.
Lemma section_effect_len : forall v args line ftype s, hlen (section_effect v args line ftype s) = S (hlen s).
Proof.
  intros. unfold section_effect. destruct (dget _ _); [|rewrite hlen_dmod]; unfold hlen; rewrite (proj1 (enter_fields _ _)); apply hlen_push.
Qed.
Lemma section_effect_new : forall v args line ftype s, 
  tget (hlen s) (section_effect v args line ftype s) = section_rec v (heading_args (s_doc s) v args) line ftype "root.section".
Proof.
  intros. unfold section_effect. destruct (dget _ _); [|rewrite tget_dmod];
  unfold tget; rewrite (proj1 (enter_fields _ _)); apply push_new.
Qed.

Lemma header_effect_len : forall c line ftype row s, hlen (header_effect c line ftype row s) = S (hlen s).
Proof. intros. unfold header_effect. rewrite hlen_hmod, hlen_pmod, hlen_hmod, hlen_push. reflexivity. Qed.

Lemma header_effect_get : forall c line ftype row s i, p_lastsec (s_prs s) < hlen s -> i <= hlen s ->
  tget i (header_effect c line ftype row s) =
    if i =? hlen s then set_t_section (Some (p_lastsec (s_prs s))) (row_rec c line ftype "root" "header" row)
    else if i =? p_lastsec (s_prs s)
    then set_t_dtvn (lower (strip (nth 1 row ""))) (set_t_hargs (map strip (skipn 2 row)) (tget i s)) else tget i s.
Proof.
  intros c line ftype row s i PL Hi. unfold header_effect. rewrite tget_hmod by (rewrite hlen_pmod, hlen_hmod, hlen_push; lia).
  rewrite !tget_pmod, !tget_hmod by (rewrite hlen_push; lia).
  destruct (Nat.eqb_spec i (hlen s)) as [->|Ni].
  - replace (hlen s =? p_lastsec (s_prs s)) with false by (symmetry; apply Nat.eqb_neq; lia). rewrite push_new. reflexivity.
  - destruct (Nat.eqb_spec i (p_lastsec (s_prs s))) as [->|Nl].
    + replace (p_lastsec (s_prs s) =? hlen s) with false by (symmetry; apply Nat.eqb_neq; lia).
      rewrite push_old by lia. reflexivity.
    + rewrite push_old by lia. reflexivity.
Qed.

Section Background.
Context {Bk : background}.

Lemma row_eff_grow : forall ftype line row s s', pinv s -> row_eff ftype line row s s' -> grow s s'.
Proof.
  intros ftype line row s s' P H. destruct H as [H1 ->|H1 H2 H3 ->|c H1 H2 H3 H4 ->|p r c q s1 H1 H2 H3 H4 H5 H6 H7].
  - apply grow_refl.
  - apply grow_heap; [rewrite section_effect_len; lia|]. intros i Hi. rewrite section_effect_old by exact Hi. split; [apply same_refl|auto].
  - apply grow_heap; [rewrite header_effect_len; lia|]. intros i Hi. rewrite header_effect_get by (try apply (pi_last _ P); lia).
    replace (i =? hlen s) with false by (symmetry; apply Nat.eqb_neq; lia).
    destruct (i =? _); [|split; [apply same_refl|auto]]. split; [split; reflexivity|split; reflexivity].
  - eapply grow_trans; [eapply new_term_grow; exact H6|eapply kids_grow; exact H7].
Qed.

(** ** Rows one after the other *)

Inductive rows_eff (ftype : option string) : nat -> list (list string) -> st -> st -> Prop :=
| rows_nil : forall n s, rows_eff ftype n [] s s
| rows_cons : forall n row rows s s1 s', row_eff ftype n row s s1 -> pinv s1 ->
    rows_eff ftype (S n) rows s1 s' -> rows_eff ftype n (row :: rows) s s'.

Lemma rows_loop_eff : forall e rec src ftype rows n ls s s', ftype <> Some "declare" -> pinv s -> Forall ordinary rows -> Forall welcome rows ->
  rows_loop e true rec src ftype n rows ls s = (s', Ok tt) -> rows_eff ftype n rows s s'.
Proof.
  intros e rec src ftype rows. induction rows as [|row rows IH]; intros n ls s s' Ft P O W H; cbn [rows_loop] in H.
  - apply ret_ok in H. destruct H as [-> _]. constructor.
  - inversion O as [|? ? O1 O2]; subst. inversion W as [|? ? W1 W2]; subst. rb H as s1 ls1 H1. apply row_step_eff in H1; auto. destruct H1 as (R & P1 & _).
    econstructor; [exact R|exact P1|]. eapply IH; eauto.
Qed.

Lemma rows_eff_inv : forall ftype n rows s s', pinv s -> rows_eff ftype n rows s s' -> pinv s' /\ grow s s'.
Proof.
  intros ftype n rows s s' P H. induction H as [|n row rows s s1 s' H1 H2 H3 IH].
  - split; [exact P|apply grow_refl].
  - destruct (IH H2) as [I1 I2]. split; [exact I1|]. eapply grow_trans; [eapply row_eff_grow; eassumption|exact I2].
Qed.

Lemma rows_eff_app : forall ftype a b n s s', rows_eff ftype n (a ++ b) s s' ->
  exists m, rows_eff ftype n a s m /\ rows_eff ftype (n + List.length a) b m s'.
Proof.
  intros ftype a b. induction a as [|row a IH]; intros n s s' H.
  - exists s. split; [constructor|]. rewrite Nat.add_0_r. exact H.
  - inversion H as [|? ? ? ? s1 ? H1 H2 H3]; subst. apply IH in H3. destruct H3 as (m & A & B). exists m. split.
    + econstructor; eassumption.
    + cbn [List.length]. rewrite Nat.add_succ_r. exact B.
Qed.

(** ** The cells of a row *)

Lemma munge_nth : forall cols i k, nth_error (munge_from i cols) k =
  option_map (fun c => if nonempty c then lower c else str_of_nat (i + k)) (nth_error cols k).
Proof.
  induction cols as [|c cols IH]; intros i k; destruct k; cbn [munge_from nth_error option_map]; try reflexivity.
  - rewrite Nat.add_0_r. reflexivity.
  - rewrite IH. rewrite Nat.add_succ_comm. reflexivity.
Qed.

Lemma renamed_column : forall cols i, renamed (munge_param_map cols) (str_of_nat i) = column_name cols i.
Proof.
  intros cols i. unfold renamed. rewrite py_int_str. unfold pindex.
  replace (Z.of_nat i <? 0)%Z with false by (symmetry; apply Z.ltb_ge; lia). rewrite Nat2Z.id. unfold munge_param_map, column_name.
  rewrite munge_nth. cbn [Nat.add]. destruct (nth_error cols i) as [c|]; [|reflexivity]. cbn [option_map]. unfold nonempty.
  destruct (eqs c ""); reflexivity.
Qed.

Definition add_kids (l : list nat) (r : trec) : trec := set_t_children (t_children r ++ l) r.

Lemma add_kids_nil : forall r, add_kids [] r = r.
Proof. intros r. unfold add_kids. rewrite app_nil_r. destruct r; reflexivity. Qed.
Lemma add_kids_cons : forall t l r, add_kids l (add_kid t r) = add_kids (t :: l) r.
Proof. intros. unfold add_kids, add_kid. cbn [t_children set_t_children]. rewrite <- app_assoc. destruct r; reflexivity. Qed.

Definition is_stripped (a : string) : Prop := strip a = a.

Lemma kids_spec : forall line ftype t n cols q col args s s', kids line ftype t n col args s s' ->
  n <> "root" -> n <> ELIDED_TERM -> Forall is_stripped args ->
  p_pmap (s_prs s) = munge_param_map cols -> dget (p_lastparent (s_prs s)) (p_tmap (s_prs s)) = Some q -> q < hlen s ->
  let new := seq (hlen s) (hlen s' - hlen s) in
  hlen s <= hlen s' /\ s_doc s' = s_doc s /\ s_prs s' = s_prs s /\ s_reg s' = s_reg s
  /\ (forall i, i < hlen s -> tget i s' = if i =? q then add_kids new (tget i s) else tget i s)
  /\ map (fun i => (t_rt (tget i s'), t_val (tget i s'))) new = map (fun nc => (fst nc, VStr (snd nc))) (cells_from cols col args)
  /\ (forall i, In i new -> exists c k a, 2 <= k /\ tget i s' = settled s q (fresh_plain c (dotted n (str_of_nat (k - 2))) n (str_of_nat (k - 2)) (VStr a) [] (Some line) (Some k) ftype (Some t) false None)
        /\ is_section_cls c = false).
Proof.
  intros line ftype t n cols q col args s s' K. induction K as [col s|col a args s s' Ha K IH|col a args s s1 s' c q' Ha F N K IH];
  intros Nr Ne St Pm Lk Hq new.
  - unfold new. rewrite Nat.sub_diag. cbn [seq]. split; [lia|]. repeat (split; [reflexivity|]).
    split; [|split; [reflexivity|intros i []]]. intros i Hi. rewrite add_kids_nil. destruct (i =? q); reflexivity.
  - inversion St as [|? ? S1 S2]; subst. destruct (IH Nr Ne S2 Pm Lk Hq) as (I1 & I2 & I3 & I4 & I5 & I6 & I7).
    split; [exact I1|]. split; [exact I2|]. split; [exact I3|]. split; [exact I4|]. split; [exact I5|]. split; [|exact I7].
    cbn [cells_from]. unfold is_stripped in S1. rewrite <- S1, Ha. exact I6.
  - inversion St as [|? ? S1 S2]; subst. set (R := arg_rec c line ftype t n col a) in *.
    assert (Ner : eqs n ELIDED_TERM = false) by (apply eqs_false; exact Ne).
    assert (Nrr : eqs n "root" = false) by (apply eqs_false; exact Nr).
    assert (Rg : registers R = false).
    { unfold registers. change (t_pt R) with n. change (t_col R) with (Some (col + 2)). cbn iota. rewrite Ner.
      replace (1 <? col + 2) with true by (symmetry; apply Nat.ltb_lt; lia). reflexivity. }
    assert (Fp : final_pt s R = n) by (unfold final_pt; change (t_pt R) with n; rewrite Ner; reflexivity).
    assert (Q : q' = q).
    { pose proof (nt_look _ _ _ _ N) as L. unfold lookup_parent in L. rewrite Rg in L. congruence. }
    subst q'. pose proof (nt_len _ _ _ _ N) as Ln. pose proof (nt_prs _ _ _ _ N) as Np. rewrite Rg in Np.
    pose proof (nt_doc _ _ _ _ N) as Nd. rewrite Fp, Nrr in Nd. pose proof (nt_reg _ _ _ _ N) as Ng.
    destruct (IH Nr Ne S2) as (I1 & I2 & I3 & I4 & I5 & I6 & I7); [rewrite Np; exact Pm|rewrite Np; exact Lk|lia|].
    assert (New : new = hlen s :: seq (hlen s1) (hlen s' - hlen s1)).
    { unfold new. replace (hlen s' - hlen s) with (S (hlen s' - hlen s1)) by lia. cbn [seq]. rewrite Ln. reflexivity. }
    assert (W : forall i x, with_new s R q i x = if i =? q then add_kid (hlen s) x else x).
    { intros i x. unfold with_new. rewrite Fp, Nrr. reflexivity. }
    assert (T0 : tget (hlen s) s' = settled s q R).
    { rewrite I5 by lia. replace (hlen s =? q) with false by (symmetry; apply Nat.eqb_neq; lia).
      rewrite (nt_new _ _ _ _ N), W. replace (hlen s =? q) with false by (symmetry; apply Nat.eqb_neq; lia). reflexivity. }
    pose proof (settled_fields s q R) as SF. cbn zeta in SF. destruct SF as (SFc&_&_&_&SFr&SFv&_).
    split; [lia|]. split; [congruence|]. split; [congruence|]. split; [congruence|]. split; [|split].
    + intros i Hi. rewrite I5 by lia. rewrite (nt_old _ _ _ _ _ N Hi), W, New. destruct (i =? q); [|reflexivity]. apply add_kids_cons.
    + rewrite New. cbn [map cells_from]. unfold is_stripped in S1. apply eqs_false in Ha. rewrite S1 in Ha. rewrite Ha. cbn [map fst snd].
      rewrite I6. f_equal. rewrite T0, SFr, SFv, Pm. change (t_rt R) with (str_of_nat col). rewrite renamed_column.
      change (t_val R) with (init_val (VStr a)). rewrite init_val_str by (apply eqs_false; exact Ha). rewrite S1. reflexivity.
    + intros i Hi. rewrite New in Hi. destruct Hi as [<-|Hi].
      * exists c, (col + 2), a. split; [lia|]. split; [|apply (fo_cls _ _ F)]. rewrite T0. unfold R, arg_rec. replace (col + 2 - 2) with col by lia. reflexivity.
      * destruct (I7 i Hi) as (c' & k & a' & Hk & Ht & Hc). exists c', k, a'. split; [exact Hk|]. split; [|exact Hc].
        rewrite Ht. unfold settled. set (R' := fresh_plain _ _ _ _ _ _ _ _ _ _ _ _).
        assert (Fp' : forall x, final_pt x R' = n) by (intros x; unfold final_pt; change (t_pt R') with n; rewrite Ner; reflexivity).
        rewrite !Fp', Nrr, Np. reflexivity.
Qed.

(** ** A row that makes a term *)

Record term_row (ftype : option string) (line : nat) (p r : string) (row : list string) (cols : list string)
    (s s' : st) (c : cls) (q : nat) : Prop := {
  tr_cls : is_section_cls c = false;
  tr_q : q <= hlen s;
  tr_look : if eqs p ELIDED_TERM then dget (p_lastparent (s_prs s)) (p_tmap (s_prs s)) = Some q
            else if eqs p r then q = hlen s else dget p (p_tmap (s_prs s)) = Some q;
  tr_len : hlen s < hlen s';
  tr_reg : s_reg s' = s_reg s;
  tr_doc : s_doc s' = if eqs (final_pt s (row_rec c line ftype p r row)) "root" then set_d_terms (d_terms (s_doc s) ++ [hlen s]) (s_doc s) else s_doc s;
  tr_prs : s_prs s' = if eqs p ELIDED_TERM then s_prs s else reg_prs (hlen s) r (s_prs s);
  tr_get : forall i, i <= hlen s ->
    let x := if i =? hlen s then settled s q (row_rec c line ftype p r row) else tget i s in
    same_term x (tget i s') /\ t_hargs (tget i s') = t_hargs x /\ t_dtvn (tget i s') = t_dtvn x
    /\ t_children (tget i s') = (t_children x ++ (if i =? q then [hlen s] else [])
         ++ (if i =? (if eqs p ELIDED_TERM then q else hlen s) then seq (S (hlen s)) (hlen s' - S (hlen s)) else []))%list
    /\ t_terms (tget i s') = (t_terms x ++ (if eqs (final_pt s (row_rec c line ftype p r row)) "root" && (i =? p_lastsec (s_prs s)) then [hlen s] else []))%list;
  tr_cells : map (fun i => (t_rt (tget i s'), t_val (tget i s'))) (seq (S (hlen s)) (hlen s' - S (hlen s)))
             = map (fun nc => (fst nc, VStr (snd nc))) (cells_from cols 0 (map strip (skipn 2 row)));
  tr_new : forall i, S (hlen s) <= i < hlen s' ->
    is_section_cls (t_cls (tget i s')) = false /\ t_row (tget i s') = Some line
    /\ (exists k, 2 <= k /\ t_col (tget i s') = Some k)
    /\ t_parent (tget i s') = Some (if eqs p ELIDED_TERM then q else hlen s)
    /\ t_children (tget i s') = [] /\ t_terms (tget i s') = []
    /\ t_section (tget i s') = Some (p_lastsec (s_prs s)) /\ t_pt (tget i s') = r;
  tr_meta : forall i, S (hlen s) <= i < hlen s' ->
    t_cpt (tget i s') = match decl_prop (p_dterms (s_prs s)) (dotted r (t_rt (tget i s'))) "childpropertytype" with Some x => x | None => "any" end
    /\ t_tvn (tget i s') = match decl_prop (p_dterms (s_prs s)) (dotted r (t_rt (tget i s'))) "termvaluename" with Some x => x | None => p_dtvn (s_prs s) end
}.

Lemma row_rec_fields : forall c line ftype p r row, t_pt (row_rec c line ftype p r row) = p /\ t_rt (row_rec c line ftype p r row) = r.
Proof. split; reflexivity. Qed.

Lemma row_term_spec : forall ftype line p r row cols s s' c q s1, pinv s ->
  py_int r = None -> good_name r -> 
  fresh_ok s (row_rec c line ftype p r row) -> new_term s (row_rec c line ftype p r row) q s1 ->
  kids line ftype (hlen s) r 0 (map strip (skipn 2 row)) s1 s' ->
  p_pmap (s_prs s) = munge_param_map cols -> term_row ftype line p r row cols s s' c q.
Proof.
  intros ftype line p r row cols s s' c q s1 P Hi G F N K Pm. set (R := row_rec c line ftype p r row) in *.
  destruct G as (G1 & G2 & G3 & G4 & G5).
  assert (Rg : registers R = negb (eqs p ELIDED_TERM)).
  { unfold registers. change (t_pt R) with p. change (t_col R) with (Some 1). cbn iota. change (1 <? 1) with false. cbn. apply andb_true_r. }
  assert (Rn : renamed (p_pmap (s_prs s)) (t_rt R) = r) by (unfold renamed; change (t_rt R) with r; rewrite Hi; reflexivity).
  pose proof (nt_len _ _ _ _ N) as Ln. pose proof (nt_prs _ _ _ _ N) as Np. rewrite Rg, Rn in Np.
  pose proof (nt_look _ _ _ _ N) as Lk. unfold lookup_parent in Lk. rewrite Rg, Rn in Lk.
  assert (Np' : s_prs s1 = if eqs p ELIDED_TERM then s_prs s else reg_prs (hlen s) r (s_prs s)) by (destruct (eqs p ELIDED_TERM); exact Np).
  assert (Lk' : if eqs p ELIDED_TERM then dget (p_lastparent (s_prs s)) (p_tmap (s_prs s)) = Some q
            else if eqs p r then q = hlen s else dget p (p_tmap (s_prs s)) = Some q).
  { destruct (eqs p ELIDED_TERM) eqn:E; [exact Lk|]. cbn [negb] in Lk. change (t_pt R) with p in Lk. rewrite dget_dset in Lk.
    destruct (eqs p r); [congruence|]. rewrite dget_dset, E in Lk. exact Lk. }
  set (kq := if eqs p ELIDED_TERM then q else hlen s).
  assert (Kq : kq < hlen s1).
  { unfold kq. destruct (eqs p ELIDED_TERM); [|lia]. pose proof (nt_q _ _ _ _ N). lia. }
  assert (KL : dget (p_lastparent (s_prs s1)) (p_tmap (s_prs s1)) = Some kq).
  { rewrite Np'. unfold kq. destruct (eqs p ELIDED_TERM); [exact Lk'|]. cbn [p_lastparent p_tmap reg_prs set_p_tmap set_p_lastparent].
    apply dget_dset_same. }
  assert (KP : p_pmap (s_prs s1) = munge_param_map cols) by (rewrite Np'; destruct (eqs p ELIDED_TERM); exact Pm).
  assert (St : Forall is_stripped (map strip (skipn 2 row))).
  { apply Forall_forall. intros x H. apply in_map_iff in H. destruct H as (y & <- & _). apply strip_idem. }
  pose proof (kids_spec _ _ _ _ cols kq _ _ _ _ K G4 G5 St KP KL Kq) as KS. cbn zeta in KS.
  destruct KS as (K1 & K2 & K3 & K4 & K5 & K6 & K7). rewrite Ln in K1, K5, K6, K7.
  split.
  - apply (fo_cls _ _ F).
  - apply N.
  - exact Lk'.
  - lia.
  - rewrite K4. apply N.
  - rewrite K2. apply N.
  - rewrite K3. exact Np'.
  - intros i Hle x. rewrite K5 by lia. fold kq.
    assert (E1 : tget i s1 = with_new s R q i x).
    { unfold x. destruct (Nat.eqb_spec i (hlen s)) as [->|Ne]; [apply (nt_new _ _ _ _ N)|apply (nt_old _ _ _ _ _ N); lia]. }
    rewrite E1. destruct (with_new_fields s R q i x) as (W1 & W2 & W3 & W4).
    split; [|split; [|split; [|split]]].
    + destruct (i =? kq); [|apply with_new_same]. eapply same_trans; [apply with_new_same|split; reflexivity].
    + destruct (i =? kq); [change (t_hargs (add_kids ?l ?y)) with (t_hargs y)|]; exact W3.
    + destruct (i =? kq); exact W4.
    + destruct (i =? kq); [unfold add_kids; cbn [t_children set_t_children]|]; rewrite W1; [rewrite <- app_assoc; reflexivity|rewrite app_nil_r; reflexivity].
    + destruct (i =? kq); exact W2.
  - exact K6.
  - intros i Hin. destruct (K7 i) as (c' & k & a & Hk & Ht & Hc); [apply in_seq; lia|]. rewrite Ht.
    pose proof (settled_fields s1 kq (fresh_plain c' (dotted r (str_of_nat (k - 2))) r (str_of_nat (k - 2)) (VStr a) [] (Some line) (Some k) ftype (Some (hlen s)) false None)) as SF.
    cbn zeta in SF. destruct SF as (F1&F2&F3&F4&F5&F6&F7&F8&F9&F10&F11&F12&F13&F14&_).
    rewrite F1, F2, F4, F8, F11, F12, F13, F14. cbn [fresh_plain t_cls t_row t_col t_children t_terms].
    assert (Ls : p_lastsec (s_prs s1) = p_lastsec (s_prs s)) by (rewrite Np'; destruct (eqs p ELIDED_TERM); reflexivity).
    split; [exact Hc|]. split; [reflexivity|]. split; [exists k; auto|]. split; [reflexivity|]. split; [reflexivity|]. split; [reflexivity|].
    split; [rewrite Ls; reflexivity|]. unfold final_pt. cbn [t_pt fresh_plain]. apply eqs_false in G5. rewrite G5. reflexivity.
  - intros i Hin. destruct (K7 i) as (c' & k & a & Hk & Ht & Hc); [apply in_seq; lia|]. rewrite Ht. set (R' := fresh_plain _ _ _ _ _ _ _ _ _ _ _ _).
    assert (Fp : final_pt s1 R' = r) by (unfold final_pt; change (t_pt R') with r; apply eqs_false in G5; rewrite G5; reflexivity).
    assert (Ls : p_dterms (s_prs s1) = p_dterms (s_prs s) /\ p_dtvn (s_prs s1) = p_dtvn (s_prs s)) by (rewrite Np'; destruct (eqs p ELIDED_TERM); split; reflexivity).
    destruct Ls as [<- <-]. unfold settled. rewrite Fp. apply eqs_false in G4. rewrite G4. split; reflexivity.
Qed.

(** ** Reading rows *)

Lemma startswith_hash : forall t, startswith "#" t = true <-> exists w, t = String "#" w.
Proof. intros t. apply (startswith_spec "#" t). Qed.

Lemma skip_blank : forall row, skip_row row = true <-> blank_row row.
Proof.
  intros row. unfold blank_row, skip_row. destruct row as [|c cs].
  - split; auto.
  - unfold nonempty. rewrite !negb_involutive. rewrite !orb_true_iff, !eqs_true, startswith_hash.
    split.
    + intros H. right. exists c, cs. split; [reflexivity|]. destruct H as [[H|H]|[w H]].
      * left. subst c. constructor.
      * left. apply white_strip. exact H.
      * right. exists w. apply trimmed_iff. exact H.
    + intros [H|(c' & cs' & E & H)]; [discriminate|]. injection E as <- <-. destruct H as [H|[w H]].
      * left. right. apply white_strip. exact H.
      * right. exists w. apply trimmed_iff. exact H.
Qed.

Lemma not_blank : forall row, skip_row row = false <-> ~ blank_row row.
Proof. intros row. rewrite <- skip_blank. destruct (skip_row row); split; congruence. Qed.

Lemma cell_names_fun : forall s p r p' r', cell_names s p r -> cell_names s p' r' -> p = p' /\ r = r'.
Proof. intros s p r p' r' H H'. apply split_term_lower_spec in H, H'. rewrite H in H'. injection H'. auto. Qed.

Lemma usual_ordinary : forall row l, reads row l -> usual l -> ordinary row.
Proof.
  intros row l R U. unfold ordinary. intros Sk p r CN. apply not_blank in Sk.
  destruct R as [B|NB C|NB C|p' r' NB C H]; [tauto|..]; cbn [usual] in U.
  - destruct (cell_names_fun _ _ _ _ _ CN C) as [-> ->]. split; [reflexivity|]. split; [discriminate|]. split; [discriminate|].
    split; [discriminate|]. split; [intros _ [X|[X|[]]]; discriminate|]. intros _ _. exact U.
  - destruct (cell_names_fun _ _ _ _ _ CN C) as [-> ->]. split; [reflexivity|]. split; [discriminate|]. split; [discriminate|].
    split; [discriminate|]. split; [intros _ [X|[X|[]]]; discriminate|]. intros _ _. exact U.
  - destruct (cell_names_fun _ _ _ _ _ CN C) as [-> ->]. destruct U as (U1 & U2 & U3 & U4 & U5).
    repeat (split; [assumption|]). intros E I. exfalso. apply (H E I).
Qed.

(** ** The view of the state *)

Lemma line_term_grow : forall s s' l t, grow s s' -> line_term s l t -> line_term s' l t.
Proof.
  intros s s' l t G (H1 & H2 & H3 & H4). pose proof (gw_len _ _ G). pose proof (gw_same _ _ G _ H1) as M.
  unfold line_term. rewrite (sm_cls _ _ M), (sm_row _ _ M), (sm_col _ _ M). repeat split; auto. lia.
Qed.

(** the term of a line read since *)
Definition new_line (s : st) (l t : nat) : Prop := b_base <= t /\ line_term s l t.

Lemma new_line_grow : forall s s' l t, grow s s' -> new_line s l t -> new_line s' l t.
Proof. intros s s' l t G [H1 H2]. split; [exact H1|]. eapply line_term_grow; eassumption. Qed.

(** a section heading under a name that is not odd *)
Definition greets (l : line) : Prop := match l with LSection n _ => ~ In (lower (strip n)) b_odd | _ => True end.

Lemma greets_welcome : forall row l, reads row l -> greets l -> welcome row.
Proof.
  intros row l R G Sk CN. apply not_blank in Sk. destruct R as [B|NB C|NB C|p' r' NB C H]; [tauto|exact G|..].
  - destruct (cell_names_fun _ _ _ _ _ CN C). discriminate.
  - destruct (cell_names_fun _ _ _ _ _ CN C) as [<- <-]. exfalso. apply H; cbn; auto.
Qed.

(** the terms a section had before *)
Definition before (i : nat) : list nat := if i <? b_base then b_sterms i else [].

Record vinv (decl : string -> list string) (v : view) (s : st) : Prop := {
  vi_pinv : pinv s;
  vi_decl : forall n, section_args n (s_doc s) = decl n;
  vi_cur : dget (v_cur v) (d_sections (s_doc s)) = Some (p_lastsec (s_prs s));
  vi_keys : dkeys (d_sections (s_doc s)) = map fst (v_secs v);
  vi_nodup : NoDup (map fst (v_secs v));
  vi_rootkey : dget "root" (d_sections (s_doc s)) = Some (d_root (s_doc s));
  vi_cols : forall k i c, k <> "root" -> dget k (d_sections (s_doc s)) = Some i -> assoc k (v_secs v) = Some c -> t_args (tget i s) = c;
  vi_pmap : p_pmap (s_prs s) = munge_param_map (v_cols v);
  vi_vname : p_dtvn (s_prs s) = v_vname v;
  vi_parent : p_lastparent (s_prs s) = v_parent v;
  vi_last : forall n, n <> "root" -> n <> ELIDED_TERM ->
    match assoc n (v_last v) with
    | Some l => exists t, dget n (p_tmap (s_prs s)) = Some t /\ new_line s l t /\ t_rt (tget t s) = n
    | None => dget n (p_tmap (s_prs s)) = b_known n
    end;
  vi_lines : forall t l, b_base <= t -> t < hlen s -> is_section_cls (t_cls (tget t s)) = false -> t_row (tget t s) = Some l -> l < v_line v;
  vi_uniq : forall l t t', new_line s l t -> new_line s l t' -> t = t';
  vi_tops : exists new, d_terms (s_doc s) = (b_tops ++ new)%list /\ Forall2 (fun t x => new_line s (fst x) t) new (v_tops v);
  vi_sterms : forall k i, dget k (d_sections (s_doc s)) = Some i -> exists new, t_terms (tget i s) = (before i ++ new)%list
    /\ Forall2 (fun t x => new_line s (fst x) t) new (filter (fun x => eqs (snd x) k) (v_tops v));
  vi_topsec : forall x, In x (v_tops v) -> In (snd x) (map fst (v_secs v))
}.

Lemma assoc_keys : forall {A} k (l : list (string * A)), assoc k l = None <-> ~ In k (map fst l).
Proof.
  intros A k l. unfold assoc. induction l as [|[a b] l IH]; cbn [find map fst In]; [split; auto|].
  destruct (eqs a k) eqn:E; cbn [option_map].
  - apply eqs_true in E. subst. split; [discriminate|intros H; exfalso; auto].
  - apply eqs_false in E. rewrite IH. tauto.
Qed.
Lemma assoc_app : forall {A} k (l l' : list (string * A)), assoc k (l ++ l') = match assoc k l with Some c => Some c | None => assoc k l' end.
Proof. intros A k l l'. unfold assoc. induction l as [|[a b] l IH]; cbn [find app fst]; [reflexivity|]. destruct (eqs a k); cbn [option_map]; [reflexivity|exact IH]. Qed.
Lemma assoc_cons : forall {A} k a (b : A) l, assoc k ((a, b) :: l) = if eqs a k then Some b else assoc k l.
Proof. intros. unfold assoc. cbn [find fst]. destruct (eqs a k); reflexivity. Qed.

Lemma sec_key_inj : forall s k k' i, pinv s -> dget k (d_sections (s_doc s)) = Some i -> dget k' (d_sections (s_doc s)) = Some i -> k = k'.
Proof.
  intros s k k' i P H H'. destruct (pi_dname _ P _ _ H) as (n & N1 & N2). destruct (pi_dname _ P _ _ H') as (n' & N1' & N2').
  rewrite N1 in N1'. injection N1' as <-. congruence.
Qed.

Lemma vinv_blank : forall decl v s, vinv decl v s ->
  vinv decl (mk_view (S (v_line v)) (v_secs v) (v_cur v) (v_cols v) (v_vname v) (v_parent v) (v_last v) (v_tops v)) s.
Proof.
  intros decl v s V. destruct V as [V1 V2 V3 V4 V5 V6 V7 V8 V9 V10 V11 V12 V13 V14 V15 V16]. split; try assumption.
  intros t l H0 H1 H2 H3. cbn. specialize (V12 t l H0 H1 H2 H3). lia.
Qed.

Lemma Forall2_line_grow : forall s s' l1 l2, grow s s' ->
  Forall2 (fun t (x : nat * string) => new_line s (fst x) t) l1 l2 -> Forall2 (fun t x => new_line s' (fst x) t) l1 l2.
Proof. intros s s' l1 l2 G H. induction H; constructor; auto. eapply new_line_grow; eassumption. Qed.

Lemma tops_grow : forall s s' bg ts vs, grow s s' ->
  (exists new, ts = (bg ++ new)%list /\ Forall2 (fun t (x : nat * string) => new_line s (fst x) t) new vs) ->
  exists new, ts = (bg ++ new)%list /\ Forall2 (fun t x => new_line s' (fst x) t) new vs.
Proof. intros s s' bg ts vs G (new & E & F). exists new. split; [exact E|]. eapply Forall2_line_grow; eassumption. Qed.

Lemma assoc_some_keys : forall {A} k (l : list (string * A)), In k (map fst l) -> exists c, assoc k l = Some c.
Proof. intros A k l H. destruct (assoc k l) as [c|] eqn:E; [eauto|]. apply assoc_keys in E. tauto. Qed.

Lemma dget_assoc_keys : forall {A B} k (d : dict A) (l : list (string * B)), dkeys d = map fst l ->
  (dget k d = None <-> assoc k l = None).
Proof. intros A B k d l H. rewrite dget_none, assoc_keys, H. reflexivity. Qed.

Lemma enter_get : forall i j s, tget j (enter_section i s) = tget j s.
Proof. intros. unfold tget. rewrite (proj1 (enter_fields _ _)). reflexivity. Qed.
Lemma enter_len : forall i s, hlen (enter_section i s) = hlen s.
Proof. intros. unfold hlen. rewrite (proj1 (enter_fields _ _)). reflexivity. Qed.
Lemma enter_doc : forall i s, s_doc (enter_section i s) = s_doc s.
Proof. intros. apply enter_fields. Qed.

Lemma vinv_section : forall decl v s n args ftype, vinv decl v s -> n <> "" -> ftype <> Some "declare" ->
  ~ In (lower (strip n)) b_odd -> ~ In "section" (map lower (map strip args)) ->
  vinv decl (next decl v (LSection n (map strip args))) (section_effect n args (v_line v) ftype s).
Proof.
  intros decl v s n args ftype V Hn Ft Od Ha.
  pose proof (section_effect_inv n args (v_line v) ftype s (vi_pinv _ _ _ V) Hn Ft Od Ha) as PI.
  set (s' := section_effect n args (v_line v) ftype s) in *.
  assert (Len : hlen s' = S (hlen s)) by apply section_effect_len.
  assert (Old : forall i, i < hlen s -> tget i s' = tget i s) by (intros; apply section_effect_old; assumption).
  set (R := section_rec n (heading_args (s_doc s) n args) (v_line v) ftype "root.section").
  assert (New : tget (hlen s) s' = R) by apply section_effect_new.
  assert (G : grow s s').
  { apply grow_heap; [lia|]. intros i Hi. rewrite Old by exact Hi. split; [apply same_refl|auto]. }
  assert (LT : forall l t, new_line s' l t <-> new_line s l t).
  { intros l t. split; [|apply new_line_grow; exact G]. intros (H0 & H1 & H2 & H3 & H4). rewrite Len in H1.
    destruct (Nat.eq_dec t (hlen s)) as [->|Ne]; [rewrite New in H2; discriminate H2|].
    rewrite Old in * by lia. repeat split; auto. lia. }
  set (k := lower (strip n)) in *.
  pose proof (pi_root _ (vi_pinv _ _ _ V)) as PR. pose proof (pi_last _ (vi_pinv _ _ _ V)) as PL.
  assert (Dt : d_terms (s_doc s') = d_terms (s_doc s) /\ d_root (s_doc s') = d_root (s_doc s) /\ d_decl_sections (s_doc s') = d_decl_sections (s_doc s)).
  { unfold s', section_effect. destruct (dget _ _); [rewrite enter_doc|rewrite doc_dmod, enter_doc]; repeat split. }
  destruct Dt as (D1 & D2 & D3).
  assert (Ln : forall t l, b_base <= t -> t < hlen s' -> is_section_cls (t_cls (tget t s')) = false -> t_row (tget t s') = Some l -> l < S (v_line v)).
  { intros t l H0 H1 H2 H3. rewrite Len in H1. destruct (Nat.eq_dec t (hlen s)) as [->|Ne]; [rewrite New in H2; discriminate H2|].
    rewrite Old in H2, H3 by lia. assert (H1' : t < hlen s) by lia. pose proof (vi_lines _ _ _ V t l H0 H1' H2 H3). lia. }
  assert (La : forall m, m <> "root" -> m <> ELIDED_TERM ->
    match assoc m (v_last v) with
    | Some l => exists t, dget m (p_tmap (s_prs s')) = Some t /\ new_line s' l t /\ t_rt (tget t s') = m
    | None => dget m (p_tmap (s_prs s')) = b_known m
    end).
  { intros m M1 M2. assert (Tm : p_tmap (s_prs s') = p_tmap (s_prs s)).
    { unfold s', section_effect. destruct (dget _ _); [rewrite (proj1 (proj2 (proj2 (enter_prs _ _))))|rewrite prs_dmod, (proj1 (proj2 (proj2 (enter_prs _ _))))]; reflexivity. }
    rewrite Tm. pose proof (vi_last _ _ _ V m M1 M2) as H. destruct (assoc m (v_last v)) as [l|]; [|exact H].
    destruct H as (t & T1 & T2 & T3). exists t. split; [exact T1|]. split; [apply LT; exact T2|]. rewrite Old by apply (proj2 T2). exact T3. }
  unfold next. fold k.
  assert (Sx : forall i, i < hlen s -> t_terms (tget i s') = t_terms (tget i s)) by (intros; rewrite Old by assumption; reflexivity).
  eqs_cases k "root".
  - (* back to the root section *)
    assert (Es : s' = enter_section (d_root (s_doc s)) (push R s)).
    { unfold s', section_effect. fold k. rewrite E, (vi_rootkey _ _ _ V). reflexivity. }
    destruct (enter_prs (d_root (s_doc s)) (push R s)) as (E1 & E2 & E3 & E4 & E5 & _). rewrite <- Es in *.
    specialize (E5 eq_refl). destruct E5 as (E5 & E6 & E7). rewrite prs_push in *.
    assert (Ds : s_doc s' = s_doc s) by (rewrite Es, enter_doc; reflexivity).
    split; cbn [v_line v_secs v_cur v_cols v_vname v_parent v_last v_tops]; rewrite ?Ds.
    + exact PI.
    + apply V.
    + rewrite E1. apply V.
    + apply V.
    + apply V.
    + apply V.
    + intros k' i c K1 K2 K3. rewrite Old by apply (pi_dsecs _ (vi_pinv _ _ _ V) _ _ K2). eapply (vi_cols _ _ _ V); eassumption.
    + rewrite E5. apply V.
    + rewrite E7. apply V.
    + rewrite E6. apply V.
    + exact La.
    + exact Ln.
    + intros l t t' H1 H2. apply LT in H1, H2. eapply (vi_uniq _ _ _ V); eassumption.
    + eapply tops_grow; [exact G|apply V].
    + intros k' i K. rewrite Sx by apply (pi_dsecs _ (vi_pinv _ _ _ V) _ _ K). eapply tops_grow; [exact G|]. apply (vi_sterms _ _ _ V). exact K.
    + apply V.
  - (* another section *)
    destruct (dget k (d_sections (s_doc s))) as [i|] eqn:Dk.
    + (* a known section *)
      assert (As : exists c, assoc k (v_secs v) = Some c).
      { destruct (assoc k (v_secs v)) as [c|] eqn:Ea; [eauto|]. apply (dget_assoc_keys k _ _ (vi_keys _ _ _ V)) in Ea. congruence. }
      destruct As as [c As]. rewrite As.
      assert (Es : s' = enter_section i (push R s)).
      { unfold s', section_effect. fold k. rewrite Dk. reflexivity. }
      destruct (pi_dsecs _ (vi_pinv _ _ _ V) _ _ Dk) as [Li _].
      assert (Ni : i <> d_root (s_doc s)).
      { intros ->. apply E. eapply sec_key_inj; [apply (vi_pinv _ _ _ V)|exact Dk|apply (vi_rootkey _ _ _ V)]. }
      destruct (enter_prs i (push R s)) as (E1 & E2 & E3 & E4 & _ & E5). rewrite <- Es in *.
      specialize (E5 Ni). destruct E5 as (E5 & E6 & E7). rewrite push_old in E5 by exact Li.
      assert (Ds : s_doc s' = s_doc s) by (rewrite Es, enter_doc; reflexivity).
      split; cbn [v_line v_secs v_cur v_cols v_vname v_parent v_last v_tops]; rewrite ?Ds.
      * exact PI.
      * apply V.
      * rewrite E1. exact Dk.
      * apply V.
      * apply V.
      * apply V.
      * intros k' j c' K1 K2 K3. rewrite Old by apply (pi_dsecs _ (vi_pinv _ _ _ V) _ _ K2). eapply (vi_cols _ _ _ V); eassumption.
      * rewrite E5. f_equal. eapply (vi_cols _ _ _ V); eassumption.
      * exact E7.
      * exact E6.
      * exact La.
      * exact Ln.
      * intros l t t' H1 H2. apply LT in H1, H2. eapply (vi_uniq _ _ _ V); eassumption.
      * eapply tops_grow; [exact G|apply V].
      * intros k' j K. rewrite Sx by apply (pi_dsecs _ (vi_pinv _ _ _ V) _ _ K). eapply tops_grow; [exact G|]. apply (vi_sterms _ _ _ V). exact K.
      * apply V.
    + (* a new section *)
      assert (As : assoc k (v_secs v) = None) by (apply (dget_assoc_keys k _ _ (vi_keys _ _ _ V)); exact Dk).
      rewrite As.
      assert (Es : s' = dmod (fun d => set_d_sections (dset k (hlen s) (d_sections d)) d) (enter_section (hlen s) (push R s))).
      { unfold s', section_effect. fold k. rewrite Dk. reflexivity. }
      assert (Ni : hlen s <> d_root (s_doc s)) by lia.
      destruct (enter_prs (hlen s) (push R s)) as (E1 & E2 & E3 & E4 & _ & E5).
      specialize (E5 Ni). destruct E5 as (E5 & E6 & E7). rewrite push_new in E5.
      assert (Ps : s_prs s' = s_prs (enter_section (hlen s) (push R s))) by (rewrite Es; reflexivity).
      rewrite <- Ps in *.
      assert (Ds : s_doc s' = set_d_sections (dset k (hlen s) (d_sections (s_doc s))) (s_doc s)) by (rewrite Es, doc_dmod, enter_doc; reflexivity).
      assert (Kn : ~ In k (map fst (v_secs v))) by (apply assoc_keys; exact As).
      set (own := match map strip args with [] => map strip (decl n) | _ => map strip args end).
      assert (Own : t_args R = own).
      { unfold R, section_rec, own. cbn [t_args fresh_plain]. unfold heading_args. destruct args as [|a args]; [|reflexivity].
        cbn [map]. f_equal. apply (vi_decl _ _ _ V). }
      assert (Dg : forall k', dget k' (d_sections (s_doc s')) = if eqs k' k then Some (hlen s) else dget k' (d_sections (s_doc s))).
      { intros k'. rewrite Ds. cbn [d_sections set_d_sections]. apply dget_dset. }
      split; cbn [v_line v_secs v_cur v_cols v_vname v_parent v_last v_tops]; fold own.
      * exact PI.
      * intros m. unfold section_args. rewrite D3. apply (vi_decl _ _ _ V).
      * rewrite Dg, eqs_refl, E1. reflexivity.
      * rewrite Ds. cbn [d_sections set_d_sections]. rewrite dset_absent by exact Dk. unfold dkeys. rewrite map_app. 
        change (map fst (d_sections (s_doc s))) with (dkeys (d_sections (s_doc s))). rewrite (vi_keys _ _ _ V), map_app. reflexivity.
      * rewrite map_app. cbn [map fst]. apply NoDup_app_intro; [apply V|constructor; [intros []|constructor]|].
        intros x X1 [<-|[]]. exact (Kn X1).
      * rewrite Dg, D2. destruct (eqs "root" k) eqn:Er; [apply eqs_true in Er; congruence|]. apply V.
      * intros k' i c K1 K2 K3. rewrite Dg in K2. rewrite assoc_app in K3. eqs_cases k' k.
        -- subst k'. injection K2 as <-. rewrite As, assoc_cons, eqs_refl in K3. injection K3 as <-. rewrite New. exact Own.
        -- rewrite Old by apply (pi_dsecs _ (vi_pinv _ _ _ V) _ _ K2). eapply (vi_cols _ _ _ V); [exact K1|exact K2|].
           destruct (assoc k' (v_secs v)); [exact K3|]. rewrite assoc_cons in K3. destruct (eqs k k') eqn:Ek; [apply eqs_true in Ek; congruence|discriminate K3].
      * rewrite E5, Own. reflexivity.
      * exact E7.
      * exact E6.
      * exact La.
      * exact Ln.
      * intros l t t' H1 H2. apply LT in H1, H2. eapply (vi_uniq _ _ _ V); eassumption.
      * rewrite D1. eapply tops_grow; [exact G|apply V].
      * intros k' j K. rewrite Dg in K. eqs_cases k' k.
        -- subst k'. injection K as <-. rewrite New. change (t_terms R) with (@nil nat).
           exists []. split; [unfold before; pose proof (pi_base _ (vi_pinv _ _ _ V)); destruct (Nat.ltb_spec (hlen s) b_base); [lia|reflexivity]|].
           replace (filter (fun x => eqs (snd x) k) (v_tops v)) with (@nil (nat * string)); [constructor|].
           symmetry. apply filter_none. intros x Hx. apply eqs_false. intros <-. apply Kn. apply (vi_topsec _ _ _ V). exact Hx.
        -- rewrite Sx by apply (pi_dsecs _ (vi_pinv _ _ _ V) _ _ K). eapply tops_grow; [exact G|]. apply (vi_sterms _ _ _ V). exact K.
      * intros x Hx. rewrite map_app. apply in_app_iff. left. apply (vi_topsec _ _ _ V). exact Hx.
Qed.

Lemma vinv_header : forall decl v s c row ftype, vinv decl v s -> is_section_cls c = false ->
  ~ In "section" (map lower (map strip (skipn 2 row))) ->
  vinv decl (next decl v (LHeader (strip (nth 1 row "")) (map strip (skipn 2 row)))) (header_effect c (v_line v) ftype row s).
Proof.
  intros decl v s c row ftype V Hc Ha.
  pose proof (vi_pinv _ _ _ V) as P. pose proof (header_effect_inv c (v_line v) ftype row s P Hc Ha) as PI.
  pose proof (pi_last _ P) as PL. pose proof (pi_root _ P) as PR.
  set (s' := header_effect c (v_line v) ftype row s) in *.
  assert (Len : hlen s' = S (hlen s)) by apply header_effect_len.
  assert (G : grow s s').
  { unfold s'. apply grow_heap; [rewrite header_effect_len; lia|]. intros i Hi. rewrite header_effect_get by lia.
    replace (i =? hlen s) with false by (symmetry; apply Nat.eqb_neq; lia).
    destruct (i =? _); [|split; [apply same_refl|auto]]. split; [split; reflexivity|split; reflexivity]. }
  assert (Ds : s_doc s' = s_doc s) by reflexivity.
  assert (Ps : s_prs s' = set_p_dtvn (lower (strip (nth 1 row ""))) (set_p_pmap (munge_param_map (map strip (skipn 2 row))) (s_prs s))) by reflexivity.
  assert (New : tget (hlen s) s' = set_t_section (Some (p_lastsec (s_prs s))) (row_rec c (v_line v) ftype "root" "header" row)).
  { unfold s'. rewrite header_effect_get by lia. rewrite Nat.eqb_refl. reflexivity. }
  assert (Tm : forall i, i < hlen s -> t_terms (tget i s') = t_terms (tget i s)).
  { intros i Hi. unfold s'. rewrite header_effect_get by lia. replace (i =? hlen s) with false by (symmetry; apply Nat.eqb_neq; lia).
    destruct (i =? _); reflexivity. }
  assert (LT : forall l t, new_line s' l t -> t <> hlen s -> new_line s l t).
  { intros l t (H0 & H1 & H2 & H3 & H4) Ne. rewrite Len in H1. assert (H1' : t < hlen s) by lia.
    pose proof (gw_same _ _ G _ H1') as M. rewrite (sm_cls _ _ M) in H2. rewrite (sm_row _ _ M) in H3. rewrite (sm_col _ _ M) in H4.
    repeat split; auto. }
  cbn [next]. split; cbn [v_line v_secs v_cur v_cols v_vname v_parent v_last v_tops]; rewrite ?Ds, ?Ps; cbn [p_pmap p_lastsec p_dtvn p_lastparent p_tmap set_p_dtvn set_p_pmap].
  - exact PI.
  - apply V.
  - apply V.
  - apply V.
  - apply V.
  - apply V.
  - intros k i x K1 K2 K3. destruct (pi_dsecs _ P _ _ K2) as [Hi _]. rewrite (sm_args _ _ (gw_same _ _ G _ Hi)). eapply (vi_cols _ _ _ V); eassumption.
  - reflexivity.
  - reflexivity.
  - apply V.
  - intros m M1 M2. pose proof (vi_last _ _ _ V m M1 M2) as H. destruct (assoc m (v_last v)) as [l|]; [|exact H].
    destruct H as (t & T1 & T2 & T3). exists t. split; [exact T1|]. split; [eapply new_line_grow; eassumption|].
    rewrite (sm_rt _ _ (gw_same _ _ G _ (proj1 (proj2 T2)))). exact T3.
  - intros t l H0 H1 H2 H3. rewrite Len in H1. destruct (Nat.eq_dec t (hlen s)) as [->|Ne].
    + rewrite New in H3. cbn in H3. injection H3 as <-. lia.
    + assert (H1' : t < hlen s) by lia. pose proof (gw_same _ _ G _ H1') as M. rewrite (sm_cls _ _ M) in H2. rewrite (sm_row _ _ M) in H3.
      pose proof (vi_lines _ _ _ V t l H0 H1' H2 H3). lia.
  - assert (Hnew : forall l t, new_line s' l t -> t <> hlen s -> l < v_line v).
    { intros l t H Ne. apply LT in H; [|exact Ne]. destruct H as (H0 & H1 & H2 & H3 & H4). eapply (vi_lines _ _ _ V); eassumption. }
    assert (Hl : forall l, new_line s' l (hlen s) -> l = v_line v).
    { intros l (_ & _ & _ & H & _). rewrite New in H. cbn in H. congruence. }
    intros l t t' H1 H2. destruct (Nat.eq_dec t (hlen s)) as [->|N1], (Nat.eq_dec t' (hlen s)) as [->|N2]; auto.
    + apply Hl in H1. apply Hnew in H2; [|exact N2]. lia.
    + apply Hl in H2. apply Hnew in H1; [|exact N1]. lia.
    + apply LT in H1; [|exact N1]. apply LT in H2; [|exact N2]. eapply (vi_uniq _ _ _ V); eassumption.
  - eapply tops_grow; [exact G|apply V].
  - intros k i K. rewrite Tm by apply (pi_dsecs _ P _ _ K). eapply tops_grow; [exact G|]. apply (vi_sterms _ _ _ V). exact K.
  - apply V.
Qed.

Lemma term_row_grow : forall ftype line p r row cols s s' c q, term_row ftype line p r row cols s s' c q -> grow s s'.
Proof.
  intros ftype line p r row cols s s' c q T. pose proof (tr_len _ _ _ _ _ _ _ _ _ _ T) as L. split.
  - lia.
  - intros i Hi. assert (Hi' : i <= hlen s) by lia. pose proof (tr_get _ _ _ _ _ _ _ _ _ _ T i Hi') as H. cbn zeta in H.
    replace (i =? hlen s) with false in H by (symmetry; apply Nat.eqb_neq; lia). apply H.
  - intros i Hi. assert (Hi' : i <= hlen s) by lia. pose proof (tr_get _ _ _ _ _ _ _ _ _ _ T i Hi') as H. cbn zeta in H.
    replace (i =? hlen s) with false in H by (symmetry; apply Nat.eqb_neq; lia). destruct H as (_ & _ & _ & -> & _).
    eexists. split; [reflexivity|]. apply Forall_app. split; [destruct (i =? q); auto|]. destruct (i =? _); auto.
    apply Forall_forall. intros x Hx. apply in_seq in Hx. lia.
  - intros i Hi. assert (Hi' : i <= hlen s) by lia. pose proof (tr_get _ _ _ _ _ _ _ _ _ _ T i Hi') as H. cbn zeta in H.
    replace (i =? hlen s) with false in H by (symmetry; apply Nat.eqb_neq; lia). destruct H as (_ & _ & _ & _ & ->).
    eexists. split; [reflexivity|]. destruct (_ && _); auto.
Qed.

Lemma vinv_term : forall decl v s s' ftype p r val0 row c q, vinv decl v s -> pinv s' ->
  r <> "root" -> r <> ELIDED_TERM -> py_int r = None ->
  term_row ftype (v_line v) p r row (v_cols v) s s' c q ->
  vinv decl (next decl v (LTerm p r val0 (map strip (skipn 2 row)))) s'.
Proof.
  intros decl v s s' ftype p r val0 row c q V PI Nr Ne Hi T.
  pose proof (term_row_grow _ _ _ _ _ _ _ _ _ _ T) as G. pose proof (vi_pinv _ _ _ V) as P.
  pose proof (pi_last _ P) as PL. pose proof (pi_root _ P) as PR. pose proof (tr_len _ _ _ _ _ _ _ _ _ _ T) as L.
  set (R := row_rec c (v_line v) ftype p r row) in *.
  assert (Top : final_pt s R = if eqs p ELIDED_TERM then v_parent v else p).
  { unfold final_pt. change (t_pt R) with p. rewrite (vi_parent _ _ _ V). reflexivity. }
  set (top := eqs (final_pt s R) "root").
  assert (Hh : hlen s <= hlen s) by lia.
  pose proof (tr_get _ _ _ _ _ _ _ _ _ _ T (hlen s) Hh) as Tn. cbn zeta in Tn. rewrite Nat.eqb_refl in Tn. fold R in Tn.
  destruct Tn as (Tsame & _ & _ & _ & Tterms).
  pose proof (settled_fields s q R) as SF. cbn zeta in SF. destruct SF as (F1&F2&F3&F4&F5&F6&F7&F8&F9&F10&F11&F12&F13&F14&_).
  assert (LTn : line_term s' (v_line v) (hlen s)).
  { unfold line_term. rewrite (sm_cls _ _ Tsame), (sm_row _ _ Tsame), (sm_col _ _ Tsame), F1, F11, F12.
    split; [lia|]. split; [apply (tr_cls _ _ _ _ _ _ _ _ _ _ T)|]. split; reflexivity. }
  assert (Rt : t_rt (tget (hlen s) s') = r).
  { rewrite (sm_rt _ _ Tsame), F5. unfold renamed. change (t_rt R) with r. rewrite Hi. reflexivity. }
  assert (NLn : new_line s' (v_line v) (hlen s)) by (split; [apply (pi_base _ P)|exact LTn]).
  assert (LTo : forall l t, new_line s' l t -> t <> hlen s -> new_line s l t).
  { intros l t (H0 & H1 & H2 & H3 & H4) Nt. destruct (Nat.lt_ge_cases t (hlen s)) as [Lt|Ge].
    - pose proof (gw_same _ _ G _ Lt) as M. rewrite (sm_cls _ _ M) in H2. rewrite (sm_row _ _ M) in H3. rewrite (sm_col _ _ M) in H4.
      repeat split; auto.
    - destruct (tr_new _ _ _ _ _ _ _ _ _ _ T t) as (_ & _ & (k & Hk & Hc) & _); [lia|]. rewrite Hc in H4. injection H4 as ->. lia. }
  assert (Pr : p_pmap (s_prs s') = p_pmap (s_prs s) /\ p_lastsec (s_prs s') = p_lastsec (s_prs s) /\ p_dtvn (s_prs s') = p_dtvn (s_prs s)).
  { rewrite (tr_prs _ _ _ _ _ _ _ _ _ _ T). destruct (eqs p ELIDED_TERM); repeat split. }
  destruct Pr as (Pr1 & Pr2 & Pr3).
  assert (Dc : d_sections (s_doc s') = d_sections (s_doc s) /\ d_root (s_doc s') = d_root (s_doc s) /\ d_decl_sections (s_doc s') = d_decl_sections (s_doc s)
    /\ d_terms (s_doc s') = (d_terms (s_doc s) ++ if top then [hlen s] else [])%list).
  { rewrite (tr_doc _ _ _ _ _ _ _ _ _ _ T). fold R. fold top. destruct top; cbn; rewrite ?app_nil_r; repeat split. }
  destruct Dc as (Dc1 & Dc2 & Dc3 & Dc4).
  assert (Nx : next decl v (LTerm p r val0 (map strip (skipn 2 row))) =
    mk_view (S (v_line v)) (v_secs v) (v_cur v) (v_cols v) (v_vname v)
      (if eqs p ELIDED_TERM then v_parent v else r) (if eqs p ELIDED_TERM then v_last v else (r, v_line v) :: v_last v)
      (v_tops v ++ (if top then [(v_line v, v_cur v)] else []))).
  { unfold next, top. rewrite Top. change current_parent with ELIDED_TERM. destruct (eqs p ELIDED_TERM); reflexivity. }
  rewrite Nx. split; cbn [v_line v_secs v_cur v_cols v_vname v_parent v_last v_tops]; rewrite ?Pr1, ?Pr2, ?Pr3, ?Dc1, ?Dc2, ?Dc4.
  - exact PI.
  - intros n. unfold section_args. rewrite Dc3. apply (vi_decl _ _ _ V).
  - apply V.
  - apply V.
  - apply V.
  - apply V.
  - intros k i x K1 K2 K3. destruct (pi_dsecs _ P _ _ K2) as [Hk _]. rewrite (sm_args _ _ (gw_same _ _ G _ Hk)). eapply (vi_cols _ _ _ V); eassumption.
  - apply V.
  - apply V.
  - rewrite (tr_prs _ _ _ _ _ _ _ _ _ _ T). destruct (eqs p ELIDED_TERM); [apply V|reflexivity].
  - intros m M1 M2. rewrite (tr_prs _ _ _ _ _ _ _ _ _ _ T).
    assert (Old : match assoc m (v_last v) with
      | Some l => exists t, dget m (p_tmap (s_prs s)) = Some t /\ new_line s' l t /\ t_rt (tget t s') = m
      | None => dget m (p_tmap (s_prs s)) = b_known m end).
    { pose proof (vi_last _ _ _ V m M1 M2) as H. destruct (assoc m (v_last v)) as [l|]; [|exact H].
      destruct H as (t & T1 & T2 & T3). exists t. split; [exact T1|]. split; [eapply new_line_grow; eassumption|].
      rewrite (sm_rt _ _ (gw_same _ _ G _ (proj1 (proj2 T2)))). exact T3. }
    destruct (eqs p ELIDED_TERM); [exact Old|]. cbn [p_tmap reg_prs set_p_tmap]. rewrite assoc_cons, !dget_dset.
    eqs_cases r m.
    + subst m. rewrite eqs_refl. exists (hlen s). split; [reflexivity|]. split; [exact NLn|exact Rt].
    + replace (eqs m r) with false by (symmetry; apply eqs_false; congruence). 
      replace (eqs m ELIDED_TERM) with false by (symmetry; apply eqs_false; congruence). exact Old.
  - intros t l H0 H1 H2 H3. destruct (Nat.lt_trichotomy t (hlen s)) as [Lt|[->|Gt]].
    + pose proof (gw_same _ _ G _ Lt) as M. rewrite (sm_cls _ _ M) in H2. rewrite (sm_row _ _ M) in H3.
      pose proof (vi_lines _ _ _ V t l H0 Lt H2 H3). lia.
    + destruct LTn as (_ & _ & X & _). rewrite X in H3. injection H3 as <-. lia.
    + destruct (tr_new _ _ _ _ _ _ _ _ _ _ T t) as (_ & X & _); [lia|]. rewrite X in H3. injection H3 as <-. lia.
  - assert (Hnew : forall l t, new_line s' l t -> t <> hlen s -> l < v_line v).
    { intros l t H Nt. apply LTo in H; [|exact Nt]. destruct H as (H0 & H1 & H2 & H3 & H4). eapply (vi_lines _ _ _ V); eassumption. }
    assert (Hl : forall l, new_line s' l (hlen s) -> l = v_line v).
    { intros l (_ & _ & _ & H & _). destruct LTn as (_ & _ & X & _). congruence. }
    intros l t t' H1 H2. destruct (Nat.eq_dec t (hlen s)) as [->|N1], (Nat.eq_dec t' (hlen s)) as [->|N2]; auto.
    + apply Hl in H1. apply Hnew in H2; [|exact N2]. lia.
    + apply Hl in H2. apply Hnew in H1; [|exact N1]. lia.
    + apply LTo in H1; [|exact N1]. apply LTo in H2; [|exact N2]. eapply (vi_uniq _ _ _ V); eassumption.
  - destruct (tops_grow _ _ _ _ _ G (vi_tops _ _ _ V)) as (new & En & Fn). exists (new ++ if top then [hlen s] else [])%list.
    split; [rewrite En, app_assoc; reflexivity|]. apply Forall2_app; [exact Fn|]. destruct top; constructor; auto.
  - intros k i K. destruct (pi_dsecs _ P _ _ K) as [Hk _]. assert (Hk' : i <= hlen s) by lia.
    pose proof (tr_get _ _ _ _ _ _ _ _ _ _ T i Hk') as X. cbn zeta in X. fold R in X. fold top in X.
    replace (i =? hlen s) with false in X by (symmetry; apply Nat.eqb_neq; lia). destruct X as (_ & _ & _ & _ & ->).
    destruct (tops_grow _ _ _ _ _ G (vi_sterms _ _ _ V k i K)) as (new & En & Fn). rewrite En, <- app_assoc.
    eexists. split; [reflexivity|]. rewrite filter_app. apply Forall2_app; [exact Fn|].
    destruct top; cbn [filter snd andb]; [|constructor].
    destruct (Nat.eqb_spec i (p_lastsec (s_prs s))) as [->|Nl].
    + rewrite (sec_key_inj _ _ _ _ P K (vi_cur _ _ _ V)), eqs_refl. constructor; auto.
    + eqs_cases (v_cur v) k; [|constructor]. exfalso. apply Nl. pose proof (vi_cur _ _ _ V) as C. rewrite E, K in C. congruence.
  - intros x Hx. apply in_app_iff in Hx. destruct Hx as [Hx|Hx]; [apply V; exact Hx|].
    destruct top; [|destruct Hx]. destruct Hx as [<-|[]]. cbn [snd]. rewrite <- (vi_keys _ _ _ V).
    destruct (in_dec string_dec (v_cur v) (dkeys (d_sections (s_doc s)))) as [I|I]; [exact I|].
    apply dget_none in I. rewrite (vi_cur _ _ _ V) in I. discriminate I.
Qed.

(** ** One line, all lines *)

Lemma vinv_row : forall decl v s s' ftype row l, ftype <> Some "declare" -> vinv decl v s -> pinv s' ->
  reads row l -> usual l -> greets l -> row_eff ftype (v_line v) row s s' ->
  vinv decl (next decl v l) s'
  /\ (forall p r x cells, l = LTerm p r x cells -> exists c q, term_row ftype (v_line v) p r row (v_cols v) s s' c q).
Proof.
  intros decl v s s' ftype row l Ft V PI Rd U Gr H.
  destruct H as [H1 ->|H1 H2 H3 ->|c H1 H2 H3 H4 ->|p r c q s1 H1 H2 H3 H4 H5 H6 H7].
  - apply skip_blank in H1. destruct Rd as [B|NB C|NB C|p' r' NB C Hx]; try tauto.
    split; [apply vinv_blank; exact V|discriminate].
  - apply not_blank in H1. destruct Rd as [B|NB C|NB C|p' r' NB C Hx]; try tauto.
    + split; [|discriminate]. apply vinv_section; auto.
    + destruct (cell_names_fun _ _ _ _ _ H2 C). discriminate.
    + destruct (cell_names_fun _ _ _ _ _ H2 C) as [<- <-]. exfalso. apply Hx; cbn; auto.
  - apply not_blank in H1. destruct Rd as [B|NB C|NB C|p' r' NB C Hx]; try tauto.
    + destruct (cell_names_fun _ _ _ _ _ H2 C). discriminate.
    + split; [|discriminate]. apply vinv_header; auto.
    + destruct (cell_names_fun _ _ _ _ _ H2 C) as [<- <-]. exfalso. apply Hx; cbn; auto.
  - apply not_blank in H1. destruct Rd as [B|NB C|NB C|p' r' NB C Hx]; try tauto.
    + destruct (cell_names_fun _ _ _ _ _ H2 C) as [-> ->]. exfalso. apply H3; cbn; auto.
    + destruct (cell_names_fun _ _ _ _ _ H2 C) as [-> ->]. exfalso. apply H3; cbn; auto.
    + destruct (cell_names_fun _ _ _ _ _ H2 C) as [-> ->]. destruct U as (U1 & U2 & U3 & U4 & U5).
      assert (T : term_row ftype (v_line v) p' r' row (v_cols v) s s' c q).
      { eapply row_term_spec; try eassumption; [apply V|apply V]. }
      split.
      * eapply vinv_term; try eassumption.
      * intros p r x cells E. injection E as <- <- _ _. exists c, q. exact T.
Qed.

Lemma next_line : forall decl v l, v_line (next decl v l) = S (v_line v).
Proof. intros decl v l. destruct l; cbn; try reflexivity; [|destruct (eqs _ _); reflexivity]. destruct (eqs _ _); reflexivity. Qed.

Lemma vinv_rows : forall decl ftype rows ls v s s', ftype <> Some "declare" -> vinv decl v s ->
  Forall2 reads rows ls -> Forall usual ls -> Forall greets ls -> rows_eff ftype (v_line v) rows s s' ->
  vinv decl (fold_left (next decl) ls v) s'.
Proof.
  intros decl ftype rows ls v s s' Ft V Rd. revert v s V. induction Rd as [|row l rows ls R1 R2 IH]; intros v s V U Gr H.
  - inversion H; subst. exact V.
  - inversion U as [|? ? U1 U2]; subst. inversion Gr as [|? ? G1 G2]; subst. inversion H as [|? ? ? ? s1 ? H1 H2 H3]; subst. cbn [fold_left].
    destruct (vinv_row _ _ _ _ _ _ _ Ft V H2 R1 U1 G1 H1) as [V1 _].
    apply (IH _ s1); auto. rewrite next_line. exact H3.
Qed.

Lemma reads_welcome : forall rows ls, Forall2 reads rows ls -> Forall greets ls -> Forall welcome rows.
Proof. intros rows ls R. induction R; intros G; constructor; inversion G; subst; auto. eapply greets_welcome; eassumption. Qed.

Lemma fold_line : forall decl ls v, v_line (fold_left (next decl) ls v) = v_line v + List.length ls.
Proof. intros decl. induction ls as [|x ls IH]; intros v; cbn [fold_left List.length]; [lia|]. rewrite IH, next_line. lia. Qed.

(** a row in the middle of the rows read from a known state *)
Lemma rows_at : forall decl v ftype pre row post lpre l lpost s0 s1, ftype <> Some "declare" -> vinv decl v s0 ->
  Forall2 reads pre lpre -> reads row l -> Forall2 reads post lpost -> Forall usual (lpre ++ l :: lpost) -> Forall greets (lpre ++ l :: lpost) ->
  rows_eff ftype (v_line v) (pre ++ row :: post) s0 s1 ->
  exists m m', rows_eff ftype (v_line v) pre s0 m /\ vinv decl (fold_left (next decl) lpre v) m
    /\ row_eff ftype (v_line v + List.length pre) row m m' /\ pinv m'
    /\ vinv decl (fold_left (next decl) (lpre ++ [l]) v) m'
    /\ rows_eff ftype (S (v_line v + List.length pre)) post m' s1 /\ grow m' s1
    /\ vinv decl (fold_left (next decl) (lpre ++ l :: lpost) v) s1.
Proof.
  intros decl v ftype pre row post lpre l lpost s0 s1 Ft V0 R1 R2 R3 U Gr RE.
  assert (RA : Forall2 reads (pre ++ row :: post) (lpre ++ l :: lpost)) by (apply Forall2_app; [exact R1|constructor; assumption]).
  pose proof (vinv_rows _ _ _ _ _ _ _ Ft V0 RA U Gr RE) as V1.
  apply rows_eff_app in RE. destruct RE as (m & REa & REb).
  apply Forall_app in U. destruct U as [U1 U2]. inversion U2 as [|? ? U3 U4]; subst.
  apply Forall_app in Gr. destruct Gr as [G1 G2]. inversion G2 as [|? ? G3 G4]; subst.
  pose proof (vinv_rows _ _ _ _ _ _ _ Ft V0 R1 U1 G1 REa) as Vm.
  inversion REb as [|? ? ? ? m' ? Q1 Q2 Q3]; subst.
  assert (Ln : v_line (fold_left (next decl) lpre v) = v_line v + List.length pre).
  { rewrite fold_line. f_equal. clear - R1. induction R1; cbn; congruence. }
  exists m, m'. split; [exact REa|]. split; [exact Vm|]. split; [exact Q1|]. split; [exact Q2|].
  split; [|split; [exact Q3|split; [|exact V1]]].
  - rewrite fold_left_app. cbn [fold_left]. eapply vinv_row; [exact Ft|exact Vm|exact Q2|exact R2|exact U3|exact G3|rewrite Ln; exact Q1].
  - eapply rows_eff_inv; eassumption.
Qed.

Lemma reads_ordinary : forall rows ls, Forall2 reads rows ls -> Forall usual ls -> Forall ordinary rows.
Proof.
  intros rows ls R. induction R; intros U; constructor; inversion U; subst; auto. eapply usual_ordinary; eassumption.
Qed.

End Background.

Lemma greets_all : forall l, greets l.
Proof. intros [| | |]; cbn; auto. Qed.
Lemma greets_each : forall ls, Forall greets ls.
Proof. intros ls. apply Forall_forall. intros l _. apply greets_all. Qed.
Lemma welcome_each : forall rows, Forall welcome rows.
Proof. intros rows. apply Forall_forall. intros r _. apply welcome_all. Qed.
Lemma new_line_term : forall s l t, new_line s l t <-> line_term s l t.
Proof. intros s l t. unfold new_line. cbn [b_base no_background]. split; [intros H; apply H|intros H; split; [lia|exact H]]. Qed.
Lemma Forall2_new_line : forall s a b, Forall2 (fun t (x : nat * string) => new_line s (fst x) t) a b -> Forall2 (fun t (x : nat * string) => line_term s (fst x) t) a b.
Proof. intros s a b H. induction H as [|t x a b H1 H2 IH]; [constructor|]. constructor; [exact (proj1 (new_line_term _ _ _) H1)|exact IH]. Qed.
Lemma vi_tops0 : forall decl v s, vinv decl v s -> Forall2 (fun t x => line_term s (fst x) t) (d_terms (s_doc s)) (v_tops v).
Proof. intros decl v s V. destruct (vi_tops _ _ _ V) as (new & E & F). cbn in E. rewrite E. apply Forall2_new_line. exact F. Qed.
Lemma vi_sterms0 : forall decl v s k i, vinv decl v s -> dget k (d_sections (s_doc s)) = Some i ->
  Forall2 (fun t x => line_term s (fst x) t) (t_terms (tget i s)) (filter (fun x => eqs (snd x) k) (v_tops v)).
Proof. intros decl v s k i V K. destruct (vi_sterms _ _ _ V k i K) as (new & E & F). cbn in E. rewrite E. apply Forall2_new_line. exact F. Qed.

(** ** Loading a file into a new document *)

Definition started (s : st) : st := set_s_prs (fresh_parser s) s.

Lemma first_vinv : forall reg dt ds sup, good_reg reg -> no_section_column (declared_columns ds) ->
  vinv (declared_columns ds) first_view (started (new_doc reg dt ds sup)).
Proof.
  intros reg dt ds sup GR ND.
  assert (E0 : forall i, i < 1 -> i = 0) by lia.
  assert (PI : pinv (started (new_doc reg dt ds sup))).
  { split; try reflexivity; try (cbn; lia); try exact GR; try (intros n _; exact (ND n)); try (intros W; exact W); try (intros k i _ _ W; exact W).
    - intros i Hi _ _. apply E0 in Hi. subst i. split; [|intros H; exfalso; apply H; reflexivity].
      split; try reflexivity; cbn; auto. discriminate.
    - intros k i H. cbn [started new_doc s_prs set_s_prs fresh_parser p_tmap] in H. rewrite dget_dset in H. destruct (eqs k _) in H.
      + injection H as <-. cbn. lia.
      + cbn [dget] in H. destruct (eqs _ _) in H; [|discriminate H]. injection H as <-. cbn. lia.
    - split; [apply dot_free_iff; reflexivity|reflexivity].
    - discriminate.
    - intros i j Hi H. apply E0 in Hi. subst i. destruct H.
    - intros i j Hi H. apply E0 in Hi. subst i. destruct H.
    - intros k i H. cbn [started new_doc s_doc dmod set_s_doc set_s_prs set_d_super set_d_decl_sections set_d_decl_terms init_st empty_doc d_sections dget] in H.
      destruct (eqs k "root") in H; [|discriminate H]. injection H as <-. split; [cbn; lia|reflexivity].
    - intros k i H. cbn [started new_doc s_doc dmod set_s_doc set_s_prs set_d_super set_d_decl_sections set_d_decl_terms init_st empty_doc d_sections dget] in H.
      eqs_cases k "root"; [|discriminate H]. injection H as <-. exists "Root". split; [reflexivity|]. symmetry. exact E. }
  split; try reflexivity; try exact PI.
  - cbn. constructor; [intros []|constructor].
  - intros k i c K1 K2. cbn [started new_doc s_doc dmod set_s_doc set_s_prs set_d_super set_d_decl_sections set_d_decl_terms init_st empty_doc d_sections dget] in K2.
    eqs_cases k "root"; [congruence|discriminate K2].
  - intros n N1 N2. cbn [assoc first_view v_last find option_map]. cbn [started new_doc s_prs set_s_prs fresh_parser p_tmap]. rewrite dget_dset.
    replace (eqs n _) with false; [|symmetry; apply eqs_false; exact N1]. cbn [dget]. 
    replace (eqs n ELIDED_TERM) with false by (symmetry; apply eqs_false; exact N2). reflexivity.
  - intros t l _ Ht Hc. apply E0 in Ht. subst t. discriminate Hc.
  - intros l t t' (_ & H1 & H2 & _). apply E0 in H1. subst t. discriminate H2.
  - exists []. split; [reflexivity|constructor].
  - intros k i K. exists []. cbn [started new_doc s_doc dmod set_s_doc set_s_prs set_d_super set_d_decl_sections set_d_decl_terms init_st empty_doc d_sections dget] in K.
    destruct (eqs k "root") in K; [|discriminate K]. injection K as <-. split; [reflexivity|constructor].
  - intros x [].
Qed.

(** the end of load_terms keeps the terms and sections *)
Record finished (s s' : st) : Prop := {
  fi_heap : s_heap s' = s_heap s;
  fi_terms : d_terms (s_doc s') = d_terms (s_doc s);
  fi_sections : d_sections (s_doc s') = d_sections (s_doc s);
  fi_root : d_root (s_doc s') = d_root (s_doc s);
  fi_prs : s_prs s' = s_prs s;
  fi_reg : s_reg s' = s_reg s
}.

Lemma finish_load_ok : forall s, exists s', finish_load s = (s', Ok tt) /\ finished s s'.
Proof. intros s. unfold finish_load, getP, bind, gets. rewrite !modD_run. eexists. split; [reflexivity|]. split; reflexivity. Qed.

Lemma load_source_run : forall e fuel src reg dt ds sup, exists k, 
  forall s', load_source e fuel src (new_doc reg dt ds sup) = (s', Ok tt) ->
  exists s1, k (started (new_doc reg dt ds sup)) = (s1, Ok tt) /\ finished s1 s' /\ k = generate_terms e true fuel src None.
Proof.
  intros. exists (generate_terms e true fuel src None). intros s' H. unfold load_source in H.
  rb H as s1 u H1. unfold start_parser in H1. apply modify_ok in H1. subst s1. fold (started (new_doc reg dt ds sup)) in H. rg H.
  rb H as s2 u2 H2. assert (s2 = started (new_doc reg dt ds sup)) as ->.
  { vm_compute in H2. injection H2 as <- _. reflexivity. }
  rb H as s3 u3 H3. destruct u3. exists s3. split; [exact H3|]. split; [|reflexivity].
  destruct (finish_load_ok s3) as (s4 & E & F). rewrite E in H. injection H as <-. exact F.
Qed.

Lemma parse_rows_eff : forall e fuel ref dir rows reg dt ds sup ls s', good_reg reg -> no_section_column (declared_columns ds) ->
  Forall2 reads rows ls -> Forall usual ls ->
  load_source e fuel (mk_source ref dir rows) (new_doc reg dt ds sup) = (s', Ok tt) ->
  exists s1, rows_eff None 1 rows (started (new_doc reg dt ds sup)) s1 /\ finished s1 s'
    /\ vinv (declared_columns ds) (view_after (declared_columns ds) ls) s1.
Proof.
  intros e fuel ref dir rows reg dt ds sup ls s' GR ND Rd U H.
  destruct (load_source_run e fuel (mk_source ref dir rows) reg dt ds sup) as (k & K). apply K in H.
  destruct H as (s1 & H & F & ->). exists s1.
  pose proof (first_vinv reg dt ds sup GR ND) as V0.
  assert (RE : rows_eff None 1 rows (started (new_doc reg dt ds sup)) s1).
  { destruct fuel as [|f]; [discriminate H|]. cbn [generate_terms] in H. rg H. cbn [src_rows] in H.
    eapply rows_loop_eff; [|apply V0|eapply reads_ordinary; eassumption|apply welcome_each|exact H]. discriminate. }
  split; [exact RE|]. split; [exact F|]. unfold view_after. eapply vinv_rows; try eassumption; [discriminate|apply greets_each].
Qed.

(** a row in the middle of a file *)
Lemma parse_at : forall e fuel ref dir pre row post reg dt ds sup lpre l lpost s', good_reg reg -> no_section_column (declared_columns ds) ->
  Forall2 reads pre lpre -> reads row l -> Forall2 reads post lpost -> Forall usual (lpre ++ l :: lpost) ->
  load_source e fuel (mk_source ref dir (pre ++ row :: post)) (new_doc reg dt ds sup) = (s', Ok tt) ->
  exists m m' s1, rows_eff None 1 pre (started (new_doc reg dt ds sup)) m /\ vinv (declared_columns ds) (view_after (declared_columns ds) lpre) m
    /\ row_eff None (S (List.length pre)) row m m' /\ pinv m'
    /\ vinv (declared_columns ds) (view_after (declared_columns ds) (lpre ++ [l])) m'
    /\ rows_eff None (S (S (List.length pre))) post m' s1 /\ grow m' s1 /\ finished s1 s'
    /\ vinv (declared_columns ds) (view_after (declared_columns ds) (lpre ++ l :: lpost)) s1.
Proof.
  intros e fuel ref dir pre row post reg dt ds sup lpre l lpost s' GR ND R1 R2 R3 U H.
  assert (RA : Forall2 reads (pre ++ row :: post) (lpre ++ l :: lpost)) by (apply Forall2_app; [exact R1|constructor; assumption]).
  destruct (parse_rows_eff _ _ _ _ _ _ _ _ _ _ _ GR ND RA U H) as (s1 & RE & F & V1).
  pose proof (first_vinv reg dt ds sup GR ND) as V0.
  destruct (rows_at _ first_view None _ _ _ _ _ _ _ _ ltac:(discriminate) V0 R1 R2 R3 U (greets_each _) RE) as (m & m' & A1 & A2 & A3 & A4 & A5 & A6 & A7 & A8).
  exists m, m', s1. auto 10.
Qed.
