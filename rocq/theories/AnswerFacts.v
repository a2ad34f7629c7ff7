(** * AnswerFacts: the dict of a parsed file and searches in it (C78) *)

From Verif Require Import ListFacts StrFacts HeapFacts RunFacts EmitFacts Csv CsvFacts RowsFacts PrintFacts NameFacts SpecNames PyBase SpecParse State Ops Parser Render SpecDoc SpecInv SpecEdit InvFacts SpecRound SpecHead SpecOutline SpecFind FindFacts SpecDict DictFacts
  RoundFacts DigitFacts DigitFacts ParseProps RowFacts ParseFacts DocFacts HeadFacts ForestFacts ForestFacts DocProps OutlineFacts SpecOrderly OrderlyFacts SpecKeep KeepFacts SpecAnswer.

Lemma rose_ind' : forall P : rose -> Prop, (forall e ts, Forall P ts -> P (Rose e ts)) -> forall t, P t.
Proof.
  intros P H. fix IH 1. intros [e ts]. apply H. induction ts as [|t ts IHt]; constructor; [apply IH|exact IHt].
Qed.

(** ** Names are in lower case *)

Definition low (t : rose) : Prop := Forall (fun u => lower (rname u) = rname u) (nodes t).

Lemma low_tree : forall e ts, low (Rose e ts) -> lower (e_name e) = e_name e /\ Forall low ts.
Proof.
  intros e ts H. unfold low in H. cbn [nodes] in H. inversion H as [|? ? A B]; subst. split; [exact A|]. clear - B. induction ts as [|t ts IH]; [constructor|].
  cbn [flat_map] in B. apply Forall_app in B. destruct B as [B C]. constructor; [exact B|apply IH; exact C].
Qed.

Lemma column_low : forall cols i, lower (column_name cols i) = column_name cols i.
Proof.
  intros cols i. unfold column_name. destruct (nth_error cols i) as [c|]; [|apply digits_lower, str_of_nat_digits]. destruct (eqs c ""); [apply digits_lower, str_of_nat_digits|apply lower_idem].
Qed.
Lemma cells_low : forall cols cells i nc, In nc (cells_from cols i cells) -> lower (fst nc) = fst nc.
Proof.
  intros cols cells. induction cells as [|c cs IH]; intros i nc H; [destruct H|]. cbn [cells_from] in H. destruct (eqs c ""); [eapply IH; exact H|].
  destruct H as [<-|H]; [apply column_low|eapply IH; exact H].
Qed.
Lemma made_low : forall rows ls, Forall2 reads rows ls -> forall w v hs, Forall (fun e => lower (e_name e) = e_name e) (made w v hs ls).
Proof.
  intros rows ls R. induction R as [|row l rows ls R1 _ IH]; intros w v hs; [constructor|]. cbn [made]. apply Forall_app. split; [|apply IH].
  destruct l as [| | |p r x cells]; try constructor.
  - cbn [e_name]. inversion R1 as [| | |? ? _ C]; subst. apply cell_names_tidy in C. apply C.
  - apply Forall_forall. intros e H. apply in_map_iff in H. destruct H as (nc & <- & H). cbn [e_name]. eapply cells_low. exact H.
Qed.

Lemma hung_nodes : forall es x u, In x (hung es) -> In u (nodes (snd x)) -> exists e ts, u = Rose e ts /\ In e es.
Proof.
  induction es as [|e es IH]; intros x u H U; [destruct H|]. cbn [hung fold_right] in H. fold (hung es) in H. unfold hang in H. destruct H as [<-|H].
  - cbn [snd nodes] in U. destruct U as [<-|U]; [exists e; eexists; split; [reflexivity|left; reflexivity]|].
    apply in_flat_map in U. destruct U as (t & T & U). apply in_map_iff in T. destruct T as (y & <- & Y). apply filter_In in Y. destruct Y as [Y _].
    destruct (IH y u Y U) as (e' & ts' & A & B). exists e', ts'. split; [exact A|right; exact B].
  - apply filter_In in H. destruct H as [H _]. destruct (IH x u H U) as (e' & ts' & A & B). exists e', ts'. split; [exact A|right; exact B].
Qed.
Lemma hung_low : forall es x, Forall (fun e => lower (e_name e) = e_name e) es -> In x (hung es) -> low (snd x).
Proof.
  intros es x H I. apply Forall_forall. intros u U. destruct (hung_nodes _ _ _ I U) as (e & ts & -> & E). cbn [rname]. exact (proj1 (Forall_forall _ _) H _ E).
Qed.
Lemma tops_low : forall es k t, Forall (fun e => lower (e_name e) = e_name e) es -> In t (tops k es) -> low t.
Proof. intros es k t H I. unfold tops in I. apply in_map_iff in I. destruct I as (x & <- & I). apply filter_In in I. eapply hung_low; [exact H|apply I]. Qed.

(** ** Dicts *)

Lemma text_in_fun : forall x a b, text_in x a -> text_in x b -> a = b.
Proof.
  intros x a b H K. destruct H as [t|x F]; inversion K as [t' E|x' F']; subst; try reflexivity.
  - cbn in F'. destruct t; [reflexivity|discriminate F'].
  - cbn in F. destruct b; [reflexivity|discriminate F].
Qed.
Lemma texts_fun : forall xs a b, Forall2 text_in xs a -> Forall2 text_in xs b -> a = b.
Proof. intros xs a b H. revert b. induction H as [|x y xs ys H _ IH]; intros b K; inversion K; subst; [reflexivity|]. f_equal; [eapply text_in_fun; eassumption|apply IH; assumption]. Qed.
Lemma shaped_fun : forall p xs a b, shaped p xs a -> shaped p xs b -> a = b.
Proof.
  intros p xs a b H K. destruct H as [xs x|xs|xs ts F|xs ts F|p x NS|p x y xs NS]; inversion K; subst; try reflexivity;
    try (exfalso; match goal with N : ~ special _ |- _ => apply N; unfold special; auto end).
  - match goal with E : (_ ++ [_])%list = (_ ++ [_])%list |- _ => apply app_inj_tail in E; destruct E; congruence end.
  - do 3 f_equal. eapply texts_fun; eassumption.
  - do 3 f_equal. eapply texts_fun; eassumption.
Qed.

Section Dict.
  Variable s : st.
  Variable rvn : bool.
  Hypothesis K : forall i c, In c (t_children (tget i s)) -> i < c /\ c < hlen s.

  Lemma keeps_root : forall t x, keeps s t x -> t_rt (tget x s) = rname t /\ t_cpt (tget x s) = rtype t /\ t_pt (tget x s) = rparent t /\ text_of (t_val (tget x s)) (rvalue t).
  Proof. intros t x H. destruct H. cbn [rname rtype rparent rvalue]. auto. Qed.

  Lemma keeps_in : forall ts cs c, Forall2 (keeps s) ts cs -> In c cs -> exists t, In t ts /\ keeps s t c.
  Proof. intros ts cs c F. induction F as [|t x ts cs H _ IH]; intros I; [destruct I|]. destruct I as [<-|I]; [exists t; cbn; auto|]. destruct (IH I) as (u & A & B). exists u. cbn. auto. Qed.
  Lemma keeps_in' : forall ts cs t, Forall2 (keeps s) ts cs -> In t ts -> exists c, In c cs /\ keeps s t c.
  Proof. intros ts cs c F. induction F as [|t x ts cs H _ IH]; intros I; [destruct I|]. destruct I as [<-|I]; [exists x; cbn; auto|]. destruct (IH I) as (u & A & B). exists u. cbn. auto. Qed.

  Lemma grp_of_name : forall k ts cs xs, Forall2 (keeps s) ts cs -> Forall (fun t => lower (rname t) = rname t) ts -> grp s k cs xs = of_name k ts xs.
  Proof.
    intros k ts cs xs F. revert xs. induction F as [|t c ts cs H _ IH]; intros [|x xs] L; try reflexivity. inversion L as [|? ? L1 L2]; subst.
    unfold of_name. cbn [grp combine filter fst]. destruct (keeps_root _ _ H) as (-> & _). rewrite L1. destruct (eqs (rname t) k); cbn [map snd]; [f_equal|]; apply IH; exact L2.
  Qed.

  Lemma uniform_kids : forall ts cs, Forall2 (keeps s) ts cs -> Forall (fun t => lower (rname t) = rname t) ts -> one_type ts ->
    forall a b, In a cs -> In b cs -> lower (t_rt (tget a s)) = lower (t_rt (tget b s)) -> t_cpt (tget a s) = t_cpt (tget b s).
  Proof.
    intros ts cs F L U a b A B E. destruct (keeps_in _ _ _ F A) as (ta & Ia & Ka). destruct (keeps_in _ _ _ F B) as (tb & Ib & Kb).
    destruct (keeps_root _ _ Ka) as (Ra & -> & _). destruct (keeps_root _ _ Kb) as (Rb & -> & _). apply U; try assumption.
    rewrite Ra, Rb in E. rewrite <- (proj1 (Forall_forall _ _) L _ Ia), <- (proj1 (Forall_forall _ _) L _ Ib). exact E.
  Qed.

  Lemma built_table : forall ts cs xs d, Forall2 (keeps s) ts cs -> Forall (fun t => lower (rname t) = rname t) ts -> one_type ts -> built s cs xs d -> table ts xs d.
  Proof.
    intros ts cs xs d F L U (Ln & N & _ & G). split; [exact N|]. intros k j. specialize (G k). rewrite (grp_of_name k ts cs xs F L) in G.
    assert (Y : forall t, In t ts -> rname t = k -> of_name k ts xs <> []).
    { intros t T E. rewrite <- (grp_of_name k ts cs xs F L). destruct (keeps_in' _ _ _ F T) as (c & C & Kc). eapply grp_some; [exact Ln|exact C|].
      destruct (keeps_root _ _ Kc) as (-> & _). rewrite (proj1 (Forall_forall _ _) L _ T). exact E. }
    split.
    - intros I. apply (dget_some k j d N) in I. destruct (of_name k ts xs) as [|y g]; [congruence|]. destruct G as (j' & c & A & C & E & S1). assert (j' = j) by congruence. subst j'.
      destruct (keeps_in _ _ _ F C) as (t & T & Kt). destruct (keeps_root _ _ Kt) as (R & P & _). exists t. split; [exact T|]. rewrite R, (proj1 (Forall_forall _ _) L _ T) in E. split; [exact E|]. rewrite <- P. exact S1.
    - intros (t & T & E & S1). pose proof (Y t T E) as Ne. destruct (of_name k ts xs) as [|y g]; [contradiction|]. destruct G as (j' & c & A & C & E' & S2). apply dget_in.
      destruct (keeps_in _ _ _ F C) as (u & Iu & Ku). destruct (keeps_root _ _ Ku) as (R & P & _). rewrite R, (proj1 (Forall_forall _ _) L _ Iu) in E'.
      rewrite P, (U u t Iu T) in S2 by congruence. rewrite (shaped_fun _ _ _ _ S1 S2). exact A.
  Qed.

  Lemma step_total : forall cs xs d c x, built s cs xs d -> no_list x ->
    (forall a, In a cs -> lower (t_rt (tget a s)) = lower (t_rt (tget c s)) -> t_cpt (tget a s) = t_cpt (tget c s)) ->
    lower (t_rt (tget c s)) = t_rt (tget c s) -> (t_cpt (tget c s) = "sconcat" \/ t_cpt (tget c s) = "bconcat" -> exists v t, x = JVal v /\ text_of v t) ->
    exists d', conv_step d (tget c s) x = Ok d'.
  Proof.
    intros cs xs d c x (Ln & N & NL & G) Nx U LN J. specialize (G (lower (t_rt (tget c s)))). unfold conv_step. change (rt_lc (tget c s)) with (lower (t_rt (tget c s))).
    assert (Jo : t_cpt (tget c s) = "sconcat" \/ t_cpt (tget c s) = "bconcat" -> exists t, jor_empty x = JVal (VStr t)).
    { intros H. destruct (J H) as (v & t & -> & T). unfold jor_empty. cbn [jtruthy]. destruct T as [t|]; [|exists ""; reflexivity]. destruct (truthy (VStr t)); eexists; reflexivity. }
    assert (Js : forall p, t_cpt (tget c s) = p -> p = "sconcat" \/ p = "bconcat" -> dget (lower (t_rt (tget c s))) d = None \/ exists t, dget (lower (t_rt (tget c s))) d = Some (JVal (VStr t))).
    { intros p Ep Hp. destruct (grp s _ cs xs) as [|y g]; [left; exact G|]. right. destruct G as (j & a & A & I & E & S1). rewrite A. rewrite (U a I E), Ep in S1.
      destruct Hp; subst p; rewrite H in S1; inversion S1 as [| |? ? F|? ? F|? ? NS|? ? ? ? NS]; subst; try (eexists; reflexivity); exfalso; apply NS; unfold special; auto. }
    destruct (eqs (t_cpt (tget c s)) "scalar"); [eauto|]. destruct (eqs (t_cpt (tget c s)) "sequence"); [eauto|].
    eqs_cases (t_cpt (tget c s)) "sconcat".
    { destruct (Jo (or_introl E)) as (t & ->). destruct (Js _ eq_refl (or_introl E)) as [->|(y & ->)]; cbn [rbind jadd]; eauto. }
    eqs_cases (t_cpt (tget c s)) "bconcat".
    { destruct (Jo (or_intror E0)) as (t & ->). destruct (Js _ eq_refl (or_intror E0)) as [->|(y & ->)]; cbn [rbind jadd]; eauto. }
    rewrite LN. destruct (dget (t_rt (tget c s)) d) as [[| |]|]; eauto.
  Qed.

  Lemma kids_total : forall cv cs pre xs d, built s pre xs d ->
    (forall a b, In a (pre ++ cs) -> In b (pre ++ cs) -> lower (t_rt (tget a s)) = lower (t_rt (tget b s)) -> t_cpt (tget a s) = t_cpt (tget b s)) ->
    (forall c, In c cs -> lower (t_rt (tget c s)) = t_rt (tget c s)) ->
    (forall c, In c cs -> exists x, cv c = Ok x /\ no_list x /\ (t_cpt (tget c s) = "sconcat" \/ t_cpt (tget c s) = "bconcat" -> exists v t, x = JVal v /\ text_of v t)) ->
    exists d', conv_kids cv (s_heap s) cs d = Ok d'.
  Proof.
    intros cv. induction cs as [|c cs IH]; intros pre xs d B U LN C; [exists d; reflexivity|]. cbn [conv_kids]. destruct (C c (or_introl eq_refl)) as (x & Ex & Nx & Jx). rewrite Ex. cbn [rbind]. fold (tget c s).
    assert (U1 : forall a, In a pre -> lower (t_rt (tget a s)) = lower (t_rt (tget c s)) -> t_cpt (tget a s) = t_cpt (tget c s)).
    { intros a A. apply U; apply in_or_app; [left; exact A|right; left; reflexivity]. }
    destruct (step_total _ _ _ c x B Nx U1 (LN c (or_introl eq_refl)) Jx) as (d1 & E1). rewrite E1. cbn [rbind].
    apply (IH (pre ++ [c])%list (xs ++ [x])%list d1).
    - eapply conv_step_built; [exact B|exact Nx|exact U1|apply LN; left; reflexivity|exact E1].
    - rewrite <- app_assoc. exact U.
    - intros c' I. apply LN. right. exact I.
    - intros c' I. apply C. right. exact I.
  Qed.

  Lemma tables : forall f ts cs, Forall2 (keeps s) ts cs -> Forall (fun t => lower (rname t) = rname t) ts -> one_type ts -> (forall t, In t ts -> joins t -> exists e, t = Rose e []) ->
    (forall t c, In t ts -> In c cs -> keeps s t c -> exists j, as_dict f (s_heap s) rvn c = Ok j /\ tree_dict rvn t j) ->
    exists d xs, conv_kids (as_dict f (s_heap s) rvn) (s_heap s) cs [] = Ok d /\ Forall2 (tree_dict rvn) ts xs /\ table ts xs d.
  Proof.
    intros f ts cs F L U J A.
    assert (LN : forall c, In c cs -> lower (t_rt (tget c s)) = t_rt (tget c s)).
    { intros c C. destruct (keeps_in _ _ _ F C) as (t & T & Kt). destruct (keeps_root _ _ Kt) as (-> & _). exact (proj1 (Forall_forall _ _) L _ T). }
    assert (Uc := uniform_kids ts cs F L U).
    destruct (kids_total (as_dict f (s_heap s) rvn) cs [] [] [] (built_nil s) Uc LN) as (d & E).
    { intros c C. destruct (keeps_in _ _ _ F C) as (t & T & Kt). destruct (A t c T C Kt) as (j & Ej & Tj). exists j. split; [exact Ej|]. split; [eapply as_dict_no_list; exact Ej|].
      destruct (keeps_root _ _ Kt) as (_ & -> & _). intros H. destruct (J t T H) as (e & ->). inversion Tj as [? v Tv|? ? ? ? ? Ne]; subst; [eauto|contradiction]. }
    destruct (conv_kids_built s (as_dict f (s_heap s) rvn) cs [] [] [] d (built_nil s)) as (xs & F2 & B); [intros c x _; apply as_dict_no_list|exact Uc|exact LN|exact E|].
    cbn [app] in B. exists d, xs. split; [exact E|]. split; [|eapply built_table; eassumption].
    assert (A' : forall t c x, In t ts -> In c cs -> keeps s t c -> as_dict f (s_heap s) rvn c = Ok x -> tree_dict rvn t x).
    { intros t c x T C Kt Ex. destruct (A t c T C Kt) as (j & Ej & Tj). congruence. }
    clear - F F2 A'. revert xs F2. induction F as [|t c ts cs H _ IH]; intros xs F2; inversion F2; subst; [constructor|]. constructor; [eapply A'; try eassumption; left; reflexivity|].
    apply IH; [|assumption]. intros t' c' x' T C. apply A'; right; assumption.
  Qed.

  Lemma truthy_text : forall v t, text_of v t -> truthy v = negb (eqs t "").
  Proof. intros v t H. destruct H as [t|]; [|reflexivity]. destruct t; reflexivity. Qed.

  Lemma as_dict_tree : forall t x f, keeps s t x -> x < hlen s -> hlen s < x + f -> dictable t -> low t -> exists j, as_dict f (s_heap s) rvn x = Ok j /\ tree_dict rvn t j.
  Proof.
    intros t. induction t as [e ts IH] using rose_ind'. intros x f H Lx Lf D Lo. destruct f as [|f]; [lia|].
    inversion H as [? ? ? Hn Hv Hp Hc Ht Hk]; subst. inversion D as [? ? D1 D2 D3]; subst. destruct (low_tree _ _ Lo) as [L1 L2].
    cbn [as_dict]. fold (tget x s). unfold conv_node. destruct ts as [|t0 ts0] eqn:Ets.
    - inversion Hk as [E0|]. exists (JVal (t_val (tget x s))). split; [reflexivity|constructor; exact Hv].
    - rewrite <- Ets in *. destruct (t_children (tget x s)) as [|c0 cs0] eqn:Ec; [rewrite Ets in Hk; inversion Hk|]. rewrite <- Ec in *.
      destruct (tables f ts (t_children (tget x s)) Hk) as (d & xs & E & Fx & T).
      + apply Forall_forall. intros t I. pose proof (proj1 (Forall_forall _ _) L2 _ I) as Z. destruct t as [et tst]. apply (proj1 (low_tree _ _ Z)).
      + exact D1.
      + exact D2.
      + intros t c It Ic Kt. destruct (K x c Ic) as [B1 B2]. apply (proj1 (Forall_forall _ _) IH _ It); [exact Kt|exact B2|lia|exact (proj1 (Forall_forall _ _) D3 _ It)|exact (proj1 (Forall_forall _ _) L2 _ It)].
      + rewrite E. cbn [rbind]. eexists. split; [reflexivity|]. apply (td_node rvn e ts xs d); [rewrite Ets; discriminate|exact Fx|exact T|].
        intros k. rewrite (truthy_text _ _ Hv), Ht. destruct (eqs (e_value e) "") eqn:Ev; cbn [negb andb]; [reflexivity|].
        assert (Ev' : t_val (tget x s) = VStr (e_value e)). { inversion Hv as [v A B|A B]; [reflexivity|]. rewrite <- B in Ev. discriminate Ev. }
        rewrite Ev'. set (q := if rvn then lower (m_vname (e_meta e)) else "@value"). eqs_cases k q; [subst k; apply dget_dset_same|apply dget_dset_other; assumption].
  Qed.

  Lemma doc_dict_forest : forall ts, Forall2 (keeps s) ts (section_terms s) -> (forall c, In c (section_terms s) -> c < hlen s) -> all_dictable ts -> Forall low ts ->
    exists j, doc_as_dict s rvn = Ok j /\ forest_dict rvn ts j.
  Proof.
    intros ts F B (D1 & D2 & D3) Lo. unfold doc_as_dict. cbv zeta. change (concat (map (fun kv => t_terms (hget (snd kv) (s_heap s))) (d_sections (s_doc s)))) with (section_terms s).
    destruct (section_terms s) as [|c0 cs0] eqn:Ec; [inversion F; subst; eexists; split; [reflexivity|constructor]|]. rewrite <- Ec in *.
    destruct (tables (heap_fuel (s_heap s)) ts (section_terms s) F) as (d & xs & E & Fx & T).
    - apply Forall_forall. intros t I. pose proof (proj1 (Forall_forall _ _) Lo _ I) as Z. destruct t as [et tst]. apply (proj1 (low_tree _ _ Z)).
    - exact D1.
    - exact D2.
    - intros t c It Ic Kt. pose proof (B c Ic). apply as_dict_tree; [exact Kt|assumption|unfold heap_fuel, hlen in *; lia|exact (proj1 (Forall_forall _ _) D3 _ It)|exact (proj1 (Forall_forall _ _) Lo _ It)].
    - rewrite E. cbn [rbind]. eexists. split; [reflexivity|]. apply (fd_some rvn ts xs d); [intros ->; rewrite Ec in F; inversion F|exact Fx|exact T|].
      intros k. eqs_cases k "@value".
      + subst k. destruct rvn; [|apply dget_dset_same].
        destruct (dget "@value" (ddel "@value" (dset "@value" (JVal (VStr "Root")) d))) as [y|] eqn:D; [|reflexivity]. apply dget_ddel in D; [destruct D as (X & _); contradiction|]. apply nodup_dset. apply T.
      + destruct rvn; [rewrite dget_ddel_other by assumption|]; apply dget_dset_other; assumption.
  Qed.
End Dict.

(** ** The dict of a file *)

Lemma keeps_sections : forall s es (hs : list head) (l : list (string * nat)),
  Forall2 (fun kv h => fst kv = h_key h /\ Forall2 (keeps s) (tops (h_key h) es) (t_terms (tget (snd kv) s))) l hs ->
  Forall2 (keeps s) (concat (map (fun h => tops (h_key h) es) hs)) (concat (map (fun kv => t_terms (tget (snd kv) s)) l)).
Proof. intros s es hs l F. induction F as [|kv h l hs [_ H] _ IH]; [constructor|]. cbn [map concat]. apply Forall2_app; assumption. Qed.

Lemma forest_kids : forall s, forest s -> forall i c, i < hlen s -> In c (t_children (tget i s)) -> i < c /\ c < hlen s.
Proof. intros s F i c Hi C. destruct (fr_child _ F i c Hi C) as [A B]. split; [|exact A]. exact (proj1 (fr_par _ F c i A B)). Qed.

Lemma c78_dict : forall g rows ls s rvn, proper g -> means rows ls -> Forall (fun l => ~ own_parent l) ls -> loads g rows s ->
  all_dictable (trees (world_of g) ls) -> exists j, doc_as_dict s rvn = Ok j /\ forest_dict rvn (trees (world_of g) ls) j.
Proof.
  intros g rows ls s rvn Pg M NS L D. pose proof (loads_forest _ _ _ _ Pg M NS L) as Fo.
  pose proof (keeps_sections _ _ _ _ (c77_recorded _ _ _ _ Pg M L)) as F.
  assert (B : forall c, In c (section_terms s) -> c < hlen s).
  { intros c C. unfold section_terms in C. apply in_concat in C. destruct C as (l & I & C). apply in_map_iff in I. destruct I as ([k i] & <- & I). cbn [snd] in C.
    destruct (Nat.lt_ge_cases i (hlen s)) as [Hi|Hi]; [apply (fr_tt _ Fo i c Hi C)|]. rewrite tget_out in C by exact Hi. destruct C. }
  apply doc_dict_forest; [|exact F|exact B|exact D|].
  - intros i c C. destruct (Nat.lt_ge_cases i (hlen s)) as [Hi|Hi]; [apply (forest_kids s Fo); assumption|]. rewrite tget_out in C by exact Hi. destruct C.
  - apply Forall_forall. intros t T. unfold trees in T. apply in_concat in T. destruct T as (l & I & T). apply in_map_iff in I. destruct I as (h & <- & _).
    eapply tops_low; [|exact T]. destruct M as [Rd _]. eapply made_low. exact Rd.
Qed.

(** deciding whether trees are dictable *)
Definition one_typeb (ts : list rose) : bool := forallb (fun a => forallb (fun b => negb (eqs (rname a) (rname b)) || eqs (rtype a) (rtype b)) ts) ts.
Definition joinedb (t : rose) : bool := negb (eqs (rtype t) "sconcat" || eqs (rtype t) "bconcat") || match t with Rose _ ts => match ts with [] => true | _ => false end end.
Fixpoint dictableb (t : rose) : bool := match t with Rose _ ts => one_typeb ts && forallb joinedb ts && forallb dictableb ts end.
Lemma one_typeb_ok : forall ts, one_typeb ts = true -> one_type ts.
Proof.
  intros ts H a b A B E. unfold one_typeb in H. pose proof (proj1 (forallb_forall _ _) H a A) as H1. pose proof (proj1 (forallb_forall _ _) H1 b B) as H2.
  cbv beta in H2. rewrite E, eqs_refl in H2. apply eqs_true. exact H2.
Qed.
Lemma joinedb_ok : forall ts, forallb joinedb ts = true -> forall t, In t ts -> joins t -> exists e, t = Rose e [].
Proof.
  intros ts H t T J. pose proof (proj1 (forallb_forall _ _) H t T) as X. unfold joinedb in X. apply orb_true_iff in X. destruct X as [X|X].
  - apply negb_true_iff, orb_false_iff in X. destruct X as [X1 X2]. apply eqs_false in X1, X2. destruct J; contradiction.
  - destruct t as [e [|u us]]; [eauto|discriminate X].
Qed.
Lemma dictableb_ok : forall t, dictableb t = true -> dictable t.
Proof.
  intros t. induction t as [e ts IH] using rose_ind'. intros H. cbn [dictableb] in H. apply andb_true_iff in H. destruct H as [H H3]. apply andb_true_iff in H. destruct H as [H1 H2].
  constructor; [apply one_typeb_ok; exact H1|apply joinedb_ok; exact H2|]. apply Forall_forall. intros t T. apply (proj1 (Forall_forall _ _) IH t T). exact (proj1 (forallb_forall _ _) H3 t T).
Qed.
Lemma all_dictable_by : forall ts, one_typeb ts && forallb joinedb ts && forallb dictableb ts = true -> all_dictable ts.
Proof.
  intros ts H. apply andb_true_iff in H. destruct H as [H H3]. apply andb_true_iff in H. destruct H as [H1 H2].
  split; [apply one_typeb_ok; exact H1|]. split; [apply joinedb_ok; exact H2|]. apply Forall_forall. intros t T. apply dictableb_ok. exact (proj1 (forallb_forall _ _) H3 t T).
Qed.

(** ** The list of a document *)

Section Listed.
Context {Bk : background}.

Definition is_at (x : spot) : bool := match x with At _ => true | _ => false end.

Lemma oinv_list : forall old w v hs L s, oinv old w v hs L s ->
  d_terms (s_doc s) = (b_tops ++ map snd (filter (fun x => is_at (e_spot (fst x))) L))%list.
Proof.
  intros old w v hs L s [V D Tp At0 _ _ _ _ _]. destruct (vi_tops _ _ _ V) as (new & E & F). rewrite E. f_equal. rewrite Tp in F.
  pose proof (ld_each _ _ D) as Ea. pose proof (ld_uniq _ _ D) as Un. clear - F Ea Un At0.
  revert F. generalize new as ts. clear new. induction L as [|[e j] L IH]; intros ts F.
  - inversion F. reflexivity.
  - inversion Ea as [|? ? E1 E2]; subst. cbn [fst snd] in E1. cbn [map tops_of flat_map fst] in F. fold (tops_of (map fst L)) in F.
    assert (At1 : forall e i k, In (e, i) L -> e_spot e = At k -> e_line e <> None) by (intros e' i' k' I; apply (At0 e' i' k'); right; exact I).
    cbn [filter fst]. destruct (e_spot e) as [k'|l'|] eqn:Es; cbn [is_at].
    + pose proof (At0 e j k' (or_introl eq_refl) Es) as Ne. destruct (e_line e) as [l|] eqn:El; [|congruence]. cbn [app] in F.
      inversion F as [|t ? ts' ? F1 F2]; subst. cbn [map snd]. f_equal; [|apply IH; auto]. cbn [fst] in F1. eapply Un; [exact F1|]. apply (sd_line _ _ _ E1 _ El).
    + apply IH; auto. destruct (e_line e); exact F.
    + apply IH; auto. destruct (e_line e); exact F.
Qed.

Lemma in_file_hungx : forall L, in_file_order (map fst L)
  = flat_map (fun x => match fst (fst x) with At k => [(k, snd (fst x))] | _ => [] end) (hungx L).
Proof. intros L. unfold in_file_order. rewrite <- hungx_fst. induction (hungx L) as [|x l IH]; [reflexivity|]. cbn [map flat_map]. rewrite IH. reflexivity. Qed.

Lemma in_dkeys : forall {A} k (d : dict A), In k (dkeys d) -> exists i, dget k d = Some i.
Proof.
  intros A k d. unfold dkeys. induction d as [|[a b] d IH]; intros H; [destruct H|]. cbn [dget]. destruct (eqs k a) eqn:E; [eexists; reflexivity|].
  destruct H as [H|H]; [apply eqs_false in E; cbn in H; congruence|]. apply IH. exact H.
Qed.

Lemma oinv_listed : forall old w v hs L s, oinv old w v hs L s -> exists new, d_terms (s_doc s) = (b_tops ++ new)%list
  /\ Forall2 (fun kt x => keeps s (snd kt) x /\ exists i, dget (fst kt) (d_sections (s_doc s)) = Some i /\ In x (t_terms (tget i s))) (in_file_order (map fst L)) new.
Proof.
  intros old w v hs L s O. pose proof (oi_view _ _ _ _ _ _ O) as V. pose proof (vi_pinv _ _ _ V) as P. pose proof (oi_laid _ _ _ _ _ _ O) as D.
  eexists. split; [exact (oinv_list _ _ _ _ _ _ O)|]. rewrite <- (hungx_to is_at L) by (intros l X; discriminate X). rewrite in_file_hungx.
  assert (Each : forall y k, In y (hungx L) -> fst (fst y) = At k -> keeps s (snd (fst y)) (snd y) /\ exists i, dget k (d_sections (s_doc s)) = Some i /\ In (snd y) (t_terms (tget i s))).
  { intros y k Hy Ey. destruct (hungx_from _ _ Hy) as (e & Ie & Ee). rewrite Ey in Ee.
    pose proof (proj1 (Forall_forall _ _) (ld_each _ _ D) (e, snd y) Ie) as Se. cbn [fst snd] in Se. split.
    - apply (laid_shows s L D [] L eq_refl y "root"); [exact Hy|intros X; congruence|]. eapply parent_named_top; [exact Se|exact Ee|apply (pi_rootn _ P)].
    - assert (Ik : exists i, dget k (d_sections (s_doc s)) = Some i).
      { apply in_dkeys. rewrite (vi_keys _ _ _ V). pose proof (oi_at _ _ _ _ _ _ O e (snd y) k Ie Ee) as Ne. destruct (e_line e) as [l|] eqn:El; [|congruence].
        apply (vi_topsec _ _ _ V (l, k)). rewrite (oi_tops _ _ _ _ _ _ O). unfold tops_of. apply in_flat_map. exists e. split; [apply in_map_iff; exists (e, snd y); auto|]. rewrite El, Ee. left. reflexivity. }
      destruct Ik as (i & Ik). exists i. split; [exact Ik|]. rewrite (oinv_terms _ _ _ _ _ _ _ _ O Ik). apply in_or_app. right. apply in_map_iff. exists (e, snd y). split; [reflexivity|].
      apply filter_In. split; [exact Ie|]. cbn [fst]. rewrite Ee. cbn [at_top]. apply eqs_refl. }
  clear - Each. induction (hungx L) as [|y Y IH]; [constructor|]. cbn [flat_map filter].
  assert (IH' := IH (fun z k I => Each z k (or_intror I))). destruct (fst (fst y)) as [k|k|] eqn:Ey; cbn [is_at app map]; [|exact IH'|exact IH'].
  constructor; [|exact IH']. cbn [fst snd]. apply Each; [left; reflexivity|exact Ey].
Qed.
End Listed.

Lemma file_listed : forall g rows ls s, proper g -> means rows ls -> loads g rows s ->
  Forall2 (fun kt x => keeps s (snd kt) x /\ exists i, dget (fst kt) (d_sections (s_doc s)) = Some i /\ In x (t_terms (tget i s)))
    (in_file_order (made (world_of g) first_view first_heads ls)) (d_terms (s_doc s)).
Proof.
  intros g rows ls s [GR ND] [Rd U] L. destruct (parse_rows_eff _ _ _ _ _ _ _ _ _ _ _ GR ND Rd U L) as (s1 & RE & F & _).
  destruct (oinv_rows _ _ None rows ls first_view first_heads [] _ s1 ltac:(discriminate) (oinv_start _ (in_terms g) _ (in_super g) GR ND) Rd U (greets_each _) (or_introl (fun _ => eq_refl)) RE) as (N & E & O).
  cbn [app] in O. destruct (oinv_listed _ _ _ _ _ _ O) as (new & T & W). rewrite E in W. cbn [b_tops no_background app] in T. rewrite (fi_terms _ _ F), T, (fi_sections _ _ F). unfold world_of, cols_of.
  assert (Eh : forall i, tget i s = tget i s1) by (intros i; unfold tget; rewrite (fi_heap _ _ F); reflexivity).
  eapply Forall2_imp; [|exact W]. intros kt x (A & i & B & C). split; [eapply keeps_same; [apply F|exact A]|]. exists i. rewrite Eh. auto.
Qed.

(** ** Searches *)

Lemma dot_app_inj : forall a b a' b', dot_free a -> dot_free a' -> (a ++ "." ++ b)%string = (a' ++ "." ++ b')%string -> a = a' /\ b = b'.
Proof.
  induction a as [|x a IH]; intros b [|y a'] b' D D' E; cbn in E.
  - injection E as ->. auto.
  - injection E as <- _. destruct D'. left. reflexivity.
  - injection E as -> _. destruct D. left. reflexivity.
  - injection E as <- E. destruct (IH b a' b') as [-> ->]; [intros H; apply D; right; exact H|intros H; apply D'; right; exact H|exact E|auto].
Qed.
Lemma dotted_not : forall a b, ~ dot_free (a ++ "." ++ b).
Proof. intros a b D. apply dot_free_app in D. destruct D as [_ D]. apply dot_free_app in D. destruct D as [D _]. apply D. left. reflexivity. Qed.

Lemma chosen_along : forall {A B} (R : A -> B -> Prop) (P : A -> Prop) (f : B -> bool) l m, Forall2 R l m -> (forall a b, In a l -> In b m -> R a b -> (f b = true <-> P a)) ->
  exists ks, chosen P l ks /\ Forall2 R ks (filter f m).
Proof.
  intros A B R P f l m F. induction F as [|a b l m H _ IH]; intros E; [exists []; split; constructor|].
  destruct IH as (ks & C & W); [intros x y X Y; apply E; right; assumption|]. pose proof (E a b (or_introl eq_refl) (or_introl eq_refl) H) as X. cbn [filter]. destruct (f b).
  - exists (a :: ks). split; [apply ch_take; [apply X; reflexivity|exact C]|constructor; assumption].
  - exists ks. split; [apply ch_skip; [intros Y; apply X in Y; discriminate Y|exact C]|exact W].
Qed.

Lemma value_text : forall v x t, askable v -> text_of x t -> (value_is v x <-> looked_for v t).
Proof.
  intros v x t [->|(y & -> & Ny)] T; [split; [intros _; constructor|intros _; left; reflexivity]|]. split.
  - intros [H|[H|[H _]]]; [discriminate H| |discriminate H]. subst x. inversion T; subst. constructor. exact Ny.
  - intros H. inversion H; subst. right. left. inversion T; subst; [reflexivity|contradiction].
Qed.

Lemma made_top_name : forall rows ls, means rows ls -> forall w v hs e k, In e (made w v hs ls) -> e_spot e = At k -> e_name e <> "root".
Proof.
  intros rows ls [R U]. induction R as [|row l rows ls R1 _ IH]; intros w v hs e k H E; [destruct H|]. inversion U as [|? ? U1 U2]; subst. cbn [made] in H. apply in_app_iff in H. destruct H as [H|H]; [|eapply IH; eassumption].
  destruct l as [| | |p r x cells]; try contradiction. cbn [line_entries] in H. destruct H as [<-|H]; [cbn [e_name]; apply U1|].
  apply in_map_iff in H. destruct H as (nc & <- & _). cbn [e_spot] in E. unfold cell_spot in E. destruct (eqs p current_parent); [|discriminate E]. destruct (spot_in v (v_parent v)); discriminate E.
Qed.
Lemma hung_spot : forall es x, In x (hung es) -> exists e ts, snd x = Rose e ts /\ In e es /\ e_spot e = fst x.
Proof.
  induction es as [|e es IH]; intros x H; [destruct H|]. cbn [hung fold_right] in H. fold (hung es) in H. unfold hang in H. destruct H as [<-|H].
  - exists e. eexists. split; [reflexivity|]. split; [left; reflexivity|reflexivity].
  - apply filter_In in H. destruct H as [H _]. destruct (IH x H) as (e' & ts & A & B & C). exists e', ts. split; [exact A|]. split; [right; exact B|exact C].
Qed.
Lemma in_file_name : forall rows ls w v hs kt, means rows ls -> In kt (in_file_order (made w v hs ls)) -> rname (snd kt) <> "root" /\ low (snd kt).
Proof.
  intros rows ls w v hs kt M H. unfold in_file_order in H. apply in_flat_map in H. destruct H as (x & X & H). destruct (fst x) as [k|k|] eqn:E; try contradiction. destruct H as [<-|[]]. cbn [snd].
  split; [|eapply hung_low; [|exact X]; destruct M as [Rd _]; eapply made_low; exact Rd].
  destruct (hung_spot _ _ X) as (e & ts & A & B & C). rewrite A. cbn [rname]. eapply made_top_name; [exact M|exact B|]. rewrite C. exact E.
Qed.

Lemma low_name : forall t, low t -> lower (rname t) = rname t.
Proof. intros [e ts] H. exact (proj1 (low_tree _ _ H)). Qed.

(** ** The declarations of a file *)

Lemma row_eff_terms : forall ftype line row s s', row_eff ftype line row s s' ->
  p_dterms (s_prs s') = p_dterms (s_prs s) /\ d_decl_terms (s_doc s') = d_decl_terms (s_doc s) /\ d_super (s_doc s') = d_super (s_doc s).
Proof.
  intros ftype line row s s' H. destruct H as [H1 ->|H1 H2 H3 ->|c H1 H2 H3 H4 ->|p r c q s1 H1 H2 H3 H4 H5 H6 H7].
  - auto.
  - unfold section_effect. set (s1 := push _ s). assert (E : forall i, p_dterms (s_prs (enter_section i s1)) = p_dterms (s_prs s)).
    { intros i. unfold enter_section. destruct (i =? _); reflexivity. }
    destruct (dget _ _); [|rewrite doc_dmod, prs_dmod]; rewrite enter_doc, E; repeat split; reflexivity.
  - auto.
  - assert (N : forall a r q b, new_term a r q b -> p_dterms (s_prs b) = p_dterms (s_prs a) /\ d_decl_terms (s_doc b) = d_decl_terms (s_doc a) /\ d_super (s_doc b) = d_super (s_doc a)).
    { intros a r0 q0 b N. rewrite (nt_doc _ _ _ _ N), (nt_prs _ _ _ _ N). destruct (eqs _ _), (EmitFacts.registers _); repeat split; reflexivity. }
    assert (K : forall line ftype t n col args a b, kids line ftype t n col args a b ->
       p_dterms (s_prs b) = p_dterms (s_prs a) /\ d_decl_terms (s_doc b) = d_decl_terms (s_doc a) /\ d_super (s_doc b) = d_super (s_doc a)).
    { intros ? ? ? ? ? ? a b K. induction K as [| |? ? ? a a1 a' ? ? ? F N0 K IH]; auto. apply N in N0. destruct IH as (? & ? & ?), N0 as (? & ? & ?). repeat split; congruence. }
    apply K in H7. apply N in H6. destruct H6 as (? & ? & ?), H7 as (? & ? & ?). repeat split; congruence.
Qed.
Lemma rows_eff_terms : forall ftype n rows s s', rows_eff ftype n rows s s' ->
  p_dterms (s_prs s') = p_dterms (s_prs s) /\ d_decl_terms (s_doc s') = d_decl_terms (s_doc s) /\ d_super (s_doc s') = d_super (s_doc s).
Proof.
  intros ftype n rows s s' H. induction H as [|n row rows s s1 s' H1 H2 H3 IH]; auto. apply row_eff_terms in H1. destruct H1 as (? & ? & ?), IH as (? & ? & ?). repeat split; congruence.
Qed.

Lemma file_terms : forall g rows ls s, proper g -> means rows ls -> loads g rows s -> d_decl_terms (s_doc s) = dupdate (in_terms g) installed_terms
  /\ forall q, (forall k, ~ In (k, q) (in_super g)) -> dget q (d_derived (s_doc s)) = None.
Proof.
  intros g rows ls s [GR ND] [Rd U] L. unfold loads, load_into, load_source in L.
  rb L as s1 u H1. unfold start_parser in H1. apply modify_ok in H1. subst s1. fold (started (new_doc (in_reg g) (in_terms g) (in_secs g) (in_super g))) in L. rg L.
  rb L as s2 u2 H2. assert (s2 = started (new_doc (in_reg g) (in_terms g) (in_secs g) (in_super g))) as -> by (vm_compute in H2; injection H2 as <- _; reflexivity).
  rb L as s1 u3 H3. destruct u3. pose proof (first_vinv (in_reg g) (in_terms g) (in_secs g) (in_super g) GR ND) as V0.
  assert (RE : rows_eff None 1 rows (started (new_doc (in_reg g) (in_terms g) (in_secs g) (in_super g))) s1).
  { destruct (in_fuel g) as [|f]; [discriminate H3|]. cbn [generate_terms] in H3. rg H3. cbn [src_rows] in H3.
    eapply rows_loop_eff; [|apply V0|eapply reads_ordinary; eassumption|apply welcome_each|exact H3]. discriminate. }
  destruct (rows_eff_terms _ _ _ _ _ RE) as (A & B & C). unfold finish_load, getP, bind, gets in L. rewrite !modD_run in L. injection L as <-.
  split; [cbn; rewrite A, B; reflexivity|]. intros q N. set (s2 := dmod _ s1). cbn [dmod s_doc set_s_doc set_d_derived d_derived set_d_super d_super].
  pose proof (derived_spec (dupdate (d_super (s_doc s2)) (super_terms s2)) q) as X. destruct (dget q _) as [ds|]; [|reflexivity]. exfalso. destruct X as [Ne X].
  assert (Es : d_super (s_doc s2) = in_super g) by exact C. assert (Ep : p_dterms (s_prs s2) = installed_terms) by exact A.
  destruct ds as [|y ds]; [contradiction|]. pose proof (proj1 (X y) (or_introl eq_refl)) as I. rewrite Es in I. unfold super_terms in I. rewrite Es, Ep in I. destruct (in_super g) as [|z l]; [exact I|].
  apply in_dupdate in I. destruct I as [I|I]; exact (N y I).
Qed.

Lemma c78_find : forall g rows ls s p v sa, orderly_file g rows ls -> loads g rows s -> tidy_pattern p -> top_pattern p -> askable v ->
  (forall k, ~ In (k, lower p) (in_super g)) ->
  exists r ks, doc_find s p v sa = Ok r /\ chosen (sought p v sa) (in_file_order (made (world_of g) first_view first_heads ls)) ks
    /\ Forall2 (fun kt x => keeps s (snd kt) x) ks r.
Proof.
  intros g rows ls s p v sa O L Tp Top Av De. pose proof (orderly_proper _ _ _ O) as Pg. pose proof (of_means _ _ _ O) as M. pose proof (loads_in_order _ _ _ _ O L) as I. pose proof (io_ok _ I) as K.
  apply (proj2 (file_terms _ _ _ _ Pg M L)) in De. destruct (c27_find s p v sa I Tp De) as (l & r & Er & C & (f & Hf & ->) & _).
  assert (El : l = listed s).
  { destruct C as [_|l (a & b & Ep & Da & Na) _]; [reflexivity|]. exfalso. destruct Top as [D|(a' & b' & Ep' & Da' & Na')].
    - rewrite Ep in D. exact (dotted_not _ _ D).
    - rewrite Ep in Ep'. apply dot_app_inj in Ep'; [|assumption|assumption]. destruct Ep' as [<- _]. contradiction. }
  subst l. pose proof (file_listed _ _ _ _ Pg M L) as F. change (d_terms (s_doc s)) with (listed s) in F.
  destruct (chosen_along _ (sought p v sa) f _ _ F) as (ks & Ck & Fk).
  - intros [k t] x Ik Ix (Kt & i & Di & Ti). cbn [fst snd] in *. rewrite (Hf x Ix). unfold found, sought. cbn [fst snd]. destruct (keeps_root _ _ _ Kt) as (-> & _ & -> & Vx).
    destruct (in_file_name _ _ _ _ _ _ M Ik) as [Nr Lo]. cbn [snd] in *. apply low_name in Lo.
    apply dget_in in Di. destruct (ok_in _ K _ _ _ Di Ti) as [_ Sx]. destruct (ok_section _ K _ _ Di) as (_ & _ & _ & n & Vi & Ln).
    assert (Sec : forall m, lies_in s x m <-> lower m = k).
    { intros m. unfold lies_in. rewrite Sx. split; [intros (j & n' & A & B & C0); injection A as <-; congruence|intros <-; exists i, n; auto]. }
    rewrite (value_text v _ _ Av Vx). split.
    + intros (A & _ & B & D). split; [exact A|]. split; [|exact D]. destruct sa as [|m|ms]; cbn in *; [exact Logic.I|apply Sec; exact B|]. destruct B as (m & Im & B). exists m. split; [exact Im|apply Sec; exact B].
    + intros (A & B & D). split; [exact A|]. split; [rewrite Lo; intros [_ X]; contradiction|]. split; [|exact D]. destruct sa as [|m|ms]; cbn in *; [exact Logic.I|apply Sec; exact B|]. destruct B as (m & Im & B). exists m. split; [exact Im|apply Sec; exact B].
  - exists (filter f (listed s)), ks. split; [exact Er|]. split; [exact Ck|]. eapply Forall2_imp; [|exact Fk]. intros kt x [A _]. exact A.
Qed.

Scheme walk_ind2 := Minimality for walk Sort Prop with walks_ind2 := Minimality for walks Sort Prop.

Lemma keeps_walk : forall s t x l, keeps s t x -> walk (kids_of s) x l -> Forall2 (keeps s) (nodes t) l.
Proof.
  intros s t. induction t as [e ts IH] using rose_ind'. intros x l H W. pose proof H as H0. inversion H as [? ? ? Hn Hv Hp Hc Ht Hk]; subst. inversion W as [? l' W']; subst. cbn [nodes]. constructor; [exact H0|].
  unfold kids_of at 2 in W'. clear - IH Hk W'. revert l' W'. induction Hk as [|t c ts cs H1 _ IHk]; intros l W; inversion W; subst; cbn [flat_map]; [constructor|].
  inversion IH as [|? ? I1 I2]; subst. apply Forall2_app; [eapply I1; eassumption|apply IHk; assumption].
Qed.
Lemma keeps_walks : forall s ts cs l, Forall2 (keeps s) ts cs -> walks (kids_of s) cs l -> Forall2 (keeps s) (flat_map nodes ts) l.
Proof.
  intros s ts cs l F. revert l. induction F as [|t c ts cs H1 _ IH]; intros l W; inversion W; subst; cbn [flat_map]; [constructor|]. apply Forall2_app; [eapply keeps_walk; eassumption|apply IH; assumption].
Qed.

Lemma c78_find_below : forall g rows ls s a b v, orderly_file g rows ls -> loads g rows s -> tidy_pattern (a ++ "." ++ b) -> dot_free a -> a <> "*" -> lower a <> "root" -> askable v ->
  (forall k, ~ In (k, lower (a ++ "." ++ b)) (in_super g)) ->
  exists r ks, doc_find s (a ++ "." ++ b) v SAny = Ok r /\ chosen (sought_below (a ++ "." ++ b) v) (flat_map nodes (trees (world_of g) ls)) ks /\ Forall2 (keeps s) ks r.
Proof.
  intros g rows ls s a b v O L Tp Da Ns Nr Av De. pose proof (orderly_proper _ _ _ O) as Pg. pose proof (of_means _ _ _ O) as M. pose proof (loads_in_order _ _ _ _ O L) as I.
  apply (proj2 (file_terms _ _ _ _ Pg M L)) in De. destruct (c27_find s _ v SAny I Tp De) as (l & r & Er & C & (f & Hf & ->) & _).
  assert (W : doc_walk s l).
  { destruct C as [[D|(a' & b' & Ep & Da' & Na')]|l _ W]; [| |exact W]; exfalso.
    - exact (dotted_not _ _ D).
    - apply dot_app_inj in Ep; [|assumption|assumption]. destruct Ep as [<- _]. contradiction. }
  assert (Den : forall q n, denotes (a ++ "." ++ b) q n -> lower q = lower a).
  { intros q n D. destruct D as [D|a' b' Ep Da' Db' Sa _]; [destruct (dotted_not _ _ D)|].
    apply dot_app_inj in Ep; [|assumption|assumption]. destruct Ep as [<- _]. destruct Sa as [Sa|Sa]; [contradiction|congruence]. }
  destruct W as (wl & Fw & El).
  assert (X : exists l0, Forall2 (keeps s) (flat_map nodes (trees (world_of g) ls)) l0 /\ filter f l = filter f l0 /\ forall x, In x l0 -> In x l).
  { pose proof (c77_recorded _ _ _ _ Pg M L) as Rc. unfold trees. revert Rc. generalize (heads (world_of g) first_view first_heads ls) as hs. generalize (made (world_of g) first_view first_heads ls) as es. intros es hs Rc.
    assert (Hf' : forall k i, In (k, i) (secs s) -> In i l -> f i = false).
    { intros k i Ik Il. destruct (f i) eqn:Ef; [|reflexivity]. exfalso. apply (Hf i Il) in Ef. destruct Ef as (D & _). apply Den in D. destruct (nm_sections _ (io_names _ I) _ _ Ik) as (Pt & _). rewrite Pt in D. apply Nr. rewrite <- D. reflexivity. }
    rewrite El in *. clear - Rc Fw Hf'. change (d_sections (s_doc s)) with (secs s) in Rc. revert hs Rc wl Fw Hf'. generalize (fun k i (H : In (k, i) (secs s)) => H).
    generalize (secs s) at 1 3 4 as ss. intros ss. induction ss as [|kv ss IH]; intros Sub hs Rc wl Fw Hf'; inversion Rc as [|? h ? hs' [_ R1] R2]; subst; inversion Fw as [|? w1 ? wl' W1 W2]; subst.
    { exists []. split; [constructor|]. split; [reflexivity|intros x []]. }
    destruct (IH (fun k i H => Sub k i (or_intror H)) hs' R2 wl' W2) as (l0 & F0 & E0 & I0).
    { intros k i Ik Il. apply (Hf' k i Ik). cbn [concat]. apply in_or_app. right. exact Il. }
    destruct W1 as (l1 & Ww & Wl). exists (l1 ++ l0)%list. cbn [map concat flat_map]. rewrite flat_map_app. split; [apply Forall2_app; [eapply keeps_walks; eassumption|exact F0]|].
    rewrite !filter_app, E0. destruct Wl as [[_ ->]|[_ ->]].
    - split; [reflexivity|]. intros x H. apply in_app_iff in H. apply in_or_app. destruct H; [left|right; apply I0]; assumption.
    - split.
      + cbn [filter]. rewrite (Hf' (fst kv) (snd kv)); [reflexivity| |left; reflexivity]. apply (Sub (fst kv) (snd kv)). left. destruct kv; reflexivity.
      + intros x H. apply in_app_iff in H. apply in_or_app. destruct H; [left; right|right; apply I0]; assumption. }
  destruct X as (l0 & F0 & E0 & I0). destruct (chosen_along _ (sought_below (a ++ "." ++ b) v) f _ _ F0) as (ks & Ck & Fk).
  - intros t x It Ix Kt. rewrite (Hf x (I0 x Ix)). unfold found, sought_below. destruct (keeps_root _ _ _ Kt) as (-> & _ & -> & Vx). rewrite (value_text v _ _ Av Vx). split.
    + intros (A & _ & _ & D). auto.
    + intros (A & D). split; [exact A|]. split; [intros [Y _]; apply Den in A; congruence|]. split; [exact Logic.I|exact D].
  - exists (filter f l), ks. split; [exact Er|]. split; [exact Ck|]. rewrite E0. exact Fk.
Qed.

(** ** The text of a file *)

Section Rows.
  Variable s : st.
  Variable dt : dict tdecl.
  Hypothesis VN : forall q, value_name (s_doc s) q = value_name_in dt q.
  Hypothesis K : forall i c, In c (t_children (tget i s)) -> i < c /\ c < hlen s.

  Lemma shows_rows : forall cols t above p x f, writable dt cols above p t -> shows s p t x -> x < hlen s -> hlen s < x + f -> lower p = p ->
    exists l, term_rows f (s_heap s) (s_doc s) x = Ok l.
  Proof.
    intros cols t. induction t as [n v kids IH] using tree_ind'. intros above p x f W H Hx Hf Lp.
    pose proof (writable_inv _ _ _ _ _ _ _ W) as (C & Na & Tv & Vn1 & Vn2 & ND & Vc & Df & Wk).
    inversion H as [? ? ? ? i Hn Hv Hp Si Di Kk]; subst. destruct f as [|f]; [lia|]. cbn [term_rows]. fold (tget x s). rewrite Si. fold (tget i s). rewrite Di. cbn [negb].
    assert (Q : qualified_term (s_heap s) (tget x s) = Ok (p ++ "." ++ t_rt (tget x s))%string).
    { unfold qualified_term, parent_named in *. pose proof (cn_lower _ C) as Ln. destruct (t_parent (tget x s)) as [q|].
      - fold (tget q s). unfold rt_lc. rewrite Hp, Lp, Ln. reflexivity.
      - destruct Hp as [Hp ->]. unfold pt_lc, rt_lc. rewrite Hp, Ln. reflexivity. }
    rewrite Q. cbn [rbind]. rewrite VN. apply eqs_false in Vn1. rewrite Vn1.
    destruct (@rmap_ok _ _ (term_rows f (s_heap s) (s_doc s)) (filter (fun c => negb (is_terminal (hget c (s_heap s)))) (t_children (tget x s)))) as (m & Em); [|rewrite Em; eexists; reflexivity].
    intros c I. apply filter_In in I. destruct I as [I _]. destruct (K x c I) as [B1 B2]. clear H. pose proof (cn_lower _ C) as Ln.
    assert (X : exists k, In k kids /\ shows s (t_rt (tget x s)) k c).
    { clear - Kk I. induction Kk as [|k y ks ys K1 K2 IHk]; [destruct I|]. destruct I as [->|I]; [exists k; cbn; auto|]. destruct (IHk I) as (k' & A & B). exists k'. cbn. auto. }
    destruct X as (k & Ik & Sk). eapply (proj1 (Forall_forall _ _) IH k Ik); [exact (proj1 (Forall_forall _ _) Wk _ Ik)|exact Sk|exact B2|lia|exact Ln].
  Qed.

  Lemma shows_doc_rows : forall decl o, writable_doc dt decl o -> shows_doc s o -> (forall k i c, In (k, i) (d_sections (s_doc s)) -> In c (t_terms (tget i s)) -> c < hlen s) ->
    exists rows, doc_rows s = Ok rows.
  Proof.
    intros decl o W H Bd. apply writable_all in W. unfold shows_doc in H. unfold doc_rows. edestruct (@rmap_ok (string * nat) (list (list val))) as (m & E); [|rewrite E; eexists; reflexivity].
    intros kv I. cut (exists rows, section_rows (s_heap s) (s_doc s) (snd kv) = Ok rows).
    { intros (rows & E). rewrite E. eexists. reflexivity. }
    assert (B0 : forall c, In c (t_terms (tget (snd kv) s)) -> c < hlen s) by (intros c; apply (Bd (fst kv)); destruct kv; exact I). clear Bd.
    revert W. induction H as [|kv' c kvs cs (A1 & A2 & A3 & A5) _ IH]; intros W; [destruct I|]. apply Forall_cons_iff in W. destruct W as [W1 W2]. destruct I as [->|I]; [|apply IH; assumption].
    unfold section_rows. fold (tget (snd kv) s). edestruct (@rmap_ok nat (list (string * dict val))) as (m & E); [|rewrite E; eexists; reflexivity].
    intros x I. clear - A5 W1 I VN K B0. revert W1 B0. induction A5 as [|t y ts ys B _ IH]; intros W1 B0; [destruct I|]. apply Forall_cons_iff in W1. destruct W1 as [[W1 _] W2]. destruct I as [->|I]; [|apply IH; [assumption|assumption|intros z C; apply B0; right; exact C]].
    eapply shows_rows; [exact W1|exact B|apply B0; left; reflexivity| |reflexivity]. unfold heap_fuel, hlen. lia.
  Qed.
End Rows.

Lemma c78_csv : forall g rows ls s, proper g -> plain_classes g -> means rows ls -> Forall (fun l => ~ own_parent l) ls -> loads g rows s ->
  writable_doc (dupdate (in_terms g) installed_terms) (declared_columns (in_secs g)) (outline (world_of g) ls) ->
  exists text s', doc_as_csv s = Ok text /\ loads g (csv_read text) s' /\ shows_doc s' (map arrange_sect (outline (world_of g) ls)) /\ doc_as_csv s' = Ok text.
Proof.
  intros g rows ls s Pg PC M NS L W. destruct (file_terms _ _ _ _ Pg M L) as [D _]. pose proof (c77_outline _ _ _ _ Pg M L) as Sh. pose proof (loads_forest _ _ _ _ Pg M NS L) as Fo.
  destruct (shows_doc_rows s (dupdate (in_terms g) installed_terms)) with (decl := declared_columns (in_secs g)) (o := outline (world_of g) ls) as (rs & R); try assumption.
  - intros q. rewrite value_name_same, D. reflexivity.
  - intros i c C. destruct (Nat.lt_ge_cases i (hlen s)) as [Hi|Hi]; [apply (forest_kids s Fo); assumption|]. rewrite tget_out in C by exact Hi. destruct C.
  - intros k i c _ C. destruct (Nat.lt_ge_cases i (hlen s)) as [Hi|Hi]; [apply (fr_tt _ Fo i c Hi C)|]. rewrite tget_out in C by exact Hi. destruct C.
  - assert (E : doc_as_csv s = Ok (csv_write (map (map cell_text) rs))) by (unfold doc_as_csv; rewrite R; reflexivity).
    assert (Fu : in_fuel g <> 0).
    { intros Z. unfold loads, load_into, load_source in L. rewrite Z in L. rb L as s1 u H1. rg L. rb L as s2 u2 H2. rb L as s3 u3 H3. discriminate H3. }
    destruct (c35_csv g s (outline (world_of g) ls) _ Pg PC Fu Sh ltac:(rewrite D; exact W) E) as (s' & L' & S' & A). eexists _, s'. split; [exact E|]. split; [exact L'|]. split; [exact S'|]. apply A. intros q. rewrite D. reflexivity.
Qed.

(** ** Rows after the first rows *)

Lemma c78_term : forall (Q : Quirks) g head rows od s0 ls s rvn, loads_after g head rows od s0 ls s -> ready s0 ->
  Forall (fun l => ~ own_parent l) ls -> Forall dotless_columns ls -> among_themselves (cols_in s0) (view_past head s0 []) ls ->
  Forall2 (fun kv h => exists new, t_terms (tget (snd kv) s) = (terms_of s0 (h_key h) ++ new)%list
        /\ Forall2 (fun t x => dictable t -> exists j, as_dict (heap_fuel (s_heap s)) (s_heap s) rvn x = Ok j /\ tree_dict rvn t j)
             (tops (h_key h) (made (world_in s0) (view_past head s0 []) (heads_of s0) ls)) new)
    (d_sections (s_doc s)) (heads (world_in s0) (view_past head s0 []) (heads_of s0) ls).
Proof.
  intros Q g head rows od s0 ls s rvn LA RD NS Co Am. pose proof (after_order _ _ _ _ _ _ _ LA RD NS Co) as IO. pose proof (io_ok _ IO) as OK.
  destruct (c77_added _ _ _ _ _ _ _ LA Am) as [F _].
  assert (Lw : Forall (fun e => lower (e_name e) = e_name e) (made (world_in s0) (view_past head s0 []) (heads_of s0) ls)).
  { destruct LA as [_ _ _ [Rd _] _]. eapply made_low. exact Rd. }
  assert (B : forall k i c, In (k, i) (d_sections (s_doc s)) -> In c (t_terms (tget i s)) -> c < hlen s).
  { intros k i c I C. destruct (ok_in s OK k i c I C) as (A & _). destruct (ok_listed s OK c A) as ((X & _) & _). exact X. }
  revert F B. generalize (d_sections (s_doc s)) as ss. generalize (heads (world_in s0) (view_past head s0 []) (heads_of s0) ls) as hs. intros hs ss F B.
  induction F as [|[k i] h ss hs (_ & _ & _ & new & T & _ & Kn) _ IH]; [constructor|]. constructor; [|apply IH; intros k' i' c I; apply (B k' i' c); right; exact I].
  cbn [snd] in *. exists new. split; [exact T|]. assert (Bn : forall c, In c new -> c < hlen s).
  { intros c C. apply (B k i c); [left; reflexivity|]. rewrite T. apply in_or_app. right. exact C. }
  assert (Lt : forall t, In t (tops (h_key h) (made (world_in s0) (view_past head s0 []) (heads_of s0) ls)) -> low t) by (intros t; apply tops_low; exact Lw).
  clear - Kn Bn Lt OK. induction Kn as [|t x ts xs H _ IH]; [constructor|]. constructor.
  - intros D. apply as_dict_tree; [apply kid_bounds; exact OK|exact H|apply Bn; left; reflexivity|unfold heap_fuel, hlen; lia|exact D|apply Lt; left; reflexivity].
  - apply IH; intros; [apply Bn|apply Lt]; right; assumption.
Qed.
