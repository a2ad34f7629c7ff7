(** * HeadFacts: the rows after the first rows of a file *)

From Coq Require Import Sorted.
From Verif Require Import ListFacts StrFacts SpecNames NameFacts HeapFacts ConstructFacts Parser RunFacts EmitFacts TreeFacts DigitFacts RowFacts ParseFacts DocFacts ForestFacts ParseProps TotalFacts SpecDoc SpecInclude IncludeFacts IncFacts SpecHead.

(** ** Views that start with a past *)

Lemma fold_snoc : forall decl v ls l, fold_left (next decl) (ls ++ [l]) v = next decl (fold_left (next decl) ls v) l.
Proof. intros. rewrite fold_left_app. reflexivity. Qed.

Lemma fold_cur : forall decl v ls, v_cur (fold_left (next decl) ls v) = last (headings ls) (v_cur v).
Proof.
  intros decl v ls. induction ls as [|l ls IH] using rev_ind; [reflexivity|]. rewrite fold_snoc, headings_snoc.
  destruct l as [|n cells|n cells|p r x cells]; cbn [next v_cur heading_name]; rewrite ?app_nil_r; try exact IH.
  - rewrite last_last. eqs_cases (lower (strip n)) "root"; [symmetry; exact E|reflexivity].
  - destruct (eqs p current_parent); exact IH.
Qed.

(** a root-level line, before which the current parent is [lp] *)
Definition top_line (lp : string) (x : line) : Prop :=
  exists p r v cells, x = LTerm p r v cells /\ (p = "root" \/ p = current_parent /\ lp = "root").

Lemma snoc_split : forall {A} (ls : list A) y (P : list A -> A -> Prop),
  (exists pre x post, (ls ++ [y])%list = (pre ++ x :: post)%list /\ P pre x)
  <-> (exists pre x post, ls = (pre ++ x :: post)%list /\ P pre x) \/ P ls y.
Proof.
  intros A ls y P. split.
  - intros (pre & x & post & E & H). destruct post as [|z post _] using rev_ind.
    + apply app_inj_tail in E. destruct E as [-> ->]. right. exact H.
    + rewrite app_comm_cons, app_assoc in E. apply app_inj_tail in E. destruct E as [-> ->]. left. exists pre, x, post. auto.
  - intros [(pre & x & post & E & H)|H].
    + exists pre, x, (post ++ [y])%list. rewrite E, <- app_assoc. split; [reflexivity|exact H].
    + exists ls, y, []. split; [reflexivity|exact H].
Qed.

Lemma fold_tops : forall decl v ls l k, In (l, k) (v_tops (fold_left (next decl) ls v)) <-> In (l, k) (v_tops v) \/
  exists pre x post, ls = (pre ++ x :: post)%list
    /\ (l = v_line v + List.length pre /\ top_line (v_parent (fold_left (next decl) pre v)) x /\ k = last (headings pre) (v_cur v)).
Proof.
  intros decl v ls. induction ls as [|y ls IH] using rev_ind; intros l k.
  - cbn [fold_left]. split; [auto|]. intros [H|(pre & x & post & E & _)]; [exact H|]. destruct pre; discriminate E.
  - rewrite (snoc_split ls y), fold_snoc. set (w := fold_left (next decl) ls v) in *. rewrite <- or_assoc, <- IH. clear IH.
    set (Q := l = _ /\ _).
    assert (New : forall b, (b = true <-> top_line (v_parent w) y) -> In (l, k) (v_tops w ++ (if b : bool then [(v_line w, v_cur w)] else [])) <-> In (l, k) (v_tops w) \/ Q).
    { intros b Hb. rewrite in_app_iff. apply or_iff_compat_l. unfold Q, w in *. rewrite <- Hb, fold_line, fold_cur. destruct b; cbn [In].
      - split; [intros [A|[]]; injection A as <- <-; auto|intros (-> & _ & ->); auto].
      - split; [tauto|intros (_ & A & _); discriminate]. }
    assert (Same : ~ top_line (v_parent w) y -> In (l, k) (v_tops w) <-> In (l, k) (v_tops w) \/ Q) by (unfold Q; tauto).
    destruct y as [|n cells|n cells|p r x cells]; cbn [next v_tops].
    + apply Same. intros (? & ? & ? & ? & H & _). discriminate.
    + destruct (eqs _ _); cbn [v_tops]; apply Same; intros (? & ? & ? & ? & H & _); discriminate.
    + apply Same. intros (? & ? & ? & ? & H & _). discriminate.
    + eqs_cases p current_parent; cbn [v_tops]; apply New; rewrite eqs_true.
      * split; [intros H; exists p, r, x, cells; auto|]. intros (p' & r' & x' & c' & H & [A|[_ A]]); [|exact A]. injection H as <- _ _ _. subst p. discriminate A.
      * split; [intros H; exists p, r, x, cells; auto|]. intros (p' & r' & x' & c' & H & [A|[A _]]); injection H as <- _ _ _; [exact A|contradiction].
Qed.

Lemma fold_tops_sorted : forall decl v ls, v_tops v = [] -> StronglySorted lt (map fst (v_tops (fold_left (next decl) ls v)))
  /\ Forall (fun x => fst x < v_line v + List.length ls) (v_tops (fold_left (next decl) ls v)).
Proof.
  intros decl v ls Hv. induction ls as [|y ls [I1 I2]] using rev_ind.
  - cbn [fold_left]. rewrite Hv. split; constructor.
  - rewrite fold_snoc, app_length. cbn [List.length]. pose proof (fold_line decl ls v) as FL. set (w := fold_left (next decl) ls v) in *.
    assert (I2' : Forall (fun x => fst x < v_line v + (List.length ls + 1)) (v_tops w)) by (eapply Forall_impl; [|exact I2]; cbn; intros; lia).
    assert (New : forall b, StronglySorted lt (map fst (v_tops w ++ (if b : bool then [(v_line w, v_cur w)] else [])))
       /\ Forall (fun x => fst x < v_line v + (List.length ls + 1)) (v_tops w ++ (if b : bool then [(v_line w, v_cur w)] else []))).
    { intros [|]; [|rewrite app_nil_r; auto]. rewrite FL. split.
      - rewrite map_app. cbn [map fst]. clear I2'. revert I1 I2. induction (v_tops w) as [|a l IHl]; cbn [map app].
        + intros _ _. constructor; constructor.
        + intros S1 F1. inversion S1; subst. inversion F1; subst. constructor.
          * apply IHl; assumption.
          * apply Forall_app. split; [assumption|constructor; [lia|constructor]].
      - apply Forall_app. split; [exact I2'|constructor; [cbn; lia|constructor]]. }
    destruct y as [|n cells|n cells|p r x cells]; cbn [next v_tops]; auto.
    + destruct (eqs _ _); cbn [v_tops]; auto.
    + destruct (eqs p current_parent); cbn [v_tops]; apply New.
Qed.

Lemma nodup_firsts : forall l, NoDup l -> firsts l = l.
Proof.
  induction l as [|a l IH]; intros H; [reflexivity|]. inversion H as [|? ? N H']; subst. cbn [firsts]. rewrite IH by exact H'. f_equal.
  clear - N. induction l as [|b l IH]; [reflexivity|]. cbn [filter]. eqs_cases b a; [subst; exfalso; apply N; left; reflexivity|]. cbn [negb]. f_equal. apply IH. intros I. apply N. right. exact I.
Qed.

Lemma fold_secs : forall decl v ls, NoDup (map fst (v_secs v)) -> In "root" (map fst (v_secs v)) ->
  map fst (v_secs (fold_left (next decl) ls v)) = firsts (map fst (v_secs v) ++ headings ls).
Proof.
  intros decl v ls Nd Ir. induction ls as [|y ls IH] using rev_ind.
  - cbn [fold_left]. change (headings []) with (@nil string). rewrite app_nil_r. symmetry. apply nodup_firsts. exact Nd.
  - rewrite fold_snoc, headings_snoc, app_assoc. set (w := fold_left (next decl) ls v) in *.
    destruct y as [|n cells|n cells|p r x cells]; cbn [next v_secs heading_name]; rewrite ?app_nil_r; try exact IH.
    + rewrite firsts_snoc. eqs_cases (lower (strip n)) "root"; cbn [v_secs].
      * rewrite E, mem_str_true; [exact IH|]. apply in_app_iff. left. exact Ir.
      * destruct (assoc (lower (strip n)) (v_secs w)) as [c|] eqn:A.
        -- rewrite mem_str_true; [exact IH|]. rewrite <- firsts_in, <- IH. destruct (in_dec string_dec (lower (strip n)) (map fst (v_secs w))) as [I|I]; [exact I|].
           apply assoc_keys in I. congruence.
        -- rewrite mem_str_false; [rewrite map_app, IH; reflexivity|]. rewrite <- firsts_in, <- IH. apply assoc_keys. exact A.
    + destruct (eqs p current_parent); exact IH.
Qed.

Lemma fold_first_cols : forall decl v ls k c, NoDup (map fst (v_secs v)) -> In "root" (map fst (v_secs v)) ->
  ~ In k (map fst (v_secs v)) -> assoc k (v_secs (fold_left (next decl) ls v)) = Some c ->
  exists pre n cells post, ls = (pre ++ LSection n cells :: post)%list /\ lower (strip n) = k /\ ~ In k (headings pre)
    /\ c = match cells with [] => map strip (decl n) | _ => cells end.
Proof.
  intros decl v ls k c Nd Ir Nk. induction ls as [|y ls IH] using rev_ind.
  - cbn [fold_left]. intros H. apply assoc_keys in Nk. congruence.
  - rewrite fold_snoc. pose proof (fold_secs decl v ls Nd Ir) as VS. set (w := fold_left (next decl) ls v) in *.
    assert (Ext : assoc k (v_secs w) = Some c -> exists pre n cells post, (ls ++ [y])%list = (pre ++ LSection n cells :: post)%list /\ lower (strip n) = k /\ ~ In k (headings pre)
      /\ c = match cells with [] => map strip (decl n) | _ => cells end).
    { intros H. destruct (IH H) as (pre & n & cells & post & E & A). exists pre, n, cells, (post ++ [y])%list. rewrite E, <- app_assoc. auto. }
    destruct y as [|n cells|n cells|p r x cells]; cbn [next v_secs]; auto.
    + eqs_cases (lower (strip n)) "root"; cbn [v_secs]; [exact Ext|].
      destruct (assoc (lower (strip n)) (v_secs w)) as [c'|] eqn:A; [exact Ext|].
      rewrite assoc_app. destruct (assoc k (v_secs w)) as [c'|] eqn:A2; [intros H; injection H as ->; apply Ext; reflexivity|].
      rewrite assoc_cons. eqs_cases (lower (strip n)) k; [|discriminate]. intros H. injection H as <-.
      exists ls, n, cells, []. split; [reflexivity|]. split; [exact E0|]. split; [|reflexivity].
      apply assoc_keys in A2. rewrite VS in A2. intros I. apply A2. apply firsts_in. apply in_app_iff. right. exact I.
    + destruct (eqs p current_parent); exact Ext.
Qed.

Lemma fold_old_cols : forall decl v ls k c, assoc k (v_secs v) = Some c -> assoc k (v_secs (fold_left (next decl) ls v)) = Some c.
Proof.
  intros decl v ls k c. revert v. induction ls as [|y ls IH]; intros v H; [exact H|]. cbn [fold_left]. apply IH.
  destruct y as [|n cells|n cells|p r x cells]; cbn [next v_secs]; auto.
  - destruct (eqs _ _); cbn [v_secs]; [exact H|]. destruct (assoc (lower (strip n)) (v_secs v)); [exact H|]. rewrite assoc_app, H. reflexivity.
  - destruct (eqs p current_parent); exact H.
Qed.

(** the lines of names, counted from the start of the rows *)
Lemma fold_last_shift : forall decl ls v w d, v_line v = d + v_line w ->
  v_last v = map (fun x => (fst x, d + snd x)) (v_last w) ->
  v_last (fold_left (next decl) ls v) = map (fun x => (fst x, d + snd x)) (v_last (fold_left (next decl) ls w)).
Proof.
  intros decl ls. induction ls as [|y ls IH]; intros v w d H1 H2; [exact H2|]. cbn [fold_left]. apply IH.
  - rewrite !next_line, H1. lia.
  - destruct y as [|n cells|n cells|p r x cells]; cbn [next v_last]; auto.
    + destruct (eqs _ _); exact H2.
    + destruct (eqs p current_parent); cbn [v_last map fst snd]; [exact H2|]. rewrite H1, H2. reflexivity.
Qed.

Lemma assoc_map : forall {A B} (f : A -> B) k l, assoc k (map (fun x => (fst x, f (snd x))) l) = option_map f (assoc k l).
Proof. intros A B f k l. induction l as [|[a b] l IH]; [reflexivity|]. cbn [map fst snd]. rewrite !assoc_cons, IH. destruct (eqs a k); reflexivity. Qed.

Lemma fold_last : forall decl v d ls p l, v_line v = S d -> v_last v = [] ->
  assoc p (v_last (fold_left (next decl) ls v)) = Some l <-> exists k, most_recent p ls k /\ l = d + k.
Proof.
  intros decl v d ls p l H1 H2. rewrite (fold_last_shift decl ls v first_view d); [|cbn [v_line first_view]; lia|exact H2].
  rewrite assoc_map. fold (view_after decl ls). split.
  - destruct (assoc p _) as [k|] eqn:E; [|discriminate]. cbn [option_map]. intros H. injection H as <-. exists k. split; [eapply last_uses; exact E|reflexivity].
  - intros (k & H & ->). apply (last_uses decl) in H. rewrite H. reflexivity.
Qed.

Lemma fold_header : forall decl v a n cols b, Forall (fun l => ~ heading_line l) b ->
  v_cols (fold_left (next decl) (a ++ LHeader n cols :: b) v) = cols /\ v_vname (fold_left (next decl) (a ++ LHeader n cols :: b) v) = lower n.
Proof.
  intros decl v a n cols b. induction b as [|l b IH] using rev_ind; intros H.
  - rewrite fold_snoc. split; reflexivity.
  - apply Forall_app in H. destruct H as [H1 H2]. rewrite app_comm_cons, app_assoc, fold_snoc. specialize (IH H1).
    inversion H2 as [|? ? H3 _]; subst. destruct l as [|m cells|m cells|p r x cells]; cbn [next heading_line] in *; try tauto.
    destruct (eqs p current_parent); exact IH.
Qed.

(** ** The past *)

Lemma tidy_plain : forall r, tidy_section r <-> plain_section r.
Proof. intros r. split; intros []; split; assumption. Qed.

Definition wild (s : st) (i : nat) : Prop := i < hlen s /\ ~ tidy s i.
Lemma wild_old : forall s i, wild s i -> i < hlen s.
Proof. intros s i H. apply H. Qed.
Definition past (odd : list string) (s : st) : background :=
  {| b_base := hlen s; b_wild := wild s; b_old := wild_old s; b_odd := odd; b_known := fun n => dget n (p_tmap (s_prs s));
     b_tops := d_terms (s_doc s); b_sterms := fun i => t_terms (tget i s) |}.

Lemma section_name_ok : forall s k, NoDup (dkeys (d_sections (s_doc s))) -> dget k (d_sections (s_doc s)) = Some (p_lastsec (s_prs s)) ->
  dget (section_name s) (d_sections (s_doc s)) = Some (p_lastsec (s_prs s)).
Proof.
  intros s k Nd H. unfold section_name. destruct (find _ _) as [[k' i]|] eqn:E.
  - apply find_some in E. destruct E as [E1 E2]. cbn [snd] in E2. apply Nat.eqb_eq in E2. subst i. clear H k.
    unfold dkeys in Nd. induction (d_sections (s_doc s)) as [|[a b] l IH]; [destruct E1|]. cbn [map fst] in Nd. inversion Nd as [|? ? N1 N2]; subst. cbn [dget].
    destruct E1 as [E1|E1]; [injection E1 as -> ->; rewrite eqs_refl; reflexivity|].
    eqs_cases k' a; [|apply IH; assumption]. subst a. exfalso. apply N1. apply in_map_iff. exists (k', p_lastsec (s_prs s)). auto.
  - exfalso. apply dget_in in H. eapply find_none in E; [|exact H]. cbn [snd] in E. rewrite Nat.eqb_refl in E. discriminate E.
Qed.

Lemma calm_tidy_sec : forall odd s i, calm odd s -> i < hlen s -> is_section_cls (t_cls (tget i s)) = true -> ~ wild s i ->
  plain_section (tget i s) /\ (i <> d_root (s_doc s) -> t_rt (tget i s) = "section").
Proof.
  intros odd s i C Hi Hc W.
  assert (T : tidy s i).
  { unfold tidy. split; [exact Hc|].
    assert (D : {tidy_section (tget i s)} + {~ tidy_section (tget i s)}).
    { set (r := tget i s) in *.
      destruct (is_section_cls (t_cls r)) eqn:E1; [|right; intros []; congruence].
      destruct (string_dec (t_tvn r) "@value") as [E2|E2]; [|right; intros []; congruence].
      destruct (t_section r) eqn:E3; [right; intros []; congruence|].
      destruct (t_doc r) eqn:E4; [|right; intros []; congruence].
      destruct (in_dec string_dec "section" (map lower (t_args r))) as [E5|E5]; [right; intros []; contradiction|].
      destruct (in_dec string_dec "section" (map lower (t_hargs r))) as [E6|E6]; [right; intros []; contradiction|].
      assert (D7 : {t_ftype r = Some "declare"} + {t_ftype r <> Some "declare"}) by (decide equality; apply string_dec).
      destruct D7 as [E7|E7]; [right; intros []; contradiction|].
      destruct (string_dec (t_pt r) "root") as [E8|E8]; [|right; intros []; congruence].
      left. split; assumption. }
    destruct D as [D|D]; [|exfalso; apply W; split; [exact Hi|intros (_ & A & _); contradiction]].
    split; [exact D|]. intros N. destruct (string_dec (t_rt (tget i s)) "section") as [E|E]; [exact E|].
    exfalso. apply W. split; [exact Hi|]. intros (_ & _ & A). apply E. apply A. exact N. }
  destruct T as (_ & T1 & T2). split; [apply tidy_plain; exact T1|exact T2].
Qed.

Lemma not_wild_tidy : forall s i, tidy s i -> ~ wild s i.
Proof. intros s i T [_ W]. contradiction. Qed.

Lemma assoc_secs : forall s k i, dget k (d_sections (s_doc s)) = Some i ->
  assoc k (map (fun ki => (fst ki, t_args (tget (snd ki) s))) (d_sections (s_doc s))) = Some (t_args (tget i s)).
Proof.
  intros s k i. generalize (d_sections (s_doc s)). intros l. induction l as [|[a b] l IH]; [discriminate|]. cbn [map fst snd dget]. rewrite assoc_cons, (eqs_sym a k).
  destruct (eqs k a); [intros H; injection H as ->; reflexivity|exact IH].
Qed.

Lemma calm_pinv : forall odd s, calm odd s -> @pinv (past odd s) s.
Proof.
  intros odd s C. pose proof (ca_secs _ _ C) as CS. destruct (CS _ _ (ca_root _ _ C)) as (R1 & R2 & _ & _).
  destruct (ca_cur _ _ C) as (kc & Kc & Ko). destruct (CS _ _ Kc) as (L1 & L2 & _ & LT).
  assert (LT' : tidy s (p_lastsec (s_prs s))) by tauto.
  destruct (ca_ids _ _ C) as (I1 & I2 & I3).
  split; cbn [b_base b_wild b_odd past].
  - apply (ca_syn _ _ C).
  - apply (ca_reg _ _ C).
  - exact R1.
  - exact R2.
  - apply (ca_rootn _ _ C).
  - intros i Hi Hc W. eapply calm_tidy_sec; eassumption.
  - exact L1.
  - exact L2.
  - exact I1.
  - destruct (ca_lp _ _ C) as (A & B & _). split; assumption.
  - apply (ca_lp _ _ C).
  - intros x Hx. rewrite <- (ca_cols _ _ C) in Hx. unfold munge_param_map in Hx. eapply munge_lower. exact Hx.
  - exact I2.
  - intros i j Hi. apply (I3 i Hi).
  - intros i j Hi. apply (I3 i Hi).
  - intros k i H. destruct (CS _ _ H) as (A & B & _). auto.
  - exact (ca_decl _ _ C).
  - apply (ca_rootn _ _ C).
  - intros k i H. apply (CS _ _ H).
  - apply (ca_known _ _ C).
  - lia.
  - apply not_wild_tidy. exact LT'.
  - intros k i H O. destruct (CS _ _ H) as (_ & _ & _ & [A|A]); [contradiction|apply not_wild_tidy; exact A].
Qed.

Lemma calm_vinv : forall odd s line, calm odd s -> @vinv (past odd s) (cols_in s) (view_of line s) s.
Proof.
  intros odd s line C. destruct (ca_cur _ _ C) as (kc & Kc & Ko).
  assert (Keys : map fst (map (fun ki => (fst ki, t_args (tget (snd ki) s))) (d_sections (s_doc s))) = dkeys (d_sections (s_doc s))).
  { rewrite map_map. reflexivity. }
  split; cbn [view_of v_cur v_secs v_cols v_vname v_parent v_last v_line v_tops].
  - apply calm_pinv. exact C.
  - reflexivity.
  - eapply section_name_ok; [apply (ca_names _ _ C)|exact Kc].
  - symmetry. exact Keys.
  - rewrite Keys. apply (ca_names _ _ C).
  - apply (ca_root _ _ C).
  - intros k i c _ K A. rewrite (assoc_secs _ _ _ K) in A. injection A as <-. reflexivity.
  - symmetry. apply (ca_cols _ _ C).
  - reflexivity.
  - reflexivity.
  - intros n _ _. reflexivity.
  - cbn [b_base past]. intros t l A B. lia.
  - cbn [b_base past]. intros l t t' [A (B & _)] _. cbn in A. lia.
  - exists []. rewrite app_nil_r. split; [reflexivity|constructor].
  - intros k i K. exists []. rewrite app_nil_r. split; [|constructor]. unfold before. cbn [b_base b_sterms past].
    destruct (ca_secs _ _ C _ _ K) as (A & _). destruct (Nat.ltb_spec i (hlen s)); [reflexivity|lia].
  - intros x [].
Qed.

(** ** The run *)

Lemma greets_odd : forall odd s ls, (forall k, In k (headings ls) -> ~ In k odd) -> Forall (@greets (past odd s)) ls.
Proof.
  intros odd s ls H. apply Forall_forall. intros l Hl. destruct l as [|n cells|n cells|p r x cells]; try exact Logic.I. cbn [greets b_odd past]. apply H.
  unfold headings. apply in_concat. exists [lower (strip n)]. split; [|left; reflexivity]. apply in_map_iff. exists (LSection n cells). auto.
Qed.

Lemma after_run : forall g head rows odd s0 ls s, loads_after g head rows odd s0 ls s ->
  exists s1, @rows_eff (past odd s0) None (S (List.length head)) rows s0 s1 /\ finished s1 s.
Proof.
  intros g head rows odd s0 ls s [L St C [Rd U] Od]. unfold loads, load_into in L.
  destruct (load_source_run (in_env g) (in_fuel g) (mk_source (in_ref g) (in_dir g) (head ++ rows)) (in_reg g) (in_terms g) (in_secs g) (in_super g)) as (k & K).
  apply K in L. destruct L as (s1 & L & F & ->). exists s1. split; [|exact F]. destruct St as (lsec & St).
  destruct (in_fuel g) as [|f]; [discriminate L|]. cbn [generate_terms pred] in L, St. rg L. cbn [src_rows] in L. rewrite rows_to_app in L.
  rb L as s2 l2 L2. fold (started (new_doc (in_reg g) (in_terms g) (in_secs g) (in_super g))) in St.
  assert (E2 : s2 = s0) by (pose proof (eq_trans (eq_sym L2) St) as X; congruence). subst s2.
  eapply rows_loop_eff; [discriminate|apply calm_pinv; exact C|eapply reads_ordinary; eassumption|eapply reads_welcome; [exact Rd|apply greets_odd; exact Od]|exact L].
Qed.

Lemma after_vinv : forall g head rows odd s0 ls s, loads_after g head rows odd s0 ls s ->
  exists s1, @vinv (past odd s0) (cols_in s0) (view_past head s0 ls) s1 /\ finished s1 s /\ grow s0 s1.
Proof.
  intros g head rows odd s0 ls s LA. destruct (after_run _ _ _ _ _ _ _ LA) as (s1 & RE & F). destruct LA as [L St C [Rd U] Od].
  exists s1. split; [|split; [exact F|]].
  - apply (vinv_rows (Bk := past odd s0) _ None rows ls _ s0 s1); [discriminate|apply calm_vinv; exact C|exact Rd|exact U|apply greets_odd; exact Od|exact RE].
  - eapply (rows_eff_inv (Bk := past odd s0)); [apply calm_pinv; exact C|exact RE].
Qed.

(** what a line gives *)
Lemma after_line : forall g head rows odd s0 lpre p r x cells lpost s, loads_after g head rows odd s0 (lpre ++ LTerm p r x cells :: lpost) s ->
  exists row t q own, nth_error rows (List.length lpre) = Some row
    /\ @row_result (past odd s0) s (view_past head s0 lpre) (p_dterms (s_prs s0)) (d_decl_terms (s_doc s0)) p r (nth 1 row "") cells t q own.
Proof.
  intros g head rows odd s0 lpre p r x cells lpost s LA. destruct (after_run _ _ _ _ _ _ _ LA) as (s1 & RE & F). destruct LA as [L St C M Od].
  apply means_split in M. destruct M as (pre & row & post & -> & R1 & R2 & R3 & U). pose proof (Forall2_len _ _ _ R1) as Len.
  destruct (row_spec (Bk := past odd s0) (cols_in s0) (view_of (S (List.length head)) s0) pre row post lpre p r x cells lpost s0 s1 s) as (t & q & own & R); try assumption.
  - apply calm_vinv. exact C.
  - apply (ca_lp _ _ C).
  - apply greets_odd. exact Od.
  - exists row, t, q, own. split; [rewrite <- Len, nth_error_app2, Nat.sub_diag by lia; reflexivity|exact R].
Qed.

Lemma past_line : forall head s0 ls, v_line (view_past head s0 ls) = S (List.length head + List.length ls).
Proof. intros. unfold view_past. rewrite fold_line. reflexivity. Qed.

(** ** The properties *)

Lemma h_cells : forall g head rows odd s0 lpre p r x cells lpost s, loads_after g head rows odd s0 (lpre ++ LTerm p r x cells :: lpost) s ->
  let n := S (List.length head + List.length lpre) in
  exists row t own q before after, nth_error rows (List.length lpre) = Some row /\ line_since s0 s n t
    /\ t_rt (tget t s) = r /\ t_val (tget t s) = cell_value (nth 1 row "")
    /\ (forall u, from_since s0 s n u <-> u = t \/ In u own)
    /\ NoDup (t :: own)
    /\ map (fun u => (t_rt (tget u s), t_val (tget u s))) own
       = map (fun nc => (fst nc, VStr (snd nc))) (cells_from (v_cols (view_past head s0 lpre)) 0 cells)
    /\ t_children (tget q s) = (before ++ own ++ after)%list
    /\ (forall u, In u own -> t_parent (tget u s) = Some q)
    /\ (p <> current_parent -> q = t).
Proof.
  intros g head rows odd s0 lpre p r x cells lpost s LA n. destruct (after_line _ _ _ _ _ _ _ _ _ _ _ _ LA) as (row & t & q & own & E & R).
  pose proof (past_line head s0 lpre) as Ln. fold n in Ln. destruct (rr_place _ _ _ _ _ _ _ _ _ _ _ R) as (before & after & B & _).
  exists row, t, own, (if eqs p current_parent then q else t), before, after. rewrite <- Ln.
  split; [exact E|]. split; [apply R|]. split; [apply R|]. split; [apply R|]. split; [apply R|]. split; [constructor; apply R|]. split; [apply R|].
  split; [exact B|]. split; [intros u Hu; apply (rr_ownp _ _ _ _ _ _ _ _ _ _ _ R u Hu)|]. intros N. apply eqs_false in N. rewrite N. reflexivity.
Qed.

Lemma h_parent : forall g head rows odd s0 lpre p r x cells lpost s, loads_after g head rows odd s0 (lpre ++ LTerm p r x cells :: lpost) s ->
  p <> r ->
  let n := S (List.length head + List.length lpre) in
  let pn := if eqs p current_parent then v_parent (view_past head s0 lpre) else p in
  exists t q before after, line_since s0 s n t /\ t_rt (tget t s) = r /\ t_pt (tget t s) = pn /\ t_parent (tget t s) = Some q
    /\ (pn = "root" -> q = d_root (s_doc s))
    /\ (pn <> "root" -> (exists l, most_recent pn lpre l /\ line_since s0 s (List.length head + l) q /\ t_rt (tget q s) = pn)
                        \/ ((forall l, ~ most_recent pn lpre l) /\ dget pn (p_tmap (s_prs s0)) = Some q))
    /\ t_children (tget q s) = (before ++ t :: after)%list
    /\ (forall u, In u before -> u < t) /\ (forall u, In u after -> t < u)
    /\ (forall u k, from_since s0 s k u -> k < n -> u < t).
Proof.
  intros g head rows odd s0 lpre p r x cells lpost s LA Npr n pn. destruct (after_line _ _ _ _ _ _ _ _ _ _ _ _ LA) as (row & t & q & own & E & R).
  pose proof (past_line head s0 lpre) as Ln. fold n in Ln. destruct (rr_kid _ _ _ _ _ _ _ _ _ _ _ R) as (before & after & K1 & K2 & K3).
  pose proof (rr_look _ _ _ _ _ _ _ _ _ _ _ R) as Lk. cbv zeta in Lk. fold pn in Lk. apply eqs_false in Npr. rewrite Npr in Lk.
  exists t, q, before, after. rewrite <- Ln. split; [apply R|]. split; [apply R|]. split; [apply R|]. split; [apply R|].
  split; [intros H; apply eqs_true in H; rewrite H in Lk; exact Lk|]. split.
  { intros H. apply eqs_false in H. rewrite H in Lk. pose proof (fold_last (cols_in s0) (view_of (S (List.length head)) s0) (List.length head) lpre pn) as FL.
    fold (view_past head s0 lpre) in FL. destruct (assoc pn (v_last (view_past head s0 lpre))) as [l|].
    - left. destruct (proj1 (FL l eq_refl eq_refl) eq_refl) as (k & M & ->). exists k. destruct Lk. auto.
    - right. split; [|exact Lk]. intros l M. specialize (FL (List.length head + l) eq_refl eq_refl). destruct FL as [_ FL]. discriminate FL. eauto. }
  split; [exact K1|]. split; [exact K2|]. split; [exact K3|].
  intros u k Hu Hk. eapply (rr_later _ _ _ _ _ _ _ _ _ _ _ R); [|exact Hu|exact Hk]. apply (rr_from _ _ _ _ _ _ _ _ _ _ _ R). left. reflexivity.
Qed.

Lemma h_meta : forall g head rows odd s0 lpre p r x cells lpost s, loads_after g head rows odd s0 (lpre ++ LTerm p r x cells :: lpost) s ->
  let n := S (List.length head + List.length lpre) in
  exists t, line_since s0 s n t /\ t_section (tget t s) = dget (v_cur (view_past head s0 lpre)) (d_sections (s_doc s))
    /\ (p <> current_parent -> t_valid (tget t s) = Some (dmem (dotted p r) (p_dterms (s_prs s0))))
    /\ (dget (dotted p r) (p_dterms (s_prs s0)) = None -> (t_pt (tget t s) = "root" -> dget (dotted "root" r) (d_decl_terms (s_doc s0)) = None) ->
        v_vname (view_past head s0 lpre) <> "" ->
        t_valid (tget t s) = Some false /\ t_cpt (tget t s) = "any" /\ t_tvn (tget t s) = v_vname (view_past head s0 lpre)).
Proof.
  intros g head rows odd s0 lpre p r x cells lpost s LA n. destruct (after_line _ _ _ _ _ _ _ _ _ _ _ _ LA) as (row & t & q & own & E & R).
  pose proof (past_line head s0 lpre) as Ln. fold n in Ln. exists t. rewrite <- Ln.
  split; [apply R|]. split; [apply R|]. split; [apply R|]. intros D1 D2 Vn. apply (rr_meta _ _ _ _ _ _ _ _ _ _ _ R); auto.
Qed.

Lemma h_sections : forall g head rows odd s0 ls s, loads_after g head rows odd s0 ls s ->
  exists new tops, d_terms (s_doc s) = (d_terms (s_doc s0) ++ new)%list
    /\ (forall l k, In (l, k) tops <-> exists pre x post, ls = (pre ++ x :: post)%list /\ l = S (List.length head + List.length pre)
         /\ (exists p r v cells, x = LTerm p r v cells /\ (p = "root" \/ p = current_parent /\ v_parent (view_past head s0 pre) = "root"))
         /\ k = last (headings pre) (section_name s0))
    /\ StronglySorted lt (map fst tops)
    /\ Forall2 (fun t x => line_since s0 s (fst x) t) new tops
    /\ (forall k i, dget k (d_sections (s_doc s)) = Some i -> exists mine,
         t_terms (tget i s) = ((if (i <? hlen s0)%nat then t_terms (tget i s0) else []) ++ mine)%list
         /\ Forall2 (fun t x => line_since s0 s (fst x) t) mine (filter (fun x => eqs (snd x) k) tops))
    /\ (forall l k, In (l, k) tops -> In k (dkeys (d_sections (s_doc s))))
    /\ (forall l t t', line_since s0 s l t -> line_since s0 s l t' -> t = t').
Proof.
  intros g head rows odd s0 ls s LA. destruct (after_vinv _ _ _ _ _ _ _ LA) as (s1 & V & F & _).
  assert (T : forall i, tget i s = tget i s1) by (intros i; unfold tget; rewrite (fi_heap _ _ F); reflexivity).
  assert (Hl : hlen s = hlen s1) by (unfold hlen; rewrite (fi_heap _ _ F); reflexivity).
  assert (LT : forall l t, line_since s0 s l t <-> line_since s0 s1 l t) by (intros l t; unfold line_since, line_term; rewrite T, Hl; tauto).
  assert (F2 : forall a b, Forall2 (fun t (x : nat * string) => line_since s0 s1 (fst x) t) a b -> Forall2 (fun t x => line_since s0 s (fst x) t) a b).
  { intros a b H. induction H; constructor; auto. apply LT. assumption. }
  destruct (vi_tops _ _ _ V) as (new & Nw & Fn). exists new, (v_tops (view_past head s0 ls)).
  split; [rewrite (fi_terms _ _ F); exact Nw|]. split.
  { intros l k. unfold view_past. rewrite fold_tops. cbn [view_of v_tops In v_line v_cur]. split.
    - intros [[]|(pre & x & post & E & A & B & C)]. exists pre, x, post. auto.
    - intros (pre & x & post & E & A & B & C). right. exists pre, x, post. auto. }
  split; [apply fold_tops_sorted; reflexivity|]. split; [apply F2; exact Fn|]. split.
  { intros k i H. rewrite (fi_sections _ _ F) in H. rewrite T. destruct (vi_sterms _ _ _ V k i H) as (mine & E & Fm). exists mine. split; [exact E|apply F2; exact Fm]. }
  split.
  { intros l k H. rewrite (fi_sections _ _ F), (vi_keys _ _ _ V). apply (vi_topsec _ _ _ V (l, k)). exact H. }
  intros l t t' A B. apply (vi_uniq _ _ _ V l); apply LT; assumption.
Qed.

Lemma h_names : forall g head rows odd s0 ls s, loads_after g head rows odd s0 ls s ->
  dkeys (d_sections (s_doc s)) = firsts (dkeys (d_sections (s_doc s0)) ++ headings ls)
  /\ (forall k i, dget k (d_sections (s_doc s0)) = Some i -> dget k (d_sections (s_doc s)) = Some i /\ t_args (tget i s) = t_args (tget i s0))
  /\ (forall k i, dget k (d_sections (s_doc s)) = Some i -> exists n, t_val (tget i s) = VStr n /\ lower n = k)
  /\ (forall k k' i, dget k (d_sections (s_doc s)) = Some i -> dget k' (d_sections (s_doc s)) = Some i -> k = k')
  /\ (forall k i, dget k (d_sections (s_doc s0)) = None -> dget k (d_sections (s_doc s)) = Some i ->
       exists pre n cells post, ls = (pre ++ LSection n cells :: post)%list /\ lower (strip n) = k /\ ~ In k (headings pre)
         /\ t_args (tget i s) = match cells with [] => map strip (cols_in s0 n) | _ => cells end).
Proof.
  intros g head rows odd s0 ls s LA. destruct (after_run _ _ _ _ _ _ _ LA) as (s1' & RE & F').
  destruct (after_vinv _ _ _ _ _ _ _ LA) as (s1 & V & F & G).
  assert (T : forall i, tget i s = tget i s1) by (intros i; unfold tget; rewrite (fi_heap _ _ F); reflexivity).
  pose proof (la_calm _ _ _ _ _ _ _ LA) as C.
  assert (Keys : map fst (v_secs (view_of (S (List.length head)) s0)) = dkeys (d_sections (s_doc s0))) by (cbn [view_of v_secs]; rewrite map_map; reflexivity).
  assert (Ir : In "root" (dkeys (d_sections (s_doc s0)))).
  { destruct (in_dec string_dec "root" (dkeys (d_sections (s_doc s0)))) as [I|I]; [exact I|]. apply dget_none in I. rewrite (ca_root _ _ C) in I. discriminate I. }
  assert (Nd : NoDup (map fst (v_secs (view_of (S (List.length head)) s0)))) by (rewrite Keys; apply (ca_names _ _ C)).
  split; [rewrite (fi_sections _ _ F), (vi_keys _ _ _ V), <- Keys; apply fold_secs; [exact Nd|rewrite Keys; exact Ir]|]. split.
  { intros k i H. split; [rewrite (fi_sections _ _ F'); exact (rows_eff_dsec (Bk := past odd s0) _ _ _ _ _ _ _ RE H)|]. destruct (ca_secs _ _ C _ _ H) as (Hi & _).
    rewrite T. apply (sm_args _ _ (gw_same _ _ G _ Hi)). }
  rewrite (fi_sections _ _ F). split; [intros k i H; rewrite T; apply (pi_dname _ (vi_pinv _ _ _ V) _ _ H)|].
  split; [intros k k' i; exact (sec_key_inj (Bk := past odd s0) _ _ _ _ (vi_pinv _ _ _ V))|].
  intros k i N H. assert (I : In k (map fst (v_secs (view_past head s0 ls)))).
  { rewrite <- (vi_keys _ _ _ V). destruct (in_dec string_dec k (dkeys (d_sections (s_doc s1)))) as [I|I]; [exact I|]. apply dget_none in I. congruence. }
  apply assoc_some_keys in I. destruct I as (c & A). apply dget_none in N.
  destruct (fold_first_cols (cols_in s0) (view_of (S (List.length head)) s0) ls k c) as (pre & n & cells & post & E1 & E2 & E3 & E4); auto.
  { rewrite Keys. exact Ir. }
  { rewrite Keys. exact N. }
  exists pre, n, cells, post. split; [exact E1|]. split; [exact E2|]. split; [exact E3|].
  assert (Nk : k <> "root") by (intros ->; contradiction). rewrite T, (vi_cols _ _ _ V k i c Nk H A). exact E4.
Qed.

Lemma h_header : forall g head rows odd s0 a n cols b p r x cells lpost s,
  loads_after g head rows odd s0 (a ++ LHeader n cols :: b ++ LTerm p r x cells :: lpost) s -> Forall (fun l => ~ heading_line l) b ->
  let k := S (List.length head + List.length (a ++ LHeader n cols :: b)) in
  exists t own, line_since s0 s k t /\ (forall u, from_since s0 s k u <-> u = t \/ In u own)
    /\ map (fun u => (t_rt (tget u s), t_val (tget u s))) own = map (fun nc => (fst nc, VStr (snd nc))) (cells_from cols 0 cells)
    /\ (dget (dotted p r) (p_dterms (s_prs s0)) = None -> dget (dotted "root" r) (d_decl_terms (s_doc s0)) = None -> n <> "" -> t_tvn (tget t s) = lower n).
Proof.
  intros g head rows odd s0 a n cols b p r x cells lpost s LA H k.
  assert (LA' : loads_after g head rows odd s0 ((a ++ LHeader n cols :: b) ++ LTerm p r x cells :: lpost) s) by (rewrite <- app_assoc; exact LA).
  destruct (after_line _ _ _ _ _ _ _ _ _ _ _ _ LA') as (row & t & q & own & E & R).
  pose proof (past_line head s0 (a ++ LHeader n cols :: b)) as Ln. fold k in Ln.
  destruct (fold_header (cols_in s0) (view_of (S (List.length head)) s0) a n cols b H) as [V1 V2]. fold (view_past head s0 (a ++ LHeader n cols :: b)) in V1, V2.
  exists t, own. rewrite <- Ln. split; [apply R|]. split; [apply R|]. split; [rewrite <- V1; apply R|].
  intros D1 D2 Nn. rewrite <- V2. apply (rr_meta _ _ _ _ _ _ _ _ _ _ _ R); auto. rewrite V2. destruct n; [congruence|discriminate].
Qed.

(** ** Which rows are accepted *)

(** no column named "section" is in force, or belongs to a section that is not odd *)
Lemma calm_no_sections : forall odd s line, calm odd s -> ~ In "section" (p_pmap (s_prs s)) -> @no_sections (past odd s) (view_of line s).
Proof.
  intros odd s line C N. split; cbn [view_of v_cols v_secs].
  - intros I. apply in_map_iff in I. destruct I as (x & E & I). apply N. rewrite <- (ca_cols _ _ C) in I. rewrite <- (munge_lower _ _ _ I) in E.
    rewrite lower_idem, (munge_lower _ _ _ I) in E. rewrite (ca_cols _ _ C) in I. subst x. exact I.
  - cbn [b_odd past]. intros k c O A.
    assert (exists i, dget k (d_sections (s_doc s)) = Some i /\ c = t_args (tget i s)) as (i & K & ->).
    { destruct (dget k (d_sections (s_doc s))) as [i|] eqn:K.
      - exists i. split; [reflexivity|]. rewrite (assoc_secs _ _ _ K) in A. congruence.
      - exfalso. apply dget_none in K. assert (X : assoc k (map (fun ki => (fst ki, t_args (tget (snd ki) s))) (d_sections (s_doc s))) = None).
        { apply assoc_keys. rewrite map_map. exact K. }
        congruence. }
    destruct (ca_secs _ _ C _ _ K) as (_ & _ & _ & [X|(_ & X & _)]); [contradiction|]. apply (ty_args _ X).
Qed.

Lemma placed_after_settles : forall odd head s0 pre l, @settles (past odd s0) (view_past head s0 pre) l <-> placed_after s0 pre l.
Proof.
  intros odd head s0 pre [| | |p r x cells]; cbn [settles placed_after]; try tauto.
  assert (A : (exists k, assoc p (v_last (view_past head s0 pre)) = Some k) <-> exists k, most_recent p pre k).
  { pose proof (fold_last (cols_in s0) (view_of (S (List.length head)) s0) (List.length head) pre p) as FL. split; intros [k H].
    - apply (FL k eq_refl eq_refl) in H. destruct H as (k' & H & _). eauto.
    - exists (List.length head + k). apply (FL _ eq_refl eq_refl). eauto. }
  rewrite A. reflexivity.
Qed.

Lemma after_loads : forall g head rows s0, steps_to g (head ++ rows) head s0 -> in_fuel g <> 0 -> exists ls,
  load_into g (head ++ rows) = bind (rows_loop (in_env g) true (generate_terms (in_env g) true (pred (in_fuel g))) (mk_source (in_ref g) (in_dir g) (head ++ rows))
    None (S (List.length head)) rows ls) (fun _ => finish_load) s0.
Proof.
  intros g head rows s0 (ls & St) Fu. exists ls. unfold load_into. destruct (in_fuel g) as [|f]; [congruence|]. cbn [pred] in *. rewrite load_source_fw.
  fold (started (new_doc (in_reg g) (in_terms g) (in_secs g) (in_super g))) in St. unfold bind at 1. rewrite rows_to_app. unfold bind at 1. rewrite St. reflexivity.
Qed.

Lemma h_accepted : forall g head rows odd s0 ls, in_fuel g <> 0 -> steps_to g (head ++ rows) head s0 -> calm odd s0 -> plain_classes_in s0 ->
  ~ In "section" (p_pmap (s_prs s0)) ->
  means rows ls -> Forall sound ls -> (forall k, In k (headings ls) -> ~ In k odd) ->
  (forall pre l post, ls = (pre ++ l :: post)%list -> placed_after s0 pre l) -> exists s, loads g (head ++ rows) s.
Proof.
  intros g head rows odd s0 ls Fu St C PC NS [R U] So Od Pl. unfold loads. destruct (after_loads _ _ _ _ St Fu) as (k & E). rewrite E.
  destruct (rows_loop_total (Bk := past odd s0) (cols_in s0) (in_env g) (generate_terms (in_env g) true (pred (in_fuel g))) (mk_source (in_ref g) (in_dir g) (head ++ rows)) None rows ls [] k
             (view_of (S (List.length head)) s0) s0) as (k' & s' & Vx & Px & Ex); auto.
  - exact (ca_decl _ _ C).
  - discriminate.
  - apply calm_vinv. exact C.
  - apply calm_no_sections; assumption.
  - apply greets_odd. exact Od.
  - intros a l b El. apply (placed_after_settles odd head). eapply Pl. exact El.
  - rewrite app_nil_r in Ex. destruct (finish_load_ok s') as (s2 & F & _). exists s2. eapply bind_fw; [exact Ex|exact F].
Qed.

Lemma h_missing : forall g head rows odd s0 ls row p r x cells post, in_fuel g <> 0 -> steps_to g (head ++ rows ++ row :: post) head s0 -> calm odd s0 -> plain_classes_in s0 ->
  ~ In "section" (p_pmap (s_prs s0)) ->
  means rows ls -> Forall sound ls -> (forall k, In k (headings ls) -> ~ In k odd) ->
  (forall pre l post, ls = (pre ++ l :: post)%list -> placed_after s0 pre l) ->
  reads row (LTerm p r x cells) -> usual (LTerm p r x cells) -> sound (LTerm p r x cells) -> ~ placed_after s0 ls (LTerm p r x cells) ->
  exists s, load_into g (head ++ rows ++ row :: post) = (s, Err EParser).
Proof.
  intros g head rows odd s0 ls row p r x cells post Fu St C PC NS [R U] So Od Pl Rr Ur Sr Np. destruct (after_loads _ _ _ _ St Fu) as (k & E). rewrite E.
  set (src := mk_source (in_ref g) (in_dir g) (head ++ rows ++ row :: post)). set (rec := generate_terms (in_env g) true (pred (in_fuel g))).
  destruct (rows_loop_total (Bk := past odd s0) (cols_in s0) (in_env g) rec src None rows ls (row :: post) k
             (view_of (S (List.length head)) s0) s0) as (k' & s' & V & Px & Ex); auto.
  - exact (ca_decl _ _ C).
  - discriminate.
  - apply calm_vinv. exact C.
  - apply calm_no_sections; assumption.
  - apply greets_odd. exact Od.
  - intros a l b El. apply (placed_after_settles odd head). eapply Pl. exact El.
  - destruct (row_missing (Bk := past odd s0) (cols_in s0) (in_env g) rec src row post p r x cells k' _ s' V Px) as (s2 & E2); auto.
    + apply no_sections_lines; auto; [exact (ca_decl _ _ C)|apply greets_odd; exact Od|apply calm_no_sections; assumption].
    + intros N. apply Np. apply (placed_after_settles odd head). exact N.
    + rewrite fold_line, <- (Forall2_len _ _ _ R) in E2. exists s2. cbn [v_line view_of] in Ex, E2. unfold bind. rewrite Ex, E2. reflexivity.
Qed.

(** ** Checking that a state is calm *)

Definition tidyb (s : st) (i : nat) : bool :=
  let r := tget i s in
  is_section_cls (t_cls r) && eqs (t_tvn r) "@value" && match t_section r with None => true | _ => false end && t_doc r
  && negb (mem_str "section" (map lower (t_args r))) && negb (mem_str "section" (map lower (t_hargs r)))
  && match t_ftype r with Some f => negb (eqs f "declare") | None => true end && eqs (t_pt r) "root"
  && ((i =? d_root (s_doc s)) || eqs (t_rt r) "section").

Lemma tidyb_ok : forall s i, tidyb s i = true -> tidy s i.
Proof.
  intros s i. unfold tidyb, tidy. set (r := tget i s). rewrite !andb_true_iff, orb_true_iff, !negb_true_iff, !eqs_true, Nat.eqb_eq.
  intros ((((((((A & B) & C) & D) & E) & F) & G) & H) & I). split; [exact A|]. split.
  - split; auto using mem_str_not.
    + destruct (t_section r); [discriminate|reflexivity].
    + intros X. rewrite X in G. discriminate G.
  - intros N. destruct I as [I|I]; [contradiction|exact I].
Qed.

Fixpoint nodupb (l : list string) : bool := match l with [] => true | x :: l' => negb (mem_str x l') && nodupb l' end.
Lemma nodupb_ok : forall l, nodupb l = true -> NoDup l.
Proof.
  induction l as [|x l IH]; intros H; [constructor|]. cbn [nodupb] in H. apply andb_true_iff in H. destruct H as [A B]. apply negb_true_iff in A.
  constructor; [apply mem_str_not; exact A|apply IH; exact B].
Qed.

Definition good_regb (reg : dict cls) : bool :=
  match dget "root.section" reg with Some CSection => true | _ => false end
  && match dget "root.root" reg with Some CRoot => true | _ => false end
  && forallb (fun kc => negb (is_section_cls (snd kc)) || mem_str (fst kc) ["root.section"; "root.root"]) reg.
Lemma good_regb_ok : forall reg, good_regb reg = true -> good_reg reg.
Proof.
  intros reg. unfold good_regb. rewrite !andb_true_iff. intros ((A & B) & C). split.
  - destruct (dget "root.section" reg) as [[]|]; try discriminate A; reflexivity.
  - destruct (dget "root.root" reg) as [[]|]; try discriminate B; reflexivity.
  - intros k c H Hc. apply dget_in in H. rewrite forallb_forall in C. specialize (C _ H). cbn [fst snd] in C. rewrite Hc in C. cbn [negb orb mem_str existsb] in C.
    rewrite !orb_true_iff, !eqs_true in C. destruct C as [C|[C|C]]; auto. discriminate C.
Qed.

Definition belowb (s : st) (l : list nat) : bool := forallb (fun i => i <? hlen s) l.
Lemma belowb_ok : forall s l, belowb s l = true -> forall i, In i l -> i < hlen s.
Proof. intros s l H i I. unfold belowb in H. rewrite forallb_forall in H. apply Nat.ltb_lt. apply H. exact I. Qed.

Definition calmb (odd : list string) (s : st) : bool :=
  let d := s_doc s in let p := s_prs s in
  match synonyms (p_dterms p) with [] => true | _ => false end
  && forallb (fun kd => mem_str (strip (fst kd)) odd || negb (mem_str "section" (map lower (map strip (sd_args (snd kd)))))) (d_decl_sections d)
  && good_regb (s_reg s)
  && nodupb (dkeys (d_sections d))
  && forallb (fun ki => (snd ki <? hlen s) && is_section_cls (t_cls (tget (snd ki) s))
       && match t_val (tget (snd ki) s) with VStr n => eqs (lower n) (fst ki) | _ => false end
       && (mem_str (fst ki) odd || tidyb s (snd ki))) (d_sections d)
  && match dget "root" (d_sections d) with Some i => i =? d_root d | None => false end
  && eqs (t_rt (tget (d_root d) s)) "root" && match t_args (tget (d_root d) s) with [] => true | _ => false end
  && existsb (fun ki => (snd ki =? p_lastsec p) && negb (mem_str (fst ki) odd)) (d_sections d)
  && (if list_eq_dec string_dec (munge_param_map (p_pmap p)) (p_pmap p) then true else false)
  && negb (has_char "." (p_lastparent p))
  && eqs (lower (p_lastparent p)) (p_lastparent p) && negb (eqs (p_lastparent p) current_parent)
  && dmem (p_lastparent p) (p_tmap p)
  && match dget "root" (p_tmap p) with Some i => i =? d_root d | None => false end
  && belowb s (map snd (p_tmap p)) && belowb s (d_terms d)
  && forallb (fun r => belowb s (t_terms r) && belowb s (t_children r)) (s_heap s).

Lemma calm_by : forall odd s, calmb odd s = true -> calm odd s.
Proof.
  intros odd s. unfold calmb. rewrite !andb_true_iff.
  intros (((((((((((((((((H1 & H2) & H3) & H4) & H5) & H6) & H7) & H8) & H9) & H10) & H11) & H12) & H13) & H14) & H15) & H16) & H17) & H18).
  assert (Secs : forall k i, dget k (d_sections (s_doc s)) = Some i ->
    i < hlen s /\ is_section_cls (t_cls (tget i s)) = true /\ (exists n, t_val (tget i s) = VStr n /\ lower n = k) /\ (In k odd \/ tidy s i)).
  { intros k i H. apply dget_in in H. rewrite forallb_forall in H5. specialize (H5 _ H). cbn [fst snd] in H5. rewrite !andb_true_iff, orb_true_iff in H5.
    destruct H5 as (((A & B) & C) & D). split; [apply Nat.ltb_lt; exact A|]. split; [exact B|]. split.
    - destruct (t_val (tget i s)) eqn:V; try discriminate C. eexists. split; [reflexivity|]. apply eqs_true in C. exact C.
    - destruct D as [D|D]; [left|right; apply tidyb_ok; exact D]. unfold mem_str in D. apply existsb_exists in D. destruct D as (y & D1 & D2). apply eqs_true in D2. subst y. exact D1. }
  split.
  - destruct (synonyms _); [reflexivity|discriminate H1].
  - intros n O I. unfold declared_columns in I. destruct (dget (lower n) (d_decl_sections (s_doc s))) as [sd|] eqn:E; [|destruct I]. apply dget_in in E.
    rewrite forallb_forall in H2. specialize (H2 _ E). cbn [fst snd] in H2. rewrite strip_lower, orb_true_iff, negb_true_iff in H2. destruct H2 as [H2|H2].
    + apply O. unfold mem_str in H2. apply existsb_exists in H2. destruct H2 as (y & D1 & D2). apply eqs_true in D2. subst y. exact D1.
    + apply mem_str_not in H2. contradiction.
  - apply good_regb_ok. exact H3.
  - apply nodupb_ok. exact H4.
  - exact Secs.
  - destruct (dget "root" (d_sections (s_doc s))); [|discriminate H6]. apply Nat.eqb_eq in H6. congruence.
  - split; [apply eqs_true; exact H7|]. destruct (t_args _); [reflexivity|discriminate H8].
  - apply existsb_exists in H9. destruct H9 as ([k i] & I & H9). cbn [fst snd] in H9. apply andb_true_iff in H9. destruct H9 as [A B]. apply Nat.eqb_eq in A. subst i.
    exists k. split; [apply dget_some; [apply nodupb_ok; exact H4|exact I]|]. apply mem_str_not. apply negb_true_iff. exact B.
  - destruct (list_eq_dec _ _ _) as [E|]; [exact E|discriminate H10].
  - split; [apply dot_free_iff; apply negb_true_iff; exact H11|]. split; [apply eqs_true; exact H12|]. split; [apply eqs_false; apply negb_true_iff; exact H13|].
    unfold dmem in H14. intros X. rewrite X in H14. discriminate H14.
  - destruct (dget "root" (p_tmap (s_prs s))); [|discriminate H15]. apply Nat.eqb_eq in H15. congruence.
  - split; [|split; [apply belowb_ok; exact H17|]].
    + intros k i H. apply dget_in in H. apply (belowb_ok _ _ H16). apply in_map_iff. exists (k, i). auto.
    + intros i Hi. rewrite forallb_forall in H18. assert (I : In (tget i s) (s_heap s)) by (apply nth_In; exact Hi).
      specialize (H18 _ I). apply andb_true_iff in H18. destruct H18 as [A B]. split; intros j; apply belowb_ok; assumption.
Qed.
