(** * OutlineFacts: the document read from a file is the one its rows describe *)

From Verif Require Import ListFacts StrFacts SpecNames NameFacts HeapFacts ConstructFacts Parser RunFacts EmitFacts TreeFacts DigitFacts RowFacts ParseFacts DocFacts ForestFacts ParseProps TotalFacts PrintFacts ReadFacts RoundFacts SpecDoc SpecInv SpecRound SpecHead HeadFacts SpecOutline.

(** ** Hanging terms together *)

Definition hangx (e : entry * nat) (rest : list ((spot * rose) * nat)) : list ((spot * rose) * nat) :=
  ((e_spot (fst e), Rose (fst e) (map (fun x => snd (fst x)) (filter (fun x => mine (fst e) (fst (fst x))) rest))), snd e)
  :: filter (fun x => negb (mine (fst e) (fst (fst x)))) rest.
Definition hungx (L : list (entry * nat)) : list ((spot * rose) * nat) := fold_right hangx [] L.

Lemma filter_map : forall {A B} (f : A -> B) (P : B -> bool) l, filter P (map f l) = map f (filter (fun x => P (f x)) l).
Proof. intros A B f P l. induction l as [|x l IH]; [reflexivity|]. cbn [map filter]. destruct (P (f x)); cbn [map]; rewrite IH; reflexivity. Qed.

Lemma hungx_fst : forall L, map fst (hungx L) = hung (map fst L).
Proof.
  induction L as [|[e i] L IH]; [reflexivity|]. cbn [hungx fold_right map hung]. fold (hungx L). fold (hung (map fst L)). rewrite <- IH.
  unfold hangx, hang. cbn [fst snd map]. f_equal; [|rewrite filter_map; reflexivity].
  f_equal. f_equal. rewrite filter_map, map_map. reflexivity.
Qed.

Lemma filter_filter_off : forall {A} (P Q : A -> bool) l, (forall x, In x l -> Q x = true -> P x = true) -> filter Q (filter P l) = filter Q l.
Proof.
  intros A P Q l. induction l as [|x l IH]; intros H; [reflexivity|]. cbn [filter]. destruct (P x) eqn:E.
  - cbn [filter]. rewrite IH; [reflexivity|]. intros y I. apply H. right. exact I.
  - rewrite IH by (intros y I; apply H; right; exact I). destruct (Q x) eqn:E2; [|reflexivity]. rewrite H in E; [discriminate|left; reflexivity|exact E2].
Qed.

(** the trees that go to a place are those of the terms that go there *)
Lemma hungx_to : forall (Q : spot -> bool) L, (forall l, Q (Under l) = true -> Forall (fun e => e_line (fst e) <> Some l) L) ->
  map snd (filter (fun x => Q (fst (fst x))) (hungx L)) = map snd (filter (fun e => Q (e_spot (fst e))) L).
Proof.
  intros Q L. induction L as [|[e i] L IH]; intros H; [reflexivity|]. cbn [hungx fold_right]. fold (hungx L). unfold hangx. cbn [fst snd filter].
  assert (T : map snd (filter (fun x => Q (fst (fst x))) (filter (fun x => negb (mine e (fst (fst x)))) (hungx L)))
            = map snd (filter (fun e0 => Q (e_spot (fst e0))) L)).
  { rewrite filter_filter_off.
    - apply IH. intros l Hl. specialize (H l Hl). inversion H; assumption.
    - intros [[x t] j] _ Hq. cbn [fst] in *. unfold mine. destruct (e_line e) as [l|] eqn:El; [|reflexivity]. destruct x as [k|k|]; try reflexivity.
      cbn [below]. destruct (Nat.eqb_spec k l) as [->|]; [|reflexivity]. specialize (H l Hq). inversion H as [|? ? H1 _]; subst. cbn [fst] in H1. contradiction. }
  destruct (Q (e_spot e)); cbn [map snd]; rewrite T; reflexivity.
Qed.

(** terms in the order of their making: a line has one term of its own, and terms
    go below lines that come before *)
Definition in_turn (x y : entry) : Prop :=
  (forall l, e_line x = Some l -> e_line y <> Some l) /\ (forall l, e_line y = Some l -> e_spot x <> Under l).
Definition ordered (es : list entry) : Prop :=
  ForallOrdPairs in_turn es /\ Forall (fun e => forall l, e_line e = Some l -> e_spot e <> Under l) es.

Lemma fop_app : forall {A} (R : A -> A -> Prop) a b, ForallOrdPairs R a -> ForallOrdPairs R b -> (forall x y, In x a -> In y b -> R x y) -> ForallOrdPairs R (a ++ b).
Proof.
  intros A R a b Ha Hb H. induction Ha as [|x a Hx Ha IH]; [exact Hb|]. cbn [app]. constructor.
  - apply Forall_app. split; [exact Hx|]. apply Forall_forall. intros y I. apply H; [left; reflexivity|exact I].
  - apply IH. intros y z I J. apply H; [right; exact I|exact J].
Qed.

Lemma fop_split : forall {A} (R : A -> A -> Prop) a e b, ForallOrdPairs R (a ++ e :: b) -> Forall (fun x => R x e) a /\ Forall (R e) b.
Proof.
  intros A R a e b. induction a as [|x a IH]; intros H; inversion H as [|? ? H1 H2]; subst.
  - split; [constructor|exact H1].
  - destruct (IH H2) as [I1 I2]. split; [|exact I2]. constructor; [|exact I1]. apply Forall_app in H1. destruct H1 as [_ H1]. inversion H1; assumption.
Qed.

Section Background.
Context {Bk : background}.

(** ** Terms in the heap *)

(** [i] is the term of the entry [e] *)
Record stands (s : st) (e : entry) (i : nat) : Prop := {
  sd_in : i < hlen s;
  sd_cls : is_section_cls (t_cls (tget i s)) = false;
  sd_name : t_rt (tget i s) = e_name e;
  sd_value : text_of (t_val (tget i s)) (e_value e);
  sd_section : exists k, t_section (tget i s) = Some k /\ k < hlen s /\ t_doc (tget k s) = true;
  sd_parent : match e_spot e with
              | Under l => exists q, t_parent (tget i s) = Some q /\ new_line s l q
              | At _ => t_parent (tget i s) = Some (d_root (s_doc s))
              | Loose => True
              end;
  sd_line : forall l, e_line e = Some l -> new_line s l i;
  sd_meta : t_pt (tget i s) = m_parent (e_meta e) /\ t_cpt (tget i s) = m_type (e_meta e) /\ t_tvn (tget i s) = m_vname (e_meta e);
  sd_leaf : e_line e = None -> t_children (tget i s) = [];
  sd_col : e_line e = None -> t_col (tget i s) <> Some 1
}.

Record laid (s : st) (L : list (entry * nat)) : Prop := {
  ld_each : Forall (fun x => stands s (fst x) (snd x)) L;
  ld_kids : forall e i l, In (e, i) L -> e_line e = Some l -> e_spot e <> Loose -> t_children (tget i s) = map snd (filter (fun x => below l (e_spot (fst x))) L);
  ld_order : ordered (map fst L);
  ld_uniq : forall l t t', new_line s l t -> new_line s l t' -> t = t'
}.

Lemma filter_none : forall {A} (P : A -> bool) l, (forall x, In x l -> P x = false) -> filter P l = [].
Proof. intros A P l. induction l as [|x l IH]; intros H; [reflexivity|]. cbn [filter]. rewrite H by (left; reflexivity). apply IH. intros y I. apply H. right. exact I. Qed.

Lemma below_under : forall l x, below l x = true -> x = Under l.
Proof. intros l [k|k|] H; try discriminate H. cbn in H. apply Nat.eqb_eq in H. congruence. Qed.

Lemma hungx_from : forall L x, In x (hungx L) -> exists e, In (e, snd x) L /\ e_spot e = fst (fst x).
Proof.
  induction L as [|[e i] L IH]; intros x H; [destruct H|]. cbn [hungx fold_right] in H. fold (hungx L) in H. unfold hangx in H. destruct H as [<-|H].
  - exists e. split; [left; reflexivity|reflexivity].
  - apply filter_In in H. destruct H as [H _]. destruct (IH x H) as (e' & I & E). exists e'. split; [right; exact I|exact E].
Qed.

Lemma laid_shows : forall s L, laid s L -> forall A B, L = (A ++ B)%list -> forall x p, In x (hungx B) -> fst (fst x) <> Loose -> parent_named s (snd x) p -> shows s p (bare (snd (fst x))) (snd x) /\ keeps s (snd (fst x)) (snd x).
Proof.
  intros s L D A B. revert A. induction B as [|[e i] B IH]; intros A E x p H NL P; [destruct H|].
  cbn [hungx fold_right] in H. fold (hungx B) in H. unfold hangx in H. destruct H as [<-|H].
  2:{ apply filter_In in H. destruct H as [H _]. apply (IH (A ++ [(e, i)])); [rewrite <- app_assoc; exact E|exact H|exact NL|exact P]. }
  cbn [fst snd] in *.
  assert (I : In (e, i) L) by (rewrite E; apply in_app_iff; right; left; reflexivity).
  pose proof (proj1 (Forall_forall _ _) (ld_each _ _ D) _ I) as S1. cbn [fst snd] in S1.
  destruct (sd_section _ _ _ S1) as (k & K1 & _ & K2).
  set (kids := map _ _).
  assert (Kids : Forall2 (fun t c => shows s (e_name e) (bare t) c /\ keeps s t c) kids (t_children (tget i s))).
  2:{ split.
      - apply shows_term with (i := k); [apply S1|apply S1|exact P|exact K1|exact K2|]. clear - Kids. induction Kids as [|a b l l' [H _] _ IHk]; constructor; assumption.
      - apply keeps_term; try apply S1. eapply Forall2_imp; [|exact Kids]. intros a b H. apply H. }
  unfold kids. clear kids.
  destruct (e_line e) as [l|] eqn:El.
  2:{ rewrite (sd_leaf _ _ _ S1 El). rewrite filter_none; [constructor|]. intros x _. unfold mine. rewrite El. reflexivity. }
  rewrite (ld_kids _ _ D e i l I El NL).
  pose proof (ld_order _ _ D) as [Or1 Or2]. rewrite E in Or1, Or2 |- *. rewrite map_app in Or1, Or2. cbn [map fst] in Or1, Or2.
  destruct (fop_split _ _ _ _ Or1) as [O1 O2]. apply Forall_app in Or2. destruct Or2 as [_ Or2]. inversion Or2 as [|? ? O3 _]; subst.
  rewrite filter_app. rewrite (filter_none _ A).
  2:{ intros y Hy. destruct (below l (e_spot (fst y))) eqn:Eb; [|reflexivity]. exfalso. apply below_under in Eb.
      apply (proj1 (Forall_forall _ _) O1 (fst y)) in El; [contradiction|]. apply in_map. exact Hy. }
  cbn [app filter fst]. replace (below l (e_spot e)) with false.
  2:{ symmetry. destruct (below l (e_spot e)) eqn:Eb; [|reflexivity]. exfalso. apply below_under in Eb. apply (O3 l El). exact Eb. }
  rewrite <- (hungx_to (below l) B).
  2:{ intros l' Hl'. apply below_under in Hl'. injection Hl' as ->. apply Forall_forall. intros y Hy.
      apply (proj1 (Forall_forall _ _) O2 (fst y)); [apply in_map; exact Hy|exact El]. }
  assert (Ef : filter (fun x => mine e (fst (fst x))) (hungx B) = filter (fun x => below l (fst (fst x))) (hungx B)).
  { apply filter_ext. intros y. unfold mine. rewrite El. reflexivity. }
  rewrite Ef. clear Ef.
  assert (Each : forall y, In y (filter (fun x => below l (fst (fst x))) (hungx B)) -> shows s (e_name e) (bare (snd (fst y))) (snd y) /\ keeps s (snd (fst y)) (snd y)).
  { intros y Hy. apply filter_In in Hy. destruct Hy as [Hy Hb]. apply (IH (A ++ [(e, i)])); [rewrite <- app_assoc; reflexivity|exact Hy|apply below_under in Hb; rewrite Hb; discriminate|].
    destruct (hungx_from _ _ Hy) as (ey & Iy & Ey). apply below_under in Hb.
    assert (Iy' : In (ey, snd y) (A ++ (e, i) :: B)) by (apply in_app_iff; right; right; exact Iy).
    pose proof (proj1 (Forall_forall _ _) (ld_each _ _ D) _ Iy') as Sy. cbn [fst snd] in Sy. pose proof (sd_parent _ _ _ Sy) as Py. rewrite Ey, Hb in Py.
    destruct Py as (q & Q1 & Q2). unfold parent_named. rewrite Q1. rewrite (ld_uniq _ _ D l q i Q2 (sd_line _ _ _ S1 l El)). apply S1. }
  clear - Each. induction (filter (fun x => below l (fst (fst x))) (hungx B)) as [|y Y IHY]; [constructor|]. cbn [map]. constructor; [apply Each; left; reflexivity|].
  apply IHY. intros z Hz. apply Each. right. exact Hz.
Qed.

(** ** Reading a line *)

Definition tops_of (es : list entry) : list (nat * string) :=
  flat_map (fun e => match e_line e, e_spot e with Some l, At k => [(l, k)] | _, _ => [] end) es.

Definition section_of (s : st) (kv : string * nat) (h : head) : Prop :=
  fst kv = h_key h /\ lower (h_title h) = h_key h /\ t_val (tget (snd kv) s) = VStr (h_title h)
  /\ t_args (tget (snd kv) s) = h_args h /\ t_hargs (tget (snd kv) s) = h_header h /\ t_dtvn (tget (snd kv) s) = h_vname h.

Record oinv (old : nat -> list nat) (w : world) (v : view) (hs : list head) (L : list (entry * nat)) (s : st) : Prop := {
  oi_view : vinv (w_cols w) v s;
  oi_laid : laid s L;
  oi_tops : v_tops v = tops_of (map fst L);
  oi_at : forall e i k, In (e, i) L -> e_spot e = At k -> e_line e <> None;
  oi_parent : v_parent v <> current_parent;
  oi_heads : Forall2 (section_of s) (d_sections (s_doc s)) hs;
  oi_parser : props (p_dterms (s_prs s)) = w_parser w;
  oi_doc : props (d_decl_terms (s_doc s)) = w_doc w;
  oi_old : forall i, i < b_base -> i <> d_root (s_doc s) -> t_children (tget i s) = old i
}.

Lemma spot_look : forall decl v p r s q, vinv decl v s -> v_parent v <> current_parent ->
  (forall n, b_known n = None) \/ (spot_of v p r = Loose -> p = r /\ p <> current_parent) ->
  (if eqs p ELIDED_TERM then dget (p_lastparent (s_prs s)) (p_tmap (s_prs s)) = Some q
   else if eqs p r then q = hlen s else dget p (p_tmap (s_prs s)) = Some q) ->
  match spot_of v p r with
  | Under l => new_line s l q
  | At k => q = d_root (s_doc s) /\ k = v_cur v /\ (if eqs p current_parent then v_parent v else p) = "root"
  | Loose => q = hlen s /\ p = r /\ p <> current_parent
  end.
Proof.
  intros decl v p r s q V Np Hm Lk. change ELIDED_TERM with current_parent in Lk.
  assert (K : forall n, n <> current_parent -> dget n (p_tmap (s_prs s)) = Some q ->
    match spot_in v n with Under l => new_line s l q | At k => q = d_root (s_doc s) /\ k = v_cur v /\ n = "root" | Loose => exists m, b_known m <> None end).
  { intros n Ne H. unfold spot_in. eqs_cases n "root".
    - subst n. rewrite (pi_rootmap _ (vi_pinv _ _ _ V)) in H. injection H as <-. auto.
    - pose proof (vi_last _ _ _ V n E Ne) as W. destruct (assoc n (v_last v)) as [l|].
      + destruct W as (t & T1 & T2 & _). rewrite T1 in H. injection H as <-. exact T2.
      + exists n. rewrite W in H. rewrite H. discriminate. }
  revert Hm. unfold spot_of. eqs_cases p current_parent; intros Hm.
  - subst p. rewrite (vi_parent _ _ _ V) in Lk. pose proof (K _ Np Lk) as W. destruct (spot_in v (v_parent v)); [exact W|exact W|].
    exfalso. destruct Hm as [Hm|Hm]; [destruct W as (m & W); apply W; apply Hm|]. destruct (Hm eq_refl) as [_ X]. apply X. reflexivity.
  - eqs_cases p r; [auto|]. pose proof (K _ E Lk) as W. destruct (spot_in v p); [exact W|exact W|].
    exfalso. destruct Hm as [Hm|Hm]; [destruct W as (m & W); apply W; apply Hm|]. destruct (Hm eq_refl) as [X _]. contradiction.
Qed.

Lemma stands_kept : forall s s' e i, grow s s' -> d_root (s_doc s') = d_root (s_doc s) -> stands s e i ->
  (e_line e = None -> t_children (tget i s') = t_children (tget i s)) -> stands s' e i.
Proof.
  intros s s' e i G R [A1 A2 A3 A4 A5 A6 A7 Am A8 A9] C. pose proof (gw_same _ _ G i A1) as M. pose proof (gw_len _ _ G) as Ln. split.
  - lia.
  - rewrite (sm_cls _ _ M). exact A2.
  - rewrite (sm_rt _ _ M). exact A3.
  - rewrite (sm_val _ _ M). exact A4.
  - destruct A5 as (k & K1 & K2 & K3). exists k. rewrite (sm_section _ _ M). split; [exact K1|]. split; [lia|]. rewrite (sm_doc _ _ (gw_same _ _ G k K2)). exact K3.
  - destruct (e_spot e); try exact Logic.I; rewrite (sm_parent _ _ M), ?R; try exact A6. destruct A6 as (q & Q1 & Q2). exists q. split; [exact Q1|]. eapply new_line_grow; eassumption.
  - intros l El. eapply new_line_grow; [exact G|]. apply A7. exact El.
  - rewrite (sm_pt _ _ M), (sm_cpt _ _ M), (sm_tvn _ _ M). exact Am.
  - intros E. rewrite C by exact E. apply A8. exact E.
  - rewrite (sm_col _ _ M). exact A9.
Qed.

Lemma section_known : forall decl v s k i, vinv decl v s -> In (k, i) (d_sections (s_doc s)) -> dget k (d_sections (s_doc s)) = Some i.
Proof.
  intros decl v s k i V. pose proof (vi_nodup _ _ _ V) as N. rewrite <- (vi_keys _ _ _ V) in N. revert N.
  induction (d_sections (s_doc s)) as [|[k' v'] d IH]; intros N I; [destruct I|]. cbn [dget]. inversion N as [|? ? N1 N2]; subst.
  destruct I as [I|I]; [injection I as -> ->; rewrite eqs_refl; reflexivity|]. eqs_cases k k'; [|apply IH; assumption].
  exfalso. apply N1. subst k'. apply in_map_iff. exists (k, i). auto.
Qed.

Lemma combine_map_fst : forall {A B} (a : list A) (b : list B), List.length a = List.length b -> map fst (combine a b) = a.
Proof. intros A B a. induction a as [|x a IH]; intros [|y b] H; try discriminate H; [reflexivity|]. cbn. f_equal. apply IH. injection H as H. exact H. Qed.
Lemma combine_map_snd : forall {A B} (a : list A) (b : list B), List.length a = List.length b -> map snd (combine a b) = b.
Proof. intros A B a. induction a as [|x a IH]; intros [|y b] H; try discriminate H; [reflexivity|]. cbn. f_equal. apply IH. injection H as H. exact H. Qed.

Lemma filter_all : forall {A} (P : A -> bool) l, (forall x, In x l -> P x = true) -> filter P l = l.
Proof. intros A P l. induction l as [|x l IH]; intros H; [reflexivity|]. cbn [filter]. rewrite H by (left; reflexivity). f_equal. apply IH. intros y I. apply H. right. exact I. Qed.

Lemma tops_app : forall a b, tops_of (a ++ b) = (tops_of a ++ tops_of b)%list.
Proof. intros. unfold tops_of. apply flat_map_app. Qed.
Lemma tops_cells : forall sp m (l : list (string * string)), tops_of (map (fun nc => mk_entry None sp (fst nc) (snd nc) (m nc)) l) = [].
Proof. intros sp m l. induction l; [reflexivity|exact IHl]. Qed.

(** what is recorded of the term of a row *)
Lemma settled_meta : forall w v s q R, props (p_dterms (s_prs s)) = w_parser w -> props (d_decl_terms (s_doc s)) = w_doc w ->
  p_dtvn (s_prs s) = v_vname v -> p_lastparent (s_prs s) = v_parent v -> 
  forall vn p r, t_dtvn (tget (p_lastsec (s_prs s)) s) = vn -> t_pt R = p -> renamed (p_pmap (s_prs s)) (t_rt R) = r ->
  let m := noted w v p r in let n := if eqs (m_parent m) "root" then at_root w vn r m else m in
  t_pt (settled s q R) = m_parent n /\ t_cpt (settled s q R) = m_type n /\ t_tvn (settled s q R) = m_vname n.
Proof.
  intros w v s q R Wp Wd Vn Vp vn p r Svn Rp Rr m n.
  assert (Fp : final_pt s R = m_parent m) by (unfold final_pt, m, noted; cbn [m_parent]; rewrite Rp, Vp; reflexivity).
  unfold settled. rewrite Fp, Rr.
  set (r1 := set_t_section _ _). set (r2 := set_t_parent _ _).
  assert (J : tjoin r1 = dotted p r) by (unfold tjoin, r1; cbn; rewrite Rp; reflexivity).
  assert (C2 : t_cpt r2 = m_type m).
  { unfold m, noted. cbn [m_type]. rewrite <- Wp, <- J. reflexivity. }
  assert (V2 : t_tvn r2 = m_vname m).
  { unfold m, noted. cbn [m_vname]. rewrite <- Wp, <- J, <- Vn. reflexivity. }
  unfold n. destruct (eqs (m_parent m) "root") eqn:Er.
  - apply eqs_true in Er. assert (J2 : tjoin (set_t_doc true r2) = dotted "root" r) by (change (tjoin (set_t_doc true r2)) with (dotted (m_parent m) r); rewrite Er; reflexivity).
    rewrite Svn. unfold docmetaF, decl_prop. rewrite J2. change (t_cpt (set_t_doc true r2)) with (t_cpt r2). change (t_tvn (set_t_doc true r2)) with (t_tvn r2). rewrite C2, V2.
    unfold at_root. cbn [m_parent m_type m_vname]. rewrite <- Wd. unfold props, given.
    destruct (eqs (m_type m) "" || eqs (m_type m) "any"), (eqs (m_vname m) "" || eqs (m_vname m) vn); (split; [reflexivity|]); split; try reflexivity; assumption.
  - split; [reflexivity|]. split; assumption.
Qed.

Lemma vname_cur : forall s hs k i, Forall2 (section_of s) (d_sections (s_doc s)) hs -> dget k (d_sections (s_doc s)) = Some i -> t_dtvn (tget i s) = vname_in hs k.
Proof.
  intros s hs k i H. induction H as [|[k' i'] h ks hs (A & _ & _ & _ & _ & B) _ IH]; intros K; [discriminate K|]. cbn [fst snd] in *. subst k'. unfold vname_in. cbn [find]. cbn [dget] in K.
  rewrite eqs_sym. destruct (eqs k (h_key h)); [injection K as <-; exact B|]. apply IH. exact K.
Qed.

Lemma oinv_term : forall old w v hs L s s' ftype p r x row c q, oinv old w v hs L s -> vinv (w_cols w) (next (w_cols w) v (LTerm p r x (map strip (skipn 2 row)))) s' ->
  (forall n, b_known n = None) \/ (spot_of v p r = Loose -> p = r /\ p <> current_parent) ->
  r <> "root" -> r <> current_parent -> py_int r = None -> x = strip (nth 1 row "") ->
  term_row ftype (v_line v) p r row (v_cols v) s s' c q ->
  exists N, map fst N = line_entries w v (vname_in hs (v_cur v)) (LTerm p r x (map strip (skipn 2 row)))
    /\ oinv old w (next (w_cols w) v (LTerm p r x (map strip (skipn 2 row)))) hs (L ++ N) s'.
Proof.
  intros old w v hs L s s' ftype p r x row c q [V D Tp At0 Vp Hs Wp Wd Od] V' Hm Nrt Nr Pi Ex T.
  pose proof (vi_pinv _ _ _ V) as P. pose proof (tr_len _ _ _ _ _ _ _ _ _ _ T) as Ln.
  pose proof (term_row_grow _ _ _ _ _ _ _ _ _ _ T) as G.
  pose proof (spot_look _ _ _ _ _ _ V Vp Hm (tr_look _ _ _ _ _ _ _ _ _ _ T)) as Lk.
  set (cells := cells_from (v_cols v) 0 (map strip (skipn 2 row))).
  set (own := seq (S (hlen s)) (hlen s' - S (hlen s))).
  set (m0 := if eqs (m_parent (noted w v p r)) "root" then at_root w (vname_in hs (v_cur v)) r (noted w v p r) else noted w v p r).
  set (e0 := mk_entry (Some (v_line v)) (spot_of v p r) r x m0).
  set (es := map (fun nc => mk_entry None (cell_spot v p) (fst nc) (snd nc) (noted w v r (fst nc))) cells).
  set (host := if eqs p ELIDED_TERM then q else hlen s).
  set (R := row_rec c (v_line v) ftype p r row).
  assert (Lc : List.length es = List.length own).
  { unfold es. rewrite map_length. pose proof (tr_cells _ _ _ _ _ _ _ _ _ _ T) as E. fold own cells in E. apply (f_equal (@List.length _)) in E. rewrite !map_length in E. congruence. }
  assert (Hq : spot_of v p r <> Loose -> q < hlen s).
  { intros NL. destruct (spot_of v p r); [destruct Lk as [-> _]; apply (pi_root _ P)|exact (proj1 (proj2 Lk))|congruence]. }
  assert (Cs : eqs p current_parent = true -> cell_spot v p = match spot_of v p r with Under l => Under l | _ => Loose end /\ spot_of v p r <> Loose).
  { intros Ep. unfold cell_spot. rewrite Ep. split; [unfold spot_of; rewrite Ep; reflexivity|]. intros X. rewrite X in Lk. destruct Lk as (_ & _ & Y). apply Y. apply eqs_true. exact Ep. }
  assert (Cn : eqs p current_parent = false -> cell_spot v p = Under (v_line v)) by (intros Ep; unfold cell_spot; rewrite Ep; reflexivity).
  assert (Rt : d_root (s_doc s') = d_root (s_doc s)) by (rewrite (tr_doc _ _ _ _ _ _ _ _ _ _ T); destruct (eqs (final_pt _ _) _); reflexivity).
  assert (Old : forall i, i < hlen s -> same_term (tget i s) (tget i s') /\ t_hargs (tget i s') = t_hargs (tget i s) /\ t_dtvn (tget i s') = t_dtvn (tget i s)
     /\ t_children (tget i s') = (t_children (tget i s) ++ (if i =? q then [hlen s] else []) ++ (if i =? host then own else []))%list).
  { intros i Hi. destruct (tr_get _ _ _ _ _ _ _ _ _ _ T i) as (A & B & B' & C & _); [lia|]. cbv zeta in A, B, B', C.
    replace (i =? hlen s) with false in A, B, B', C by (symmetry; apply Nat.eqb_neq; lia). split; [exact A|]. split; [exact B|]. split; [exact B'|exact C]. }
  pose proof (settled_fields s q R) as SF. cbv zeta in SF.
  destruct SF as (F1 & F2 & F3 & F4 & F5 & F6 & F7 & F8 & F9 & F10 & F11 & F12 & F13 & F14 & _).
  assert (New : same_term (settled s q R) (tget (hlen s) s') /\ t_children (tget (hlen s) s') = ((if hlen s =? q then [hlen s] else []) ++ if hlen s =? host then own else [])%list).
  { destruct (tr_get _ _ _ _ _ _ _ _ _ _ T (hlen s)) as (A & _ & _ & C & _); [lia|]. cbv zeta in A, C. fold R in A, C. rewrite Nat.eqb_refl in A, C.
    split; [exact A|]. rewrite C, F13. reflexivity. }
  destruct New as [N1 N2].
  assert (L0 : new_line s' (v_line v) (hlen s)).
  { split; [apply (pi_base _ P)|]. split; [lia|]. rewrite (sm_cls _ _ N1), F1, (sm_row _ _ N1), F11, (sm_col _ _ N1), F12. split; [exact (tr_cls _ _ _ _ _ _ _ _ _ _ T)|]. split; reflexivity. }
  assert (Fresh : forall l t, new_line s l t -> l < v_line v).
  { intros l t (A0 & A & B & C & _). eapply (vi_lines _ _ _ V t l); [exact A0|exact A|exact B|exact C]. }
  assert (Bnd : forall e i l, In (e, i) L -> (e_line e = Some l \/ e_spot e = Under l) -> l < v_line v).
  { intros e i l I H. pose proof (proj1 (Forall_forall _ _) (ld_each _ _ D) _ I) as S1. cbn [fst snd] in S1. destruct H as [H|H].
    - eapply Fresh. apply (sd_line _ _ _ S1 _ H).
    - pose proof (sd_parent _ _ _ S1) as Q. rewrite H in Q. destruct Q as (q' & _ & Q). eapply Fresh. exact Q. }
  assert (Q0 : spot_of v p r = spot_of v p r /\ (forall l, spot_of v p r = Under l -> new_line s l q)).
  { split; [reflexivity|]. intros l E. rewrite E in Lk. exact Lk. }
  destruct Q0 as [_ Q0].
  (* the place of a term with a line of its own *)
  assert (Who : forall e i l, In (e, i) L -> e_line e = Some l ->
     (i =? q) = below l (spot_of v p r) /\ (i =? host) = below l (cell_spot v p)).
  { intros e i l I El. pose proof (proj1 (Forall_forall _ _) (ld_each _ _ D) _ I) as S1. cbn [fst snd] in S1. pose proof (sd_line _ _ _ S1 _ El) as Li.
    assert (W1 : (i =? q) = below l (spot_of v p r)).
    { destruct (spot_of v p r) as [k|l'|] eqn:Es; cbn [below].
      - destruct Lk as [-> _]. apply Nat.eqb_neq. intros ->. pose proof (sd_cls _ _ _ S1) as X. rewrite (pi_rootc _ P) in X. discriminate X.
      - destruct (Nat.eqb_spec l' l) as [->|Nl].
        + apply Nat.eqb_eq. eapply (ld_uniq _ _ D); [exact Li|exact Lk].
        + apply Nat.eqb_neq. intros ->. destruct Li as (_ & _ & _ & X & _), Lk as (_ & _ & _ & Y & _). congruence.
      - destruct Lk as [-> _]. apply Nat.eqb_neq. pose proof (sd_in _ _ _ S1). lia. }
    split; [exact W1|]. unfold host. change ELIDED_TERM with current_parent. destruct (eqs p current_parent) eqn:Ep.
    - rewrite (proj1 (Cs eq_refl)), W1. destruct (spot_of v p r); reflexivity.
    - rewrite (Cn eq_refl). cbn [below]. pose proof (Bnd _ _ _ I (or_introl El)). rewrite (proj2 (Nat.eqb_neq _ _)) by (pose proof (sd_in _ _ _ S1); lia). symmetry. apply Nat.eqb_neq. lia. }
  set (N := (e0, hlen s) :: combine es own).
  assert (Nf : map fst N = e0 :: es) by (unfold N; cbn [map fst]; rewrite combine_map_fst by exact Lc; reflexivity).
  assert (Ns : forall Q : spot -> bool, filter (fun y => Q (e_spot (fst y))) (combine es own) = if Q (cell_spot v p) then combine es own else []).
  { intros Q. destruct (Q (cell_spot v p)) eqn:EQ; [apply filter_all|apply filter_none]; intros [e i] I; apply in_combine_l in I; unfold es in I;
    apply in_map_iff in I; destruct I as (nc & <- & _); exact EQ. }
  exists N. split; [exact Nf|].
  assert (Nl : forall l, map snd (filter (fun y => below l (e_spot (fst y))) N) = ((if below l (spot_of v p r) then [hlen s] else []) ++ (if below l (cell_spot v p) then own else []))%list).
  { intros l. unfold N. cbn [filter fst]. change (e_spot e0) with (spot_of v p r). rewrite (Ns (below l)).
    destruct (below l (spot_of v p r)), (below l (cell_spot v p)); cbn [map snd app]; rewrite ?combine_map_snd by exact Lc; reflexivity. }
  assert (Host : t_doc (tget (p_lastsec (s_prs s)) s') = true).
  { rewrite (sm_doc _ _ (proj1 (Old _ (pi_last _ P)))). apply (pi_lastdoc _ P). }
  assert (Kid : forall e u, In (e, u) (combine es own) -> exists nc, e = mk_entry None (cell_spot v p) (fst nc) (snd nc) (noted w v r (fst nc))
     /\ S (hlen s) <= u < hlen s' /\ t_rt (tget u s') = fst nc /\ t_val (tget u s') = VStr (snd nc)).
  { pose proof (tr_cells _ _ _ _ _ _ _ _ _ _ T) as E. fold own cells in E. intros e u I.
    assert (U : S (hlen s) <= u < hlen s') by (apply in_combine_r in I; unfold own in I; apply in_seq in I; lia).
    clear - E I U. unfold es in I. revert E I. generalize own as ow. induction cells as [|nc cs IH]; intros ow E I; [destruct I|].
    destruct ow as [|o ow]; [destruct I|]. cbn [map combine] in *. injection E as E1 E2 E3. destruct I as [I|I].
    - injection I as <- <-. exists nc. auto.
    - destruct (IH ow E3 I) as (nc' & H). exists nc'. exact H. }
  assert (Ren : renamed (p_pmap (s_prs s)) (t_rt R) = r).
  { unfold renamed. change (t_rt R) with r. rewrite Pi. reflexivity. }
  assert (S0 : stands s' e0 (hlen s)).
  { split.
    - lia.
    - rewrite (sm_cls _ _ N1), F1. exact (tr_cls _ _ _ _ _ _ _ _ _ _ T).
    - rewrite (sm_rt _ _ N1), F5. exact Ren.
    - rewrite (sm_val _ _ N1), F6. change (t_val R) with (init_val (VStr (nth 1 row ""))). change (e_value e0) with x. rewrite Ex.
      unfold init_val. cbn [truthy]. unfold nonempty. eqs_cases (nth 1 row "") ""; cbn [negb strip_val]; [rewrite E; constructor|constructor].
    - exists (p_lastsec (s_prs s)). rewrite (sm_section _ _ N1), F8. split; [reflexivity|]. pose proof (pi_last _ P). split; [lia|exact Host].
    - change (e_spot e0) with (spot_of v p r). rewrite (sm_parent _ _ N1), F2. destruct (spot_of v p r) as [k|l|]; [rewrite Rt; destruct Lk as [-> _]; reflexivity| |exact Logic.I].
      exists q. split; [reflexivity|]. eapply new_line_grow; [exact G|exact Lk].
    - intros l El. injection El as <-. exact L0.
    - rewrite (sm_pt _ _ N1), (sm_cpt _ _ N1), (sm_tvn _ _ N1). exact (settled_meta w v s q R Wp Wd (vi_vname _ _ _ V) (vi_parent _ _ _ V) _ p r (vname_cur _ _ _ _ Hs (vi_cur _ _ _ V)) eq_refl Ren).
    - discriminate.
    - discriminate. }
  assert (SK : forall e u, In (e, u) (combine es own) -> stands s' e u).
  { intros e u I. destruct (Kid e u I) as (nc & -> & U & K1 & K2). destruct (tr_new _ _ _ _ _ _ _ _ _ _ T u U) as (A & _ & (kc & Kc1 & Kc2) & B & C & _ & Sx & Px). split.
    - lia.
    - exact A.
    - exact K1.
    - rewrite K2. constructor.
    - exists (p_lastsec (s_prs s)). split; [exact Sx|]. pose proof (pi_last _ P). split; [lia|exact Host].
    - cbn [e_spot]. rewrite B. change ELIDED_TERM with current_parent.
      destruct (eqs p current_parent) eqn:Ep; [|rewrite (Cn eq_refl); exists (hlen s); split; [reflexivity|exact L0]].
      rewrite (proj1 (Cs eq_refl)). destruct (spot_of v p r) as [k|l|]; [exact Logic.I| |exact Logic.I].
      exists q. split; [reflexivity|]. eapply new_line_grow; [exact G|exact Lk].
    - discriminate.
    - destruct (tr_meta _ _ _ _ _ _ _ _ _ _ T u U) as [M1 M2]. rewrite K1 in M1, M2. rewrite Px, M1, M2. unfold noted. cbn [e_meta m_parent m_type m_vname]. rewrite <- Wp, <- (vi_vname _ _ _ V).
      apply eqs_false in Nr. rewrite Nr. split; [reflexivity|]. split; reflexivity.
    - intros _. exact C.
    - intros _ X. rewrite Kc2 in X. injection X as ->. lia. }
  assert (Qc : q = hlen s \/ t_col (tget q s) = Some 1 \/ is_section_cls (t_cls (tget q s)) = true).
  { destruct (spot_of v p r) as [k|l|]; [destruct Lk as [-> _]; right; right; apply (pi_rootc _ P)|right; left; apply Lk|left; apply Lk]. }
  split.
  - exact V'.
  - split.
    + apply Forall_app. split.
      * apply Forall_forall. intros [e i] I. cbn [fst snd]. pose proof (proj1 (Forall_forall _ _) (ld_each _ _ D) _ I) as S1. cbn [fst snd] in S1.
        apply (stands_kept s); [exact G|exact Rt|exact S1|]. intros El. destruct (Old i (sd_in _ _ _ S1)) as (_ & _ & _ & ->).
        assert (Niq : i <> q).
        { intros ->. destruct Qc as [Qc|[Qc|Qc]]; [pose proof (sd_in _ _ _ S1); lia|apply (sd_col _ _ _ S1 El Qc)|]. rewrite (sd_cls _ _ _ S1) in Qc. discriminate Qc. }
        rewrite (proj2 (Nat.eqb_neq i q) Niq). replace (i =? host) with false; [rewrite app_nil_r; reflexivity|].
        symmetry. apply Nat.eqb_neq. unfold host. pose proof (sd_in _ _ _ S1). destruct (eqs p ELIDED_TERM); [exact Niq|lia].
      * apply Forall_forall. intros [e i] I. cbn [fst snd]. destruct I as [I|I]; [injection I as <- <-; exact S0|apply SK; exact I].
    + intros e i l I El NL. rewrite filter_app, map_app, Nl. apply in_app_iff in I. destruct I as [I|I].
      * pose proof (proj1 (Forall_forall _ _) (ld_each _ _ D) _ I) as S1. cbn [fst snd] in S1. destruct (Old i (sd_in _ _ _ S1)) as (_ & _ & _ & ->).
        rewrite (ld_kids _ _ D e i l I El NL). destruct (Who _ _ _ I El) as [-> ->]. reflexivity.
      * destruct I as [I|I]; [injection I as <- <-|destruct (Kid _ _ I) as (nc & -> & _); discriminate El]. injection El as <-. change (e_spot e0) with (spot_of v p r) in NL. specialize (Hq NL). rewrite N2. rewrite (proj2 (Nat.eqb_neq (hlen s) q)) by lia.
        rewrite filter_none.
        2:{ intros [e i] I. cbn [fst]. destruct (below (v_line v) (e_spot e)) eqn:Eb; [|reflexivity]. apply below_under in Eb. pose proof (Bnd _ _ _ I (or_intror Eb)). lia. }
        cbn [map app]. replace (below (v_line v) (spot_of v p r)) with false.
        2:{ symmetry. destruct (below (v_line v) (spot_of v p r)) eqn:Eb; [|reflexivity]. apply below_under in Eb. pose proof (Fresh _ _ (Q0 _ Eb)). lia. }
        cbn [app]. unfold host. change ELIDED_TERM with current_parent. destruct (eqs p current_parent) eqn:Ep.
        -- rewrite (proj1 (Cs eq_refl)). rewrite (proj2 (Nat.eqb_neq (hlen s) q)) by lia. destruct (spot_of v p r) as [k|l|] eqn:Es; try reflexivity. cbn [below].
           rewrite (proj2 (Nat.eqb_neq l (v_line v))); [reflexivity|]. pose proof (Fresh _ _ Lk). lia.
        -- rewrite (Cn eq_refl). cbn [below]. rewrite !Nat.eqb_refl. reflexivity.
    + destruct (ld_order _ _ D) as [O1 O2]. rewrite map_app, Nf.
      assert (Ce : forall e, In e es -> e_line e = None /\ e_spot e = cell_spot v p).
      { intros e I. unfold es in I. apply in_map_iff in I. destruct I as (nc & <- & _). split; reflexivity. }
      split.
      * apply fop_app; [exact O1| |].
        -- constructor.
           ++ apply Forall_forall. intros y I. destruct (Ce y I) as [Y1 Y2]. split; intros l; rewrite Y1; [intros _; discriminate|discriminate].
           ++ assert (Sub : forall l, incl l es -> ForallOrdPairs in_turn l).
              { induction l as [|y l IH]; intros H; constructor.
                - apply Forall_forall. intros z I. destruct (Ce y (H y (or_introl eq_refl))) as [Y1 _]. destruct (Ce z (H z (or_intror I))) as [Z1 _].
                  split; intros k; rewrite ?Y1, ?Z1; discriminate.
                - apply IH. intros z I. apply H. right. exact I. }
              apply Sub. apply incl_refl.
        -- intros a b Ia Ib. apply in_map_iff in Ia. destruct Ia as ([e i] & <- & I). cbn [fst]. destruct Ib as [<-|Ib].
           ++ split; [intros l El X|intros l X Es]; injection X as <-.
              ** pose proof (Bnd _ _ _ I (or_introl El)). lia.
              ** pose proof (Bnd _ _ _ I (or_intror Es)). lia.
           ++ destruct (Ce b Ib) as [Y1 _]. split; intros l; rewrite Y1; [intros _; discriminate|discriminate].
      * apply Forall_app. split; [exact O2|]. constructor.
        -- intros l X Es. injection X as <-. pose proof (Fresh _ _ (Q0 _ Es)). lia.
        -- apply Forall_forall. intros y I. destruct (Ce y I) as [Y1 _]. rewrite Y1. discriminate.
    + intros l t t' A B. eapply (vi_uniq _ _ _ V'); eassumption.
  - rewrite map_app, tops_app, Nf, <- Tp. unfold tops_of at 1. cbn [flat_map]. fold (tops_of es). unfold es. rewrite tops_cells, app_nil_r.
    change (e_line e0) with (Some (v_line v)). change (e_spot e0) with (spot_of v p r). cbn [next]. cbn iota.
    assert (Eq : v_tops (next (w_cols w) v (LTerm p r x (map strip (skipn 2 row)))) = (v_tops v ++ (if eqs (if eqs p current_parent then v_parent v else p) "root" then [(v_line v, v_cur v)] else []))%list).
    { cbn [next]. destruct (eqs p current_parent); reflexivity. }
    cbn [next] in Eq. rewrite Eq. f_equal. destruct (spot_of v p r) as [k|l|] eqn:Es; [destruct Lk as (_ & -> & ->); reflexivity| |].
    + unfold spot_of, spot_in in Es. destruct (eqs p current_parent); [|destruct (eqs p r); [discriminate Es|]];
      (destruct (eqs _ "root"); [discriminate Es|reflexivity]).
    + destruct Lk as (_ & -> & X). apply eqs_false in X. rewrite X. apply eqs_false in Nrt. rewrite Nrt. reflexivity.
  - intros e i k I Es. apply in_app_iff in I. destruct I as [I|[I|I]]; [eapply At0; eassumption|injection I as <- <-; discriminate|].
    exfalso. destruct (Kid _ _ I) as (nc & -> & _). cbn [e_spot] in Es. unfold cell_spot in Es. destruct (eqs p current_parent); [|discriminate Es]. destruct (spot_in v (v_parent v)); discriminate Es.
  - cbn [next]. destruct (eqs p current_parent); [exact Vp|exact Nr].
  - replace (d_sections (s_doc s')) with (d_sections (s_doc s)) by (rewrite (tr_doc _ _ _ _ _ _ _ _ _ _ T); destruct (eqs (final_pt _ _) _); reflexivity).
    assert (In0 : forall kv, In kv (d_sections (s_doc s)) -> snd kv < hlen s).
    { intros kv I. destruct kv as [k i]. apply (section_known _ _ _ _ _ V) in I. apply (pi_dsecs _ P) in I. apply I. }
    clear - Hs Old In0. revert In0. induction Hs as [|kv h ks hs (A & B & C & Dd & E & F) _ IH]; intros In0; constructor.
    + destruct (Old (snd kv)) as (M & H & K & _); [apply In0; left; reflexivity|]. split; [exact A|]. split; [exact B|]. rewrite (sm_val _ _ M), (sm_args _ _ M), H, K. auto.
    + apply IH. intros k I. apply In0. right. exact I.
  - rewrite <- Wp, (tr_prs _ _ _ _ _ _ _ _ _ _ T). destruct (eqs p ELIDED_TERM); reflexivity.
  - rewrite <- Wd, (tr_doc _ _ _ _ _ _ _ _ _ _ T). destruct (eqs (final_pt _ _) _); reflexivity.
  - intros i Hi Hc. pose proof (pi_base _ P) as Hb. rewrite Rt in Hc. destruct (Old i) as (_ & _ & _ & ->); [lia|]. rewrite (Od i Hi Hc).
    assert (Ni : i <> q).
    { destruct (spot_of v p r) as [k|l|]; [|destruct Lk as [Lk _]; lia|destruct Lk as [-> _]; lia]. destruct Lk as [-> _]. exact Hc. }
    rewrite (proj2 (Nat.eqb_neq i q) Ni). replace (i =? host) with false; [apply app_nil_r|].
    symmetry. apply Nat.eqb_neq. unfold host. destruct (eqs p ELIDED_TERM); [exact Ni|lia].
Qed.

Lemma laid_kept : forall decl v' s s' L, laid s L -> grow s s' -> d_root (s_doc s') = d_root (s_doc s) ->
  (forall i, i < hlen s -> t_children (tget i s') = t_children (tget i s)) -> vinv decl v' s' -> laid s' L.
Proof.
  intros decl v' s s' L [A B C D] G R Ch V'. split.
  - apply Forall_forall. intros [e i] I. pose proof (proj1 (Forall_forall _ _) A _ I) as S1. cbn [fst snd] in *. apply (stands_kept s); auto. intros _. apply Ch. apply S1.
  - intros e i l I El NL. pose proof (proj1 (Forall_forall _ _) A _ I) as S1. cbn [fst snd] in *. rewrite Ch by apply S1. apply (B e i l I El NL).
  - exact C.
  - intros l t t' X Y. eapply (vi_uniq _ _ _ V'); eassumption.
Qed.


Lemma section_of_kept : forall s s' kv h, tget (snd kv) s' = tget (snd kv) s -> section_of s kv h -> section_of s' kv h.
Proof. intros s s' kv h E (A & B & C & D & F & K). unfold section_of. rewrite E. auto 10. Qed.

Lemma oinv_section : forall old w v hs L s n args ftype, oinv old w v hs L s -> n <> "" -> ftype <> Some "declare" ->
  ~ In (lower (strip n)) b_odd -> ~ In "section" (map lower (map strip args)) ->
  oinv old w (next (w_cols w) v (LSection n (map strip args))) (next_heads (w_cols w) (v_cur v) hs (LSection n (map strip args))) L (section_effect n args (v_line v) ftype s).
Proof.
  intros old w v hs L s n args ftype [V D Tp At0 Vp Hs Wp Wd Od] Hn Ft Ho Ha.
  pose proof (vinv_section (w_cols w) v s n args ftype V Hn Ft Ho Ha) as V'. pose proof (vi_pinv _ _ _ V) as P.
  set (s' := section_effect n args (v_line v) ftype s) in *.
  assert (Len : hlen s' = S (hlen s)) by apply section_effect_len.
  assert (Old : forall i, i < hlen s -> tget i s' = tget i s) by (intros; apply section_effect_old; assumption).
  assert (G : grow s s') by (apply grow_heap; [lia|]; intros i Hi; rewrite Old by exact Hi; split; [apply same_refl|auto]).
  assert (Rt : d_root (s_doc s') = d_root (s_doc s)).
  { unfold s', section_effect. destruct (dget _ _); [rewrite enter_doc|rewrite doc_dmod, enter_doc]; reflexivity. }
  set (k := lower (strip n)) in *.
  assert (Nx : v_tops (next (w_cols w) v (LSection n (map strip args))) = v_tops v /\ (v_parent (next (w_cols w) v (LSection n (map strip args))) = v_parent v \/ v_parent (next (w_cols w) v (LSection n (map strip args))) = "root")).
  { cbn [next]. fold k. destruct (eqs k "root"); cbn; auto. }
  split.
  - exact V'.
  - eapply laid_kept; [exact D|exact G|exact Rt| |exact V']. intros i Hi. rewrite Old by exact Hi. reflexivity.
  - rewrite (proj1 Nx). exact Tp.
  - exact At0.
  - destruct Nx as [_ [-> | ->]]; [exact Vp|discriminate].
  - assert (Hs' : Forall2 (section_of s') (d_sections (s_doc s)) hs).
    { assert (In0 : forall kv, In kv (d_sections (s_doc s)) -> snd kv < hlen s).
      { intros [k0 i] I. apply (section_known _ _ _ _ _ V) in I. apply (pi_dsecs _ P) in I. apply I. }
      clear - Hs Old In0. revert In0. induction Hs as [|kv h ks hs H _ IH]; intros In0; constructor.
      - eapply section_of_kept; [|exact H]. apply Old. apply In0. left. reflexivity.
      - apply IH. intros kv' I. apply In0. right. exact I. }
    assert (Ex : existsb (fun h => eqs (h_key h) k) hs = match dget k (d_sections (s_doc s)) with Some _ => true | None => false end).
    { clear - Hs. induction Hs as [|kv h ks hs H _ IH]; [reflexivity|]. cbn [existsb]. destruct kv as [k0 i]. cbn [dget]. destruct H as (H & _). cbn [fst] in H. subst k0.
      rewrite eqs_sym. destruct (eqs k (h_key h)); [reflexivity|exact IH]. }
    cbn [next_heads]. fold k. rewrite Ex. unfold s', section_effect. fold k.
    destruct (dget k (d_sections (s_doc s))) as [i|] eqn:Ek.
    + rewrite enter_doc. unfold s', section_effect in Hs'. fold k in Hs'. rewrite Ek in Hs'. exact Hs'.
    + assert (New : tget (hlen s) s' = section_rec n (heading_args (s_doc s) n args) (v_line v) ftype "root.section") by apply section_effect_new.
      unfold s', section_effect in Hs', New. fold k in Hs', New. rewrite Ek in Hs', New. rewrite doc_dmod, enter_doc.
      cbn [d_sections set_d_sections]. change (s_doc (push ?r s)) with (s_doc s).
      assert (Ed : dset k (hlen s) (d_sections (s_doc s)) = (d_sections (s_doc s) ++ [(k, hlen s)])%list).
      { apply dset_absent. exact Ek. }
      rewrite Ed. apply Forall2_app; [exact Hs'|]. constructor; [|constructor]. split; [reflexivity|]. split; [reflexivity|]. cbn [snd h_title h_args h_header]. rewrite New.
      split; [|split; [|split; reflexivity]].
      * change (t_val (section_rec n (heading_args (s_doc s) n args) (v_line v) ftype "root.section")) with (init_val (VStr n)).
        unfold init_val. cbn [truthy]. unfold nonempty. apply eqs_false in Hn. rewrite Hn. reflexivity.
      * change (t_args (section_rec n (heading_args (s_doc s) n args) (v_line v) ftype "root.section")) with (map strip (heading_args (s_doc s) n args)).
        unfold heading_args. destruct args as [|a0 args']; [|reflexivity]. cbn [map]. f_equal. apply (vi_decl _ _ _ V).
  - rewrite <- Wp. unfold s', section_effect. destruct (dget _ _); [|rewrite prs_dmod]; rewrite (proj1 (proj2 (enter_prs _ _))); reflexivity.
  - rewrite <- Wd. unfold s', section_effect. destruct (dget _ _); [rewrite enter_doc|rewrite doc_dmod, enter_doc]; reflexivity.
  - intros i Hi. pose proof (pi_base _ P) as Hb. rewrite Old by lia. rewrite Rt. apply Od. exact Hi.
Qed.

Lemma oinv_header : forall old w v hs L s c row n ftype, oinv old w v hs L s -> n = strip (nth 1 row "") ->
  vinv (w_cols w) (next (w_cols w) v (LHeader n (map strip (skipn 2 row)))) (header_effect c (v_line v) ftype row s) ->
  oinv old w (next (w_cols w) v (LHeader n (map strip (skipn 2 row)))) (next_heads (w_cols w) (v_cur v) hs (LHeader n (map strip (skipn 2 row)))) L (header_effect c (v_line v) ftype row s).
Proof.
  intros old w v hs L s c row n ftype [V D Tp At0 Vp Hs Wp Wd Od] En V'. pose proof (vi_pinv _ _ _ V) as P. pose proof (pi_last _ P) as PL.
  set (s' := header_effect c (v_line v) ftype row s) in *.
  assert (Len : hlen s' = S (hlen s)) by apply header_effect_len.
  assert (Old : forall i, i < hlen s -> tget i s' = if i =? p_lastsec (s_prs s)
    then set_t_dtvn (lower (strip (nth 1 row ""))) (set_t_hargs (map strip (skipn 2 row)) (tget i s)) else tget i s).
  { intros i Hi. unfold s'. rewrite header_effect_get by (try exact PL; lia). rewrite (proj2 (Nat.eqb_neq i (hlen s))) by lia. reflexivity. }
  assert (G : grow s s').
  { apply grow_heap; [lia|]. intros i Hi. rewrite Old by exact Hi. destruct (i =? _); [|split; [apply same_refl|auto]]. split; [split; reflexivity|split; reflexivity]. }
  assert (Rt : d_root (s_doc s') = d_root (s_doc s)) by reflexivity.
  split.
  - exact V'.
  - eapply laid_kept; [exact D|exact G|exact Rt| |exact V']. intros i Hi. rewrite Old by exact Hi. destruct (i =? _); reflexivity.
  - exact Tp.
  - exact At0.
  - exact Vp.
  - cbn [next_heads]. change (d_sections (s_doc s')) with (d_sections (s_doc s)).
    assert (In0 : forall k i, In (k, i) (d_sections (s_doc s)) -> i < hlen s /\ (i =? p_lastsec (s_prs s)) = eqs k (v_cur v)).
    { intros k i I. apply (section_known _ _ _ _ _ V) in I. split; [apply (pi_dsecs _ P) in I; apply I|].
      eqs_cases k (v_cur v).
      - subst k. rewrite (vi_cur _ _ _ V) in I. injection I as <-. apply Nat.eqb_refl.
      - apply Nat.eqb_neq. intros ->. apply E. eapply sec_key_inj; [exact P|exact I|apply (vi_cur _ _ _ V)]. }
    clear - Hs Old In0 En. revert In0. induction Hs as [|[k i] h ks hs H _ IH]; intros In0; [constructor|]. cbn [map]. constructor.
    + destruct (In0 k i (or_introl eq_refl)) as [Hi Ei]. destruct H as (A & B & C & Dd & F & K). cbn [fst snd] in *. unfold section_of. cbn [fst snd]. rewrite (Old i Hi), Ei.
      unfold with_header. rewrite <- A. destruct (eqs k (v_cur v)); cbn [h_key h_title h_args h_header h_vname].
      * rewrite A, En. cbn [t_val t_args t_hargs t_dtvn set_t_dtvn set_t_hargs]. auto 10.
      * rewrite A. auto 10.
    + apply IH. intros k' i' I. apply In0. right. exact I.
  - exact Wp.
  - exact Wd.
  - intros i Hi. pose proof (pi_base _ P) as Hb. rewrite Old by lia. rewrite Rt. destruct (i =? _); apply Od; exact Hi.
Qed.

Lemma next_cur : forall decl v l, v_cur (next decl v l) = match l with LSection n _ => lower (strip n) | _ => v_cur v end.
Proof.
  intros decl v l. destruct l as [|n cells| |p r x cells]; try reflexivity; cbn [next].
  - eqs_cases (lower (strip n)) "root"; [symmetry; exact E|reflexivity].
  - destruct (eqs p current_parent); reflexivity.
Qed.

Definition comes (v : view) (l : line) : Prop :=
  match l with LTerm p r _ _ => spot_of v p r = Loose -> p = r /\ p <> current_parent | _ => True end.

Lemma oinv_row : forall old w v hs L s s' ftype row l, ftype <> Some "declare" -> oinv old w v hs L s -> pinv s' -> reads row l -> usual l -> greets l ->
  (forall n, b_known n = None) \/ comes v l -> row_eff ftype (v_line v) row s s' ->
  exists N, map fst N = line_entries w v (vname_in hs (v_cur v)) l /\ oinv old w (next (w_cols w) v l) (next_heads (w_cols w) (v_cur v) hs l) (L ++ N) s'.
Proof.
  intros old w v hs L s s' ftype row l Ft O PI Rd U Gr Hm H. pose proof (oi_view _ _ _ _ _ _ O) as V.
  destruct (vinv_row _ _ _ _ _ _ _ Ft V PI Rd U Gr H) as [V' TR].
  destruct H as [H1 ->|H1 H2 H3 ->|c H1 H2 H3 H4 ->|p r c q s1 H1 H2 H3 H4 H5 H6 H7].
  - apply skip_blank in H1. destruct Rd as [B|NB C|NB C|p' r' NB C Hx]; try tauto.
    exists []. split; [reflexivity|]. rewrite app_nil_r. destruct O as [_ A2 A3 A4 A5 A6 A7 A8 A9]. split; try assumption.
  - apply not_blank in H1. destruct Rd as [B|NB C|NB C|p' r' NB C Hx]; try tauto.
    + exists []. split; [reflexivity|]. rewrite app_nil_r. apply oinv_section; auto.
    + destruct (cell_names_fun _ _ _ _ _ H2 C). discriminate.
    + destruct (cell_names_fun _ _ _ _ _ H2 C) as [<- <-]. exfalso. apply Hx; cbn; auto.
  - apply not_blank in H1. destruct Rd as [B|NB C|NB C|p' r' NB C Hx]; try tauto.
    + destruct (cell_names_fun _ _ _ _ _ H2 C). discriminate.
    + exists []. split; [reflexivity|]. rewrite app_nil_r. apply oinv_header; auto.
    + destruct (cell_names_fun _ _ _ _ _ H2 C) as [<- <-]. exfalso. apply Hx; cbn; auto.
  - apply not_blank in H1. destruct Rd as [B|NB C|NB C|p' r' NB C Hx]; try tauto.
    + destruct (cell_names_fun _ _ _ _ _ H2 C) as [-> ->]. exfalso. apply H3; cbn; auto.
    + destruct (cell_names_fun _ _ _ _ _ H2 C) as [-> ->]. exfalso. apply H3; cbn; auto.
    + destruct (TR _ _ _ _ eq_refl) as (c' & q' & T). destruct U as (U1 & U2 & U3 & _).
      eapply oinv_term; [exact O|exact V'|exact Hm|exact U3|exact U2|exact U1|reflexivity|exact T].
Qed.

Lemma oinv_rows : forall old w ftype rows ls v hs L s s', ftype <> Some "declare" -> oinv old w v hs L s -> Forall2 reads rows ls -> Forall usual ls -> Forall greets ls ->
  (forall n, b_known n = None) \/ among_themselves (w_cols w) v ls -> rows_eff ftype (v_line v) rows s s' ->
  exists N, map fst N = made w v hs ls /\ oinv old w (fold_left (next (w_cols w)) ls v) (heads w v hs ls) (L ++ N) s'.
Proof.
  intros old w ftype rows ls v hs L s s' Ft O Rd. revert v hs L s O. induction Rd as [|row l rows ls R1 R2 IH]; intros v hs L s O U Gr Hm H.
  - inversion H; subst. exists []. split; [reflexivity|]. rewrite app_nil_r. exact O.
  - inversion U as [|? ? U1 U2]; subst. inversion Gr as [|? ? G1 G2]; subst. inversion H as [|? ? ? ? s1 ? H1 H2 H3]; subst.
    assert (Hm1 : (forall n, b_known n = None) \/ comes v l) by (destruct Hm as [Hm|[Hm _]]; auto).
    assert (Hm2 : (forall n, b_known n = None) \/ among_themselves (w_cols w) (next (w_cols w) v l) ls) by (destruct Hm as [Hm|[_ Hm]]; auto).
    destruct (oinv_row _ _ _ _ _ _ _ _ _ _ Ft O H2 R1 U1 G1 Hm1 H1) as (N & E1 & O1).
    destruct (IH (next (w_cols w) v l) _ _ s1 O1 U2 G2 Hm2) as (N' & E2 & O2); [rewrite next_line; exact H3|].
    exists (N ++ N'). rewrite map_app, E1, E2. split; [reflexivity|]. cbn [fold_left heads]. rewrite app_assoc. exact O2.
Qed.

(** the terms of a section are those of the entries at its top *)
Lemma oinv_terms : forall old w v hs L s k i, oinv old w v hs L s -> dget k (d_sections (s_doc s)) = Some i ->
  t_terms (tget i s) = (before i ++ map snd (filter (fun x => at_top k (e_spot (fst x))) L))%list.
Proof.
  intros old w v hs L s k i [V D Tp At0 _ _ _ _ _] K. destruct (vi_sterms _ _ _ V k i K) as (new & E & F). rewrite E. f_equal. rewrite Tp in F.
  pose proof (ld_each _ _ D) as Ea. pose proof (ld_uniq _ _ D) as Un. clear - F Ea Un At0.
  revert F. generalize new as ts. clear new. induction L as [|[e j] L IH]; intros ts F.
  - inversion F. reflexivity.
  - inversion Ea as [|? ? E1 E2]; subst. cbn [fst snd] in E1. cbn [map tops_of flat_map fst] in F. fold (tops_of (map fst L)) in F.
    assert (At1 : forall e i k, In (e, i) L -> e_spot e = At k -> e_line e <> None) by (intros e' i' k' I; apply (At0 e' i' k'); right; exact I).
    cbn [filter fst]. destruct (e_spot e) as [k'|l'|] eqn:Es; cbn [at_top].
    + pose proof (At0 e j k' (or_introl eq_refl) Es) as Ne. destruct (e_line e) as [l|] eqn:El; [|congruence]. cbn [app filter snd] in F.
      destruct (eqs k' k); [|apply IH; auto].
      inversion F as [|t ? ts' ? F1 F2]; subst. cbn [map snd]. f_equal; [|apply IH; auto]. cbn [fst] in F1. eapply Un; [exact F1|]. apply (sd_line _ _ _ E1 _ El).
    + apply IH; auto. destruct (e_line e); exact F.
    + apply IH; auto. destruct (e_line e); exact F.
Qed.

Lemma parent_named_top : forall s e i k, stands s e i -> e_spot e = At k -> t_rt (tget (d_root (s_doc s)) s) = "root" -> parent_named s i "root".
Proof. intros s e i k S1 E R. pose proof (sd_parent _ _ _ S1) as Q. rewrite E in Q. unfold parent_named. rewrite Q. exact R. Qed.

Lemma Forall2_onto : forall {A B C} (R : A -> B -> Prop) (Q : A -> C -> Prop) (f : B -> C) a b,
  Forall2 R a b -> (forall x y, In x a -> R x y -> Q x (f y)) -> Forall2 Q a (map f b).
Proof. intros A B C R Q f a b H. induction H as [|x y a b H1 _ IH]; intros K; constructor; [apply K; [left; reflexivity|exact H1]|]. apply IH. intros x' y' I. apply K. right. exact I. Qed.

(** the sections: what was there before, then the trees of the lines *)
Lemma oinv_sections : forall old w v hs L s, oinv old w v hs L s ->
  Forall2 (fun kv h => dget (fst kv) (d_sections (s_doc s)) = Some (snd kv) /\ section_of s kv h
     /\ exists new, t_terms (tget (snd kv) s) = (before (snd kv) ++ new)%list
          /\ Forall2 (fun t x => shows s "root" (bare t) x /\ keeps s t x) (tops (h_key h) (map fst L)) new) (d_sections (s_doc s)) hs.
Proof.
  intros old w v hs L s O. pose proof (oi_view _ _ _ _ _ _ O) as V. pose proof (vi_pinv _ _ _ V) as P. pose proof (oi_laid _ _ _ _ _ _ O) as D.
  rewrite <- (map_id hs). eapply Forall2_onto; [exact (oi_heads _ _ _ _ _ _ O)|]. intros [k i] h I S1. pose proof S1 as (A & _). cbn [fst snd] in *.
  apply (section_known _ _ _ _ _ V) in I. split; [exact I|]. split; [exact S1|]. eexists. split; [apply (oinv_terms _ _ _ _ _ _ _ _ O I)|]. rewrite A.
  rewrite <- (hungx_to (at_top (h_key h)) L) by (intros l X; discriminate X).
  unfold tops. rewrite <- hungx_fst, filter_map, map_map.
  assert (Each : forall y, In y (filter (fun x => at_top (h_key h) (fst (fst x))) (hungx L)) -> shows s "root" (bare (snd (fst y))) (snd y) /\ keeps s (snd (fst y)) (snd y)).
  { intros y Hy. apply filter_In in Hy. destruct Hy as [Hy Ht]. apply (laid_shows s L D [] L eq_refl); [exact Hy|intros X; rewrite X in Ht; discriminate Ht|].
    destruct (hungx_from _ _ Hy) as (e & Ie & Ee). destruct (fst (fst y)) as [k'|k'|] eqn:Ey; try discriminate Ht.
    eapply parent_named_top; [apply (proj1 (Forall_forall _ _) (ld_each _ _ D) (e, snd y) Ie)|exact Ee|apply (pi_rootn _ P)]. }
  clear - Each. induction (filter (fun x => at_top (h_key h) (fst (fst x))) (hungx L)) as [|y Y IHY]; [constructor|]. cbn [map]. constructor; [apply Each; left; reflexivity|].
  apply IHY. intros z Hz. apply Each. right. exact Hz.
Qed.

End Background.

Lemma shows_same : forall s s', s_heap s' = s_heap s -> forall t p x, shows s p t x -> shows s' p t x.
Proof.
  intros s s' E. assert (Eh : forall i, tget i s' = tget i s) by (intros i; unfold tget; rewrite E; reflexivity).
  intros t. induction t as [n v kids IH] using tree_ind'. intros p x H. inversion H as [? ? ? ? i A B C D F K]; subst.
  apply shows_term with (i := i); rewrite ?Eh; try assumption; try reflexivity.
  - unfold parent_named. rewrite Eh. unfold parent_named in C. destruct (t_parent (tget x s)); rewrite ?Eh; exact C.
  - clear - IH K. revert IH. induction K as [|k c ks cs K1 K2 IHk]; intros IH; [constructor|]. inversion IH as [|? ? IH1 IH2]; subst. constructor; [apply IH1; exact K1|apply IHk; assumption].
Qed.

Lemma keeps_same : forall s s', s_heap s' = s_heap s -> forall t x, keeps s t x -> keeps s' t x.
Proof.
  intros s s' E. assert (Eh : forall i, tget i s' = tget i s) by (intros i; unfold tget; rewrite E; reflexivity).
  fix IH 3. intros t x H. destruct H as [e kids x A B C D F K]. apply keeps_term; rewrite ?Eh; try assumption.
  revert K. generalize (t_children (tget x s)) as cs. intros cs K. induction K as [|t c ts cs K1 _ IHk]; constructor; [apply IH; exact K1|exact IHk].
Qed.

(** ** A file *)

Lemma oinv_start : forall reg dt ds sup, good_reg reg -> no_section_column (declared_columns ds) ->
  oinv (fun _ => []) (mk_world (declared_columns ds) (props installed_terms) (props dt)) first_view first_heads [] (started (new_doc reg dt ds sup)).
Proof.
  intros reg dt ds sup GR ND. pose proof (first_vinv reg dt ds sup GR ND) as V. split.
  - exact V.
  - split; [constructor|intros e i l []|split; constructor|]. exact (vi_uniq _ _ _ V).
  - reflexivity.
  - intros e i k [].
  - discriminate.
  - constructor; [|constructor]. split; [reflexivity|]. split; [reflexivity|]. split; [reflexivity|]. split; [reflexivity|]. split; reflexivity.
  - reflexivity.
  - reflexivity.
  - intros i Hi. cbn in Hi. lia.
Qed.

Lemma outline_run : forall g rows ls s, proper g -> means rows ls -> loads g rows s ->
  Forall2 (fun kv h => fst kv = h_key h /\ lower (h_title h) = h_key h /\ t_val (tget (snd kv) s) = VStr (h_title h) /\ columns_of (tget (snd kv) s) = columns h
     /\ Forall2 (fun t x => shows s "root" (bare t) x /\ keeps s t x) (tops (h_key h) (made (world_of g) first_view first_heads ls)) (t_terms (tget (snd kv) s)))
    (d_sections (s_doc s)) (heads (world_of g) first_view first_heads ls).
Proof.
  intros g rows ls s [GR ND] [Rd U] L. destruct (parse_rows_eff _ _ _ _ _ _ _ _ _ _ _ GR ND Rd U L) as (s1 & RE & F & _).
  destruct (oinv_rows _ _ None rows ls first_view first_heads [] _ s1 ltac:(discriminate) (oinv_start _ (in_terms g) _ (in_super g) GR ND) Rd U (greets_each _) (or_introl (fun _ => eq_refl)) RE) as (N & E & O).
  cbn [app] in O. apply oinv_sections in O. rewrite E in O. rewrite (fi_sections _ _ F). unfold world_of, cols_of.
  assert (Eh : forall i, tget i s = tget i s1) by (intros i; unfold tget; rewrite (fi_heap _ _ F); reflexivity).
  eapply Forall2_imp; [|exact O]. intros kv h (_ & (A & B & C & D & K & _) & new & T & W). rewrite !Eh. split; [exact A|]. split; [exact B|]. split; [exact C|].
  split; [unfold columns_of, columns; rewrite D, K; reflexivity|]. rewrite T. unfold before. cbn [b_base no_background Nat.ltb Nat.leb app].
  eapply Forall2_imp; [|exact W]. intros t x [X Y]. split; [eapply shows_same; [apply F|exact X]|eapply keeps_same; [apply F|exact Y]].
Qed.

Lemma c77_outline : forall g rows ls s, proper g -> means rows ls -> loads g rows s ->
  shows_doc s (outline (world_of g) ls).
Proof.
  intros g rows ls s Pg M L. unfold shows_doc, outline. eapply Forall2_onto; [exact (outline_run g rows ls s Pg M L)|]. intros kv h _ (A & B & C & D & T).
  unfold shows_section. cbn [sc_name sc_cols sc_terms]. split; [congruence|]. split; [exact C|]. split; [exact D|].
  clear - T. induction T as [|t x ts xs [H _] _ IH]; constructor; assumption.
Qed.

(** what is recorded of every term *)
Lemma c77_recorded : forall g rows ls s, proper g -> means rows ls -> loads g rows s ->
  Forall2 (fun kv h => fst kv = h_key h /\ Forall2 (keeps s) (tops (h_key h) (made (world_of g) first_view first_heads ls)) (t_terms (tget (snd kv) s)))
    (d_sections (s_doc s)) (heads (world_of g) first_view first_heads ls).
Proof.
  intros g rows ls s Pg M L. eapply Forall2_imp; [|exact (outline_run g rows ls s Pg M L)]. intros kv h (A & _ & _ & _ & T). split; [exact A|].
  eapply Forall2_imp; [|exact T]. intros t x H. apply H.
Qed.

Lemma c77_total : forall g rows ls, proper g -> plain_classes g -> in_fuel g <> 0 -> means rows ls -> Forall sound ls ->
  (forall pre l post, ls = (pre ++ l :: post)%list -> placed pre l) ->
  exists s, loads g rows s /\ shows_doc s (outline (world_of g) ls).
Proof.
  intros g rows ls P C Fu M S1 Pl. destruct (loads_total g rows ls P C Fu M S1 Pl) as (s & L). exists s. split; [exact L|]. eapply c77_outline; eassumption.
Qed.

(** a document shows one outline only *)
Lemma text_fun : forall v a b, text_of v a -> text_of v b -> a = b.
Proof. intros v a b H K. destruct H; inversion K; congruence. Qed.

Lemma shows_fun : forall s t p t' p' x, shows s p t x -> shows s p' t' x -> t = t'.
Proof.
  intros s t. induction t as [n v kids IH] using tree_ind'. intros p [n' v' kids'] p' x H H'.
  inversion H as [? ? ? ? i A B C D F K]; subst. inversion H' as [? ? ? ? i' A' B' C' D' F' K']; subst. f_equal; [eapply text_fun; eassumption|].
  clear - IH K K'. revert kids' K'. induction K as [|k c ks cs K1 K2 IHk]; intros kids' K'; inversion K'; subst; [reflexivity|].
  inversion IH as [|? ? IH1 IH2]; subst. f_equal; [eapply IH1; eassumption|apply IHk; assumption].
Qed.

Lemma shows_doc_fun : forall s o o', shows_doc s o -> shows_doc s o' -> o = o'.
Proof.
  intros s o o'. unfold shows_doc. intros H. revert o'. induction H as [|kv c ks cs (A & B & C & D) _ IH]; intros o' H'; inversion H' as [|? c' ? cs' (A' & B' & C' & D') H2]; subst; [reflexivity|].
  f_equal; [|apply IH; assumption]. destruct c as [n cols ts], c' as [n' cols' ts']. cbn [sc_name sc_cols sc_terms] in *. f_equal; try congruence.
  clear - D D'. revert ts' D'. induction D as [|t x ts xs D1 _ IHD]; intros ts' D'; inversion D'; subst; [reflexivity|]. f_equal; [eapply shows_fun; eassumption|apply IHD; assumption].
Qed.

(** ** Rows after the first rows *)

Lemma tget_over : forall i s, hlen s <= i -> t_rt (tget i s) = "" /\ t_doc (tget i s) = false.
Proof. intros i s H. unfold tget, hget. rewrite nth_overflow by exact H. split; reflexivity. Qed.

Lemma shows_grown : forall s0 s, grow s0 s -> (forall i, i < hlen s0 -> i <> d_root (s_doc s0) -> t_children (tget i s) = t_children (tget i s0)) ->
  t_rt (tget (d_root (s_doc s0)) s0) = "root" -> 
  forall t p x, p <> "" -> well_named t -> shows s0 p t x -> shows s p t x.
Proof.
  intros s0 s G Ch Rt t. induction t as [n v kids IH] using tree_ind'. intros p x Np Nm H. inversion H as [? ? ? ? i A B C D F K]; subst. destruct Nm as (Nn & Nr & Nk).
  assert (Hx : x < hlen s0) by (destruct (Nat.lt_ge_cases x (hlen s0)) as [X|X]; [exact X|]; destruct (tget_over x s0 X) as [X1 _]; congruence).
  assert (Hi : i < hlen s0) by (destruct (Nat.lt_ge_cases i (hlen s0)) as [X|X]; [exact X|]; destruct (tget_over i s0 X) as [_ X1]; congruence).
  assert (Xr : x <> d_root (s_doc s0)) by (intros ->; congruence).
  pose proof (gw_same _ _ G x Hx) as M.
  apply shows_term with (i := i); rewrite ?(sm_rt _ _ M), ?(sm_val _ _ M), ?(sm_section _ _ M); auto.
  - unfold parent_named in *. rewrite (sm_parent _ _ M). rewrite (sm_pt _ _ M). destruct (t_parent (tget x s0)) as [q|]; [|exact C].
    assert (Hq : q < hlen s0) by (destruct (Nat.lt_ge_cases q (hlen s0)) as [X|X]; [exact X|]; destruct (tget_over q s0 X) as [X1 _]; congruence).
    rewrite (sm_rt _ _ (gw_same _ _ G q Hq)). exact C.
  - rewrite (sm_doc _ _ (gw_same _ _ G i Hi)). exact F.
  - rewrite (Ch x Hx Xr). clear - IH K Nk Nn. revert IH Nk. induction K as [|k c ks cs K1 _ IHk]; intros IH Nk; [constructor|].
    inversion IH as [|? ? IH1 IH2]; subst. destruct Nk as [Nk1 Nk2]. constructor; [apply IH1; assumption|apply IHk; assumption].
Qed.

Lemma oinv_past : forall odd s line, calm odd s -> @oinv (past odd s) (fun i => t_children (tget i s)) (world_in s) (view_of line s) (heads_of s) [] s.
Proof.
  intros odd s line C. pose proof (calm_vinv odd s line C) as V. split.
  - exact V.
  - split; [constructor|intros e i l []|split; constructor|]. exact (vi_uniq _ _ _ V).
  - reflexivity.
  - intros e i k [].
  - apply (ca_lp _ _ C).
  - unfold heads_of. pose proof (ca_secs _ _ C) as CS. pose proof (ca_names _ _ C) as Nd.
    assert (Each : forall kv, In kv (d_sections (s_doc s)) -> section_of s kv (head_of s kv)).
    { intros [k i] I. assert (K : dget k (d_sections (s_doc s)) = Some i).
      { clear - Nd I. unfold dkeys in Nd. induction (d_sections (s_doc s)) as [|[k' i'] d IH]; [destruct I|]. cbn [dget]. inversion Nd as [|? ? N1 N2]; subst.
        destruct I as [I|I]; [injection I as -> ->; rewrite eqs_refl; reflexivity|]. eqs_cases k k'; [|apply IH; assumption].
        exfalso. apply N1. subst k'. apply in_map_iff. exists (k, i). auto. }
      destruct (CS _ _ K) as (_ & _ & (n & N1 & N2) & _). unfold section_of, head_of. cbn [fst snd h_key h_title h_args h_header h_vname]. rewrite N1. auto 10. }
    clear - Each. induction (d_sections (s_doc s)) as [|kv l IH]; [constructor|]. cbn [map]. constructor; [apply Each; left; reflexivity|]. apply IH. intros x I. apply Each. right. exact I.
  - reflexivity.
  - reflexivity.
  - intros i _ _. reflexivity.
Qed.

Lemma old_terms_in : forall s o k i, shows_doc s o -> dget k (d_sections (s_doc s)) = Some i -> exists c, shows_section s (k, i) c /\ old_terms o k = sc_terms c /\ In c o.
Proof.
  intros s o k i H. unfold shows_doc in H. induction H as [|[k' i'] c ks cs H1 _ IH]; intros K; [discriminate K|]. cbn [dget] in K. unfold old_terms. cbn [find].
  pose proof (proj1 H1) as E. cbn [fst] in E. rewrite eqs_sym, <- E. destruct (eqs k k') eqn:Ek.
  - injection K as ->. apply eqs_true in Ek. subst k'. exists c. split; [exact H1|]. split; [reflexivity|left; reflexivity].
  - destruct (IH K) as (c' & A & B & D). exists c'. split; [exact A|]. split; [exact B|right; exact D].
Qed.

Lemma old_terms_out : forall s o k, shows_doc s o -> dget k (d_sections (s_doc s)) = None -> old_terms o k = [].
Proof.
  intros s o k H. unfold shows_doc in H. induction H as [|[k' i'] c ks cs H1 _ IH]; intros K; [reflexivity|]. cbn [dget] in K. unfold old_terms. cbn [find].
  pose proof (proj1 H1) as E. cbn [fst] in E. rewrite eqs_sym, <- E. destruct (eqs k k') eqn:Ek; [discriminate K|]. apply IH. exact K.
Qed.

(** a new section is a new term *)
Lemma row_newsec : forall {Bk : background} ftype line row s s' k i, row_eff ftype line row s s' ->
  dget k (d_sections (s_doc s)) = None -> dget k (d_sections (s_doc s')) = Some i -> hlen s <= i.
Proof.
  intros Bk ftype line row s s' k i H D. destruct H as [H1 ->|H1 H2 H3 ->|c H1 H2 H3 H4 ->|p r c q s1 H1 H2 H3 H4 H5 H6 H7].
  - congruence.
  - unfold section_effect. destruct (dget (lower (strip _)) _) as [j|] eqn:E.
    + rewrite enter_doc. cbn. congruence.
    + rewrite doc_dmod, enter_doc. cbn [d_sections set_d_sections]. rewrite dget_dset. eqs_cases k (lower (strip (nth 1 row ""))).
      * intros X. injection X as <-. lia.
      * cbn. congruence.
  - cbn. congruence.
  - assert (K : forall line ftype t n col args a b, kids line ftype t n col args a b -> d_sections (s_doc b) = d_sections (s_doc a)).
    { intros ? ? ? ? ? ? a b K. induction K as [| |? ? ? a a1 a' ? ? ? F N K IH]; auto. rewrite IH, (nt_doc _ _ _ _ N). destruct (eqs _ _); reflexivity. }
    rewrite (K _ _ _ _ _ _ _ _ H7), (nt_doc _ _ _ _ H6). destruct (eqs _ _); cbn; congruence.
Qed.
Lemma rows_newsec : forall {Bk : background} ftype n rows s s' k i, pinv s -> rows_eff ftype n rows s s' ->
  dget k (d_sections (s_doc s)) = None -> dget k (d_sections (s_doc s')) = Some i -> hlen s <= i.
Proof.
  intros Bk ftype n rows s s' k i P H. revert P. induction H as [n s|n row rows s s1 s' H1 H2 H3 IH]; intros P D K; [congruence|].
  destruct (dget k (d_sections (s_doc s1))) as [j|] eqn:E.
  - pose proof (rows_eff_dsec _ _ _ _ _ _ _ H3 E) as X. rewrite X in K. injection K as <-. eapply row_newsec; eassumption.
  - pose proof (IH H2 eq_refl K) as X. pose proof (gw_len _ _ (row_eff_grow _ _ _ _ _ P H1)). lia.
Qed.

Lemma after_outline_run : forall g head rows odd s0 ls s, loads_after g head rows odd s0 ls s -> among_themselves (cols_in s0) (view_past head s0 []) ls ->
  Forall2 (fun kv h => fst kv = h_key h /\ lower (h_title h) = h_key h /\ t_val (tget (snd kv) s) = VStr (h_title h) /\ columns_of (tget (snd kv) s) = columns h
     /\ exists new, t_terms (tget (snd kv) s) = (terms_of s0 (h_key h) ++ new)%list
        /\ Forall2 (fun t x => shows s "root" (bare t) x /\ keeps s t x) (tops (h_key h) (made (world_in s0) (view_past head s0 []) (heads_of s0) ls)) new)
    (d_sections (s_doc s)) (heads (world_in s0) (view_past head s0 []) (heads_of s0) ls)
  /\ exists s1, grow s0 s1 /\ s_heap s = s_heap s1 /\ (forall i, i < hlen s0 -> i <> d_root (s_doc s0) -> t_children (tget i s1) = t_children (tget i s0)).
Proof.
  intros g head rows odd s0 ls s LA Hm. destruct (after_run _ _ _ _ _ _ _ LA) as (s1 & RE & F). destruct LA as [L St C [Rd U] Od].
  destruct (oinv_rows (Bk := past odd s0) _ _ None rows ls (view_of (S (List.length head)) s0) (heads_of s0) [] s0 s1 ltac:(discriminate) (oinv_past odd s0 _ C) Rd U (greets_odd odd s0 ls Od) (or_intror Hm) RE) as (N & E & O).
  change (view_past head s0 []) with (view_of (S (List.length head)) s0). cbn [app] in O.
  pose proof (rows_eff_inv (Bk := past odd s0) _ _ _ _ _ (calm_pinv odd s0 C) RE) as [_ G].
  assert (Ch : forall i, i < hlen s0 -> i <> d_root (s_doc s0) -> t_children (tget i s1) = t_children (tget i s0)).
  { intros i Hi Ni. apply (oi_old _ _ _ _ _ _ O); [exact Hi|]. rewrite (rows_eff_root (Bk := past odd s0) _ _ _ _ _ RE). exact Ni. }
  split; [|exists s1; split; [exact G|split; [apply F|exact Ch]]].
  apply oinv_sections in O. rewrite E in O. rewrite (fi_sections _ _ F).
  assert (Eh : forall i, tget i s = tget i s1) by (intros i; unfold tget; rewrite (fi_heap _ _ F); reflexivity).
  eapply Forall2_imp; [|exact O]. intros [k i] h (K0 & (A & B & X & D & K & _) & new & T & W). cbn [fst snd] in *. rewrite !Eh. split; [exact A|]. split; [exact B|]. split; [exact X|].
  split; [unfold columns_of, columns; rewrite D, K; reflexivity|]. exists new. split.
  2:{ eapply Forall2_imp; [|exact W]. intros t x [Y Z]. split; [eapply shows_same; [apply F|exact Y]|eapply keeps_same; [apply F|exact Z]]. }
  rewrite T. f_equal. unfold before, terms_of. cbn [b_base b_sterms past]. rewrite <- A. destruct (dget k (d_sections (s_doc s0))) as [i0|] eqn:E0.
  - pose proof (rows_eff_dsec (Bk := past odd s0) _ _ _ _ _ _ _ RE E0) as Y. rewrite Y in K0. injection K0 as <-. destruct (ca_secs _ _ C _ _ E0) as (Hi & _).
    rewrite (proj2 (Nat.ltb_lt _ _) Hi). reflexivity.
  - pose proof (rows_newsec (Bk := past odd s0) _ _ _ _ _ _ _ (calm_pinv odd s0 C) RE E0 K0) as Y. rewrite (proj2 (Nat.ltb_ge _ _) Y). reflexivity.
Qed.

Lemma c77_added : forall g head rows odd s0 ls s, loads_after g head rows odd s0 ls s -> among_themselves (cols_in s0) (view_past head s0 []) ls ->
  Forall2 (fun kv h => fst kv = h_key h /\ t_val (tget (snd kv) s) = VStr (h_title h) /\ columns_of (tget (snd kv) s) = columns h
     /\ exists new, t_terms (tget (snd kv) s) = (terms_of s0 (h_key h) ++ new)%list
        /\ let ts := tops (h_key h) (made (world_in s0) (view_past head s0 []) (heads_of s0) ls) in
           Forall2 (shows s "root") (map bare ts) new /\ Forall2 (keeps s) ts new)
    (d_sections (s_doc s)) (heads (world_in s0) (view_past head s0 []) (heads_of s0) ls)
  /\ forall i, i < hlen s0 -> i <> d_root (s_doc s0) ->
       t_rt (tget i s) = t_rt (tget i s0) /\ t_val (tget i s) = t_val (tget i s0) /\ t_children (tget i s) = t_children (tget i s0).
Proof.
  intros g head rows odd s0 ls s LA Hm. destruct (after_outline_run _ _ _ _ _ _ _ LA Hm) as (O & s1 & G & Hh & Ch). split.
  - eapply Forall2_imp; [|exact O]. intros kv h (A & _ & B & C & new & T & W). split; [exact A|]. split; [exact B|]. split; [exact C|]. exists new. split; [exact T|]. cbn zeta.
    clear - W. induction W as [|t x ts xs [X Y] _ [IH1 IH2]]; split; constructor; assumption.
  - intros i Hi Ni. assert (E : tget i s = tget i s1) by (unfold tget; rewrite Hh; reflexivity). rewrite !E. pose proof (gw_same _ _ G i Hi) as M.
    split; [apply M|]. split; [apply M|]. apply Ch; assumption.
Qed.

Lemma c77_after : forall g head rows odd s0 ls s o, loads_after g head rows odd s0 ls s -> among_themselves (cols_in s0) (view_past head s0 []) ls ->
  shows_doc s0 o -> Forall (fun c => Forall well_named (sc_terms c)) o ->
  shows_doc s (outline_from (world_in s0) (view_past head s0 []) (heads_of s0) o ls).
Proof.
  intros g head rows odd s0 ls s o LA Hm Ho Hn. destruct (after_outline_run _ _ _ _ _ _ _ LA Hm) as (O & s1 & G & Hh & Ch).
  assert (Rt : t_rt (tget (d_root (s_doc s0)) s0) = "root") by apply (ca_rootn _ _ (la_calm _ _ _ _ _ _ _ LA)).
  unfold shows_doc, outline_from. eapply Forall2_onto; [exact O|].
  intros kv h _ (A & B & C & D & new & T & W2). unfold shows_section. cbn [sc_name sc_cols sc_terms]. split; [congruence|]. split; [exact C|]. split; [exact D|].
  rewrite T. apply Forall2_app; [|clear - W2; induction W2 as [|t x ts xs [H _] _ IH]; constructor; assumption].
  unfold terms_of. destruct (dget (h_key h) (d_sections (s_doc s0))) as [i0|] eqn:E0; [|rewrite (old_terms_out _ _ _ Ho E0); constructor].
  destruct (old_terms_in _ _ _ _ Ho E0) as (c & (_ & _ & _ & S1) & -> & Ic). cbn [snd] in S1.
  pose proof (proj1 (Forall_forall _ _) Hn _ Ic) as Wn. cbn beta in Wn. clear - S1 Wn G Ch Rt Hh. induction S1 as [|t x ts xs S1 _ IH]; [constructor|]. inversion Wn as [|? ? W1 W2]; subst.
  constructor; [|apply IH; exact W2]. eapply shows_same; [exact Hh|]. eapply shows_grown; try eassumption. discriminate.
Qed.
