(** * OrderlyFacts: a parsed document is in good order *)

From Verif Require Import ListFacts StrFacts SpecNames NameFacts HeapFacts ConstructFacts Parser RunFacts EmitFacts TreeFacts DigitFacts RowFacts ParseFacts DocFacts ForestFacts SpecDoc SpecInv SpecFind SpecEdit SpecOrderly InvFacts StepFacts.

(** an entry of the section table *)
Definition table (s : st) (i : nat) : Prop := exists k, dget k (d_sections (s_doc s)) = Some i.

Record filed (s : st) : Prop := {
  fl_sec : forall t, t < hlen s -> is_section_cls (t_cls (tget t s)) = false -> exists i, t_section (tget t s) = Some i /\ table s i;
  fl_named : forall i, i < hlen s -> is_section_cls (t_cls (tget i s)) = true -> exists n, t_val (tget i s) = VStr n;
  fl_nodup : NoDup (d_terms (s_doc s));
  fl_nodups : forall i, i < hlen s -> NoDup (t_terms (tget i s));
  fl_top : forall t, In t (d_terms (s_doc s)) -> is_section_cls (t_cls (tget t s)) = false /\ t_pt (tget t s) = "root"
    /\ t_parent (tget t s) = Some (d_root (s_doc s)) /\ exists i, t_section (tget t s) = Some i /\ table s i /\ In t (t_terms (tget i s));
  fl_in : forall i t, table s i -> In t (t_terms (tget i s)) -> In t (d_terms (s_doc s)) /\ t_section (tget t s) = Some i;
  fl_kids : forall i c, i < hlen s -> In c (t_children (tget i s)) -> is_section_cls (t_cls (tget c s)) = false;
  fl_last : table s (p_lastsec (s_prs s));
  fl_dots : forall i, i < hlen s -> dot_free (t_pt (tget i s)) /\ dot_free (t_rt (tget i s))
}.

Lemma table_lt : forall s i, pinv s -> table s i -> i < hlen s /\ is_section_cls (t_cls (tget i s)) = true.
Proof. intros s i P (k & H). apply (pi_dsecs _ P) in H. exact H. Qed.

Lemma column_dots : forall cols i, Forall dot_free cols -> dot_free (column_name cols i).
Proof.
  intros cols i F. unfold column_name. destruct (nth_error cols i) as [c|] eqn:E; [|apply digits_dot_free, str_of_nat_digits].
  destruct (eqs c ""); [apply digits_dot_free, str_of_nat_digits|]. apply dot_free_lower. apply nth_error_In in E. rewrite Forall_forall in F. auto.
Qed.

Lemma cells_dots : forall cols cells i, Forall dot_free cols -> Forall (fun nc => dot_free (fst nc)) (cells_from cols i cells).
Proof.
  intros cols cells. induction cells as [|c cells IH]; intros i F; cbn [cells_from]; [constructor|].
  destruct (eqs c ""); [apply IH; exact F|]. constructor; [apply column_dots; exact F|apply IH; exact F].
Qed.

Lemma cell_names_dots : forall x p r, cell_names x p r -> dot_free p /\ dot_free r.
Proof. intros x p r H. apply cell_names_tidy in H. tauto. Qed.

Lemma NoDup_app_one : forall (l : list nat) x, NoDup l -> ~ In x l -> NoDup (l ++ [x]).
Proof.
  intros l x H N. apply NoDup_app_intro; [exact H|repeat constructor; intros []|]. intros y Hy [<-|[]]. auto.
Qed.

Lemma filed_term : forall ftype line p r row cols s s' c q, filed s -> pinv s -> dot_free p -> dot_free r -> Forall dot_free cols ->
  py_int r = None -> r <> "root" -> term_row ftype line p r row cols s s' c q -> filed s'.
Proof.
  intros ftype line p r row cols s s' c0 q0 F P Dp Dr Dc Ri Nr T.
  set (R := row_rec c0 line ftype p r row) in *. set (own := seq (S (hlen s)) (hlen s' - S (hlen s))).
  set (host := if eqs p ELIDED_TERM then q0 else hlen s).
  pose proof (tr_len _ _ _ _ _ _ _ _ _ _ T) as Ln. pose proof (tr_q _ _ _ _ _ _ _ _ _ _ T) as Hq.
  pose proof (tr_doc _ _ _ _ _ _ _ _ _ _ T) as Dd. fold R in Dd.
  pose proof (settled_fields s q0 R) as SF. cbv zeta in SF.
  destruct SF as (F1 & F2 & F3 & F4 & F5 & F6 & F7 & F8 & F9 & F10 & F11 & F12 & F13 & F14 & _).
  assert (Rn : renamed (p_pmap (s_prs s)) (t_rt R) = r) by (unfold renamed; change (t_rt R) with r; rewrite Ri; reflexivity).
  set (top := eqs (final_pt s R) "root") in *.
  assert (Tab : forall i, table s' i <-> table s i).
  { intros i. unfold table. rewrite Dd. destruct top; reflexivity. }
  assert (Get : forall i, i < hlen s -> same_term (tget i s) (tget i s')).
  { intros i Hi. destruct (tr_get _ _ _ _ _ _ _ _ _ _ T i) as (A & _); [lia|]. cbv zeta in A.
    replace (i =? hlen s) with false in A by (symmetry; apply Nat.eqb_neq; lia). exact A. }
  assert (GetN : same_term (settled s q0 R) (tget (hlen s) s')).
  { destruct (tr_get _ _ _ _ _ _ _ _ _ _ T (hlen s)) as (A & _); [lia|]. cbv zeta in A. rewrite Nat.eqb_refl in A. exact A. }
  assert (Trm : forall i, i < hlen s -> t_terms (tget i s') = (t_terms (tget i s) ++ (if top && (i =? p_lastsec (s_prs s)) then [hlen s] else []))%list).
  { intros i Hi. destruct (tr_get _ _ _ _ _ _ _ _ _ _ T i) as (_ & _ & _ & _ & A); [lia|]. cbv zeta in A.
    replace (i =? hlen s) with false in A by (symmetry; apply Nat.eqb_neq; lia). exact A. }
  assert (TrmN : t_terms (tget (hlen s) s') = []).
  { destruct (tr_get _ _ _ _ _ _ _ _ _ _ T (hlen s)) as (_ & _ & _ & _ & A); [lia|]. cbv zeta in A. fold R in A. rewrite Nat.eqb_refl, F14 in A.
    replace (hlen s =? p_lastsec (s_prs s)) with false in A by (symmetry; apply Nat.eqb_neq; pose proof (pi_last _ P); lia).
    rewrite andb_false_r in A. exact A. }
  assert (Kid : forall u, S (hlen s) <= u < hlen s' -> is_section_cls (t_cls (tget u s')) = false /\ t_terms (tget u s') = []
     /\ t_section (tget u s') = Some (p_lastsec (s_prs s)) /\ t_pt (tget u s') = r /\ t_children (tget u s') = []).
  { intros u Hu. destruct (tr_new _ _ _ _ _ _ _ _ _ _ T u Hu) as (A & _ & _ & B & C & D & E & G). auto. }
  assert (NewC : is_section_cls (t_cls (tget (hlen s) s')) = false).
  { rewrite (sm_cls _ _ GetN), F1. apply (tr_cls _ _ _ _ _ _ _ _ _ _ T). }
  assert (NewS : t_section (tget (hlen s) s') = Some (p_lastsec (s_prs s))) by (rewrite (sm_section _ _ GetN); exact F8).
  assert (Dt : d_terms (s_doc s') = (d_terms (s_doc s) ++ (if top then [hlen s] else []))%list).
  { rewrite Dd. destruct top; [reflexivity|rewrite app_nil_r; reflexivity]. }
  assert (Rt : d_root (s_doc s') = d_root (s_doc s)) by (rewrite Dd; destruct top; reflexivity).
  assert (Qr : top = true -> q0 = d_root (s_doc s)).
  { unfold top, final_pt. change (t_pt R) with p. intros E. pose proof (tr_look _ _ _ _ _ _ _ _ _ _ T) as Lk.
    destruct (eqs p ELIDED_TERM); apply eqs_true in E; [rewrite E, (pi_rootmap _ P) in Lk; congruence|].
    replace (eqs p r) with false in Lk by (symmetry; apply eqs_false; congruence). rewrite E, (pi_rootmap _ P) in Lk. congruence. }
  assert (TL : forall i, table s i -> i < hlen s) by (intros i Hi; apply (table_lt _ _ P) in Hi; tauto).
  destruct F as [G1 G2 G3 G4 G5 G6 G7 G8 G9]. split.
  - intros t Ht Hc. destruct (Nat.lt_trichotomy t (hlen s)) as [L|[->|L]].
    + rewrite (sm_cls _ _ (Get t L)) in Hc. destruct (G1 t L Hc) as (i & A & B). exists i. rewrite (sm_section _ _ (Get t L)), Tab. auto.
    + exists (p_lastsec (s_prs s)). rewrite Tab. auto.
    + destruct (Kid t) as (_ & _ & A & _); [lia|]. exists (p_lastsec (s_prs s)). rewrite Tab. auto.
  - intros i Hi Hc. destruct (Nat.lt_trichotomy i (hlen s)) as [L|[->|L]]; [|congruence|destruct (Kid i) as (A & _); [lia|congruence]].
    rewrite (sm_cls _ _ (Get i L)) in Hc. rewrite (sm_val _ _ (Get i L)). auto.
  - rewrite Dt. destruct top; [|rewrite app_nil_r; exact G3]. apply NoDup_app_one; [exact G3|]. intros H. apply (pi_dterms _ P) in H. lia.
  - intros i Hi. destruct (Nat.lt_trichotomy i (hlen s)) as [L|[->|L]].
    + rewrite (Trm i L). destruct (top && _); [|rewrite app_nil_r; auto]. apply NoDup_app_one; [auto|]. intros H. apply (pi_terms _ P) in H; lia.
    + rewrite TrmN. constructor.
    + destruct (Kid i) as (_ & A & _); [lia|]. rewrite A. constructor.
  - intros t Ht. rewrite Dt in Ht. apply in_app_iff in Ht. destruct Ht as [Ht|Ht].
    + pose proof (pi_dterms _ P _ Ht) as L. destruct (G5 t Ht) as (A & B & B' & i & C & D & E).
      rewrite (sm_cls _ _ (Get t L)), (sm_pt _ _ (Get t L)), (sm_parent _ _ (Get t L)), (sm_section _ _ (Get t L)), Rt. split; [exact A|]. split; [exact B|]. split; [exact B'|].
      exists i. rewrite Tab, Trm by (apply TL; exact D). split; [exact C|]. split; [exact D|]. apply in_app_iff. auto.
    + destruct top eqn:Et; [|destruct Ht]. destruct Ht as [<-|[]]. split; [exact NewC|]. split.
      * rewrite (sm_pt _ _ GetN), F4. unfold top in Et. apply eqs_true in Et. exact Et.
      * split; [rewrite (sm_parent _ _ GetN), F2, Rt, (Qr eq_refl); reflexivity|].
        exists (p_lastsec (s_prs s)). rewrite Tab, Trm by (apply pi_last; exact P). split; [exact NewS|]. split; [exact G8|].
        apply in_app_iff. right. rewrite Nat.eqb_refl. cbn. auto.
  - intros i t Hi Ht. apply Tab in Hi. pose proof (TL i Hi) as L. rewrite Trm in Ht by exact L. rewrite Dt. apply in_app_iff in Ht. destruct Ht as [Ht|Ht].
    + destruct (G6 i t Hi Ht) as [A B]. rewrite (sm_section _ _ (Get t (pi_dterms _ P _ A))). split; [apply in_app_iff; auto|exact B].
    + destruct top eqn:Et; cbn [andb] in Ht; [|destruct Ht]. destruct (Nat.eqb_spec i (p_lastsec (s_prs s))) as [->|]; [|destruct Ht].
      destruct Ht as [<-|[]]. split; [apply in_app_iff; right; cbn; auto|exact NewS].
  - intros i c Hi Hc. destruct (Nat.le_gt_cases i (hlen s)) as [L|L].
    + destruct (tr_get _ _ _ _ _ _ _ _ _ _ T i L) as (_ & _ & _ & B & _). cbv zeta in B. fold R own host in B. rewrite B in Hc. clear B.
      assert (H : (i < hlen s /\ In c (t_children (tget i s))) \/ c = hlen s \/ In c own).
      { apply in_app_iff in Hc. destruct Hc as [Hc|Hc].
        - destruct (Nat.eqb_spec i (hlen s)) as [->|N]; [rewrite F13 in Hc; destruct Hc|]. left. split; [lia|exact Hc].
        - apply in_app_iff in Hc. destruct Hc as [Hc|Hc].
          + destruct (i =? q0); [|destruct Hc]. destruct Hc as [<-|[]]. auto.
          + destruct (i =? host); [auto|destruct Hc]. }
      destruct H as [[A B]|[->|H]]; [|exact NewC|].
      * rewrite (sm_cls _ _ (Get c (pi_kids _ P _ _ A B))). eapply G7; eassumption.
      * unfold own in H. apply in_seq in H. apply Kid. lia.
    + destruct (Kid i) as (_ & _ & _ & _ & E); [lia|]. rewrite E in Hc. destruct Hc.
  - rewrite Tab. replace (p_lastsec (s_prs s')) with (p_lastsec (s_prs s)); [exact G8|].
    rewrite (tr_prs _ _ _ _ _ _ _ _ _ _ T). destruct (eqs p ELIDED_TERM); reflexivity.
  - intros i Hi. destruct (Nat.lt_trichotomy i (hlen s)) as [L|[->|L]].
    + rewrite (sm_pt _ _ (Get i L)), (sm_rt _ _ (Get i L)). auto.
    + rewrite (sm_pt _ _ GetN), (sm_rt _ _ GetN), F4, F5, Rn. split; [|exact Dr]. unfold final_pt. change (t_pt R) with p.
      destruct (eqs p ELIDED_TERM); [apply (pi_lp _ P)|exact Dp].
    + destruct (Kid i) as (_ & _ & _ & A & _); [lia|]. rewrite A. split; [exact Dr|].
      pose proof (tr_cells _ _ _ _ _ _ _ _ _ _ T) as C. fold own in C.
      assert (I : In (t_rt (tget i s'), t_val (tget i s')) (map (fun nc => (fst nc, VStr (snd nc))) (cells_from cols 0 (map strip (skipn 2 row))))).
      { rewrite <- C. apply in_map_iff. exists i. split; [reflexivity|]. unfold own. apply in_seq. lia. }
      apply in_map_iff in I. destruct I as ([n v] & E & I). injection E as E _. rewrite <- E. cbn [fst].
      pose proof (cells_dots cols (map strip (skipn 2 row)) 0 Dc) as X. rewrite Forall_forall in X. apply (X _ I).
Qed.

(** a new object that is no term of the document yet, the rest unchanged *)
Lemma filed_more : forall s s', filed s -> pinv s -> hlen s' = S (hlen s) ->
  (forall i, i < hlen s -> t_parent (tget i s') = t_parent (tget i s) /\ t_cls (tget i s') = t_cls (tget i s)
     /\ t_children (tget i s') = t_children (tget i s) /\ t_terms (tget i s') = t_terms (tget i s)
     /\ t_section (tget i s') = t_section (tget i s) /\ t_val (tget i s') = t_val (tget i s)
     /\ t_pt (tget i s') = t_pt (tget i s) /\ t_rt (tget i s') = t_rt (tget i s)) ->
  t_children (tget (hlen s) s') = [] -> t_terms (tget (hlen s) s') = [] ->
  (if is_section_cls (t_cls (tget (hlen s) s')) then exists n, t_val (tget (hlen s) s') = VStr n
   else t_section (tget (hlen s) s') = Some (p_lastsec (s_prs s))) ->
  dot_free (t_pt (tget (hlen s) s')) -> dot_free (t_rt (tget (hlen s) s')) ->
  d_terms (s_doc s') = d_terms (s_doc s) -> d_root (s_doc s') = d_root (s_doc s) ->
  (forall i, table s i -> table s' i) -> (forall i, table s' i -> table s i \/ i = hlen s) ->
  table s' (p_lastsec (s_prs s')) -> filed s'.
Proof.
  intros s s' [G1 G2 G3 G4 G5 G6 G7 G8 G9] P L Old N1 N2 N3 N4 N5 D Rt T1 T2 T3.
  assert (C : forall i, i < hlen s' -> i < hlen s \/ i = hlen s) by lia.
  assert (TL : forall i, table s i -> i < hlen s) by (intros i Hi; apply (table_lt _ _ P) in Hi; tauto).
  split.
  - intros t Ht Hc. destruct (C t Ht) as [L'| ->].
    + destruct (Old t L') as (_ & E1 & _ & _ & E2 & _). rewrite E1 in Hc. rewrite E2. destruct (G1 t L' Hc) as (i & A & B). eauto.
    + rewrite Hc in N3. eauto.
  - intros i Hi Hc. destruct (C i Hi) as [L'| ->].
    + destruct (Old i L') as (_ & E1 & _ & _ & _ & E2 & _). rewrite E1 in Hc. rewrite E2. auto.
    + rewrite Hc in N3. exact N3.
  - rewrite D. exact G3.
  - intros i Hi. destruct (C i Hi) as [L'| ->]; [|rewrite N2; constructor]. destruct (Old i L') as (_ & _ & _ & E & _). rewrite E. auto.
  - intros t Ht. rewrite D in Ht. pose proof (pi_dterms _ P _ Ht) as L'. destruct (Old t L') as (E1 & E2 & _ & _ & E3 & _ & E4 & _).
    destruct (G5 t Ht) as (A & B & B' & i & X & Y & Z). rewrite E1, E2, E3, E4, Rt. split; [exact A|]. split; [exact B|]. split; [exact B'|].
    exists i. split; [exact X|]. split; [auto|]. destruct (Old i (TL i Y)) as (_ & _ & _ & E & _). rewrite E. exact Z.
  - intros i t Hi Ht. rewrite D. destruct (T2 i Hi) as [Y| ->]; [|rewrite N2 in Ht; destruct Ht].
    destruct (Old i (TL i Y)) as (_ & _ & _ & E & _). rewrite E in Ht. destruct (G6 i t Y Ht) as [A B]. split; [exact A|].
    destruct (Old t (pi_dterms _ P _ A)) as (_ & _ & _ & _ & E' & _). rewrite E'. exact B.
  - intros i c Hi Hc. destruct (C i Hi) as [L'| ->]; [|rewrite N1 in Hc; destruct Hc]. destruct (Old i L') as (_ & _ & E & _). rewrite E in Hc.
    destruct (Old c (pi_kids _ P _ _ L' Hc)) as (_ & E' & _). rewrite E'. eapply G7; eassumption.
  - exact T3.
  - intros i Hi. destruct (C i Hi) as [L'| ->]; [|auto]. destruct (Old i L') as (_ & _ & _ & _ & _ & _ & E1 & E2). rewrite E1, E2. auto.
Qed.

Lemma filed_row : forall decl v ftype row l s s', ftype <> Some "declare" -> vinv decl v s -> pinv s' -> reads row l -> usual l ->
  Forall dot_free (v_cols v) -> row_eff ftype (v_line v) row s s' -> filed s -> filed s'.
Proof.
  intros decl v ftype row l s s' Ft V PI Rd U Dc H F. pose proof (vi_pinv _ _ _ V) as P.
  destruct (vinv_row _ _ _ _ _ _ _ Ft V PI Rd U (greets_all _) H) as [V' TR]. pose proof (vi_cur _ _ _ V') as Cur.
  assert (Cur' : table s' (p_lastsec (s_prs s'))) by (eexists; exact Cur). clear Cur V'.
  assert (D1 : forall x, In x ["root"; "section"; "header"] -> dot_free x).
  { intros x Hx. apply dot_free_iff. destruct Hx as [<-|[<-|[<-|[]]]]; reflexivity. }
  destruct H as [H1 ->|H1 H2 H3 ->|c H1 H2 H3 H4 ->|p r c q s1 H1 H2 H3 H4 H5 H6 H7].
  - exact F.
  - assert (Sec : d_sections (s_doc (section_effect (nth 1 row "") (skipn 2 row) (v_line v) ftype s)) =
      match dget (lower (strip (nth 1 row ""))) (d_sections (s_doc s)) with Some _ => d_sections (s_doc s) | None => dset (lower (strip (nth 1 row ""))) (hlen s) (d_sections (s_doc s)) end).
    { unfold section_effect. destruct (dget _ _); [|rewrite doc_dmod]; rewrite enter_doc; reflexivity. }
    apply (filed_more s); auto.
    + apply section_effect_len.
    + intros i Hi. rewrite section_effect_old by exact Hi. auto 10.
    + rewrite section_effect_new. reflexivity.
    + rewrite section_effect_new. reflexivity.
    + rewrite section_effect_new. cbn [is_section_cls]. change (is_section_cls (t_cls (RowFacts.section_rec (nth 1 row "") (heading_args (s_doc s) (nth 1 row "") (skipn 2 row)) (v_line v) ftype "root.section"))) with true. cbn iota.
      unfold RowFacts.section_rec, fresh_plain. cbn [t_val]. destruct (nth 1 row "") as [|x y] eqn:E; [congruence|]. eexists. reflexivity.
    + rewrite section_effect_new. apply D1. cbn. auto.
    + rewrite section_effect_new. apply D1. cbn. auto.
    + unfold section_effect. destruct (dget _ _); [|rewrite doc_dmod]; rewrite enter_doc; reflexivity.
    + unfold section_effect. destruct (dget _ _); [|rewrite doc_dmod]; rewrite enter_doc; reflexivity.
    + intros i (k & Hk). exists k. rewrite Sec. destruct (dget (lower (strip _)) _) eqn:E; [exact Hk|]. rewrite dget_dset.
      destruct (eqs _ _) eqn:Ek; [|exact Hk]. apply eqs_true in Ek. congruence.
    + intros i (k & Hk). rewrite Sec in Hk. destruct (dget (lower (strip _)) _) eqn:E; [left; exists k; exact Hk|]. rewrite dget_dset in Hk.
      destruct (eqs _ _) eqn:Ek; [right; congruence|left; exists k; exact Hk].
  - apply (filed_more s); auto.
    + apply header_effect_len.
    + intros i Hi. rewrite header_effect_get by (try apply (pi_last _ P); lia).
      replace (i =? hlen s) with false by (symmetry; apply Nat.eqb_neq; lia). destruct (i =? _); auto 10.
    + rewrite header_effect_get by (try apply (pi_last _ P); lia). rewrite Nat.eqb_refl. reflexivity.
    + rewrite header_effect_get by (try apply (pi_last _ P); lia). rewrite Nat.eqb_refl. reflexivity.
    + rewrite header_effect_get by (try apply (pi_last _ P); lia). rewrite Nat.eqb_refl.
      change (t_cls (set_t_section (Some (p_lastsec (s_prs s))) (row_rec c (v_line v) ftype "root" "header" row))) with c. rewrite H4. reflexivity.
    + rewrite header_effect_get by (try apply (pi_last _ P); lia). rewrite Nat.eqb_refl. apply D1. cbn. auto.
    + rewrite header_effect_get by (try apply (pi_last _ P); lia). rewrite Nat.eqb_refl. apply D1. cbn. auto.
  - apply not_blank in H1. destruct Rd as [B|NB C|NB C|p' r' NB C Hx]; try tauto.
    + destruct (cell_names_fun _ _ _ _ _ H2 C) as [-> ->]. exfalso. apply H3; cbn; auto.
    + destruct (cell_names_fun _ _ _ _ _ H2 C) as [-> ->]. exfalso. apply H3; cbn; auto.
    + destruct (TR _ _ _ _ eq_refl) as (c' & q' & T). destruct (cell_names_dots _ _ _ C). destruct U as (U1 & U2 & U3 & _).
      eapply filed_term; [exact F|exact P|..|exact T]; assumption.
Qed.

(** the columns in force never contain dots *)
Definition cols_dots (v : view) : Prop := Forall dot_free (v_cols v) /\ Forall (fun kc => Forall dot_free (snd kc)) (v_secs v).

Lemma strip_dots : forall x, dot_free x -> dot_free (strip x).
Proof.
  intros x H. assert (T : trimmed x (strip x)) by (apply trimmed_iff; reflexivity). destruct T as (u & v & E & _).
  rewrite E, !dot_free_app in H. tauto.
Qed.

Lemma cols_dots_next : forall decl v l, (forall n, Forall dot_free (decl n)) -> dotless_columns l -> cols_dots v -> cols_dots (next decl v l).
Proof.
  intros decl v l Hd Hl [A B]. destruct l as [|n cells|n cells|p r x cells]; cbn [next].
  - split; assumption.
  - cbn in Hl. destruct (eqs _ "root"); [split; assumption|].
    assert (O : Forall dot_free (match cells with [] => map strip (decl n) | _ => cells end)).
    { destruct cells; [|exact Hl]. apply Forall_map. eapply Forall_impl; [|apply Hd]. intros a. apply strip_dots. }
    unfold cols_dots. cbn [v_cols v_secs]. destruct (assoc _ _) as [c|] eqn:E.
    + split; [|exact B]. unfold assoc in E. destruct (find _ _) as [kc|] eqn:F; [|discriminate]. injection E as <-. apply find_some in F.
      rewrite Forall_forall in B. apply B. tauto.
    + split; [exact O|]. apply Forall_app. split; [exact B|]. repeat constructor. exact O.
  - split; assumption.
  - destruct (eqs p _); split; assumption.
Qed.

Lemma filed_rows : forall decl ftype rows ls v s s', (forall n, Forall dot_free (decl n)) -> ftype <> Some "declare" -> vinv decl v s -> Forall2 reads rows ls -> Forall usual ls ->
  Forall dotless_columns ls -> cols_dots v -> rows_eff ftype (v_line v) rows s s' -> filed s -> filed s'.
Proof.
  intros decl ftype rows ls v s s' Hd Ft V Rd. revert v s V. induction Rd as [|row l rows ls R1 R2 IH]; intros v s V U NS CD H F.
  - inversion H; subst. exact F.
  - inversion U as [|? ? U1 U2]; subst. inversion NS as [|? ? N1 N2]; subst. inversion H as [|? ? ? ? s1 ? H1 H2 H3]; subst.
    destruct (vinv_row _ _ _ _ _ _ _ Ft V H2 R1 U1 (greets_all _) H1) as [V1 _].
    apply (IH (next decl v l) s1); auto.
    + apply cols_dots_next; assumption.
    + rewrite next_line. exact H3.
    + apply (filed_row decl v ftype row l s s1); try assumption. apply CD.
Qed.

Lemma filed_start : forall reg dt ds sup, filed (started (new_doc reg dt ds sup)).
Proof.
  intros. assert (E0 : forall i, i < 1 -> i = 0) by lia. split.
  - intros t Ht Hc. apply E0 in Ht. subst t. discriminate Hc.
  - intros i Hi _. apply E0 in Hi. subst i. eexists. reflexivity.
  - constructor.
  - intros i Hi. apply E0 in Hi. subst i. constructor.
  - intros t [].
  - intros i t (k & Hk) Ht. cbn in Hk. destruct (eqs _ _) in Hk; [|discriminate Hk]. injection Hk as <-. destruct Ht.
  - intros i c Hi Hc. apply E0 in Hi. subst i. destruct Hc.
  - exists "root". reflexivity.
  - intros i Hi. apply E0 in Hi. subst i. split; apply dot_free_iff; reflexivity.
Qed.

Lemma filed_finished : forall s s', finished s s' -> filed s -> filed s'.
Proof.
  intros s s' F [G1 G2 G3 G4 G5 G6 G7 G8 G9]. assert (T : forall i, tget i s' = tget i s) by (intros i; unfold tget; rewrite (fi_heap _ _ F); reflexivity).
  assert (L : hlen s' = hlen s) by (unfold hlen; rewrite (fi_heap _ _ F); reflexivity).
  assert (Tb : forall i, table s' i <-> table s i) by (intros i; unfold table; rewrite (fi_sections _ _ F); reflexivity).
  split.
  - intros t. rewrite !T, L. setoid_rewrite Tb. apply G1.
  - intros i. rewrite !T, L. apply G2.
  - rewrite (fi_terms _ _ F). exact G3.
  - intros i. rewrite !T, L. apply G4.
  - intros t. rewrite (fi_terms _ _ F), !T, (fi_root _ _ F). setoid_rewrite Tb. setoid_rewrite T. apply G5.
  - intros i t. rewrite Tb, !T, (fi_terms _ _ F). apply G6.
  - intros i c. rewrite !T, L. apply G7.
  - rewrite Tb, (fi_prs _ _ F). exact G8.
  - intros i. rewrite !T, L. apply G9.
Qed.

(** ** The declared sections *)

Lemma row_eff_secs : forall ftype line row s s', row_eff ftype line row s s' ->
  p_dsecs (s_prs s') = p_dsecs (s_prs s) /\ d_decl_sections (s_doc s') = d_decl_sections (s_doc s).
Proof.
  intros ftype line row s s' H. destruct H as [H1 ->|H1 H2 H3 ->|c H1 H2 H3 H4 ->|p r c q s1 H1 H2 H3 H4 H5 H6 H7].
  - auto.
  - unfold section_effect. set (s1 := push _ s). assert (E : forall i, p_dsecs (s_prs (enter_section i s1)) = p_dsecs (s_prs s)).
    { intros i. unfold enter_section. destruct (i =? _); reflexivity. }
    destruct (dget _ _); [|rewrite doc_dmod, prs_dmod]; rewrite enter_doc, E; split; reflexivity.
  - auto.
  - assert (N : forall a r q b, new_term a r q b -> p_dsecs (s_prs b) = p_dsecs (s_prs a) /\ d_decl_sections (s_doc b) = d_decl_sections (s_doc a)).
    { intros a r0 q0 b N. rewrite (nt_doc _ _ _ _ N), (nt_prs _ _ _ _ N). destruct (eqs _ _), (registers _); split; reflexivity. }
    assert (K : forall line ftype t n col args a b, kids line ftype t n col args a b ->
       p_dsecs (s_prs b) = p_dsecs (s_prs a) /\ d_decl_sections (s_doc b) = d_decl_sections (s_doc a)).
    { intros ? ? ? ? ? ? a b K. induction K as [| |? ? ? a a1 a' ? ? ? F N0 K IH]; auto. apply N in N0. destruct IH, N0. split; congruence. }
    apply K in H7. apply N in H6. destruct H6, H7. split; congruence.
Qed.

Lemma rows_eff_secs : forall ftype n rows s s', rows_eff ftype n rows s s' ->
  p_dsecs (s_prs s') = p_dsecs (s_prs s) /\ d_decl_sections (s_doc s') = d_decl_sections (s_doc s).
Proof.
  intros ftype n rows s s' H. induction H as [|n row rows s s1 s' H1 H2 H3 IH]; auto. apply row_eff_secs in H1. destruct H1, IH. split; congruence.
Qed.

Lemma in_dset : forall {A} k (v : A) d x, In x (dset k v d) -> x = (k, v) \/ In x d.
Proof.
  intros A k v d x. induction d as [|[k' v'] d IH]; cbn [dset].
  - intros [<-|[]]; auto.
  - destruct (eqs k k') eqn:E.
    + intros [<-|H]; [apply eqs_true in E; subst; auto|right; right; exact H].
    + intros [<-|H]; [right; left; reflexivity|]. destruct (IH H); [auto|right; right; assumption].
Qed.

Lemma in_dupdate : forall {A} (e d : dict A) x, In x (dupdate d e) -> In x e \/ In x d.
Proof.
  intros A e. unfold dupdate. induction e as [|[k v] e IH]; intros d x H; [auto|]. cbn [fold_left fst snd] in H.
  apply IH in H. destruct H as [H|H]; [left; right; exact H|]. apply in_dset in H. destruct H as [->|H]; [left; left; reflexivity|auto].
Qed.

Lemma finished_secs : forall s s', finish_load s = (s', Ok tt) ->
  d_decl_sections (s_doc s') = dupdate (d_decl_sections (s_doc s)) (p_dsecs (s_prs s)).
Proof. intros s s' H. unfold finish_load, getP, bind, gets in H. rewrite !modD_run in H. injection H as <-. reflexivity. Qed.

Lemma load_source_ends : forall e fuel ref dir rows reg dt ds sup ls s', good_reg reg -> no_section_column (declared_columns ds) ->
  Forall2 reads rows ls -> Forall usual ls -> load_source e fuel (mk_source ref dir rows) (new_doc reg dt ds sup) = (s', Ok tt) ->
  exists s1, rows_eff None 1 rows (started (new_doc reg dt ds sup)) s1 /\ finish_load s1 = (s', Ok tt).
Proof.
  intros e fuel ref dir rows reg dt ds sup ls s' GR ND Rd U H. unfold load_source in H.
  rb H as s1 u H1. unfold start_parser in H1. apply modify_ok in H1. subst s1. fold (started (new_doc reg dt ds sup)) in H. rg H.
  rb H as s2 u2 H2. assert (s2 = started (new_doc reg dt ds sup)) as ->.
  { vm_compute in H2. injection H2 as <- _. reflexivity. }
  rb H as s3 u3 H3. destruct u3. exists s3. split; [|exact H].
  destruct fuel as [|f]; [discriminate H3|]. cbn [generate_terms] in H3. rg H3. cbn [src_rows] in H3.
  eapply rows_loop_eff; [|apply (first_vinv reg dt ds sup GR ND)|eapply reads_ordinary; eassumption|apply welcome_each|exact H3]. discriminate.
Qed.

Lemma orderly_proper : forall g rows ls, orderly_file g rows ls -> proper g.
Proof.
  intros g rows ls [[GR D] _ _ _]. split; [exact GR|]. intros n. unfold declared_columns. destruct (dget _ _) as [sd|] eqn:E; [|intros []].
  apply dget_in in E. apply D in E. apply E.
Qed.

Lemma loads_in_order : forall g rows ls s, orderly_file g rows ls -> loads g rows s -> in_order s.
Proof.
  intros g rows ls s O L. pose proof (orderly_proper _ _ _ O) as Pr. destruct O as [[GR D] M NS Co].
  pose proof (loads_forest _ _ _ _ Pr M NS L) as Fo. destruct Pr as [_ ND]. destruct M as [Rd U].
  destruct (parse_rows_eff _ _ _ _ _ _ _ _ _ _ _ GR ND Rd U L) as (s1 & RE & F & V1).
  assert (Fi : filed s).
  { eapply filed_finished; [exact F|]. eapply filed_rows; [| |apply (first_vinv (in_reg g) (in_terms g) (in_secs g) (in_super g) GR ND)|exact Rd|exact U|exact Co| |exact RE|apply filed_start]; [|discriminate|].
    - intros n. unfold declared_columns. destruct (dget _ _) as [sd|] eqn:E; [|constructor]. apply dget_in in E. apply D in E. apply E.
    - split; repeat constructor. }
  assert (Ds : forall k sd, In (k, sd) (d_decl_sections (s_doc s)) -> usual_columns (map strip (sd_args sd))).
  { intros k sd H.
    destruct (load_source_ends _ _ _ _ _ _ _ _ _ _ _ GR ND Rd U L) as (s2 & E1 & E2).
    apply rows_eff_secs in E1. destruct E1 as [E3 E4]. rewrite (finished_secs _ _ E2), E3, E4 in H. apply in_dupdate in H. destruct H as [H|H].
    - cbn [s_prs started set_s_prs fresh_parser p_dsecs] in H. revert H. clear.
      assert (X : Forall (fun x => usual_columns (map strip (sd_args (snd x)))) installed_sections).
      { repeat constructor; cbn; intros H; repeat (destruct H as [H|H]; [discriminate H|]); exact H. }
      rewrite Forall_forall in X. intros H. apply (X (k, sd)). exact H.
    - apply (D k sd). exact H. }
  pose proof (vi_pinv _ _ _ V1) as P.
  assert (T : forall i, tget i s = tget i s1) by (intros i; unfold tget; rewrite (fi_heap _ _ F); reflexivity).
  assert (Ln : hlen s = hlen s1) by (unfold hlen; rewrite (fi_heap _ _ F); reflexivity).
  assert (Nk : NoDup (dkeys (d_sections (s_doc s1)))) by (rewrite (vi_keys _ _ _ V1); apply (vi_nodup _ _ _ V1)).
  assert (Tb : forall k i, In (k, i) (secs s) <-> dget k (d_sections (s_doc s1)) = Some i).
  { intros k i. unfold secs. rewrite (fi_sections _ _ F). symmetry. apply dget_some. exact Nk. }
  assert (Tab : forall i, table s i <-> exists k, In (k, i) (secs s)).
  { intros i. unfold table. rewrite (fi_sections _ _ F). setoid_rewrite Tb. reflexivity. }
  assert (Sc : forall k i, In (k, i) (secs s) -> i < hlen s /\ is_section_cls (t_cls (tget i s)) = true).
  { intros k i H. apply Tb in H. rewrite T, Ln. apply (pi_dsecs _ P k). exact H. }
  destruct Fi as [G1 G2 G3 G4 G5 G6 G7 G8 G9].
  split; [split|split|exact G9].
  - unfold secs. rewrite (fi_sections _ _ F). exact Nk.
  - intros k i H. split; [apply (Sc k); exact H|]. destruct (Sc k i H) as [A B]. rewrite T in B. rewrite Ln in A.
    destruct (pi_sec _ P i A B (fun x => x)) as [PS _]. rewrite T. split; [apply (ps_doc _ PS)|]. split.
    + right. unfold usual_columns, columns_of. destruct (t_hargs (tget i s1)) eqn:E; [apply (ps_args _ PS)|rewrite <- E; apply (ps_hargs _ PS)].
    + apply Tb in H. apply (pi_dname _ P) in H. exact H.
  - exact G3.
  - intros k i H. apply G4. apply (Sc k i H).
  - intros t Ht. destruct (G5 t Ht) as (A & B & _ & i & X & Y & Z). split; [split; [|exact A]|].
    + destruct (fr_dt _ Fo t Ht) as [A' _]. exact A'.
    + rewrite B. split; [reflexivity|]. apply Tab in Y. destruct Y as [k Y]. left. exists k, i. auto.
  - intros k i t H Ht. apply G6; [apply Tab; exists k; exact H|exact Ht].
  - intros t Ht. destruct (G5 t Ht) as (_ & _ & E & _). rewrite E. rewrite (fi_root _ _ F). split; [rewrite Ln; apply (pi_root _ P)|rewrite T; apply (pi_rootc _ P)].
  - intros t [A B]. destruct (G1 t A B) as (i & X & Y). exists i. split; [exact X|]. apply Tab in Y. destruct Y as [k Y]. apply (Sc k i Y).
  - intros i [A B]. auto.
  - intros i c H. destruct (Nat.lt_ge_cases i (hlen s)) as [A|A]; [|rewrite tget_out in H by exact A; destruct H].
    destruct (fr_child _ Fo i c A H) as [B C]. destruct (fr_par _ Fo c i B C) as [E _]. split; [exact E|]. split; [split; [exact B|exact (G7 i c A H)]|exact C].
  - intros i. destruct (Nat.lt_ge_cases i (hlen s)) as [A|A]; [|rewrite tget_out by exact A; constructor].
    apply (NoDup_count_occ' Nat.eq_dec). intros c H. destruct (fr_child _ Fo i c A H) as [B C]. apply (fr_par _ Fo c i B C).
  - intros k sd H. right. exact (Ds k sd H).
  - intros i Hi. apply G9. exact Hi.
  - intros k i H. destruct (Sc k i H) as [A B]. rewrite T in B. rewrite Ln in A. destruct (pi_sec _ P i A B (fun x => x)) as [PS R]. rewrite T. split; [apply (ps_pt _ PS)|].
    split; [|rewrite (ps_sec _ PS); exact Logic.I]. destruct (Nat.eq_dec i (d_root (s_doc s1))) as [->|N]; [right; apply (pi_rootn _ P)|left; auto].
Qed.

Lemma loads_edits_agree : forall g rows ls s s', orderly_file g rows ls -> loads g rows s -> edits s s' -> lists_agree s'.
Proof. intros g rows ls s s' O L E. exact (ok_agree s' (io_ok s' (order_edits _ _ E (loads_in_order _ _ _ _ O L)))). Qed.
