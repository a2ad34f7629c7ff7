(** * ForestFacts: parents and children after a parse *)

From Verif Require Import ListFacts StrFacts SpecNames NameFacts HeapFacts ConstructFacts Parser RunFacts EmitFacts TreeFacts DigitFacts RowFacts ParseFacts DocFacts SpecDoc.

Record forest (s : st) : Prop := {
  fr_child : forall q c, q < hlen s -> In c (t_children (tget q s)) -> c < hlen s /\ t_parent (tget c s) = Some q;
  fr_par : forall c q, c < hlen s -> t_parent (tget c s) = Some q ->
    q < c /\ count_occ Nat.eq_dec (t_children (tget q s)) c = 1;
  fr_dt : forall c, In c (d_terms (s_doc s)) -> c < hlen s /\ t_parent (tget c s) <> None;
  fr_tt : forall i c, i < hlen s -> In c (t_terms (tget i s)) -> c < hlen s /\ t_parent (tget c s) <> None;
  fr_sec : forall i, i < hlen s -> is_section_cls (t_cls (tget i s)) = true -> t_parent (tget i s) = None
}.

Lemma count_not_in : forall (l : list nat) x, ~ In x l -> count_occ Nat.eq_dec l x = 0.
Proof. intros l x H. apply count_occ_not_In. exact H. Qed.

Lemma count_seq : forall n a x, a <= x < a + n -> count_occ Nat.eq_dec (seq a n) x = 1.
Proof.
  intros n a x H. apply NoDup_count_occ'; [apply seq_NoDup|]. apply in_seq. exact H.
Qed.

Lemma forest_term : forall ftype line p r row cols s s' c q, forest s -> pinv s -> p <> r ->
  term_row ftype line p r row cols s s' c q -> forest s'.
Proof.
  intros ftype line p r row cols s s' c0 q0 F P Npr T.
  set (R := row_rec c0 line ftype p r row). set (own := seq (S (hlen s)) (hlen s' - S (hlen s))).
  set (host := if eqs p ELIDED_TERM then q0 else hlen s).
  pose proof (tr_len _ _ _ _ _ _ _ _ _ _ T) as Ln.
  assert (Hq : q0 < hlen s).
  { pose proof (tr_look _ _ _ _ _ _ _ _ _ _ T) as Lk. destruct (eqs p ELIDED_TERM); [apply (pi_tmap _ P) in Lk; exact Lk|].
    replace (eqs p r) with false in Lk by (symmetry; apply eqs_false; exact Npr). apply (pi_tmap _ P) in Lk. exact Lk. }
  assert (Hh : host <= hlen s) by (unfold host; destruct (eqs p ELIDED_TERM); lia).
  assert (Own : forall u, In u own <-> S (hlen s) <= u < hlen s') by (intros u; unfold own; rewrite in_seq; lia).
  pose proof (settled_fields s q0 R) as SF. cbv zeta in SF.
  destruct SF as (F1 & F2 & F3 & F4 & F5 & F6 & F7 & F8 & F9 & F10 & F11 & F12 & F13 & F14 & _).
  assert (Old : forall i, i < hlen s -> same_term (tget i s) (tget i s')
     /\ t_children (tget i s') = (t_children (tget i s) ++ (if i =? q0 then [hlen s] else []) ++ (if i =? host then own else []))%list
     /\ forall x, In x (t_terms (tget i s')) -> In x (t_terms (tget i s)) \/ x = hlen s).
  { intros i Hi. destruct (tr_get _ _ _ _ _ _ _ _ _ _ T i) as (A & _ & _ & B & C); [lia|]. cbv zeta in A, B, C.
    replace (i =? hlen s) with false in A, B, C by (symmetry; apply Nat.eqb_neq; lia).
    split; [exact A|]. split; [exact B|]. intros x Hx. rewrite C in Hx. apply in_app_iff in Hx. destruct Hx as [Hx|Hx]; [auto|].
    destruct (_ && _) in Hx; [destruct Hx as [<-|[]]; auto|destruct Hx]. }
  assert (New : t_cls (tget (hlen s) s') = c0 /\ t_parent (tget (hlen s) s') = Some q0
     /\ t_children (tget (hlen s) s') = (if hlen s =? host then own else [])
     /\ forall x, In x (t_terms (tget (hlen s) s')) -> x = hlen s).
  { destruct (tr_get _ _ _ _ _ _ _ _ _ _ T (hlen s)) as (A & _ & _ & B & C); [lia|]. cbv zeta in A, B, C. fold R in A, B, C.
    rewrite Nat.eqb_refl in A, B, C. rewrite (sm_cls _ _ A), (sm_parent _ _ A), F1, F2. split; [reflexivity|]. split; [reflexivity|].
    rewrite B, F13. replace (hlen s =? q0) with false by (symmetry; apply Nat.eqb_neq; lia). split; [reflexivity|].
    intros x Hx. rewrite C, F14 in Hx. destruct (_ && _) in Hx; [destruct Hx as [<-|[]]; auto|destruct Hx]. }
  destruct New as (N1 & N2 & N3 & N4).
  assert (Kid : forall u, S (hlen s) <= u < hlen s' -> is_section_cls (t_cls (tget u s')) = false /\ t_parent (tget u s') = Some host
     /\ t_children (tget u s') = [] /\ t_terms (tget u s') = []).
  { intros u Hu. destruct (tr_new _ _ _ _ _ _ _ _ _ _ T u Hu) as (A & _ & _ & B & C & D & _). auto. }
  assert (Some' : forall x, x < hlen s -> t_parent (tget x s') = t_parent (tget x s)) by (intros x Hx; apply sm_parent; apply Old; exact Hx).
  destruct F as [G1 G2 G3 G4 G5]. split.
  - intros q c Hq' Hc. destruct (Nat.lt_trichotomy q (hlen s)) as [L|[->|L]].
    + destruct (Old q L) as (_ & E & _). rewrite E in Hc. apply in_app_iff in Hc. destruct Hc as [Hc|Hc].
      * destruct (G1 q c L Hc) as [A B]. rewrite Some' by exact A. split; [lia|exact B].
      * apply in_app_iff in Hc. destruct Hc as [Hc|Hc].
        -- destruct (Nat.eqb_spec q q0) as [->|]; [|destruct Hc]. destruct Hc as [<-|[]]. split; [lia|exact N2].
        -- destruct (Nat.eqb_spec q host) as [->|]; [|destruct Hc]. apply Own in Hc. split; [lia|]. apply Kid. exact Hc.
    + rewrite N3 in Hc. destruct (Nat.eqb_spec (hlen s) host) as [->|]; [|destruct Hc]. apply Own in Hc. split; [lia|]. apply Kid. exact Hc.
    + destruct (Kid q) as (_ & _ & E & _); [lia|]. rewrite E in Hc. destruct Hc.
  - intros c q Hc Hp. 
    assert (Cnt : forall x, q < hlen s -> count_occ Nat.eq_dec (t_children (tget q s')) x =
      count_occ Nat.eq_dec (t_children (tget q s)) x + (count_occ Nat.eq_dec (if q =? q0 then [hlen s] else []) x + count_occ Nat.eq_dec (if q =? host then own else []) x)).
    { intros x L. destruct (Old q L) as (_ & E & _). rewrite E, !count_occ_app. reflexivity. }
    assert (KidsOld : q < hlen s -> forall x, hlen s <= x -> count_occ Nat.eq_dec (t_children (tget q s)) x = 0).
    { intros L x Hx. apply count_not_in. intros I. apply (pi_kids _ P) in I; lia. }
    destruct (Nat.lt_trichotomy c (hlen s)) as [L|[->|L]].
    + rewrite Some' in Hp by exact L. destruct (G2 c q L Hp) as [A B]. split; [exact A|].
      rewrite Cnt by lia. rewrite B. rewrite !count_not_in; [reflexivity|..].
      * destruct (q =? host); [rewrite Own; lia|intros []].
      * destruct (q =? q0); [intros [E|[]]; lia|intros []].
    + rewrite N2 in Hp. injection Hp as <-. split; [exact Hq|]. rewrite Cnt by exact Hq. rewrite (KidsOld Hq) by lia. rewrite Nat.eqb_refl.
      cbn [count_occ]. destruct (Nat.eq_dec (hlen s) (hlen s)) as [_|]; [|congruence].
      rewrite count_not_in; [reflexivity|]. destruct (q0 =? host); [rewrite Own; lia|intros []].
    + destruct (Kid c) as (_ & E & _); [lia|]. rewrite E in Hp. injection Hp as <-. split; [lia|].
      assert (CO : count_occ Nat.eq_dec own c = 1) by (unfold own; apply count_seq; lia).
      destruct (Nat.eq_dec host (hlen s)) as [Eh|Nh].
      * rewrite Eh, N3, Eh, Nat.eqb_refl. exact CO.
      * assert (L' : host < hlen s) by lia. rewrite Cnt by exact L'. rewrite (KidsOld L') by lia. rewrite Nat.eqb_refl, CO.
        rewrite count_not_in; [reflexivity|]. destruct (host =? q0); [intros [E'|[]]; lia|intros []].
  - intros c Hc. rewrite (tr_doc _ _ _ _ _ _ _ _ _ _ T) in Hc. 
    assert (H : In c (d_terms (s_doc s)) \/ c = hlen s).
    { destruct (eqs _ _) in Hc; [|auto]. cbn [d_terms set_d_terms] in Hc. apply in_app_iff in Hc. destruct Hc as [Hc|[<-|[]]]; auto. }
    destruct H as [H| ->]; [|split; [lia|rewrite N2; discriminate]]. destruct (G3 c H) as [A B]. rewrite Some' by exact A. split; [lia|exact B].
  - intros i c Hi Hc.
    assert (H : c = hlen s \/ i < hlen s /\ In c (t_terms (tget i s))).
    { destruct (Nat.lt_trichotomy i (hlen s)) as [L|[->|L]].
      - destruct (Old i L) as (_ & _ & X). apply X in Hc. tauto.
      - left. apply N4. exact Hc.
      - destruct (Kid i) as (_ & _ & _ & E); [lia|]. rewrite E in Hc. destruct Hc. }
    destruct H as [->|[H1 H2]]; [split; [lia|rewrite N2; discriminate]|]. destruct (G4 i c H1 H2) as [A B]. rewrite Some' by exact A. split; [lia|exact B].
  - intros i Hi Hc. destruct (Nat.lt_trichotomy i (hlen s)) as [L|[->|L]].
    + destruct (Old i L) as (E & _). rewrite (sm_cls _ _ E) in Hc. rewrite Some' by exact L. auto.
    + rewrite N1, (tr_cls _ _ _ _ _ _ _ _ _ _ T) in Hc. discriminate.
    + destruct (Kid i) as (E & _); [lia|]. congruence.
Qed.

(** a new object that is no term of the document yet, the rest unchanged *)
Lemma forest_more : forall s s', forest s -> pinv s -> hlen s' = S (hlen s) ->
  (forall i, i < hlen s -> t_parent (tget i s') = t_parent (tget i s) /\ t_cls (tget i s') = t_cls (tget i s)
     /\ t_children (tget i s') = t_children (tget i s) /\ t_terms (tget i s') = t_terms (tget i s)) ->
  t_parent (tget (hlen s) s') = None -> t_children (tget (hlen s) s') = [] -> t_terms (tget (hlen s) s') = [] ->
  d_terms (s_doc s') = d_terms (s_doc s) -> forest s'.
Proof.
  intros s s' [G1 G2 G3 G4 G5] P L Old N1 N2 N3 D.
  assert (C : forall i, i < hlen s' -> i < hlen s \/ i = hlen s) by lia.
  split.
  - intros q c Hq Hc. destruct (C q Hq) as [L'| ->]; [|rewrite N2 in Hc; destruct Hc]. destruct (Old q L') as (_ & _ & E & _). rewrite E in Hc.
    destruct (G1 q c L' Hc) as [A B]. destruct (Old c A) as (E' & _). rewrite E'. split; [lia|exact B].
  - intros c q Hc Hp. destruct (C c Hc) as [L'| ->]; [|congruence]. destruct (Old c L') as (E & _). rewrite E in Hp.
    destruct (G2 c q L' Hp) as [A B]. split; [exact A|]. assert (Lq : q < hlen s) by lia. destruct (Old q Lq) as (_ & _ & E' & _). rewrite E'. exact B.
  - intros c Hc. rewrite D in Hc. destruct (G3 c Hc) as [A B]. destruct (Old c A) as (E' & _). rewrite E'. split; [lia|exact B].
  - intros i c Hi Hc. destruct (C i Hi) as [L'| ->]; [|rewrite N3 in Hc; destruct Hc]. destruct (Old i L') as (_ & _ & _ & E). rewrite E in Hc.
    destruct (G4 i c L' Hc) as [A B]. destruct (Old c A) as (E' & _). rewrite E'. split; [lia|exact B].
  - intros i Hi Hc. destruct (C i Hi) as [L'| ->]; [|exact N1]. destruct (Old i L') as (E & E2 & _). rewrite E2 in Hc. rewrite E. auto.
Qed.

Lemma forest_row : forall decl v ftype row l s s', ftype <> Some "declare" -> vinv decl v s -> pinv s' -> reads row l -> usual l -> ~ own_parent l ->
  row_eff ftype (v_line v) row s s' -> forest s -> forest s'.
Proof.
  intros decl v ftype row l s s' Ft V PI Rd U NS H F. pose proof (vi_pinv _ _ _ V) as P.
  destruct (vinv_row _ _ _ _ _ _ _ Ft V PI Rd U (greets_all _) H) as [_ TR].
  destruct H as [H1 ->|H1 H2 H3 ->|c H1 H2 H3 H4 ->|p r c q s1 H1 H2 H3 H4 H5 H6 H7].
  - exact F.
  - apply (forest_more s); auto.
    + apply section_effect_len.
    + intros i Hi. rewrite section_effect_old by exact Hi. auto.
    + rewrite section_effect_new. reflexivity.
    + rewrite section_effect_new. reflexivity.
    + rewrite section_effect_new. reflexivity.
    + unfold section_effect. destruct (dget _ _); [|rewrite doc_dmod]; rewrite enter_doc; reflexivity.
  - apply (forest_more s); auto.
    + apply header_effect_len.
    + intros i Hi. rewrite header_effect_get by (try apply (pi_last _ P); lia).
      replace (i =? hlen s) with false by (symmetry; apply Nat.eqb_neq; lia). destruct (i =? _); auto.
    + rewrite header_effect_get by (try apply (pi_last _ P); lia). rewrite Nat.eqb_refl. reflexivity.
    + rewrite header_effect_get by (try apply (pi_last _ P); lia). rewrite Nat.eqb_refl. reflexivity.
    + rewrite header_effect_get by (try apply (pi_last _ P); lia). rewrite Nat.eqb_refl. reflexivity.
  - apply not_blank in H1. destruct Rd as [B|NB C|NB C|p' r' NB C Hx]; try tauto.
    + destruct (cell_names_fun _ _ _ _ _ H2 C) as [-> ->]. exfalso. apply H3; cbn; auto.
    + destruct (cell_names_fun _ _ _ _ _ H2 C) as [-> ->]. exfalso. apply H3; cbn; auto.
    + destruct (TR _ _ _ _ eq_refl) as (c' & q' & T). eapply forest_term; [exact F|exact P| |exact T].
      intros ->. apply NS. exists r', (strip (nth 1 row "")), (map strip (skipn 2 row)). reflexivity.
Qed.

Lemma forest_rows : forall decl ftype rows ls v s s', ftype <> Some "declare" -> vinv decl v s -> Forall2 reads rows ls -> Forall usual ls ->
  Forall (fun l => ~ own_parent l) ls -> rows_eff ftype (v_line v) rows s s' -> forest s -> forest s'.
Proof.
  intros decl ftype rows ls v s s' Ft V Rd. revert v s V. induction Rd as [|row l rows ls R1 R2 IH]; intros v s V U NS H F.
  - inversion H; subst. exact F.
  - inversion U as [|? ? U1 U2]; subst. inversion NS as [|? ? N1 N2]; subst. inversion H as [|? ? ? ? s1 ? H1 H2 H3]; subst.
    destruct (vinv_row _ _ _ _ _ _ _ Ft V H2 R1 U1 (greets_all _) H1) as [V1 _].
    apply (IH (next decl v l) s1); auto.
    + rewrite next_line. exact H3.
    + apply (forest_row decl v ftype row l s s1); assumption.
Qed.

Lemma forest_start : forall reg dt ds sup, forest (started (new_doc reg dt ds sup)).
Proof.
  intros. assert (E0 : forall i, i < 1 -> i = 0) by lia. split.
  - intros q c Hq Hc. apply E0 in Hq. subst q. destruct Hc.
  - intros c q Hc Hp. apply E0 in Hc. subst c. discriminate Hp.
  - intros c [].
  - intros i c Hi Hc. apply E0 in Hi. subst i. destruct Hc.
  - intros i Hi _. apply E0 in Hi. subst i. reflexivity.
Qed.

Lemma forest_finished : forall s s', finished s s' -> forest s -> forest s'.
Proof.
  intros s s' F [G1 G2 G3 G4 G5]. assert (T : forall i, tget i s' = tget i s) by (intros i; unfold tget; rewrite (fi_heap _ _ F); reflexivity).
  assert (L : hlen s' = hlen s) by (unfold hlen; rewrite (fi_heap _ _ F); reflexivity).
  split.
  - intros q c. rewrite !T, L. apply G1.
  - intros c q. rewrite !T, L. apply G2.
  - intros c. rewrite (fi_terms _ _ F), T, L. apply G3.
  - intros i c. rewrite !T, L. apply G4.
  - intros i. rewrite T, L. apply G5.
Qed.

Lemma loads_forest : forall g rows ls s, proper g -> means rows ls -> Forall (fun l => ~ own_parent l) ls -> loads g rows s -> forest s.
Proof.
  intros g rows ls s [GR ND] [Rd U] NS L.
  destruct (parse_rows_eff _ _ _ _ _ _ _ _ _ _ _ GR ND Rd U L) as (s1 & RE & F & V1).
  eapply forest_finished; [exact F|]. eapply forest_rows; [|apply (first_vinv (in_reg g) (in_terms g) (in_secs g) (in_super g) GR ND)|exact Rd|exact U|exact NS|exact RE|apply forest_start]. discriminate.
Qed.

(** ** Consequences *)

Lemma forest_one_parent : forall s c, forest s -> in_document s c ->
  exists q, q < c /\ c < hlen s /\ t_parent (tget c s) = Some q /\ count_occ Nat.eq_dec (t_children (tget q s)) c = 1
    /\ forall q', q' < hlen s -> In c (t_children (tget q' s)) -> q' = q.
Proof.
  intros s c F D. assert (H : c < hlen s /\ t_parent (tget c s) <> None).
  { destruct D as [D|(q & Hq & D)]; [apply (fr_dt _ F); exact D|]. destruct (fr_child _ F q c Hq D) as [A B]. split; [exact A|congruence]. }
  destruct H as [H1 H2]. destruct (t_parent (tget c s)) as [q|] eqn:E; [|congruence]. exists q.
  destruct (fr_par _ F c q H1 E) as [A B]. repeat split; auto.
  intros q' Hq' I. destruct (fr_child _ F q' c Hq' I) as [_ X]. congruence.
Qed.

Lemma forest_ancestors_end : forall s c, forest s -> c < hlen s -> ancestor s (S c) c = None.
Proof.
  intros s c F. assert (A : forall n c, c < n -> c < hlen s -> ancestor s n c = None).
  { induction n as [|n IH]; intros d Hd Hl; [lia|]. cbn [ancestor]. destruct (t_parent (tget d s)) as [q|] eqn:E; [|reflexivity].
    destruct (fr_par _ F d q Hl E) as [L _]. apply IH; lia. }
  intros H. apply A; [lia|exact H].
Qed.

(** ** Every term listed anywhere has a parent, even with rows such as "a.a" *)

Record linked (s : st) : Prop := {
  lk_child : forall q c, q < hlen s -> In c (t_children (tget q s)) -> c < hlen s /\ t_parent (tget c s) = Some q;
  lk_dt : forall c, In c (d_terms (s_doc s)) -> c < hlen s /\ t_parent (tget c s) <> None;
  lk_tt : forall i c, i < hlen s -> In c (t_terms (tget i s)) -> c < hlen s /\ t_parent (tget c s) <> None
}.

Lemma linked_term : forall ftype line p r row cols s s' c q, linked s ->
  term_row ftype line p r row cols s s' c q -> linked s'.
Proof.
  intros ftype line p r row cols s s' c0 q0 F T.
  set (R := row_rec c0 line ftype p r row). set (own := seq (S (hlen s)) (hlen s' - S (hlen s))).
  set (host := if eqs p ELIDED_TERM then q0 else hlen s).
  pose proof (tr_len _ _ _ _ _ _ _ _ _ _ T) as Ln. pose proof (tr_q _ _ _ _ _ _ _ _ _ _ T) as Hq.
  assert (Hh : host <= hlen s) by (unfold host; destruct (eqs p ELIDED_TERM); lia).
  assert (Own : forall u, In u own <-> S (hlen s) <= u < hlen s') by (intros u; unfold own; rewrite in_seq; lia).
  pose proof (settled_fields s q0 R) as SF. cbv zeta in SF.
  destruct SF as (F1 & F2 & F3 & F4 & F5 & F6 & F7 & F8 & F9 & F10 & F11 & F12 & F13 & F14 & _).
  assert (Par : t_parent (tget (hlen s) s') = Some q0).
  { destruct (tr_get _ _ _ _ _ _ _ _ _ _ T (hlen s) (le_n _)) as (A & _). cbv zeta in A. rewrite Nat.eqb_refl in A. rewrite (sm_parent _ _ A). exact F2. }
  assert (Kids : forall i, i <= hlen s -> forall c, In c (t_children (tget i s')) ->
     i < hlen s /\ In c (t_children (tget i s)) \/ i = q0 /\ c = hlen s \/ i = host /\ In c own).
  { intros i Hi c Hc. destruct (tr_get _ _ _ _ _ _ _ _ _ _ T i Hi) as (_ & _ & _ & B & _). cbv zeta in B. fold R in B. fold own in B. fold host in B. rewrite B in Hc. clear B.
    apply in_app_iff in Hc. destruct Hc as [Hc|Hc].
    - destruct (Nat.eqb_spec i (hlen s)) as [->|N]; [rewrite F13 in Hc; destruct Hc|]. left. split; [lia|exact Hc].
    - apply in_app_iff in Hc. destruct Hc as [Hc|Hc].
      + destruct (Nat.eqb_spec i q0) as [->|]; [|destruct Hc]. destruct Hc as [<-|[]]. auto.
      + destruct (Nat.eqb_spec i host) as [E|]; [|destruct Hc]. auto. }
  assert (Trms : forall i, i <= hlen s -> forall c, In c (t_terms (tget i s')) -> i < hlen s /\ In c (t_terms (tget i s)) \/ c = hlen s).
  { intros i Hi c Hc. destruct (tr_get _ _ _ _ _ _ _ _ _ _ T i Hi) as (_ & _ & _ & _ & B). cbv zeta in B. fold R in B. rewrite B in Hc. clear B.
    apply in_app_iff in Hc. destruct Hc as [Hc|Hc].
    - destruct (Nat.eqb_spec i (hlen s)) as [->|N]; [rewrite F14 in Hc; destruct Hc|]. left. split; [lia|exact Hc].
    - destruct (_ && _) in Hc; [|destruct Hc]. destruct Hc as [<-|[]]. auto. }
  assert (Kid : forall u, S (hlen s) <= u < hlen s' -> t_parent (tget u s') = Some host /\ t_children (tget u s') = [] /\ t_terms (tget u s') = []).
  { intros u Hu. destruct (tr_new _ _ _ _ _ _ _ _ _ _ T u Hu) as (_ & _ & _ & B & C & D & _). auto. }
  assert (Some' : forall x, x < hlen s -> t_parent (tget x s') = t_parent (tget x s)).
  { intros x Hx. apply sm_parent. destruct (tr_get _ _ _ _ _ _ _ _ _ _ T x) as (A & _); [lia|]. cbv zeta in A.
    replace (x =? hlen s) with false in A by (symmetry; apply Nat.eqb_neq; lia). exact A. }
  destruct F as [G1 G2 G3]. split.
  - intros q c Hq' Hc. destruct (Nat.le_gt_cases q (hlen s)) as [L|L].
    + destruct (Kids q L c Hc) as [[A B]|[[-> ->]|[-> B]]].
      * destruct (G1 q c A B) as [C D]. rewrite Some' by exact C. split; [lia|exact D].
      * split; [lia|exact Par].
      * apply Own in B. split; [lia|]. apply Kid. exact B.
    + destruct (Kid q) as (_ & E & _); [lia|]. rewrite E in Hc. destruct Hc.
  - intros c Hc. rewrite (tr_doc _ _ _ _ _ _ _ _ _ _ T) in Hc. 
    assert (H : In c (d_terms (s_doc s)) \/ c = hlen s).
    { destruct (eqs _ _) in Hc; [|auto]. cbn [d_terms set_d_terms] in Hc. apply in_app_iff in Hc. destruct Hc as [Hc|[<-|[]]]; auto. }
    destruct H as [H| ->]; [|split; [lia|rewrite Par; discriminate]]. destruct (G2 c H) as [A B]. rewrite Some' by exact A. split; [lia|exact B].
  - intros i c Hi Hc. destruct (Nat.le_gt_cases i (hlen s)) as [L|L].
    + destruct (Trms i L c Hc) as [[A B]| ->].
      * destruct (G3 i c A B) as [C D]. rewrite Some' by exact C. split; [lia|exact D].
      * split; [lia|rewrite Par; discriminate].
    + destruct (Kid i) as (_ & _ & E); [lia|]. rewrite E in Hc. destruct Hc.
Qed.

Lemma linked_more : forall s s', linked s -> hlen s' = S (hlen s) ->
  (forall i, i < hlen s -> t_parent (tget i s') = t_parent (tget i s)
     /\ t_children (tget i s') = t_children (tget i s) /\ t_terms (tget i s') = t_terms (tget i s)) ->
  t_children (tget (hlen s) s') = [] -> t_terms (tget (hlen s) s') = [] ->
  d_terms (s_doc s') = d_terms (s_doc s) -> linked s'.
Proof.
  intros s s' [G1 G3 G4] L Old N2 N3 D.
  assert (C : forall i, i < hlen s' -> i < hlen s \/ i = hlen s) by lia.
  split.
  - intros q c Hq Hc. destruct (C q Hq) as [L'| ->]; [|rewrite N2 in Hc; destruct Hc]. destruct (Old q L') as (_ & E & _). rewrite E in Hc.
    destruct (G1 q c L' Hc) as [A B]. destruct (Old c A) as (E' & _). rewrite E'. split; [lia|exact B].
  - intros c Hc. rewrite D in Hc. destruct (G3 c Hc) as [A B]. destruct (Old c A) as (E' & _). rewrite E'. split; [lia|exact B].
  - intros i c Hi Hc. destruct (C i Hi) as [L'| ->]; [|rewrite N3 in Hc; destruct Hc]. destruct (Old i L') as (_ & _ & E). rewrite E in Hc.
    destruct (G4 i c L' Hc) as [A B]. destruct (Old c A) as (E' & _). rewrite E'. split; [lia|exact B].
Qed.

Lemma linked_row : forall decl v ftype row l s s', ftype <> Some "declare" -> vinv decl v s -> pinv s' -> reads row l -> usual l ->
  row_eff ftype (v_line v) row s s' -> linked s -> linked s'.
Proof.
  intros decl v ftype row l s s' Ft V PI Rd U H F. pose proof (vi_pinv _ _ _ V) as P.
  destruct (vinv_row _ _ _ _ _ _ _ Ft V PI Rd U (greets_all _) H) as [_ TR].
  destruct H as [H1 ->|H1 H2 H3 ->|c H1 H2 H3 H4 ->|p r c q s1 H1 H2 H3 H4 H5 H6 H7].
  - exact F.
  - apply (linked_more s); auto.
    + apply section_effect_len.
    + intros i Hi. rewrite section_effect_old by exact Hi. auto.
    + rewrite section_effect_new. reflexivity.
    + rewrite section_effect_new. reflexivity.
    + unfold section_effect. destruct (dget _ _); [|rewrite doc_dmod]; rewrite enter_doc; reflexivity.
  - apply (linked_more s); auto.
    + apply header_effect_len.
    + intros i Hi. rewrite header_effect_get by (try apply (pi_last _ P); lia).
      replace (i =? hlen s) with false by (symmetry; apply Nat.eqb_neq; lia). destruct (i =? _); auto.
    + rewrite header_effect_get by (try apply (pi_last _ P); lia). rewrite Nat.eqb_refl. reflexivity.
    + rewrite header_effect_get by (try apply (pi_last _ P); lia). rewrite Nat.eqb_refl. reflexivity.
  - apply not_blank in H1. destruct Rd as [B|NB C|NB C|p' r' NB C Hx]; try tauto.
    + destruct (cell_names_fun _ _ _ _ _ H2 C) as [-> ->]. exfalso. apply H3; cbn; auto.
    + destruct (cell_names_fun _ _ _ _ _ H2 C) as [-> ->]. exfalso. apply H3; cbn; auto.
    + destruct (TR _ _ _ _ eq_refl) as (c' & q' & T). eapply linked_term; [exact F|exact T].
Qed.

Lemma linked_rows : forall decl ftype rows ls v s s', ftype <> Some "declare" -> vinv decl v s -> Forall2 reads rows ls -> Forall usual ls ->
  rows_eff ftype (v_line v) rows s s' -> linked s -> linked s'.
Proof.
  intros decl ftype rows ls v s s' Ft V Rd. revert v s V. induction Rd as [|row l rows ls R1 R2 IH]; intros v s V U H F.
  - inversion H; subst. exact F.
  - inversion U as [|? ? U1 U2]; subst. inversion H as [|? ? ? ? s1 ? H1 H2 H3]; subst.
    destruct (vinv_row _ _ _ _ _ _ _ Ft V H2 R1 U1 (greets_all _) H1) as [V1 _].
    apply (IH (next decl v l) s1); auto.
    + rewrite next_line. exact H3.
    + apply (linked_row decl v ftype row l s s1); assumption.
Qed.

Lemma linked_start : forall reg dt ds sup, linked (started (new_doc reg dt ds sup)).
Proof.
  intros. assert (E0 : forall i, i < 1 -> i = 0) by lia. split.
  - intros q c Hq Hc. apply E0 in Hq. subst q. destruct Hc.
  - intros c [].
  - intros i c Hi Hc. apply E0 in Hi. subst i. destruct Hc.
Qed.

Lemma linked_finished : forall s s', finished s s' -> linked s -> linked s'.
Proof.
  intros s s' F [G1 G3 G4]. assert (T : forall i, tget i s' = tget i s) by (intros i; unfold tget; rewrite (fi_heap _ _ F); reflexivity).
  assert (L : hlen s' = hlen s) by (unfold hlen; rewrite (fi_heap _ _ F); reflexivity).
  split.
  - intros q c. rewrite !T, L. apply G1.
  - intros c. rewrite (fi_terms _ _ F), T, L. apply G3.
  - intros i c. rewrite !T, L. apply G4.
Qed.

Lemma loads_linked : forall g rows ls s, proper g -> means rows ls -> loads g rows s -> linked s.
Proof.
  intros g rows ls s [GR ND] [Rd U] L.
  destruct (parse_rows_eff _ _ _ _ _ _ _ _ _ _ _ GR ND Rd U L) as (s1 & RE & F & V1).
  eapply linked_finished; [exact F|]. eapply linked_rows; [|apply (first_vinv (in_reg g) (in_terms g) (in_secs g) (in_super g) GR ND)|exact Rd|exact U|exact RE|apply linked_start]. discriminate.
Qed.
