(** * IncFacts: parsing with Include rows *)

From Verif Require Import ListFacts StrFacts HeapFacts Parser RunFacts EmitFacts TotalFacts NameFacts ConstructFacts ParseFacts RowFacts FrameFacts GrowFacts SpecNames SpecParse SpecDoc SpecInclude IncludeFacts SpecKept.

Lemma rows_to_app : forall e load rec src ft a b line ls s,
  rows_loop e load rec src ft line (a ++ b) ls s
  = (ls' <- rows_to e load rec src ft line a ls ;; rows_loop e load rec src ft (line + List.length a) b ls') s.
Proof.
  intros e load rec src ft a. induction a as [|row a IH]; intros b line ls s.
  - cbn [app rows_to List.length]. rewrite Nat.add_0_r. reflexivity.
  - cbn [app rows_loop rows_to List.length]. unfold bind. destruct (row_step e load rec src ft line row ls s) as [s1 [ls1|er]]; [|reflexivity].
    rewrite (IH b (S line) ls1 s1). unfold bind. rewrite Nat.add_succ_r. reflexivity.
Qed.

Definition sect (s : st) (i : nat) : Prop := i < hlen s /\ is_section_cls (t_cls (tget i s)) = true.
Lemma sect_grown : forall s s' i, grown s s' -> sect s i -> sect s' i.
Proof.
  intros s s' i (_ & _ & L & C) [H1 H2]. split; [lia|]. specialize (C i H1). unfold core in C. injection C as -> _ _ _ _ _. exact H2.
Qed.

(** going back to a section *)
Lemma reenter : forall s i s', pinv s -> sect s i -> emit true i s = (s', Ok tt) ->
  pinv s' /\ s_prs s' = s_prs (enter_section i s) /\ s_heap s' = s_heap s /\ d_root (s_doc s') = d_root (s_doc s).
Proof.
  intros s i s' P [Hi Hc] H. destruct (pi_sec _ P _ Hi Hc (fun x => x)) as [PS Rt].
  pose proof (enter_inv _ _ P Hi Hc (fun x => x)) as PE. destruct (enter_fields i s) as (E1 & E2 & E3).
  unfold enter_section in *. destruct (Nat.eqb_spec i (d_root (s_doc s))) as [Er|Er].
  - apply emit_root in H; [|exact Hi|apply (pi_syn _ P)|exact PS|rewrite Er; apply (pi_rootn _ P)]. subst s'. split; [exact PE|repeat split].
  - apply emit_section in H; [|exact Hi|apply (pi_syn _ P)|exact PS|apply Rt; exact Er].
    destruct H as (n & Hv & ->). rewrite (pi_rootn _ P). set (s1 := pmod _ s) in *.
    destruct (dget (lower n) (d_sections (s_doc s1))) as [j|] eqn:Ed.
    + rewrite dmod_id by (rewrite Ed; reflexivity). split; [exact PE|repeat split].
    + assert (Eq : dmod (fun d => match dget (lower n) (d_sections d) with Some _ => d | None => set_d_sections (dset (lower n) i (d_sections d)) d end) s1
                 = dmod (fun d => set_d_sections (dset (lower n) i (d_sections d)) d) s1).
      { unfold dmod. rewrite Ed. reflexivity. }
      rewrite Eq. split; [|repeat split]. apply (pinv_dsec _ _ n); [exact PE|exact Hi|exact Hc|exact Hv|reflexivity|exact (fun x => x)].
Qed.

Lemma new_term_force : forall s r q s', new_term s r q s' -> force s' = force s.
Proof. intros s r q s' N. unfold force. rewrite (nt_prs _ _ _ _ N). destruct (registers r); reflexivity. Qed.
Lemma kids_force : forall line ft t n col args s s', kids line ft t n col args s s' -> force s' = force s.
Proof. induction 1; [reflexivity|exact IHkids|]. rewrite IHkids. eapply new_term_force. eassumption. Qed.

Lemma section_effect_root : forall v args line ft s, d_root (s_doc (section_effect v args line ft s)) = d_root (s_doc s).
Proof.
  intros. unfold section_effect. set (r := section_rec _ _ _ _ _). destruct (dget _ _) as [i|].
  - destruct (enter_fields i (push r s)) as (_ & -> & _). reflexivity.
  - destruct (enter_fields (hlen s) (push r s)) as (_ & E & _). unfold dmod. cbn [s_doc set_s_doc]. rewrite E. reflexivity.
Qed.

Lemma section_sect : forall row args line ft s, pinv s -> 
  let s' := section_effect (nth 1 row "") args line ft s in
  sect s' (row_section s row) /\ p_lastsec (s_prs s') = row_section s row
  /\ (row_section s row <> d_root (s_doc s) ->
       p_pmap (s_prs s') = munge_param_map (t_args (tget (row_section s row) s')) /\ p_dtvn (s_prs s') = "@value").
Proof.
  intros row args line ft s P. cbn zeta. unfold row_section, section_effect.
  set (r0 := section_rec _ _ _ _ _). destruct (dget _ (d_sections (s_doc s))) as [i|] eqn:Ei.
  - destruct (pi_dsecs _ P _ _ Ei) as [X1 X2]. destruct (enter_fields i (push r0 s)) as (E1 & E2 & _).
    destruct (enter_prs i (push r0 s)) as (Q1 & _ & _ & _ & _ & Q5).
    assert (T : tget i (enter_section i (push r0 s)) = tget i (push r0 s)) by (unfold tget; rewrite E1; reflexivity).
    split; [|split; [exact Q1|]].
    + split; [unfold hlen; rewrite E1; change (i < hlen (push r0 s)); rewrite hlen_push; lia|]. rewrite T, push_old by exact X1. exact X2.
    + intros N. destruct (Q5 N) as (Y1 & _ & Y3). rewrite T. auto.
  - destruct (enter_fields (hlen s) (push r0 s)) as (E1 & E2 & _).
    destruct (enter_prs (hlen s) (push r0 s)) as (Q1 & _ & _ & _ & _ & Q5).
    assert (T : tget (hlen s) (enter_section (hlen s) (push r0 s)) = tget (hlen s) (push r0 s)) by (unfold tget; rewrite E1; reflexivity).
    rewrite !tget_dmod. split; [|split; [exact Q1|]].
    + split; [change (hlen s < List.length (s_heap (enter_section (hlen s) (push r0 s)))); rewrite E1; change (hlen s < hlen (push r0 s)); rewrite hlen_push; lia|].
      rewrite tget_dmod, T, push_new. reflexivity.
    + intros N. destruct (Q5 N) as (Y1 & _ & Y3). rewrite T. auto.
Qed.

(** which section a row that is not an Include or Declare row leads to *)
Lemma plain_row : forall e rec src ft line row ls s s' ls', ft <> Some "declare" -> pinv s -> sect s ls -> ordinary row ->
  row_step e true rec src ft line row ls s = (s', Ok ls') ->
  (pinv s' /\ grow s s') /\ sect s' ls' /\ d_root (s_doc s') = d_root (s_doc s)
  /\ ((~ blank_row row /\ cell_names (hd "" row) "root" "section" /\ ls' = row_section s row /\ p_lastsec (s_prs s') = ls'
        /\ (ls' <> d_root (s_doc s) -> p_pmap (s_prs s') = munge_param_map (t_args (tget ls' s')) /\ p_dtvn (s_prs s') = "@value"))
      \/ (~ blank_row row /\ cell_names (hd "" row) "root" "header" /\ ls' = ls /\ p_lastsec (s_prs s') = p_lastsec (s_prs s))
      \/ (ls' = ls /\ force s' = force s)).
Proof.
  intros e rec src ft line row ls s s' ls' Ft P Sl O H. apply row_step_eff in H; auto using welcome_all. destruct H as (RE & P' & El).
  pose proof (row_eff_grow _ _ _ _ _ P RE) as W. split; [exact (conj P' W)|].
  assert (Sl' : sect s' ls).
  { destruct Sl as [Sl1 Sl2]. split; [pose proof (gw_len _ _ W); lia|]. rewrite (sm_cls _ _ (gw_same _ _ W _ Sl1)). exact Sl2. }
  destruct RE as [Sk E|Sk C2 V E|c Sk C2 _ _ E|p r c q s1 Sk C2 Nsec _ _ N K].
  - rewrite Sk in El. subst ls' s'. split; [exact Sl'|]. split; [reflexivity|]. right. right. auto.
  - rewrite Sk in El. rewrite (proj2 (split_term_lower_spec _ _ _) C2) in El. cbn iota in El. 
    destruct (section_sect row (skipn 2 row) line ft s P) as (X1 & X2 & X3). rewrite <- E in X1, X2, X3. rewrite <- El in X1, X2, X3.
    split; [exact X1|]. split; [rewrite E; apply section_effect_root|]. left. split; [intros B; apply skip_blank in B; congruence|]. auto.
  - rewrite Sk in El. rewrite (proj2 (split_term_lower_spec _ _ _) C2) in El. cbn iota in El. subst ls'. split; [exact Sl'|].
    split; [rewrite E; reflexivity|]. right. left. split; [intros B; apply skip_blank in B; congruence|]. split; [exact C2|]. split; [reflexivity|]. rewrite E. reflexivity.
  - rewrite Sk in El. rewrite (proj2 (split_term_lower_spec _ _ _) C2) in El.
    assert (El' : ls' = ls).
    { rewrite El. destruct (string_dec p "root") as [->|Np].
      - destruct (string_dec r "section") as [->|Nn]; [exfalso; apply Nsec; [reflexivity|left; reflexivity]|].
        clear -Nn. destruct r as [|c1 n]; [reflexivity|].
        repeat match goal with |- match ?x with _ => _ end = _ => destruct x; try reflexivity end. contradiction.
      - clear -Np. destruct p as [|c1 p]; [reflexivity|].
        repeat match goal with |- match ?x with _ => _ end = _ => destruct x; try reflexivity end. contradiction. }
    subst ls'. rewrite El'. split; [exact Sl'|].
    assert (Dr : d_root (s_doc s') = d_root (s_doc s)).
    { clear -N K. transitivity (d_root (s_doc s1)).
      - clear N. induction K; [reflexivity|exact IHK|]. rewrite IHK. rewrite (nt_doc _ _ _ _ H1). destruct (eqs _ _); reflexivity.
      - rewrite (nt_doc _ _ _ _ N). destruct (eqs _ _); reflexivity. }
    split; [exact Dr|]. right. right. split; [reflexivity|]. rewrite (kids_force _ _ _ _ _ _ _ _ K). eapply new_term_force. exact N.
Qed.

Section Rec.
  Variable e : env.
  Variable rec : source -> option string -> MM unit.
  Hypothesis Rgrown : forall src ft, pres grown (rec src ft).
  Hypothesis Rpinv : forall y rows ft s s', fetch e y = Some rows -> ft <> Some "declare" -> pinv s ->
    rec (mk_source (Some y) "" rows) ft s = (s', Ok tt) -> pinv s' /\ grow s s'.

  Lemma include_eff : forall src ft line row ls s s' ls', ft <> Some "declare" -> pinv s -> sect s ls -> file_row "include" row ->
    row_step e true rec src ft line row ls s = (s', Ok ls') ->
    (pinv s' /\ grow s s') /\ ls' = ls /\ sect s' ls
    /\ t_args (tget ls s') = t_args (tget ls s) /\ d_root (s_doc s') = d_root (s_doc s)
    /\ p_lastsec (s_prs s') = ls
    /\ (ls <> d_root (s_doc s) -> p_pmap (s_prs s') = munge_param_map (t_args (tget ls s))
          /\ p_dtvn (s_prs s') = "@value" /\ p_lastparent (s_prs s') = "root").
  Proof.
    intros src ft line row ls s s' ls' Ft P Sl Fr H. pose proof H as H0.
    destruct Fr as [NB CN]. unfold row_step in H.
    destruct (skip_row row) eqn:Sk; [exfalso; apply NB; apply skip_blank; exact Sk|].
    apply split_term_lower_spec in CN as Sp. rewrite Sp in H. rg H. cbn iota beta in H. rg H. rb H as s1 t Hc.
    pose proof (cell_names_tidy _ _ _ CN) as (T1 & T2 & T3 & T4 & T5 & T6 & T7).
    assert (Sp2 : split_term_lower (dotted "root" "include") = Ok ("root", "include")) by reflexivity.
    pose proof (construct_cls _ _ _ _ _ _ _ _ _ _ _ T3 T4 Sp2 T5 T6 Hc) as [Cc|(_ & _ & [Cn|Cn])]; [|discriminate Cn..].
    apply construct_plain in Hc; [|exact Cc]. destruct Hc as (p' & r' & Tn & _ & -> & ->).
    unfold term_names in Tn. rewrite Sp2 in Tn. cbn in Tn. injection Tn as <- <-.
    fold (row_rec (parser_term_class (dotted "root" "include") s) line ft "root" "include" row) in H.
    set (c := parser_term_class (dotted "root" "include") s) in *. set (R := row_rec c line ft "root" "include" row) in *.
    rg H. rewrite push_new in H. assert (LC : lc_name R) by (unfold lc_name; cbn; auto).
    rewrite is_include_bare in H by exact LC. rg H. rewrite is_declare_bare in H by exact LC. rg H.
    change (named_root R "include" || named_root R "declare") with true in H. cbn iota in H.
    rb H as s2 u Hi. destruct u. apply ret_ok in H. destruct H as [-> ->].
    change (named_root R "include") with true in Hi. unfold include_row in Hi. rg Hi. rewrite push_new in Hi.
    destruct (as_str (t_val R)) as [v|er] eqn:Av; [|discriminate Hi]. rg Hi.
    destruct (find_include_doc (src_dir src) (strip v)) as [y|er] eqn:Ey; [|discriminate Hi]. rg Hi.
    rb Hi as s3 u Hr. assert (s3 = push R s) as ->.
    { destruct (src_ref src) as [f|]; [destruct (eqs f y); [discriminate Hr|]|]; apply ret_ok in Hr; apply Hr. }
    rb Hi as s4 u4 He. destruct u4. destruct (fetch e y) as [rows|] eqn:F; [|discriminate Hi]. rg Hi. rb Hi as s5 u5 Hrec. destruct u5.
    assert (Fo : fresh_ok s R).
    { split; [exact Cc|reflexivity|reflexivity|reflexivity|reflexivity|exact Ft|split; reflexivity || (apply dot_free_iff; reflexivity)|reflexivity|..].
      - intros _. unfold renamed. change (t_rt R) with "include". cbn. intros [X|[X|[X|[]]]]; discriminate X.
      - intros _. change (t_rt R) with "include". repeat split; try discriminate. apply dot_free_iff. reflexivity. }
    assert (G4 : grown s s4).
    { destruct grown_po as [_ Tr]. apply Tr with (push R s); [apply grown_push|]. eapply grown_emit. exact He. }
    pose proof He as He2. apply emit_new in He2; [|exact P|exact Fo]. destruct He2 as (q & N).
    pose proof (new_term_inv _ _ _ _ P Fo N) as P4.
    assert (Rt4 : t_rt (tget (hlen s) s4) = "include").
    { rewrite (nt_new _ _ _ _ N). rewrite (sm_rt _ _ (with_new_same _ _ _ _ _)).
      pose proof (settled_fields s q R) as SF. cbn zeta in SF. destruct SF as (_&_&_&_&SFr&_). rewrite SFr. reflexivity. }
    assert (PG5 : pinv s5 /\ grow s4 s5).
    { eapply Rpinv; [exact F| |exact P4|exact Hrec]. unfold rt_lc. rewrite Rt4. discriminate. }
    destruct PG5 as [P5 W5].
    assert (G5 : grown s s5).
    { destruct grown_po as [_ Tr]. apply Tr with s4; [exact G4|]. eapply Rgrown. exact Hrec. }
    pose proof (sect_grown _ _ _ G5 Sl) as S5.
    destruct (reenter _ _ _ P5 S5 Hi) as (P' & Ep & Eh & Er).
    destruct (enter_prs ls s5) as (Q1 & _ & _ & _ & Q4 & Q5). destruct G5 as (_ & D5 & L5 & C5).
    assert (A5 : t_args (tget ls s5) = t_args (tget ls s)).
    { destruct Sl as [Sl _]. specialize (C5 _ Sl). unfold core in C5. injection C5. auto. }
    assert (W : grow s s2).
    { eapply grow_trans; [eapply new_term_grow; exact N|]. eapply grow_trans; [exact W5|]. apply grow_heap; [unfold hlen; rewrite Eh; lia|].
      intros i _. unfold tget. rewrite Eh. split; [apply same_refl|split; reflexivity]. }
    split; [exact (conj P' W)|]. split; [reflexivity|]. split; [|split; [|split; [|split]]].
    - destruct S5 as [X1 X2]. split; [unfold hlen in *; rewrite Eh; exact X1|unfold tget; rewrite Eh; exact X2].
    - unfold tget at 1. rewrite Eh. exact A5.
    - rewrite Er. exact D5.
    - rewrite Ep. exact Q1.
    - intros Nr. rewrite Ep. rewrite <- D5 in Nr. destruct (Q5 Nr) as (X1 & X2 & X3). rewrite X1, A5. auto.
  Qed.

  Lemma row_inv : forall src ft line row ls s s' ls', ft <> Some "declare" -> pinv s -> sect s ls ->
    ordinary row \/ file_row "include" row ->
    row_step e true rec src ft line row ls s = (s', Ok ls') ->
    (pinv s' /\ grow s s') /\ sect s' ls' /\ d_root (s_doc s') = d_root (s_doc s)
    /\ (p_lastsec (s_prs s) = ls -> p_lastsec (s_prs s') = ls').
  Proof.
    intros src ft line row ls s s' ls' Ft P Sl [O|O] H.
    - destruct (plain_row _ _ _ _ _ _ _ _ _ _ Ft P Sl O H) as (A & B & C & [D|[D|D]]); (split; [exact A|]; split; [exact B|]; split; [exact C|]); intros E.
      + apply D.
      + destruct D as (_ & _ & -> & ->). exact E.
      + destruct D as [-> D]. unfold force in D. injection D as -> _ _. exact E.
    - destruct (include_eff _ _ _ _ _ _ _ _ Ft P Sl O H) as (A & -> & B & _ & C & D & _). auto.
  Qed.

  Lemma rows_to_inv : forall src ft rows line ls s s' ls', ft <> Some "declare" -> pinv s -> sect s ls ->
    Forall (fun row => ordinary row \/ file_row "include" row) rows ->
    rows_to e true rec src ft line rows ls s = (s', Ok ls') ->
    (pinv s' /\ grow s s') /\ sect s' ls' /\ d_root (s_doc s') = d_root (s_doc s)
    /\ (p_lastsec (s_prs s) = ls -> p_lastsec (s_prs s') = ls').
  Proof.
    intros src ft rows. induction rows as [|row rows IH]; intros line ls s s' ls' Ft P Sl Fa H; cbn [rows_to] in H.
    - apply ret_ok in H. destruct H as [-> ->]. split; [split; [exact P|apply grow_refl]|auto].
    - inversion Fa; subst. rb H as s1 ls1 H1. destruct (row_inv _ _ _ _ _ _ _ _ Ft P Sl H2 H1) as ([P1 W1] & S1 & D1 & L1).
      destruct (IH _ _ _ _ _ Ft P1 S1 H3 H) as ([P2 W2] & S2 & D2 & L2). split; [split; [exact P2|eapply grow_trans; eassumption]|].
      split; [exact S2|]. split; [congruence|auto].
  Qed.
  Lemma rows_loop_inv : forall src ft rows line ls s s', ft <> Some "declare" -> pinv s -> sect s ls ->
    Forall (fun row => ordinary row \/ file_row "include" row) rows ->
    rows_loop e true rec src ft line rows ls s = (s', Ok tt) -> pinv s' /\ grow s s'.
  Proof.
    intros src ft rows line ls s s' Ft P Sl Fa H. rewrite <- (app_nil_r rows) in H. rewrite rows_to_app in H. rb H as s1 ls1 H1.
    cbn [rows_loop] in H. apply ret_ok in H. destruct H as [-> _]. eapply rows_to_inv; eauto.
  Qed.

  (** rows that are not Section or Header rows keep what is in force *)
  Definition in_force (s : st) (ls : nat) : Prop :=
    p_lastsec (s_prs s) = ls /\ ls <> d_root (s_doc s)
    /\ p_pmap (s_prs s) = munge_param_map (t_args (tget ls s)) /\ p_dtvn (s_prs s) = "@value".

  Lemma row_in_force : forall src ft line row ls s s' ls', ft <> Some "declare" -> pinv s -> sect s ls -> in_force s ls ->
    ordinary row \/ file_row "include" row -> ~ file_row "section" row -> ~ file_row "header" row ->
    row_step e true rec src ft line row ls s = (s', Ok ls') -> ls' = ls /\ in_force s' ls /\ force s' = force s.
  Proof.
    intros src ft line row ls s s' ls' Ft P Sl (F1 & F2 & F3 & F4) [O|O] NS NH H.
    - destruct (plain_row _ _ _ _ _ _ _ _ _ _ Ft P Sl O H) as ([A1 A2] & B & C & [D|[D|D]]).
      + exfalso. apply NS. split; apply D.
      + exfalso. apply NH. split; apply D.
      + destruct D as [-> D]. split; [reflexivity|]. split; [|exact D]. unfold force in D. injection D as D1 D2 D3.
        unfold in_force. rewrite D1, D2, D3, C. rewrite (sm_args _ _ (gw_same _ _ A2 _ (proj1 Sl))). auto.
    - destruct (include_eff _ _ _ _ _ _ _ _ Ft P Sl O H) as (A & -> & B & C & D & E & F). destruct (F F2) as (G1 & G2 & G3).
      split; [reflexivity|]. unfold in_force, force. rewrite G1, G2, D, E, C, F1, F3, F4. auto.
  Qed.

  Lemma rows_in_force : forall src ft rows line ls s s' ls', ft <> Some "declare" -> pinv s -> sect s ls -> in_force s ls ->
    Forall (fun row => ordinary row \/ file_row "include" row) rows ->
    Forall (fun row => ~ file_row "section" row /\ ~ file_row "header" row) rows ->
    rows_to e true rec src ft line rows ls s = (s', Ok ls') -> ls' = ls /\ in_force s' ls /\ force s' = force s.
  Proof.
    intros src ft rows. induction rows as [|row rows IH]; intros line ls s s' ls' Ft P Sl I Fa Fb H; cbn [rows_to] in H.
    - apply ret_ok in H. destruct H as [-> ->]. auto.
    - inversion Fa as [|? ? A1 A2]; subst. inversion Fb as [|? ? B1 B2]; subst. rb H as s1 ls1 H1. destruct B1 as [B1 B1'].
      destruct (row_in_force _ _ _ _ _ _ _ _ Ft P Sl I A1 B1 B1' H1) as (-> & I1 & F1).
      destruct (row_inv _ _ _ _ _ _ _ _ Ft P Sl A1 H1) as ([P1 _] & S1 & _).
      destruct (IH _ _ _ _ _ Ft P1 S1 I1 A2 B2 H) as (-> & I2 & F2). rewrite F2. auto.
  Qed.
End Rec.

Lemma usual_or_ordinary : forall row, usual_or_include row -> ordinary row \/ file_row "include" row.
Proof. intros row [(l & R & U)|H]; [left; eapply usual_ordinary; eassumption|right; exact H]. Qed.
Lemma usual_or_ordinaries : forall rows, Forall usual_or_include rows -> Forall (fun row => ordinary row \/ file_row "include" row) rows.
Proof. intros rows H. eapply Forall_impl; [|exact H]. exact usual_or_ordinary. Qed.

Lemma generate_inv : forall e, usual_files e -> forall n src ft s s', ft <> Some "declare" -> Forall usual_or_include (src_rows src) -> pinv s ->
  generate_terms e true n src ft s = (s', Ok tt) -> pinv s' /\ grow s s'.
Proof.
  intros e UF n. induction n as [|n IH]; intros src ft s s' Ft Fa P H; [discriminate H|]. cbn [generate_terms] in H. rg H.
  eapply (rows_loop_inv e (generate_terms e true n)); [intros; apply grown_generate| |exact Ft|exact P| |apply usual_or_ordinaries; exact Fa|exact H].
  - intros y rows ft' s1 s2 F Ft' P1 H1. eapply IH; [exact Ft'| |exact P1|exact H1]. apply (UF _ _ F).
  - split; [apply (pi_root _ P)|apply (pi_rootc _ P)].
Qed.

(** ** Documents *)

Definition root_called (s : st) : Prop := t_val (tget (d_root (s_doc s)) s) = VStr "Root".

Lemma row_section_root : forall s row, pinv s -> root_called s -> lower (strip (nth 1 row "")) <> "root" -> row_section s row <> d_root (s_doc s).
Proof.
  intros s row P R N. unfold row_section. destruct (dget _ _) as [i|] eqn:E.
  - destruct (pi_dname _ P _ _ E) as (n & V & L). intros ->. unfold root_called in R. rewrite R in V. injection V as <-. apply N. rewrite <- L. reflexivity.
  - pose proof (pi_root _ P). lia.
Qed.

Lemma include_back : forall g pre inc post s, proper g -> usual_files (in_env g) -> Forall usual_or_include (pre ++ inc :: post) ->
  file_row "include" inc -> loads g (pre ++ inc :: post) s ->
  exists before after, steps_to g (pre ++ inc :: post) pre before /\ steps_to g (pre ++ inc :: post) (pre ++ [inc]) after
    /\ p_lastsec (s_prs after) = p_lastsec (s_prs before)
    /\ (forall a sec b, pre = (a ++ sec :: b)%list -> file_row "section" sec -> lower (strip (nth 1 sec "")) <> "root" ->
          Forall (fun row => ~ file_row "section" row /\ ~ file_row "header" row) b -> force after = force before).
Proof.
  intros g pre inc post s [GR ND] UF Fa Fi H. unfold loads, load_into in H.
  destruct (load_source_run (in_env g) (in_fuel g) (mk_source (in_ref g) (in_dir g) (pre ++ inc :: post)) (in_reg g) (in_terms g) (in_secs g) (in_super g)) as (k & K).
  destruct (K _ H) as (s3 & H1 & Fn & ->). clear K H. unfold steps_to. set (src := mk_source (in_ref g) (in_dir g) (pre ++ inc :: post)) in *.
  set (s0 := started (new_doc (in_reg g) (in_terms g) (in_secs g) (in_super g))) in *.
  assert (P0 : pinv s0) by (apply (vi_pinv _ _ _ (first_vinv _ (in_terms g) (in_secs g) (in_super g) GR ND))).
  assert (R0 : root_called s0) by reflexivity.
  assert (D0 : d_root (s_doc s0) = 0) by reflexivity. assert (L0 : p_lastsec (s_prs s0) = 0) by reflexivity.
  assert (S0 : sect s0 0) by (split; [apply (pi_root _ P0)|reflexivity]).
  destruct (in_fuel g) as [|k]; [discriminate H1|]. cbn [generate_terms] in H1. rg H1. rewrite D0 in H1.
  change (src_rows src) with (pre ++ inc :: post)%list in H1. rewrite rows_to_app in H1. rb H1 as s1 ls H2. cbn [rows_loop] in H1. rb H1 as s2 ls2 H3.
  assert (RG : forall y rows ft s s', fetch (in_env g) y = Some rows -> ft <> Some "declare" -> pinv s ->
    generate_terms (in_env g) true k (mk_source (Some y) "" rows) ft s = (s', Ok tt) -> pinv s' /\ grow s s').
  { intros y rows ft sa sb F Ft P1 Hg. eapply generate_inv; [exact UF|exact Ft| |exact P1|exact Hg]. apply (UF _ _ F). }
  assert (GG : forall src ft, pres grown (generate_terms (in_env g) true k src ft)) by (intros; apply grown_generate).
  apply usual_or_ordinaries in Fa. apply Forall_app in Fa. destruct Fa as [Fa Fb]. inversion Fb as [|? ? F1 F2]; subst.
  assert (NN : @None string <> Some "declare") by discriminate.
  destruct (rows_to_inv _ _ GG RG _ _ _ _ _ _ _ _ NN P0 S0 Fa H2) as ([P1 W1] & S1 & D1 & L1). specialize (L1 L0).
  destruct (include_eff _ _ GG RG _ _ _ _ _ _ _ _ NN P1 S1 Fi H3) as ([P2 W2] & -> & S2 & A2 & D2 & L2 & C2).
  exists s1, s2. split; [exists ls; exact H2|].
  assert (H4 : rows_to (in_env g) true (generate_terms (in_env g) true k) src None 1 (pre ++ [inc]) 0 s0 = (s2, Ok ls)).
  { clear -H2 H3. clearbody src s0. change (S (List.length pre)) with (1 + List.length pre) in H3. revert H2 H3. generalize 1. revert s0. generalize 0. induction pre as [|row pre IH]; intros l s0 n H2 H3.
    - cbn [rows_to List.length app] in *. apply ret_ok in H2. destruct H2 as [-> ->]. rewrite Nat.add_0_r in H3. unfold bind. rewrite H3. reflexivity.
    - cbn [rows_to List.length app] in *. rb H2 as sa la Ha. unfold bind. rewrite Ha. apply IH; [exact H2|]. rewrite Nat.add_succ_r in H3. exact H3. }
  split; [exists ls; exact H4|]. split; [congruence|].
  intros a sec b -> Fs Nr Nb. clear H4. apply Forall_app in Fa. destruct Fa as [Fa Fs']. inversion Fs' as [|? ? Fo Fb']; subst.
  assert (H5 : exists sa la, rows_to (in_env g) true (generate_terms (in_env g) true k) src None 1 a 0 s0 = (sa, Ok la)
     /\ rows_to (in_env g) true (generate_terms (in_env g) true k) src None (1 + List.length a) (sec :: b) la sa = (s1, Ok (p_lastsec (s_prs s1)))).
  { clear -H2. clearbody src s0. revert H2. generalize 1. revert s0. generalize 0. induction a as [|row a IH]; intros l s0 n H2.
    - exists s0, l. split; [reflexivity|]. cbn [List.length]. rewrite Nat.add_0_r. exact H2.
    - cbn [rows_to List.length app] in H2 |- *. rb H2 as sa la Ha. destruct (IH _ _ _ H2) as (sb & lb & X1 & X2). exists sb, lb.
      split; [unfold bind; rewrite Ha; exact X1|]. rewrite Nat.add_succ_r. exact X2. }
  destruct H5 as (sa & la & Ha & Hb). cbn [rows_to] in Hb. rb Hb as sb lb Hs.
  destruct (rows_to_inv _ _ GG RG _ _ _ _ _ _ _ _ NN P0 S0 Fa Ha) as ([Pa Wa] & Sa & Da & La).
  assert (Os : ordinary sec).
  { destruct Fo as [Fo|Fo]; [exact Fo|]. destruct Fs as [_ X]. destruct Fo as [_ Y]. destruct (cell_names_det _ _ _ _ _ X Y) as [_ Z]. discriminate Z. }
  destruct (plain_row _ _ _ _ _ _ _ _ _ _ NN Pa Sa Os Hs) as ([Pb Wb] & Sb & Db & Cs).
  assert (Ra : root_called sa).
  { unfold root_called in *. rewrite Da. rewrite (sm_val _ _ (gw_same _ _ Wa _ (pi_root _ P0))). exact R0. }
  assert (I : in_force sb lb).
  { assert (X : lb = row_section sa sec /\ p_lastsec (s_prs sb) = lb
        /\ (lb <> d_root (s_doc sa) -> p_pmap (s_prs sb) = munge_param_map (t_args (tget lb sb)) /\ p_dtvn (s_prs sb) = "@value")).
    { destruct (row_step_eff _ _ _ _ _ _ _ _ _ _ NN Pa Os (welcome_all _) Hs) as (RE & _ & El). destruct Fs as [B C].
      assert (Sk : skip_row sec = false) by (destruct (skip_row sec) eqn:Sk; [exfalso; apply B; apply skip_blank; exact Sk|reflexivity]).
      destruct RE as [Sk2 E|_ C2' V E|c _ C2' _ _ E|p r c q sx _ C2' Nsec _ _ N K].
      - congruence.
      - rewrite Sk in El. rewrite (proj2 (split_term_lower_spec _ _ _) C) in El. cbn iota in El.
        destruct (section_sect sec (skipn 2 sec) (1 + List.length a) None sa Pa) as (_ & X2 & X3). rewrite <- E in X2, X3. rewrite <- El in X2, X3. auto.
      - destruct (cell_names_det _ _ _ _ _ C C2') as [_ Z]. discriminate Z.
      - destruct (cell_names_det _ _ _ _ _ C C2') as [<- <-]. exfalso. apply Nsec; [reflexivity|left; reflexivity]. }
    destruct X as (X1 & X2 & X3). assert (Nl : lb <> d_root (s_doc sa)) by (rewrite X1; apply row_section_root; assumption).
    destruct (X3 Nl) as [X4 X5]. unfold in_force. rewrite Db. auto. }
  destruct (rows_in_force _ _ GG RG _ _ _ _ _ _ _ _ NN Pb Sb I Fb' Nb Hb) as (El & I1 & _). rewrite El in *.
  destruct I1 as (Y1 & Y2 & Y3 & Y4). destruct (C2 Y2) as (Z1 & Z2 & _). unfold force. rewrite Z1, Z2, L2, Y1, Y3, Y4. reflexivity.
Qed.
