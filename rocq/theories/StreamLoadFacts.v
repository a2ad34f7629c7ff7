(** * StreamLoadFacts: what a loaded document gives a second reading *)

From Verif Require Import ListFacts StrFacts SpecNames NameFacts HeapFacts ConstructFacts Parser RunFacts EmitFacts TreeFacts DigitFacts RowFacts ParseFacts DocFacts TotalFacts OriginFacts OrderlyFacts DeclareFacts AnswerFacts Files Cli TermStream SpecStream StreamFacts StreamRowFacts SpecDoc.

(** ** First headings *)

Lemma first_heading_app : forall k a b n, first_heading k n (a ++ b) = match first_heading k n a with Some x => Some x | None => first_heading k (n + List.length a) b end.
Proof.
  intros k a. induction a as [|l a IH]; intros b n; cbn [app first_heading List.length].
  - rewrite Nat.add_0_r. reflexivity.
  - rewrite Nat.add_succ_r. destruct l as [|m cells| |]; try apply IH. destruct (eqs _ k); [reflexivity|apply IH].
Qed.

Lemma heading_found : forall k ls n m cells, In (LSection m cells) ls -> lower (strip m) = k -> first_heading k n ls <> None.
Proof.
  intros k ls. induction ls as [|l ls IH]; intros n m cells I E; [destruct I|]. destruct I as [->|I]; cbn [first_heading].
  - apply eqs_true in E. rewrite E. discriminate.
  - destruct l as [|m' cells'| |]; try (eapply IH; eassumption). destruct (eqs _ k); [discriminate|eapply IH; eassumption].
Qed.

(** every section was made by its first heading *)
Record titled (done : list line) (s : st) : Prop := {
  ti_zero : d_root (s_doc s) = 0;
  ti_rootrec : t_val (tget 0 s) = VStr "Root" /\ t_row (tget 0 s) = Some 0 /\ t_col (tget 0 s) = Some 0;
  ti_key : forall k, k <> "root" -> match dget k (d_sections (s_doc s)) with
    | Some i => exists n m, first_heading k 1 done = Some (n, m) /\ t_val (tget i s) = VStr m /\ t_row (tget i s) = Some n /\ t_col (tget i s) = Some n
    | None => first_heading k 1 done = None
    end
}.

Lemma kids_keeps : forall line ftype t n col args s s', kids line ftype t n col args s s' -> keeps s s'.
Proof. induction 1; [apply keeps_refl|exact IHkids|]. eapply keeps_trans; [eapply new_term_keeps; eassumption|exact IHkids]. Qed.

Lemma titled_keeps : forall done l s s', pinv s -> keeps s s' -> (forall m cells, l <> LSection m cells) -> titled done s -> titled (done ++ [l]) s'.
Proof.
  intros done l s s' P K Nl [A B C]. pose proof (kp_root _ _ K) as KR. pose proof (kp_secs _ _ K) as KS. pose proof (kp_term _ _ K) as KT.
  split.
  - rewrite KR. exact A.
  - pose proof (pi_root _ P) as PR. rewrite A in PR. pose proof (KT 0 PR) as E. injection E as E1 E2 E3 E4 E5 E6. rewrite E2, E4, E5. exact B.
  - intros k Nk. rewrite KS. specialize (C k Nk). rewrite first_heading_app. destruct (dget k _) as [i|] eqn:D.
    + destruct C as (n & m & H1 & H2 & H3 & H4). exists n, m. rewrite H1. destruct (pi_dsecs _ P _ _ D) as [Hi _].
      pose proof (KT i Hi) as E. injection E as E1 E2 E3 E4 E5 E6. rewrite E2, E4, E5. auto.
    + rewrite C. cbn [first_heading]. destruct l; try reflexivity. exfalso. eapply Nl. reflexivity.
Qed.

Lemma titled_section : forall done decl v s n args, vinv decl v s -> v_line v = S (List.length done) -> n <> "" ->
  titled done s -> titled (done ++ [LSection n (map strip args)]) (section_effect n args (v_line v) None s).
Proof.
  intros done decl v s n args V Ln Hn [A B C]. pose proof (vi_pinv _ _ _ V) as P. set (s' := section_effect n args (v_line v) None s).
  assert (Old : forall i, i < hlen s -> tget i s' = tget i s) by (intros; apply section_effect_old; assumption).
  assert (New : tget (hlen s) s' = section_rec n (heading_args (s_doc s) n args) (v_line v) None "root.section") by apply section_effect_new.
  set (w := lower (strip n)).
  assert (D2 : d_root (s_doc s') = d_root (s_doc s)).
  { unfold s', section_effect. destruct (dget _ _); [rewrite enter_doc|rewrite doc_dmod, enter_doc]; reflexivity. }
  assert (Dg : forall k, dget k (d_sections (s_doc s')) = match dget w (d_sections (s_doc s)) with Some _ => dget k (d_sections (s_doc s))
     | None => if eqs k w then Some (hlen s) else dget k (d_sections (s_doc s)) end).
  { intros k. unfold s', section_effect. fold w. destruct (dget w _); [rewrite enter_doc; reflexivity|rewrite doc_dmod, enter_doc].
    cbn [d_sections set_d_sections]. apply dget_dset. }
  split.
  - rewrite D2. exact A.
  - pose proof (pi_root _ P) as PR. rewrite A in PR. rewrite Old by exact PR. exact B.
  - intros k Nk. rewrite first_heading_app. cbn [first_heading]. specialize (C k Nk). rewrite Dg. fold w.
    replace (1 + List.length done) with (v_line v) by lia. rewrite (eqs_sym w k).
    assert (Keep : forall i, dget k (d_sections (s_doc s)) = Some i -> exists m t, first_heading k 1 done = Some (m, t)
       /\ t_val (tget i s') = VStr t /\ t_row (tget i s') = Some m /\ t_col (tget i s') = Some m).
    { intros i D. rewrite D in C. destruct (pi_dsecs _ P _ _ D) as [Hi _]. rewrite Old by exact Hi. exact C. }
    destruct (dget w (d_sections (s_doc s))) as [j|] eqn:Dw.
    + destruct (dget k (d_sections (s_doc s))) as [i|] eqn:Dk.
      * destruct (Keep i eq_refl) as (m & t & H1 & H2). exists m, t. rewrite H1. auto.
      * rewrite C. eqs_cases k w; [congruence|reflexivity].
    + eqs_cases k w.
      * subst k. rewrite Dw in C. rewrite C. exists (v_line v), (strip n). split; [reflexivity|]. rewrite New.
        split; [apply init_val_str; exact Hn|split; reflexivity].
      * destruct (dget k (d_sections (s_doc s))) as [i|] eqn:Dk; [|rewrite C; reflexivity].
        destruct (Keep i eq_refl) as (m & t & H1 & H2). exists m, t. rewrite H1. auto.
Qed.

Lemma titled_row : forall done decl v s s' row l, vinv decl v s -> v_line v = S (List.length done) -> reads row l ->
  row_eff None (v_line v) row s s' -> titled done s -> titled (done ++ [l]) s'.
Proof.
  intros done decl v s s' row l V Ln Rd H T. pose proof (vi_pinv _ _ _ V) as P.
  destruct H as [H1 ->|H1 H2 H3 ->|c H1 H2 H3 H4 ->|p r c q s1 H1 H2 H3 H4 H5 H6 H7].
  - apply skip_blank in H1. destruct Rd as [B|NB C|NB C|p' r' NB C Hx]; try tauto.
    eapply titled_keeps; [exact P|apply keeps_refl|discriminate|exact T].
  - apply not_blank in H1. destruct Rd as [B|NB C|NB C|p' r' NB C Hx]; try tauto.
    + eapply titled_section; eassumption.
    + destruct (cell_names_fun _ _ _ _ _ H2 C). discriminate.
    + destruct (cell_names_fun _ _ _ _ _ H2 C) as [<- <-]. exfalso. apply Hx; cbn; auto.
  - apply not_blank in H1. eapply titled_keeps; [exact P|apply header_keeps, (pi_last _ P)| |exact T].
    destruct Rd as [B|NB C|NB C|p' r' NB C Hx]; try tauto; try discriminate. destruct (cell_names_fun _ _ _ _ _ H2 C). discriminate.
  - apply not_blank in H1. eapply titled_keeps; [exact P|eapply keeps_trans; [eapply new_term_keeps; exact H6|eapply kids_keeps; exact H7]| |exact T].
    destruct Rd as [B|NB C|NB C|p' r' NB C Hx]; try tauto; try discriminate.
    destruct (cell_names_fun _ _ _ _ _ H2 C) as [-> ->]. exfalso. apply H3; cbn; auto.
Qed.

Lemma titled_rows : forall decl rows ls done v s s', vinv decl v s -> v_line v = S (List.length done) ->
  Forall2 reads rows ls -> Forall usual ls -> rows_eff None (v_line v) rows s s' -> titled done s -> titled (done ++ ls) s'.
Proof.
  intros decl rows ls done v s s' V Ln Rd. revert done v s V Ln. induction Rd as [|row l rows ls R1 R2 IH]; intros done v s V Ln U H T.
  - inversion H; subst. rewrite app_nil_r. exact T.
  - inversion U as [|? ? U1 U2]; subst. inversion H as [|? ? ? ? s1 ? H1 H2 H3]; subst.
    destruct (vinv_row decl v s s1 None row l ltac:(discriminate) V H2 R1 U1 (greets_all l) H1) as [V1 _].
    replace (done ++ l :: ls)%list with ((done ++ [l]) ++ ls)%list by (rewrite <- app_assoc; reflexivity).
    apply (IH (done ++ [l])%list _ s1 V1); auto.
    + rewrite next_line, app_length. cbn [List.length]. lia.
    + rewrite next_line. exact H3.
    + exact (titled_row done decl v s s1 row l V Ln R1 H1 T).
Qed.

(** ** The parser starts again *)

Definition restarted (s : st) : st :=
  let p := s_prs s in set_s_prs (set_p_pmap (p_pmap p) (set_p_dsecs (p_dsecs p) (set_p_dterms (p_dterms p) (fresh_parser s)))) s.

Lemma rows_eff_cls : forall ftype n rows s s', rows_eff ftype n rows s s' -> same_cls s s'.
Proof.
  intros ftype n rows s s' H. induction H as [|n row rows s s1 s' H1 H2 H3 IH]; [intros x; reflexivity|].
  eapply same_cls_trans; [eapply row_eff_cls; exact H1|exact IH].
Qed.

Lemma dget_twice : forall (d : dict string) k, NoDup (dkeys d) -> dget k (dupdate d d) = dget k d.
Proof. intros d k N. rewrite dget_newer by exact N. destruct (dget k d); reflexivity. Qed.

Lemma second_follows : forall g rows ls s, proper g -> plain_classes g -> NoDup (dkeys (in_super g)) -> means rows ls -> loads g rows s ->
  follows ls (second_view (cols_of g) ls) (restarted s) /\ sections_known (second_view (cols_of g) ls) ls.
Proof.
  intros g rows ls s [GR ND] PC NSup [Rd U] L. set (decl := cols_of g). set (v := view_after decl ls).
  destruct (load_source_ends _ _ _ _ _ _ _ _ _ _ _ GR ND Rd U L) as (s1 & RE & FL).
  pose proof (first_vinv (in_reg g) (in_terms g) (in_secs g) (in_super g) GR ND) as V0. set (s0 := started _) in *.
  assert (V : vinv decl v s1) by (eapply vinv_rows; try eassumption; [discriminate|apply greets_each]).
  assert (T : titled ls s1).
  { apply (titled_rows decl rows ls [] first_view s0 s1); auto. split; [reflexivity|repeat split|]. intros k Nk. cbn [first_heading].
    change (d_sections (s_doc s0)) with [("root", 0)]. cbn [dget]. eqs_cases k "root"; [contradiction|reflexivity]. }
  assert (PC1 : plain_cls s1).
  { eapply plain_cls_same; [eapply rows_eff_cls; exact RE|apply plain_start; exact PC]. }
  destruct (rows_eff_terms _ _ _ _ _ RE) as (A1 & A2 & A3). pose proof RE as RS. apply rows_eff_secs in RS. destruct RS as [B1 B2].
  destruct (finish_load_ok s1) as (s1' & FL2 & F). rewrite FL in FL2. injection FL2 as <-.
  pose proof (vi_pinv _ _ _ V) as P.
  assert (Tg : forall i, tget i (restarted s) = tget i s1) by (intros i; unfold tget; cbn [restarted s_heap set_s_prs]; rewrite (fi_heap _ _ F); reflexivity).
  assert (Hl : hlen (restarted s) = hlen s1) by (unfold hlen; cbn [restarted s_heap set_s_prs]; rewrite (fi_heap _ _ F); reflexivity).
  assert (Dr : d_root (s_doc (restarted s)) = d_root (s_doc s1)) by apply F.
  assert (Ds : d_sections (s_doc (restarted s)) = d_sections (s_doc s1)) by apply F.
  assert (Dt : d_terms (s_doc (restarted s)) = d_terms (s_doc s1)) by apply F.
  assert (Rg : s_reg (restarted s) = s_reg s1) by apply F.
  assert (Z : d_root (s_doc s1) = 0) by apply T.
  assert (Zs : d_root (s_doc s) = 0) by (rewrite (fi_root _ _ F); exact Z).
  assert (Tr : t_rt (tget 0 s) = "root").
  { unfold tget. rewrite (fi_heap _ _ F). rewrite <- Z. apply (pi_rootn _ P). }
  assert (Pr : s_prs (restarted s) = {| p_pmap := p_pmap (s_prs s1); p_dsecs := p_dsecs (s_prs s1); p_dterms := p_dterms (s_prs s1);
     p_lastparent := "root"; p_tmap := [(ELIDED_TERM, 0); ("root", 0)]; p_dtvn := "@value"; p_lastsec := 0 |}).
  { cbn [restarted s_prs set_s_prs]. rewrite (fi_prs _ _ F). unfold fresh_parser. rewrite Zs, Tr. reflexivity. }
  assert (Tm : forall k i, dget k [(ELIDED_TERM, 0); ("root", 0)] = Some i -> i = 0).
  { intros k i. cbn [dget]. destruct (eqs k ELIDED_TERM); [congruence|]. destruct (eqs k "root"); congruence. }
  assert (R0 : 0 < hlen s1) by (rewrite <- Z; apply (pi_root _ P)).
  assert (P2 : pinv (restarted s)).
  { pose proof (pi_rootc _ P) as Prc. rewrite Z in Prc.
    split; rewrite ?Dr, ?Ds, ?Dt, ?Rg, ?Hl, ?Pr; cbn [p_pmap p_dsecs p_dterms p_lastparent p_tmap p_dtvn p_lastsec]; rewrite ?Tg.
    - exact (pi_syn _ P).
    - exact (pi_reg _ P).
    - exact (pi_root _ P).
    - exact (pi_rootc _ P).
    - exact (pi_rootn _ P).
    - intros i Hi. rewrite Tg. apply (pi_sec _ P). exact Hi.
    - exact R0.
    - exact Prc.
    - intros k i Hk. apply Tm in Hk. subst. exact R0.
    - split; [apply dot_free_iff; reflexivity|reflexivity].
    - discriminate.
    - exact (pi_pmap _ P).
    - exact (pi_dterms _ P).
    - intros i j Hi. rewrite Tg. apply (pi_terms _ P). exact Hi.
    - intros i j Hi. rewrite Tg. apply (pi_kids _ P). exact Hi.
    - intros k i Hk. rewrite Tg. apply (pi_dsecs _ P _ _ Hk).
    - intros n _. unfold section_args. change (d_decl_sections (s_doc (restarted s))) with (d_decl_sections (s_doc s)).
      rewrite (finished_secs _ _ FL), B1, B2. rewrite dget_newer by (vm_compute; repeat constructor; cbn; intuition discriminate).
      change (p_dsecs (s_prs s0)) with installed_sections. unfold SpecKept.first_of. destruct (dget (lower n) installed_sections) as [sd|] eqn:E.
      + assert (X : sd_args sd = []).
        { unfold installed_sections in E. cbn [dget] in E. repeat (destruct (eqs _ _) in E; [injection E as <-; reflexivity|]). discriminate E. }
        rewrite X. intros [].
      + exact (ND n).
    - exact (pi_rootargs _ P).
    - intros k i Hk. rewrite Tg. apply (pi_dname _ P _ _ Hk).
    - rewrite Z. reflexivity.
    - exact (pi_base _ P).
    - intros W. exact W.
    - intros k i _ _ W. exact W. }
  assert (PC2 : plain_cls (restarted s)).
  { eapply plain_cls_same; [|exact PC1]. intros n. unfold parser_term_class. rewrite Rg. unfold class_for.
    assert (Sup : forall k, dget k (super_terms (restarted s)) = dget k (super_terms s1)).
    { assert (E1 : d_super (s_doc (restarted s)) = dupdate (in_super g) (super_terms s1)).
      { change (s_doc (restarted s)) with (s_doc s). unfold finish_load, getP, bind, gets in FL. rewrite !modD_run in FL. injection FL as <-.
        cbn [dmod s_doc set_s_doc set_d_derived d_derived set_d_super d_super set_d_decl_sections set_d_decl_terms].
        f_equal. exact A3. }
      assert (Q : super_terms s1 = in_super g).
      { unfold super_terms. rewrite A3, A1. change (d_super (s_doc s0)) with (in_super g). change (p_dterms (s_prs s0)) with installed_terms.
        destruct (in_super g); reflexivity. }
      intros k. unfold super_terms at 1. rewrite E1, Q. rewrite Pr. cbn [p_dterms]. rewrite A1. change (p_dterms (s_prs s0)) with installed_terms.
      destruct (in_super g) as [|x l] eqn:Ei; [reflexivity|].
      destruct (dupdate (x :: l) (x :: l)) as [|y m] eqn:Ed.
      - exfalso. destruct x as [a b]. pose proof (dget_twice ((a, b) :: l) a NSup) as W. rewrite Ed in W. cbn [dget] in W. rewrite eqs_refl in W. discriminate W.
      - rewrite <- Ed. apply dget_twice. exact NSup. }
    rewrite !Sup. reflexivity. }
  assert (Kn : known ls (v_secs v) (restarted s)).
  { split; rewrite ?Ds, ?Dr; rewrite ?Tg.
    - apply V.
    - exact Z.
    - apply T.
    - intros k c Nk Hc. pose proof (ti_key _ _ T k Nk) as Q. destruct (dget k (d_sections (s_doc s1))) as [i|] eqn:D.
      + destruct Q as (n & m & Q1 & Q2 & Q3 & Q4). exists i, n, m. rewrite Tg. split; [reflexivity|]. split.
        * intros ->. apply Nk. eapply sec_key_inj; [exact P|exact D|]. rewrite <- Z. apply V.
        * split; [eapply (vi_cols _ _ _ V); eassumption|auto].
      + apply (dget_assoc_keys k _ _ (vi_keys _ _ _ V)) in D. congruence. }
  split.
  - split; cbn [second_view v_secs v_cur v_cols v_parent v_last]; fold v.
    + exact P2.
    + exact PC2.
    + exact Kn.
    + rewrite Ds, Pr. cbn [p_lastsec]. rewrite <- Z. apply V.
    + left. reflexivity.
    + rewrite Pr. cbn [p_pmap]. apply V.
    + rewrite Pr. reflexivity.
    + discriminate.
    + assert (N : no_sections v).
      { apply no_sections_lines; auto; [intros n _; apply ND|apply greets_each|exact first_no_sections]. }
      destruct N as [N1 N2]. split; [exact N1|exact N2].
    + discriminate.
  - intros n cells I Nk. cbn [second_view v_secs]. fold v. pose proof (ti_key _ _ T _ Nk) as Q.
    destruct (dget (lower (strip n)) (d_sections (s_doc s1))) as [i|] eqn:D.
    + destruct (assoc (lower (strip n)) (v_secs v)) as [c|] eqn:E; [eauto|]. apply (dget_assoc_keys _ _ _ (vi_keys _ _ _ V)) in E. congruence.
    + exfalso. revert Q. eapply heading_found; [exact I|reflexivity].
Qed.

(** ** The parents are found again *)

Lemma same_last : forall decl ls a b, v_line a = v_line b -> v_last a = v_last b ->
  v_last (fold_left (next decl) ls a) = v_last (fold_left (next decl) ls b).
Proof.
  intros decl ls. induction ls as [|l ls IH]; intros a b E1 E2; [exact E2|]. cbn [fold_left]. apply IH.
  - rewrite !next_line. congruence.
  - destruct l as [|n cells|n cells|p r x cells]; cbn [next]; try exact E2.
    + destruct (eqs _ _); exact E2.
    + destruct (eqs _ _); cbn [v_last]; congruence.
Qed.

Definition names_of (p : string) (i : nat) : string := file_name (if i =? 0 then "" else p).

Lemma c88_stream : forall g rows ls s p, proper g -> plain_classes g -> NoDup (dkeys (in_super g)) -> means rows ls -> Forall sound ls ->
  (forall pre l post, ls = (pre ++ l :: post)%list -> placed pre l) -> loads g rows s ->
  terms_output (names_of p) (in_env g) (in_fuel g) (mk_source (in_ref g) (in_dir g) rows) s = (printed (file_name p) (cols_of g) rows ls, None).
Proof.
  intros g rows ls s p Pg PC NSup M So Pl L. destruct (second_follows _ _ _ _ Pg PC NSup M L) as [F SK].
  assert (Nm : from (file_name p) (names_of p)) by (intros i Hi; unfold names_of; destruct i; [congruence|reflexivity]).
  assert (N0 : names_of p 0 = "<none>") by reflexivity.
  assert (Fu : exists f, in_fuel g = S f).
  { destruct (in_fuel g) as [|f] eqn:E; [|eauto]. exfalso. destruct M as [Rd U]. destruct Pg as [GR ND].
    unfold loads, load_into in L. rewrite E in L. unfold load_source in L. rb L as s1 u H1. rg L. rb L as s2 u2 H2. rb L as s3 u3 H3. discriminate H3. }
  destruct Fu as [f Fu].
  pose proof (fl_known _ _ _ F) as K. pose proof (fl_inv _ _ _ F) as P.
  assert (Zr : d_root (s_doc s) = 0) by exact (kn_zero _ _ _ K).
  destruct (kn_rootrec _ _ _ K) as (V & Rw & Cl).
  assert (Rl : term_str (s_heap (restarted s)) (names_of p 0) (tget 0 (restarted s)) = root_line).
  { assert (PSi : plain_section (tget 0 (restarted s))).
    { rewrite <- Zr. apply (pi_sec _ P); [apply (pi_root _ P)|apply (pi_rootc _ P)|exact (fun x => x)]. }
    assert (Rn : t_rt (tget 0 (restarted s)) = "root") by (rewrite <- Zr; apply (pi_rootn _ P)).
    rewrite N0. unfold term_str, file_ref. rewrite Rw, Cl, V, (ps_sec _ PSi), (ps_pt _ PSi), Rn. reflexivity. }
  destruct (tell_rows_run p (names_of p) (in_env g) (tell_terms (names_of p) (in_env g) f) (mk_source (in_ref g) (in_dir g) rows) ls (cols_of g) rows ls Nm N0)
    with (v := second_view (cols_of g) ls) (s := restarted s) (out := [root_line]) (ls0 := 0) as (s' & E); try apply M; auto.
  - intros n _. apply (proj2 Pg).
  - intros a l b El. apply Pl in El. apply (placed_settles (cols_of g)) in El. unfold view_after in El.
    pose proof (same_last (cols_of g) a first_view (second_view (cols_of g) ls) eq_refl eq_refl) as Q.
    destruct l as [| | |p' r x cells]; cbn [settles] in El |- *; auto. rewrite <- Q. exact El.
  - unfold terms_output, iterate. rewrite Fu. unfold silently at 1. unfold bind at 1. unfold restart_parser, modify. cbn [fst snd]. fold (restarted s).
    unfold bind at 1. unfold silently at 1, getD, gets. cbn [fst snd]. unfold bind at 1. unfold say. cbn [fst snd].
    change (s_doc (restarted s)) with (s_doc s). rewrite Zr, Rl. cbn [app tell_terms].
    unfold bind at 1. unfold silently at 1, getD, gets. cbn [fst snd]. change (s_doc (restarted s)) with (s_doc s). rewrite Zr. cbn [src_rows].
    cbn [second_view v_line] in E. rewrite E. reflexivity.
Qed.

(** ** When the columns are set before they are needed *)

Lemma secs_next : forall decl v l k c, assoc k (v_secs v) = Some c -> assoc k (v_secs (next decl v l)) = Some c.
Proof.
  intros decl v l k c H. destruct l as [|n cells|n cells|p r x cells]; cbn [next]; try exact H.
  - destruct (eqs _ "root"); [exact H|]. cbn [v_secs]. destruct (assoc (lower (strip n)) (v_secs v)); [exact H|]. rewrite assoc_app, H. reflexivity.
  - destruct (eqs _ _); exact H.
Qed.
Lemma secs_fold : forall decl ls v k c, assoc k (v_secs v) = Some c -> assoc k (v_secs (fold_left (next decl) ls v)) = Some c.
Proof. intros decl ls. induction ls as [|l ls IH]; intros v k c H; [exact H|]. cbn [fold_left]. apply IH. apply secs_next. exact H. Qed.

Lemma no_cells : forall f row sec r cols i cells, Forall (fun c => c = "") cells -> cell_lines f row sec r cols i cells = [].
Proof. intros f row sec r cols i cells H. revert i. induction H as [|c cells -> H IH]; intros i; [reflexivity|]. cbn [cell_lines eqs String.eqb]. apply IH. Qed.

Lemma same_lines : forall f all decl rows ls a b, v_line a = v_line b -> v_cur a = v_cur b -> v_parent a = v_parent b ->
  v_secs b = v_secs (fold_left (next decl) ls a) ->
  (v_cols a = v_cols b \/ forall pre p r x cells post, ls = (pre ++ LTerm p r x cells :: post)%list -> Forall (fun c => c = "") cells \/ Exists sets_columns pre) ->
  file_lines f all decl b rows ls = file_lines f all decl a rows ls.
Proof.
  intros f all decl rows. induction rows as [|row rows IH]; intros ls a b E1 E2 E3 E4 C; [reflexivity|]. destruct ls as [|l ls]; [reflexivity|].
  cbn [file_lines]. f_equal.
  - destruct l as [|n cells|n cells|p r x cells]; cbn [row_lines]; try reflexivity. rewrite E1, E2, E3. f_equal. destruct C as [->|C]; [reflexivity|].
    destruct (C [] p r x cells ls eq_refl) as [H|H]; [rewrite !no_cells by exact H; reflexivity|inversion H].
  - cbn [fold_left] in E4. apply IH.
    + rewrite !next_line. congruence.
    + destruct l as [|n cells|n cells|p r x cells]; cbn [next]; try exact E2; destruct (eqs _ _); try exact E2; reflexivity.
    + destruct l as [|n cells|n cells|p r x cells]; cbn [next]; try exact E3; destruct (eqs _ _); try exact E3; reflexivity.
    + rewrite <- E4. destruct l as [|n cells|n cells|p r x cells]; try reflexivity; cbn [next] in *.
      * eqs_cases (lower (strip n)) "root"; [reflexivity|]. cbn [v_secs]. destruct (assoc (lower (strip n)) (v_secs b)) eqn:Eb; [reflexivity|]. exfalso.
        rewrite E4 in Eb. destruct (assoc (lower (strip n)) (v_secs a)) as [c|] eqn:Ea.
        -- rewrite (secs_fold decl ls _ _ c) in Eb; [discriminate Eb|exact Ea].
        -- rewrite (secs_fold decl ls _ _ (match cells with [] => map strip (decl n) | _ => cells end)) in Eb; [discriminate Eb|].
           cbn [v_secs]. rewrite assoc_app, Ea, assoc_cons, eqs_refl. reflexivity.
      * destruct (eqs p current_parent); reflexivity.
    + assert (Set_ : sets_columns l -> v_cols (next decl a l) = v_cols (next decl b l)).
      { destruct l as [|n cells|n cells|p r x cells]; cbn [sets_columns next]; try contradiction; try reflexivity.
        intros H. apply eqs_false in H. cbn [next] in E4. rewrite H in E4 |- *. cbn [v_cols]. rewrite E4.
        destruct (assoc (lower (strip n)) (v_secs a)) as [c|] eqn:Ea.
        - rewrite (secs_fold decl ls _ _ c); [reflexivity|exact Ea].
        - rewrite (secs_fold decl ls _ _ (match cells with [] => map strip (decl n) | _ => cells end)); [reflexivity|].
          cbn [v_secs]. rewrite assoc_app, Ea, assoc_cons, eqs_refl. reflexivity. }
      assert (Keep_ : sets_columns l \/ (v_cols (next decl a l) = v_cols a /\ v_cols (next decl b l) = v_cols b)).
      { destruct l as [|n cells|n cells|p r x cells]; cbn [sets_columns next]; auto.
        - eqs_cases (lower (strip n)) "root"; auto.
        - destruct (eqs p current_parent); auto. }
      destruct Keep_ as [Q|[Q1 Q2]]; [left; apply Set_; exact Q|]. destruct C as [C|C]; [left; congruence|].
      destruct l as [|n cells|n cells|p r x cells].
      * right. intros pre p r x cells post E. subst ls. destruct (C (LBlank :: pre) p r x cells post eq_refl) as [H|H]; [auto|]. inversion H as [? ? H0|? ? H0]; subst; [destruct H0|auto].
      * eqs_cases (lower (strip n)) "root"; [|left; apply Set_; exact E].
        right. intros pre p r x cl post E5. subst ls. destruct (C (LSection n cells :: pre) p r x cl post eq_refl) as [H|H]; [auto|]. inversion H as [? ? H0|? ? H0]; subst; [contradiction|auto].
      * left. apply Set_. exact Logic.I.
      * right. intros pre p' r' x' cl post E5. subst ls. destruct (C (LTerm p r x cells :: pre) p' r' x' cl post eq_refl) as [H|H]; [auto|]. inversion H as [? ? H0|? ? H0]; subst; [destruct H0|auto].
Qed.

Lemma c88_same : forall f decl rows ls, columns_first ls -> printed f decl rows ls = expected f decl rows ls.
Proof.
  intros f decl rows ls C. unfold printed, expected. f_equal. apply same_lines; try reflexivity. right. exact C.
Qed.

Lemma print_all_run : forall l c, exists c', print_all l c = (c', Ok tt) /\ c_out c' = (c_out c ++ l)%list /\ c_fs c' = c_fs c.
Proof.
  induction l as [|t l IH]; intros c; cbn [print_all].
  - exists c. rewrite app_nil_r. repeat split.
  - unfold bind at 1, print, modify. cbn [fst snd]. edestruct IH as (c' & E & O & F). exists c'. split; [exact E|]. rewrite O, F. cbn [c_out c_fs]. rewrite <- app_assoc. split; reflexivity.
Qed.

Lemma c88_command : forall rd a u s c l, a_type a = "terms" -> r_terms rd s = (l, None) ->
  exists c', show_doc rd a u s c = (c', Ok tt) /\ c_out c' = (c_out c ++ l)%list /\ c_fs c' = c_fs c.
Proof.
  intros rd a u s c l Ty R. unfold show_doc. rewrite Ty. cbn [eqs String.eqb Ascii.eqb Bool.eqb]. rewrite R.
  destruct (print_all_run l c) as (c' & E & O). exists c'. unfold bind. rewrite E. split; [reflexivity|exact O].
Qed.

(** ** A name that cannot be read *)
Lemma c88_bad_name : forall nm e f ref dir row rows s, ~ blank_row row -> 2 <= dots (hd "" row) ->
  terms_output nm e (S f) (mk_source ref dir (row :: rows)) s
  = ([term_str (s_heap s) (nm (d_root (s_doc s))) (tget (d_root (s_doc s)) s)], Some EValue).
Proof.
  intros nm e f ref dir row rows s Bl D. assert (Sk : skip_row row = false) by (destruct (skip_row row) eqn:Q; [apply skip_blank in Q; contradiction|reflexivity]).
  assert (E : split_term_lower (hd "" row) = Err EValue) by (unfold split_term_lower; rewrite split_term_many by exact D; reflexivity).
  unfold terms_output, iterate. unfold silently at 1. unfold bind at 1. unfold restart_parser, modify. cbn [fst snd]. fold (restarted s).
  unfold bind at 1. unfold silently at 1, getD, gets. cbn [fst snd]. unfold bind at 1. unfold say. cbn [fst snd app tell_terms].
  unfold bind at 1. unfold silently at 1, getD, gets. cbn [fst snd src_rows tell_rows]. unfold bind at 1. unfold tell_row. rewrite Sk, E. reflexivity.
Qed.

Lemma c88_failed : forall rd a u s c l x, a_type a = "terms" -> r_terms rd s = (l, Some x) ->
  exists c', show_doc rd a u s c = (c', Err x) /\ c_out c' = (c_out c ++ l)%list /\ c_fs c' = c_fs c.
Proof.
  intros rd a u s c l x Ty R. unfold show_doc. rewrite Ty. cbn [eqs String.eqb Ascii.eqb Bool.eqb]. rewrite R.
  destruct (print_all_run l c) as (c' & E & O). exists c'. unfold bind. rewrite E. split; [reflexivity|exact O].
Qed.
