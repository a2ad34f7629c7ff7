(** * TotalFacts: which rows a parse fails on *)

From Coq Require Import Sorted.
From Verif Require Import ListFacts StrFacts SpecNames NameFacts HeapFacts ConstructFacts Parser RunFacts EmitFacts TreeFacts DigitFacts RowFacts ParseFacts DocFacts ForestFacts SpecDoc.

Lemma bind_err : forall {S A B} (m : M S A) (f : A -> M S B) s s' e, bind m f s = (s', Err e) ->
  m s = (s', Err e) \/ exists s1 a, m s = (s1, Ok a) /\ f a s1 = (s', Err e).
Proof. intros S A B m f s s' e H. unfold bind in H. destruct (m s) as [s1 [a|e1]]; [right; eauto|left; congruence]. Qed.

(** one step of a failing run: it fails ([H1] in the first goal) or the rest does *)
Tactic Notation "re" ident(H) "as" ident(s1) ident(a) ident(H1) :=
  apply bind_err in H; destruct H as [H1|(s1 & a & H1 & H)]; [|cbv beta in H].

Lemma load1_plain_err : forall t s s' e, t < hlen s -> lc_name (tget t s) ->
  named_root (tget t s) "root" = false -> named_root (tget t s) "section" = false ->
  (t_pt (tget t s) = "root" -> In t (d_terms (s_doc s))) -> t_parent (tget t s) <> None ->
  load1 t s = (s', Err e) -> False.
Proof.
  intros t s s' e Ht LC N1 N2 Hin Hpar H. unfold load1 in H. rg H. rg H. rewrite tget_hmod in H by exact Ht. rewrite Nat.eqb_refl in H.
  rewrite is_root_eq in H by exact LC. rg H. change (named_root (set_t_doc true (tget t s))) with (named_root (tget t s)) in H.
  rewrite N1 in H. cbn iota in H.
  rewrite is_section_eq in H by exact LC. rg H. change (named_root (set_t_doc true (tget t s))) with (named_root (tget t s)) in H.
  rewrite N2 in H. cbn iota in H. change (pt_lc (set_t_doc true (tget t s))) with (pt_lc (tget t s)) in H.
  unfold pt_lc in H. rewrite (proj1 (proj2 LC)) in H. eqs_cases (t_pt (tget t s)) "root".
  - unfold doc_add_term, add_term_list in H. re H as s8 b8 H8.
    + rg H8. rg H8. rewrite mem_id_true in H8 by (apply Hin; exact E). discriminate H8.
    + rg H8. rg H8. rewrite mem_id_true in H8 by (apply Hin; exact E).
      apply ret_ok in H8. destruct H8 as [-> ->]. discriminate H.
  - change (t_parent (set_t_doc true (tget t s))) with (t_parent (tget t s)) in H. destruct (t_parent (tget t s)); [discriminate H|congruence].
Qed.

Definition is_datafile_section (p r : string) : Prop := p = "datafile" /\ r = "section".

Lemma add_child_err : forall q t s s' e, q < hlen s -> t < hlen s -> lc_name (tget t s) ->
  ~ is_datafile_section (t_pt (tget t s)) (t_rt (tget t s)) -> add_child q t s = (s', Err e) -> False.
Proof.
  intros q t s s' e Hq Ht (A & B & C) N H. unfold add_child in H. rg H. rg H. rg H.
  rewrite tget_hmod in H by (rewrite hlen_hmod; exact Ht). rewrite Nat.eqb_refl in H. rewrite tget_hmod in H by exact Hq.
  set (r := set_t_parent _ _) in H.
  assert (E : t_pt r = t_pt (tget t s) /\ t_rt r = t_rt (tget t s)) by (unfold r; destruct (Nat.eqb_spec t q) as [->|]; split; reflexivity).
  unfold term_is in H. destruct E as [-> ->] in H.
  rewrite (term_is_qualified _ _ "Datafile" "Section") in H; [|exact A|apply dot_free_iff; reflexivity|apply dot_free_iff; reflexivity|discriminate|apply tidy_iff; split; reflexivity|apply tidy_iff; split; reflexivity].
  rg H. rewrite B, C in H. change (lower "Datafile") with "datafile" in H. change (lower "Section") with "section" in H.
  change (eqs "Datafile" "*") with false in H. change (eqs "Section" "*") with false in H. cbn [orb] in H.
  eqs_cases "datafile" (t_pt (tget t s)); cbn [andb negb assert_] in H; [|discriminate H].
  eqs_cases "section" (t_rt (tget t s)); cbn [andb negb assert_] in H; [|discriminate H]. apply N. split; congruence.
Qed.

Lemma attach_err : forall t s s' e, t < hlen s -> t_col (tget t s) <> None ->
  (forall k i, dget k (p_tmap (s_prs s)) = Some i -> i < hlen s) ->
  dget (p_lastparent (s_prs s)) (p_tmap (s_prs s)) <> None ->
  lc_name (tget t s) -> dot_free (p_lastparent (s_prs s)) -> lower (p_lastparent (s_prs s)) = p_lastparent (s_prs s) ->
  ~ is_datafile_section (final_pt s (tget t s)) (t_rt (tget t s)) ->
  attach t s = (s', Err e) ->
  e = EParser /\ registers (tget t s) = true
  /\ dget (t_pt (tget t s)) (dset (t_rt (tget t s)) t (dset ELIDED_TERM t (p_tmap (s_prs s)))) = None.
Proof.
  intros t s s' e Ht Hcol Hm Hlp LC Lp1 Lp2 Nd H. unfold attach in H. rg H. rg H. unfold registers. unfold final_pt in Nd.
  destruct (eqs (t_pt (tget t s)) ELIDED_TERM) eqn:E; cbn [negb andb].
  - rg H. destruct (dget (p_lastparent (s_prs s)) (p_tmap (s_prs s))) as [q|] eqn:Q; [|congruence]. exfalso.
    pose proof (Hm _ _ Q) as Hq.
    apply add_child_err in H; [exact H|rewrite hlen_hmod; assumption..|rewrite tget_hmod by exact Ht; rewrite Nat.eqb_refl|rewrite tget_hmod by exact Ht; rewrite Nat.eqb_refl; exact Nd].
    split; [exact Lp1|]. split; [exact Lp2|apply LC].
  - destruct (t_col (tget t s)) as [c|] eqn:Ec; [|congruence].
    destruct (Nat.ltb 1 c) eqn:Lt; cbn [negb].
    + destruct (dget (p_lastparent (s_prs s)) (p_tmap (s_prs s))) as [q|] eqn:Q; [|congruence]. exfalso.
      pose proof (Hm _ _ Q) as Hq. apply add_child_err in H; auto.
    + rg H. rg H. rewrite prs_pmod in H. cbn [p_tmap set_p_tmap] in H.
      destruct (dget (t_pt (tget t s)) _) as [q|] eqn:Q in H.
      * exfalso. assert (Hq : q < hlen s).
        { rewrite !dget_dset in Q. destruct (eqs _ _) in Q; [injection Q as <-; exact Ht|]. destruct (eqs _ _) in Q; [injection Q as <-; exact Ht|].
          eapply Hm; eauto. }
        apply add_child_err in H; auto.
      * injection H as <- <-. auto.
Qed.

Lemma emit_plain_err : forall t s s' e, ready t s -> t_col (tget t s) <> None ->
  dget (p_lastparent (s_prs s)) (p_tmap (s_prs s)) <> None ->
  (final_pt s (tget t s) = "root" -> ~ In (renamed (p_pmap (s_prs s)) (t_rt (tget t s))) ["header"; "section"; "root"]) ->
  ~ is_datafile_section (final_pt s (tget t s)) (renamed (p_pmap (s_prs s)) (t_rt (tget t s))) ->
  emit true t s = (s', Err e) ->
  e = EParser /\ registers (tget t s) = true
  /\ dget (t_pt (tget t s)) (dset (renamed (p_pmap (s_prs s)) (t_rt (tget t s))) t (dset ELIDED_TERM t (p_tmap (s_prs s)))) = None.
Proof.
  intros t s s' e R Hcol Hlp Hnm Hds H. destruct R as [rd_t0 rd_syn0 rd_sec0 rd_secn0 rd_secdoc0 rd_sect0 rd_dt0 rd_tmap0 rd_lp0 rd_cls0 rd_tsec0 rd_tvn0 rd_ch0 rd_ft0 rd_pt0 rd_rt0]. set (r0 := tget t s) in *. set (r1 := renamed (p_pmap (s_prs s)) (t_rt r0)) in *.
  set (sec := p_lastsec (s_prs s)) in *.
  assert (Hf0 : t_pt r0 = "root" -> ~ In r1 ["header"; "section"; "root"]).
  { intros E. apply Hnm. unfold final_pt. rewrite E. reflexivity. }
  assert (NR : forall pt n r, (pt = "root" -> ~ In r1 ["header"; "section"; "root"]) -> In n ["header"; "section"; "root"] ->
    t_pt r = pt -> t_rt r = r1 -> named_root r n = false).
  { intros pt n r A B C D. unfold named_root. rewrite C, D. eqs_cases "root" pt; [|reflexivity]. cbn [andb].
    apply eqs_false. intros ->. symmetry in E. apply A in E. auto. }
  (* up to attach *)
  set (f1 := fun r => set_t_rt (renamed (p_pmap (s_prs s)) (t_rt r)) r).
  set (f2 := fun r => set_t_section (Some sec) (f1 r)).
  set (f3 := fun r => metaF (p_dterms (s_prs s)) (p_dtvn (s_prs s)) (f2 r)).
  set (s3 := hmod t f3 s).
  assert (L3 : hlen s3 = hlen s) by apply hlen_hmod.
  assert (T3 : tget t s3 = f3 r0) by (unfold s3; rewrite tget_hmod by assumption; rewrite Nat.eqb_refl; reflexivity).
  assert (Step : consume t s = bind (attach t) (fun _ =>
     bind (bind (getT t) (fun r => bind getP (fun p => when (eqs (pt_lc r) "root") (section_add_term (p_lastsec p) t))))
      (fun _ => bind (getT t) (fun r => match t_ftype r with Some "declare" => manage_declare_terms t ;;; ret false | _ => ret true end))) s3).
  { unfold consume. unfold bind at 1. rewrite rename_run by assumption. fold f1. unfold bind at 1, getP at 1, gets at 1.
    unfold bind at 1.
    assert (L1 : hlen (hmod t f1 s) = hlen s) by apply hlen_hmod.
    assert (T1 : tget t (hmod t f1 s) = f1 r0) by (rewrite tget_hmod by assumption; rewrite Nat.eqb_refl; reflexivity).
    assert (SS : set_section t (Some (p_lastsec (s_prs (hmod t f1 s)))) (hmod t f1 s) = (hmod t f2 s, Ok tt)).
    { unfold set_section. unfold bind at 1, getT at 1, gets at 1. rewrite T1. change (t_cls (f1 r0)) with (t_cls r0). rewrite rd_cls0.
      unfold set_section_plain. unfold bind at 1, getT at 1, gets at 1. unfold bind, gets. rewrite T1. change (t_tvn (f1 r0)) with (t_tvn r0). rewrite rd_tvn0.
      change (eqs (lower "@value") "section") with false. cbn iota.
      unfold property_names. change (t_cls (f1 r0)) with (t_cls r0). change (t_section (f1 r0)) with (t_section r0).
      rewrite rd_cls0, rd_tsec0. cbn [map mem_str existsb]. rewrite modT_run. rewrite hmod_hmod by assumption. reflexivity. }
    rewrite SS. set (s2 := hmod t f2 s).
    assert (T2 : tget t s2 = f2 r0) by (unfold s2; rewrite tget_hmod by assumption; rewrite Nat.eqb_refl; reflexivity).
    unfold bind at 1, getT at 1, gets at 1. rewrite T2.
    assert (LC : lc_name (f2 r0)) by (split; [apply rd_pt0|split; [apply rd_pt0|exact rd_rt0]]).
    rewrite is_header_eq by exact LC. unfold bind at 1, lift at 1. rewrite (NR (t_pt r0)) by (auto; left; reflexivity). cbn iota.
    rewrite is_section_eq by exact LC. unfold bind at 1, lift at 1. rewrite is_root_eq by exact LC. unfold bind at 1, lift at 1.
    rewrite !(NR (t_pt r0)) by (auto; cbn; auto). cbn iota.
    assert (CNm : forall (k : unit -> MM bool), bind (consume_normal t) k s2 = bind (attach t) (fun _ =>
       bind (bind (getT t) (fun r => bind getP (fun p => when (eqs (pt_lc r) "root") (section_add_term (p_lastsec p) t)))) k) s3).
    { intros k. unfold consume_normal. unfold bind at 1. unfold bind at 1. rewrite set_meta_run. change (s_prs s2) with (s_prs s). unfold s2. rewrite hmod_hmod by assumption.
      fold f3. fold s3. unfold bind at 1. unfold bind at 3. destruct (attach t s3) as [x [[]|y]]; reflexivity. }
    apply CNm. }
  unfold emit in H. unfold bind at 1 in H. rewrite Step in H. clear Step. unfold bind at 1 in H.
  assert (Reg : registers (f3 r0) = registers r0) by reflexivity.
  assert (Rt3 : t_rt (f3 r0) = r1) by reflexivity. assert (Pt3 : t_pt (f3 r0) = t_pt r0) by reflexivity.
  destruct (attach t s3) as [s6 [u6|e6]] eqn:Ha.
  2:{ apply attach_err in Ha; [|rewrite L3; exact rd_t0|rewrite T3; exact Hcol| |exact Hlp|rewrite T3; split; [apply rd_pt0|split; [apply rd_pt0|exact rd_rt0]]|apply rd_lp0|apply rd_lp0|rewrite T3; exact Hds].
      2:{ intros k i Hk. rewrite L3. apply (rd_tmap0 k i Hk). } injection H as <- <-.
      rewrite T3, Reg, Rt3, Pt3 in Ha. exact Ha. }
  exfalso. destruct u6. apply attach_ok in Ha.
  2:{ rewrite L3. exact rd_t0. }
  2:{ intros k i Hk. rewrite L3. apply (rd_tmap0 k i Hk). }
  rewrite T3, L3 in Ha. destruct Ha as (q & Hq & Hl & Hs6).
  assert (Fp : final_pt s3 (f3 r0) = final_pt s r0) by reflexivity.
  rewrite Reg, Rt3, Pt3 in Hl. rewrite Reg, Rt3, Fp in Hs6. change (p_tmap (s_prs s3)) with (p_tmap (s_prs s)) in Hl.
  change (p_lastparent (s_prs s3)) with (p_lastparent (s_prs s)) in Hl.
  set (pt' := final_pt s r0) in *.
  assert (Hpt' : dot_free pt' /\ lower pt' = pt').
  { unfold pt', final_pt. destruct (eqs _ _); [exact rd_lp0|exact rd_pt0]. }
  set (s3' := if registers r0 then pmod (reg_prs t r1) s3 else s3) in *.
  assert (S3 : hlen s3' = hlen s /\ s_doc s3' = s_doc s /\ s_reg s3' = s_reg s /\ (forall i, tget i s3' = tget i s3)
     /\ s_prs s3' = if registers r0 then reg_prs t r1 (s_prs s) else s_prs s).
  { unfold s3'. destruct (registers r0); repeat split; assumption. }
  destruct S3 as (L3' & D3' & G3' & T3' & P3').
  set (f4 := fun r => set_t_parent (Some q) (set_t_pt pt' r)) in *.
  assert (L6 : hlen s6 = hlen s) by (subst s6; rewrite !hlen_hmod; exact L3').
  assert (D6 : s_doc s6 = s_doc s) by (subst s6; rewrite !doc_hmod; exact D3').
  assert (P6 : s_prs s6 = s_prs s3') by (subst s6; rewrite !prs_hmod; reflexivity).
  assert (T6 : forall i, tget i s6 = (let r := if i =? t then f3 r0 else tget i s in
                                      let r := if i =? q then add_kid t r else r in if i =? t then f4 r else r)).
  { intros i. subst s6. rewrite tget_hmod by (rewrite hlen_hmod; lia). rewrite !tget_hmod by lia. rewrite !T3'.
    unfold s3. rewrite !tget_hmod by assumption. fold r0. cbv zeta.
    destruct (Nat.eqb_spec i t) as [->|N].
    - rewrite Nat.eqb_refl. destruct (Nat.eqb_spec t q) as [<-|N2]; [rewrite Nat.eqb_refl|]; reflexivity.
    - destruct (Nat.eqb_spec i q) as [->|N2]; [|reflexivity].
      replace (q =? t) with false by (symmetry; apply Nat.eqb_neq; exact N). reflexivity. }
  assert (Ls : p_lastsec (s_prs s6) = sec).
  { rewrite P6, P3'. destruct (registers r0); reflexivity. }
  clearbody s3'.
  assert (T6t : pt_lc (tget t s6) = pt').
  { rewrite T6. cbv zeta. rewrite Nat.eqb_refl. unfold pt_lc. destruct (t =? q); cbn; apply Hpt'. }
  assert (Nst : sec =? t = false) by (apply Nat.eqb_neq; exact rd_secn0).
  assert (Qnt : pt' = "root" -> q <> t).
  { intros E ->. destruct (registers r0) eqn:Rg.
    - unfold registers in Rg. apply andb_prop in Rg. destruct Rg as [Rg _]. apply negb_true_iff in Rg.
      assert (E2 : t_pt r0 = "root") by (rewrite <- E; unfold pt', final_pt; rewrite Rg; reflexivity).
      rewrite E2 in Hl. rewrite !dget_dset in Hl. eqs_cases "root" r1.
      + apply (Hnm E). rewrite <- E0. right; right; left. reflexivity.
      + change (eqs "root" ELIDED_TERM) with false in Hl. apply rd_tmap0 in Hl. tauto.
    - apply rd_tmap0 in Hl. tauto. }
  assert (LC6 : forall r, t_pt r = pt' -> t_rt r = r1 -> lc_name r).
  { intros r A B. unfold lc_name. rewrite A, B. split; [apply Hpt'|split; [apply Hpt'|exact rd_rt0]]. }
  unfold bind at 1 2 in H. unfold getT at 1 in H. unfold gets at 1 in H. unfold bind at 1 in H. unfold getP at 1, gets at 1 in H. rewrite Ls, T6t in H.
  destruct (eqs pt' "root") eqn:Top; cbn [when] in H.
  - apply eqs_true in Top.
    assert (Nqt : t =? q = false) by (apply Nat.eqb_neq; intros Z; symmetry in Z; revert Z; apply Qnt; exact Top).
    assert (Tt : tget t s6 = f4 (f3 r0)) by (rewrite T6; cbv zeta; rewrite Nat.eqb_refl, Nqt; reflexivity).
    rewrite section_add_run in H.
    2-10: try (rewrite L6; assumption); try assumption.
    2:{ rewrite T6. cbv zeta. rewrite Nst. destruct (sec =? q); exact rd_secdoc0. }
    2:{ rewrite T6. cbv zeta. rewrite Nst. destruct (sec =? q); exact rd_sect0. }
    2:{ rewrite D6. exact rd_dt0. }
    2:{ rewrite Tt. reflexivity. }
    2:{ rewrite T6t. exact Top. }
    2:{ rewrite Tt. exact rd_cls0. }
    2:{ rewrite Tt. exact rd_ch0. }
    set (f5 := fun r => docmetaF (d_decl_terms (s_doc s6)) (t_dtvn (tget sec s6)) (set_t_doc true r)) in *.
    set (s7 := hmod t f5 _) in *.
    assert (T7 : tget t s7 = f5 (f4 (f3 r0))).
    { unfold s7. rewrite tget_hmod by (rewrite hlen_dmod, hlen_hmod; lia). rewrite Nat.eqb_refl, tget_dmod.
      rewrite tget_hmod by lia. rewrite Nat.eqb_sym, Nst, Tt. reflexivity. }
    assert (X : t_pt (tget t s7) = pt' /\ t_rt (tget t s7) = r1 /\ t_ftype (tget t s7) = t_ftype r0).
    { rewrite T7. unfold f5. destruct (docmeta_fields (d_decl_terms (s_doc s6)) (t_dtvn (tget sec s6)) (set_t_doc true (f4 (f3 r0)))) as (-> & -> & ->).
      repeat split. }
    destruct X as (X1 & X2 & X3). assert (L7 : hlen s7 = hlen s) by (unfold s7; rewrite hlen_hmod, hlen_dmod, hlen_hmod; exact L6).
    assert (X4 : t_parent (tget t s7) <> None).
    { rewrite T7. unfold f5, docmetaF. destruct (_ || _), (_ || _); discriminate. }
    unfold bind at 1, getT at 1, gets at 1 in H. rewrite X3 in H. rewrite not_declare in H by exact rd_ft0. unfold ret at 1 in H.
    cbn [andb when] in H. apply load1_plain_err in H; [exact H|lia|apply LC6; assumption|apply (NR pt'); auto; cbn; auto|apply (NR pt'); auto; cbn; auto| |exact X4].
    intros _. unfold s7. rewrite doc_hmod, doc_dmod. cbn. apply in_or_app. right. left. reflexivity.
  - unfold ret at 1 in H.
    assert (Tt : tget t s6 = f4 (let r := f3 r0 in if t =? q then add_kid t r else r)).
    { rewrite T6. cbv zeta. rewrite Nat.eqb_refl. reflexivity. }
    assert (Ft : t_ftype (tget t s6) = t_ftype r0) by (rewrite Tt; cbv zeta; destruct (t =? q); reflexivity).
    unfold bind at 1, getT at 1, gets at 1 in H. rewrite Ft in H. rewrite not_declare in H by exact rd_ft0. unfold ret at 1 in H.
    cbn [andb when] in H. apply eqs_false in Top.
    assert (Npt : t_pt (tget t s6) = pt') by (rewrite Tt; reflexivity).
    assert (Nrt : t_rt (tget t s6) = r1) by (rewrite Tt; cbv zeta; destruct (t =? q); reflexivity).
    apply load1_plain_err in H; [exact H|lia|apply LC6; assumption|..].
    + apply (NR pt'); auto; cbn; auto; intros; congruence.
    + apply (NR pt'); auto; cbn; auto; intros; congruence.
    + intros; congruence.
    + rewrite Tt. discriminate.
Qed.

(** ** Sections and headers always go through *)

(** forward steps *)
Ltac fw := match goal with
  | |- bind (getT ?i) ?k ?s = ?rr => change (k (tget i s) s = rr); cbv beta
  | |- bind getP ?k ?s = ?rr => change (k (s_prs s) s = rr); cbv beta
  | |- bind getD ?k ?s = ?rr => change (k (s_doc s) s = rr); cbv beta
  | |- bind (gets ?f) ?k ?s = ?rr => change (k (f s) s = rr); cbv beta
  | |- bind (modT ?i ?f) ?k ?s = ?rr => change (k tt (hmod i f s) = rr); cbv beta
  | |- bind (modD ?f) ?k ?s = ?rr => change (k tt (dmod f s) = rr); cbv beta
  | |- bind (modP ?f) ?k ?s = ?rr => change (k tt (pmod f s) = rr); cbv beta
  | |- bind (ret ?a) ?k ?s = ?rr => change (k a s = rr); cbv beta
  | |- bind (lift (Ok ?a)) ?k ?s = ?rr => change (k a s = rr); cbv beta
  end.
Lemma bind_fw : forall {S A B} (m : M S A) (f : A -> M S B) s s1 a r, m s = (s1, Ok a) -> f a s1 = r -> bind m f s = r.
Proof. intros S A B m f s s1 a r H <-. unfold bind. rewrite H. reflexivity. Qed.

Lemma emit_section_fw : forall t s n, t < hlen s -> synonyms (p_dterms (s_prs s)) = [] ->
  plain_section (tget t s) -> t_rt (tget t s) = "section" -> t_val (tget t s) = VStr n ->
  exists s', emit true t s = (s', Ok tt).
Proof.
  intros t s n Ht Syn P Rt V. set (r := tget t s) in *. set (o := Some (p_lastsec (s_prs s))).
  assert (LC : lc_name r) by (apply (plain_section_lc _ "section"); auto).
  assert (LC2 : lc_name (set_t_section o r)) by exact LC.
  assert (NM : forall n, named_root (set_t_section o r) n = eqs n "section").
  { intros m. unfold named_root. cbn [t_pt t_rt set_t_section]. rewrite (ps_pt _ P), Rt. reflexivity. }
  assert (NM' : forall n, named_root r n = eqs n "section") by (intros m; apply (NM m)).
  set (s2 := hmod t (set_t_section o) s).
  assert (T2 : tget t s2 = set_t_section o r) by (unfold s2; rewrite tget_hmod by exact Ht; rewrite Nat.eqb_refl; reflexivity).
  set (fp := fun p => set_p_dtvn "@value" (set_p_lastsec t (set_p_lastparent (t_rt (hget (d_root (s_doc s)) (s_heap s2)))
                          (set_p_pmap (munge_param_map (t_args (set_t_section o r))) p)))).
  assert (E4 : hmod t (set_t_doc true) (pmod fp s) = pmod fp s).
  { apply hmod_id. rewrite tget_pmod. apply set_doc_id. apply P. }
  assert (C : consume t s = (pmod fp s, Ok true)).
  { unfold consume. eapply bind_fw; [apply rename_id; [auto|fold r; rewrite Rt; reflexivity]|]. fw.
    eapply bind_fw; [apply set_section_sec_run; fold r; rewrite set_sec_id by apply P; exact P|].
    fold o. fold s2. fw. rewrite T2.
    rewrite is_header_eq by exact LC2. fw. rewrite NM. cbn [eqs String.eqb Ascii.eqb Bool.eqb].
    rewrite is_section_eq by exact LC2. fw. rewrite is_root_eq by exact LC2. fw. rewrite !NM. cbn [eqs String.eqb Ascii.eqb Bool.eqb].
    eapply bind_fw.
    { fw. fw. fw. change (s_doc s2) with (s_doc s). fold fp. apply set_section_sec_run.
      rewrite tget_pmod, T2. change (set_t_section None (set_t_section o r)) with (set_t_section None r).
      rewrite set_sec_id by apply P. exact P. }
    assert (E3 : hmod t (set_t_section None) (pmod fp s2) = pmod fp s).
    { change (hmod t (set_t_section None) (pmod fp s2)) with (pmod fp (hmod t (set_t_section None) s2)).
      unfold s2. rewrite set_sec_twice by (auto; apply P). reflexivity. }
    rewrite E3. fw. rewrite tget_pmod. fold r. rewrite not_declare by apply P. reflexivity. }
  eexists. unfold emit. eapply bind_fw; [exact C|]. cbn [andb when]. unfold load1. fw. fw.
  rewrite E4, tget_pmod. fold r. rewrite is_root_eq by exact LC. fw. rewrite NM'. cbn [eqs String.eqb Ascii.eqb Bool.eqb].
  rewrite is_section_eq by exact LC. fw. rewrite NM'. cbn [eqs String.eqb Ascii.eqb Bool.eqb].
  unfold add_section. unfold bind at 1. 
  instantiate (1 := fst ((d <- getD ;; match dget (lower n) (d_sections d) with Some i => ret i | None => modD (fun d => set_d_sections (dset (lower n) t (d_sections d)) d) ;;; ret t end) (pmod fp s))).
  assert (A : forall (A B : Type) (m : MM A) (k : A -> MM B) s s1 a, m s = (s1, Ok a) -> bind m k s = k a s1) by (intros; unfold bind; rewrite H; reflexivity).
  change (bind (modT t (set_t_doc true)) ?k (pmod fp s)) with (k tt (hmod t (set_t_doc true) (pmod fp s))). cbv beta. rewrite E4.
  change (bind (getT t) ?k (pmod fp s)) with (k (tget t (pmod fp s)) (pmod fp s)). cbv beta. rewrite tget_pmod. fold r. rewrite (ps_cls _ P), V.
  unfold bind, assert_, lift, ret, as_str, getD, gets. rewrite doc_pmod. destruct (dget (lower n) (d_sections (s_doc s))); reflexivity.
Qed.

Lemma emit_root_fw : forall t s, t < hlen s -> synonyms (p_dterms (s_prs s)) = [] ->
  plain_section (tget t s) -> t_rt (tget t s) = "root" -> exists s', emit true t s = (s', Ok tt).
Proof.
  intros t s Ht Syn P Rt. set (r := tget t s) in *. set (o := Some (p_lastsec (s_prs s))).
  assert (LC : lc_name r) by (apply (plain_section_lc _ "root"); auto).
  assert (LC2 : lc_name (set_t_section o r)) by exact LC.
  assert (NM : forall n, named_root (set_t_section o r) n = eqs n "root").
  { intros m. unfold named_root. cbn [t_pt t_rt set_t_section]. rewrite (ps_pt _ P), Rt. reflexivity. }
  assert (NM' : forall n, named_root r n = eqs n "root") by (intros m; apply (NM m)).
  set (s2 := hmod t (set_t_section o) s).
  assert (T2 : tget t s2 = set_t_section o r) by (unfold s2; rewrite tget_hmod by exact Ht; rewrite Nat.eqb_refl; reflexivity).
  set (fp := set_p_lastsec t).
  assert (E4 : hmod t (set_t_doc true) (pmod fp s) = pmod fp s).
  { apply hmod_id. rewrite tget_pmod. apply set_doc_id. apply P. }
  assert (C : consume t s = (pmod fp s, Ok true)).
  { unfold consume. eapply bind_fw; [apply rename_id; [auto|fold r; rewrite Rt; reflexivity]|]. fw.
    eapply bind_fw; [apply set_section_sec_run; fold r; rewrite set_sec_id by apply P; exact P|].
    fold o. fold s2. fw. rewrite T2.
    rewrite is_header_eq by exact LC2. fw. rewrite NM. cbn [eqs String.eqb Ascii.eqb Bool.eqb].
    rewrite is_section_eq by exact LC2. fw. rewrite is_root_eq by exact LC2. fw. rewrite !NM. cbn [eqs String.eqb Ascii.eqb Bool.eqb].
    eapply bind_fw.
    { fw. fold fp. apply set_section_sec_run.
      rewrite tget_pmod, T2. change (set_t_section None (set_t_section o r)) with (set_t_section None r).
      rewrite set_sec_id by apply P. exact P. }
    assert (E3 : hmod t (set_t_section None) (pmod fp s2) = pmod fp s).
    { change (hmod t (set_t_section None) (pmod fp s2)) with (pmod fp (hmod t (set_t_section None) s2)).
      unfold s2. rewrite set_sec_twice by (auto; apply P). reflexivity. }
    rewrite E3. fw. rewrite tget_pmod. fold r. rewrite not_declare by apply P. reflexivity. }
  eexists. unfold emit. eapply bind_fw; [exact C|]. cbn [andb when]. unfold load1. fw. fw.
  rewrite E4, tget_pmod. fold r. rewrite is_root_eq by exact LC. fw. rewrite NM'. cbn [eqs String.eqb Ascii.eqb Bool.eqb]. reflexivity.
Qed.

Lemma emit_header_fw : forall t s v, t < hlen s -> synonyms (p_dterms (s_prs s)) = [] ->
  is_section_cls (t_cls (tget t s)) = false -> t_section (tget t s) = None -> t_tvn (tget t s) = "@value" ->
  t_pt (tget t s) = "root" -> t_rt (tget t s) = "header" -> t_val (tget t s) = VStr v ->
  exists s', emit true t s = (s', Ok tt).
Proof.
  intros t s v Ht Syn Cl Se Tv Pt Rt V. set (r := tget t s) in *. set (o := Some (p_lastsec (s_prs s))).
  set (s2 := hmod t (set_t_section o) s).
  assert (T2 : tget t s2 = set_t_section o r) by (unfold s2; rewrite tget_hmod by exact Ht; rewrite Nat.eqb_refl; reflexivity).
  assert (LC : lc_name (set_t_section o r)).
  { unfold lc_name. cbn [t_pt t_rt set_t_section]. rewrite Pt, Rt. split; [apply dot_free_iff; reflexivity|split; reflexivity]. }
  eexists. unfold emit. eapply bind_fw.
  { unfold consume. eapply bind_fw; [apply rename_id; [auto|fold r; rewrite Rt; reflexivity]|]. fw.
    eapply bind_fw.
    { unfold set_section. fw. fold r. rewrite Cl. unfold set_section_plain. fw. fw. fold r.
      rewrite Tv. change (eqs (lower "@value") "section") with false. cbn iota.
      unfold property_names. rewrite Cl, Se. cbn [map mem_str existsb]. apply modT_run. }
    fold o. fold s2. fw. rewrite T2. rewrite is_header_eq by exact LC. fw. unfold named_root. cbn [t_pt t_rt set_t_section]. rewrite Pt, Rt.
    cbn [eqs String.eqb Ascii.eqb Bool.eqb andb]. fw. change (t_val (set_t_section o r)) with (t_val r). rewrite V. cbn [as_str]. fw. fw. fw. reflexivity. }
  reflexivity.
Qed.

(** ** A new term *)

(** section classes are only given to sections *)
Definition plain_cls (s : st) : Prop := forall name, is_section_cls (parser_term_class name s) = true ->
  lower name = "root.section" \/ lower name = "root.root".

Definition same_cls (s s' : st) : Prop := forall name, parser_term_class name s' = parser_term_class name s.
Lemma same_cls_by : forall s s', s_reg s' = s_reg s -> d_super (s_doc s') = d_super (s_doc s) -> p_dterms (s_prs s') = p_dterms (s_prs s) -> same_cls s s'.
Proof. intros s s' A B C n. unfold parser_term_class, super_terms. rewrite A, B, C. reflexivity. Qed.
Lemma same_cls_trans : forall a b c, same_cls a b -> same_cls b c -> same_cls a c.
Proof. intros a b c A B n. rewrite B. apply A. Qed.
Lemma plain_cls_same : forall s s', same_cls s s' -> plain_cls s -> plain_cls s'.
Proof. intros s s' A P n. rewrite A. apply P. Qed.
Lemma new_term_cls : forall s r q s', new_term s r q s' -> same_cls s s'.
Proof.
  intros s r q s' N. apply same_cls_by; [apply N|rewrite (nt_doc _ _ _ _ N)|rewrite (nt_prs _ _ _ _ N)].
  - destruct (eqs _ _); reflexivity.
  - destruct (registers _); reflexivity.
Qed.
Lemma kids_cls : forall line ftype t n col args s s', kids line ftype t n col args s s' -> same_cls s s'.
Proof.
  intros line ftype t n col args s s' K. induction K as [| |col a args s s1 s' c q H F N K IH]; [intros m; reflexivity|exact IHK|].
  eapply same_cls_trans; [eapply new_term_cls; exact N|exact IH].
Qed.
Lemma row_eff_cls : forall ftype line row s s', row_eff ftype line row s s' -> same_cls s s'.
Proof.
  intros ftype line row s s' H. destruct H as [H1 ->|H1 H2 H3 ->|c H1 H2 H3 H4 ->|p r c q s1 H1 H2 H3 H4 H5 H6 H7].
  - intros n. reflexivity.
  - unfold section_effect. set (s1 := push _ s).
    assert (A : forall i, s_reg (enter_section i s1) = s_reg s /\ d_super (s_doc (enter_section i s1)) = d_super (s_doc s) /\ p_dterms (s_prs (enter_section i s1)) = p_dterms (s_prs s)).
    { intros i. unfold enter_section. destruct (i =? _); repeat split. }
    destruct (dget _ _); [apply same_cls_by; apply A|]. apply same_cls_by.
    + apply A.
    + rewrite doc_dmod. cbn [d_super set_d_sections]. apply A.
    + rewrite prs_dmod. apply A.
  - apply same_cls_by; reflexivity.
  - eapply same_cls_trans; [eapply new_term_cls; exact H6|eapply kids_cls; exact H7].
Qed.

Section Background.
Context {Bk : background}.

Lemma emit_new_err : forall s r s' e, pinv s -> fresh_ok s r -> t_col r <> None ->
  ~ is_datafile_section (final_pt s r) (renamed (p_pmap (s_prs s)) (t_rt r)) ->
  emit true (hlen s) (push r s) = (s', Err e) ->
  e = EParser /\ registers r = true
  /\ dget (t_pt r) (dset (renamed (p_pmap (s_prs s)) (t_rt r)) (hlen s) (dset ELIDED_TERM (hlen s) (p_tmap (s_prs s)))) = None.
Proof.
  intros s r s' e P F Hc Hd H.
  assert (T : tget (hlen s) (push r s) = r) by (rewrite tget_push by lia; rewrite Nat.eqb_refl; reflexivity).
  assert (L : tget (p_lastsec (s_prs s)) (push r s) = tget (p_lastsec (s_prs s)) s).
  { pose proof (pi_last _ P). rewrite tget_push by lia. replace (_ =? _) with false by (symmetry; apply Nat.eqb_neq; lia). reflexivity. }
  pose proof (pi_last _ P) as PL.
  assert (R : ready (hlen s) (push r s)).
  { split; rewrite ?T, ?hlen_push, ?prs_push, ?doc_push, ?L; try apply F; try apply (pi_syn _ P); try apply (pi_lp _ P); try lia.
    - apply (pi_lastdoc _ P).
    - intros I. apply (pi_terms _ P) in I; lia.
    - intros I. apply (pi_dterms _ P) in I. lia.
    - intros k i I. apply (pi_tmap _ P) in I. lia.
    - apply renamed_lower; [apply P|apply F]. }
  apply emit_plain_err in H; [|exact R|..].
  - rewrite T, prs_push in H. exact H.
  - rewrite T. exact Hc.
  - rewrite prs_push. apply (pi_lpin _ P).
  - rewrite T, prs_push. apply F.
  - rewrite T, prs_push. exact Hd.
Qed.

Lemma construct_plain_fw : forall c term value args row col ftype parent doc section s p r,
  is_section_cls c = false -> term_names (s_heap s) parent term = Ok (p, r) ->
  (forall j, parent = Some j -> lower (t_rt (tget j s)) = lower p) ->
  construct c term value args row col ftype parent doc section s
  = (push (fresh_plain c term p r value args row col ftype parent doc section) s, Ok (hlen s)).
Proof.
  intros until r. intros Hc Tn As.
  assert (E : construct c term value args row col ftype parent doc section = mk_plain c term value args row col ftype parent doc section)
    by (destruct c; try discriminate Hc; reflexivity).
  rewrite E. unfold mk_plain. fw. rewrite Tn. fw. cbn iota beta.
  assert (A : match parent with Some i => eqs (rt_lc (hget i (s_heap s))) (lower p) | None => true end = true).
  { destruct parent as [j|]; [|reflexivity]. apply eqs_true. unfold rt_lc. apply (As j eq_refl). }
  rewrite A. reflexivity.
Qed.

Lemma emit_args_cell : forall line ftype t n col a s, plain_cls s -> good_name n -> n <> "" -> t_rt (tget t s) = n ->
  exists c, is_section_cls c = false /\ 
  (r <- getT t ;;
         let name := dotted (rt_lc r) (str_of_nat col) in
         c <- gets (parser_term_class name) ;;
         k <- construct c name (VStr a) [] (Some line) (Some (col + 2)) ftype (Some t) false None ;;
         emit true k) s = emit true (hlen s) (push (arg_rec c line ftype t n col a) s).
Proof.
  intros line ftype t n col a s PC (G1 & G2 & G3 & G4 & G5) Nn Rt.
  exists (parser_term_class (dotted n (str_of_nat col)) s).
  assert (CN : cell_names (dotted n (str_of_nat col)) n (str_of_nat col)).
  { destruct (str_of_nat_digits col) as [D _]. rewrite <- G3 at 2. rewrite <- (digits_lower _ D) at 2.
    apply (cell_qualified _ n (str_of_nat col)); auto; [apply digits_dot_free, D|apply trimmed_iff, tidy_strip, G1|].
    apply trimmed_iff, tidy_strip, digits_starts, D. }
  assert (Hc : is_section_cls (parser_term_class (dotted n (str_of_nat col)) s) = false).
  { destruct (is_section_cls _) eqn:E; [|reflexivity]. exfalso. apply PC in E.
    apply split_term_lower_spec in CN.
    assert (Ll : lower (dotted n (str_of_nat col)) = dotted n (str_of_nat col)).
    { unfold dotted. rewrite !lower_app. rewrite G3. destruct (str_of_nat_digits col) as [D _]. rewrite (digits_lower _ D). reflexivity. }
    rewrite Ll in E. destruct E as [E|E]; rewrite E in CN; vm_compute in CN; injection CN as C1 C2; congruence. }
  split; [exact Hc|]. fw. unfold rt_lc. rewrite Rt, G3. cbv zeta. fw.
  eapply bind_fw; [apply (construct_plain_fw _ _ _ _ _ _ _ _ _ _ _ n (str_of_nat col)); [exact Hc|..]|reflexivity].
  - apply split_term_lower_spec in CN. unfold term_names. rewrite CN. cbn [rbind]. destruct (eqs n ROOT_TERM); [|reflexivity].
    unfold tget in Rt. rewrite Rt. reflexivity.
  - intros j E. injection E as <-. rewrite Rt. reflexivity.
Qed.

Lemma arg_fresh : forall s c line ftype t n col a, good_name n -> ftype <> Some "declare" -> is_section_cls c = false ->
  fresh_ok s (arg_rec c line ftype t n col a) /\ registers (arg_rec c line ftype t n col a) = false
  /\ final_pt s (arg_rec c line ftype t n col a) = n.
Proof.
  intros s c line ftype t n col a (G1 & G2 & G3 & G4 & G5) Ft Hc. set (R := arg_rec c line ftype t n col a).
  assert (E : final_pt s R = n) by (unfold final_pt; change (t_pt R) with n; apply eqs_false in G5; rewrite G5; reflexivity).
  assert (E2 : registers R = false).
  { unfold registers. change (t_pt R) with n. change (t_col R) with (Some (col + 2)). cbn iota. apply eqs_false in G5. rewrite G5. replace (1 <? col + 2) with true; [reflexivity|].
    symmetry. apply Nat.ltb_lt. lia. }
  split; [|auto]. destruct (str_of_nat_digits col) as [D _].
  split; [exact Hc|reflexivity|reflexivity|reflexivity|reflexivity|exact Ft|split; assumption|apply digits_lower, D|..].
  - rewrite E. congruence.
  - rewrite E2. discriminate.
Qed.

Lemma args_err : forall line ftype t n args col s s' e, ftype <> Some "declare" -> good_name n -> n <> "" ->
  pinv s -> plain_cls s -> ~ In "section" (p_pmap (s_prs s)) -> t < hlen s -> t_rt (tget t s) = n ->
  emit_args true ftype line t col args s = (s', Err e) -> False.
Proof.
  intros line ftype t n args. induction args as [|a args IH]; intros col s s' e Ft G Nn P PC NS Ht Rt H; [discriminate H|].
  cbn [emit_args] in H. destruct (emit_args_cell line ftype t n col a s PC G Nn Rt) as (c & Hc & Ec).
  destruct (arg_fresh s c line ftype t n col a G Ft Hc) as (F & Fr & Fp).
  re H as s1 u H1.
  - unfold when in H1. destruct (nonempty (strip a)); [|discriminate H1]. pose proof (eq_trans (eq_sym Ec) H1) as H2. clear H1. rename H2 into H1.
    apply emit_new_err in H1; [|exact P|exact F|discriminate|].
    + destruct H1 as (_ & X & _). congruence.
    + rewrite Fp. intros [_ Q]. change (t_rt (arg_rec c line ftype t n col a)) with (str_of_nat col) in Q. unfold renamed in Q.
      destruct (str_of_nat_digits col) as [D D2].
      assert (X : str_of_nat col <> "section").
      { intros Z. rewrite Z in D. inversion D as [|? ? D3 _]. discriminate D3. }
      destruct (py_int _); [|congruence]. unfold pindex in Q. destruct (z <? 0)%Z.
      * destruct (0 <=? _)%Z; [|congruence]. destruct (nth_error _ _) eqn:En; [|congruence]. apply NS. subst. eapply nth_error_In; exact En.
      * destruct (nth_error _ _) eqn:En; [|congruence]. apply NS. subst. eapply nth_error_In; exact En.
  - destruct u. apply when_ok in H1. destruct (nonempty (strip a)).
    + pose proof (eq_trans (eq_sym Ec) H1) as H2. clear H1. rename H2 into H1. apply emit_new in H1; [|exact P|exact F]. destruct H1 as (q & N).
      apply IH in H; auto.
      * eapply new_term_inv; eassumption.
      * eapply plain_cls_same; [eapply new_term_cls; exact N|exact PC].
      * rewrite (nt_prs _ _ _ _ N), Fr. exact NS.
      * rewrite (nt_len _ _ _ _ N). lia.
      * rewrite (nt_old _ _ _ _ _ N) by exact Ht. rewrite (sm_rt _ _ (with_new_same _ _ _ _ _)). exact Rt.
    + subst s1. apply IH in H; auto.
Qed.

(** ** Rows *)

(** a row whose cells the parser accepts *)
Definition sound_row (row : list string) : Prop := skip_row row = false -> exists p r, cell_names (hd "" row) p r
  /\ r <> "" /\ (p = "root" -> In r ["section"; "header"] -> nth 1 row "" <> "") /\ ~ (p = "datafile" /\ r = "section").

(** the parent named in the row was never used *)
Definition missing_parent (s : st) (row : list string) : Prop := skip_row row = false /\ exists p r, cell_names (hd "" row) p r
  /\ p <> r /\ p <> ELIDED_TERM /\ dget p (p_tmap (s_prs s)) = None.

Lemma construct_section_fw : forall args row col ftype s v,
  construct CSection "root.section" (VStr v) args row col ftype None true None s
  = (push (fresh_plain CSection "root.section" "root" "section" (VStr v) (heading_args (s_doc s) v args) row row ftype None true None) s, Ok (hlen s)).
Proof.
  intros. cbn [construct]. unfold mk_section. fw. eapply bind_fw with (s1 := s) (a := heading_args (s_doc s) v args).
  { destruct args; [|reflexivity]. cbn [as_str]. fw. reflexivity. }
  change (split_term_lower "root.section") with (@Ok (string * string) ("root", "section")). fw. cbn iota beta.
  change (term_is_name "root" "section" "Root.Section") with (@Ok bool true). fw. cbn iota. fw. cbn [orb assert_]. fw. reflexivity.
Qed.

Lemma row_step_err : forall e rec src ftype line row ls s s' err,
  ftype <> Some "declare" -> pinv s -> ordinary row -> welcome row -> sound_row row -> plain_cls s -> ~ In "section" (p_pmap (s_prs s)) ->
  row_step e true rec src ftype line row ls s = (s', Err err) -> err = EParser /\ missing_parent s row.
Proof.
  intros e rec src ftype line row ls s s' err Ft P O Wl So PC NoS H. unfold row_step in H.
  destruct (skip_row row) eqn:Sk; [discriminate H|].
  destruct (So Sk) as (p & n & CN & So1 & So2 & So3).
  pose proof CN as Sp. apply split_term_lower_spec in Sp. rewrite Sp in H.
  rg H. cbn iota beta in H. rg H.
  destruct (O Sk _ _ CN) as (O1 & O2 & O3 & O4 & O5 & O6).
  pose proof (cell_names_tidy _ _ _ CN) as (T1 & T2 & T3 & T4 & T5 & T6 & T7).
  assert (Sp2 : split_term_lower (dotted p n) = Ok (p, n)).
  { apply split_term_lower_spec. apply (cell_names_dotted _ _ _ CN). }
  destruct (is_section_cls (parser_term_class (dotted p n) s)) eqn:Cc.
  - (* a section *)
    assert (p = "root" /\ n = "section") as [-> ->].
    { apply PC in Cc. unfold dotted in Cc. rewrite !lower_app in Cc. rewrite T5, T6 in Cc.
      change (p ++ lower "." ++ n)%string with (dotted p n) in Cc.
      destruct Cc as [Cc|Cc]; rewrite Cc in Sp2; vm_compute in Sp2; injection Sp2 as C1 C2; split; congruence. }
    change (dotted "root" "section") with "root.section" in *. rewrite row_class_section in H by exact P.
    unfold bind at 1 in H. rewrite construct_section_fw in H.
    set (v := nth 1 row "") in *.
    match type of H with context [push ?r0 s] => change r0 with (section_rec v (heading_args (s_doc s) v (skipn 2 row)) line ftype "root.section") in H end.
    set (R := section_rec _ _ _ _ _) in *.
    assert (Wv : ~ In (lower (strip v)) b_odd) by (apply Wl; [exact Sk|exact CN]).
    assert (PS : plain_section R).
    { apply section_rec_plain; [exact Ft|apply heading_no_section; [exact P|exact Wv|apply O6; cbn; auto]]. }
    rg H. rewrite push_new in H. assert (LC : lc_name R) by (split; [apply dot_free_iff; reflexivity|split; reflexivity]).
    rewrite is_include_bare in H by exact LC. rg H. rewrite is_declare_bare in H by exact LC. rg H.
    change (named_root R "include" || named_root R "declare") with false in H. cbn iota in H.
    rewrite is_section_bare in H by exact LC. rg H. change (named_root R "section") with true in H. cbn iota in H.
    assert (Vn : v <> "") by (apply So2; cbn; auto).
    assert (Tv : t_val R = VStr (strip v)) by (apply init_val_str; exact Vn).
    assert (Hi : section_for (hlen s) (push R s) = (push R s, Ok (row_section s row))).
    { unfold section_for. fw. fw. rewrite push_new. change (is_section_cls (t_cls R)) with true. cbn iota.
      unfold get_section. rewrite Tv. cbn [as_str rbind]. rewrite doc_push. unfold row_section. fold v.
      destruct (dget (lower (strip v)) (d_sections (s_doc s))); reflexivity. }
    unfold bind at 1 in H. rewrite Hi in H. set (i := row_section s row) in *.
    assert (P1 : pinv (push R s)) by (apply pinv_push; [exact P|split; [exact PS|reflexivity]|reflexivity|reflexivity]).
    assert (Si : i < hlen (push R s) /\ is_section_cls (t_cls (tget i (push R s))) = true /\ ~ b_wild i /\ exists w, t_val (tget i (push R s)) = VStr w).
    { unfold i, row_section. fold v. destruct (dget (lower (strip v)) (d_sections (s_doc s))) as [j|] eqn:E.
      - destruct (pi_dsecs _ P _ _ E) as [H1 H2]. rewrite hlen_push, push_old by exact H1. split; [lia|split; [exact H2|split; [apply (pi_tame _ P _ _ E Wv)|]]].
        destruct (pi_dname _ P _ _ E) as (w & Hw & _). eauto.
      - rewrite hlen_push, push_new. split; [lia|split; [reflexivity|split; [apply not_wild, (pi_base _ P)|eauto]]]. }
    destruct Si as (Si & Sc & Sw & w & Sv). destruct (pi_sec _ P1 _ Si Sc Sw) as [PSi RTi].
    assert (He : exists s2, emit true i (push R s) = (s2, Ok tt)).
    { destruct (Nat.eq_dec i (d_root (s_doc (push R s)))) as [Er|Er].
      - apply emit_root_fw; [exact Si|apply (pi_syn _ P1)|exact PSi|]. rewrite Er. apply (pi_rootn _ P1).
      - apply (emit_section_fw _ _ w); [exact Si|apply (pi_syn _ P1)|exact PSi|apply RTi; exact Er|exact Sv]. }
    destruct He as (s2 & He). unfold bind at 1 in H. rewrite He in H.
    assert (Ln : tget i s2 = tget i (push R s)).
    { destruct (Nat.eq_dec i (d_root (s_doc (push R s)))) as [Er|Er].
      - apply emit_root in He; [subst s2; rewrite tget_pmod; reflexivity|exact Si|apply (pi_syn _ P1)|exact PSi|]. rewrite Er. apply (pi_rootn _ P1).
      - apply emit_section in He; [|exact Si|apply (pi_syn _ P1)|exact PSi|apply RTi; exact Er].
        destruct He as (w' & _ & ->). rewrite tget_dmod, tget_pmod. reflexivity. }
    rg H. rewrite Ln in H.
    assert (LCi : lc_name (tget i (push R s))).
    { destruct (Nat.eq_dec i (d_root (s_doc (push R s)))) as [Er|Er].
      - apply (plain_section_lc _ "root"); [exact PSi|rewrite Er; apply (pi_rootn _ P1)|reflexivity].
      - apply (plain_section_lc _ "section"); [exact PSi|apply RTi; exact Er|reflexivity]. }
    rewrite is_section_bare in H by exact LCi. rg H. rewrite is_header_bare in H by exact LCi. rg H.
    exfalso. destruct (Nat.eq_dec i (d_root (s_doc (push R s)))) as [Er|Er].
    + assert (Ta : t_args (tget i (push R s)) = []) by (rewrite Er; apply (pi_rootargs _ P1)). rewrite Ta in H.
      destruct (_ || _); discriminate H.
    + assert (Nm : named_root (tget i (push R s)) "section" = true).
      { unfold named_root. rewrite (ps_pt _ PSi), (RTi Er). reflexivity. }
      rewrite Nm in H. discriminate H.
  - (* an ordinary class *)
    assert (NS : ~ (p = "root" /\ n = "section")).
    { intros [-> ->]. change (dotted "root" "section") with "root.section" in Cc. rewrite row_class_section in Cc by exact P. discriminate Cc. }
    unfold bind at 1 in H. rewrite (construct_plain_fw _ _ _ _ _ _ _ _ _ _ _ p n) in H; [|exact Cc|unfold term_names; rewrite Sp2; reflexivity|discriminate].
    fold (row_rec (parser_term_class (dotted p n) s) line ftype p n row) in H.
    set (c := parser_term_class (dotted p n) s) in *. set (R := row_rec c line ftype p n row) in *.
    rg H. rewrite push_new in H.
    assert (LC : lc_name R) by (unfold lc_name; cbn; auto).
    assert (NM : forall k, named_root R k = eqs "root" p && eqs k n) by reflexivity.
    rewrite is_include_bare in H by exact LC. rg H. rewrite is_declare_bare in H by exact LC. rg H.
    assert (NI : named_root R "include" || named_root R "declare" = false).
    { rewrite !NM. eqs_cases "root" p; [|reflexivity]. cbn [andb]. specialize (O5 (eq_sym E)).
      eqs_cases "include" n; [exfalso; apply O5; left; exact E0|]. eqs_cases "declare" n; [exfalso; apply O5; right; left; exact E1|]. reflexivity. }
    rewrite NI in H. cbn iota in H. rewrite is_section_bare in H by exact LC. rg H.
    assert (NSc : named_root R "section" = false).
    { rewrite NM. eqs_cases "root" p; [|reflexivity]. cbn [andb]. apply eqs_false. intros <-. apply NS. auto. }
    rewrite NSc in H. rg H.
    destruct (eqs "root" p && eqs "header" n) eqn:Hh.
    + (* header *)
      apply andb_prop in Hh. destruct Hh as [Hp Hn]. apply eqs_true in Hp, Hn. subst p n. exfalso.
      pose proof (pi_last _ P) as PL.
      assert (Vn : nth 1 row "" <> "") by (apply So2; cbn; auto).
      assert (Tv : t_val R = VStr (strip (nth 1 row ""))) by (apply init_val_str; exact Vn).
      assert (Hlt : hlen s < hlen (push R s)) by (rewrite hlen_push; lia).
      assert (He : exists s2, emit true (hlen s) (push R s) = (s2, Ok tt)).
      { apply (emit_header_fw _ _ (strip (nth 1 row ""))); rewrite ?prs_push, ?push_new; try (reflexivity || assumption). apply (pi_syn _ P). }
      destruct He as (s2 & He). unfold bind at 1 in H. rewrite He in H.
      apply emit_header in He; rewrite ?hlen_push, ?prs_push, ?push_new; try (reflexivity || assumption || lia); [|apply (pi_syn _ P)].
      rewrite ?prs_push, ?push_new in He. destruct He as (w & Hv & Es2).
      rewrite Tv in Hv. injection Hv as <-.
      assert (E2 : s2 = header_effect c line ftype row s) by exact Es2. clear Es2.
      rg H. assert (T : named_root (tget (hlen s) s2) "header" = true /\ lc_name (tget (hlen s) s2)).
      { rewrite E2. unfold header_effect. rewrite tget_hmod.
        2:{ rewrite hlen_pmod, hlen_hmod, hlen_push. lia. }
        replace (hlen s =? p_lastsec (s_prs s)) with false by (symmetry; apply Nat.eqb_neq; lia).
        rewrite tget_pmod, tget_hmod by (rewrite hlen_push; lia). rewrite Nat.eqb_refl, push_new. split; [reflexivity|exact LC]. }
      destruct T as [T LC2]. rewrite is_section_bare in H by exact LC2. rg H. rewrite is_header_bare in H by exact LC2. rg H.
      rewrite T, orb_true_r in H. discriminate H.
    + (* a plain term *)
      assert (G : good_name n) by (exact (conj T2 (conj T4 (conj T6 (conj O3 O2))))).
      assert (Fo : fresh_ok s R).
      { split; [exact Cc|reflexivity|reflexivity|reflexivity|reflexivity|exact Ft|split; assumption|exact T6|..].
        - change (t_rt R) with n. intros E. unfold renamed. rewrite O1. unfold final_pt in E. change (t_pt R) with p in E.
          eqs_cases p ELIDED_TERM.
          + specialize (O4 E0). intros [<-|[<-|[<-|[]]]]; [apply O4; cbn; auto|apply O4; cbn; auto|congruence].
          + subst p. intros [<-|[<-|[<-|[]]]]; [discriminate Hh|apply NS; auto|congruence].
        - intros _. change (t_rt R) with n. auto. }
      assert (Rn : renamed (p_pmap (s_prs s)) (t_rt R) = n) by (unfold renamed; change (t_rt R) with n; rewrite O1; reflexivity).
      assert (ND : ~ is_datafile_section (final_pt s R) (renamed (p_pmap (s_prs s)) (t_rt R))).
      { rewrite Rn. unfold final_pt. change (t_pt R) with p. intros [D1 D2]. eqs_cases p ELIDED_TERM; [|apply So3; auto]. apply (O4 E). left. auto. }
      re H as s2 u He.
      * apply emit_new_err in He; [|exact P|exact Fo|discriminate|exact ND]. destruct He as (-> & Rg & Q). split; [reflexivity|]. split; [exact Sk|].
        exists p, n. split; [exact CN|]. rewrite Rn in Q. change (t_pt R) with p in Q. rewrite !dget_dset in Q.
        eqs_cases p n; [discriminate Q|]. eqs_cases p ELIDED_TERM; [discriminate Q|]. auto.
      * destruct u.
      apply emit_new in He; [|exact P|exact Fo]. destruct He as (q & N).
      pose proof (new_term_inv _ _ _ _ P Fo N) as P1.
      pose proof (settled_fields s q R) as SF. cbn zeta in SF. destruct SF as (_&_&_&SFp&SFr&_&SFa&_).
      assert (Tt : t_rt (tget (hlen s) s2) = n /\ t_pt (tget (hlen s) s2) = final_pt s R /\ t_args (tget (hlen s) s2) = map strip (skipn 2 row)).
      { rewrite (nt_new _ _ _ _ N). rewrite (sm_rt _ _ (with_new_same _ _ _ _ _)), (sm_pt _ _ (with_new_same _ _ _ _ _)), (sm_args _ _ (with_new_same _ _ _ _ _)).
        rewrite SFr, SFp, SFa, Rn. repeat split. }
      destruct Tt as (Tr & Tp & Ta).
      assert (LC2 : lc_name (tget (hlen s) s2)).
      { unfold lc_name. rewrite Tr, Tp. unfold final_pt. change (t_pt R) with p. destruct (eqs p ELIDED_TERM); [|auto].
        destruct (pi_lp _ P). auto. }
      rg H. rewrite is_section_bare in H by exact LC2. rg H. rewrite is_header_bare in H by exact LC2. rg H.
      assert (NN : named_root (tget (hlen s) s2) "section" || named_root (tget (hlen s) s2) "header" = false).
      { unfold named_root. rewrite Tr, Tp. eqs_cases "root" (final_pt s R); [|reflexivity]. cbn [andb].
        pose proof (fo_nm _ _ Fo (eq_sym E)) as X. rewrite Rn in X. 
        eqs_cases "section" n; [exfalso; apply X; cbn; auto|]. eqs_cases "header" n; [exfalso; apply X; cbn; auto|]. reflexivity. }
      rewrite NN in H. re H as s3 u He; [|discriminate H]. rewrite Ta in He. exfalso.
      apply (args_err _ _ _ n) in He; auto.
      -- eapply plain_cls_same; [eapply new_term_cls; exact N|exact PC].
      -- rewrite (nt_prs _ _ _ _ N). destruct (registers _); exact NoS.
      -- rewrite (nt_len _ _ _ _ N). lia.
Qed.

(** ** Files *)

Lemma munge_no_section : forall cols i, ~ In "section" (map lower cols) -> ~ In "section" (munge_from i cols).
Proof.
  intros cols. induction cols as [|c cols IH]; intros i H; [exact (fun x => x)|]. cbn [munge_from]. intros [E|I].
  - unfold nonempty in E. eqs_cases c ""; cbn [negb] in E.
    + destruct (str_of_nat_digits i) as [D _]. rewrite E in D. inversion D as [|? ? D1 _]. discriminate D1.
    + apply H. left. exact E.
  - apply (IH (S i)); [|exact I]. intros J. apply H. right. exact J.
Qed.

(** no usable section has a column named section *)
Definition no_sections (v : view) : Prop := ~ In "section" (map lower (v_cols v))
  /\ forall k c, ~ In k b_odd -> assoc k (v_secs v) = Some c -> ~ In "section" (map lower c).
Definition usable_columns (decl : string -> list string) : Prop :=
  forall n, ~ In (lower (strip n)) b_odd -> ~ In "section" (map lower (map strip (decl n))).

Lemma no_sections_next : forall decl v l, usable_columns decl -> usual l -> greets l -> no_sections v -> no_sections (next decl v l).
Proof.
  intros decl v l ND U G [A B]. destruct l as [|n cells|n cells|p r x cells]; cbn [next usual greets] in *.
  - split; [exact A|exact B].
  - destruct (eqs (lower (strip n)) "root"); [split; [exact A|exact B]|]. unfold no_sections. cbn [v_cols v_secs].
    set (own := match cells with [] => map strip (decl n) | _ => cells end).
    assert (OW : ~ In "section" (map lower own)) by (destruct cells; [apply ND; exact G|exact U]).
    destruct (assoc (lower (strip n)) (v_secs v)) as [c|] eqn:E.
    + split; [eapply B; [exact G|exact E]|exact B].
    + split; [exact OW|]. intros k c O H. rewrite assoc_app in H. destruct (assoc k (v_secs v)) eqn:Ek; [injection H as <-; eapply B; [exact O|exact Ek]|].
      rewrite assoc_cons in H. destruct (eqs _ k) in H; [injection H as <-; exact OW|discriminate H].
  - split; [exact U|exact B].
  - destruct (eqs p current_parent); split; assumption.
Qed.

Lemma no_sections_lines : forall decl ls v, usable_columns decl -> Forall usual ls -> Forall greets ls -> no_sections v -> no_sections (fold_left (next decl) ls v).
Proof.
  intros decl ls. induction ls as [|l ls IH]; intros v ND U G N; [exact N|]. inversion U; subst. inversion G; subst. cbn [fold_left].
  apply IH; auto. apply no_sections_next; assumption.
Qed.

Lemma sound_line_row : forall row l, reads row l -> sound l -> sound_row row.
Proof.
  intros row l R S Sk. apply not_blank in Sk. destruct R as [B|NB C|NB C|p r NB C Hx]; [tauto|..]; cbn [sound] in S.
  - exists "root", "section". split; [exact C|]. split; [discriminate|]. split; [intros _ _; exact S|intros [E _]; discriminate E].
  - exists "root", "header". split; [exact C|]. split; [discriminate|]. split; [|intros [E _]; discriminate E].
    intros _ _ E. rewrite E in S. apply S. reflexivity.
  - exists p, r. split; [exact C|]. split; [apply S|]. split; [|apply S]. intros E I. exfalso. apply Hx in E. apply E. destruct I as [<-|[<-|[]]]; cbn; auto.
Qed.

(** the parent the line names is known *)
Definition settles (v : view) (l : line) : Prop :=
  match l with
  | LTerm p r _ _ => p = current_parent \/ p = "root" \/ p = r \/ (exists k, assoc p (v_last v) = Some k) \/ b_known p <> None
  | _ => True
  end.

Lemma missing_unplaced : forall decl v s row l, vinv decl v s -> reads row l -> missing_parent s row -> ~ settles v l.
Proof.
  intros decl v s row l V R (Sk & p & r & C & M1 & M2 & M3). apply not_blank in Sk.
  assert (Rt : p <> "root") by (intros ->; rewrite (pi_rootmap _ (vi_pinv _ _ _ V)) in M3; discriminate M3).
  destruct R as [B|NB C'|NB C'|p' r' NB C' Hx]; [tauto|..]; destruct (cell_names_fun _ _ _ _ _ C C') as [-> ->]; try congruence.
  cbn [settles]. pose proof (vi_last _ _ _ V p' Rt M2) as L. intros [H|[H|[H|[[k H]|H]]]]; try contradiction.
  - rewrite H in L. destruct L as (t & L & _). congruence.
  - destruct (assoc p' (v_last v)); [destruct L as (t & L & _)|]; congruence.
Qed.

Lemma unplaced_missing : forall decl v s p r x cells, vinv decl v s -> ~ settles v (LTerm p r x cells) ->
  p <> r /\ p <> current_parent /\ dget p (p_tmap (s_prs s)) = None.
Proof.
  intros decl v s p r x cells V N. cbn [settles] in N.
  assert (p <> current_parent /\ p <> "root" /\ p <> r) as (N1 & N2 & N3) by (repeat split; intros E; apply N; auto).
  split; [exact N3|]. split; [exact N1|]. pose proof (vi_last _ _ _ V p N2 N1) as L.
  destruct (assoc p (v_last v)) as [k|] eqn:E; [exfalso; apply N; right; right; right; left; eauto|]. rewrite L.
  destruct (b_known p) eqn:Ek; [|reflexivity]. exfalso. apply N. right; right; right; right. discriminate.
Qed.

(** a file of placed lines goes through, up to the first row with a missing parent *)
Lemma rows_loop_total : forall decl e rec src ftype rows ls post k v s, usable_columns decl -> ftype <> Some "declare" ->
  vinv decl v s -> plain_cls s -> no_sections v ->
  Forall2 reads rows ls -> Forall usual ls -> Forall greets ls -> Forall sound ls ->
  (forall a l b, ls = (a ++ l :: b)%list -> settles (fold_left (next decl) a v) l) ->
  exists k' s', vinv decl (fold_left (next decl) ls v) s' /\ plain_cls s'
    /\ rows_loop e true rec src ftype (v_line v) (rows ++ post) k s = rows_loop e true rec src ftype (v_line v + List.length rows) post k' s'.
Proof.
  intros decl e rec src ftype rows ls post k v s ND Ft V PC NS R. revert k v s V PC NS.
  induction R as [|row l rows ls R1 R2 IH]; intros k v s V PC NS U G So Pl.
  - exists k, s. cbn [List.length fold_left app]. rewrite Nat.add_0_r. auto.
  - inversion U as [|? ? U1 U2]; subst. inversion G as [|? ? G1 G2]; subst. inversion So as [|? ? So1 So2]; subst.
    assert (NoS : ~ In "section" (p_pmap (s_prs s))) by (rewrite (vi_pmap _ _ _ V); apply munge_no_section; apply NS).
    destruct (row_step e true rec src ftype (v_line v) row k s) as [s1 [k1|err]] eqn:E.
    + pose proof E as E'. apply row_step_eff in E'; [|exact Ft|apply V|eapply usual_ordinary; eassumption|eapply greets_welcome; eassumption].
      destruct E' as (RE & P1 & _).
      destruct (vinv_row _ _ _ _ _ _ _ Ft V P1 R1 U1 G1 RE) as [V1 _].
      destruct (IH k1 _ s1 V1) as (k' & s' & Vx & Px & Ex); auto.
      * eapply plain_cls_same; [eapply row_eff_cls; exact RE|exact PC].
      * apply no_sections_next; assumption.
      * intros a l' b Eb. apply (Pl (l :: a) l' b). subst ls. reflexivity.
      * rewrite next_line in Ex. exists k', s'. split; [exact Vx|]. split; [exact Px|].
        cbn [rows_loop app List.length]. unfold bind at 1. rewrite E. rewrite Nat.add_succ_r. exact Ex.
    + exfalso. apply row_step_err in E; auto; [|apply V|eapply usual_ordinary; eassumption|eapply greets_welcome; eassumption|eapply sound_line_row; eassumption].
      destruct E as [_ Ms]. eapply missing_unplaced in Ms; [|exact V|exact R1]. apply Ms. exact (Pl [] l ls eq_refl).
Qed.

(** a row with a missing parent *)
Lemma row_missing : forall decl e rec src row post p r x cells k v s, vinv decl v s -> plain_cls s -> no_sections v ->
  reads row (LTerm p r x cells) -> usual (LTerm p r x cells) -> sound (LTerm p r x cells) -> ~ settles v (LTerm p r x cells) ->
  exists s', rows_loop e true rec src None (v_line v) (row :: post) k s = (s', Err EParser).
Proof.
  intros decl e rec src row post p r x cells k v s V PC NS Rr Ur Sr Np. cbn [rows_loop]. unfold bind at 1.
  assert (NoS : ~ In "section" (p_pmap (s_prs s))) by (rewrite (vi_pmap _ _ _ V); apply munge_no_section; apply NS).
  destruct (row_step _ _ _ _ _ _ row k s) as [s1 [k1|err]] eqn:E.
  - exfalso. apply row_step_eff in E; [|discriminate|apply V|eapply usual_ordinary; eassumption|eapply greets_welcome; [eassumption|exact Logic.I]]. destruct E as (RE & P1 & _).
    destruct (unplaced_missing _ _ _ _ _ _ _ V Np) as (N1 & N2 & N3).
    remember (LTerm p r x cells) as l eqn:El. destruct Rr as [B|NB C|NB C|p0 r0 NB C Hx]; try discriminate El.
    injection El as -> -> _ _. destruct RE as [H1 ->|H1 H2 H3 ->|c H1 H2 H3 H4 ->|p' r' c q s2 H1 H2 H3 H4 H5 H6 H7].
    + apply skip_blank in H1. auto.
    + destruct (cell_names_fun _ _ _ _ _ H2 C) as [<- <-]. apply Hx; cbn; auto.
    + destruct (cell_names_fun _ _ _ _ _ H2 C) as [<- <-]. apply Hx; cbn; auto.
    + destruct (cell_names_fun _ _ _ _ _ H2 C) as [-> ->]. pose proof (nt_look _ _ _ _ H6) as L. unfold lookup_parent, registers in L.
      change (t_pt (row_rec c (v_line v) None p r row)) with p in L.
      change (t_col (row_rec c (v_line v) None p r row)) with (Some 1) in L.
      change (t_rt (row_rec c (v_line v) None p r row)) with r in L.
      replace (eqs p ELIDED_TERM) with false in L by (symmetry; apply eqs_false; exact N2). cbn [negb andb] in L.
      change (1 <? 1) with false in L. cbn iota in L.
      unfold renamed in L. rewrite (proj1 Ur) in L.
      rewrite !dget_dset in L. replace (eqs p r) with false in L by (symmetry; apply eqs_false; exact N1).
      replace (eqs p ELIDED_TERM) with false in L by (symmetry; apply eqs_false; exact N2). congruence.
  - apply row_step_err in E; auto; [|discriminate|apply V|eapply usual_ordinary; eassumption|eapply greets_welcome; [eassumption|exact Logic.I]|eapply sound_line_row; eassumption].
    destruct E as [-> _]. eexists. reflexivity.
Qed.

End Background.

(** *** In a new document *)

Lemma placed_settles : forall decl pre l, settles (view_after decl pre) l <-> placed pre l.
Proof.
  intros decl pre [| | |p r x cells]; cbn [settles placed]; try tauto.
  assert (A : (exists k, assoc p (v_last (view_after decl pre)) = Some k) <-> exists k, most_recent p pre k).
  { split; intros [k H]; exists k; apply (last_uses decl); exact H. }
  rewrite A. cbn [b_known no_background]. intuition congruence.
Qed.

Lemma first_no_sections : no_sections first_view.
Proof. split; [intros []|]. intros k c _ H. cbn [first_view v_secs] in H. rewrite assoc_cons in H. destruct (eqs "root" k) in H; [injection H as <-; intros []|discriminate H]. Qed.

Lemma load_source_fw : forall e f ref dir rows reg dt ds sup,
  load_source e (S f) (mk_source ref dir rows) (new_doc reg dt ds sup)
  = bind (rows_loop e true (generate_terms e true f) (mk_source ref dir rows) None 1 rows 0) (fun _ => finish_load) (started (new_doc reg dt ds sup)).
Proof.
  intros. unfold load_source. unfold start_parser, modify. unfold bind at 1. fold (started (new_doc reg dt ds sup)). fw.
  eapply bind_fw with (s1 := started (new_doc reg dt ds sup)) (a := tt); [vm_compute; reflexivity|].
  cbn [generate_terms]. reflexivity.
Qed.

Lemma plain_start : forall g, plain_classes g -> plain_cls (started (new_doc (in_reg g) (in_terms g) (in_secs g) (in_super g))).
Proof.
  intros g H n Hn. apply H. rewrite <- Hn. unfold parser_term_class, super_terms. cbn [started new_doc s_doc set_s_doc set_s_prs init_st d_super set_d_super s_reg].
  destruct (in_super g); [|reflexivity]. reflexivity.
Qed.

Lemma loads_total : forall g rows ls, proper g -> plain_classes g -> in_fuel g <> 0 -> means rows ls -> Forall sound ls ->
  (forall pre l post, ls = (pre ++ l :: post)%list -> placed pre l) -> exists s, loads g rows s.
Proof.
  intros g rows ls [GR ND] PC Fu [R U] So Pl. unfold loads, load_into. destruct (in_fuel g) as [|f]; [congruence|].
  rewrite load_source_fw.
  destruct (rows_loop_total (declared_columns (in_secs g)) (in_env g) (generate_terms (in_env g) true f) (mk_source (in_ref g) (in_dir g) rows) None rows ls [] 0 first_view
             (started (new_doc (in_reg g) (in_terms g) (in_secs g) (in_super g)))) as (k' & s' & Vx & Px & Ex); auto.
  - intros n _. apply ND.
  - discriminate.
  - apply first_vinv; assumption.
  - apply plain_start. exact PC.
  - exact first_no_sections.
  - apply greets_each.
  - intros a l b E. apply placed_settles. eapply Pl. exact E.
  - rewrite app_nil_r in Ex. destruct (finish_load_ok s') as (s2 & F & _). exists s2. eapply bind_fw; [exact Ex|exact F].
Qed.

Lemma loads_missing : forall g rows ls row p r x cells post, proper g -> plain_classes g -> in_fuel g <> 0 ->
  means rows ls -> Forall sound ls ->
  (forall pre l post, ls = (pre ++ l :: post)%list -> placed pre l) ->
  reads row (LTerm p r x cells) -> usual (LTerm p r x cells) -> sound (LTerm p r x cells) -> ~ placed ls (LTerm p r x cells) ->
  exists s, load_into g (rows ++ row :: post) = (s, Err EParser).
Proof.
  intros g rows ls row p r x cells post [GR ND] PC Fu [R U] So Pl Rr Ur Sr Np. unfold load_into. destruct (in_fuel g) as [|f]; [congruence|].
  rewrite load_source_fw. set (decl := declared_columns (in_secs g)) in *.
  destruct (rows_loop_total decl (in_env g) (generate_terms (in_env g) true f) (mk_source (in_ref g) (in_dir g) (rows ++ row :: post)) None rows ls (row :: post) 0 first_view
             (started (new_doc (in_reg g) (in_terms g) (in_secs g) (in_super g)))) as (k' & s' & V & Px & Ex); auto.
  - intros n _. apply ND.
  - discriminate.
  - apply first_vinv; assumption.
  - apply plain_start. exact PC.
  - exact first_no_sections.
  - apply greets_each.
  - intros a l b E. apply placed_settles. eapply Pl. exact E.
  - destruct (row_missing decl (in_env g) (generate_terms (in_env g) true f) (mk_source (in_ref g) (in_dir g) (rows ++ row :: post)) row post p r x cells k' _ s' V Px) as (s2 & E2); auto.
    + apply no_sections_lines; auto; [intros n _; apply ND|apply greets_each|exact first_no_sections].
    + intros N. apply Np. apply (placed_settles decl). exact N.
    + rewrite fold_line, <- (Forall2_len _ _ _ R) in E2. exists s2. cbn [v_line first_view] in Ex, E2. unfold bind. rewrite Ex, E2. reflexivity.
Qed.
