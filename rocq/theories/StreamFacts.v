(** * StreamFacts: what iterating a parser again prints *)

From Verif Require Import ListFacts StrFacts SpecNames NameFacts HeapFacts ConstructFacts Parser RunFacts EmitFacts TreeFacts DigitFacts RowFacts ParseFacts DocFacts TotalFacts OriginFacts SpecDoc TermStream SpecStream.

(** ** What consuming a term does, without loading it *)

Lemma consume_section : forall t s, t < hlen s -> synonyms (p_dterms (s_prs s)) = [] ->
  plain_section (tget t s) -> t_rt (tget t s) = "section" ->
  consume t s = (pmod (fun p => set_p_dtvn "@value" (set_p_lastsec t (set_p_lastparent (t_rt (tget (d_root (s_doc s)) s))
                          (set_p_pmap (munge_param_map (t_args (tget t s))) p)))) s, Ok true).
Proof.
  intros t s Ht Syn P Rt. set (r := tget t s) in *. set (o := Some (p_lastsec (s_prs s))).
  assert (LC : lc_name r) by (apply (plain_section_lc _ "section"); auto).
  assert (LC2 : lc_name (set_t_section o r)) by exact LC.
  assert (NM : forall n, named_root (set_t_section o r) n = eqs n "section").
  { intros m. unfold named_root. cbn [t_pt t_rt set_t_section]. rewrite (ps_pt _ P), Rt. reflexivity. }
  set (s2 := hmod t (set_t_section o) s).
  assert (T2 : tget t s2 = set_t_section o r) by (unfold s2; rewrite tget_hmod by exact Ht; rewrite Nat.eqb_refl; reflexivity).
  set (fp := fun p => _).
  assert (Rr : t_rt (hget (d_root (s_doc s)) (s_heap s2)) = t_rt (tget (d_root (s_doc s)) s)).
  { change (hget (d_root (s_doc s)) (s_heap s2)) with (tget (d_root (s_doc s)) s2). unfold s2.
    rewrite tget_hmod by exact Ht. destruct (Nat.eqb_spec (d_root (s_doc s)) t) as [->|]; reflexivity. }
  unfold consume. eapply bind_fw; [apply rename_id; [auto|fold r; rewrite Rt; reflexivity]|]. fw.
  eapply bind_fw; [apply set_section_sec_run; fold r; rewrite set_sec_id by apply P; exact P|].
  fold o. fold s2. fw. rewrite T2.
  rewrite is_header_eq by exact LC2. fw. rewrite NM. cbn [eqs String.eqb Ascii.eqb Bool.eqb].
  rewrite is_section_eq by exact LC2. fw. rewrite is_root_eq by exact LC2. fw. rewrite !NM. cbn [eqs String.eqb Ascii.eqb Bool.eqb].
  eapply bind_fw.
  { fw. fw. fw. change (s_doc s2) with (s_doc s). rewrite Rr. fold fp. apply set_section_sec_run.
    rewrite tget_pmod, T2. change (set_t_section None (set_t_section o r)) with (set_t_section None r).
    rewrite set_sec_id by apply P. exact P. }
  assert (E3 : forall g, hmod t (set_t_section None) (pmod g s2) = pmod g s).
  { intros g. change (hmod t (set_t_section None) (pmod g s2)) with (pmod g (hmod t (set_t_section None) s2)).
    unfold s2. rewrite set_sec_twice by (auto; apply P). reflexivity. }
  rewrite E3. fw. rewrite tget_pmod. fold r. rewrite not_declare by apply P. reflexivity.
Qed.

Lemma consume_root : forall t s, t < hlen s -> synonyms (p_dterms (s_prs s)) = [] ->
  plain_section (tget t s) -> t_rt (tget t s) = "root" -> consume t s = (pmod (set_p_lastsec t) s, Ok true).
Proof.
  intros t s Ht Syn P Rt. set (r := tget t s) in *. set (o := Some (p_lastsec (s_prs s))).
  assert (LC : lc_name r) by (apply (plain_section_lc _ "root"); auto).
  assert (LC2 : lc_name (set_t_section o r)) by exact LC.
  assert (NM : forall n, named_root (set_t_section o r) n = eqs n "root").
  { intros m. unfold named_root. cbn [t_pt t_rt set_t_section]. rewrite (ps_pt _ P), Rt. reflexivity. }
  set (s2 := hmod t (set_t_section o) s).
  assert (T2 : tget t s2 = set_t_section o r) by (unfold s2; rewrite tget_hmod by exact Ht; rewrite Nat.eqb_refl; reflexivity).
  set (fp := set_p_lastsec t).
  unfold consume. eapply bind_fw; [apply rename_id; [auto|fold r; rewrite Rt; reflexivity]|]. fw.
  eapply bind_fw; [apply set_section_sec_run; fold r; rewrite set_sec_id by apply P; exact P|].
  fold o. fold s2. fw. rewrite T2.
  rewrite is_header_eq by exact LC2. fw. rewrite NM. cbn [eqs String.eqb Ascii.eqb Bool.eqb].
  rewrite is_section_eq by exact LC2. fw. rewrite is_root_eq by exact LC2. fw. rewrite !NM. cbn [eqs String.eqb Ascii.eqb Bool.eqb].
  eapply bind_fw.
  { fw. fold fp. apply set_section_sec_run.
    rewrite tget_pmod, T2. change (set_t_section None (set_t_section o r)) with (set_t_section None r).
    rewrite set_sec_id by apply P. exact P. }
  assert (E3 : hmod t (set_t_section None) (pmod fp s2) = pmod fp s).
  { change (hmod t (set_t_section None) (pmod fp s2)) with (pmod fp (hmod t (set_t_section None) s2)).
    unfold s2. rewrite set_sec_twice by (auto; apply P). reflexivity. }
  rewrite E3. fw. rewrite tget_pmod. fold r. rewrite not_declare by apply P. reflexivity.
Qed.

Lemma consume_header : forall t s v, t < hlen s -> synonyms (p_dterms (s_prs s)) = [] ->
  is_section_cls (t_cls (tget t s)) = false -> t_section (tget t s) = None -> t_tvn (tget t s) = "@value" ->
  t_pt (tget t s) = "root" -> t_rt (tget t s) = "header" -> t_val (tget t s) = VStr v ->
  consume t s = (hmod (p_lastsec (s_prs s)) (fun r => set_t_dtvn (lower v) (set_t_hargs (t_args (tget t s)) r))
             (pmod (fun p => set_p_dtvn (lower v) (set_p_pmap (munge_param_map (t_args (tget t s))) p))
               (hmod t (set_t_section (Some (p_lastsec (s_prs s)))) s)), Ok false).
Proof.
  intros t s v Ht Syn Cl Se Tv Pt Rt V. set (r := tget t s) in *. set (o := Some (p_lastsec (s_prs s))).
  set (s2 := hmod t (set_t_section o) s).
  assert (T2 : tget t s2 = set_t_section o r) by (unfold s2; rewrite tget_hmod by exact Ht; rewrite Nat.eqb_refl; reflexivity).
  assert (LC : lc_name (set_t_section o r)).
  { unfold lc_name. cbn [t_pt t_rt set_t_section]. rewrite Pt, Rt. split; [apply dot_free_iff; reflexivity|split; reflexivity]. }
  unfold consume. eapply bind_fw; [apply rename_id; [auto|fold r; rewrite Rt; reflexivity]|]. fw.
  eapply bind_fw.
  { unfold set_section. fw. fold r. rewrite Cl. unfold set_section_plain. fw. fw. fold r.
    rewrite Tv. change (eqs (lower "@value") "section") with false. cbn iota.
    unfold property_names. rewrite Cl, Se. cbn [map mem_str existsb]. apply modT_run. }
  fold o. fold s2. fw. rewrite T2. rewrite is_header_eq by exact LC. fw. unfold named_root. cbn [t_pt t_rt set_t_section]. rewrite Pt, Rt.
  cbn [eqs String.eqb Ascii.eqb Bool.eqb andb]. fw. change (t_val (set_t_section o r)) with (t_val r). rewrite V. cbn [as_str]. fw. fw. fw. reflexivity.
Qed.

(** loading a new term that was consumed only says that it belongs to the document *)
Lemma consume_plain : forall t s s', ready t s ->
  (final_pt s (tget t s) = "root" -> ~ In (renamed (p_pmap (s_prs s)) (t_rt (tget t s))) ["header"; "section"; "root"]) ->
  emit true t s = (s', Ok tt) ->
  exists s0, consume t s = (s0, Ok true) /\ s' = hmod t (set_t_doc true) s0 /\ hlen s0 = hlen s.
Proof.
  intros t s s' R Hnm H. destruct R as [rd_t0 rd_syn0 rd_sec0 rd_secn0 rd_secdoc0 rd_sect0 rd_dt0 rd_tmap0 rd_lp0 rd_cls0 rd_tsec0 rd_tvn0 rd_ch0 rd_ft0 rd_pt0 rd_rt0]. set (r0 := tget t s) in *. set (r1 := renamed (p_pmap (s_prs s)) (t_rt r0)) in *.
  set (sec := p_lastsec (s_prs s)) in *.
  assert (Hf0 : t_pt r0 = "root" -> ~ In r1 ["header"; "section"; "root"]).
  { intros E. apply Hnm. unfold final_pt. rewrite E. reflexivity. }
  assert (NR : forall pt n r, (pt = "root" -> ~ In r1 ["header"; "section"; "root"]) -> In n ["header"; "section"; "root"] ->
    t_pt r = pt -> t_rt r = r1 -> named_root r n = false).
  { intros pt n r A B C D. unfold named_root. rewrite C, D. eqs_cases "root" pt; [|reflexivity]. cbn [andb].
    apply eqs_false. intros ->. symmetry in E. apply A in E. auto. }
  unfold emit in H. rb H as s5 b Hc. assert (Hcc := Hc). unfold consume in Hc. rb Hc as s1 u Hr.
  rewrite rename_run in Hr by assumption. injection Hr as <- <-. rg Hc. rb Hc as s2 u2 Hs.
  set (f1 := fun r => set_t_rt (renamed (p_pmap (s_prs s)) (t_rt r)) r) in *.
  assert (L1 : hlen (hmod t f1 s) = hlen s) by apply hlen_hmod.
  assert (T1 : tget t (hmod t f1 s) = f1 r0) by (rewrite tget_hmod by assumption; rewrite Nat.eqb_refl; reflexivity).
  unfold set_section in Hs. rg Hs. rewrite T1 in Hs. change (t_cls (f1 r0)) with (t_cls r0) in Hs. rewrite rd_cls0 in Hs.
  unfold set_section_plain in Hs. rg Hs. rg Hs. rewrite T1 in Hs. change (t_tvn (f1 r0)) with (t_tvn r0) in Hs. rewrite rd_tvn0 in Hs.
  change (eqs (lower "@value") "section") with false in Hs. cbn iota in Hs.
  unfold property_names in Hs. change (t_cls (f1 r0)) with (t_cls r0) in Hs. change (t_section (f1 r0)) with (t_section r0) in Hs.
  rewrite rd_cls0, rd_tsec0 in Hs. cbn [map mem_str existsb] in Hs. rewrite modT_run in Hs. injection Hs as <- <-.
  rewrite ?prs_hmod in Hc. fold sec in Hc.
  rewrite hmod_hmod in Hc by assumption.
  set (f2 := fun r => set_t_section (Some sec) (f1 r)) in *. clear T1 L1.
  set (s2 := hmod t f2 s) in *.
  assert (L2 : hlen s2 = hlen s) by apply hlen_hmod.
  assert (T2 : tget t s2 = f2 r0) by (unfold s2; rewrite tget_hmod by assumption; rewrite Nat.eqb_refl; reflexivity).
  rg Hc. rewrite T2 in Hc.
  assert (LC : lc_name (f2 r0)).
  { split; [apply rd_pt0|split; [apply rd_pt0|exact rd_rt0]]. }
  rewrite is_header_eq in Hc by exact LC. rg Hc.
  rewrite (NR (t_pt r0)) in Hc by (auto; left; reflexivity). cbn iota in Hc.
  rewrite is_section_eq in Hc by exact LC. rg Hc. rewrite is_root_eq in Hc by exact LC. rg Hc.
  rewrite !(NR (t_pt r0)) in Hc by (auto; cbn; auto). cbn iota in Hc.
  rb Hc as s4 u4 Hn. rg Hc.
  unfold consume_normal in Hn. rb Hn as s3 u3 Hm. rewrite set_meta_run in Hm. injection Hm as <- <-.
  change (s_prs s2) with (s_prs s) in Hn. unfold s2 in Hn. rewrite hmod_hmod in Hn by assumption. fold s2 in Hn.
  set (f3 := fun r => metaF (p_dterms (s_prs s)) (p_dtvn (s_prs s)) (f2 r)) in *.
  set (s3 := hmod t f3 s) in *.
  assert (L3 : hlen s3 = hlen s) by apply hlen_hmod.
  assert (T3 : tget t s3 = f3 r0) by (unfold s3; rewrite tget_hmod by assumption; rewrite Nat.eqb_refl; reflexivity).
  rb Hn as s6 u6 Ha. destruct u6. apply attach_ok in Ha.
  2:{ rewrite L3. exact rd_t0. }
  2:{ intros k i Hk. rewrite L3. apply (rd_tmap0 k i Hk). }
  rewrite T3, L3 in Ha. destruct Ha as (q & Hq & Hl & Hs6).
  assert (Reg : registers (f3 r0) = registers r0) by reflexivity.
  assert (Rt3 : t_rt (f3 r0) = r1) by reflexivity. assert (Pt3 : t_pt (f3 r0) = t_pt r0) by reflexivity.
  assert (Fp : final_pt s3 (f3 r0) = final_pt s r0) by reflexivity.
  rewrite Reg, Rt3, Pt3 in Hl. rewrite Reg, Rt3, Fp in Hs6. change (p_tmap (s_prs s3)) with (p_tmap (s_prs s)) in Hl.
  change (p_lastparent (s_prs s3)) with (p_lastparent (s_prs s)) in Hl.
  set (pt' := final_pt s r0) in *.
  assert (Hpt' : dot_free pt' /\ lower pt' = pt').
  { unfold pt', final_pt. destruct (eqs _ _); [exact rd_lp0|exact rd_pt0]. }
  set (s3' := if registers r0 then pmod (reg_prs t r1) s3 else s3) in *.
  assert (S3 : hlen s3' = hlen s /\ s_doc s3' = s_doc s /\ s_reg s3' = s_reg s /\ (forall i, tget i s3' = tget i s3)
     /\ s_prs s3' = if registers r0 then reg_prs t r1 (s_prs s) else s_prs s).
  { unfold s3'. destruct (registers r0); repeat split; assumption. }
  destruct S3 as (L3' & D3' & G3' & T3' & P3').
  set (f4 := fun r => set_t_parent (Some q) (set_t_pt pt' r)) in *.
  assert (L6 : hlen s6 = hlen s) by (subst s6; rewrite !hlen_hmod; exact L3').
  assert (D6 : s_doc s6 = s_doc s) by (subst s6; rewrite !doc_hmod; exact D3').
  assert (P6 : s_prs s6 = s_prs s3') by (subst s6; rewrite !prs_hmod; reflexivity).
  assert (T6 : forall i, tget i s6 = (let r := if i =? t then f3 r0 else tget i s in
                                      let r := if i =? q then add_kid t r else r in if i =? t then f4 r else r)).
  { intros i. subst s6. rewrite tget_hmod by (rewrite hlen_hmod; lia). rewrite !tget_hmod by lia. rewrite !T3'.
    unfold s3. rewrite !tget_hmod by assumption. fold r0. cbv zeta.
    destruct (Nat.eqb_spec i t) as [->|N].
    - rewrite Nat.eqb_refl. destruct (Nat.eqb_spec t q) as [<-|N2]; [rewrite Nat.eqb_refl|]; reflexivity.
    - destruct (Nat.eqb_spec i q) as [->|N2]; [|reflexivity].
      replace (q =? t) with false by (symmetry; apply Nat.eqb_neq; exact N). reflexivity. }
  assert (Ls : p_lastsec (s_prs s6) = sec).
  { rewrite P6, P3'. destruct (registers r0); reflexivity. }
  rg Hn. rg Hn. rewrite Ls in Hn.
  assert (T6t : pt_lc (tget t s6) = pt').
  { rewrite T6. cbv zeta. rewrite Nat.eqb_refl. unfold pt_lc. destruct (t =? q); cbn; apply Hpt'. }
  rewrite T6t in Hn.
  assert (Nst : sec =? t = false) by (apply Nat.eqb_neq; exact rd_secn0).
  assert (Qnt : pt' = "root" -> q <> t).
  { intros E ->. destruct (registers r0) eqn:Rg.
    - unfold registers in Rg. apply andb_prop in Rg. destruct Rg as [Rg _]. apply negb_true_iff in Rg.
      assert (E2 : t_pt r0 = "root") by (rewrite <- E; unfold pt', final_pt; rewrite Rg; reflexivity).
      rewrite E2 in Hl. rewrite !dget_dset in Hl. eqs_cases "root" r1.
      + apply (Hnm E). rewrite <- E0. right; right; left. reflexivity.
      + change (eqs "root" ELIDED_TERM) with false in Hl. apply rd_tmap0 in Hl. tauto.
    - apply rd_tmap0 in Hl. tauto. }
  assert (LC6 : forall r, t_pt r = pt' -> t_rt r = r1 -> lc_name r).
  { intros r A B. unfold lc_name. rewrite A, B. split; [apply Hpt'|split; [apply Hpt'|exact rd_rt0]]. }
  destruct (eqs pt' "root") eqn:Top; cbn [when] in Hn.
  - apply eqs_true in Top.
    assert (Nqt : t =? q = false) by (apply Nat.eqb_neq; intros Z; symmetry in Z; revert Z; apply Qnt; exact Top).
    assert (Tt : tget t s6 = f4 (f3 r0)) by (rewrite T6; cbv zeta; rewrite Nat.eqb_refl, Nqt; reflexivity).
    rewrite section_add_run in Hn.
    2-10: try (rewrite L6; assumption); try assumption.
    2:{ rewrite T6. cbv zeta. rewrite Nst. destruct (sec =? q); exact rd_secdoc0. }
    2:{ rewrite T6. cbv zeta. rewrite Nst. destruct (sec =? q); exact rd_sect0. }
    2:{ rewrite D6. exact rd_dt0. }
    2:{ rewrite Tt. reflexivity. }
    2:{ rewrite T6t. exact Top. }
    2:{ rewrite Tt. exact rd_cls0. }
    2:{ rewrite Tt. exact rd_ch0. }
    set (f5 := fun r => docmetaF (d_decl_terms (s_doc s6)) (t_dtvn (tget sec s6)) (set_t_doc true r)) in *.
    set (s7 := hmod t f5 _) in *. injection Hn as <-.
    assert (T7 : tget t s7 = f5 (f4 (f3 r0))).
    { unfold s7. rewrite tget_hmod by (rewrite hlen_dmod, hlen_hmod; lia). rewrite Nat.eqb_refl, tget_dmod.
      rewrite tget_hmod by lia. rewrite Nat.eqb_sym, Nst, Tt. reflexivity. }
    assert (X : t_pt (tget t s7) = pt' /\ t_rt (tget t s7) = r1 /\ t_ftype (tget t s7) = t_ftype r0).
    { rewrite T7. unfold f5. destruct (docmeta_fields (d_decl_terms (s_doc s6)) (t_dtvn (tget sec s6)) (set_t_doc true (f4 (f3 r0)))) as (-> & -> & ->).
      repeat split. }
    destruct X as (X1 & X2 & X3). assert (L7 : hlen s7 = hlen s) by (unfold s7; rewrite hlen_hmod, hlen_dmod, hlen_hmod; exact L6).
    rewrite X3 in Hc. rewrite not_declare in Hc by exact rd_ft0. apply ret_ok in Hc. destruct Hc as [-> ->].
    exists s7. split; [exact Hcc|]. split; [|exact L7].
    cbn [andb when] in H. apply load1_plain in H; [exact H|..].
    + lia.
    + apply LC6; assumption.
    + apply (NR pt'); auto; cbn; auto.
    + apply (NR pt'); auto; cbn; auto.
    + intros _. unfold s7. rewrite doc_hmod, doc_dmod. cbn. apply in_or_app. right. left. reflexivity.
  - apply ret_ok in Hn. destruct Hn as [-> _].
    assert (Tt : tget t s6 = f4 (let r := f3 r0 in if t =? q then add_kid t r else r)).
    { rewrite T6. cbv zeta. rewrite Nat.eqb_refl. reflexivity. }
    assert (Ft : t_ftype (tget t s6) = t_ftype r0) by (rewrite Tt; cbv zeta; destruct (t =? q); reflexivity).
    rewrite Ft in Hc. rewrite not_declare in Hc by exact rd_ft0. apply ret_ok in Hc. destruct Hc as [-> ->].
    exists s6. split; [exact Hcc|]. split; [|exact L6].
    assert (Npt : t_pt (tget t s6) = pt') by (rewrite Tt; reflexivity).
    assert (Nrt : t_rt (tget t s6) = r1) by (rewrite Tt; cbv zeta; destruct (t =? q); reflexivity).
    cbn [andb when] in H. apply load1_plain in H; [exact H|..].
    + lia.
    + apply LC6; assumption.
    + apply (NR pt'); auto; cbn; auto.
    + apply (NR pt'); auto; cbn; auto.
    + intros Z. rewrite Npt in Z. apply eqs_false in Top. contradiction.
Qed.

(** ** A new term *)

(** nothing that was there has been lost *)
Record keeps (s s' : st) : Prop := {
  kp_len : hlen s <= hlen s';
  kp_secs : d_sections (s_doc s') = d_sections (s_doc s);
  kp_root : d_root (s_doc s') = d_root (s_doc s);
  kp_term : forall i, i < hlen s ->
    (t_cls (tget i s'), t_val (tget i s'), t_args (tget i s'), t_row (tget i s'), t_col (tget i s'), t_rt (tget i s'))
    = (t_cls (tget i s), t_val (tget i s), t_args (tget i s), t_row (tget i s), t_col (tget i s), t_rt (tget i s));
  kp_cls : same_cls s s'
}.
Lemma keeps_refl : forall s, keeps s s.
Proof. intros s. split; try reflexivity; intros n; reflexivity. Qed.
Lemma keeps_trans : forall a b c, keeps a b -> keeps b c -> keeps a c.
Proof.
  intros a b c [A1 A2 A3 A4 A5] [B1 B2 B3 B4 B5]. split; [lia|congruence|congruence| |eapply same_cls_trans; eassumption].
  intros i Hi. rewrite (B4 i) by lia. apply A4. exact Hi.
Qed.

Lemma new_term_keeps : forall s r q s', RowFacts.new_term s r q s' -> keeps s s'.
Proof.
  intros s r q s' N. split.
  - rewrite (nt_len _ _ _ _ N). lia.
  - rewrite (nt_doc _ _ _ _ N). destruct (eqs _ _); reflexivity.
  - rewrite (nt_doc _ _ _ _ N). destruct (eqs _ _); reflexivity.
  - intros i Hi. rewrite (nt_old _ _ _ _ _ N) by exact Hi. pose proof (with_new_same s r q i (tget i s)) as W.
    rewrite (sm_cls _ _ W), (sm_val _ _ W), (sm_args _ _ W), (sm_row _ _ W), (sm_col _ _ W), (sm_rt _ _ W). reflexivity.
  - eapply new_term_cls. exact N.
Qed.

Lemma set_doc_keeps : forall t b s, t < hlen s -> keeps s (hmod t (set_t_doc b) s).
Proof.
  intros t b s Ht. split; [rewrite hlen_hmod; lia|reflexivity|reflexivity| |apply same_cls_by; reflexivity].
  intros i Hi. rewrite tget_hmod by exact Ht. destruct (Nat.eqb_spec i t) as [->|]; reflexivity.
Qed.

Lemma set_doc_inv : forall t b s, pinv s -> t < hlen s -> is_section_cls (t_cls (tget t s)) = false -> pinv (hmod t (set_t_doc b) s).
Proof. intros t b s P H C. apply hmod_inv; [exact P|exact H|intros r; repeat split|congruence]. Qed.

(** a new term goes through *)
Lemma consume_new : forall s r, pinv s -> fresh_ok s r -> t_col r <> None ->
  ~ is_datafile_section (final_pt s r) (renamed (p_pmap (s_prs s)) (t_rt r)) ->
  (registers r = true -> dget (t_pt r) (dset (renamed (p_pmap (s_prs s)) (t_rt r)) (hlen s) (dset ELIDED_TERM (hlen s) (p_tmap (s_prs s)))) <> None) ->
  exists s0, consume (hlen s) (push r s) = (s0, Ok true) /\ pinv s0 /\ keeps s s0 /\ hlen s0 = S (hlen s)
    /\ s_prs s0 = (if registers r then reg_prs (hlen s) (renamed (p_pmap (s_prs s)) (t_rt r)) (s_prs s) else s_prs s)
    /\ (let x := tget (hlen s) s0 in t_cls x = t_cls r /\ t_pt x = final_pt s r /\ t_rt x = renamed (p_pmap (s_prs s)) (t_rt r)
        /\ t_val x = t_val r /\ t_args x = t_args r /\ t_row x = t_row r /\ t_col x = t_col r /\ t_section x = Some (p_lastsec (s_prs s))).
Proof.
  intros s r P F Hc Hd Hr. destruct (emit true (hlen s) (push r s)) as [s1 [u|e]] eqn:E.
  2:{ exfalso. apply emit_new_err in E; auto. destruct E as (_ & A & B). exact (Hr A B). }
  destruct u. pose proof E as E'. apply emit_new in E'; [|exact P|exact F]. destruct E' as (q & N).
  assert (T : tget (hlen s) (push r s) = r) by apply push_new.
  assert (L : tget (p_lastsec (s_prs s)) (push r s) = tget (p_lastsec (s_prs s)) s) by (apply push_old, (pi_last _ P)).
  pose proof (pi_last _ P) as PL.
  assert (R : ready (hlen s) (push r s)).
  { split; rewrite ?T, ?hlen_push, ?prs_push, ?doc_push, ?L; try apply F; try apply (pi_syn _ P); try apply (pi_lp _ P); try lia.
    - apply (pi_lastdoc _ P).
    - intros I. apply (pi_terms _ P) in I; lia.
    - intros I. apply (pi_dterms _ P) in I. lia.
    - intros k i I. apply (pi_tmap _ P) in I. lia.
    - apply renamed_lower; [apply P|apply F]. }
  destruct (consume_plain _ _ s1 R) as (s0 & C & Es & Ln); [rewrite T; apply F|exact E|]. rewrite hlen_push in Ln.
  set (b := t_doc (tget (hlen s) s0)).
  assert (E0 : s0 = hmod (hlen s) (set_t_doc b) s1).
  { rewrite Es. rewrite hmod_hmod by lia. symmetry. apply hmod_id. unfold b. destruct (tget (hlen s) s0). reflexivity. }
  pose proof (settled_fields s q r) as (F1 & _ & _ & F4 & F5 & F6 & F7 & F8 & _ & _ & F11 & F12 & _).
  pose proof (with_new_same s r q (hlen s) (settled s q r)) as W. pose proof (nt_new _ _ _ _ N) as Tn.
  assert (Cl : is_section_cls (t_cls (tget (hlen s) s1)) = false).
  { rewrite Tn, (sm_cls _ _ W), F1. apply F. }
  pose proof (nt_len _ _ _ _ N) as Nl.
  exists s0. split; [exact C|]. split; [rewrite E0; apply set_doc_inv; [eapply new_term_inv; eassumption|lia|exact Cl]|].
  split; [rewrite E0; eapply keeps_trans; [eapply new_term_keeps; exact N|apply set_doc_keeps; lia]|]. split; [exact Ln|].
  split; [rewrite E0, prs_hmod; apply N|]. cbv zeta.
  assert (G : tget (hlen s) s0 = set_t_doc b (tget (hlen s) s1)) by (rewrite E0, tget_hmod by lia; rewrite Nat.eqb_refl; reflexivity).
  rewrite G. cbn [t_cls t_pt t_rt t_val t_args t_row t_col t_section set_t_doc]. rewrite Tn.
  rewrite (sm_cls _ _ W), (sm_pt _ _ W), (sm_rt _ _ W), (sm_val _ _ W), (sm_args _ _ W), (sm_row _ _ W), (sm_col _ _ W), (sm_section _ _ W).
  rewrite F1, F4, F5, F6, F7, F8, F11, F12. repeat split.
Qed.
