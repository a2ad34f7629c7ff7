(** * DeclaredRowFacts: the declarations after the rows of a declaration file *)

From Verif Require Import ListFacts StrFacts SpecNames NameFacts HeapFacts ConstructFacts DictFacts Parser RunFacts EmitFacts DigitFacts RowFacts FrameFacts GrowFacts ParseFacts SpecDoc SpecInclude SpecHead SpecKept InheritFacts DeclFacts DeclareFacts SpecCalm CalmFacts CalmRowFacts IncFacts SynFacts ParseProps SpecOutline SpecDeclared DeclaredFacts.

Definition desk3 (r : trec) := (t_args r, t_hargs r, t_dtvn r).
Definition at_desk (k : desk) (s : st) : Prop :=
  desk3 (tget (p_lastsec (s_prs s)) s) = (k_columns k, k_header k, k_own k) /\ p_dtvn (s_prs s) = k_value k /\ p_lastparent (s_prs s) = k_parent k.

(** the section and the columns of the parser and the columns of all sections stay *)
Definition still (s s' : st) : Prop := (p_lastsec (s_prs s') = p_lastsec (s_prs s) /\ p_pmap (s_prs s') = p_pmap (s_prs s)) /\ forall i, i < hlen s -> desk3 (tget i s') = desk3 (tget i s).
Lemma still_refl : forall s, still s s.
Proof. intros s. split; [split|]; reflexivity. Qed.
Lemma still_trans : forall a b c, hlen a <= hlen b -> still a b -> still b c -> still a c.
Proof. intros a b c L [[A1 A3] A2] [[B1 B3] B2]. split; [split; congruence|]. intros i Hi. rewrite B2 by lia. apply A2. exact Hi. Qed.

Lemma desk_cols : forall k s, at_desk k s -> sec_property_names (tget (p_lastsec (s_prs s)) s) = desk_columns k.
Proof.
  intros k s [H _]. unfold desk3 in H. injection H as H1 H2 H3. unfold sec_property_names, desk_columns. rewrite H1, H2. destruct (k_header k); reflexivity.
Qed.

Lemma told_prop_of : forall dt ds n k, told_prop (decls_of dt ds) n k = decl_prop dt n k.
Proof. intros. unfold told_prop, decls_of, decl_prop. cbn [dc_terms]. rewrite dget_vals. destruct (dget n dt); reflexivity. Qed.

Lemma docmeta_tvn : forall dt d r, t_tvn (docmetaF dt d r)
  = if eqs (t_tvn r) "" || eqs (t_tvn r) d then given (decl_prop dt (tjoin r) "termvaluename") d else t_tvn r.
Proof. intros. unfold docmetaF. destruct (_ || _), (_ || _); reflexivity. Qed.
Lemma placed_tvn : forall q p r, t_tvn (set_t_doc true (set_t_parent q (set_t_pt p r))) = t_tvn r
  /\ tjoin (set_t_doc true (set_t_parent q (set_t_pt p r))) = dotted p (t_rt r).
Proof. intros. split; reflexivity. Qed.

(** what a row does to the declarations *)
Definition outcome (pt n tv : string) (cols : list string) (v : val) (args : list string) (D D' : decls) : Prop :=
  if eqs pt "root" then
    if eqs n "declaresection" then
      exists x, v = VStr x /\ D' = mk_decls (dc_terms D) (dset (lower x) (mk_sdecl (clean_args args) []) (dc_secs D))
    else if eqs n "declareterm" then
      exists x, v = VStr x /\ ((forall i, dget "inheritsfrom" (row_props tv cols args x) = Some i -> lower (record_in x) <> lower (record_in i)) ->
        D' = declare_term tv cols args x D)
    else D' = D
  else D' = D.

Section Rows.
Variable odd : list string.
Variable syn : list nat.
Notation inv := (inv odd syn free).

Record told_step (load : bool) (k : desk) (s : st) (r : trec) (s' : st) : Prop := {
  ts_desk : at_desk (if registers r then mk_desk (k_columns k) (k_header k) (k_own k) (k_value k) (renamed (p_pmap (s_prs s)) (t_rt r)) else k) s';
  ts_decl : t_ftype r = Some "declare" ->
    outcome (final_pt s r) (renamed (p_pmap (s_prs s)) (t_rt r))
      (value_name (props (d_decl_terms (s_doc s))) k (Dof s) (t_pt r) (renamed (p_pmap (s_prs s)) (t_rt r)))
      (desk_columns k) (t_val r) (t_args r) (Dof s) (Dof s');
  ts_else : t_ftype r <> Some "declare" -> load = false -> Dof s' = Dof s;
  ts_still : still s s'
}.

Lemma t_emit : forall load k s r s', inv s -> fresh_calm syn r -> at_desk k s -> ~ (t_pt r = "root" /\ t_rt r = "header") ->
  emit load (hlen s) (push r s) = (s', Ok tt) -> (load = false \/ t_ftype r = Some "declare") -> told_step load k s r s'.
Proof.
  intros load k s r s' V F K NH H Hl. set (t := hlen s) in *. set (s0 := push r s) in *.
  assert (V0 : inv s0) by (apply inv_push; [exact V|apply fresh_node; exact F|apply F|apply F|intros j E; rewrite (fc_sec _ _ F) in E; discriminate E]).
  assert (L0 : hlen s0 = S t) by apply hlen_push.
  assert (T0 : tget t s0 = r) by apply push_new.
  assert (Old0 : forall i, i < t -> tget i s0 = tget i s) by (intros; apply push_old; assumption).
  set (n := renamed (p_pmap (s_prs s)) (t_rt r)).
  assert (Ln : lower n = n) by (apply renamed_lower; [intros x; apply (munge_cols odd syn s); exact V|apply F]).
  assert (Rn : py_int (t_rt r) = None -> n = t_rt r) by (intros E; unfold n, renamed; rewrite E; reflexivity).
  unfold emit in H. rb H as s5 b Hc. unfold consume in Hc. rb Hc as s1 u Hr.
  rewrite rename_run in Hr by (apply (no_synonyms odd syn); exact V0). injection Hr as <- <-. rg Hc. rb Hc as s2 u2 Hs.
  set (f1 := fun r => set_t_rt (renamed (p_pmap (s_prs s)) (t_rt r)) r) in *.
  assert (T1 : tget t (hmod t f1 s0) = f1 r) by (rewrite tget_hmod by lia; rewrite Nat.eqb_refl, T0; reflexivity).
  unfold set_section in Hs. rg Hs. rewrite T1 in Hs. change (t_cls (f1 r)) with (t_cls r) in Hs. rewrite (fc_cls _ _ F) in Hs.
  unfold set_section_plain in Hs. rg Hs. rg Hs. rewrite T1 in Hs. change (t_tvn (f1 r)) with (t_tvn r) in Hs. rewrite (fc_tvn _ _ F) in Hs.
  change (eqs (lower "@value") "section") with false in Hs. cbn iota in Hs.
  unfold property_names in Hs. change (t_cls (f1 r)) with (t_cls r) in Hs. change (t_section (f1 r)) with (t_section r) in Hs.
  rewrite (fc_cls _ _ F), (fc_sec _ _ F) in Hs. cbn [map mem_str existsb] in Hs. rewrite modT_run in Hs. injection Hs as <- <-.
  rewrite ?prs_hmod in Hc. set (sec := p_lastsec (s_prs s)) in *.
  rewrite hmod_hmod in Hc by lia.
  set (f2 := fun r => set_t_section (Some sec) (f1 r)) in *. clear T1.
  set (s2 := hmod t f2 s0) in *.
  assert (T2 : tget t s2 = f2 r) by (unfold s2; rewrite tget_hmod by lia; rewrite Nat.eqb_refl, T0; reflexivity).
  rg Hc. rewrite T2 in Hc.
  assert (LC : lc_name (f2 r)) by (split; [apply F|split; [apply F|exact Ln]]).
  rewrite is_header_eq in Hc by exact LC. rg Hc. unfold named_root in Hc at 1.
  change (t_pt (f2 r)) with (t_pt r) in Hc. change (t_rt (f2 r)) with n in Hc.
  destruct (eqs "root" (t_pt r) && eqs "header" n) eqn:Hd.
  { exfalso. apply andb_prop in Hd. destruct Hd as [Hd1 Hd2]. apply eqs_true in Hd1, Hd2. symmetry in Hd1, Hd2.
    destruct (fc_nm _ _ F (or_introl Hd1)) as (N1 & _). rewrite (Rn N1) in Hd2. apply NH. auto. }
  assert (NR : forall m x, In m ["section"; "root"] -> t_rt x = n -> (t_pt x = t_pt r \/ t_pt x = final_pt s r) -> named_root x m = false).
  { intros m x I E1 E2. unfold named_root. eqs_cases "root" (t_pt x); [|reflexivity]. cbn [andb]. rewrite E1. apply eqs_false. intros E3.
    assert (Z : t_pt r = "root" \/ t_pt r = ELIDED_TERM).
    { destruct E2 as [E2|E2]; [left; congruence|]. unfold final_pt in E2. eqs_cases (t_pt r) ELIDED_TERM; [right; assumption|left; congruence]. }
    destruct (fc_nm _ _ F Z) as (A & B & _). apply Rn in A. apply B. rewrite <- A, <- E3. exact I. }
  rewrite is_section_eq in Hc by exact LC. rg Hc. rewrite is_root_eq in Hc by exact LC. rg Hc.
  rewrite (NR "section"), (NR "root") in Hc by (auto; cbn; auto). cbn iota in Hc.
  rb Hc as s4 u4 Hn. destruct u4. rg Hc.
  unfold consume_normal in Hn. rb Hn as s3 u3 Hm. rewrite set_meta_run in Hm. injection Hm as <- <-.
  unfold s2 in Hn. rewrite ?prs_hmod, ?prs_push in Hn. rewrite hmod_hmod in Hn by lia. fold s2 in Hn.
  set (f3 := fun r => metaF (p_dterms (s_prs s)) (p_dtvn (s_prs s)) (f2 r)) in *.
  set (s3 := hmod t f3 s0) in *.
  assert (L3 : hlen s3 = hlen s0) by apply hlen_hmod.
  assert (T3 : tget t s3 = f3 r) by (unfold s3; rewrite tget_hmod by lia; rewrite Nat.eqb_refl, T0; reflexivity).
  assert (Old3 : forall i, i < t -> tget i s3 = tget i s).
  { intros i Hi. unfold s3. rewrite tget_hmod by lia. replace (i =? t) with false by (symmetry; apply Nat.eqb_neq; lia). apply Old0. exact Hi. }
  rb Hn as s6 u6 Ha. destruct u6. apply attach_ok in Ha.
  2:{ lia. }
  2:{ intros k0 i Hk. rewrite L3. apply (v_tmap _ _ _ _ V0 k0 i Hk). }
  rewrite T3, L3 in Ha. destruct Ha as (q & Hq & Hlk & Hs6).
  assert (Reg : registers (f3 r) = registers r) by reflexivity.
  assert (Fp : final_pt s3 (f3 r) = final_pt s r) by reflexivity.
  change (t_rt (f3 r)) with n in *. rewrite Reg, Fp in Hs6. rewrite Reg in Hlk.
  set (pt' := final_pt s r) in *.
  assert (Hpt' : dot_free pt' /\ lower pt' = pt').
  { unfold pt', final_pt. destruct (eqs (t_pt r) ELIDED_TERM); [|apply F]. destruct (v_lp _ _ _ _ V0) as (A & B & _). auto. }
  pose proof (v_root _ _ _ _ V) as [Lr _]. pose proof (v_last _ _ _ _ V) as [Ls Cs]. fold sec in Ls, Cs.
  assert (Qroot : pt' = "root" -> q = d_root (s_doc s) \/ registers r = false /\ t_pt r <> ELIDED_TERM).
  { intros E. unfold pt', final_pt in E. unfold registers in Hlk |- *. eqs_cases (t_pt r) ELIDED_TERM; cbn [negb andb] in *.
    - left. change (p_lastparent (s_prs s3)) with (p_lastparent (s_prs s)) in Hlk. rewrite E in Hlk. change (p_tmap (s_prs s3)) with (p_tmap (s_prs s)) in Hlk.
      rewrite (v_known _ _ _ _ V) in Hlk. congruence.
    - destruct (match t_col r with Some c => negb (1 <? c) | None => true end) eqn:Ec; [left|right; auto].
      change (t_pt (f3 r)) with (t_pt r) in Hlk. rewrite E in Hlk. rewrite !dget_dset in Hlk.
      destruct (fc_reg _ _ F) as (_ & G2 & _ & G4); [unfold registers; rewrite (proj2 (eqs_false _ _) E0); exact Ec|].
      rewrite (Rn G2) in Hlk. replace (eqs "root" (t_rt r)) with false in Hlk by (symmetry; apply eqs_false; congruence).
      change (eqs "root" ELIDED_TERM) with false in Hlk. cbv iota in Hlk. change (p_tmap (s_prs s3)) with (p_tmap (s_prs s)) in Hlk.
      rewrite (v_known _ _ _ _ V) in Hlk. congruence. }
  set (s3' := if registers r then pmod (reg_prs t n) s3 else s3) in *.
  assert (X3 : s_heap s3' = s_heap s3 /\ s_doc s3' = s_doc s3 /\ p_lastsec (s_prs s3') = sec /\ p_dtvn (s_prs s3') = p_dtvn (s_prs s) /\ p_dterms (s_prs s3') = p_dterms (s_prs s)
     /\ p_dsecs (s_prs s3') = p_dsecs (s_prs s) /\ p_pmap (s_prs s3') = p_pmap (s_prs s) /\ p_lastparent (s_prs s3') = if registers r then n else p_lastparent (s_prs s)).
  { unfold s3'. destruct (registers r); repeat split. }
  destruct X3 as (H3' & D3' & S3' & Dv3 & Dt3 & Ds3 & Pm3 & Lp3).
  assert (T3' : forall i, tget i s3' = tget i s3) by (intros; unfold tget; rewrite H3'; reflexivity).
  assert (L3' : hlen s3' = hlen s0) by (unfold hlen; rewrite H3'; exact L3).
  set (f4 := fun r => set_t_parent (Some q) (set_t_pt pt' r)) in *.
  assert (D6 : s_doc s6 = s_doc s) by (subst s6; rewrite !doc_hmod, D3'; reflexivity).
  assert (P6 : s_prs s6 = s_prs s3') by (subst s6; rewrite !prs_hmod; reflexivity).
  assert (L6 : hlen s6 = S t) by (subst s6; rewrite !hlen_hmod; lia).
  assert (Fd : forall i, desk3 (tget i s6) = desk3 (tget i s3)).
  { intros i. subst s6. rewrite !(field_hmod desk3) by reflexivity. rewrite T3'. reflexivity. }
  assert (Fs : desk3 (tget sec s3) = desk3 (tget sec s)) by (rewrite Old3 by exact Ls; reflexivity).
  assert (Nst : sec <> t) by (unfold t; lia).
  rg Hn. rg Hn. rewrite P6, S3' in Hn.
  assert (T6 : tget t s6 = (if q =? t then f4 (add_kid t (f3 r)) else f4 (f3 r))).
  { subst s6. rewrite tget_hmod by (rewrite hlen_hmod; lia). rewrite Nat.eqb_refl. rewrite tget_hmod by lia. rewrite !T3'.
    rewrite (Nat.eqb_sym t q). destruct (Nat.eqb_spec q t) as [->|]; rewrite T3; reflexivity. }
  assert (Ept : t_pt (tget t s6) = pt') by (rewrite T6; destruct (q =? t); reflexivity).
  assert (Epl : pt_lc (tget t s6) = pt') by (unfold pt_lc; rewrite Ept; apply Hpt'). rewrite Epl in Hn.
  assert (Efr : t_rt (tget t s6) = n /\ t_val (tget t s6) = t_val r /\ t_args (tget t s6) = t_args r /\ t_ftype (tget t s6) = t_ftype r) by (rewrite T6; destruct (q =? t); repeat split).
  apply when_ok in Hn.
  (* the state before manage_declare_terms *)
  assert (X4 : s_prs s4 = s_prs s3' /\ (forall i, desk3 (tget i s4) = desk3 (tget i s3)) /\ lc_name (tget t s4) /\ t_pt (tget t s4) = pt'
     /\ t_rt (tget t s4) = n /\ t_val (tget t s4) = t_val r /\ t_args (tget t s4) = t_args r /\ t_ftype (tget t s4) = t_ftype r
     /\ (pt' = "root" -> t_section (tget t s4) = Some sec /\ is_section_cls (t_cls (tget sec s4)) = true
         /\ t_tvn (tget t s4) = value_name (props (d_decl_terms (s_doc s))) k (Dof s) (t_pt r) n)).
  { destruct Efr as (E1 & E2 & E3 & E4). eqs_cases pt' "root".
    - assert (Qt : q <> t).
      { destruct (Qroot E) as [-> |[Rf _]]; [unfold t; lia|]. rewrite Rf in Hlk. change (dget (p_lastparent (s_prs s)) (p_tmap (s_prs s)) = Some q) in Hlk.
        apply (v_tmap _ _ _ _ V) in Hlk. unfold t. lia. }
      rewrite (proj2 (Nat.eqb_neq q t) Qt) in T6.
      assert (Ts : tget sec s6 = if sec =? q then add_kid t (tget sec s) else tget sec s).
      { subst s6. rewrite tget_hmod by (rewrite hlen_hmod; lia). rewrite (proj2 (Nat.eqb_neq sec t) Nst). rewrite tget_hmod by lia.
        destruct (Nat.eqb_spec sec q) as [Eq|]; [rewrite <- Eq|]; rewrite T3', Old3 by exact Ls; reflexivity. }
      assert (Np : ~ In t (d_terms (s_doc s))) by (intros I; apply (v_terms _ _ _ _ V) in I; destruct I as [I _]; unfold t in I; lia).
      rewrite section_add_run in Hn.
      2:{ lia. }
      2:{ lia. }
      2:{ exact Nst. }
      2:{ rewrite Ts. destruct (sec =? q); apply (n_doc _ _ _ _ _ (v_node _ _ _ _ V sec) Cs). }
      2:{ intros I. apply Np. apply (v_tops _ _ _ _ V sec). rewrite Ts in I. destruct (sec =? q); exact I. }
      2:{ rewrite D6. exact Np. }
      2:{ rewrite T6. reflexivity. }
      2:{ congruence. }
      2:{ rewrite T6. apply (fc_cls _ _ F). }
      2:{ rewrite T6. apply (fc_ch _ _ F). }
      set (f5 := fun r => docmetaF (d_decl_terms (s_doc s6)) (t_dtvn (tget sec s6)) (set_t_doc true r)) in *. injection Hn as <-.
      assert (T4 : tget t (hmod t f5 (dmod (fun d => set_d_terms (d_terms d ++ [t]) d) (hmod sec (add_top t) s6))) = f5 (f4 (f3 r))).
      { rewrite tget_hmod by (rewrite hlen_dmod, hlen_hmod; lia). rewrite Nat.eqb_refl, tget_dmod, tget_hmod by lia.
        replace (t =? sec) with false by (symmetry; apply Nat.eqb_neq; congruence). rewrite T6. reflexivity. }
      rewrite T4.
      assert (F5 : forall x, desk3 (f5 x) = desk3 x /\ t_pt (f5 x) = t_pt x /\ t_rt (f5 x) = t_rt x /\ t_val (f5 x) = t_val x /\ t_ftype (f5 x) = t_ftype x /\ t_section (f5 x) = t_section x /\ t_cls (f5 x) = t_cls x).
      { intros x. unfold f5, docmetaF. destruct (_ || _), (_ || _); repeat split. }
      destruct (F5 (f4 (f3 r))) as (G1 & G2 & G3 & G4 & G5 & G6 & G7).
      split; [exact P6|]. split; [|split; [|split; [|split; [|split; [|split; [|split]]]]]].
      + intros i. rewrite (field_hmod desk3) by (intros; apply F5). rewrite tget_dmod, (field_hmod desk3) by reflexivity. apply Fd.
      + unfold lc_name. rewrite G2, G3. change (t_pt (f4 (f3 r))) with pt'. change (t_rt (f4 (f3 r))) with n. exact (conj (proj1 Hpt') (conj (proj2 Hpt') Ln)).
      + rewrite G2. reflexivity.
      + rewrite G3. reflexivity.
      + rewrite G4. reflexivity.
      + unfold desk3 in G1. injection G1 as G1 _ _. rewrite G1. reflexivity.
      + rewrite G5. reflexivity.
      + intros _. split; [rewrite G6; reflexivity|]. split.
        * rewrite (field_hmod t_cls) by (intros; apply F5). rewrite tget_dmod, (field_hmod t_cls) by reflexivity. rewrite Ts. destruct (sec =? q); exact Cs.
        * destruct K as (K1 & K2 & K3). fold sec in K1. unfold desk3 in K1. injection K1 as K11 K12 K13.
          assert (Dv : t_dtvn (tget sec s6) = k_own k) by (rewrite Ts; destruct (sec =? q); exact K13).
          assert (Tv : t_tvn (f3 r) = given (told_prop (Dof s) (dotted (t_pt r) n) "termvaluename") (k_value k)).
          { unfold f3, metaF. cbn [t_tvn set_t_options set_t_valid set_t_tvn set_t_cpt]. unfold Dof. rewrite told_prop_of.
            change (tjoin (f2 r)) with (dotted (t_pt r) n). rewrite K2. reflexivity. }
          assert (Tr : t_rt (f3 r) = n) by reflexivity.
          unfold f5, f4. clear - Tv Tr Dv D6 E. rewrite docmeta_tvn, Dv, D6. destruct (placed_tvn (Some q) pt' (f3 r)) as [-> ->]. rewrite Tr, E, Tv. reflexivity.
    - subst s4. split; [exact P6|]. split; [exact Fd|]. split; [unfold lc_name; rewrite Ept, E1; exact (conj (proj1 Hpt') (conj (proj2 Hpt') Ln))|].
      repeat (split; [assumption|]). contradiction. }
  destruct X4 as (P4 & Fd4 & LC4 & Pt4 & Rt4 & Va4 & Ar4 & Ft4 & In4).
  assert (D4 : Dof s4 = Dof s) by (unfold Dof; rewrite P4, Dt3, Ds3; reflexivity).
  assert (K4 : forall x, s_heap x = s_heap s4 -> p_lastsec (s_prs x) = p_lastsec (s_prs s4) -> p_dtvn (s_prs x) = p_dtvn (s_prs s4) -> p_lastparent (s_prs x) = p_lastparent (s_prs s4) ->
    at_desk (if registers r then mk_desk (k_columns k) (k_header k) (k_own k) (k_value k) n else k) x).
  { intros x E1 E2 E3 E4. destruct K as (K1 & K2 & K3). fold sec in K1.
    assert (Q : desk3 (tget (p_lastsec (s_prs x)) x) = (k_columns k, k_header k, k_own k)).
    { rewrite E2, P4, S3'. unfold tget. rewrite E1. fold (tget sec s4). rewrite Fd4, Fs. exact K1. }
    unfold at_desk. rewrite Q, E3, E4, P4, Dv3, Lp3. destruct (registers r); auto. }
  assert (St4 : forall x, s_heap x = s_heap s4 -> p_lastsec (s_prs x) = p_lastsec (s_prs s4) -> p_pmap (s_prs x) = p_pmap (s_prs s4) -> still s x).
  { intros x E1 E2 E3. split; [split; [rewrite E2, P4, S3'; reflexivity|rewrite E3, P4; exact Pm3]|]. intros i Hi. unfold tget. rewrite E1. fold (tget i s4) (tget i s). rewrite Fd4, Old3 by exact Hi. reflexivity. }
  assert (Df : {t_ftype (tget t s4) = Some "declare"} + {t_ftype (tget t s4) <> Some "declare"}) by (decide equality; apply string_dec). destruct Df as [Ef|Ef].
  - rewrite Ef in Hc. rb Hc as s7 u7 H7. destruct u7. apply ret_ok in Hc. destruct Hc as [-> ->]. cbn [andb when] in H. apply ret_ok in H. destruct H as [-> _].
    pose proof H7 as O7. apply only_declare in O7. destruct O7 as (A1 & _ & _ & A5 & A2 & _ & A3 & A4).
    split; [apply K4; assumption| |intros N; congruence|apply St4; assumption]. intros _.
    apply (manage_told _ _ _ sec) in H7; [|exact LC4|intros Z _; rewrite Pt4 in Z; destruct (In4 Z) as (Y1 & Y2 & _); auto].
    cbv zeta in H7. rewrite Pt4, Rt4, Va4, Ar4, D4 in H7.
    unfold outcome. fold pt' n.
    assert (Cn : sec_property_names (tget sec s4) = desk_columns k).
    { rewrite <- (desk_cols k s) by exact K. fold sec. pose proof (Fd4 sec) as Z. rewrite Fs in Z. unfold desk3 in Z. injection Z as Z1 Z2 Z3. unfold sec_property_names. rewrite Z1, Z2. reflexivity. }
    rewrite Cn in H7. eqs_cases pt' "root"; [|exact H7]. destruct (In4 E) as (_ & _ & Tv). rewrite Tv in H7. exact H7.
  - rewrite not_declare in Hc by exact Ef. apply ret_ok in Hc. destruct Hc as [-> ->]. cbn [andb] in H. apply when_ok in H.
    destruct Hl as [->|Hl]; [|congruence]. subst s'. split; [apply K4; reflexivity|intros N; congruence| |apply St4; reflexivity]. intros _ _. exact D4.
Qed.

(** ** The cells after the first *)
Lemma t_cells : forall load line args t n k col s s', good_name n -> inv s -> t < hlen s -> t_rt (tget t s) = n -> at_desk k s ->
  emit_args load (Some "declare") line t col args s = (s', Ok tt) -> at_desk k s' /\ Dof s' = Dof s /\ d_sections (s_doc s') = d_sections (s_doc s) /\ still s s'.
Proof.
  intros load line args t n k. induction args as [|a args IH]; intros col s s' G V Ht Rt K H.
  - cbn in H. apply ret_ok in H. destruct H as [-> _]. auto using still_refl.
  - cbn [emit_args] in H. rb H as s1 u H1. destruct u. apply when_ok in H1. unfold nonempty in H1.
    eqs_cases (strip a) ""; cbn [negb] in H1; [subst s1; eapply IH; eassumption|].
    rg H1. rg H1. rb H1 as s2 k2 H2. unfold rt_lc in H2. rewrite Rt in H2. pose proof G as G0. destruct G as (G1 & G2 & G3 & G4 & G5). rewrite G3 in H2.
    assert (Hc : is_section_cls (parser_term_class (dotted n (str_of_nat col)) s) = false)
      by (eapply construct_sec_parent with (parent := Some t); [discriminate|exact H2]).
    apply construct_plain in H2; [|exact Hc]. destruct H2 as (p & r & Tn & As & -> & ->).
    destruct (str_of_nat_digits col) as [D _].
    assert (Nn : n <> "").
    { intros ->. unfold term_names in Tn. change (split_term_lower (dotted "" (str_of_nat col))) with (split_term_lower ("." ++ str_of_nat col)) in Tn.
      assert (CN : cell_names ("." ++ str_of_nat col) ELIDED_TERM (str_of_nat col)).
      { rewrite <- (digits_lower _ D) at 2.
        apply (cell_elided _ "" (str_of_nat col)); [reflexivity|constructor|apply digits_dot_free; exact D|].
        apply trimmed_iff, tidy_strip, digits_starts, D. }
      apply split_term_lower_spec in CN. rewrite CN in Tn. cbn in Tn. injection Tn as <- <-.
      specialize (As t eq_refl). rewrite Rt in As. discriminate. }
    assert (CN : cell_names (dotted n (str_of_nat col)) n (str_of_nat col)).
    { rewrite <- G3 at 2. rewrite <- (digits_lower _ D) at 2.
      apply (cell_qualified _ n (str_of_nat col)); auto; [apply digits_dot_free, D|apply trimmed_iff, tidy_strip, G1|].
      apply trimmed_iff, tidy_strip, digits_starts, D. }
    apply split_term_lower_spec in CN. unfold term_names in Tn. rewrite CN in Tn. cbn [rbind] in Tn. injection Tn as Tp <-.
    assert (p = n) as -> by (destruct (eqs n ROOT_TERM); [unfold tget in Rt; congruence|congruence]). clear Tp.
    match type of H1 with emit _ _ (push ?r _) = _ => set (R := r) in * end.
    assert (Rg : registers R = false).
    { unfold registers. change (t_pt R) with n. change (t_col R) with (Some (col + 2)). cbv iota. replace (1 <? col + 2) with true by (symmetry; apply Nat.ltb_lt; lia). apply andb_false_r. }
    assert (F : fresh_calm syn R).
    { split; try reflexivity; try discriminate; try exact Hc.
      - split; assumption.
      - apply digits_lower, D.
      - intros X. congruence.
      - intros [X|X]; change (n = "root") in X || change (n = ELIDED_TERM) in X; contradiction.
      - intros X. change (n = ELIDED_TERM) in X. contradiction.
      - intros X. change (n = "root") in X. contradiction. }
    pose proof H1 as E1. apply (o_emit odd syn) in E1; [|exact V|exact F]. pose proof (emitted_step _ _ _ _ _ _ H1 E1) as [A1 A2 A3].
    apply (t_emit load k) in H1; auto; [|intros [X _]; apply G4; exact X]. destruct H1 as [B1 B2 _ B4]. rewrite Rg in B1. specialize (B2 eq_refl).
    unfold outcome, final_pt in B2. change (t_pt R) with n in B2.
    rewrite (proj2 (eqs_false n ELIDED_TERM)) in B2 by exact G5. rewrite (proj2 (eqs_false n "root")) in B2 by exact G4.
    apply IH in H; auto.
    + rewrite B2, (em_secs _ _ _ _ _ E1) in H. destruct H as (H1 & H2 & H3 & H4). split; [exact H1|]. split; [exact H2|]. split; [exact H3|]. eapply still_trans; [|exact B4|exact H4]. destruct A2 as [A2 _]. apply kept_hlen in A2. lia.
    + destruct A2 as [A2 _]. apply kept_hlen in A2. lia.
    + rewrite (proj2 A2) by exact Ht. exact Rt.
Qed.

(** ** A Header row *)
Lemma t_header : forall load k s r s', inv s -> fresh_calm syn r -> at_desk k s -> t_pt r = "root" -> t_rt r = "header" ->
  emit load (hlen s) (push r s) = (s', Ok tt) ->
  exists v, t_val r = VStr v /\ at_desk (mk_desk (k_columns k) (t_args r) (lower v) (lower v) (k_parent k)) s' /\ Dof s' = Dof s
    /\ p_lastsec (s_prs s') = p_lastsec (s_prs s) /\ p_pmap (s_prs s') = munge_param_map (t_args r) /\ forall i, i < hlen s -> i <> p_lastsec (s_prs s) -> tget i s' = tget i s.
Proof.
  intros load k s r s' V F K Hp Hr H. set (t := hlen s) in *. set (s0 := push r s) in *.
  assert (V0 : inv s0) by (apply inv_push; [exact V|apply fresh_node; exact F|apply F|apply F|intros j E; rewrite (fc_sec _ _ F) in E; discriminate E]).
  assert (L0 : hlen s0 = S t) by apply hlen_push.
  assert (T0 : tget t s0 = r) by apply push_new.
  pose proof (v_last _ _ _ _ V) as [Ls Cs].
  unfold emit in H. rb H as s5 b Hc. unfold consume in Hc. rb Hc as s1 u H1.
  rewrite rename_id in H1; [|apply (no_synonyms odd syn); exact V0|rewrite T0, Hr; reflexivity]. injection H1 as <- <-. rg Hc. rb Hc as s2 u2 Hs.
  unfold set_section in Hs. rg Hs. rewrite T0 in Hs. rewrite (fc_cls _ _ F) in Hs.
  unfold set_section_plain in Hs. rg Hs. rg Hs. rewrite T0 in Hs. rewrite (fc_tvn _ _ F) in Hs.
  change (eqs (lower "@value") "section") with false in Hs. cbn iota in Hs.
  unfold property_names in Hs. rewrite (fc_cls _ _ F), (fc_sec _ _ F) in Hs. cbn [map mem_str existsb] in Hs. rewrite modT_run in Hs. injection Hs as <- <-.
  set (sec := p_lastsec (s_prs s)) in *. change (p_lastsec (s_prs s0)) with sec in Hc.
  set (s2 := hmod t (set_t_section (Some sec)) s0) in *.
  assert (T2 : tget t s2 = set_t_section (Some sec) r) by (unfold s2; rewrite tget_hmod by lia; rewrite Nat.eqb_refl, T0; reflexivity).
  rg Hc. rewrite T2 in Hc.
  assert (LC : lc_name (set_t_section (Some sec) r)) by (split; [apply F|split; [apply F|apply F]]).
  rewrite is_header_eq in Hc by exact LC. rg Hc. unfold named_root in Hc at 1.
  change (t_pt (set_t_section (Some sec) r)) with (t_pt r) in Hc. change (t_rt (set_t_section (Some sec) r)) with (t_rt r) in Hc. rewrite Hp, Hr in Hc.
  change (eqs "root" "root" && eqs "header" "header") with true in Hc. cbv iota in Hc.
  rg Hc. rb Hc as s3 v Hv. apply lift_ok in Hv. destruct Hv as [-> Hv]. change (t_val (set_t_section (Some sec) r)) with (t_val r) in Hv.
  change (t_args (set_t_section (Some sec) r)) with (t_args r) in Hc.
  assert (Hv' : t_val r = VStr v) by (destruct (t_val r); cbn in Hv; congruence). exists v. split; [exact Hv'|].
  rg Hc. rg Hc. apply ret_ok in Hc. destruct Hc as [-> ->]. cbn [andb when] in H. apply ret_ok in H. destruct H as [-> _].
  split; [|split; [reflexivity|split; [reflexivity|split; [reflexivity|]]]].
  2:{ intros i Hi Ni. fold sec in Ni. rewrite tget_hmod by (change (sec < hlen (hmod t (set_t_section (Some sec)) s0)); rewrite hlen_hmod, L0; fold sec in Ls; unfold t; lia).
      rewrite (proj2 (Nat.eqb_neq i sec) Ni). change (tget i (hmod t (set_t_section (Some sec)) s0) = tget i s). rewrite tget_hmod by (rewrite L0; unfold t; lia).
      rewrite (proj2 (Nat.eqb_neq i t)) by (unfold t; lia). apply push_old. exact Hi. }
  destruct K as (K1 & K2 & K3). fold sec in K1. unfold desk3 in K1. injection K1 as K11 K12 K13.
  assert (Tsec : forall g, tget sec (hmod sec g (pmod (set_p_dtvn (lower v)) (pmod (set_p_pmap (munge_param_map (t_args r))) s2))) = g (tget sec s)).
  { intros g. assert (Nst : sec =? t = false) by (apply Nat.eqb_neq; unfold t; fold sec in Ls; lia).
    rewrite tget_hmod by (change (sec < hlen (hmod t (set_t_section (Some sec)) s0)); rewrite hlen_hmod, L0; fold sec in Ls; unfold t; lia).
    rewrite Nat.eqb_refl. f_equal. change (tget sec (hmod t (set_t_section (Some sec)) s0) = tget sec s). rewrite tget_hmod by lia. rewrite Nst. apply push_old. exact Ls. }
  split; [|split; [reflexivity|exact K3]]. rewrite prs_hmod. change (p_lastsec (s_prs (pmod (set_p_dtvn (lower v)) (pmod (set_p_pmap (munge_param_map (t_args r))) s2)))) with sec. rewrite Tsec.
  unfold desk3. cbn. rewrite K11. reflexivity.
Qed.
End Rows.
