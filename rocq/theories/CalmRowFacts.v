(** * CalmRowFacts: the rows of a file that leave the parser in good order *)

From Verif Require Import ListFacts StrFacts SpecNames NameFacts HeapFacts ConstructFacts DictFacts Parser RunFacts EmitFacts DigitFacts RowFacts FrameFacts GrowFacts ParseFacts SpecDoc SpecInclude SpecHead SpecKept InheritFacts DeclFacts DeclareFacts SpecCalm CalmFacts IncFacts SynFacts ParseProps.

(** ** What adding a term to its section leaves alone *)

Definition idf (r : trec) := (t_val r, t_pt r, t_rt r, t_args r, t_ftype r, t_cls r).
Definition same_ids (s s' : st) : Prop := (forall i, idf (tget i s') = idf (tget i s)) /\ s_prs s' = s_prs s /\ hlen s' = hlen s.
Lemma ids_po : preorder same_ids.
Proof. split; unfold same_ids; intros; repeat split; intuition congruence. Qed.
Lemma ids_hmod : forall i f s, (forall r, idf (f r) = idf r) -> same_ids s (hmod i f s).
Proof. intros i f s H. split; [|split; [reflexivity|apply hlen_hmod]]. intros j. apply (field_hmod idf). exact H. Qed.
Lemma ids_dmod : forall f s, same_ids s (dmod f s).
Proof. intros. repeat split. Qed.

Lemma ids_section_add : forall sec t, pres same_ids (section_add_term sec t).
Proof.
  pose proof ids_po as PO. intros sec t.
  unfold section_add_term, doc_add_term_nosec, add_term_list, add_section, add_term_meta.
  repeat (cbv beta; match goal with
    | |- forall _, _ => intro
    | |- pres _ (bind _ _) => apply pres_bind; [exact PO| |]
    | |- pres _ (ret _) => apply pres_ret; exact PO
    | |- pres _ (raise _) => apply pres_raise; exact PO
    | |- pres _ (lift _) => apply pres_lift; exact PO
    | |- pres _ (gets _) => apply pres_gets; exact PO
    | |- pres _ (getT _) => apply pres_gets; exact PO
    | |- pres _ getP => apply pres_gets; exact PO
    | |- pres _ getD => apply pres_gets; exact PO
    | |- pres _ (when _ _) => apply pres_when; [exact PO|]
    | |- pres _ (assert_ _) => apply pres_assert; exact PO
    | |- pres _ (modT _ _) => apply pres_modT; intro; apply ids_hmod; reflexivity
    | |- pres _ (modD _) => apply pres_modD; intro; apply ids_dmod
    | |- pres _ (set_ownership _ _) => apply pres_ownership; [exact PO|intros; apply ids_hmod; reflexivity]
    | |- pres _ (if ?b then _ else _) => destruct b
    | |- pres _ (match ?x with _ => _ end) => destruct x
    | |- pres _ (let _ := _ in _) => cbv zeta
    end).
Qed.

Lemma in_dget : forall {A} (d : dict A) k v, NoDup (dkeys d) -> In (k, v) d -> dget k d = Some v.
Proof.
  intros A d k v. induction d as [|[k' v'] d IH]; intros N I; [destruct I|]. cbn [dget]. inversion N as [|? ? N1 N2]; subst.
  destruct I as [I|I]; [injection I as -> ->; rewrite eqs_refl; reflexivity|]. eqs_cases k k'; [|apply IH; assumption].
  subst k'. exfalso. apply N1. apply (in_map fst) in I. exact I.
Qed.

Section Rows.
Variable odd : list string.
Variable syn : list nat.
Definition free (i : nat) : option (val * list string) := None.
Notation inv := (inv odd syn free).
Notation node_ok := (node_ok odd syn).

Lemma no_synonyms : forall s, inv s -> synonyms (p_dterms (s_prs s)) = [].
Proof.
  intros s V. unfold synonyms.
  assert (X : forall k td, In (k, td) (p_dterms (s_prs s)) -> dget "synonym" (td_props td) = None).
  { intros k td I. apply (v_decl _ _ _ _ V k). apply in_dget; [apply (v_nodup _ _ _ _ V)|exact I]. }
  revert X. induction (p_dterms (s_prs s)) as [|[k td] l IH]; intros X; [reflexivity|]. cbn [fold_left snd].
  rewrite (X k td) by (left; reflexivity). apply IH. intros k' td' I. apply (X k' td'). right. exact I.
Qed.

(** ** A new term that is not a section *)

Record fresh_calm (r : trec) : Prop := {
  fc_cls : is_section_cls (t_cls r) = false;
  fc_sec : t_section r = None;
  fc_tvn : t_tvn r = "@value";
  fc_dtvn : okt (t_dtvn r);
  fc_ch : t_children r = [];
  fc_tm : t_terms r = [];
  fc_pt : dot_free (t_pt r) /\ lower (t_pt r) = t_pt r;
  fc_rt : lower (t_rt r) = t_rt r;
  fc_reg : registers r = true -> t_rt r <> ELIDED_TERM /\ py_int (t_rt r) = None /\ dot_free (t_rt r) /\ t_rt r <> "root";
  fc_nm : t_pt r = "root" \/ t_pt r = ELIDED_TERM -> py_int (t_rt r) = None /\ ~ In (t_rt r) ["section"; "root"]
    /\ (t_rt r = "declareterm" -> declares syn r);
  fc_el : t_pt r = ELIDED_TERM -> t_rt r <> "header";
  fc_hd : t_pt r = "root" -> t_rt r = "header" ->
    ~ In "section" (map lower (t_args r)) /\ synonyms_at syn (t_args r) /\ forall v, t_val r = VStr v -> okt v
}.

Lemma fresh_node : forall root i r, fresh_calm r -> node_ok root i r.
Proof. intros root i r F. split; try (rewrite (fc_cls _ F); discriminate); [rewrite (fc_tvn _ F); discriminate|apply F]. Qed.

(** what a new term has done *)
Record emitted (s : st) (r : trec) (s' : st) : Prop := {
  em_inv : inv s';
  em_plain : plain s' (hlen s);
  em_last : p_lastsec (s_prs s') = p_lastsec (s_prs s);
  em_secs : d_sections (s_doc s') = d_sections (s_doc s);
  em_root : d_root (s_doc s') = d_root (s_doc s);
  em_rt : t_rt (tget (hlen s) s') = renamed (p_pmap (s_prs s)) (t_rt r);
  em_pt : t_pt (tget (hlen s) s') = final_pt s r;
  em_args : t_args (tget (hlen s) s') = t_args r;
  em_old : forall i, i < hlen s -> t_rt (tget i s') = t_rt (tget i s)
}.

Lemma munge_cols : forall s x, inv s -> In x (p_pmap (s_prs s)) -> lower x = x.
Proof. intros s x V I. rewrite <- (v_cols _ _ _ _ V) in I. eapply munge_lower. exact I. Qed.

Lemma munge_from_idem : forall l i, munge_from i (munge_from i l) = munge_from i l.
Proof.
  induction l as [|a l IH]; intros i; [reflexivity|]. cbn [munge_from]. rewrite IH. f_equal.
  destruct (nonempty a) eqn:E.
  - assert (nonempty (lower a) = true) as ->; [|apply lower_idem]. unfold nonempty in *. destruct a; [discriminate E|reflexivity].
  - destruct (str_of_nat_digits i) as [D _]. assert (nonempty (str_of_nat i) = true) as ->; [|apply digits_lower, D].
    unfold nonempty. apply negb_true_iff, eqs_false, str_of_nat_digits.
Qed.
Lemma munge_idem : forall l, munge_param_map (munge_param_map l) = munge_param_map l.
Proof. intros. apply munge_from_idem. Qed.
Lemma o_emit : forall load s r s', inv s -> fresh_calm r -> emit load (hlen s) (push r s) = (s', Ok tt) -> emitted s r s'.
Proof.
  intros load s r s' V F H. set (t := hlen s) in *. set (s0 := push r s) in *.
  assert (V0 : inv s0) by (apply inv_push; [exact V|apply fresh_node; exact F|apply F|apply F|intros j E; rewrite (fc_sec _ F) in E; discriminate E]).
  assert (L0 : hlen s0 = S t) by apply hlen_push.
  assert (T0 : tget t s0 = r) by apply push_new.
  assert (P0 : plain s0 t) by (split; [lia|rewrite T0; apply F]).
  assert (Old0 : forall i, i < t -> tget i s0 = tget i s) by (intros; apply push_old; assumption).
  set (n := renamed (p_pmap (s_prs s)) (t_rt r)).
  assert (Ln : lower n = n) by (apply renamed_lower; [intros x; apply (munge_cols s); exact V|apply F]).
  assert (Rn : py_int (t_rt r) = None -> n = t_rt r) by (intros E; unfold n, renamed; rewrite E; reflexivity).
  unfold emit in H. rb H as s5 b Hc. unfold consume in Hc. rb Hc as s1 u Hr.
  rewrite rename_run in Hr by (apply no_synonyms; exact V0). injection Hr as <- <-. rg Hc. rb Hc as s2 u2 Hs.
  set (f1 := fun r => set_t_rt (renamed (p_pmap (s_prs s)) (t_rt r)) r) in *.
  assert (T1 : tget t (hmod t f1 s0) = f1 r) by (rewrite tget_hmod by lia; rewrite Nat.eqb_refl, T0; reflexivity).
  unfold set_section in Hs. rg Hs. rewrite T1 in Hs. change (t_cls (f1 r)) with (t_cls r) in Hs. rewrite (fc_cls _ F) in Hs.
  unfold set_section_plain in Hs. rg Hs. rg Hs. rewrite T1 in Hs. change (t_tvn (f1 r)) with (t_tvn r) in Hs. rewrite (fc_tvn _ F) in Hs.
  change (eqs (lower "@value") "section") with false in Hs. cbn iota in Hs.
  unfold property_names in Hs. change (t_cls (f1 r)) with (t_cls r) in Hs. change (t_section (f1 r)) with (t_section r) in Hs.
  rewrite (fc_cls _ F), (fc_sec _ F) in Hs. cbn [map mem_str existsb] in Hs. rewrite modT_run in Hs. injection Hs as <- <-.
  rewrite ?prs_hmod in Hc. set (sec := p_lastsec (s_prs s)) in *.
  rewrite hmod_hmod in Hc by lia.
  set (f2 := fun r => set_t_section (Some sec) (f1 r)) in *. clear T1.
  set (s2 := hmod t f2 s0) in *.
  assert (V2 : inv s2).
  { apply inv_hmod; [exact V0|]. apply (soft_plain odd syn free s0 t f2); auto; rewrite ?T0; cbn; auto.
    - rewrite (fc_tvn _ F). discriminate.
    - intros j E. injection E as <-. right. apply (v_last _ _ _ _ V0). }
  assert (L2 : hlen s2 = hlen s0) by apply hlen_hmod.
  assert (T2 : tget t s2 = f2 r) by (unfold s2; rewrite tget_hmod by lia; rewrite Nat.eqb_refl, T0; reflexivity).
  assert (P2 : plain s2 t) by (apply plain_hmod; [reflexivity|exact P0]).
  assert (Old2 : forall i, i < t -> tget i s2 = tget i s).
  { intros i Hi. unfold s2. rewrite tget_hmod by lia. replace (i =? t) with false by (symmetry; apply Nat.eqb_neq; lia). apply Old0. exact Hi. }
  rg Hc. rewrite T2 in Hc.
  assert (LC : lc_name (f2 r)) by (split; [apply F|split; [apply F|exact Ln]]).
  rewrite is_header_eq in Hc by exact LC. rg Hc. unfold named_root in Hc at 1.
  change (t_pt (f2 r)) with (t_pt r) in Hc. change (t_rt (f2 r)) with n in Hc.
  destruct (eqs "root" (t_pt r) && eqs "header" n) eqn:Hd.
  { (* a header *)
    apply andb_prop in Hd. destruct Hd as [Hd1 Hd2]. apply eqs_true in Hd1, Hd2. symmetry in Hd1, Hd2.
    destruct (fc_nm _ F (or_introl Hd1)) as (N1 & _). rewrite (Rn N1) in Hd2. destruct (fc_hd _ F Hd1 Hd2) as (G1 & G2 & G3).
    rg Hc. rb Hc as s3 v Hv. apply lift_ok in Hv. destruct Hv as [-> Hv]. change (t_val (f2 r)) with (t_val r) in Hv. change (t_args (f2 r)) with (t_args r) in Hc.
    assert (Hv' : t_val r = VStr v) by (destruct (t_val r); cbn in Hv; congruence).
    rg Hc. rg Hc. apply ret_ok in Hc. destruct Hc as [-> ->]. cbn [andb when] in H. apply ret_ok in H. destruct H as [-> _].
    set (s3 := pmod _ (pmod _ s2)).
    assert (V3 : inv s3).
    { apply inv_pmod; [apply inv_pmod; [exact V2|..]|..]; cbn; try apply V2; try apply munge_idem. unfold okt. rewrite lower_idem. apply (G3 _ Hv'). }
    assert (Nst : sec <> t) by (pose proof (v_last _ _ _ _ V) as [X _]; change (p_lastsec (s_prs s)) with sec in X; unfold t; lia).
    set (g := fun s0 => set_t_dtvn _ _). 
    assert (Gt : forall i, t_rt (tget i (hmod sec g s3)) = t_rt (tget i s2)) by (intros i; rewrite (field_hmod t_rt) by reflexivity; reflexivity).
    assert (Tt : tget t (hmod sec g s3) = f2 r).
    { destruct (Nat.ltb_spec sec (hlen s3)) as [Q|Q]; [|rewrite hmod_out by exact Q; exact T2]. rewrite tget_hmod by exact Q.
      replace (t =? sec) with false by (symmetry; apply Nat.eqb_neq; congruence). exact T2. }
    change (p_lastsec (s_prs s0)) with sec. split.
    - apply inv_hmod; [exact V3|]. pose proof (v_node _ _ _ _ V3 sec) as N. split; cbn; auto; try apply N.
      + unfold okt. rewrite lower_idem. apply (G3 _ Hv').
      + intros S. repeat split; auto. apply (n_doc _ _ _ _ _ N S).
    - apply plain_hmod; [reflexivity|exact P2].
    - reflexivity.
    - reflexivity.
    - reflexivity.
    - fold t. rewrite Tt. reflexivity.
    - fold t. rewrite Tt. cbn. unfold final_pt. rewrite Hd1. reflexivity.
    - fold t. rewrite Tt. reflexivity.
    - intros i Hi. rewrite Gt. rewrite Old2 by exact Hi. reflexivity. }
  assert (NR : forall m x, In m ["section"; "root"] -> t_rt x = n -> (t_pt x = t_pt r \/ t_pt x = final_pt s r) -> named_root x m = false).
  { intros m x I E1 E2. unfold named_root. eqs_cases "root" (t_pt x); [|reflexivity]. cbn [andb]. rewrite E1. apply eqs_false. intros E3.
    assert (Z : t_pt r = "root" \/ t_pt r = ELIDED_TERM).
    { destruct E2 as [E2|E2]; [left; congruence|]. unfold final_pt in E2. eqs_cases (t_pt r) ELIDED_TERM; [right; assumption|left; congruence]. }
    destruct (fc_nm _ F Z) as (A & B & _). apply Rn in A. apply B. rewrite <- A, <- E3. exact I. }
  rewrite is_section_eq in Hc by exact LC. rg Hc. rewrite is_root_eq in Hc by exact LC. rg Hc.
  rewrite (NR "section"), (NR "root") in Hc by (auto; cbn; auto). cbn iota in Hc.
  rb Hc as s4 u4 Hn. destruct u4. rg Hc.
  (* consume_normal *)
  unfold consume_normal in Hn. rb Hn as s3 u3 Hm. rewrite set_meta_run in Hm. injection Hm as <- <-.
  unfold s2 in Hn. rewrite ?prs_hmod, ?prs_push in Hn. rewrite hmod_hmod in Hn by lia. fold s2 in Hn.
  set (f3 := fun r => metaF (p_dterms (s_prs s)) (p_dtvn (s_prs s)) (f2 r)) in *.
  set (s3 := hmod t f3 s0) in *.
  assert (L3 : hlen s3 = hlen s0) by apply hlen_hmod.
  assert (T3 : tget t s3 = f3 r) by (unfold s3; rewrite tget_hmod by lia; rewrite Nat.eqb_refl, T0; reflexivity).
  assert (Old3 : forall i, i < t -> tget i s3 = tget i s).
  { intros i Hi. unfold s3. rewrite tget_hmod by lia. replace (i =? t) with false by (symmetry; apply Nat.eqb_neq; lia). apply Old0. exact Hi. }
  assert (V3 : inv s3).
  { apply inv_hmod; [exact V0|]. apply (soft_plain odd syn free s0 t f3); auto; rewrite ?T0; cbn; auto.
    - unfold decl_prop. destruct (dget _ (p_dterms _)) as [td|] eqn:Ed; [|apply (v_dtvn _ _ _ _ V)].
      destruct (dget "termvaluename" (td_props td)) eqn:Et; [|apply (v_dtvn _ _ _ _ V)]. apply (v_decl _ _ _ _ V _ _ Ed). exact Et.
    - intros j E. injection E as <-. right. apply (v_last _ _ _ _ V0). }
  assert (P3 : plain s3 t) by (apply plain_hmod; [reflexivity|exact P0]).
  rb Hn as s6 u6 Ha. destruct u6. apply attach_ok in Ha.
  2:{ lia. }
  2:{ intros k i Hk. rewrite L3. apply (v_tmap _ _ _ _ V0 k i Hk). }
  rewrite T3, L3 in Ha. destruct Ha as (q & Hq & Hl & Hs6).
  assert (Reg : registers (f3 r) = registers r) by reflexivity.
  assert (Fp : final_pt s3 (f3 r) = final_pt s r) by reflexivity.
  change (t_rt (f3 r)) with n in *. rewrite Reg, Fp in Hs6. clear Hl.
  set (pt' := final_pt s r) in *.
  assert (Hpt' : dot_free pt' /\ lower pt' = pt').
  { unfold pt', final_pt. destruct (eqs (t_pt r) ELIDED_TERM); [|apply F]. destruct (v_lp _ _ _ _ V0) as (A & B & _). auto. }
  set (s3' := if registers r then pmod (reg_prs t n) s3 else s3) in *.
  assert (X3 : inv s3' /\ s_heap s3' = s_heap s3 /\ s_doc s3' = s_doc s3 /\ p_lastsec (s_prs s3') = sec /\ p_pmap (s_prs s3') = p_pmap (s_prs s3)).
  { unfold s3'. destruct (registers r) eqn:Rg; [|split; [exact V3|repeat split]]. destruct (fc_reg _ F Rg) as (G1 & G2 & G3 & G4).
    apply Rn in G2. split; [|repeat split]. apply inv_pmod; cbn; try apply V3.
    - rewrite !dget_dset. rewrite G2. replace (eqs "root" (t_rt r)) with false by (symmetry; apply eqs_false; congruence).
      change (eqs "root" ELIDED_TERM) with false. apply (v_known _ _ _ _ V3).
    - rewrite G2. split; [exact G3|]. split; [apply F|]. split; [exact G1|]. rewrite dget_dset_same. discriminate.
    - intros k i. rewrite !dget_dset. assert (L3s : hlen s3 = S (hlen s)) by lia. match goal with |- _ -> _ < ?x => change x with (hlen s3); rewrite L3s end.
      destruct (eqs k n); [intros E; injection E as <-; unfold t; lia|].
      destruct (eqs k ELIDED_TERM); [intros E; injection E as <-; unfold t; lia|]. intros E. apply (v_tmap _ _ _ _ V) in E. unfold t. lia. }
  destruct X3 as (V3' & H3' & D3' & S3' & M3').
  assert (T3' : forall i, tget i s3' = tget i s3) by (intros; unfold tget; rewrite H3'; reflexivity).
  assert (L3' : hlen s3' = hlen s0) by (unfold hlen; rewrite H3'; exact L3).
  assert (P3' : plain s3' t) by (split; [lia|rewrite T3'; apply P3]).
  set (f4 := fun r => set_t_parent (Some q) (set_t_pt pt' r)) in *.
  assert (V4 : inv (hmod q (add_kid t) s3')).
  { apply inv_hmod; [exact V3'|]. pose proof (v_node _ _ _ _ V3' q) as N. split; cbn; auto; try apply N.
    - intros S. repeat split; auto. apply (n_doc _ _ _ _ _ N S).
    - intros j I. apply in_app_or in I. destruct I as [I|[<-|[]]]; auto. }
  assert (P4 : plain (hmod q (add_kid t) s3') t) by (apply plain_hmod; [reflexivity|exact P3']).
  assert (V6 : inv s6).
  { subst s6. apply inv_hmod; [exact V4|]. apply (soft_plain odd syn free); auto. cbn. apply (n_tvn _ _ _ _ _ (v_node _ _ _ _ V4 t)). }
  assert (P6 : plain s6 t) by (subst s6; apply plain_hmod; [reflexivity|exact P4]).
  assert (D6 : s_doc s6 = s_doc s) by (subst s6; rewrite !doc_hmod, D3'; reflexivity).
  assert (S6 : p_lastsec (s_prs s6) = sec) by (subst s6; rewrite !prs_hmod; exact S3').
  assert (I6 : t_val (tget t s6) = t_val r /\ t_pt (tget t s6) = pt' /\ t_rt (tget t s6) = n /\ t_args (tget t s6) = t_args r /\ t_ftype (tget t s6) = t_ftype r).
  { subst s6. rewrite tget_hmod by (rewrite hlen_hmod; lia). rewrite Nat.eqb_refl. rewrite tget_hmod by lia. rewrite !T3'.
    destruct (Nat.eqb_spec t q) as [<-|N2]; rewrite T3; repeat split. }
  assert (O6 : forall i, i < t -> t_rt (tget i s6) = t_rt (tget i s)).
  { intros i Hi. subst s6. rewrite !(field_hmod t_rt) by reflexivity. rewrite T3', Old3 by exact Hi. reflexivity. }
  rg Hn. rg Hn. rewrite S6 in Hn. destruct I6 as (I1 & I2 & I3 & I4 & I5).
  assert (Ept : pt_lc (tget t s6) = pt') by (unfold pt_lc; rewrite I2; apply Hpt'). rewrite Ept in Hn.
  apply when_ok in Hn.
  assert (X4 : inv s4 /\ same_ids s6 s4 /\ d_sections (s_doc s4) = d_sections (s_doc s) /\ d_root (s_doc s4) = d_root (s_doc s) /\ (pt' = "root" -> In t (d_terms (s_doc s4)))).
  { eqs_cases pt' "root".
    - pose proof Hn as I. apply ids_section_add in I. pose proof Hn as K. apply (w_section_add fr fr_po fr_hmod fr_dmod fr_sec) in K.
      apply o_section_add with (odd := odd) (syn := syn) (held := free) in Hn; auto. destruct Hn as (A & B & C).
      split; [exact A|]. split; [exact I|]. split; [rewrite C, D6; reflexivity|].
      split; [rewrite (kp_root _ _ (proj1 K)), D6; reflexivity|intros _; exact B].
    - subst s4. split; [exact V6|]. split; [apply ids_po|]. rewrite D6. repeat split. contradiction. }
  destruct X4 as (W4 & (J4 & Q4 & K4) & D4 & R4 & M4).
  assert (I4' : idf (tget t s4) = idf (tget t s6)) by apply J4. unfold idf in I4'. injection I4' as I41 I42 I43 I44 I45 I46.
  assert (LC4 : lc_name (tget t s4)).
  { unfold lc_name. rewrite I42, I2, I43, I3. repeat split; try apply Hpt'. exact Ln. }
  assert (O4 : forall i, i < t -> t_rt (tget i s4) = t_rt (tget i s)).
  { intros i Hi. rewrite <- (O6 i Hi). specialize (J4 i). unfold idf in J4. congruence. }
  assert (Fin : forall x, inv x -> s_doc x = s_doc s4 -> p_lastsec (s_prs x) = p_lastsec (s_prs s4) -> hlen x = hlen s4 ->
    (forall i, t_rt (tget i x) = t_rt (tget i s4) /\ t_pt (tget i x) = t_pt (tget i s4) /\ t_args (tget i x) = t_args (tget i s4) /\ t_cls (tget i x) = t_cls (tget i s4)) -> emitted s r x).
  { intros x Vx Dx Sx Lx Gx. destruct (Gx t) as (A & B & C & D). split.
    - exact Vx.
    - destruct P6 as [P61 P62]. split; [rewrite Lx, K4; exact P61|]. fold t. rewrite D, I46. exact P62.
    - rewrite Sx, Q4. exact S6.
    - rewrite Dx. exact D4.
    - rewrite Dx. exact R4.
    - fold t. rewrite A, I43, I3. reflexivity.
    - fold t. rewrite B, I42, I2. reflexivity.
    - fold t. rewrite C, I44, I4. reflexivity.
    - intros i Hi. rewrite (proj1 (Gx i)). apply O4. exact Hi. }
  assert (Df : {t_ftype (tget t s4) = Some "declare"} + {t_ftype (tget t s4) <> Some "declare"}) by (decide equality; apply string_dec). destruct Df as [Ef|Ef].
  - rewrite Ef in Hc. rb Hc as s7 u7 H7. destruct u7. apply ret_ok in Hc. destruct Hc as [-> ->]. cbn [andb when] in H. apply ret_ok in H. destruct H as [-> _].
    apply o_declare with (odd := odd) (syn := syn) (held := free) in H7; auto.
    + destruct H7 as (V7 & (A & B & _ & _ & _ & _ & _ & C)). apply Fin; auto; [unfold hlen; rewrite A; reflexivity|].
      intros i. unfold tget. rewrite A. repeat split.
    + unfold named_root. intros Nd. apply andb_prop in Nd. destruct Nd as [Nd1 Nd2]. apply eqs_true in Nd1, Nd2. rewrite I42, I2 in Nd1. rewrite I43, I3 in Nd2.
      assert (Z : t_pt r = "root" \/ t_pt r = ELIDED_TERM).
      { unfold pt', final_pt in Nd1. eqs_cases (t_pt r) ELIDED_TERM; [right; assumption|left; congruence]. }
      destruct (fc_nm _ F Z) as (N1 & _ & N2). apply Rn in N1. specialize (N2 ltac:(congruence)).
      unfold declares in *. rewrite I41, I1, I44, I4. exact N2.
  - rewrite not_declare in Hc by exact Ef. apply ret_ok in Hc. destruct Hc as [-> ->]. cbn [andb] in H. apply when_ok in H.
    destruct load; [|subst s'; apply Fin; auto].
    apply load1_plain in H.
    + subst s'. apply Fin; auto; [apply o_doc; exact W4|apply hlen_hmod|].
      intros i. rewrite (field_hmod t_rt), (field_hmod t_pt), (field_hmod t_args), (field_hmod t_cls) by reflexivity. repeat split.
    + rewrite K4. apply P6.
    + exact LC4.
    + apply (NR "root"); cbn; auto; [rewrite I43; exact I3|right; rewrite I42; exact I2].
    + apply (NR "section"); cbn; auto; [rewrite I43; exact I3|right; rewrite I42; exact I2].
    + rewrite I42, I2. exact M4.
Qed.

(** ** A section *)

Definition hold (t : nat) (s : st) (i : nat) : option (val * list string) :=
  if i =? t then Some (t_val (tget t s), t_hargs (tget t s)) else None.
Lemma with_held : forall h s, inv s -> (forall i v a, h i = Some (v, a) -> section s i /\ t_val (tget i s) = v /\ t_hargs (tget i s) = a) ->
  CalmFacts.inv odd syn h s.
Proof. intros h s V H. destruct V. split; assumption. Qed.
Lemma release : forall h s, CalmFacts.inv odd syn h s -> inv s.
Proof. intros h s V. destruct V. split; try assumption. intros i v a E. discriminate E. Qed.

Lemma column_odd : forall s t n, inv s -> section s t -> t_val (tget t s) = VStr n ->
  In "section" (map lower (sec_property_names (tget t s))) -> In (lower n) odd.
Proof.
  intros s t n V S Hv I. destruct (n_val _ _ _ _ _ (v_node _ _ _ _ V t) (proj2 S)) as (n' & A & B). rewrite Hv in A. injection A as <-.
  apply B. unfold sec_property_names in I. destruct (t_hargs (tget t s)); auto.
Qed.

Lemma o_set_sec : forall t o n s s', inv s -> section s t -> t_val (tget t s) = VStr n ->
  In "section" (map lower (sec_property_names (tget t s))) -> set_section t o s = (s', Ok tt) ->
  inv s' /\ fr s s' /\ t_val (tget t s') = VStr n /\ sec_property_names (tget t s') = sec_property_names (tget t s).
Proof.
  intros t o n s s' V S Hv I H. pose proof (column_odd _ _ _ V S Hv I) as O.
  pose proof H as K. apply (w_set_section fr fr_po fr_push fr_hmod fr_dmod fr_sec) in K.
  unfold set_section in H. rg H. rewrite (proj2 S) in H. unfold set_section_sec in H. rg H.
  rewrite (n_at _ _ _ _ _ (v_node _ _ _ _ V t) (proj2 S)) in H. change (eqs (lower "@value") "section") with false in H. cbv iota in H.
  rewrite (proj2 (mem_str_in _ _) I) in H.
  assert (W : CalmFacts.inv odd syn (hold t s) s).
  { apply with_held; [exact V|]. intros i v a. unfold hold. destruct (Nat.eqb_spec i t) as [->|]; [|discriminate]. intros E. injection E as <- <-. auto. }
  apply (o_setitem odd syn (hold t s) t n) in H; auto. destruct H as [W' _]. split; [eapply release; exact W'|]. split; [exact K|].
  destruct (v_held _ _ _ _ W' t (t_val (tget t s)) (t_hargs (tget t s))) as (_ & A & B); [unfold hold; rewrite Nat.eqb_refl; reflexivity|].
  split; [congruence|]. unfold sec_property_names. rewrite B.
  pose proof (kp_core _ _ (proj1 K) t (proj1 S)) as C. unfold core in C. fold (tget t s') (tget t s) in C. injection C as _ C _ _ _ _. rewrite C. reflexivity.
Qed.

Definition rts (s s' : st) : Prop := kept s s' /\ forall i, i < hlen s -> t_rt (tget i s') = t_rt (tget i s).
Lemma rts_po : preorder rts.
Proof.
  split; [intros s; split; [apply kept_po|reflexivity]|]. intros a b c [A A'] [B B']. split; [eapply kept_po; eassumption|].
  intros i Hi. rewrite B' by (apply kept_hlen in A; lia). apply A'. exact Hi.
Qed.
Lemma fr_rts : forall s s', fr s s' -> rts s s'.
Proof. intros s s' (A & _ & B). split; assumption. Qed.
Lemma rts_pmod : forall f s, rts s (pmod f s).
Proof. intros. split; [apply kept_pmod|reflexivity]. Qed.
Lemma rts_hmod : forall i f s, ext f -> (forall r, t_rt (f r) = t_rt r) -> rts s (hmod i f s).
Proof. intros. apply fr_rts, fr_hmod; assumption. Qed.

(** entering a section *)
Definition enterF (s : st) (t : nat) (p : prec) : prec :=
  if t =? d_root (s_doc s) then set_p_lastsec t p
  else set_p_dtvn "@value" (set_p_lastsec t (set_p_lastparent "root" (set_p_pmap (munge_param_map (t_args (tget t s))) p))).

Lemma o_enter : forall s t, inv s -> section s t -> inv (pmod (enterF s t) s).
Proof.
  intros s t V S. unfold enterF. destruct (t =? d_root (s_doc s)); apply inv_pmod; cbn; try apply V; try exact S; try apply munge_idem; try discriminate.
  split; [apply dot_free_iff; reflexivity|]. split; [reflexivity|]. split; [discriminate|]. rewrite (v_known _ _ _ _ V). discriminate.
Qed.

Lemma sec_lc : forall s t, inv s -> section s t -> lc_name (tget t s)
  /\ (t_rt (tget t s) = "section" /\ t <> d_root (s_doc s) \/ t_rt (tget t s) = "root" /\ t = d_root (s_doc s)).
Proof.
  intros s t V S. pose proof (v_node _ _ _ _ V t) as N. pose proof (n_pt _ _ _ _ _ N (proj2 S)) as P.
  assert (X : t_rt (tget t s) = "section" /\ t <> d_root (s_doc s) \/ t_rt (tget t s) = "root" /\ t = d_root (s_doc s)).
  { destruct (Nat.eq_dec t (d_root (s_doc s))) as [E|E]; [right; split; [|exact E]; rewrite E; apply V|left; split; [|exact E]; apply (n_rt _ _ _ _ _ N (proj2 S) E)]. }
  split; [|exact X]. unfold lc_name. rewrite P. split; [apply dot_free_iff; reflexivity|]. split; [reflexivity|]. destruct X as [[-> _]|[-> _]]; reflexivity.
Qed.

Record entered (t : nat) (s s' : st) : Prop := {
  en_inv : inv s';
  en_last : p_lastsec (s_prs s') = t;
  en_rts : rts s s'
}.

Lemma o_emit_sec : forall load t s s', inv s -> section s t -> emit load t s = (s', Ok tt) ->
  entered t s s'
  /\ (forall n, load = true -> t <> d_root (s_doc s) -> t_val (tget t s) = VStr n -> ~ In (lower n) odd -> t_ftype (tget t s) <> Some "declare" ->
      dget (lower n) (d_sections (s_doc s)) = None -> dget (lower n) (d_sections (s_doc s')) = Some t).
Proof.
  intros load t s s' V S H. destruct (sec_lc _ _ V S) as [LC Rt].
  destruct (n_val _ _ _ _ _ (v_node _ _ _ _ V t) (proj2 S)) as (n & Hv & _).
  unfold emit in H. rb H as s5 b Hc. unfold consume in Hc. rb Hc as s1 u Hr.
  rewrite rename_id in Hr; [|apply no_synonyms; exact V|destruct Rt as [[-> _]|[-> _]]; reflexivity]. injection Hr as <- <-. rg Hc.
  rb Hc as s1 u1 H1. destruct u1. rg Hc.
  assert (C1 : s_prs s1 = s_prs s /\ rts s s1 /\ (inv s1 /\ In "section" (map lower (sec_property_names (tget t s1))) /\ t_val (tget t s1) = VStr n
      \/ s1 = hmod t (set_t_section (Some (p_lastsec (s_prs s)))) s /\ ~ In "section" (map lower (sec_property_names (tget t s))))).
  { destruct (in_dec string_dec "section" (map lower (sec_property_names (tget t s)))) as [I|I].
    - apply (o_set_sec _ _ n) in H1; auto. destruct H1 as (A & B & C & D). split; [apply B|]. split; [apply fr_rts; exact B|]. left. rewrite D. auto.
    - unfold set_section in H1. rg H1. rewrite (proj2 S) in H1. unfold set_section_sec in H1. rg H1.
      rewrite (n_at _ _ _ _ _ (v_node _ _ _ _ V t) (proj2 S)) in H1. change (eqs (lower "@value") "section") with false in H1. cbv iota in H1.
      destruct (mem_str _ _) eqn:M in H1; [apply mem_str_in in M; contradiction|]. rewrite modT_run in H1. injection H1 as <-.
      split; [reflexivity|]. split; [apply rts_hmod; [intro; repeat split; apply prefix_refl|reflexivity]|]. right. auto. }
  clear H1. destruct C1 as (E1 & K1 & C1).
  assert (F1 : t_pt (tget t s1) = t_pt (tget t s) /\ t_rt (tget t s1) = t_rt (tget t s) /\ t_args (tget t s1) = t_args (tget t s)
     /\ t_ftype (tget t s1) = t_ftype (tget t s) /\ t_rt (tget (d_root (s_doc s1)) s1) = "root" /\ d_root (s_doc s1) = d_root (s_doc s) /\ section s1 t).
  { destruct K1 as [K K']. assert (S1 : section s1 t) by (eapply kept_section; [exact K|exact S]).
    pose proof (kp_core _ _ K t (proj1 S)) as C. unfold core in C. fold (tget t s1) (tget t s) in C. injection C as _ C1' _ _ C2' _.
    pose proof (kp_root _ _ K) as Kr. split; [|split; [apply K'; apply S|split; [exact C1'|split; [exact C2'|split; [rewrite Kr, K'; [apply V|apply V]|split; [exact Kr|exact S1]]]]]].
    rewrite (n_pt _ _ _ _ _ (v_node _ _ _ _ V t) (proj2 S)). destruct C1 as [(V1 & _)|(-> & _)].
    - apply (n_pt _ _ _ _ _ (v_node _ _ _ _ V1 t) (proj2 S1)).
    - rewrite (field_hmod t_pt) by reflexivity. apply (n_pt _ _ _ _ _ (v_node _ _ _ _ V t) (proj2 S)). }
  destruct F1 as (P1 & R1 & A1 & T1 & Q1 & D1 & S1).
  assert (LC1 : lc_name (tget t s1)) by (unfold lc_name; rewrite P1, R1; exact LC).
  rewrite is_header_eq in Hc by exact LC1. rg Hc.
  assert (Nh : named_root (tget t s1) "header" = false).
  { unfold named_root. rewrite R1. destruct Rt as [[-> _]|[-> _]]; apply andb_false_r. }
  rewrite Nh in Hc. cbv iota in Hc. rewrite is_section_eq in Hc by exact LC1. rg Hc. rewrite is_root_eq in Hc by exact LC1. rg Hc.
  assert (Pr : t_pt (tget t s) = "root") by apply (n_pt _ _ _ _ _ (v_node _ _ _ _ V t) (proj2 S)).
  rb Hc as s4 u4 Hn. destruct u4.
  assert (X : set_section t None (pmod (enterF s t) s1) = (s4, Ok tt)).
  { unfold named_root in Hn. rewrite P1, R1, Pr in Hn. unfold enterF. destruct Rt as [[Er Nr]|[Er Nr]]; rewrite Er in Hn.
    - change (eqs "root" "root" && eqs "section" "section") with true in Hn. cbv iota in Hn. rg Hn. rg Hn. rg Hn. rewrite A1 in Hn.
      fold (tget (d_root (s_doc s1)) s1) in Hn. rewrite Q1 in Hn. apply Nat.eqb_neq in Nr. rewrite Nr. exact Hn.
    - change (eqs "root" "root" && eqs "section" "root") with false in Hn. change (eqs "root" "root" && eqs "root" "root") with true in Hn. cbv iota in Hn.
      rg Hn. apply Nat.eqb_eq in Nr. rewrite Nr. exact Hn. }
  clear Hn.
  assert (Y : inv s4 /\ rts s1 s4 /\ p_lastsec (s_prs s4) = t /\ (exists n', t_val (tget t s4) = VStr n' /\ (In (lower n') odd \/ t_section (tget t s4) = None))
     /\ (~ In (lower n) odd -> t_val (tget t s4) = VStr n /\ d_sections (s_doc s4) = d_sections (s_doc s))).
  { assert (Ls : forall x, p_lastsec (enterF s t x) = t) by (intros; unfold enterF; destruct (_ =? _); reflexivity).
    destruct C1 as [(V1 & I1 & Hv1)|(-> & I1)].
    - assert (V2 : inv (pmod (enterF s t) s1)).
      { replace (enterF s t) with (enterF s1 t) by (unfold enterF; rewrite D1, A1; reflexivity). apply o_enter; assumption. }
      pose proof (column_odd _ _ _ V1 S1 Hv1 I1) as O.
      apply (o_set_sec _ _ n) in X; auto. destruct X as (A & B & C & D). split; [exact A|].
      split; [eapply rts_po; [apply rts_pmod|apply fr_rts; exact B]|].
      split; [rewrite (proj1 (proj2 B)); apply Ls|]. split; [exists n; auto|contradiction].
    - unfold set_section in X. rg X. rewrite tget_pmod, (field_hmod t_cls) in X by reflexivity. rewrite (proj2 S) in X. unfold set_section_sec in X. rg X.
      rewrite tget_pmod, (field_hmod t_tvn), (field_hmod sec_property_names) in X by reflexivity.
      rewrite (n_at _ _ _ _ _ (v_node _ _ _ _ V t) (proj2 S)) in X. change (eqs (lower "@value") "section") with false in X. cbv iota in X.
      destruct (mem_str _ _) eqn:M in X; [apply mem_str_in in M; contradiction|]. rewrite modT_run in X. injection X as <-.
      set (o := Some (p_lastsec (s_prs s))).
      change (hmod t (set_t_section None) (pmod (enterF s t) (hmod t (set_t_section o) s)))
        with (hmod t (set_t_section None) (hmod t (set_t_section o) (pmod (enterF s t) s))).
      assert (V2 : inv (pmod (enterF s t) s)) by (apply o_enter; assumption).
      split; [|split; [|split; [apply Ls|]]].
      + rewrite hmod_hmod by apply S. apply inv_hmod; [exact V2|]. pose proof (v_node _ _ _ _ V2 t) as N. split; cbn; auto; try apply N.
        * intros S'. repeat split; auto. apply (n_doc _ _ _ _ _ N S').
        * discriminate.
      + change (hmod t (set_t_section o) (pmod (enterF s t) s)) with (pmod (enterF s t) (hmod t (set_t_section o) s)).
        eapply rts_po; [apply rts_pmod|]. apply rts_hmod; [intro; repeat split; apply prefix_refl|reflexivity].
      + split.
        * exists n. rewrite !(field_hmod t_val) by reflexivity. split; [exact Hv|]. right. rewrite tget_hmod by (rewrite hlen_hmod; apply S).
          rewrite Nat.eqb_refl. reflexivity.
        * intros _. split; [rewrite !(field_hmod t_val) by reflexivity; exact Hv|reflexivity]. }
  destruct Y as (V4 & K4 & L4 & (n' & Hn' & O4) & Z4).
  assert (S4 : section s4 t) by (eapply kept_section; [apply K4|exact S1]).
  assert (K14 : rts s s4) by (eapply rts_po; eassumption).
  pose proof (kp_root _ _ (proj1 K14)) as D4. fold (tget t s4) in *.
  destruct (sec_lc _ _ V4 S4) as [LC4 Rt4].
  assert (T4 : t_ftype (tget t s4) = t_ftype (tget t s)).
  { pose proof (kp_core _ _ (proj1 K14) t (proj1 S)) as C. unfold core in C. fold (tget t s4) (tget t s) in C. congruence. }
  rg Hc.
  assert (Df : {t_ftype (tget t s4) = Some "declare"} + {t_ftype (tget t s4) <> Some "declare"}) by (decide equality; apply string_dec).
  destruct Df as [Ef|Ef].
  - rewrite Ef in Hc. rb Hc as s7 u7 H7. destruct u7. apply ret_ok in Hc. destruct Hc as [-> ->]. cbn [andb when] in H. apply ret_ok in H. destruct H as [-> _].
    apply o_declare with (odd := odd) (syn := syn) (held := free) in H7; auto.
    + destruct H7 as (V7 & (A & B & C & _ & _ & _ & _ & E)). split; [|intros; congruence]. split; [exact V7|congruence|].
      eapply rts_po; [exact K14|]. split; [|intros i _; unfold tget; rewrite A; reflexivity].
      assert (Es : s7 = pmod (fun _ => s_prs s7) s4) by (destruct s4, s7; cbn in *; subst; reflexivity).
      rewrite Es. apply kept_pmod.
    + unfold named_root. destruct Rt4 as [[-> _]|[-> _]]; rewrite andb_false_r; discriminate.
  - rewrite not_declare in Hc by exact Ef. apply ret_ok in Hc. destruct Hc as [-> ->]. cbn [andb] in H. apply when_ok in H.
    destruct load; [|subst s'; split; [split; assumption|intros; discriminate]].
    unfold load1 in H. rg H. rg H. rewrite tget_hmod in H by apply S4. rewrite Nat.eqb_refl in H.
    pose proof (o_doc _ _ _ t s4 V4) as V5. set (s6 := hmod t (set_t_doc true) s4) in *.
    assert (K5 : fr s4 s6) by (apply fr_hmod; [intro; repeat split; apply prefix_refl|reflexivity]).
    rewrite is_root_eq in H by exact LC4. rg H. change (named_root (set_t_doc true (tget t s4))) with (named_root (tget t s4)) in H.
    assert (Pr4 : t_pt (tget t s4) = "root") by apply (n_pt _ _ _ _ _ (v_node _ _ _ _ V4 t) (proj2 S4)).
    unfold named_root in H at 1. rewrite Pr4 in H. destruct Rt4 as [[Er Nr]|[Er Nr]]; rewrite Er in H.
    + change (eqs "root" "root" && eqs "root" "section") with false in H. cbv iota in H.
      rewrite is_section_eq in H by exact LC4. rg H. unfold named_root in H. change (t_pt (set_t_doc true (tget t s4))) with (t_pt (tget t s4)) in H.
      change (t_rt (set_t_doc true (tget t s4))) with (t_rt (tget t s4)) in H. rewrite Pr4, Er in H.
      change (eqs "root" "root" && eqs "section" "section") with true in H. cbv iota in H. rb H as s7 k H7. apply ret_ok in H. destruct H as [-> _].
      pose proof H7 as K7. apply (w_add_section fr fr_po fr_hmod fr_sec) in K7.
      assert (Hn6 : t_val (tget t s6) = VStr n') by (unfold s6; rewrite (field_hmod t_val) by reflexivity; exact Hn').
      apply (o_add_section odd syn free t n') in H7; auto.
      2:{ apply section_hmod; [reflexivity|exact S4]. }
      2:{ unfold s6. rewrite (field_hmod t_section), (field_hmod t_ftype) by reflexivity. destruct O4; auto. }
      destruct H7 as (V7 & S7 & D7). split.
      * split; [exact V7| |].
        -- rewrite (proj1 (proj2 K7)), (proj1 (proj2 K5)). exact L4.
        -- eapply rts_po; [exact K14|]. eapply rts_po; apply fr_rts; eassumption.
      * intros m _ _ Hm Om _ Dm. rewrite Hv in Hm. injection Hm as <-. destruct (Z4 Om) as [Z5 Z6]. rewrite Hn' in Z5. injection Z5 as ->.
        change (s_doc s6) with (s_doc s4) in D7. rewrite Z6 in D7. destruct D7 as [[D7 _]|(_ & _ & ->)]; [congruence|].
        apply dget_dset_same.
    + change (eqs "root" "root" && eqs "root" "root") with true in H. cbv iota in H. apply ret_ok in H. destruct H as [-> _].
      split; [|intros; congruence]. split; [exact V5|exact L4|]. eapply rts_po; [exact K14|apply fr_rts; exact K5].
Qed.

(** ** Rows *)

Lemma kept_emit : forall load t, pres kept (emit load t).
Proof. intros. apply w_emit; auto using kept_po, kept_push, kept_hmod, kept_dmod, kept_sec, kept_pmod, kept_declare. Qed.

(** nothing but terms has been added *)
Record calm_step (s s' : st) : Prop := {
  cs_inv : inv s';
  cs_rts : rts s s';
  cs_last : p_lastsec (s_prs s') = p_lastsec (s_prs s);
}.

Lemma emitted_step : forall load s r s', emit load (hlen s) (push r s) = (s', Ok tt) -> emitted s r s' -> calm_step s s'.
Proof.
  intros load s r s' H E. split; try apply E. split; [|apply E].
  eapply kept_po; [apply (kept_push r)|]. eapply kept_emit. exact H.
Qed.

Lemma o_args : forall load ft line args t n col s s', good_name n -> inv s -> t < hlen s -> t_rt (tget t s) = n ->
  emit_args load ft line t col args s = (s', Ok tt) -> calm_step s s'.
Proof.
  intros load ft line args t n. induction args as [|a args IH]; intros col s s' G V Ht Rt H.
  - cbn in H. apply ret_ok in H. destruct H as [-> _]. split; [exact V|apply rts_po|reflexivity].
  - cbn [emit_args] in H. rb H as s1 u H1. destruct u. apply when_ok in H1. unfold nonempty in H1.
    eqs_cases (strip a) ""; cbn [negb] in H1; [subst s1; eapply IH; eassumption|].
    rg H1. rg H1. rb H1 as s2 k H2. unfold rt_lc in H2. rewrite Rt in H2. pose proof G as G0. destruct G as (G1 & G2 & G3 & G4 & G5). rewrite G3 in H2.
    assert (Hc : is_section_cls (parser_term_class (dotted n (str_of_nat col)) s) = false)
      by (eapply construct_sec_parent with (parent := Some t); [discriminate|exact H2]).
    apply construct_plain in H2; [|exact Hc]. destruct H2 as (p & r & Tn & As & -> & ->).
    destruct (str_of_nat_digits col) as [D _].
    assert (Nn : n <> "").
    { intros ->. unfold term_names in Tn. change (split_term_lower (dotted "" (str_of_nat col))) with (split_term_lower ("." ++ str_of_nat col)) in Tn.
      assert (CN : cell_names ("." ++ str_of_nat col) ELIDED_TERM (str_of_nat col)).
      { rewrite <- (digits_lower _ D) at 2.
        apply (cell_elided _ "" (str_of_nat col)); [reflexivity|constructor|apply digits_dot_free; exact D|].
        apply trimmed_iff, tidy_strip, digits_starts, D. }
      apply split_term_lower_spec in CN. rewrite CN in Tn. cbn in Tn. injection Tn as <- <-.
      specialize (As t eq_refl). rewrite Rt in As. discriminate. }
    assert (CN : cell_names (dotted n (str_of_nat col)) n (str_of_nat col)).
    { rewrite <- G3 at 2. rewrite <- (digits_lower _ D) at 2.
      apply (cell_qualified _ n (str_of_nat col)); auto; [apply digits_dot_free, D|apply trimmed_iff, tidy_strip, G1|].
      apply trimmed_iff, tidy_strip, digits_starts, D. }
    apply split_term_lower_spec in CN. unfold term_names in Tn. rewrite CN in Tn. cbn [rbind] in Tn. injection Tn as Tp <-.
    assert (p = n) as -> by (destruct (eqs n ROOT_TERM); [unfold tget in Rt; congruence|congruence]). clear Tp.
    match type of H1 with emit _ _ (push ?r _) = _ => set (R := r) in * end.
    assert (F : fresh_calm R).
    { split; try reflexivity; try discriminate; try exact Hc.
      - split; assumption.
      - apply digits_lower, D.
      - intros X. exfalso. unfold registers in X. apply Bool.andb_true_iff in X. destruct X as [_ X].
        change (negb (1 <? col + 2) = true) in X. apply Bool.negb_true_iff, Nat.ltb_ge in X. lia.
      - intros [X|X]; change (n = "root") in X || change (n = ELIDED_TERM) in X; contradiction.
      - intros X. change (n = ELIDED_TERM) in X. contradiction.
      - intros X. change (n = "root") in X. contradiction. }
    pose proof H1 as E1. apply o_emit in E1; [|exact V|exact F]. pose proof (emitted_step _ _ _ _ H1 E1) as [A1 A2 A3].
    apply IH in H; auto.
    + destruct H as [B1 B2 B3]. split; [exact B1|eapply rts_po; eassumption|congruence].
    + destruct A2 as [A2 _]. apply kept_hlen in A2. lia.
    + rewrite (proj2 A2) by exact Ht. exact Rt.
Qed.

Section File.
  Variables (e : env) (load : bool) (rec : source -> option string -> MM unit).
  Hypothesis files : forall x rows, fetch e x = Some rows -> Forall (quiet_row odd syn) rows.
  Hypothesis Hrec : forall src ft s s', Forall (quiet_row odd syn) (src_rows src) -> inv s -> rec src ft s = (s', Ok tt) -> inv s'.
  Hypothesis Krec : forall src ft, pres kept (rec src ft).

  (** what a row leaves behind: the invariant, and the section it keeps for the rows that follow *)
  Record row_calm (ft : option string) (l : line) (ls ls' : nat) (s s' : st) : Prop := {
    rc_inv : inv s';
    rc_kept : kept s s';
    rc_sec : section s' ls';
    rc_last : ls = p_lastsec (s_prs s) -> ls' = p_lastsec (s_prs s');
    rc_head : load = true -> ft <> Some "declare" ->
      match l with
      | LSection n _ => In (lower (strip n)) odd \/ dget (lower (strip n)) (d_sections (s_doc s')) = Some ls'
      | _ => ls' = ls
      end
  }.

  Lemma o_include : forall src ls r b s s', inv s -> section s ls -> fresh_calm r ->
    include_row e load rec src ls (hlen s) b (push r s) = (s', Ok tt) -> inv s' /\ kept s s' /\ p_lastsec (s_prs s') = ls.
  Proof.
    intros src ls r b s s' V S F H. unfold include_row in H. rg H. rb H as s1 v H1. apply lift_ok in H1. destruct H1 as [-> _].
    rb H as s1 y H1. apply lift_ok in H1. destruct H1 as [-> _]. rb H as s1 u H1.
    assert (s1 = push r s).
    { destruct (src_ref src) as [f|]; [|apply ret_ok in H1; tauto]. destruct (eqs f y); [discriminate H1|apply ret_ok in H1; tauto]. }
    subst s1. rb H as s2 u2 H2. destruct u2. pose proof H2 as E2. apply o_emit in E2; [|exact V|exact F].
    pose proof (emitted_step _ _ _ _ H2 E2) as [A1 [A2 _] A3].
    destruct (fetch e y) as [rows|] eqn:Ef; [|discriminate H]. rg H. rb H as s3 u3 H3. destruct u3.
    pose proof H3 as K3. apply Krec in K3. apply Hrec in H3; [|apply (files _ _ Ef)|exact A1].
    assert (K : kept s s3) by (eapply kept_po; eassumption).
    pose proof H as K4. apply kept_emit in K4.
    apply o_emit_sec in H; [|exact H3|eapply kept_section; [exact K|exact S]]. destruct H as [[B1 B2 _] _].
    split; [exact B1|]. split; [eapply kept_po; eassumption|exact B2].
  Qed.

  Lemma class_section : forall s, inv s -> parser_term_class "root.section" s = CSection.
  Proof. intros s V. unfold parser_term_class, class_for. change (lower "root.section") with "root.section". rewrite (gr_section _ (v_reg _ _ _ _ V)). reflexivity. Qed.

  Lemma o_row : forall src ft line row l ls s s' ls', inv s -> section s ls -> reads row l -> quiet_line odd syn l ->
    row_step e load rec src ft line row ls s = (s', Ok ls') -> row_calm ft l ls ls' s s'.
  Proof.
    intros src ft line row l ls s s' ls' V Sl Rl Q H. unfold row_step in H.
    destruct (skip_row row) eqn:Sk.
    { apply ret_ok in H. destruct H as [-> ->]. inversion Rl as [|B|B|? ? B]; subst; try (apply not_blank in Sk; contradiction).
      - split; [exact V|apply kept_po|exact Sl|auto|auto].
      - exfalso. apply B. apply skip_blank. exact Sk.
      - exfalso. apply B. apply skip_blank. exact Sk.
      - exfalso. apply B. apply skip_blank. exact Sk. }
    destruct (split_term_lower (hd "" row)) as [[p n]|er] eqn:Sp; [|discriminate H].
    rg H. cbn iota beta in H. rg H.
    assert (CN : cell_names (hd "" row) p n) by (apply split_term_lower_spec; exact Sp).
    pose proof (cell_names_tidy _ _ _ CN) as (T1 & T2 & T3 & T4 & T5 & T6 & T7).
    assert (Sp2 : split_term_lower (dotted p n) = Ok (p, n)).
    { apply split_term_lower_spec. apply (cell_names_dotted _ _ _ CN). }
    assert (Fn : forall p' n', cell_names (hd "" row) p' n' -> p' = p /\ n' = n).
    { intros p' n' C. apply split_term_lower_spec in C. rewrite Sp in C. injection C as <- <-. auto. }
    rb H as s1 t Hc.
    pose proof (construct_cls _ _ _ _ _ _ _ _ _ _ _ T3 T4 Sp2 T5 T6 Hc) as [Cc|(Cc & Ep & Cn)].
    - (* an ordinary class *)
      assert (NS : ~ (p = "root" /\ n = "section")).
      { intros [-> ->]. change (dotted "root" "section") with "root.section" in Cc. rewrite class_section in Cc by exact V. discriminate Cc. }
      apply construct_plain in Hc; [|exact Cc]. destruct Hc as (p' & r' & Tn & _ & -> & ->).
      unfold term_names in Tn. rewrite Sp2 in Tn. cbn in Tn. injection Tn as <- <-.
      fold (row_rec (parser_term_class (dotted p n) s) line ft p n row) in H.
      set (c := parser_term_class (dotted p n) s) in *. set (R := row_rec c line ft p n row) in *.
      assert (Vr : forall x, t_val R = VStr x -> x = strip (nth 1 row "")).
      { intros x E. cbn [R row_rec fresh_plain t_val] in E. destruct (string_dec (nth 1 row "") "") as [Z|Z]; [rewrite Z in E; discriminate E|].
        rewrite init_val_str in E by exact Z. congruence. }
      assert (LS : match l with LSection _ _ => False | _ => True end).
      { inversion Rl as [|? C|? C|]; subst; auto. destruct (Fn _ _ C) as [<- <-]. apply NS. auto. }
      assert (F : fresh_calm R).
      { inversion Rl as [B|B C|B C|p0 n0 B C D]; subst l.
        - apply skip_blank in B. congruence.
        - destruct LS.
        - destruct (Fn _ _ C) as [<- <-]. destruct Q as (Q1 & Q2 & Q3). split; try reflexivity; try exact Cc; try discriminate; cbn; auto.
          + intros _. repeat split; try discriminate. apply dot_free_iff. reflexivity.
          + intros _. split; [reflexivity|]. split; [intros [E|[E|[]]]; discriminate E|discriminate].
          + intros _ _. split; [exact Q1|]. split; [exact Q2|]. intros x E. apply Vr in E. subst x. exact Q3.
        - destruct (Fn _ _ C) as [-> ->]. destruct Q as (Q1 & Q2 & Q3 & Q4 & Q5). split; try reflexivity; try exact Cc; try discriminate; cbn; auto.
          + intros Hp. split; [exact Q1|]. split.
            * intros [<-|[<-|[]]]; [|congruence]. destruct Hp as [Hp|Hp]; [apply NS; auto|]. apply (Q4 Hp). left. reflexivity.
            * intros E. destruct (Q5 E) as (U1 & U2 & U3). split; [|split; [exact U2|exact U3]]. intros x Ex. apply Vr in Ex. subst x. exact U1.
          + intros Hp Hn. apply (Q4 Hp). right. left. congruence.
          + intros Hp Hn. exfalso. apply (D Hp). right. left. congruence. }
      rg H. rewrite push_new in H.
      assert (LC : lc_name R) by (unfold lc_name; cbn; auto).
      rewrite is_include_bare in H by exact LC. rg H. rewrite is_declare_bare in H by exact LC. rg H.
      destruct (named_root R "include" || named_root R "declare") eqn:NI.
      + rb H as s2 u H2. destruct u. apply ret_ok in H. destruct H as [-> ->].
        apply o_include in H2; auto. destruct H2 as (A1 & A2 & A3).
        split; [exact A1|exact A2|eapply kept_section; [exact A2|exact Sl]|congruence|]. intros _ _. destruct l; [reflexivity|destruct LS|reflexivity..].
      + rewrite is_section_bare in H by exact LC. rg H.
        assert (NSc : named_root R "section" = false).
        { change (eqs "root" p && eqs "section" n = false). eqs_cases "root" p; [|reflexivity]. cbn [andb]. apply eqs_false. intros <-. apply NS. auto. }
        rewrite NSc in H. rg H. rb H as s2 u He. destruct u.
        pose proof He as E2. apply o_emit in E2; [|exact V|exact F]. pose proof (emitted_step _ _ _ _ He E2) as [A1 A2 A3].
        assert (Ht : hlen s < hlen s2) by apply (em_plain _ _ _ E2).
        pose proof (em_rt _ _ _ E2) as Er. pose proof (em_pt _ _ _ E2) as Ept. pose proof (em_args _ _ _ E2) as Ea. change (t_rt R) with n in Er.
        assert (Nn : py_int n = None /\ good_name n).
        { inversion Rl as [B|B C|B C|p0 n0 B C D]; subst l.
          - apply skip_blank in B. congruence.
          - destruct LS.
          - destruct (Fn _ _ C) as [<- <-]. split; [reflexivity|]. refine (conj T2 (conj T4 (conj T6 (conj _ _)))); discriminate.
          - destruct (Fn _ _ C) as [-> ->]. destruct Q as (Q1 & Q2 & Q3 & _). split; [exact Q1|]. exact (conj T2 (conj T4 (conj T6 (conj Q3 Q2)))). }
        destruct Nn as [N1 G]. unfold renamed in Er. rewrite N1 in Er.
        rg H.
        assert (LC2 : lc_name (tget (hlen s) s2)).
        { unfold lc_name. rewrite Er, Ept. unfold final_pt. change (t_pt R) with p. destruct (eqs p ELIDED_TERM); [|auto].
          destruct (v_lp _ _ _ _ V) as (X1 & X2 & _). auto. }
        rewrite is_section_bare in H by exact LC2. rg H. rewrite is_header_bare in H by exact LC2. rg H.
        rb H as s3 u He3. destruct u. apply ret_ok in H. destruct H as [-> ->].
        assert (X : calm_step s s3).
        { destruct (_ || _) in He3; [apply ret_ok in He3; destruct He3 as [-> _]; split; assumption|].
          apply (o_args _ _ _ _ _ n) in He3; auto. destruct He3 as [B1 B2 B3]. split; [exact B1|eapply rts_po; eassumption|congruence]. }
        destruct X as [X1 [X2 _] X3].
        split; [exact X1|exact X2|eapply kept_section; [exact X2|exact Sl]|congruence|]. intros _ _. destruct l; [reflexivity|destruct LS|reflexivity..].
    - (* a section *)
      subst p.
      assert (En : n = "section").
      { destruct Cn as [->| ->]; [reflexivity|]. exfalso. inversion Rl as [B|B C|B C|p0 n0 B C D]; subst l.
        - apply skip_blank in B. congruence.
        - destruct (Fn _ _ C) as [_ E]. discriminate E.
        - destruct (Fn _ _ C) as [_ E]. discriminate E.
        - destruct (Fn _ _ C) as [-> ->]. destruct Q as (_ & _ & Q3 & _). congruence. }
      subst n. set (v := nth 1 row "") in *.
      assert (Ql : l = LSection v (map strip (skipn 2 row))).
      { inversion Rl as [B|B C|B C|p0 n0 B C D]; subst l.
        - apply skip_blank in B. congruence.
        - reflexivity.
        - destruct (Fn _ _ C) as [_ E]. discriminate E.
        - destruct (Fn _ _ C) as [-> ->]. exfalso. apply D; [reflexivity|left; reflexivity]. }
      subst l. destruct Q as [Q1 Q2].
      change (dotted "root" "section") with "root.section" in *. rewrite Cc in Hc.
      apply (construct_section _ _ _ _ _ _ _ _ _ "root" "section" v) in Hc; [|exact Sp2|reflexivity].
      destruct Hc as [-> ->].
      match type of H with context [push ?r0 s] => change r0 with (section_rec v (heading_args (s_doc s) v (skipn 2 row)) line ft "root.section") in H end.
      set (R := section_rec _ _ _ _ _) in *.
      rg H. rewrite push_new in H. assert (LC : lc_name R) by (split; [apply dot_free_iff; reflexivity|split; reflexivity]).
      rewrite is_include_bare in H by exact LC. rg H. rewrite is_declare_bare in H by exact LC. rg H.
      change (named_root R "include" || named_root R "declare") with false in H. cbn iota in H.
      rewrite is_section_bare in H by exact LC. rg H. change (named_root R "section") with true in H. cbn iota in H.
      rb H as s1 i Hi. unfold section_for in Hi. rg Hi. rg Hi. rewrite push_new in Hi. change (is_section_cls (t_cls R)) with true in Hi. cbn iota in Hi.
      assert (Vn : v <> "").
      { intros E. unfold get_section in Hi. cbn [R section_rec fresh_plain t_val] in Hi. rewrite E in Hi. discriminate Hi. }
      assert (Tv : t_val R = VStr (strip v)) by (apply init_val_str; exact Vn).
      unfold get_section in Hi. rewrite Tv in Hi. cbn [as_str rbind] in Hi. rewrite doc_push in Hi.
      assert (Ha : (In "section" (map lower (t_args R)) -> In (lower (strip v)) odd) /\ synonyms_at syn (t_args R)).
      { cbn [R section_rec fresh_plain t_args]. unfold heading_args. destruct (skipn 2 row) eqn:Ek; [|auto]. apply (v_dsecs _ _ _ _ V v). }
      pose proof (v_root _ _ _ _ V) as [Lr _].
      assert (V1 : inv (push R s)).
      { apply inv_push; try reflexivity; [exact V| |discriminate]. split; try reflexivity; try discriminate.
        - intros _. split; [apply Ha|]. intros j c E. destruct j; discriminate E.
        - intros _. exists (strip v). split; [exact Tv|]. intros [I|[]]. apply Ha. exact I. }
      assert (Si : s1 = push R s /\ section s1 i /\ (dget (lower (strip v)) (d_sections (s_doc s)) = Some i \/ dget (lower (strip v)) (d_sections (s_doc s)) = None /\ i = hlen s)).
      { destruct (dget (lower (strip v)) (d_sections (s_doc s))) as [j|] eqn:E; apply ret_ok in Hi; destruct Hi as [-> ->]; (split; [reflexivity|]).
        - split; [|left; reflexivity]. destruct (v_secs _ _ _ _ V1 _ _ E) as (X & _). exact X.
        - split; [|right; auto]. split; [rewrite hlen_push; lia|rewrite push_new; reflexivity]. }
      destruct Si as (-> & Si & Di). clear Hi.
      rb H as s2 u He. destruct u. pose proof He as K2. apply kept_emit in K2.
      assert (K : kept s s2) by (eapply kept_po; [apply (kept_push R)|exact K2]).
      apply o_emit_sec in He; [|exact V1|exact Si]. destruct He as [[E1 E2 E3] E4].
      rg H. assert (S2 : section s2 i) by (eapply kept_section; [exact K2|exact Si]).
      destruct (sec_lc _ _ E1 S2) as [LC2 Rt2].
      rewrite is_section_bare in H by exact LC2. rg H. rewrite is_header_bare in H by exact LC2. rg H.
      rb H as s3 u He3. destruct u. apply ret_ok in H. destruct H as [-> ->].
      assert (X : s3 = s2).
      { destruct Rt2 as [[X _]|[X Y]].
        - unfold named_root in He3. rewrite X, (n_pt _ _ _ _ _ (v_node _ _ _ _ E1 i) (proj2 S2)) in He3.
          change (eqs "root" "root" && eqs "section" "section") with true in He3. cbn [orb] in He3. apply ret_ok in He3. tauto.
        - assert (Za : t_args (tget i s2) = []) by (rewrite Y; apply (v_rootn _ _ _ _ E1)). rewrite Za in He3.
          destruct (_ || _) in He3; [|cbn [emit_args] in He3]; apply ret_ok in He3; tauto. }
      subst s3. split; [exact E1|exact K|exact S2|congruence|].
      intros El Ef. destruct (in_dec string_dec (lower (strip v)) odd) as [O|O]; [left; exact O|right].
      destruct Di as [Di|[Di ->]]; [apply (kp_secs _ _ K); exact Di|].
      apply E4; auto; rewrite ?push_new; auto. cbn. lia.
  Qed.
  Lemma o_loop : forall src ft rows line ls s s', Forall (quiet_row odd syn) rows -> inv s -> section s ls ->
    rows_loop e load rec src ft line rows ls s = (s', Ok tt) -> inv s'.
  Proof.
    intros src ft. induction rows as [|row rows IH]; intros line ls s s' Q V S H; cbn [rows_loop] in H.
    - apply ret_ok in H. destruct H as [-> _]. exact V.
    - inversion Q as [|? ? (l & Rl & Ql) Q2]; subst. rb H as s1 ls1 H1. eapply o_row in H1; eauto. destruct H1 as [A1 A2 A3 A4 A5].
      eapply IH in H; eassumption.
  Qed.
End File.

Lemma o_generate : forall e load, (forall x rows, fetch e x = Some rows -> Forall (quiet_row odd syn) rows) ->
  forall n src ft s s', Forall (quiet_row odd syn) (src_rows src) -> inv s -> generate_terms e load n src ft s = (s', Ok tt) -> inv s'.
Proof.
  intros e load Fe. induction n as [|n IH]; intros src ft s s' Q V H; cbn [generate_terms] in H; [discriminate H|].
  rg H. eapply o_loop in H; eauto; [intros; apply kept_generate|apply (v_root _ _ _ _ V)].
Qed.

(** the section the parser is in is the one of the last heading *)
Definition at_heading (h : string) (ls : nat) (s : st) : Prop :=
  section s ls /\ ls = p_lastsec (s_prs s) /\ (In h odd \/ dget h (d_sections (s_doc s)) = Some ls).

Lemma last_nonempty : forall (x : string) xs d d', last (x :: xs) d = last (x :: xs) d'.
Proof. intros x xs. revert x. induction xs as [|y xs IH]; intros x d d'; [reflexivity|]. exact (IH y d d'). Qed.

Lemma o_rows : forall e n src, (forall x rows, fetch e x = Some rows -> Forall (quiet_row odd syn) rows) ->
  forall rows lines line ls h s s' ls', Forall2 reads rows lines -> Forall (quiet_line odd syn) lines -> inv s -> at_heading h ls s ->
  rows_to e true (generate_terms e true n) src None line rows ls s = (s', Ok ls') ->
  inv s' /\ at_heading (last (headings lines) h) ls' s'.
Proof.
  intros e n src Fe. induction rows as [|row rows IH]; intros lines line ls h s s' ls' R Q V A H; inversion R; subst; cbn [rows_to] in H.
  - apply ret_ok in H. destruct H as [-> ->]. auto.
  - rb H as s1 ls1 H1. inversion Q as [|? ? Ql Q2]; subst.
    eapply o_row in H1; eauto; [|intros; eapply o_generate; eassumption|intros; apply kept_generate|apply A].
    destruct H1 as [A1 A2 A3 A4 A5]. specialize (A4 (proj1 (proj2 A))). specialize (A5 eq_refl ltac:(discriminate)).
    assert (X : exists h1, last (headings (y :: l')) h = last (headings l') h1 /\ at_heading h1 ls1 s1).
    { destruct y.
      - exists h. split; [reflexivity|]. split; [exact A3|split; [exact A4|]]. destruct A as (_ & _ & [O|O]); [left; exact O|right]. rewrite A5. apply (kp_secs _ _ A2). exact O.
      - exists (lower (strip name)). split; [|split; [exact A3|split; [exact A4|exact A5]]].
        change (headings (LSection name cells :: l')) with (lower (strip name) :: headings l')%list. destruct (headings l') as [|x xs]; [reflexivity|]. exact (last_nonempty x xs h (lower (strip name))).
      - exists h. split; [reflexivity|]. split; [exact A3|split; [exact A4|]]. destruct A as (_ & _ & [O|O]); [left; exact O|right]. rewrite A5. apply (kp_secs _ _ A2). exact O.
      - exists h. split; [reflexivity|]. split; [exact A3|split; [exact A4|]]. destruct A as (_ & _ & [O|O]); [left; exact O|right]. rewrite A5. apply (kp_secs _ _ A2). exact O. }
    destruct X as (h1 & -> & X). eapply IH; eassumption.
Qed.

(** ** The beginning and the end *)

Lemma o_start : forall g, quiet_place odd syn g ->
  let s0 := new_doc (in_reg g) (in_terms g) (in_secs g) (in_super g) in
  inv (set_s_prs (fresh_parser s0) s0) /\ at_heading "root" 0 (set_s_prs (fresh_parser s0) s0).
Proof.
  intros g [Q1 Q2 Q3 Q4 Q5] s0.
  assert (S0 : section (set_s_prs (fresh_parser s0) s0) 0) by (split; [cbn; lia|reflexivity]).
  split; [|split; [exact S0|split; [reflexivity|right; reflexivity]]].
  split; try exact S0; try assumption; try reflexivity; try discriminate.
  - change (forall k td, dget k installed_terms = Some td -> decl_ok td). intros k td E. apply dget_in in E. unfold installed_terms in E. cbn [In] in E.
    repeat match type of E with _ \/ _ => destruct E as [E|E] end; try contradiction; injection E as <- <-; (split; [reflexivity|intros x X; injection X as <-; discriminate]).
  - split; reflexivity.
  - split; [apply dot_free_iff; reflexivity|]. split; [reflexivity|]. split; discriminate.
  - constructor; [intros []|constructor].
  - intros k i E. change ((if eqs k "root" then Some 0 else None) = Some i) in E. eqs_cases k "root"; [|discriminate E]. injection E as <-. subst k.
    split; [exact S0|]. split; [exists "Root"; split; reflexivity|]. right. split; [reflexivity|discriminate].
  - intros i. destruct i as [|i].
    + split; try reflexivity; try discriminate.
      * intros _. split; intros j c X; destruct j; discriminate X.
      * intros _ X. contradiction X. reflexivity.
      * intros _. exists "Root". split; [reflexivity|]. intros [[]|[]].
    + assert (T : tget (S i) (set_s_prs (fresh_parser s0) s0) = dummy_t) by (destruct i; reflexivity). rewrite T. split; discriminate.
  - intros k i E. change (dget k [(ELIDED_TERM, 0); ("root", 0)] = Some i) in E. apply dget_in in E. destruct E as [E|[E|[]]]; injection E as <- <-; cbn; lia.
  - intros i [].
  - intros i j I. destruct i as [|[|i]]; destruct I.
  - intros i j I. destruct i as [|[|i]]; destruct I.
  - intros i j I. destruct i as [|[|i]]; discriminate I.
  - apply distinct_started.
Qed.

Lemma calm_of : forall h ls s, inv s -> at_heading h ls s -> ~ In h odd -> calm odd s /\ section_name s = h.
Proof.
  intros h ls s V (S1 & -> & [O|O]) Nh; [contradiction|]. pose proof V as [V1 Vo V2 V3 V4 V5 V6 V7 V8 V9 V10 V11 V12 V13 V14 V15 V16 V17 V18 V19 V20 V21 V22 V23].
  split.
  - split; auto.
    + apply no_synonyms. exact V.
    + intros n Hn I. apply Hn. apply (V4 n). exact I.
    + intros k i E. destruct (V15 _ _ E) as ((X1 & X2) & (n & Y1 & Y2) & Z). split; [exact X1|]. split; [exact X2|]. split; [exists n; auto|].
      destruct (in_dec string_dec k odd) as [I|I]; [left; exact I|right]. destruct Z as [Z|[Z1 Z2]]; [contradiction|].
      pose proof (V16 i) as N. split; [exact X2|]. split; [|apply (n_rt _ _ _ _ _ N X2)].
      destruct (n_val _ _ _ _ _ N X2) as (n' & Y3 & Y4). assert (n' = n) as -> by congruence. rewrite Y2 in Y4.
      split; auto; [apply (n_at _ _ _ _ _ N X2)|apply (n_doc _ _ _ _ _ N X2)|apply (n_pt _ _ _ _ _ N X2)].
    + exists h. auto.
    + split; [exact V17|]. split; [intros i I; apply (V18 _ I)|]. intros i _. split; intros j I; [apply (V18 j), (V19 i j I)|apply (V20 i j I)].
  - unfold section_name. destruct (find _ _) as [[k i]|] eqn:E.
    + apply find_some in E. destruct E as [I E]. cbn [snd] in E. apply Nat.eqb_eq in E. subst i.
      apply in_dget in I; [|exact V14]. destruct (V15 _ _ I) as (_ & (n & Y1 & Y2) & _). destruct (V15 _ _ O) as (_ & (n' & Y3 & Y4) & _). congruence.
    + apply dget_in in O. eapply find_none in E; [|exact O]. cbn [snd] in E. apply Nat.eqb_neq in E. congruence.
Qed.

Lemma head_calm : forall g head rows lh s0, quiet_place odd syn g -> Forall2 reads head lh -> Forall (quiet_line odd syn) lh ->
  ~ In (current_heading lh) odd -> steps_to g (head ++ rows) head s0 -> calm odd s0 /\ section_name s0 = current_heading lh.
Proof.
  intros g head rows lh s0 P R Q Nh [ls H]. destruct (o_start g P) as [A B].
  eapply o_rows in H; [|apply (qp_files _ _ _ P)|eassumption..]. destruct H as [H1 H2]. eapply calm_of; eassumption.
Qed.

End Rows.

Lemma head_loads : forall odd syn g head rows lh ls s, quiet_place odd syn g -> Forall2 reads head lh -> Forall (quiet_line odd syn) lh ->
  ~ In (current_heading lh) odd -> means rows ls -> (forall k, In k (headings ls) -> ~ In k odd) -> loads g (head ++ rows) s ->
  exists s0, loads_after g head rows odd s0 ls s /\ section_name s0 = current_heading lh.
Proof.
  intros odd syn g head rows lh ls s P R Q Nh M O H.
  assert (X : exists s0, steps_to g (head ++ rows) head s0).
  { pose proof H as H0. unfold loads, load_into in H0.
    destruct (load_source_run (in_env g) (in_fuel g) (mk_source (in_ref g) (in_dir g) (head ++ rows)) (in_reg g) (in_terms g) (in_secs g) (in_super g)) as (k & K).
    destruct (K _ H0) as (s3 & H1 & _ & ->). clear K H0. destruct (in_fuel g) as [|f] eqn:Ef; [discriminate H1|]. cbn [generate_terms] in H1. rg H1.
    cbn [src_rows] in H1. rewrite rows_to_app in H1. rb H1 as s1 l1 H2. exists s1, l1. rewrite Ef. exact H2. }
  destruct X as [s0 X]. destruct (head_calm odd syn _ _ _ _ _ P R Q Nh X) as [C N]. exists s0. split; [|exact N]. split; assumption.
Qed.

(** ** Deciding whether rows are quiet *)

Fixpoint synb (syn : list nat) (i : nat) (cols : list string) : bool :=
  match cols with
  | [] => true
  | c :: cols' => (negb (eqs (lower c) "synonym") || existsb (Nat.eqb i) syn) && synb syn (S i) cols'
  end.
Definition quietb (odd : list string) (syn : list nat) (l : line) : bool :=
  match l with
  | LBlank => true
  | LSection n cells => (negb (mem_str "section" (map lower cells)) || mem_str (lower (strip n)) odd) && synb syn 0 cells
  | LHeader n cells => negb (mem_str "section" (map lower cells)) && synb syn 0 cells && negb (eqs (lower n) "synonym")
  | LTerm p r x cells =>
      match py_int r with None => true | Some _ => false end && negb (eqs r current_parent) && negb (eqs r "root")
      && (negb (eqs p current_parent) || negb (mem_str r ["section"; "header"]))
      && (negb (eqs r "declareterm")
          || negb (eqs (lower x) "synonym") && forallb (fun c => negb (eqs (lower c) "synonym")) cells
             && forallb (fun i => eqs (nth i cells "") "") syn)
  end.

Lemma synb_at : forall syn cols i, synb syn i cols = true -> forall j c, nth_error cols j = Some c -> lower c = "synonym" -> In (i + j) syn.
Proof.
  intros syn. induction cols as [|c0 cols IH]; intros i H j c E L; [destruct j; discriminate E|].
  cbn [synb] in H. apply andb_prop in H. destruct H as [H1 H2]. destruct j as [|j].
  - injection E as ->. rewrite L in H1. cbn in H1. apply existsb_exists in H1. destruct H1 as (k & I & Ek). apply Nat.eqb_eq in Ek. subst k. rewrite Nat.add_0_r. exact I.
  - rewrite Nat.add_succ_r. exact (IH (S i) H2 j c E L).
Qed.

Lemma quietb_quiet : forall odd syn l, quietb odd syn l = true -> quiet_line odd syn l.
Proof.
  intros odd syn [|n cells|n cells|p r x cells]; cbn [quietb quiet_line]; intros H.
  - exact I.
  - apply andb_prop in H. destruct H as [H1 H2]. split; [|intros j c; exact (synb_at _ _ 0 H2 j c)].
    apply orb_prop in H1. destruct H1 as [H1|H1]; [apply negb_true_iff in H1; intros X; destruct (mem_str_not _ _ H1 X)|].
    intros _. apply mem_str_in. exact H1.
  - apply andb_prop in H. destruct H as [H1 H3]. apply andb_prop in H1. destruct H1 as [H1 H2].
    split; [apply mem_str_not, negb_true_iff; exact H1|]. split; [intros j c; exact (synb_at _ _ 0 H2 j c)|]. apply eqs_false, negb_true_iff. exact H3.
  - repeat (apply andb_prop in H; let X := fresh "X" in destruct H as [H X]).
    split; [destruct (py_int r); [discriminate H|reflexivity]|]. apply negb_true_iff, eqs_false in X2, X1. split; [exact X2|]. split; [exact X1|].
    split.
    + intros ->. apply orb_prop in X0. destruct X0 as [X0|X0]; [discriminate X0|]. apply mem_str_not, negb_true_iff. exact X0.
    + intros ->. apply orb_prop in X. destruct X as [X|X]; [discriminate X|]. apply andb_prop in X. destruct X as [X Z]. apply andb_prop in X. destruct X as [X Y].
      split; [apply eqs_false, negb_true_iff; exact X|]. split.
      * apply Forall_forall. intros c Ic. apply (proj1 (forallb_forall _ _) Y) in Ic. apply negb_true_iff, eqs_false in Ic. exact Ic.
      * intros i c Is E. apply (proj1 (forallb_forall _ _) Z) in Is. apply eqs_true in Is. apply nth_error_nth with (d := "") in E. congruence.
Qed.

Lemma quiet_by : forall odd syn rows ls, read_rows rows = Some ls -> forallb (quietb odd syn) ls = true ->
  Forall2 reads rows ls /\ Forall (quiet_line odd syn) ls /\ Forall (quiet_row odd syn) rows.
Proof.
  intros odd syn. induction rows as [|row rows IH]; intros ls H Q; cbn [read_rows] in H.
  - injection H as <-. repeat split; constructor.
  - destruct (read_row row) as [l|] eqn:E; [|discriminate]. destruct (read_rows rows) as [ls'|] eqn:E'; [|discriminate]. injection H as <-.
    cbn [forallb] in Q. apply andb_prop in Q. destruct Q as [Q1 Q2]. apply quietb_quiet in Q1. apply read_row_reads in E. destruct (IH ls' eq_refl Q2) as (A & B & C).
    split; [constructor; assumption|]. split; [constructor; assumption|]. constructor; [exists l; auto|exact C].
Qed.
