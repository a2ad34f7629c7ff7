(** * EmitFacts: what one term going through the parser does to the state *)

From Verif Require Import StrFacts SpecNames NameFacts HeapFacts ConstructFacts Parser RunFacts.

Lemma upd_upd : forall {A} i (x y : A) l, upd i x (upd i y l) = upd i x l.
Proof. induction i; destruct l; simpl; auto. f_equal. apply IHi. Qed.
Lemma hmod_hmod : forall t f g s, t < hlen s -> hmod t g (hmod t f s) = hmod t (fun r => g (f r)) s.
Proof.
  intros t f g s H. unfold hmod at 1 3. rewrite tget_hmod by exact H. rewrite Nat.eqb_refl. unfold hmod.
  cbn [s_heap set_s_heap]. rewrite upd_upd. reflexivity.
Qed.

Lemma upd_comm : forall {A} i j (x y : A) l, i <> j -> upd i x (upd j y l) = upd j y (upd i x l).
Proof.
  intros A i j x y l. revert i j. induction l; intros i j N; destruct i, j; cbn; try reflexivity; try congruence.
  f_equal. apply IHl. congruence.
Qed.
Lemma hmod_comm : forall i j f g s, i <> j -> i < hlen s -> j < hlen s -> hmod i f (hmod j g s) = hmod j g (hmod i f s).
Proof.
  intros i j f g s N Hi Hj. unfold hmod at 1 3. rewrite !tget_hmod by assumption.
  replace (i =? j) with false by (symmetry; apply Nat.eqb_neq; exact N).
  replace (j =? i) with false by (symmetry; apply Nat.eqb_neq; congruence).
  unfold hmod. cbn [s_heap set_s_heap]. rewrite upd_comm by exact N. reflexivity.
Qed.

(** ** Meta data *)

Definition metaF (dt : dict tdecl) (dtvn : string) (r : trec) : trec :=
  let get k d := match decl_prop dt (tjoin r) k with Some v => v | None => d end in
  set_t_options (split_on "," (get "options" ""))
    (set_t_valid (Some (dmem (join_lc r) dt))
      (set_t_tvn (get "termvaluename" dtvn)
        (set_t_cpt (get "childpropertytype" "any") r))).

Lemma set_meta_run : forall t s,
  set_meta t s = (hmod t (metaF (p_dterms (s_prs s)) (p_dtvn (s_prs s))) s, Ok tt).
Proof. reflexivity. Qed.

Definition docmetaF (dt : dict tdecl) (dflt : string) (r : trec) : trec :=
  let prop k := decl_prop dt (tjoin r) k in
  let r1 := if eqs (t_cpt r) "" || eqs (t_cpt r) "any"
            then set_t_cpt (match prop "childpropertytype" with Some x => x | None => "any" end) r else r in
  if eqs (t_tvn r) "" || eqs (t_tvn r) dflt
  then set_t_tvn (match prop "termvaluename" with Some x => x | None => dflt end) r1 else r1.

Lemma add_term_meta_run : forall t s sec, t < hlen s -> t_section (tget t s) = Some sec -> sec <> t ->
  add_term_meta t s = (hmod t (docmetaF (d_decl_terms (s_doc s)) (t_dtvn (tget sec s))) s, Ok tt).
Proof.
  intros t s sec Ht Hs Hn. unfold add_term_meta, getT, getD, bind at 1, gets. unfold bind at 1. rewrite Hs.
  set (P := fun k => match dget (tjoin (tget t s)) (d_decl_terms (s_doc s)) with Some td => dget k (td_props td) | None => None end).
  change (match dget (tjoin (tget t s)) (d_decl_terms (s_doc s)) with Some td => dget "childpropertytype" (td_props td) | None => None end)
    with (P "childpropertytype").
  change (match dget (tjoin (tget t s)) (d_decl_terms (s_doc s)) with Some td => dget "termvaluename" (td_props td) | None => None end)
    with (P "termvaluename").
  assert (EP : forall k, decl_prop (d_decl_terms (s_doc s)) (tjoin (tget t s)) k = P k) by reflexivity.
  assert (W : forall (b : bool) f, when b (modT t f) s = (hmod t (fun r => if b then f r else r) s, Ok tt)).
  { intros b f. destruct b; cbn; [reflexivity|]. unfold ret. f_equal. symmetry. apply hmod_id. reflexivity. }
  unfold bind at 1. rewrite W. clear W.
  unfold bind at 1. 
  replace ((if eqs (t_tvn (tget t s)) "" then ret tt else ret tt) : MM unit) with (ret tt : MM unit) by (destruct (eqs _ _); reflexivity).
  cbn [ret]. unfold bind at 1.
  set (s1 := hmod t _ s).
  assert (D1 : hget sec (s_heap s1) = tget sec s).
  { change (hget sec (s_heap s1)) with (tget sec s1). unfold s1. rewrite tget_hmod by exact Ht.
    apply Nat.eqb_neq in Hn. rewrite Hn. reflexivity. }
  rewrite D1. unfold bind. 
  match goal with |- context [if ?b then modT _ _ else _] => destruct b eqn:B end.
  - rewrite modT_run. unfold assert_, ret. f_equal. unfold s1. rewrite hmod_hmod by exact Ht. unfold hmod. f_equal.
    f_equal. unfold docmetaF. rewrite B. reflexivity.
  - cbn. unfold assert_, ret. f_equal. unfold s1, hmod. f_equal. f_equal. unfold docmetaF. rewrite B. reflexivity.
Qed.

(** ** One plain term *)

Definition add_kid (c : nat) (r : trec) : trec := set_t_children (t_children r ++ [c]) r.
Definition add_top (c : nat) (r : trec) : trec := set_t_terms (t_terms r ++ [c]) r.

Lemma add_child_ok : forall q t s s', q < hlen s -> t < hlen s -> add_child q t s = (s', Ok tt) ->
  s' = hmod t (set_t_parent (Some q)) (hmod q (add_kid t) s).
Proof. intros q t s s' Hq Ht H. unfold add_child in H. rinv H. reflexivity. Qed.

Lemma mem_id_false : forall i l, ~ In i l -> mem_id i l = false.
Proof.
  intros i l H. unfold mem_id. apply not_true_is_false. intros E. apply existsb_exists in E.
  destruct E as (x & I & X). apply Nat.eqb_eq in X. subst. auto.
Qed.
Lemma mem_id_true : forall i l, In i l -> mem_id i l = true.
Proof. intros i l H. unfold mem_id. apply existsb_exists. exists i. split; [exact H|apply Nat.eqb_refl]. Qed.

(** a root-level term without children joins its section *)
Lemma section_add_run : forall sec t s, t < hlen s -> sec < hlen s -> sec <> t ->
  t_doc (tget sec s) = true -> ~ In t (t_terms (tget sec s)) -> ~ In t (d_terms (s_doc s)) ->
  t_section (tget t s) = Some sec -> pt_lc (tget t s) = "root" -> is_section_cls (t_cls (tget t s)) = false ->
  t_children (tget t s) = [] ->
  section_add_term sec t s =
  (hmod t (fun r => docmetaF (d_decl_terms (s_doc s)) (t_dtvn (tget sec s)) (set_t_doc true r))
     (dmod (fun d => set_d_terms (d_terms d ++ [t]) d) (hmod sec (add_top t) s)), Ok tt).
Proof.
  intros sec t s Ht Hs Hn Hd Hi Hdt Hsec Hroot Hcls Hch.
  assert (Hn' : t =? sec = false) by (apply Nat.eqb_neq; congruence).
  assert (Hn2 : sec =? t = false) by (apply Nat.eqb_neq; congruence).
  unfold section_add_term. unfold getT. unfold bind at 1, gets at 1. unfold bind at 1, gets at 1. unfold bind at 1.
  rewrite (mem_id_false _ _ Hi), Hroot. cbn [eqs String.eqb Ascii.eqb Bool.eqb]. unfold bind at 1. rewrite modT_run. rewrite Hd. unfold bind at 1, ret at 1.
  fold (add_top t).
  set (s1 := hmod sec (add_top t) s).
  assert (L1 : hlen s1 = hlen s) by apply hlen_hmod.
  assert (T1 : tget t s1 = tget t s) by (unfold s1; rewrite tget_hmod by exact Hs; rewrite Hn'; reflexivity).
  unfold doc_add_term_nosec, add_term_list. unfold bind at 1. unfold bind at 1. unfold bind at 1. rewrite modT_run.
  unfold bind at 1. unfold getD at 1, gets at 1. rewrite doc_hmod. rewrite (mem_id_false t).
  2:{ unfold s1. rewrite doc_hmod. exact Hdt. }
  unfold getT at 1. unfold bind at 1, gets at 1. rewrite tget_hmod by lia. rewrite Nat.eqb_refl, T1.
  cbn [t_section set_t_doc t_cls]. rewrite Hsec, Hcls. unfold bind at 1, assert_ at 1, ret at 1. unfold bind at 1. rewrite modD_run.
  unfold ret at 1. cbn [when].
  set (s2 := dmod _ _).
  assert (L2 : hlen s2 = hlen s) by (unfold s2; rewrite hlen_dmod, hlen_hmod; exact L1).
  assert (T2 : tget t s2 = set_t_doc true (tget t s)).
  { unfold s2. rewrite tget_dmod, tget_hmod by lia. rewrite Nat.eqb_refl, T1. reflexivity. }
  rewrite (add_term_meta_run t s2 sec); [|lia|rewrite T2; exact Hsec|exact Hn].
  unfold bind at 1, gets at 1.
  set (s3 := hmod t _ s2).
  assert (T3 : tget t s3 = docmetaF (d_decl_terms (s_doc s2)) (t_dtvn (tget sec s2)) (set_t_doc true (tget t s))).
  { unfold s3. rewrite tget_hmod by lia. rewrite Nat.eqb_refl, T2. reflexivity. }
  assert (F : forall a b r, t_section (docmetaF a b r) = t_section r /\ t_children (docmetaF a b r) = t_children r).
  { intros. unfold docmetaF. destruct (_ || _), (_ || _); split; reflexivity. }
  unfold heap_fuel. cbn [set_ownership]. unfold getT. unfold bind at 1, gets at 1. rewrite T3.
  rewrite (proj1 (F _ _ _)), (proj2 (F _ _ _)). cbn [t_section t_children set_t_doc]. rewrite Hsec, Hch.
  unfold bind at 1, assert_ at 1, ret at 1. cbn [mapM_]. unfold ret at 1. unfold bind, gets. rewrite T3.
  rewrite (proj1 (F _ _ _)). cbn [t_section set_t_doc]. rewrite Hsec. unfold assert_, ret. f_equal.
  unfold s3. assert (D2 : d_decl_terms (s_doc s2) = d_decl_terms (s_doc s)) by reflexivity. rewrite D2.
  assert (S2 : t_dtvn (tget sec s2) = t_dtvn (tget sec s)).
  { unfold s2. rewrite tget_dmod, tget_hmod by lia. rewrite Hn2. unfold s1. rewrite tget_hmod by exact Hs.
    rewrite Nat.eqb_refl. reflexivity. }
  rewrite S2. unfold s2.
  change (hmod t (set_t_doc true) s1) with (hmod t (set_t_doc true) s1).
  assert (C : forall f g s0, hmod t f (dmod g s0) = dmod g (hmod t f s0)) by reflexivity.
  rewrite !C. f_equal. rewrite hmod_hmod by lia. reflexivity.
Qed.

(** the state a fresh plain term [t] is handed over in *)
Record ready (t : nat) (s : st) : Prop := {
  rd_t : t < hlen s;
  rd_syn : synonyms (p_dterms (s_prs s)) = [];
  rd_sec : p_lastsec (s_prs s) < hlen s;
  rd_secn : p_lastsec (s_prs s) <> t;
  rd_secdoc : t_doc (tget (p_lastsec (s_prs s)) s) = true;
  rd_sect : ~ In t (t_terms (tget (p_lastsec (s_prs s)) s));
  rd_dt : ~ In t (d_terms (s_doc s));
  rd_tmap : forall k i, dget k (p_tmap (s_prs s)) = Some i -> i < hlen s /\ i <> t;
  rd_lp : dot_free (p_lastparent (s_prs s)) /\ lower (p_lastparent (s_prs s)) = p_lastparent (s_prs s);
  rd_cls : is_section_cls (t_cls (tget t s)) = false;
  rd_tsec : t_section (tget t s) = None;
  rd_tvn : t_tvn (tget t s) = "@value";
  rd_ch : t_children (tget t s) = [];
  rd_ft : t_ftype (tget t s) <> Some "declare";
  rd_pt : dot_free (t_pt (tget t s)) /\ lower (t_pt (tget t s)) = t_pt (tget t s);
  rd_rt : lower (renamed (p_pmap (s_prs s)) (t_rt (tget t s))) = renamed (p_pmap (s_prs s)) (t_rt (tget t s))
}.

(** the parent name the term ends with *)
Definition final_pt (s : st) (r : trec) : string :=
  if eqs (t_pt r) ELIDED_TERM then p_lastparent (s_prs s) else t_pt r.
(** does the term become the current parent of its name? *)
Definition registers (r : trec) : bool :=
  negb (eqs (t_pt r) ELIDED_TERM) && match t_col r with Some c => negb (Nat.ltb 1 c) | None => true end.
Definition reg_prs (t : nat) (n : string) (p : prec) : prec :=
  set_p_tmap (dset n t (dset ELIDED_TERM t (p_tmap p))) (set_p_lastparent n p).

(** the record of the term after the run *)
Definition settled (s : st) (q : nat) (r : trec) : trec :=
  let r1 := set_t_section (Some (p_lastsec (s_prs s))) (set_t_rt (renamed (p_pmap (s_prs s)) (t_rt r)) r) in
  let r2 := set_t_parent (Some q) (set_t_pt (final_pt s r) (metaF (p_dterms (s_prs s)) (p_dtvn (s_prs s)) r1)) in
  set_t_doc true
    (if eqs (final_pt s r) "root"
     then docmetaF (d_decl_terms (s_doc s)) (t_dtvn (tget (p_lastsec (s_prs s)) s)) (set_t_doc true r2) else r2).

(** [t] with parent [q] has been added *)
Record added (s s' : st) (t q : nat) (F : trec -> trec) (top : bool) : Prop := {
  ad_len : hlen s' = hlen s;
  ad_reg : s_reg s' = s_reg s;
  ad_doc : s_doc s' = if top then set_d_terms (d_terms (s_doc s) ++ [t]) (s_doc s) else s_doc s;
  ad_get : forall i, tget i s' =
    (let r := if i =? t then F (tget t s) else tget i s in
     let r := if i =? q then add_kid t r else r in
     if top && (i =? p_lastsec (s_prs s)) then add_top t r else r)
}.

Lemma docmeta_doc : forall a b r, set_t_doc true (docmetaF a b r) = docmetaF a b (set_t_doc true r).
Proof. intros. unfold docmetaF. cbn [t_cpt t_tvn set_t_doc]. change (tjoin (set_t_doc true r)) with (tjoin r). destruct (_ || _), (_ || _); reflexivity. Qed.

Lemma set_pt_id : forall r, set_t_pt (t_pt r) r = r.
Proof. destruct r. reflexivity. Qed.

(** the effect of attach *)
Lemma attach_ok : forall t s s', t < hlen s -> (forall k i, dget k (p_tmap (s_prs s)) = Some i -> i < hlen s) ->
  attach t s = (s', Ok tt) ->
  exists q, q < hlen s
    /\ (if registers (tget t s) then dget (t_pt (tget t s)) (dset (t_rt (tget t s)) t (dset ELIDED_TERM t (p_tmap (s_prs s)))) = Some q
        else dget (p_lastparent (s_prs s)) (p_tmap (s_prs s)) = Some q)
    /\ s' = hmod t (fun r => set_t_parent (Some q) (set_t_pt (final_pt s (tget t s)) r))
              (hmod q (add_kid t)
                (if registers (tget t s) then pmod (reg_prs t (t_rt (tget t s))) s else s)).
Proof.
  intros t s s' Ht Hm H. unfold attach in H. rinv H. unfold registers, final_pt.
  destruct (eqs (t_pt (tget t s)) ELIDED_TERM) eqn:E; cbn [negb andb].
  - rinv H. destruct (dget (p_lastparent (s_prs s)) (p_tmap (s_prs s))) as [q|] eqn:Q; [|discriminate H].
    exists q. pose proof (Hm _ _ Q) as Hq. split; [exact Hq|]. split; [reflexivity|].
    apply add_child_ok in H; [|rewrite hlen_hmod; assumption..]. subst s'.
    destruct (Nat.eq_dec q t) as [->|N].
    + rewrite !hmod_hmod by (rewrite ?hlen_hmod; assumption). reflexivity.
    + rewrite (hmod_comm q t) by (assumption || congruence).
      rewrite hmod_hmod by (rewrite hlen_hmod; assumption). reflexivity.
  - destruct (t_col (tget t s)) as [c|] eqn:Ec; [|discriminate H].
    destruct (Nat.ltb 1 c) eqn:Lt; cbn [negb].
    + destruct (dget (p_lastparent (s_prs s)) (p_tmap (s_prs s))) as [q|] eqn:Q; [|discriminate H].
      exists q. pose proof (Hm _ _ Q) as Hq. split; [exact Hq|]. split; [reflexivity|].
      apply add_child_ok in H; [|assumption..]. subst s'. unfold hmod at 1 3. f_equal. f_equal. f_equal.
      rewrite tget_hmod by assumption. destruct (t =? q) eqn:Z; [apply Nat.eqb_eq in Z; subst|]; destruct (tget _ s); reflexivity.
    + rinv H. rewrite prs_pmod in H. cbn [p_tmap set_p_tmap] in H.
      destruct (dget (t_pt (tget t s)) _) as [q|] eqn:Q in H; [|discriminate H].
      exists q. assert (Hq : q < hlen s).
      { rewrite !dget_dset in Q. destruct (eqs _ _) in Q; [injection Q as <-; exact Ht|]. destruct (eqs _ _) in Q; [injection Q as <-; exact Ht|].
        eapply Hm; eauto. }
      split; [exact Hq|]. split; [exact Q|].
      apply add_child_ok in H; [|rewrite hlen_pmod; assumption..]. subst s'.
      set (s1 := pmod _ s). change (pmod (reg_prs t (t_rt (tget t s))) s) with s1.
      unfold hmod at 1 3. f_equal. f_equal. f_equal.
      rewrite tget_hmod by (unfold s1; rewrite hlen_pmod; assumption). unfold s1. rewrite !tget_pmod.
      destruct (t =? q) eqn:Z; [apply Nat.eqb_eq in Z; subst|]; destruct (tget _ s); reflexivity.
Qed.

Lemma not_declare : forall {A} (f : option string) (a b : A), f <> Some "declare" ->
  match f with Some "declare" => a | _ => b end = b.
Proof.
  intros A f a b H. destruct f as [s|]; [|reflexivity].
  repeat match goal with |- context [match ?x with _ => _ end] => is_var x; destruct x; try reflexivity end.
  congruence.
Qed.

Lemma kid_comm : forall t x q r,
  set_t_doc true (set_t_parent (Some q) (set_t_pt x (add_kid t r))) = add_kid t (set_t_doc true (set_t_parent (Some q) (set_t_pt x r))).
Proof. destruct r. reflexivity. Qed.

Lemma docmeta_fields : forall a b r, t_pt (docmetaF a b r) = t_pt r /\ t_rt (docmetaF a b r) = t_rt r
  /\ t_ftype (docmetaF a b r) = t_ftype r.
Proof. intros. unfold docmetaF. destruct (_ || _), (_ || _); repeat split. Qed.

Lemma load1_plain : forall t s s', t < hlen s -> lc_name (tget t s) ->
  named_root (tget t s) "root" = false -> named_root (tget t s) "section" = false ->
  (t_pt (tget t s) = "root" -> In t (d_terms (s_doc s))) ->
  load1 t s = (s', Ok tt) -> s' = hmod t (set_t_doc true) s.
Proof.
  intros t s s' Ht LC N1 N2 Hin H. unfold load1 in H. rg H. rg H. rewrite tget_hmod in H by exact Ht. rewrite Nat.eqb_refl in H.
  rewrite is_root_eq in H by exact LC. rg H. change (named_root (set_t_doc true (tget t s))) with (named_root (tget t s)) in H.
  rewrite N1 in H. cbn iota in H.
  rewrite is_section_eq in H by exact LC. rg H. change (named_root (set_t_doc true (tget t s))) with (named_root (tget t s)) in H.
  rewrite N2 in H. cbn iota in H. change (pt_lc (set_t_doc true (tget t s))) with (pt_lc (tget t s)) in H.
  unfold pt_lc in H. rewrite (proj1 (proj2 LC)) in H. eqs_cases (t_pt (tget t s)) "root".
  - unfold doc_add_term, add_term_list in H. rb H as s8 b8 H8. rg H8. rg H8.
    rewrite mem_id_true in H8 by (apply Hin; exact E).
    apply ret_ok in H8. destruct H8 as [-> ->]. cbn [when] in H. apply ret_ok in H. destruct H as [-> _].
    rewrite hmod_hmod by exact Ht. reflexivity.
  - apply assert_ok in H. tauto.
Qed.

Lemma emit_plain : forall t s s', ready t s ->
  (final_pt s (tget t s) = "root" -> ~ In (renamed (p_pmap (s_prs s)) (t_rt (tget t s))) ["header"; "section"; "root"]) ->
  emit true t s = (s', Ok tt) ->
  exists q, q < hlen s
    /\ (if registers (tget t s)
        then dget (t_pt (tget t s)) (dset (renamed (p_pmap (s_prs s)) (t_rt (tget t s))) t (dset ELIDED_TERM t (p_tmap (s_prs s)))) = Some q
        else dget (p_lastparent (s_prs s)) (p_tmap (s_prs s)) = Some q)
    /\ added s s' t q (settled s q) (eqs (final_pt s (tget t s)) "root")
    /\ s_prs s' = if registers (tget t s) then reg_prs t (renamed (p_pmap (s_prs s)) (t_rt (tget t s))) (s_prs s) else s_prs s.
Proof.
  intros t s s' R Hnm H. destruct R as [rd_t0 rd_syn0 rd_sec0 rd_secn0 rd_secdoc0 rd_sect0 rd_dt0 rd_tmap0 rd_lp0 rd_cls0 rd_tsec0 rd_tvn0 rd_ch0 rd_ft0 rd_pt0 rd_rt0]. set (r0 := tget t s) in *. set (r1 := renamed (p_pmap (s_prs s)) (t_rt r0)) in *.
  set (sec := p_lastsec (s_prs s)) in *.
  assert (Hf0 : t_pt r0 = "root" -> ~ In r1 ["header"; "section"; "root"]).
  { intros E. apply Hnm. unfold final_pt. rewrite E. reflexivity. }
  assert (NR : forall pt n r, (pt = "root" -> ~ In r1 ["header"; "section"; "root"]) -> In n ["header"; "section"; "root"] ->
    t_pt r = pt -> t_rt r = r1 -> named_root r n = false).
  { intros pt n r A B C D. unfold named_root. rewrite C, D. eqs_cases "root" pt; [|reflexivity]. cbn [andb].
    apply eqs_false. intros ->. symmetry in E. apply A in E. auto. }
  unfold emit in H. rb H as s5 b Hc. unfold consume in Hc. rb Hc as s1 u Hr.
  rewrite rename_run in Hr by assumption. injection Hr as <- <-. rg Hc. rb Hc as s2 u2 Hs.
  (* the section is set *)
  set (f1 := fun r => set_t_rt (renamed (p_pmap (s_prs s)) (t_rt r)) r) in *.
  assert (L1 : hlen (hmod t f1 s) = hlen s) by apply hlen_hmod.
  assert (T1 : tget t (hmod t f1 s) = f1 r0) by (rewrite tget_hmod by assumption; rewrite Nat.eqb_refl; reflexivity).
  unfold set_section in Hs. rg Hs. rewrite T1 in Hs. change (t_cls (f1 r0)) with (t_cls r0) in Hs. rewrite rd_cls0 in Hs.
  unfold set_section_plain in Hs. rg Hs. rg Hs. rewrite T1 in Hs. change (t_tvn (f1 r0)) with (t_tvn r0) in Hs. rewrite rd_tvn0 in Hs.
  change (eqs (lower "@value") "section") with false in Hs. cbn iota in Hs.
  unfold property_names in Hs. change (t_cls (f1 r0)) with (t_cls r0) in Hs. change (t_section (f1 r0)) with (t_section r0) in Hs.
  rewrite rd_cls0, rd_tsec0 in Hs. cbn [map mem_str existsb] in Hs. rewrite modT_run in Hs. injection Hs as <- <-.
  rewrite ?prs_hmod in Hc. fold sec in Hc.
  rewrite hmod_hmod in Hc by assumption.
  set (f2 := fun r => set_t_section (Some sec) (f1 r)) in *. clear T1 L1.
  set (s2 := hmod t f2 s) in *.
  assert (L2 : hlen s2 = hlen s) by apply hlen_hmod.
  assert (T2 : tget t s2 = f2 r0) by (unfold s2; rewrite tget_hmod by assumption; rewrite Nat.eqb_refl; reflexivity).
  rg Hc. rewrite T2 in Hc.
  assert (LC : lc_name (f2 r0)).
  { split; [apply rd_pt0|split; [apply rd_pt0|exact rd_rt0]]. }
  rewrite is_header_eq in Hc by exact LC. rg Hc.
  rewrite (NR (t_pt r0)) in Hc by (auto; left; reflexivity). cbn iota in Hc.
  rewrite is_section_eq in Hc by exact LC. rg Hc. rewrite is_root_eq in Hc by exact LC. rg Hc.
  rewrite !(NR (t_pt r0)) in Hc by (auto; cbn; auto). cbn iota in Hc.
  rb Hc as s4 u4 Hn. rg Hc.
  (* consume_normal *)
  unfold consume_normal in Hn. rb Hn as s3 u3 Hm. rewrite set_meta_run in Hm. injection Hm as <- <-.
  change (s_prs s2) with (s_prs s) in Hn. unfold s2 in Hn. rewrite hmod_hmod in Hn by assumption. fold s2 in Hn.
  set (f3 := fun r => metaF (p_dterms (s_prs s)) (p_dtvn (s_prs s)) (f2 r)) in *.
  set (s3 := hmod t f3 s) in *.
  assert (L3 : hlen s3 = hlen s) by apply hlen_hmod.
  assert (T3 : tget t s3 = f3 r0) by (unfold s3; rewrite tget_hmod by assumption; rewrite Nat.eqb_refl; reflexivity).
  rb Hn as s6 u6 Ha. destruct u6. apply attach_ok in Ha.
  2:{ rewrite L3. exact rd_t0. }
  2:{ intros k i Hk. rewrite L3. apply (rd_tmap0 k i Hk). }
  rewrite T3, L3 in Ha. destruct Ha as (q & Hq & Hl & Hs6).
  assert (Reg : registers (f3 r0) = registers r0) by reflexivity.
  assert (Rt3 : t_rt (f3 r0) = r1) by reflexivity. assert (Pt3 : t_pt (f3 r0) = t_pt r0) by reflexivity.
  assert (Fp : final_pt s3 (f3 r0) = final_pt s r0) by reflexivity.
  rewrite Reg, Rt3, Pt3 in Hl. rewrite Reg, Rt3, Fp in Hs6. change (p_tmap (s_prs s3)) with (p_tmap (s_prs s)) in Hl.
  change (p_lastparent (s_prs s3)) with (p_lastparent (s_prs s)) in Hl.
  exists q. split; [exact Hq|]. split; [exact Hl|].
  set (pt' := final_pt s r0) in *.
  assert (Hpt' : dot_free pt' /\ lower pt' = pt').
  { unfold pt', final_pt. destruct (eqs _ _); [exact rd_lp0|exact rd_pt0]. }
  set (s3' := if registers r0 then pmod (reg_prs t r1) s3 else s3) in *.
  assert (S3 : hlen s3' = hlen s /\ s_doc s3' = s_doc s /\ s_reg s3' = s_reg s /\ (forall i, tget i s3' = tget i s3)
     /\ s_prs s3' = if registers r0 then reg_prs t r1 (s_prs s) else s_prs s).
  { unfold s3'. destruct (registers r0); repeat split; assumption. }
  destruct S3 as (L3' & D3' & G3' & T3' & P3').
  set (f4 := fun r => set_t_parent (Some q) (set_t_pt pt' r)) in *.
  (* reads after attach *)
  assert (L6 : hlen s6 = hlen s) by (subst s6; rewrite !hlen_hmod; exact L3').
  assert (D6 : s_doc s6 = s_doc s) by (subst s6; rewrite !doc_hmod; exact D3').
  assert (P6 : s_prs s6 = s_prs s3') by (subst s6; rewrite !prs_hmod; reflexivity).
  assert (G6 : s_reg s6 = s_reg s) by (subst s6; rewrite !reg_hmod; exact G3').
  assert (T6 : forall i, tget i s6 = (let r := if i =? t then f3 r0 else tget i s in
                                      let r := if i =? q then add_kid t r else r in if i =? t then f4 r else r)).
  { intros i. subst s6. rewrite tget_hmod by (rewrite hlen_hmod; lia). rewrite !tget_hmod by lia. rewrite !T3'.
    unfold s3. rewrite !tget_hmod by assumption. fold r0. cbv zeta.
    destruct (Nat.eqb_spec i t) as [->|N].
    - rewrite Nat.eqb_refl. destruct (Nat.eqb_spec t q) as [<-|N2]; [rewrite Nat.eqb_refl|]; reflexivity.
    - destruct (Nat.eqb_spec i q) as [->|N2]; [|reflexivity].
      replace (q =? t) with false by (symmetry; apply Nat.eqb_neq; exact N). reflexivity. }
  assert (Ls : p_lastsec (s_prs s6) = sec).
  { rewrite P6, P3'. destruct (registers r0); reflexivity. }
  rg Hn. rg Hn. rewrite Ls in Hn.
  assert (T6t : pt_lc (tget t s6) = pt').
  { rewrite T6. cbv zeta. rewrite Nat.eqb_refl. unfold pt_lc. destruct (t =? q); cbn; apply Hpt'. }
  rewrite T6t in Hn.
  assert (Nst : sec =? t = false) by (apply Nat.eqb_neq; exact rd_secn0).
  assert (Qnt : pt' = "root" -> q <> t).
  { intros E ->. destruct (registers r0) eqn:Rg.
    - unfold registers in Rg. apply andb_prop in Rg. destruct Rg as [Rg _]. apply negb_true_iff in Rg.
      assert (E2 : t_pt r0 = "root") by (rewrite <- E; unfold pt', final_pt; rewrite Rg; reflexivity).
      rewrite E2 in Hl. rewrite !dget_dset in Hl. eqs_cases "root" r1.
      + apply (Hnm E). rewrite <- E0. right; right; left. reflexivity.
      + change (eqs "root" ELIDED_TERM) with false in Hl. apply rd_tmap0 in Hl. tauto.
    - apply rd_tmap0 in Hl. tauto. }
  assert (LC6 : forall r, t_pt r = pt' -> t_rt r = r1 -> lc_name r).
  { intros r A B. unfold lc_name. rewrite A, B. split; [apply Hpt'|split; [apply Hpt'|exact rd_rt0]]. }
  (* the top level *)
  destruct (eqs pt' "root") eqn:Top; cbn [when] in Hn.
  - apply eqs_true in Top.
    assert (Nqt : t =? q = false) by (apply Nat.eqb_neq; intros Z; symmetry in Z; revert Z; apply Qnt; exact Top).
    assert (Tt : tget t s6 = f4 (f3 r0)) by (rewrite T6; cbv zeta; rewrite Nat.eqb_refl, Nqt; reflexivity).
    rewrite section_add_run in Hn.
    2-10: try (rewrite L6; assumption); try assumption.
    2:{ rewrite T6. cbv zeta. rewrite Nst. destruct (sec =? q); exact rd_secdoc0. }
    2:{ rewrite T6. cbv zeta. rewrite Nst. destruct (sec =? q); exact rd_sect0. }
    2:{ rewrite D6. exact rd_dt0. }
    2:{ rewrite Tt. reflexivity. }
    2:{ rewrite T6t. exact Top. }
    2:{ rewrite Tt. exact rd_cls0. }
    2:{ rewrite Tt. exact rd_ch0. }
    set (f5 := fun r => docmetaF (d_decl_terms (s_doc s6)) (t_dtvn (tget sec s6)) (set_t_doc true r)) in *.
    set (s7 := hmod t f5 _) in *. injection Hn as <-.
    assert (T7 : tget t s7 = f5 (f4 (f3 r0))).
    { unfold s7. rewrite tget_hmod by (rewrite hlen_dmod, hlen_hmod; lia). rewrite Nat.eqb_refl, tget_dmod.
      rewrite tget_hmod by lia. rewrite Nat.eqb_sym, Nst, Tt. reflexivity. }
    assert (X : t_pt (tget t s7) = pt' /\ t_rt (tget t s7) = r1 /\ t_ftype (tget t s7) = t_ftype r0).
    { rewrite T7. unfold f5. destruct (docmeta_fields (d_decl_terms (s_doc s6)) (t_dtvn (tget sec s6)) (set_t_doc true (f4 (f3 r0)))) as (-> & -> & ->).
      repeat split. }
    destruct X as (X1 & X2 & X3). assert (L7 : hlen s7 = hlen s) by (unfold s7; rewrite hlen_hmod, hlen_dmod, hlen_hmod; exact L6).
    rewrite X3 in Hc. rewrite not_declare in Hc by exact rd_ft0. apply ret_ok in Hc. destruct Hc as [-> ->].
    cbn [andb when] in H. apply load1_plain in H.
    2:{ lia. }
    2:{ apply LC6; assumption. }
    2:{ apply (NR pt'); auto; cbn; auto. }
    2:{ apply (NR pt'); auto; cbn; auto. }
    2:{ intros _. unfold s7. rewrite doc_hmod, doc_dmod. cbn. apply in_or_app. right. left. reflexivity. }
    subst s'.
    split.
    + constructor.
      * rewrite !hlen_hmod. exact L7.
      * rewrite !reg_hmod. unfold s7. rewrite reg_hmod, reg_dmod, reg_hmod. exact G6.
      * rewrite !doc_hmod. unfold s7. rewrite doc_hmod, doc_dmod, doc_hmod, D6. reflexivity.
      * intros i. rewrite !tget_hmod by lia. rewrite T7.
        cbv zeta. fold sec. destruct (Nat.eqb_spec i t) as [->|Ni].
        -- rewrite Nqt. rewrite (Nat.eqb_sym t sec), Nst. cbn [andb].
           unfold f5, settled. fold r0. fold r1. fold pt'. fold sec. replace (eqs pt' "root") with true by (symmetry; apply eqs_true; exact Top).
           rewrite D6. rewrite T6. cbv zeta. fold sec. rewrite Nst.
           replace (t_dtvn (if sec =? q then add_kid t (tget sec s) else tget sec s)) with (t_dtvn (tget sec s))
             by (destruct (sec =? q); reflexivity).
           reflexivity.
        -- unfold s7. rewrite tget_hmod by (rewrite hlen_dmod, hlen_hmod; lia).
           replace (i =? t) with false by (symmetry; apply Nat.eqb_neq; exact Ni).
           rewrite tget_dmod, tget_hmod by lia. rewrite !T6. cbv zeta. rewrite Nst.
           replace (i =? t) with false by (symmetry; apply Nat.eqb_neq; exact Ni).
           cbn [andb]. destruct (Nat.eqb_spec i sec) as [->|Ni2]; reflexivity.
    + rewrite !prs_hmod. unfold s7. rewrite prs_hmod, prs_dmod, prs_hmod, P6. exact P3'.
  - apply ret_ok in Hn. destruct Hn as [-> _].
    assert (Tt : tget t s6 = f4 (let r := f3 r0 in if t =? q then add_kid t r else r)).
    { rewrite T6. cbv zeta. rewrite Nat.eqb_refl. reflexivity. }
    assert (Ft : t_ftype (tget t s6) = t_ftype r0) by (rewrite Tt; cbv zeta; destruct (t =? q); reflexivity).
    rewrite Ft in Hc. rewrite not_declare in Hc by exact rd_ft0. apply ret_ok in Hc. destruct Hc as [-> ->].
    cbn [andb when] in H.
    assert (Npt : t_pt (tget t s6) = pt') by (rewrite Tt; reflexivity).
    assert (Nrt : t_rt (tget t s6) = r1) by (rewrite Tt; cbv zeta; destruct (t =? q); reflexivity).
    apply load1_plain in H.
    2:{ lia. }
    2:{ apply LC6; assumption. }
    2:{ apply (NR pt'); auto; cbn; auto. }
    2:{ apply (NR pt'); auto; cbn; auto. }
    2:{ intros Z. rewrite Npt in Z. apply eqs_false in Top. contradiction. }
    subst s'.
    split; [|rewrite prs_hmod, P6; exact P3'].
    constructor.
    + rewrite hlen_hmod. exact L6.
    + rewrite reg_hmod. exact G6.
    + rewrite doc_hmod. exact D6.
    + intros i. rewrite tget_hmod by lia. cbn [andb]. rewrite !T6. cbv zeta. rewrite Nat.eqb_refl. fold r0.
      unfold settled. fold r0. fold pt'. rewrite Top. fold r1. fold sec.
      destruct (Nat.eqb_spec i t) as [->|Ni].
      * unfold f4. destruct (t =? q); [rewrite kid_comm|]; reflexivity.
      * destruct (i =? q); reflexivity.
Qed.

(** ** Sections and headers *)

(** a section object that assignments to its attributes leave alone *)
Record plain_section (r : trec) : Prop := {
  ps_cls : is_section_cls (t_cls r) = true;
  ps_tvn : t_tvn r = "@value";
  ps_sec : t_section r = None;
  ps_doc : t_doc r = true;
  ps_args : ~ In "section" (map lower (t_args r));
  ps_hargs : ~ In "section" (map lower (t_hargs r));
  ps_ft : t_ftype r <> Some "declare";
  ps_pt : t_pt r = "root"
}.

Lemma mem_str_false : forall x l, ~ In x l -> mem_str x l = false.
Proof.
  intros x l H. unfold mem_str. apply not_true_is_false. intros E. apply existsb_exists in E.
  destruct E as (y & I & X). apply eqs_true in X. subst. auto.
Qed.

Lemma set_section_sec_run : forall t o s, plain_section (set_t_section None (tget t s)) ->
  set_section t o s = (hmod t (set_t_section o) s, Ok tt).
Proof.
  intros t o s P. destruct P as [P1 P2 _ _ P3 P4 _ _]. cbn in P1, P2, P3, P4.
  unfold set_section. unfold bind at 1, getT at 1, gets at 1. rewrite P1. unfold set_section_sec.
  unfold bind, getT, gets. rewrite P2. change (eqs (lower "@value") "section") with false. cbn iota.
  rewrite mem_str_false; [reflexivity|]. unfold sec_property_names.
  destruct (t_hargs (tget t s)); assumption.
Qed.

Lemma set_sec_id : forall r, t_section r = None -> set_t_section None r = r.
Proof. destruct r. cbn. intros ->. reflexivity. Qed.

Lemma rename_id : forall t s, synonyms (p_dterms (s_prs s)) = [] -> py_int (t_rt (tget t s)) = None ->
  rename_term t s = (s, Ok tt).
Proof.
  intros t s H N. rewrite rename_run by exact H. f_equal. apply hmod_id. unfold renamed. rewrite N.
  destruct (tget t s); reflexivity.
Qed.

Lemma set_sec_twice : forall t o s, t < hlen s -> t_section (tget t s) = None ->
  hmod t (set_t_section None) (hmod t (set_t_section o) s) = s.
Proof.
  intros t o s Ht H. rewrite hmod_hmod by exact Ht. apply hmod_id. destruct (tget t s). cbn in H. subst. reflexivity.
Qed.

Lemma plain_section_lc : forall r n, plain_section r -> t_rt r = n -> lower n = n -> lc_name r.
Proof.
  intros r n P E L. unfold lc_name. rewrite E, (ps_pt _ P). split; [apply dot_free_iff; reflexivity|]. split; [reflexivity|exact L].
Qed.

Lemma set_doc_id : forall r, t_doc r = true -> set_t_doc true r = r.
Proof. destruct r. cbn. intros ->. reflexivity. Qed.

Lemma emit_section : forall t s s', t < hlen s -> synonyms (p_dterms (s_prs s)) = [] ->
  plain_section (tget t s) -> t_rt (tget t s) = "section" -> emit true t s = (s', Ok tt) ->
  exists n, t_val (tget t s) = VStr n
    /\ s' = dmod (fun d => match dget (lower n) (d_sections d) with
                           | Some _ => d | None => set_d_sections (dset (lower n) t (d_sections d)) d end)
             (pmod (fun p => set_p_dtvn "@value" (set_p_lastsec t
                        (set_p_lastparent (t_rt (tget (d_root (s_doc s)) s))
                          (set_p_pmap (munge_param_map (t_args (tget t s))) p)))) s).
Proof.
  intros t s s' Ht Syn P Rt H. unfold emit in H. rb H as s1 b Hc. unfold consume in Hc. rb Hc as s2 u Hr.
  rewrite rename_id in Hr by (auto; rewrite Rt; reflexivity). injection Hr as <- <-. rg Hc.
  rb Hc as s2 u Hs. rewrite set_section_sec_run in Hs by (rewrite set_sec_id by apply P; exact P). injection Hs as <- <-.
  set (o := Some (p_lastsec (s_prs s))) in *. rg Hc.
  set (s2 := hmod t (set_t_section o) s) in *.
  assert (T2 : tget t s2 = set_t_section o (tget t s)) by (unfold s2; rewrite tget_hmod by exact Ht; rewrite Nat.eqb_refl; reflexivity).
  rewrite T2 in Hc. set (r := tget t s) in *.
  assert (LC : lc_name r) by (apply (plain_section_lc _ "section"); auto).
  assert (LC2 : lc_name (set_t_section o r)) by exact LC.
  assert (NM : forall n, named_root (set_t_section o r) n = eqs n "section").
  { intros n. unfold named_root. cbn [t_pt t_rt set_t_section]. rewrite (ps_pt _ P), Rt. reflexivity. }
  rewrite is_header_eq in Hc by exact LC2. rg Hc. rewrite NM in Hc. cbn [eqs String.eqb Ascii.eqb Bool.eqb] in Hc.
  rewrite is_section_eq in Hc by exact LC2. rg Hc. rewrite is_root_eq in Hc by exact LC2. rg Hc.
  rewrite !NM in Hc. cbn [eqs String.eqb Ascii.eqb Bool.eqb] in Hc.
  rb Hc as s3 u Hx. rg Hx. rg Hx. rg Hx.
  change (s_doc s2) with (s_doc s) in Hx. change (t_args (set_t_section o r)) with (t_args r) in Hx.
  assert (Rr : t_rt (hget (d_root (s_doc s)) (s_heap s2)) = t_rt (tget (d_root (s_doc s)) s)).
  { change (hget (d_root (s_doc s)) (s_heap s2)) with (tget (d_root (s_doc s)) s2). unfold s2.
    rewrite tget_hmod by exact Ht. destruct (Nat.eqb_spec (d_root (s_doc s)) t) as [->|]; reflexivity. }
  rewrite Rr in Hx.
  set (fp := fun p => _) in Hx.
  rewrite set_section_sec_run in Hx.
  2:{ rewrite tget_pmod, T2. change (set_t_section None (set_t_section o r)) with (set_t_section None r).
      rewrite set_sec_id by apply P. exact P. }
  injection Hx as <- <-.
  assert (E3 : hmod t (set_t_section None) (pmod fp s2) = pmod fp s).
  { change (hmod t (set_t_section None) (pmod fp s2)) with (pmod fp (hmod t (set_t_section None) s2)).
    unfold s2. rewrite set_sec_twice by (auto; apply P). reflexivity. }
  rewrite E3 in Hc. rg Hc. rewrite tget_pmod in Hc. fold r in Hc. rewrite not_declare in Hc by apply P.
  apply ret_ok in Hc. destruct Hc as [-> ->]. cbn [andb when] in H.
  unfold load1 in H. rg H. rg H.
  assert (E4 : hmod t (set_t_doc true) (pmod fp s) = pmod fp s).
  { apply hmod_id. rewrite tget_pmod. apply set_doc_id. apply P. }
  rewrite E4 in H. rewrite tget_pmod in H. fold r in H.
  rewrite is_root_eq in H by exact LC. rg H.
  assert (NM' : forall n, named_root r n = eqs n "section") by (intros n; apply (NM n)).
  rewrite NM' in H. cbn [eqs String.eqb Ascii.eqb Bool.eqb] in H.
  rewrite is_section_eq in H by exact LC. rg H. rewrite NM' in H. cbn [eqs String.eqb Ascii.eqb Bool.eqb] in H.
  rb H as s4 k Ha. apply ret_ok in H. destruct H as [-> _]. unfold add_section in Ha. rg Ha. rewrite E4 in Ha. rg Ha.
  rewrite tget_pmod in Ha. fold r in Ha. rewrite (ps_cls _ P) in Ha. rb Ha as s5 u Hb. apply assert_ok in Hb. destruct Hb as [_ ->].
  rb Ha as s5 n Hb. apply lift_ok in Hb. destruct Hb as [-> Hb].
  assert (V : t_val r = VStr n) by (destruct (t_val r); try discriminate Hb; injection Hb as ->; reflexivity).
  exists n. split; [exact V|]. rg Ha. rewrite doc_pmod in Ha.
  destruct (dget (lower n) (d_sections (s_doc s))) as [j|] eqn:Dg.
  - apply ret_ok in Ha. destruct Ha as [-> _]. unfold dmod. rewrite doc_pmod, Dg. unfold fp, pmod. destruct s; reflexivity.
  - rg Ha. apply ret_ok in Ha. destruct Ha as [-> _]. unfold dmod. rewrite !doc_pmod, Dg. reflexivity.
Qed.

Lemma emit_root : forall t s s', t < hlen s -> synonyms (p_dterms (s_prs s)) = [] ->
  plain_section (tget t s) -> t_rt (tget t s) = "root" -> emit true t s = (s', Ok tt) ->
  s' = pmod (set_p_lastsec t) s.
Proof.
  intros t s s' Ht Syn P Rt H. unfold emit in H. rb H as s1 b Hc. unfold consume in Hc. rb Hc as s2 u Hr.
  rewrite rename_id in Hr by (auto; rewrite Rt; reflexivity). injection Hr as <- <-. rg Hc.
  rb Hc as s2 u Hs. rewrite set_section_sec_run in Hs by (rewrite set_sec_id by apply P; exact P). injection Hs as <- <-.
  set (o := Some (p_lastsec (s_prs s))) in *. rg Hc.
  set (s2 := hmod t (set_t_section o) s) in *.
  assert (T2 : tget t s2 = set_t_section o (tget t s)) by (unfold s2; rewrite tget_hmod by exact Ht; rewrite Nat.eqb_refl; reflexivity).
  rewrite T2 in Hc. set (r := tget t s) in *.
  assert (LC : lc_name r) by (apply (plain_section_lc _ "root"); auto).
  assert (LC2 : lc_name (set_t_section o r)) by exact LC.
  assert (NM : forall n, named_root (set_t_section o r) n = eqs n "root").
  { intros n. unfold named_root. cbn [t_pt t_rt set_t_section]. rewrite (ps_pt _ P), Rt. reflexivity. }
  rewrite is_header_eq in Hc by exact LC2. rg Hc. rewrite NM in Hc. cbn [eqs String.eqb Ascii.eqb Bool.eqb] in Hc.
  rewrite is_section_eq in Hc by exact LC2. rg Hc. rewrite is_root_eq in Hc by exact LC2. rg Hc.
  rewrite !NM in Hc. cbn [eqs String.eqb Ascii.eqb Bool.eqb] in Hc.
  rb Hc as s3 u Hx. rg Hx. set (fp := set_p_lastsec t) in *.
  rewrite set_section_sec_run in Hx.
  2:{ rewrite tget_pmod, T2. change (set_t_section None (set_t_section o r)) with (set_t_section None r).
      rewrite set_sec_id by apply P. exact P. }
  injection Hx as <- <-.
  assert (E3 : hmod t (set_t_section None) (pmod fp s2) = pmod fp s).
  { change (hmod t (set_t_section None) (pmod fp s2)) with (pmod fp (hmod t (set_t_section None) s2)).
    unfold s2. rewrite set_sec_twice by (auto; apply P). reflexivity. }
  rewrite E3 in Hc. rg Hc. rewrite tget_pmod in Hc. fold r in Hc. rewrite not_declare in Hc by apply P.
  apply ret_ok in Hc. destruct Hc as [-> ->]. cbn [andb when] in H.
  unfold load1 in H. rg H. rg H.
  assert (E4 : hmod t (set_t_doc true) (pmod fp s) = pmod fp s).
  { apply hmod_id. rewrite tget_pmod. apply set_doc_id. apply P. }
  rewrite E4 in H. rewrite tget_pmod in H. fold r in H.
  rewrite is_root_eq in H by exact LC. rg H.
  assert (NM' : forall n, named_root r n = eqs n "root") by (intros n; apply (NM n)).
  rewrite NM' in H. cbn [eqs String.eqb Ascii.eqb Bool.eqb] in H. apply ret_ok in H. tauto.
Qed.

Lemma emit_header : forall t s s', t < hlen s -> synonyms (p_dterms (s_prs s)) = [] ->
  p_lastsec (s_prs s) <> t -> p_lastsec (s_prs s) < hlen s ->
  is_section_cls (t_cls (tget t s)) = false -> t_section (tget t s) = None -> t_tvn (tget t s) = "@value" ->
  t_pt (tget t s) = "root" -> t_rt (tget t s) = "header" -> emit true t s = (s', Ok tt) ->
  exists v, as_str (t_val (tget t s)) = Ok v
    /\ s' = hmod (p_lastsec (s_prs s)) (fun r => set_t_dtvn (lower v) (set_t_hargs (t_args (tget t s)) r))
             (pmod (fun p => set_p_dtvn (lower v) (set_p_pmap (munge_param_map (t_args (tget t s))) p))
               (hmod t (set_t_section (Some (p_lastsec (s_prs s)))) s)).
Proof.
  intros t s s' Ht Syn Hn Hl Cl Se Tv Pt Rt H. unfold emit in H. rb H as s1 b Hc. unfold consume in Hc. rb Hc as s2 u Hr.
  rewrite rename_id in Hr by (auto; rewrite Rt; reflexivity). injection Hr as <- <-. rg Hc.
  rb Hc as s2 u Hs. unfold set_section in Hs. rg Hs. rewrite Cl in Hs. unfold set_section_plain in Hs. rg Hs. rg Hs.
  rewrite Tv in Hs. change (eqs (lower "@value") "section") with false in Hs. cbn iota in Hs.
  unfold property_names in Hs. rewrite Cl, Se in Hs. cbn [map mem_str existsb] in Hs. rewrite modT_run in Hs. injection Hs as <- <-.
  set (o := Some (p_lastsec (s_prs s))) in *. rg Hc. set (r := tget t s) in *.
  set (s2 := hmod t (set_t_section o) s) in *.
  assert (T2 : tget t s2 = set_t_section o r) by (unfold s2; rewrite tget_hmod by exact Ht; rewrite Nat.eqb_refl; reflexivity).
  rewrite T2 in Hc.
  assert (LC : lc_name (set_t_section o r)).
  { unfold lc_name. cbn [t_pt t_rt set_t_section]. rewrite Pt, Rt. split; [apply dot_free_iff; reflexivity|split; reflexivity]. }
  rewrite is_header_eq in Hc by exact LC. rg Hc. unfold named_root in Hc. cbn [t_pt t_rt set_t_section] in Hc. rewrite Pt, Rt in Hc.
  cbn [eqs String.eqb Ascii.eqb Bool.eqb andb] in Hc. rg Hc. rb Hc as s3 v Hv. apply lift_ok in Hv. destruct Hv as [-> Hv].
  rg Hc. rg Hc. apply ret_ok in Hc. destruct Hc as [-> ->]. cbn [andb when] in H. apply ret_ok in H. destruct H as [-> _].
  exists v. split; [exact Hv|]. reflexivity.
Qed.
