(** * MoreFacts: loading a further file into a document *)

From Verif Require Import ListFacts StrFacts SpecNames NameFacts HeapFacts ConstructFacts Parser RunFacts EmitFacts TreeFacts DigitFacts RowFacts ParseFacts DocFacts ForestFacts ParseProps TotalFacts AnswerFacts OrderlyFacts DeclareFacts SpecInclude IncludeFacts IncFacts SpecHead HeadFacts PrintFacts ReadFacts RoundFacts SpecInv SpecRound SpecOutline OutlineFacts SpecMore SpecDoc.

(** ** The background: all that is there, none of it known by name *)

Definition again (odd : list string) (s : st) : background :=
  {| b_base := hlen s; b_wild := wild s; b_old := wild_old s; b_odd := odd; b_known := fun _ => None;
     b_tops := d_terms (s_doc s); b_sterms := fun i => t_terms (tget i s) |}.

Definition unnamed (s : st) : Prop := forall n, n <> "root" -> n <> ELIDED_TERM -> dget n (p_tmap (s_prs s)) = None.

Lemma again_pinv : forall odd s, calm odd s -> @pinv (again odd s) s.
Proof. intros odd s C. destruct (calm_pinv odd s C). split; assumption. Qed.

Lemma again_vinv : forall odd s line, calm odd s -> unnamed s -> @vinv (again odd s) (cols_in s) (view_of line s) s.
Proof.
  intros odd s line C U. pose proof (again_pinv odd s C) as P. destruct (calm_vinv odd s line C). split; assumption.
Qed.

Lemma again_oinv : forall odd s line, calm odd s -> unnamed s ->
  @oinv (again odd s) (fun i => t_children (tget i s)) (world_in s) (view_of line s) (heads_of s) [] s.
Proof.
  intros odd s line C U. pose proof (again_vinv odd s line C U) as V. destruct (oinv_past odd s line C) as [A1 A2 A3 A4 A5 A6 A7 A8 A9]. split; try assumption.
  destruct A2 as [B1 B2 B3 B4]. split; [constructor|intros e i l []|split; constructor|exact B4].
Qed.

Lemma greets_again : forall odd s ls, (forall k, In k (headings ls) -> ~ In k odd) -> Forall (@greets (again odd s)) ls.
Proof. intros odd s ls H. exact (greets_odd odd s ls H). Qed.

(** ** The start *)

Lemma reopened_prs : forall odd s, calm odd (reopened s) ->
  s_prs (reopened s) = {| p_pmap := []; p_dsecs := installed_sections; p_dterms := installed_terms; p_lastparent := "root";
    p_tmap := [(ELIDED_TERM, d_root (s_doc s)); ("root", d_root (s_doc s))]; p_dtvn := "@value"; p_lastsec := d_root (s_doc s) |}.
Proof.
  intros odd s C. destruct (ca_rootn _ _ C) as [A _]. change (t_rt (tget (d_root (s_doc s)) s) = "root") in A.
  cbn [reopened s_prs set_s_prs]. unfold fresh_parser. rewrite A. reflexivity.
Qed.

Lemma reopened_unnamed : forall odd s, calm odd (reopened s) -> unnamed (reopened s).
Proof.
  intros odd s C n A B. rewrite (reopened_prs _ _ C). cbn [p_tmap dget]. apply eqs_false in A, B. rewrite A, B. reflexivity.
Qed.

Lemma reopened_cur : forall odd s, calm odd (reopened s) -> section_name (reopened s) = "root".
Proof.
  intros odd s C. pose proof (ca_root _ _ C) as R. destruct (ca_cur _ _ C) as (k & K & _).
  pose proof (section_name_ok _ _ (ca_names _ _ C) K) as S.
  assert (L : p_lastsec (s_prs (reopened s)) = d_root (s_doc (reopened s))) by reflexivity.
  rewrite L in S. eapply (sec_key_inj (Bk := again odd (reopened s))); [apply again_pinv; exact C|exact S|exact R].
Qed.

Lemma reopened_view : forall odd s, calm odd (reopened s) -> view_of 1 (reopened s) = fresh_view (heads_of s).
Proof.
  intros odd s C. unfold view_of, fresh_view. rewrite (reopened_cur _ _ C), (reopened_prs _ _ C). cbn [p_pmap p_dtvn p_lastparent].
  f_equal. unfold heads_of. rewrite map_map. reflexivity.
Qed.

Lemma reopened_notodd : forall odd s, calm odd (reopened s) -> ~ In "root" odd.
Proof.
  intros odd s C. destruct (ca_cur _ _ C) as (k & K & N).
  assert (k = "root") as ->; [|exact N].
  eapply (sec_key_inj (Bk := again odd (reopened s))); [apply again_pinv; exact C|exact K|exact (ca_root _ _ C)].
Qed.

(** the root is loaded again, to no effect *)
Lemma root_again : forall odd s, calm odd (reopened s) -> load1 (d_root (s_doc s)) (reopened s) = (reopened s, Ok tt).
Proof.
  intros odd s C. set (m := reopened s) in *. pose proof (ca_root _ _ C) as R. destruct (ca_rootn _ _ C) as [Rn _].
  destruct (ca_secs _ _ C _ _ R) as (_ & _ & _ & [O|(_ & T & _)]); [exfalso; eapply reopened_notodd; eassumption|].
  change (d_root (s_doc s)) with (d_root (s_doc m)). set (i := d_root (s_doc m)) in *.
  unfold load1. eapply bind_fw; [rewrite modT_run; reflexivity|].
  rewrite hmod_id by (pose proof (ty_doc _ T) as D; destruct (tget i m); cbn in D |- *; rewrite D; reflexivity).
  fw. unfold term_is. rewrite (ty_pt _ T), Rn. reflexivity.
Qed.

Lemma load_more_fw : forall odd e f src s, calm odd (reopened s) ->
  load_source e (S f) src s = bind (rows_loop e true (generate_terms e true f) src None 1 (src_rows src) (d_root (s_doc s))) (fun _ => finish_load) (reopened s).
Proof.
  intros odd e f src s C. unfold load_source. unfold start_parser, modify. unfold bind at 1. fold (reopened s). fw.
  eapply bind_fw; [exact (root_again _ _ C)|]. cbn [generate_terms]. reflexivity.
Qed.

Lemma load_more_run : forall odd e fuel src ls s s', calm odd (reopened s) -> means (src_rows src) ls -> (forall k, In k (headings ls) -> ~ In k odd) ->
  load_source e fuel src s = (s', Ok tt) ->
  exists s1, @rows_eff (again odd (reopened s)) None 1 (src_rows src) (reopened s) s1 /\ finish_load s1 = (s', Ok tt).
Proof.
  intros odd e fuel src ls s s' C [Rd U] Od L. destruct fuel as [|f].
  - exfalso. unfold load_source in L. unfold start_parser, modify in L. unfold bind at 1 in L. fold (reopened s) in L.
    rg L. rb L as s2 u2 L2. change (d_root (s_doc (reopened s))) with (d_root (s_doc s)) in L2. rewrite (root_again _ _ C) in L2. injection L2 as <- <-. discriminate L.
  - rewrite (load_more_fw _ _ _ _ _ C) in L. rb L as s1 u1 L1. exists s1. split; [|exact L].
    destruct u1. eapply rows_loop_eff; [discriminate|apply again_pinv; exact C|eapply reads_ordinary; eassumption|eapply reads_welcome; [exact Rd|apply greets_again; exact Od]|exact L1].
Qed.

(** ** What a file leaves alone *)

Lemma rows_keep : forall {Bk : background} ftype n rows s s', rows_eff ftype n rows s s' ->
  p_dsecs (s_prs s') = p_dsecs (s_prs s) /\ d_decl_sections (s_doc s') = d_decl_sections (s_doc s)
  /\ p_dterms (s_prs s') = p_dterms (s_prs s) /\ d_decl_terms (s_doc s') = d_decl_terms (s_doc s) /\ d_super (s_doc s') = d_super (s_doc s)
  /\ same_cls s s'.
Proof.
  intros Bk ftype n rows s s' H. induction H as [|n row rows s s1 s' H1 H2 H3 IH]; [repeat split|].
  pose proof H1 as X. apply row_eff_secs in X. destruct X as [X1 X2]. pose proof H1 as Y. apply row_eff_terms in Y. destruct Y as (Y1 & Y2 & Y3).
  destruct IH as (A & B & C & D & E & F). repeat split; try congruence. eapply same_cls_trans; [eapply row_eff_cls; exact H1|exact F].
Qed.

Lemma dset_there : forall {A} k (v : A) d, dget k d = Some v -> dset k v d = d.
Proof.
  intros A k v d. induction d as [|[a b] d IH]; [discriminate|]. cbn [dget dset]. eqs_cases k a; [intros H; injection H as ->; subst a; reflexivity|].
  intros H. rewrite IH by exact H. reflexivity.
Qed.
Lemma dget_nodup : forall {A} (d : dict A) k v, NoDup (dkeys d) -> In (k, v) d -> dget k d = Some v.
Proof.
  intros A d k v. unfold dkeys. induction d as [|[a b] d IH]; [intros _ []|]. cbn [map fst dget]. intros Nd [I|I].
  - injection I as -> ->. rewrite eqs_refl. reflexivity.
  - inversion Nd as [|? ? N1 N2]; subst. eqs_cases k a; [|apply IH; assumption]. subst a. exfalso. apply N1. apply in_map_iff. exists (k, v). auto.
Qed.
Lemma dupdate_self : forall {A} (d : dict A), NoDup (dkeys d) -> dupdate d d = d.
Proof.
  intros A d Nd. unfold dupdate. assert (H : forall l, (forall x, In x l -> In x d) -> fold_left (fun acc kv => dset (fst kv) (snd kv) acc) l d = d).
  { induction l as [|[k v] l IH]; intros H; [reflexivity|]. cbn [fold_left fst snd]. rewrite dset_there; [apply IH; intros x I; apply H; right; exact I|].
    apply dget_nodup; [exact Nd|]. apply H. left. reflexivity. }
  apply H. auto.
Qed.

(** what is declared afterwards *)
Lemma finish_decl : forall s s', finish_load s = (s', Ok tt) ->
  d_decl_sections (s_doc s') = dupdate (d_decl_sections (s_doc s)) (p_dsecs (s_prs s))
  /\ d_decl_terms (s_doc s') = dupdate (d_decl_terms (s_doc s)) (p_dterms (s_prs s))
  /\ d_super (s_doc s') = dupdate (d_super (s_doc s)) (super_terms s).
Proof.
  intros s s' H. unfold finish_load, getP, bind, gets in H. rewrite !modD_run in H. injection H as <-. split; [reflexivity|]. split; reflexivity.
Qed.

Lemma more_decl : forall odd e fuel src ls s s', calm odd (reopened s) -> means (src_rows src) ls -> (forall k, In k (headings ls) -> ~ In k odd) -> load_source e fuel src s = (s', Ok tt) ->
  d_decl_sections (s_doc s') = dupdate (d_decl_sections (s_doc s)) installed_sections
  /\ d_decl_terms (s_doc s') = dupdate (d_decl_terms (s_doc s)) installed_terms
  /\ (NoDup (dkeys (d_super (s_doc s))) -> d_super (s_doc s') = d_super (s_doc s) /\ same_cls (reopened s) (reopened s')).
Proof.
  intros odd e fuel src ls s s' C M Od L. destruct (load_more_run _ _ _ _ _ _ _ C M Od L) as (s1 & RE & FL).
  destruct (rows_keep _ _ _ _ _ RE) as (K1 & K2 & K3 & K4 & K5 & K6). destruct (finish_decl _ _ FL) as (F1 & F2 & F3).
  split; [rewrite F1, K1, K2; reflexivity|]. split; [rewrite F2, K3, K4; reflexivity|]. intros Nd.
  assert (Su : super_terms s1 = d_super (s_doc s)).
  { unfold super_terms. rewrite K5, K3. change (d_super (s_doc (reopened s))) with (d_super (s_doc s)). change (p_dterms (s_prs (reopened s))) with installed_terms.
    destruct (d_super (s_doc s)); reflexivity. }
  assert (E : d_super (s_doc s') = d_super (s_doc s)).
  { rewrite F3, K5, Su. change (d_super (s_doc (reopened s))) with (d_super (s_doc s)). apply dupdate_self. exact Nd. }
  split; [exact E|]. destruct (finish_load_ok s1) as (s2 & FL2 & F). rewrite FL in FL2. injection FL2 as <-.
  eapply same_cls_trans; [exact K6|]. apply same_cls_by; [exact (fi_reg _ _ F)| |rewrite K3; reflexivity].
  change (d_super (s_doc (reopened s'))) with (d_super (s_doc s')). rewrite E, K5. reflexivity.
Qed.

(** ** The outline *)

Lemma more_run : forall odd e fuel src ls s s', calm odd (reopened s) -> means (src_rows src) ls -> (forall k, In k (headings ls) -> ~ In k odd) -> load_source e fuel src s = (s', Ok tt) ->
  let w := world_in (reopened s) in let v := fresh_view (heads_of s) in
  Forall2 (fun kv h => section_of s' kv h
     /\ exists new, t_terms (tget (snd kv) s') = (terms_of s (h_key h) ++ new)%list
        /\ Forall2 (fun t x => shows s' "root" (bare t) x /\ keeps s' t x) (tops (h_key h) (made w v (heads_of s) ls)) new)
    (d_sections (s_doc s')) (heads w v (heads_of s) ls)
  /\ grow s s' /\ (forall i, i < hlen s -> i <> d_root (s_doc s) -> t_children (tget i s') = t_children (tget i s))
  /\ exists s1, @vinv (again odd (reopened s)) (cols_in (reopened s)) (fold_left (next (cols_in (reopened s))) ls v) s1 /\ finished s1 s' /\ d_root (s_doc s1) = d_root (s_doc s).
Proof.
  intros odd e fuel src ls s s' C M Od L w v. destruct (load_more_run _ _ _ _ _ _ _ C M Od L) as (s1 & RE & FL). destruct M as [Rd U].
  destruct (finish_load_ok s1) as (s2 & FL2 & F). rewrite FL in FL2. injection FL2 as <-. clear L FL.
  pose proof (again_oinv odd (reopened s) 1 C (reopened_unnamed _ _ C)) as O. change (heads_of (reopened s)) with (heads_of s) in O. rewrite (reopened_view _ _ C) in O. fold v w in O.
  destruct (oinv_rows (Bk := again odd (reopened s)) _ _ None (src_rows src) ls v (heads_of s) [] (reopened s) s1 ltac:(discriminate) O Rd U (greets_again odd _ ls Od) (or_introl (fun _ => eq_refl)) RE) as (N & E & O').
  cbn [app] in O'. pose proof (again_pinv odd _ C) as P0.
  pose proof (rows_eff_inv (Bk := again odd (reopened s)) _ _ _ _ _ P0 RE) as [_ G].
  pose proof (rows_eff_root (Bk := again odd (reopened s)) _ _ _ _ _ RE) as Rt. change (d_root (s_doc (reopened s))) with (d_root (s_doc s)) in Rt.
  assert (Eh : forall i, tget i s' = tget i s1) by (intros i; unfold tget; rewrite (fi_heap _ _ F); reflexivity).
  split; [|split; [|split]].
  - pose proof (oinv_sections _ _ _ _ _ _ O') as Q. rewrite E in Q. rewrite (fi_sections _ _ F).
    eapply Forall2_imp; [|exact Q]. intros [k i] h (K0 & SO & new & T & W). cbn [fst snd] in *. split; [unfold section_of in *; cbn [fst snd] in *; rewrite Eh; exact SO|].
    exists new. split.
    2:{ eapply Forall2_imp; [|exact W]. intros t x [Y Z]. split; [eapply shows_same; [apply F|exact Y]|eapply keeps_same; [apply F|exact Z]]. }
    rewrite Eh, T. f_equal. unfold before, terms_of. cbn [b_base b_sterms again]. destruct SO as (A & _). cbn [fst] in A. rewrite <- A.
    change (d_sections (s_doc s)) with (d_sections (s_doc (reopened s))). destruct (dget k (d_sections (s_doc (reopened s)))) as [i0|] eqn:E0.
    + pose proof (rows_eff_dsec (Bk := again odd (reopened s)) _ _ _ _ _ _ _ RE E0) as Y. rewrite Y in K0. injection K0 as <-. destruct (ca_secs _ _ C _ _ E0) as (Hi & _).
      rewrite (proj2 (Nat.ltb_lt _ _) Hi). reflexivity.
    + pose proof (rows_newsec (Bk := again odd (reopened s)) _ _ _ _ _ _ _ P0 RE E0 K0) as Y. rewrite (proj2 (Nat.ltb_ge _ _) Y). reflexivity.
  - eapply grow_finished; [|exact F]. destruct G. split; assumption.
  - intros i Hi Ni. rewrite Eh. apply (oi_old _ _ _ _ _ _ O'); [exact Hi|]. rewrite Rt. exact Ni.
  - exists s1. split; [apply (oi_view _ _ _ _ _ _ O')|]. split; [exact F|exact Rt].
Qed.

Lemma more_heads : forall odd e fuel src ls s s', calm odd (reopened s) -> means (src_rows src) ls -> (forall k, In k (headings ls) -> ~ In k odd) -> load_source e fuel src s = (s', Ok tt) ->
  heads_of s' = heads (world_in (reopened s)) (fresh_view (heads_of s)) (heads_of s) ls.
Proof.
  intros odd e fuel src ls s s' C M Od L. destruct (more_run _ _ _ _ _ _ _ C M Od L) as (O & _). unfold heads_of at 1.
  revert O. generalize (heads (world_in (reopened s)) (fresh_view (heads_of s)) (heads_of s) ls) as hs. generalize (d_sections (s_doc s')) as ks. intros ks hs O.
  induction O as [|kv h ks hs [S1 _] _ IH]; [reflexivity|]. cbn [map]. f_equal; [|exact IH]. destruct S1 as (A1 & A2 & A3 & A4 & A5 & A6).
  unfold head_of. rewrite A1, A3, A4, A5, A6. destruct h. reflexivity.
Qed.

(** trees stay what they are *)
Lemma named_ind' : forall P : tree -> Prop, (forall n v kids, n <> "" -> Forall named kids -> Forall P kids -> P (Tree n v kids)) -> forall t, named t -> P t.
Proof.
  intros P H. fix IH 2. intros t N. destruct N as [n v kids N1 N2]. apply H; auto. induction N2 as [|k ks N3 _ IHk]; constructor; [apply IH; exact N3|exact IHk].
Qed.

Lemma shows_more : forall s0 s, grow s0 s -> (forall i, i < hlen s0 -> i <> d_root (s_doc s0) -> t_children (tget i s) = t_children (tget i s0)) ->
  t_section (tget (d_root (s_doc s0)) s0) = None ->
  forall t, named t -> forall p x, p <> "" -> shows s0 p t x -> shows s p t x.
Proof.
  intros s0 s G Ch Rt t Nm. induction Nm as [n v kids Nn Nk IH] using named_ind'. intros p x Np H. inversion H as [? ? ? ? i A B C D F K]; subst.
  assert (Hx : x < hlen s0) by (destruct (Nat.lt_ge_cases x (hlen s0)) as [X|X]; [exact X|]; destruct (tget_over x s0 X) as [X1 _]; congruence).
  assert (Hi : i < hlen s0) by (destruct (Nat.lt_ge_cases i (hlen s0)) as [X|X]; [exact X|]; destruct (tget_over i s0 X) as [_ X1]; congruence).
  assert (Xr : x <> d_root (s_doc s0)) by (intros ->; congruence).
  pose proof (gw_same _ _ G x Hx) as M.
  apply shows_term with (i := i); rewrite ?(sm_rt _ _ M), ?(sm_val _ _ M), ?(sm_section _ _ M); auto.
  - unfold parent_named in *. rewrite (sm_parent _ _ M). rewrite (sm_pt _ _ M). destruct (t_parent (tget x s0)) as [q|]; [|exact C].
    assert (Hq : q < hlen s0) by (destruct (Nat.lt_ge_cases q (hlen s0)) as [X|X]; [exact X|]; destruct (tget_over q s0 X) as [X1 _]; congruence).
    rewrite (sm_rt _ _ (gw_same _ _ G q Hq)). exact C.
  - rewrite (sm_doc _ _ (gw_same _ _ G i Hi)). exact F.
  - rewrite (Ch x Hx Xr). clear - IH K Nn. revert IH. induction K as [|k c ks cs K1 _ IHk]; intros IH; [constructor|].
    inversion IH as [|? ? IH1 IH2]; subst. constructor; [apply IH1; assumption|apply IHk; assumption].
Qed.

Lemma root_tidy : forall odd s, calm odd (reopened s) -> tidy (reopened s) (d_root (s_doc s)).
Proof.
  intros odd s C. destruct (ca_secs _ _ C _ _ (ca_root _ _ C)) as (_ & _ & _ & [O|T]); [|exact T]. exfalso. eapply reopened_notodd; eassumption.
Qed.

Lemma c89_added : forall odd e fuel src ls s s' o, calm odd (reopened s) -> means (src_rows src) ls -> (forall k, In k (headings ls) -> ~ In k odd) -> load_source e fuel src s = (s', Ok tt) ->
  shows_doc s o -> named_doc o ->
  shows_doc s' (outline_from (world_in (reopened s)) (fresh_view (heads_of s)) (heads_of s) o ls).
Proof.
  intros odd e fuel src ls s s' o C M Od L Ho Hn. destruct (more_run _ _ _ _ _ _ _ C M Od L) as (O & G & Ch & _).
  assert (Rt : t_section (tget (d_root (s_doc s)) s) = None) by (apply (ty_sec _ (proj1 (proj2 (root_tidy _ _ C))))).
  unfold shows_doc, outline_from. eapply Forall2_onto; [exact O|].
  intros kv h _ ((A1 & A2 & A3 & A4 & A5 & A6) & new & T & W). unfold shows_section. cbn [sc_name sc_cols sc_terms]. split; [congruence|]. split; [exact A3|].
  split; [unfold columns_of, columns; rewrite A4, A5; reflexivity|].
  rewrite T. apply Forall2_app; [|clear - W; induction W as [|t x ts xs [H _] _ IH]; constructor; assumption].
  unfold terms_of. destruct (dget (h_key h) (d_sections (s_doc s))) as [i0|] eqn:E0; [|rewrite (old_terms_out _ _ _ Ho E0); constructor].
  destruct (old_terms_in _ _ _ _ Ho E0) as (c & (_ & _ & _ & S1) & -> & Ic). cbn [snd] in S1.
  pose proof (proj1 (Forall_forall _ _) Hn _ Ic) as Wn. cbn beta in Wn. clear - S1 Wn G Ch Rt. induction S1 as [|t x ts xs S1 _ IH]; [constructor|]. inversion Wn as [|? ? W1 W2]; subst.
  constructor; [|apply IH; exact W2]. eapply shows_more; try eassumption. discriminate.
Qed.

Lemma c89_recorded : forall odd e fuel src ls s s', calm odd (reopened s) -> means (src_rows src) ls -> (forall k, In k (headings ls) -> ~ In k odd) -> load_source e fuel src s = (s', Ok tt) ->
  Forall2 (fun kv h => fst kv = h_key h /\ exists new, t_terms (tget (snd kv) s') = (terms_of s (h_key h) ++ new)%list
     /\ Forall2 (keeps s') (tops (h_key h) (made (world_in (reopened s)) (fresh_view (heads_of s)) (heads_of s) ls)) new)
    (d_sections (s_doc s')) (heads (world_in (reopened s)) (fresh_view (heads_of s)) (heads_of s) ls)
  /\ forall i, i < hlen s -> i <> d_root (s_doc s) ->
       t_rt (tget i s') = t_rt (tget i s) /\ t_val (tget i s') = t_val (tget i s) /\ t_children (tget i s') = t_children (tget i s).
Proof.
  intros odd e fuel src ls s s' C M Od L. destruct (more_run _ _ _ _ _ _ _ C M Od L) as (O & G & Ch & _). split.
  - eapply Forall2_imp; [|exact O]. intros kv h ((A & _) & new & T & W). split; [exact A|]. exists new. split; [exact T|].
    eapply Forall2_imp; [|exact W]. intros t x H. apply H.
  - intros i Hi Ni. pose proof (gw_same _ _ G i Hi) as S1. split; [apply S1|]. split; [apply S1|]. apply Ch; assumption.
Qed.

(** ** The document can be loaded into again *)

Lemma installed_no_columns : forall n sd, dget n installed_sections = Some sd -> sd_args sd = [].
Proof. intros n sd E. unfold installed_sections in E. cbn [dget] in E. repeat (destruct (eqs _ _) in E; [injection E as <-; reflexivity|]). discriminate E. Qed.

Lemma more_columns : forall ds n, declared_columns (dupdate ds installed_sections) n
  = match dget (lower n) installed_sections with Some _ => [] | None => declared_columns ds n end.
Proof.
  intros ds n. unfold declared_columns. rewrite dget_newer by (vm_compute; repeat constructor; cbn; intuition discriminate). unfold SpecKept.first_of.
  destruct (dget (lower n) installed_sections) as [sd|] eqn:E; [apply (installed_no_columns _ _ E)|reflexivity].
Qed.

Lemma restart_calm : forall {Bk : background} odd s1 s', b_odd = odd -> pinv s1 -> NoDup (dkeys (d_sections (s_doc s1))) ->
  dget "root" (d_sections (s_doc s1)) = Some (d_root (s_doc s1)) -> ~ In "root" odd -> finished s1 s' ->
  (forall n, ~ In (lower (strip n)) odd -> ~ In "section" (map lower (map strip (declared_columns (d_decl_sections (s_doc s')) n)))) ->
  calm odd (reopened s').
Proof.
  intros Bk odd s1 s' Eo P Nd Rk No F Dc.
  assert (Tg : forall i, tget i (reopened s') = tget i s1) by (intros i; unfold tget; cbn [reopened s_heap set_s_prs]; rewrite (fi_heap _ _ F); reflexivity).
  assert (Hl : hlen (reopened s') = hlen s1) by (unfold hlen; cbn [reopened s_heap set_s_prs]; rewrite (fi_heap _ _ F); reflexivity).
  assert (Dr : d_root (s_doc (reopened s')) = d_root (s_doc s1)) by apply F.
  assert (Ds : d_sections (s_doc (reopened s')) = d_sections (s_doc s1)) by apply F.
  assert (Dt : d_terms (s_doc (reopened s')) = d_terms (s_doc s1)) by apply F.
  assert (Rg : s_reg (reopened s') = s_reg s1) by apply F.
  assert (Pr : s_prs (reopened s') = {| p_pmap := []; p_dsecs := installed_sections; p_dterms := installed_terms; p_lastparent := "root";
    p_tmap := [(ELIDED_TERM, d_root (s_doc s1)); ("root", d_root (s_doc s1))]; p_dtvn := "@value"; p_lastsec := d_root (s_doc s1) |}).
  { cbn [reopened s_prs set_s_prs]. unfold fresh_parser. change (tget (d_root (s_doc s')) s') with (tget (d_root (s_doc s')) (reopened s')). rewrite Tg, (fi_root _ _ F), (pi_rootn _ P). reflexivity. }
  split; rewrite ?Dr, ?Ds, ?Dt, ?Rg, ?Hl, ?Pr; cbn [p_pmap p_dsecs p_dterms p_lastparent p_tmap p_dtvn p_lastsec]; rewrite ?Tg.
  - reflexivity.
  - exact Dc.
  - exact (pi_reg _ P).
  - exact Nd.
  - intros k i K. rewrite Tg. destruct (pi_dsecs _ P _ _ K) as [A B]. split; [exact A|]. split; [exact B|]. split; [exact (pi_dname _ P _ _ K)|].
    destruct (in_dec string_dec k odd) as [I|I]; [left; exact I|right]. unfold tidy. rewrite Tg, Dr.
    rewrite <- Eo in I. destruct (pi_sec _ P i A B (pi_tame _ P _ _ K I)) as [Q1 Q2]. split; [exact B|]. split; [apply tidy_plain; exact Q1|exact Q2].
  - exact Rk.
  - split; [exact (pi_rootn _ P)|exact (pi_rootargs _ P)].
  - exists "root". split; assumption.
  - reflexivity.
  - split; [apply dot_free_iff; reflexivity|]. split; [reflexivity|]. split; discriminate.
  - reflexivity.
  - split; [|split].
    + intros k i. cbn [dget]. pose proof (pi_root _ P) as R. destruct (eqs k ELIDED_TERM); [intros H; injection H as <-; exact R|]. destruct (eqs k "root"); [intros H; injection H as <-; exact R|discriminate].
    + exact (pi_dterms _ P).
    + intros i Hi. rewrite Tg. split; intros j Hj; [exact (pi_terms _ P _ _ Hi Hj)|exact (pi_kids _ P _ _ Hi Hj)].
Qed.

Lemma c89_again : forall odd e fuel src ls s s', calm odd (reopened s) -> means (src_rows src) ls -> (forall k, In k (headings ls) -> ~ In k odd) -> load_source e fuel src s = (s', Ok tt) ->
  calm odd (reopened s').
Proof.
  intros odd e fuel src ls s s' C M Od L. destruct (more_run _ _ _ _ _ _ _ C M Od L) as (_ & _ & _ & s1 & V & F & Rt). destruct (more_decl _ _ _ _ _ _ _ C M Od L) as (D1 & _).
  eapply (restart_calm (Bk := again odd (reopened s))); [reflexivity|apply V| | |eapply reopened_notodd; exact C|exact F|].
  - rewrite (vi_keys _ _ _ V). apply V.
  - apply V.
  - intros n O. rewrite D1, more_columns. destruct (dget (lower n) installed_sections); [intros []|]. exact (ca_decl _ _ C n O).
Qed.

(** ** Names *)

Lemma column_named : forall cols i, column_name cols i <> "".
Proof.
  intros cols i. unfold column_name. destruct (nth_error cols i) as [c|]; [|apply str_of_nat_nonempty]. eqs_cases c ""; [apply str_of_nat_nonempty|].
  intros H. apply E. apply lower_nil. exact H.
Qed.

Lemma cells_named : forall cols cells i, Forall (fun nc => fst nc <> "") (cells_from cols i cells).
Proof.
  intros cols cells. induction cells as [|c cells IH]; intros i; cbn [cells_from]; [constructor|]. destruct (eqs c ""); [apply IH|]. constructor; [apply column_named|apply IH].
Qed.

Definition has_name (e : entry) : Prop := e_name e <> "".
Lemma made_named : forall w ls v hs, Forall sound ls -> Forall has_name (made w v hs ls).
Proof.
  intros w ls. induction ls as [|l ls IH]; intros v hs So; cbn [made]; [constructor|]. inversion So as [|? ? S1 S2]; subst. apply Forall_app. split; [|apply IH; exact S2].
  destruct l as [| | |p r x cells]; cbn [line_entries]; try constructor.
  - apply S1.
  - apply Forall_forall. intros e I. apply in_map_iff in I. destruct I as (nc & <- & I). cbn. pose proof (cells_named (v_cols v) cells 0) as H.
    rewrite Forall_forall in H. exact (H nc I).
Qed.

Lemma hung_named : forall es, Forall has_name es -> Forall (fun x => named (bare (snd x))) (hung es).
Proof.
  intros es H. induction H as [|e es H1 _ IH]; [constructor|]. cbn [hung fold_right]. fold (hung es). unfold hang. rewrite Forall_forall in IH. constructor.
  - cbn [snd bare]. constructor; [exact H1|]. apply Forall_forall. intros t I. apply in_map_iff in I. destruct I as (r & <- & I). apply in_map_iff in I. destruct I as (x & <- & I).
    apply filter_In in I. apply IH. apply I.
  - apply Forall_forall. intros x I. apply filter_In in I. apply IH. apply I.
Qed.

Lemma tops_named : forall k es, Forall has_name es -> Forall named (map bare (tops k es)).
Proof.
  intros k es H. pose proof (hung_named es H) as N. rewrite Forall_forall in N. apply Forall_forall. intros t I. unfold tops in I. rewrite map_map in I.
  apply in_map_iff in I. destruct I as (x & <- & I). apply filter_In in I. apply N. apply I.
Qed.

Lemma old_named : forall o k, named_doc o -> Forall named (old_terms o k).
Proof.
  intros o k H. unfold old_terms. destruct (find _ o) as [c|] eqn:E; [|constructor]. apply find_some in E. unfold named_doc in H. rewrite Forall_forall in H. apply (H c). apply E.
Qed.

Lemma outline_named : forall w v hs o ls, Forall sound ls -> named_doc o -> named_doc (outline_from w v hs o ls).
Proof.
  intros w v hs o ls So No. unfold named_doc, outline_from. apply Forall_forall. intros c I. apply in_map_iff in I. destruct I as (h & <- & _). cbn [sc_terms].
  apply Forall_app. split; [apply old_named; exact No|apply tops_named; apply made_named; exact So].
Qed.

(** ** Which files are read *)

Lemma settles_again : forall odd s decl hs pre l, @settles (again odd s) (fold_left (next decl) pre (fresh_view hs)) l <-> placed pre l.
Proof.
  intros odd s decl hs pre [| | |p r x cells]; cbn [settles placed]; try tauto.
  assert (A : (exists k, assoc p (v_last (fold_left (next decl) pre (fresh_view hs))) = Some k) <-> exists k, most_recent p pre k).
  { pose proof (fold_last decl (fresh_view hs) 0 pre p) as FL. split; intros [k H].
    - apply (FL k eq_refl eq_refl) in H. destruct H as (k' & H & _). eauto.
    - exists (0 + k). apply (FL _ eq_refl eq_refl). eauto. }
  rewrite A. cbn [b_known again]. intuition congruence.
Qed.

Lemma fresh_no_sections : forall odd s, calm odd (reopened s) -> @no_sections (again odd (reopened s)) (fresh_view (heads_of s)).
Proof.
  intros odd s C. rewrite <- (reopened_view _ _ C). apply (calm_no_sections odd (reopened s) 1 C). rewrite (reopened_prs _ _ C). intros [].
Qed.

Lemma fresh_vinv : forall odd s, calm odd (reopened s) -> @vinv (again odd (reopened s)) (cols_in (reopened s)) (fresh_view (heads_of s)) (reopened s).
Proof. intros odd s C. rewrite <- (reopened_view _ _ C). apply again_vinv; [exact C|]. eapply reopened_unnamed. exact C. Qed.

Lemma c89_accepted : forall odd e fuel src ls s, calm odd (reopened s) -> plain_classes_in (reopened s) -> fuel <> 0 ->
  means (src_rows src) ls -> Forall sound ls -> (forall k, In k (headings ls) -> ~ In k odd) -> placed_file ls ->
  exists s', load_source e fuel src s = (s', Ok tt).
Proof.
  intros odd e fuel src ls s C PC Fu [R U] So Od Pl. destruct fuel as [|f]; [congruence|]. rewrite (load_more_fw _ _ _ _ _ C).
  destruct (rows_loop_total (Bk := again odd (reopened s)) (cols_in (reopened s)) e (generate_terms e true f) src None (src_rows src) ls [] (d_root (s_doc s))
             (fresh_view (heads_of s)) (reopened s)) as (k' & s1 & Vx & Px & Ex); auto.
  - exact (ca_decl _ _ C).
  - discriminate.
  - apply fresh_vinv. exact C.
  - apply fresh_no_sections. exact C.
  - apply greets_again. exact Od.
  - intros a l b El. apply settles_again. eapply Pl. exact El.
  - rewrite app_nil_r in Ex. destruct (finish_load_ok s1) as (s2 & F & _). exists s2. eapply bind_fw; [exact Ex|exact F].
Qed.

Lemma c89_apart : forall odd e fuel r0 d0 rows row post ls p r x cells s, calm odd (reopened s) -> plain_classes_in (reopened s) -> fuel <> 0 ->
  means rows ls -> Forall sound ls -> (forall k, In k (headings ls) -> ~ In k odd) -> placed_file ls ->
  reads row (LTerm p r x cells) -> usual (LTerm p r x cells) -> sound (LTerm p r x cells) -> ~ placed ls (LTerm p r x cells) ->
  exists s', load_source e fuel (mk_source r0 d0 (rows ++ row :: post)) s = (s', Err EParser).
Proof.
  intros odd e fuel r0 d0 rows row post ls p r x cells s C PC Fu [R U] So Od Pl Rr Ur Sr Np. destruct fuel as [|f]; [congruence|]. rewrite (load_more_fw _ _ _ _ _ C).
  cbn [src_rows]. set (src := mk_source r0 d0 (rows ++ row :: post)). set (rec := generate_terms e true f).
  destruct (rows_loop_total (Bk := again odd (reopened s)) (cols_in (reopened s)) e rec src None rows ls (row :: post) (d_root (s_doc s))
             (fresh_view (heads_of s)) (reopened s)) as (k' & s1 & V & Px & Ex); auto.
  - exact (ca_decl _ _ C).
  - discriminate.
  - apply fresh_vinv. exact C.
  - apply fresh_no_sections. exact C.
  - apply greets_again. exact Od.
  - intros a l b El. apply settles_again. eapply Pl. exact El.
  - destruct (row_missing (Bk := again odd (reopened s)) (cols_in (reopened s)) e rec src row post p r x cells k' _ s1 V Px) as (s2 & E2); auto.
    + apply no_sections_lines; auto; [exact (ca_decl _ _ C)|apply greets_again; exact Od|apply fresh_no_sections; assumption].
    + intros N. apply Np. apply settles_again in N. exact N.
    + rewrite fold_line, <- (Forall2_len _ _ _ R) in E2. exists s2. cbn [v_line fresh_view] in Ex, E2. unfold bind. rewrite Ex, E2. reflexivity.
Qed.

(** ** Files from the start *)

Lemma blank_calm : forall g, proper g -> calm [] (reopened (blank_doc g)).
Proof.
  intros g [GR ND]. pose proof (first_vinv (in_reg g) (in_terms g) (in_secs g) (in_super g) GR ND) as V. fold (blank_doc g) in V. change (started (blank_doc g)) with (reopened (blank_doc g)) in V.
  change (calm [] (reopened (reopened (blank_doc g)))). eapply (restart_calm (Bk := no_background) [] (reopened (blank_doc g))); [reflexivity|apply V| | |intros []|split; reflexivity|].
  - rewrite (vi_keys _ _ _ V). apply V.
  - reflexivity.
  - intros n _. exact (ND n).
Qed.

Record at_place (g : place) (hs : list head) (o : list sect) (s : st) : Prop := {
  ap_calm : calm [] (reopened s);
  ap_secs : d_decl_sections (s_doc s) = in_secs g;
  ap_terms : d_decl_terms (s_doc s) = in_terms g;
  ap_heads : heads_of s = hs;
  ap_shows : shows_doc s o;
  ap_named : named_doc o
}.

Lemma at_blank : forall g, proper g -> at_place g first_heads [mk_sect "Root" [] []] (blank_doc g).
Proof.
  intros g P. split; try reflexivity.
  - apply blank_calm. exact P.
  - constructor; [|constructor]. split; [reflexivity|]. split; [reflexivity|]. split; [reflexivity|constructor].
  - constructor; constructor.
Qed.

Lemma at_next : forall g hs o s e fuel src ls s', at_place g hs o s -> means (src_rows src) ls -> Forall sound ls -> load_source e fuel src s = (s', Ok tt) ->
  at_place (SpecMore.settled g) (heads (world_of g) (fresh_view hs) hs ls) (outline_from (world_of g) (fresh_view hs) hs o ls) s'.
Proof.
  intros g hs o s e fuel src ls s' [C Es Et Eh Sh Nm] M So L. assert (Od : forall k, In k (headings ls) -> ~ In k []) by (intros k _ []).
  assert (Ew : world_in (reopened s) = world_of g).
  { unfold world_in, world_of, cols_of. change (s_doc (reopened s)) with (s_doc s). rewrite Es, Et. reflexivity. }
  destruct (more_decl _ _ _ _ _ _ _ C M Od L) as (D1 & D2 & _). subst hs. rewrite <- Ew. split.
  - eapply c89_again; eassumption.
  - rewrite D1, Es. reflexivity.
  - rewrite D2, Et. reflexivity.
  - eapply more_heads; eassumption.
  - eapply c89_added; eassumption.
  - apply outline_named; assumption.
Qed.

Lemma files_at : forall e fuel srcs s s', loads_all e fuel srcs s s' -> forall g hs o lss, at_place g hs o s ->
  Forall2 (fun src ls => means (src_rows src) ls) srcs lss -> Forall (Forall sound) lss -> shows_doc s' (outline_all g hs o lss).
Proof.
  intros e fuel srcs s s' H. induction H as [s|src srcs s s1 s' H1 H2 IH]; intros g hs o lss A M So; inversion M as [|? ls ? lss' M1 M2]; subst; cbn [outline_all].
  - apply A.
  - inversion So as [|? ? So1 So2]; subst. apply IH; [|exact M2|exact So2]. eapply at_next; eassumption.
Qed.

Lemma c89_files : forall g e fuel srcs lss s, proper g -> Forall2 (fun src ls => means (src_rows src) ls) srcs lss -> Forall (Forall sound) lss ->
  loads_all e fuel srcs (blank_doc g) s -> shows_doc s (outline_files g lss).
Proof. intros g e fuel srcs lss s P M So L. eapply files_at; try eassumption. apply at_blank. exact P. Qed.

Lemma files_total : forall e fuel srcs lss, fuel <> 0 -> Forall2 (fun src ls => means (src_rows src) ls) srcs lss -> Forall (Forall sound) lss -> Forall placed_file lss ->
  forall s g hs o, at_place g hs o s -> plain_cls (reopened s) -> NoDup (dkeys (d_super (s_doc s))) -> exists s', loads_all e fuel srcs s s'.
Proof.
  intros e fuel srcs lss Fu M. induction M as [|src ls srcs lss M1 M2 IH]; intros So Pl s g hs o A PC Nd; [exists s; constructor|].
  inversion So as [|? ? So1 So2]; subst. inversion Pl as [|? ? Pl1 Pl2]; subst. assert (Od : forall k, In k (headings ls) -> ~ In k []) by (intros k _ []).
  destruct (c89_accepted [] e fuel src ls s (ap_calm _ _ _ _ A) PC Fu M1 So1 Od Pl1) as (s1 & L).
  destruct (more_decl _ _ _ _ _ _ _ (ap_calm _ _ _ _ A) M1 Od L) as (_ & _ & D). destruct (D Nd) as [D1 D2].
  destruct (IH So2 Pl2 s1 _ _ _ (at_next _ _ _ _ _ _ _ _ _ A M1 So1 L)) as (s' & L').
  - eapply plain_cls_same; [exact D2|exact PC].
  - rewrite D1. exact Nd.
  - exists s'. econstructor; eassumption.
Qed.

Lemma c89_read : forall g e fuel srcs lss, proper g -> plain_classes g -> NoDup (dkeys (in_super g)) -> fuel <> 0 ->
  Forall2 (fun src ls => means (src_rows src) ls) srcs lss -> Forall (Forall sound) lss -> Forall placed_file lss ->
  exists s, loads_all e fuel srcs (blank_doc g) s /\ shows_doc s (outline_files g lss).
Proof.
  intros g e fuel srcs lss P PC Nd Fu M So Pl. destruct (files_total e fuel srcs lss Fu M So Pl (blank_doc g) _ _ _ (at_blank g P)) as (s & L).
  - exact (plain_start g PC).
  - exact Nd.
  - exists s. split; [exact L|]. eapply c89_files; eassumption.
Qed.

(** a single file *)
Lemma c89_one : forall g ls, outline_files g [ls] = outline (world_of g) ls.
Proof.
  intros g ls. unfold outline_files, outline. cbn [outline_all]. change (fresh_view first_heads) with first_view. unfold outline_from. apply map_ext. intros h.
  unfold old_terms. cbn [find sc_name]. destruct (eqs _ _); reflexivity.
Qed.

(** ** After a file of any kind *)

Lemma c89_reopen : forall g head rows odd s0 ls s, loads_after g head rows odd s0 ls s -> ~ In "root" odd ->
  (forall n, ~ In (lower (strip n)) odd -> ~ In "section" (map lower (map strip (declared_columns (d_decl_sections (s_doc s)) n)))) ->
  calm odd (reopened s).
Proof.
  intros g head rows odd s0 ls s LA No Dc. destruct (after_vinv _ _ _ _ _ _ _ LA) as (s1 & V & F & _).
  eapply (restart_calm (Bk := past odd s0)); [reflexivity|apply V| | |exact No|exact F|exact Dc].
  - rewrite (vi_keys _ _ _ V). apply V.
  - apply V.
Qed.
