(** * RefuseFacts: which DeclareTerm rows are refused *)

From Verif Require Import ListFacts StrFacts SpecNames NameFacts HeapFacts Parser RunFacts EmitFacts RowFacts ParseFacts DocFacts CalmRowFacts CleanFacts SpecInherit InheritFacts DeclaredFacts SpecRefuse.

Lemma nonblank_ok : forall ap, (forall k v, In (k, v) ap -> exists x, v = VStr x) -> exists np, nonblank_props ap = Ok np.
Proof.
  intros ap H. unfold nonblank_props. assert (X : exists l, rmap (fun kv : string * val => do? s <- as_str (snd kv) ;; Ok (if nonblank s then [(fst kv, s)] else [])) ap = Ok l).
  { induction ap as [|[k v] ap IH]; [eexists; reflexivity|]. destruct (H k v (or_introl eq_refl)) as [x ->].
    destruct IH as [l E]; [intros k' v' I; apply (H k' v'); right; exact I|]. cbn [rmap snd as_str rbind]. rewrite E. eexists. reflexivity. }
  destruct X as [l ->]. eexists. reflexivity.
Qed.

Lemma nonblank_back : forall ap np k x, NoDup (dkeys ap) -> nonblank_props ap = Ok np -> dget k np = Some x -> gives ap k x.
Proof.
  intros ap np k x ND H G. unfold nonblank_props in H. destruct (rmap _ ap) as [l|] eqn:E; [|discriminate H]. injection H as <-.
  revert l E G. induction ap as [|[k0 v0] ap IH]; intros l E G; [injection E as <-; discriminate G|].
  cbn [rmap] in E. destruct (as_str (snd (k0, v0))) as [s0|] eqn:A; [|discriminate E]. cbn [rbind] in E.
  destruct (rmap _ ap) as [l'|] eqn:E2; [|discriminate E]. injection E as <-. cbn [concat] in G.
  inversion ND as [|? ? N1 N2]; subst. unfold gives. cbn [dget fst snd] in G, A |- *. eqs_cases k k0.
  - subst k0. destruct (nonblank s0) eqn:Nb; cbn [app dget fst snd] in G.
    + rewrite eqs_refl in G. injection G as <-. destruct v0; try discriminate A. injection A as ->. auto.
    + exfalso. apply N1. destruct (IH N2 _ eq_refl G) as [D _]. apply dget_in in D. apply (in_map fst) in D. exact D.
  - apply (IH N2 _ eq_refl). destruct (nonblank s0); cbn [app dget fst] in G; [|exact G]. rewrite (proj2 (eqs_false k k0) E) in G. exact G.
Qed.

Lemma args_nodup : forall h r ap, arg_props h r = Ok ap -> NoDup (dkeys ap).
Proof. intros h r ap H. unfold arg_props in H. destruct (t_section r); [|discriminate H]. injection H as <-. apply nodup_dset, nodup_dict_of. Qed.

Lemma texts_in : forall ap, NoDup (dkeys ap) -> texts ap -> forall k v, In (k, v) ap -> exists x, v = VStr x.
Proof. intros ap ND T k v I. apply (T k). apply in_dget; assumption. Qed.

(** ** the loop over inherited children *)
Lemma body_settled : forall T I x k0 s, dot_free T -> SpecNames.tidy T -> T <> "" -> settled s -> listed s k0 x ->
  exists s1, inherit_body T I x (s_prs s) s = (s1, Ok tt) /\ settled s1 /\ (forall k, has_section s k -> has_section s1 k) /\ (forall k y, listed s k y -> listed s1 k y).
Proof.
  intros T I x k0 s DT TT NT S L. unfold inherit_body. destruct (startswith (lower I ++ ".") (lower x)) eqn:Sw; cbn [when]; [|exists s; auto 6].
  assert (ND : ~ dot_free x).
  { intros D. apply dot_free_lower in D. apply startswith_spec in Sw. destruct Sw as (t & E). rewrite E in D. apply dot_free_iff in D.
    rewrite <- app_s_assoc in D. rewrite has_dot_mid in D. discriminate D. }
  destruct (S _ _ L ND) as ((p & r & Cx) & td & sc & Dx & Sx & Hx). destruct (split_of_cell _ _ _ Cx) as (P & R & Sp & _ & _). rewrite Sp.
  destruct (split_term_shape _ _ _ Sp) as [DR TR]. unfold declared in Dx.
  assert (Nn : normalize_term (dotted T R) = Ok (dotted (lower T) (lower R)) /\ split_term_lower (dotted T R) = Ok (lower T, lower R)).
  { unfold normalize_term, split_term_lower, dotted. rewrite split_term_qualified by assumption.
    rewrite !tidy_strip by assumption. eqs_cases T ""; [contradiction|]. split; reflexivity. }
  destruct Nn as [Nn Ns]. unfold has_section in Hx. destruct (dget (lower sc) (p_dsecs (s_prs s))) as [sd|] eqn:Ed; [|contradiction]. clear Hx.
  set (name := dotted T R) in *. set (props := dset "term" name (dset "inheritsfrom" "" (td_props td))).
  assert (Ps : dget "section" props = Some sc) by (unfold props; rewrite !dget_dset_other by discriminate; exact Sx).
  assert (Pt : dget "term" props = Some name) by apply dget_dset_same.
  set (s2 := pmod (fun p => set_p_dterms (dset (dotted (lower T) (lower R)) (set_td_props props td) (p_dterms p)) p) s).
  set (s3 := if mem_str name (sd_terms sd) then s2 else pmod (fun p => set_p_dsecs (dset (lower sc) (set_sd_terms (sd_terms sd ++ [name]) sd) (p_dsecs p)) p) s2).
  exists s3. split; [|split; [|split]].
  - unfold bind at 1, lift. cbn iota beta. rewrite Dx. cbv zeta. fold name. rewrite Nn. fold props.
    unfold bind at 1. cbn iota beta. change (bind (modP ?f0) ?g0 s) with (g0 tt (pmod f0 s)). cbv beta. fold s2.
    unfold add_term_to_section, bind, getP, gets. cbv zeta. rewrite Ps. change (p_dsecs (s_prs s2)) with (p_dsecs (s_prs s)). rewrite Ed, Pt. unfold s3. destruct (mem_str name (sd_terms sd)); reflexivity.
  - assert (Hs : forall k, has_section s k -> has_section s3 k).
    { intros k H. unfold has_section, s3. destruct (mem_str name (sd_terms sd)); [exact H|]. cbn [s_prs pmod set_s_prs p_dsecs set_p_dsecs]. rewrite dget_dset. destruct (eqs k (lower sc)); [discriminate|exact H]. }
    assert (Hd : p_dterms (s_prs s3) = dset (dotted (lower T) (lower R)) (set_td_props props td) (p_dterms (s_prs s))) by (unfold s3; destruct (mem_str name (sd_terms sd)); reflexivity).
    assert (Hl : forall k y, listed s3 k y -> y = name \/ listed s k y).
    { intros k y (sd3 & E & I3). unfold s3 in E. destruct (mem_str name (sd_terms sd)); [right; exists sd3; auto|].
      cbn [s_prs pmod set_s_prs p_dsecs set_p_dsecs] in E. rewrite dget_dset in E. eqs_cases k (lower sc); [|right; exists sd3; auto].
      injection E as <-. cbn [sd_terms set_sd_terms] in I3. apply in_app_or in I3. destruct I3 as [I3|[<-|[]]]; [|left; reflexivity]. right. subst k. exists sd. auto. }
    intros k y Ly Dy. destruct (Hl _ _ Ly) as [->|Lo].
    + split; [exists (lower T), (lower R); apply split_term_lower_spec; exact Ns|]. exists (set_td_props props td), sc. unfold declared. rewrite Hd.
      split; [unfold name; rewrite lower_dotted; apply dget_dset_same|]. split; [exact Ps|]. apply Hs. unfold has_section. rewrite Ed. discriminate.
    + destruct (S _ _ Lo Dy) as (Cy & tdy & scy & D1 & D2 & D3). split; [exact Cy|]. unfold declared in *. rewrite Hd, dget_dset.
      destruct (eqs (lower y) (dotted (lower T) (lower R))).
      * exists (set_td_props props td), sc. split; [reflexivity|]. split; [exact Ps|]. apply Hs. unfold has_section. rewrite Ed. discriminate.
      * exists tdy, scy. auto.
  - intros k H. unfold has_section, s3. destruct (mem_str name (sd_terms sd)); [exact H|]. cbn [s_prs pmod set_s_prs p_dsecs set_p_dsecs]. rewrite dget_dset. destruct (eqs k (lower sc)); [discriminate|exact H].
  - intros k y (sdy & E & I0). unfold listed, s3. destruct (mem_str name (sd_terms sd)); [exists sdy; auto|]. cbn [s_prs pmod set_s_prs p_dsecs set_p_dsecs]. rewrite dget_dset.
    eqs_cases k (lower sc); [|exists sdy; auto]. subst k. eexists. split; [reflexivity|]. cbn [sd_terms set_sd_terms]. apply in_or_app. left. change (p_dsecs (s_prs s2)) with (p_dsecs (s_prs s)) in *. congruence.
Qed.

Lemma loop_settled : forall T I sec, dot_free T -> SpecNames.tidy T -> T <> "" -> forall f n s, settled s -> has_section s sec ->
  exists s', (inherit_loop f T I sec n s = (s', Ok tt) /\ settled s' /\ (forall k, has_section s k -> has_section s' k) /\ (forall k y, listed s k y -> listed s' k y)) \/ inherit_loop f T I sec n s = (s', Err ERecursion).
Proof.
  intros T I sec DT TT NT. induction f as [|f IH]; intros n s St H; [exists s; right; reflexivity|].
  rewrite inherit_eq. unfold has_section in H. destruct (dget sec (p_dsecs (s_prs s))) as [sd|] eqn:Es; [|contradiction]. clear H.
  destruct (nth_error (sd_terms sd) n) as [x|] eqn:En; [|exists s; left; auto 6].
  destruct (body_settled T I x sec s DT TT NT St) as (s1 & B & S1 & K1 & L1); [exists sd; split; [exact Es|apply nth_error_In with n; exact En]|].
  destruct (IH (S n) s1 S1) as (s' & [(E & S2 & K2 & L2)|E]); [apply K1; unfold has_section; rewrite Es; discriminate| |].
  - exists s'. left. split; [unfold bind; rewrite B; exact E|]. split; [exact S2|]. split; [intros k Hk; apply K2, K1, Hk|intros k y Hy; apply L2, L1, Hy].
  - exists s'. right. unfold bind. rewrite B. exact E.
Qed.

Lemma loop_kind : forall T I sec f n s s', inherit_loop f T I sec n s <> (s', Err EDeclaration).
Proof.
  intros T I sec. induction f as [|f IH]; intros n s s' H; [discriminate H|]. rewrite inherit_eq in H.
  destruct (dget sec (p_dsecs (s_prs s))) as [sd|]; [|discriminate H]. destruct (nth_error (sd_terms sd) n) as [x|]; [|discriminate H].
  unfold bind in H. destruct (inherit_body T I x (s_prs s) s) as [s1 [u|e]] eqn:B; [apply (IH _ _ _ H)|]. injection H as -> ->. clear IH.
  unfold inherit_body in B. destruct (startswith (lower I ++ ".") (lower x)); cbn [when] in B; [|discriminate B].
  destruct (split_term x) as [[p r]|er] eqn:Sp; [|apply split_term_err in Sp; subst er; discriminate B]. rg B. cbn iota beta in B.
  destruct (dget (lower x) (p_dterms (s_prs s))) as [td|]; [|discriminate B].
  cbv zeta in B. destruct (normalize_term (dotted T r)) as [k|er] eqn:Ek; [|apply normalize_err in Ek; subst er; discriminate B]. rg B.
  revert B. change (bind (modP ?f0) ?g0 s) with (g0 tt (pmod f0 s)). intros B. unfold add_term_to_section in B. rg B. cbv zeta in B.
  destruct (dget _ (p_dsecs _)); [|discriminate B]. destruct (dget "section" _); [|discriminate B]. destruct (dget "term" _); [|discriminate B].
  destruct (mem_str _ _); discriminate B.
Qed.

(** ** a DeclareTerm row *)
Definition start_of (s : st) (p n v : string) (np : dict string) : st :=
  pmod (fun q => set_p_dterms (dset (dotted p n) (mk_tdecl (dset "term" v np) []) (p_dterms q)) q) s.
Definition list_of (s : st) (v sec : string) : st :=
  match dget (lower sec) (p_dsecs (s_prs s)) with
  | Some sd => if mem_str v (sd_terms sd) then s else pmod (fun q => set_p_dsecs (dset (lower sec) (set_sd_terms (sd_terms sd ++ [v]) sd) (p_dsecs q)) q) s
  | None => s
  end.

Lemma gives_iff : forall h r ap np k x, arg_props h r = Ok ap -> nonblank_props ap = Ok np -> dget k np = Some x <-> gives ap k x.
Proof.
  intros h r ap np k x A N. split; [apply (nonblank_back _ _ _ _ (args_nodup _ _ _ A) N)|]. intros [G1 G2]. apply (nonblank_get _ _ _ _ N G1 G2).
Qed.

Lemma declare_run : forall t s v ap np p n, t_val (tget t s) = VStr v -> cell_names v p n -> arg_props (s_heap s) (tget t s) = Ok ap -> nonblank_props ap = Ok np ->
  let s0 := start_of s p n v np in
  add_declared_term t s =
    match dget "section" np with
    | None => match dget "inheritsfrom" np with None => (s0, Ok tt) | Some _ => (s0, Err EDeclaration) end
    | Some sec =>
        match dget (lower sec) (p_dsecs (s_prs s)) with
        | None => (s0, Err EDeclaration)
        | Some _ =>
            let s1 := list_of s0 v sec in
            match dget "inheritsfrom" np with
            | None => (s1, Ok tt)
            | Some ih => match split_term ih with
                         | Err e => (s1, Err e)
                         | Ok (_, i) => inherit_loop (inherit_fuel (lower sec) s1) (rec_of v) i (lower sec) 0 s1
                         end
            end
        end
    end.
Proof.
  intros t s v ap np p n Ev Cv Ea En s0. destruct (split_of_cell _ _ _ Cv) as (P & T & Sv & EP & ET).
  assert (Nv : normalize_term v = Ok (dotted p n)) by (apply split_term_lower_spec in Cv; unfold normalize_term; rewrite Cv; reflexivity).
  unfold add_declared_term. unfold bind at 1, getT at 1, reads, gets, lift. change (hget t (s_heap s)) with (tget t s). cbn iota beta.
  rewrite Ev. unfold bind at 1, ret at 1. cbn iota beta. rewrite Nv. unfold bind at 1. cbn iota beta. unfold bind at 1. cbn iota beta. rewrite Ea. unfold bind at 1. cbn iota beta.
  rewrite En. unfold bind at 1. cbn iota beta zeta. change (bind (modP ?f0) ?g0 s) with (g0 tt (pmod f0 s)). cbv beta.
  change (pmod (fun q => set_p_dterms (dset (dotted p n) (mk_tdecl (dset "term" v np) []) (p_dterms q)) q) s) with s0.
  rewrite !dget_dset_other by discriminate.
  assert (Nb : forall k x, dget k np = Some x -> nonempty x = true).
  { intros k x G. apply (gives_iff _ _ _ _ _ _ Ea En) in G. destruct G as [_ G]. destruct x; [discriminate G|reflexivity]. }
  destruct (dget "section" np) as [sec|] eqn:Gs.
  - rewrite (Nb _ _ Gs). cbn [when]. unfold bind at 1, add_term_to_section. unfold bind at 1, getP, gets. cbv zeta. rewrite dget_dset_other by discriminate. rewrite Gs, dget_dset_same.
    unfold list_of. change (p_dsecs (s_prs s0)) with (p_dsecs (s_prs s)). destruct (dget (lower sec) (p_dsecs (s_prs s))) as [sd|]; [|reflexivity].
    set (s1 := if mem_str v (sd_terms sd) then s0 else _).
    assert (X : (if mem_str v (sd_terms sd) then ret tt else modP (fun p0 => set_p_dsecs (dset (lower sec) (set_sd_terms (sd_terms sd ++ [v]) sd) (p_dsecs p0)) p0)) s0 = (s1, Ok tt)) by (unfold s1; destruct (mem_str v (sd_terms sd)); reflexivity).
    rewrite X. cbn iota beta. destruct (dget "inheritsfrom" np) as [ih|] eqn:Gi; [|reflexivity]. rewrite (Nb _ _ Gi). rewrite Sv. unfold bind at 1. cbn iota beta.
    unfold bind at 1. destruct (split_term ih) as [[q i]|e]; [|reflexivity]. unfold bind, gets. unfold rec_of. rewrite Sv. reflexivity.
  - unfold bind, ret. cbn iota beta. destruct (dget "inheritsfrom" np) as [ih|] eqn:Gi; [|reflexivity]. rewrite (Nb _ _ Gi). reflexivity.
Qed.

Lemma decl_refused : forall t s s' r v ap p n, t_val (tget t s) = VStr v -> cell_names v p n -> arg_props (s_heap s) (tget t s) = Ok ap -> texts ap ->
  add_declared_term t s = (s', r) ->
  (r = Err EDeclaration <-> refused s ap)
  /\ (refused s ap -> s_heap s' = s_heap s /\ s_doc s' = s_doc s /\ p_dsecs (s_prs s') = p_dsecs (s_prs s)
      /\ exists td, p_dterms (s_prs s') = dset (p ++ "." ++ n)%string td (p_dterms (s_prs s)) /\ dget "term" (td_props td) = Some v).
Proof.
  intros t s s' r v ap p n Ev Cv Ea Tx H. destruct (nonblank_ok ap (texts_in _ (args_nodup _ _ _ Ea) Tx)) as [np En].
  rewrite (declare_run _ _ _ _ _ _ _ Ev Cv Ea En) in H. cbv zeta in H. unfold refused.
  assert (G : forall k x, dget k np = Some x <-> gives ap k x) by (intros; apply (gives_iff _ _ _ _ _ _ Ea En)).
  assert (K : forall s2, (s2, r) = (s', r) -> s2 = start_of s p n v np -> s_heap s' = s_heap s /\ s_doc s' = s_doc s /\ p_dsecs (s_prs s') = p_dsecs (s_prs s)
      /\ exists td, p_dterms (s_prs s') = dset (p ++ "." ++ n)%string td (p_dterms (s_prs s)) /\ dget "term" (td_props td) = Some v).
  { intros s2 E ->. injection E as <-. split; [reflexivity|]. split; [reflexivity|]. split; [reflexivity|]. eexists. split; [reflexivity|]. apply dget_dset_same. }
  destruct (dget "section" np) as [sec|] eqn:Gs.
  - assert (One : forall x, gives ap "section" x -> x = sec) by (intros x Gx; apply G in Gx; congruence). apply G in Gs.
    destruct (dget (lower sec) (p_dsecs (s_prs s))) as [sd|] eqn:Ed.
    + assert (NR : ~ ((exists sec0, gives ap "section" sec0 /\ ~ has_section s (lower sec0)) \/ (exists ih, gives ap "inheritsfrom" ih) /\ ~ (exists sec0, gives ap "section" sec0))).
      { intros [(x & Gx & Hx)|[_ N]]; [|apply N; eauto]. apply One in Gx. subst x. apply Hx. unfold has_section. rewrite Ed. discriminate. }
      split; [|intros R; contradiction (NR R)]. split; [|intros R; contradiction (NR R)]. intros ->. exfalso.
      destruct (dget "inheritsfrom" np) as [ih|]; [|discriminate H]. destruct (split_term ih) as [[q i]|e] eqn:Si; [|apply split_term_err in Si; subst e; discriminate H].
      apply loop_kind in H. exact H.
    + assert (R : (exists sec0, gives ap "section" sec0 /\ ~ has_section s (lower sec0)) \/ (exists ih, gives ap "inheritsfrom" ih) /\ ~ (exists sec0, gives ap "section" sec0)).
      { left. exists sec. split; [exact Gs|]. unfold has_section. rewrite Ed. intros X. apply X. reflexivity. }
      injection H as <- <-. split; [split; auto|]. intros _. apply (K _ eq_refl eq_refl).
  - assert (NS : ~ exists x, gives ap "section" x) by (intros (x & Gx); apply G in Gx; congruence).
    destruct (dget "inheritsfrom" np) as [ih|] eqn:Gi; injection H as <- <-.
    + apply G in Gi. split; [split; [intros _; right; split; eauto|reflexivity]|]. intros _. apply (K _ eq_refl eq_refl).
    + assert (NR : ~ ((exists sec0, gives ap "section" sec0 /\ ~ has_section s (lower sec0)) \/ (exists ih, gives ap "inheritsfrom" ih) /\ ~ (exists sec0, gives ap "section" sec0))).
      { intros [(x & Gx & _)|[(x & Gx) _]]; [apply NS; eauto|apply G in Gx; congruence]. }
      split; [split; [discriminate|intros R; contradiction (NR R)]|intros R; contradiction (NR R)].
Qed.

Lemma listed_settled : forall s v p n np sec, settled s -> cell_names v p n -> written v p n -> has_section s (lower sec) -> dget "section" np = Some sec ->
  settled (list_of (start_of s p n v np) v sec) /\ (forall k, has_section s k -> has_section (list_of (start_of s p n v np) v sec) k) /\ listed (list_of (start_of s p n v np) v sec) (lower sec) v.
Proof.
  intros s v p n np sec Se Cv Wv Hs Gs. set (s0 := start_of s p n v np). set (s1 := list_of s0 v sec). set (td := mk_tdecl (dset "term" v np) []).
  assert (Ed : exists sd, dget (lower sec) (p_dsecs (s_prs s)) = Some sd) by (unfold has_section in Hs; destruct (dget (lower sec) (p_dsecs (s_prs s))); [eauto|contradiction]).
  destruct Ed as [sd Ed].
  assert (E1 : s1 = if mem_str v (sd_terms sd) then s0 else pmod (fun q => set_p_dsecs (dset (lower sec) (set_sd_terms (sd_terms sd ++ [v]) sd) (p_dsecs q)) q) s0).
  { unfold s1, list_of. change (p_dsecs (s_prs s0)) with (p_dsecs (s_prs s)). rewrite Ed. reflexivity. }
  assert (Kh : forall k, has_section s k -> has_section s1 k).
  { intros k H. unfold has_section. rewrite E1. destruct (mem_str v (sd_terms sd)); [exact H|]. cbn [s_prs pmod set_s_prs p_dsecs set_p_dsecs]. rewrite dget_dset. destruct (eqs k (lower sec)); [discriminate|exact H]. }
  assert (Kd : p_dterms (s_prs s1) = dset (dotted p n) td (p_dterms (s_prs s))) by (rewrite E1; destruct (mem_str v (sd_terms sd)); reflexivity).
  assert (Kl : forall k y, listed s1 k y -> y = v \/ listed s k y).
  { intros k y (sd1 & E & I1). rewrite E1 in E. destruct (mem_str v (sd_terms sd)); [right; exists sd1; auto|].
    cbn [s_prs pmod set_s_prs p_dsecs set_p_dsecs] in E. rewrite dget_dset in E. eqs_cases k (lower sec); [|right; exists sd1; auto].
    injection E as <-. cbn [sd_terms set_sd_terms] in I1. apply in_app_or in I1. destruct I1 as [I1|[<-|[]]]; [|left; reflexivity]. right. subst k. exists sd. auto. }
  assert (New : dget "section" (td_props td) = Some sec /\ has_section s1 (lower sec)).
  { split; [cbn [td td_props]; rewrite dget_dset_other by discriminate; exact Gs|apply Kh, Hs]. }
  assert (Lv : listed s1 (lower sec) v).
  { unfold listed. rewrite E1. destruct (mem_str v (sd_terms sd)) eqn:Em; [exists sd; split; [exact Ed|apply mem_str_in; exact Em]|].
    cbn [s_prs pmod set_s_prs p_dsecs set_p_dsecs]. rewrite dget_dset_same. eexists. split; [reflexivity|]. cbn [sd_terms set_sd_terms]. apply in_or_app. right. left. reflexivity. }
  split; [|split; [exact Kh|exact Lv]]. intros k y Ly Dy. unfold declared. rewrite Kd. destruct (Kl _ _ Ly) as [->|Lo].
  - split; [eauto|]. exists td, sec. split; [|exact New]. destruct Wv as [Wv|Wv]; [contradiction|]. rewrite Wv. apply dget_dset_same.
  - destruct (Se _ _ Lo Dy) as (Cy & tdy & scy & D1 & D2 & D3). split; [exact Cy|]. rewrite dget_dset. destruct (eqs (lower y) (dotted p n)).
    + exists td, sec. split; [reflexivity|exact New].
    + exists tdy, scy. auto.
Qed.

Lemma decl_accepted : forall t s v ap p n, t_val (tget t s) = VStr v -> cell_names v p n -> written v p n -> arg_props (s_heap s) (tget t s) = Ok ap -> texts ap ->
  settled s -> ~ refused s ap -> (forall ih, gives ap "inheritsfrom" ih -> n <> "" /\ exists q i, cell_names ih q i) ->
  exists s', add_declared_term t s = (s', Ok tt) /\ (forall k, has_section s k -> has_section s' k)
    /\ forall sec, gives ap "section" sec -> settled s' /\ listed s' (lower sec) v.
Proof.
  intros t s v ap p n Ev Cv Wv Ea Tx Se NR Ih. destruct (nonblank_ok ap (texts_in _ (args_nodup _ _ _ Ea) Tx)) as [np En].
  rewrite (declare_run _ _ _ _ _ _ _ Ev Cv Ea En). cbv zeta.
  assert (G : forall k x, dget k np = Some x <-> gives ap k x) by (intros; apply (gives_iff _ _ _ _ _ _ Ea En)).
  destruct (dget "section" np) as [sec|] eqn:Gs.
  - destruct (dget (lower sec) (p_dsecs (s_prs s))) as [sd|] eqn:Ed.
    2:{ exfalso. apply NR. left. exists sec. apply G in Gs. split; [exact Gs|]. unfold has_section. rewrite Ed. intros X. apply X. reflexivity. }
    assert (Hs : has_section s (lower sec)) by (unfold has_section; rewrite Ed; discriminate).
    destruct (listed_settled s v p n np sec Se Cv Wv Hs Gs) as (S1 & K1 & L1). set (s1 := list_of (start_of s p n v np) v sec) in *.
    destruct (dget "inheritsfrom" np) as [ih|] eqn:Gi; [|exists s1; split; [reflexivity|split; [exact K1|intros x Gx; apply G in Gx; rewrite Gs in Gx; injection Gx as <-; auto]]]. apply G in Gi. destruct (Ih _ Gi) as (Nn & q & i & Ci).
    destruct (split_of_cell _ _ _ Ci) as (Q & I & Si & _ & _). rewrite Si. destruct (split_of_cell _ _ _ Cv) as (P & T & Sv & EP & ET).
    unfold rec_of. rewrite Sv. destruct (split_term_shape _ _ _ Sv) as [DT TT]. assert (NT : T <> "") by (intros ->; apply Nn; rewrite <- ET; reflexivity).
    destruct (loop_settled T I (lower sec) DT TT NT (inherit_fuel (lower sec) s1) 0 s1 S1 (K1 _ Hs)) as (s' & [(E & S2 & K2 & L2)|E]).
    + exists s'. split; [exact E|]. split; [intros k H; apply K2, K1, H|]. intros x Gx. apply G in Gx. rewrite Gs in Gx. injection Gx as <-. split; [exact S2|apply L2, L1].
    + contradiction (inherit_norec _ _ _ _ _ DT E).
  - destruct (dget "inheritsfrom" np) as [ih|] eqn:Gi.
    + exfalso. apply NR. right. apply G in Gi. split; [eauto|]. intros (x & Gx). apply G in Gx. congruence.
    + eexists. split; [reflexivity|]. split; [auto|]. intros x Gx. apply G in Gx. congruence.
Qed.

Lemma settled_first : forall s, settled (started s).
Proof.
  intros s k x (sd & E & I). exfalso. assert (X : p_dsecs (s_prs (started s)) = installed_sections) by reflexivity. rewrite X in E.
  apply dget_in in E. cbn in E. repeat (destruct E as [E|E]; [injection E as <- <-; exact I|]). exact E.
Qed.

Lemma section_settled : forall t s s', settled s -> add_declared_section t s = (s', Ok tt) -> settled s' /\ (forall k, has_section s k -> has_section s' k) /\ forall x, t_val (tget t s) = VStr x -> has_section s' (lower x).
Proof.
  intros t s s' Se H. unfold add_declared_section in H. rg H. destruct (as_str (t_val (tget t s))) as [x|] eqn:Ex; [|discriminate H]. rg H. injection H as <-.
  set (s' := pmod (fun p => set_p_dsecs (dset (lower x) (mk_sdecl (clean_args (t_args (tget t s))) []) (p_dsecs p)) p) s).
  assert (Kh : forall k, has_section s k -> has_section s' k).
  { intros k H. unfold has_section, s'. cbn [s_prs pmod set_s_prs p_dsecs set_p_dsecs]. rewrite dget_dset. destruct (eqs k (lower x)); [discriminate|exact H]. }
  split; [|split; [exact Kh|]].
  2:{ intros y Ey. rewrite Ey in Ex. injection Ex as <-. unfold has_section, s'. cbn [s_prs pmod set_s_prs p_dsecs set_p_dsecs]. rewrite dget_dset_same. discriminate. }
  intros k y (sd & E & I) Dy. unfold s' in E. cbn [s_prs pmod set_s_prs p_dsecs set_p_dsecs] in E. rewrite dget_dset in E. eqs_cases k (lower x).
  - injection E as <-. contradiction I.
  - destruct (Se k y (ex_intro _ sd (conj E I)) Dy) as (Cy & td & sc & D1 & D2 & D3). split; [exact Cy|]. exists td, sc. auto.
Qed.
