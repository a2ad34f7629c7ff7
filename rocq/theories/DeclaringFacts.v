(** * DeclaringFacts: reading the rows after Declare rows *)

From Verif Require Import ListFacts StrFacts SpecNames NameFacts HeapFacts ConstructFacts GrowFacts DictFacts Parser RunFacts EmitFacts RowFacts FrameFacts ParseFacts DocFacts ForestFacts ParseProps RoundFacts SpecKept SpecInclude IncFacts InheritFacts SpecHead HeadFacts SpecCalm CalmFacts CalmRowFacts SpecInv SpecRound SpecOutline OutlineFacts SpecDeclared DeclaredFacts DeclaredRowFacts DeclaredFileFacts SpecOpened OpenedFacts SpecDeclaring SpecDoc.

(** the sections and terms of the rows after the first ones *)
Lemma after_sections : forall g head rows odd s0 ls s, loads_after g head rows odd s0 ls s -> among_themselves (cols_in s0) (view_past head s0 []) ls ->
  Forall2 (fun kv h => section_of s kv h
     /\ exists new, t_terms (tget (snd kv) s) = (terms_of s0 (h_key h) ++ new)%list
        /\ Forall2 (fun t x => shows s "root" (bare t) x /\ keeps s t x) (tops (h_key h) (made (world_in s0) (view_past head s0 []) (heads_of s0) ls)) new)
    (d_sections (s_doc s)) (heads (world_in s0) (view_past head s0 []) (heads_of s0) ls)
  /\ NoDup (dkeys (d_sections (s_doc s))).
Proof.
  intros g head rows odd s0 ls s LA Hm. destruct (after_run _ _ _ _ _ _ _ LA) as (s1 & RE & F). destruct LA as [L St C [Rd U] Od].
  destruct (oinv_rows (Bk := past odd s0) _ _ None rows ls (view_of (S (List.length head)) s0) (heads_of s0) [] s0 s1 ltac:(discriminate) (oinv_past odd s0 _ C) Rd U (greets_odd odd s0 ls Od) (or_intror Hm) RE) as (N & E & O).
  change (view_past head s0 []) with (view_of (S (List.length head)) s0). cbn [app] in O. rewrite (fi_sections _ _ F).
  assert (Nd : NoDup (dkeys (d_sections (s_doc s1)))) by (rewrite (vi_keys _ _ _ (oi_view _ _ _ _ _ _ O)); apply (vi_nodup _ _ _ (oi_view _ _ _ _ _ _ O))).
  split; [|exact Nd]. apply oinv_sections in O. rewrite E in O.
  assert (Eh : forall i, tget i s = tget i s1) by (intros i; unfold tget; rewrite (fi_heap _ _ F); reflexivity).
  eapply Forall2_imp; [|exact O]. intros [k i] h (K0 & SO & new & T & W). cbn [fst snd] in *. split; [unfold section_of in *; cbn [fst snd] in *; rewrite Eh; exact SO|].
  pose proof (proj1 SO) as A. cbn [fst] in A. rewrite Eh. exists new. split.
  2:{ eapply Forall2_imp; [|exact W]. intros t x [Y Z]. split; [eapply shows_same; [apply F|exact Y]|eapply keeps_same; [apply F|exact Z]]. }
  rewrite T. f_equal. unfold before, terms_of. cbn [b_base b_sterms past]. rewrite <- A. destruct (dget k (d_sections (s_doc s0))) as [i0|] eqn:E0.
  - pose proof (rows_eff_dsec (Bk := past odd s0) _ _ _ _ _ _ _ RE E0) as Y. rewrite Y in K0. injection K0 as <-. destruct (ca_secs _ _ C _ _ E0) as (Hi & _).
    rewrite (proj2 (Nat.ltb_lt _ _) Hi). reflexivity.
  - pose proof (rows_newsec (Bk := past odd s0) _ _ _ _ _ _ _ (calm_pinv odd s0 C) RE E0 K0) as Y. rewrite (proj2 (Nat.ltb_ge _ _) Y). reflexivity.
Qed.

(** the state after the Declare rows *)
Lemma declared_head : forall odd syn g xs fs rows s, quiet_place odd syn g -> Forall2 (file_says (in_env g) (in_dir g)) xs fs ->
  well_told_files (cols_of g) (props (in_terms g)) ["root"] first_root "@value" (decls_of installed_terms installed_sections) fs ->
  loads g (declare_rows xs ++ rows) s ->
  exists s0, steps_to g (declare_rows xs ++ rows) (declare_rows xs) s0 /\ inv odd syn free s0 /\ calm odd s0 /\ section_name s0 = "root"
    /\ (forall m, In m (dkeys (d_sections (s_doc s0))) -> m = "root" \/ In m odd) /\ root_at (true, roots_after first_root fs) s0
    /\ d_decl_terms (s_doc s0) = in_terms g /\ d_decl_sections (s_doc s0) = in_secs g /\ Dof s0 = told_by g fs
    /\ (let k := desk_past (cols_of g) blank_desk first_root fs in p_dtvn (s_prs s0) = k_value k /\ p_lastparent (s_prs s0) = k_parent k)
    /\ cols_at (cols_past (cols_of g) [] fs) s0.
Proof.
  intros odd syn g xs fs rows s P F W H. unfold loads, load_into in H.
  destruct (load_source_run (in_env g) (in_fuel g) (mk_source (in_ref g) (in_dir g) (declare_rows xs ++ rows)) (in_reg g) (in_terms g) (in_secs g) (in_super g)) as (k & K).
  destruct (K _ H) as (s3 & H1 & _ & ->). clear K H. destruct (in_fuel g) as [|n] eqn:Ef; [discriminate H1|]. cbn [generate_terms] in H1. rg H1.
  cbn [src_rows] in H1. rewrite rows_to_app in H1. rb H1 as s0 l0 H2. exists s0.
  assert (St : steps_to g (declare_rows xs ++ rows) (declare_rows xs) s0) by (exists l0; rewrite Ef; exact H2).
  split; [exact St|]. destruct (o_start odd syn g P) as [V0 _]. cbv zeta in V0.
  eapply (declare_list odd syn) with (hv := first_root) (k := blank_desk) (c := []) (seen := ["root"]) (fs := fs) in H2; try reflexivity; try eassumption.
  - destruct H2 as (V & _ & K9 & Rb & So & D & Dv & Lp & Cb). destruct (kp_decls _ _ K9) as [Y1 Y2].
    pose proof (v_odd _ _ _ _ V) as Ro.
    assert (C : calm odd s0 /\ section_name s0 = "root").
    { eapply (calm_of odd syn "root" (d_root (s_doc s0))); [exact V| |exact Ro]. destruct Rb as [_ Rb]. split; [apply (v_root _ _ _ _ V)|]. split; [symmetry; apply Rb; reflexivity|right; apply (v_rootk _ _ _ _ V)]. }
    destruct C as [C1 C2]. repeat (split; [assumption|]). split; [split; assumption|exact Cb].
  - apply (qp_files _ _ _ P).
  - split; [reflexivity|split; reflexivity].
  - intros m I. exact I.
  - intros m [<-|[]]. left. reflexivity.
Qed.

Lemma declaring : forall odd syn g xs ds rows fs s, quiet_place odd syn g -> Forall2 (file_says (in_env g) (in_dir g)) xs ds ->
  well_told_files (cols_of g) (props (in_terms g)) ["root"] first_root "@value" (decls_of installed_terms installed_sections) ds ->
  means rows fs -> (forall k, In k (headings fs) -> ~ In k odd) -> loads g (declare_rows xs ++ rows) s ->
  let w := declaring_world g ds in let v := view_past_files g (List.length xs) ds in
  among_themselves (cols_of g) v fs ->
  exists title, lower title = "root" /\ let h0 := root_head title ds in
  (forall k, ~ In k odd -> In k (dkeys (d_sections (s_doc s))) <-> In k (map h_key (heads w v [h0] fs)))
  /\ forall h, In h (heads w v [h0] fs) -> exists i old new, dget (h_key h) (d_sections (s_doc s)) = Some i
     /\ head_of s (h_key h, i) = h /\ t_terms (tget i s) = (old ++ new)%list /\ (h_key h <> "root" -> old = [])
     /\ Forall2 (fun t z => shows s "root" (bare t) z /\ keeps s t z) (tops (h_key h) (made w v [h0] fs)) new.
Proof.
  intros odd syn g xs lines rows fs s P Fx W M Od H w v Am.
  destruct (declared_head _ _ _ _ _ _ _ P Fx W H) as (s0 & St & V & C & Sn & So & Rb & Dt & Ds & D & [Dv Lp] & Cb).
  pose proof (v_odd _ _ _ _ V) as Ro. set (hd0 := declare_rows xs) in *.
  assert (LA : loads_after g hd0 rows odd s0 fs s) by (split; assumption).
  assert (Ec : cols_in s0 = cols_of g) by (unfold cols_in, cols_of; rewrite Ds; reflexivity).
  assert (Sw : same_world w (world_in s0)).
  { split.
    - intros n. change (cols_in s0 n = cols_of g n). rewrite Ec. reflexivity.
    - intros n k. change (w_parser w n k) with (told_prop (told_by g lines) n k). rewrite <- D. unfold Dof. rewrite told_prop_of. reflexivity.
    - intros n k. unfold w, declaring_world, world_in. cbn [w_doc]. rewrite Dt. reflexivity. }
  set (v' := view_past hd0 s0 []) in *. set (hs := heads_of s0) in *.
  destruct (CalmFacts.v_secs _ _ _ _ V _ _ (v_rootk _ _ _ _ V)) as (_ & (title & Vt & Lt) & _).
  set (h0 := root_head title lines).
  assert (Eh : h0 = head_of s0 ("root", d_root (s_doc s0))).
  { destruct Rb as [Rb _]. unfold desk3 in Rb. injection Rb as R1 R2 R3. unfold h0, root_head, head_of. cbn [snd fst]. rewrite R1, R2, R3, Vt. reflexivity. }
  assert (Oh : own_heads odd hs = [h0]).
  { unfold hs, heads_of. rewrite Eh. apply own_one; [apply (v_names _ _ _ _ V)|exact So|exact Ro|apply (v_rootk _ _ _ _ V)]. }
  assert (A : alike odd v v').
  { split; try exact Ro.
    - unfold v, v', view_past_files, view_past. cbn [fold_left v_line view_of]. unfold hd0, declare_rows. rewrite map_length. reflexivity.
    - exact Sn.
    - intros cells. change (v_cols v') with (p_pmap (s_prs s0)). rewrite Cb. apply cells_munged.
    - exact Dv.
    - exact Lp.
    - reflexivity.
    - reflexivity.
    - intros k O. change (v_secs v') with (map (fun ki => (fst ki, t_args (tget (snd ki) s0))) (d_sections (s_doc s0))). pose proof (assoc_heads s0 (d_sections (s_doc s0)) k) as X.
      rewrite map_map in X. cbn [h_key h_args head_of] in X. rewrite X.
      unfold v, view_past_files, assoc. cbn [v_secs find fst]. eqs_cases "root" k.
      + subst k. rewrite (v_rootk _ _ _ _ V). cbn [option_map snd]. f_equal. apply (v_rootn _ _ _ _ V).
      + destruct (dget k (d_sections (s_doc s0))) as [i|] eqn:G; [|reflexivity]. apply dget_keys in G. destruct (So k G) as [Y|Y]; [congruence|contradiction]. }
  assert (Am' : among_themselves (cols_in s0) v' fs) by (rewrite Ec; eapply among_alike; eassumption).
  destruct (after_sections _ _ _ _ _ _ _ LA Am') as [Q Nd]. fold v' hs in Q.
  destruct (made_same w (world_in s0) fs v' hs Sw) as [E1 E2]. rewrite E1, E2 in Q. clear E1 E2.
  destruct (made_alike odd w fs v v' hs Ro A Od) as [E1 E2]. rewrite Oh in E1, E2. rewrite E1 in Q. clear E1.
  assert (Ek : dkeys (d_sections (s_doc s)) = map h_key (heads w v' hs fs)) by (unfold dkeys; clear -Q; induction Q as [|a b l m [X _] Q IH]; [reflexivity|]; cbn [map]; rewrite IH; f_equal; apply X).
  exists title. split; [exact Lt|]. cbv zeta. fold h0. rewrite <- E2. split.
    + intros k O. rewrite Ek. unfold own_heads. rewrite !in_map_iff. split; intros (h & X & I); exists h; (split; [exact X|]).
      * apply filter_In. split; [exact I|]. rewrite X. rewrite (mem_not _ _ O). reflexivity.
      * apply filter_In in I. apply I.
    + intros h I. apply filter_In in I. destruct I as [I O]. destruct (Forall2_at _ _ _ _ _ Q _ I) as ((k & i) & Ik & (K1 & K2 & K3 & K4 & K5 & K6) & new & Tn & Wn).
      cbn [fst snd] in *. subst k. exists i, (terms_of s0 (h_key h)), new. split; [apply in_dget; assumption|]. split; [|split; [exact Tn|split]].
      * unfold head_of. cbn [fst snd]. rewrite K3, K4, K5, K6. destruct h. reflexivity.
      * intros X. unfold terms_of. destruct (dget (h_key h) (d_sections (s_doc s0))) as [j|] eqn:G; [|reflexivity]. apply dget_keys in G.
        destruct (So _ G) as [Y|Y]; [contradiction|]. apply mem_str_in in Y. rewrite Y in O. discriminate O.
      * exact Wn.
Qed.

(** the rows after the Declare rows declare nothing *)
Definition same_decls (s s' : st) : Prop := p_dterms (s_prs s') = p_dterms (s_prs s) /\ p_dsecs (s_prs s') = p_dsecs (s_prs s).
Lemma new_decls : forall s r q s', RowFacts.new_term s r q s' -> same_decls s s'.
Proof. intros s r q s' N. unfold same_decls. rewrite (nt_prs _ _ _ _ N). destruct (registers r); split; reflexivity. Qed.
Lemma kids_decls : forall line ft t n col args s s', kids line ft t n col args s s' -> same_decls s s'.
Proof.
  unfold same_decls. induction 1; [split; reflexivity|assumption|]. destruct (new_decls _ _ _ _ H1) as [A B]. destruct IHkids as [C D]. split; congruence.
Qed.
Lemma enter_decls : forall i s, same_decls s (enter_section i s).
Proof. intros i s. unfold enter_section. destruct (_ =? _); split; reflexivity. Qed.
Lemma row_decls : forall ft line row s s', row_eff ft line row s s' -> same_decls s s'.
Proof.
  intros ft line row s s' H. destruct H as [H1 ->|H1 H2 H3 ->|c H1 H2 H3 H4 ->|p r c q s1 H1 H2 H3 H4 H5 H6 H7].
  - split; reflexivity.
  - unfold section_effect. cbv zeta. destruct (dget _ _); [apply (enter_decls n (push _ s))|]. exact (enter_decls (hlen s) (push _ s)).
  - split; reflexivity.
  - destruct (new_decls _ _ _ _ H6) as [A B]. destruct (kids_decls _ _ _ _ _ _ _ _ H7) as [C D]. split; congruence.
Qed.
Lemma rows_decls : forall (Bk : background) ft n rows s s', rows_eff ft n rows s s' -> same_decls s s'.
Proof.
  intros Bk ft n rows s s' H. induction H as [|n row rows s s1 s' H1 H2 H3 [C D]]; [split; reflexivity|].
  destruct (row_decls _ _ _ _ _ H1) as [A B]. split; congruence.
Qed.

Lemma load_ends : forall e fuel src reg dt ds sup s', load_source e fuel src (new_doc reg dt ds sup) = (s', Ok tt) ->
  d_decl_terms (s_doc s') = dupdate dt (p_dterms (s_prs s')) /\ d_decl_sections (s_doc s') = dupdate ds (p_dsecs (s_prs s')).
Proof.
  intros e fuel src reg dt ds sup s' H. unfold load_source in H. rb H as s1 u H1. unfold start_parser in H1. apply modify_ok in H1. subst s1.
  fold (started (new_doc reg dt ds sup)) in H. rg H. rb H as s2 u2 H2. assert (s2 = started (new_doc reg dt ds sup)) as -> by (vm_compute in H2; injection H2 as <- _; reflexivity).
  rb H as s3 u3 H3. apply kept_generate in H3. destruct (kp_decls _ _ H3) as [KA KB].
  unfold finish_load, getP, bind, gets in H. rewrite !modD_run in H. injection H as <-. cbn. rewrite KA, KB. split; reflexivity.
Qed.

Lemma declaring_head : forall odd syn g xs ds rows fs s, quiet_place odd syn g -> Forall2 (file_says (in_env g) (in_dir g)) xs ds ->
  well_told_files (cols_of g) (props (in_terms g)) ["root"] first_root "@value" (decls_of installed_terms installed_sections) ds ->
  means rows fs -> (forall k, In k (headings fs) -> ~ In k odd) -> loads g (declare_rows xs ++ rows) s ->
  (exists s0, loads_after g (declare_rows xs) rows odd s0 fs s
    /\ (let v := view_past (declare_rows xs) s0 [] in let v0 := view_past_files g (List.length xs) ds in
        v_line v = v_line v0 /\ v_cur v = v_cur v0 /\ v_vname v = v_vname v0 /\ v_parent v = v_parent v0
        /\ forall cells, cells_from (v_cols v) 0 cells = cells_from (v_cols v0) 0 cells)
    /\ decls_of (p_dterms (s_prs s0)) (p_dsecs (s_prs s0)) = told_by g ds
    /\ d_decl_terms (s_doc s0) = in_terms g /\ d_decl_sections (s_doc s0) = in_secs g)
  /\ decls_of (d_decl_terms (s_doc s)) (d_decl_sections (s_doc s)) = told_in g ds.
Proof.
  intros odd syn g xs lines rows fs s P Fx W M Od H.
  destruct (declared_head _ _ _ _ _ _ _ P Fx W H) as (s0 & St & V & C & Sn & So & Rb & Dt & Ds & D & [Dv Lp] & Cb).
  assert (LA : loads_after g (declare_rows xs) rows odd s0 fs s) by (split; assumption). split.
  - exists s0. split; [exact LA|]. split; [|split; [exact D|split; assumption]]. cbv zeta. split; [cbn; unfold declare_rows; rewrite map_length; reflexivity|].
    split; [exact Sn|]. split; [exact Dv|]. split; [exact Lp|]. intros cells. change (v_cols (view_past (declare_rows xs) s0 [])) with (p_pmap (s_prs s0)). rewrite Cb. apply cells_munged.
  - destruct (after_run _ _ _ _ _ _ _ LA) as (s1 & RE & F). apply rows_decls in RE. destruct RE as [E1 E2]. rewrite <- (fi_prs _ _ F) in E1, E2.
    destruct (load_ends _ _ _ _ _ _ _ _ H) as [-> ->]. rewrite E1, E2, fold_overlay. fold (Dof s0). rewrite D. reflexivity.
Qed.
