(** * OpenedFacts: reading a file with the declarations of another *)

From Verif Require Import ListFacts StrFacts SpecNames NameFacts HeapFacts ConstructFacts DictFacts Parser RunFacts EmitFacts RowFacts FrameFacts ParseFacts SpecInclude InheritFacts SpecHead SpecCalm CalmFacts CalmRowFacts SpecInv SpecRound SpecOutline OutlineFacts SpecMore MoreFacts SpecDeclared DeclaredFacts DeclaredRowFacts DeclaredFileFacts SpecOpened SpecDoc.

(** ** The document a declaration file leaves is in good order *)
Lemma reopen_calm : forall odd syn dt ds s, inv odd syn free s ->
  (forall n, ~ In (lower (strip n)) odd -> ~ In "section" (map lower (map strip (declared_columns ds n)))) ->
  calm odd (reopened (set_s_doc (set_d_decl_sections ds (set_d_decl_terms dt (s_doc s))) s)).
Proof.
  intros odd syn dt ds s V Hd. pose proof V as [V1 Vo V2 V3 V4 V5 V6 V7 V8 V9 V10 V11 V12 V13 V14 V15 V16 V17 V18 V19 V20 V21 V22 V23].
  set (m := reopened _).
  assert (Tm : p_tmap (s_prs m) = [(ELIDED_TERM, d_root (s_doc s)); ("root", d_root (s_doc s))]).
  { change (p_tmap (s_prs m)) with (dset (t_rt (tget (d_root (s_doc s)) s)) (d_root (s_doc s)) [(ELIDED_TERM, d_root (s_doc s))]). rewrite (proj1 V7). reflexivity. }
  split; try assumption.
  - vm_compute. reflexivity.
  - intros k i E. change (dget k (d_sections (s_doc s)) = Some i) in E. change (tget i m) with (tget i s). destruct (V15 _ _ E) as ((X1 & X2) & (n & Y1 & Y2) & Z).
    split; [exact X1|]. split; [exact X2|]. split; [exists n; auto|].
    destruct (in_dec string_dec k odd) as [I|I]; [left; exact I|right]. destruct Z as [Z|[Z1 Z2]]; [contradiction|].
    pose proof (V16 i) as N. split; [exact X2|]. change (tget i m) with (tget i s). split; [|apply (n_rt _ _ _ _ _ N X2)].
    destruct (n_val _ _ _ _ _ N X2) as (n' & Y3 & Y4). assert (n' = n) as -> by congruence. rewrite Y2 in Y4.
    split; auto; [apply (n_at _ _ _ _ _ N X2)|apply (n_doc _ _ _ _ _ N X2)|apply (n_pt _ _ _ _ _ N X2)].
  - exists "root". split; [exact V8|exact Vo].
  - reflexivity.
  - split; [apply dot_free_iff; reflexivity|]. split; [reflexivity|]. split; [discriminate|]. rewrite Tm. discriminate.
  - rewrite Tm. reflexivity.
  - split; [|split].
    + intros k i E. rewrite Tm in E. cbn [dget] in E. assert (i = d_root (s_doc s)) as -> by (destruct (eqs k ELIDED_TERM), (eqs k "root"); congruence). apply V6.
    + intros i I. apply (V18 _ I).
    + intros i _. change (tget i m) with (tget i s). split; intros j I; [apply (V18 j), (V19 i j I)|apply (V20 i j I)].
Qed.

(** ** Sections that no line of the file names do not matter *)
Section Apart.
Variable odd : list string.
Definition own_heads (hs : list head) : list head := filter (fun h => negb (mem_str (h_key h) odd)) hs.

Record alike (v v' : view) : Prop := {
  al_line : v_line v' = v_line v; al_cur : v_cur v' = v_cur v; al_cols : forall cells, cells_from (v_cols v') 0 cells = cells_from (v_cols v) 0 cells; al_vname : v_vname v' = v_vname v;
  al_parent : v_parent v' = v_parent v; al_last : v_last v' = v_last v; al_tops : v_tops v' = v_tops v;
  al_secs : forall k, ~ In k odd -> assoc k (v_secs v') = assoc k (v_secs v);
  al_odd : ~ In (v_cur v) odd
}.

Lemma assoc_app : forall A k (l m : list (string * A)), assoc k (l ++ m) = match assoc k l with Some x => Some x | None => assoc k m end.
Proof.
  intros A k l m. unfold assoc. induction l as [|[k0 a] l IH]; [reflexivity|]. cbn [app find fst]. destruct (eqs k0 k); [reflexivity|exact IH].
Qed.

Lemma next_alike : forall decl v v' l, ~ In "root" odd -> alike v v' -> (forall k, In k (headings [l]) -> ~ In k odd) -> alike (next decl v l) (next decl v' l).
Proof.
  intros decl v v' l Ro [A1 A2 A3 A4 A5 A6 A7 A8 A9] H. destruct v as [a1 a2 a3 a4 a5 a6 a7 a8], v' as [b1 b2 b3 b4 b5 b6 b7 b8]. cbn in *. subst.
  destruct l as [|n cells|n cells|p r x cells]; cbn [next v_line v_secs v_cur v_cols v_vname v_parent v_last v_tops].
  - split; cbn; auto.
  - assert (O : ~ In (lower (strip n)) odd) by (apply H; left; reflexivity).
    destruct (eqs (lower (strip n)) "root"); [split; cbn; auto|]. rewrite (A8 _ O).
    destruct (assoc (lower (strip n)) a2) eqn:E; (split; cbn; auto). intros k Ok. rewrite !assoc_app, (A8 _ Ok). reflexivity.
  - split; cbn; auto.
  - destruct (eqs p current_parent); split; cbn; auto.
Qed.

Lemma vname_own : forall k hs, ~ In k odd -> vname_in (own_heads hs) k = vname_in hs k.
Proof.
  intros k hs O. unfold vname_in, own_heads. induction hs as [|h hs IH]; [reflexivity|]. cbn [filter find].
  destruct (mem_str (h_key h) odd) eqn:M; cbn [negb].
  - apply mem_str_in in M. eqs_cases (h_key h) k; [exfalso; apply O; rewrite <- E; exact M|exact IH].
  - cbn [find]. destruct (eqs (h_key h) k); [reflexivity|exact IH].
Qed.

Lemma next_own : forall decl cur hs l, (forall k, In k (headings [l]) -> ~ In k odd) -> next_heads decl cur (own_heads hs) l = own_heads (next_heads decl cur hs l).
Proof.
  intros decl cur hs l H. destruct l as [|n cells|n cells|p r x cells]; cbn [next_heads]; try reflexivity.
  - assert (O : ~ In (lower (strip n)) odd) by (apply H; left; reflexivity). set (k := lower (strip n)) in *.
    assert (E : existsb (fun h => eqs (h_key h) k) (own_heads hs) = existsb (fun h => eqs (h_key h) k) hs).
    { unfold own_heads. clear H. induction hs as [|h hs IH]; [reflexivity|]. cbn [filter existsb]. destruct (mem_str (h_key h) odd) eqn:M; cbn [negb existsb].
      - apply mem_str_in in M. eqs_cases (h_key h) k; [exfalso; apply O; rewrite <- E; exact M|exact IH].
      - rewrite IH. reflexivity. }
    rewrite E. destruct (existsb _ hs); [reflexivity|]. unfold own_heads. rewrite filter_app. f_equal. cbn [filter h_key].
    destruct (mem_str k odd) eqn:M; [apply mem_str_in in M; contradiction|reflexivity].
  - clear H. unfold own_heads. induction hs as [|h hs IH]; [reflexivity|].
    assert (K : h_key (with_header cur n cells h) = h_key h) by (unfold with_header; destruct (eqs (h_key h) cur); reflexivity).
    cbn [map filter]. rewrite K. destruct (mem_str (h_key h) odd); cbn [negb map]; [exact IH|rewrite IH; reflexivity].
Qed.

Lemma entries_alike : forall w vn v v' l, alike v v' -> line_entries w v' vn l = line_entries w v vn l.
Proof.
  intros w vn v v' l [A1 A2 A3 A4 A5 A6 A7 A8 A9]. destruct v as [a1 a2 a3 a4 a5 a6 a7 a8], v' as [b1 b2 b3 b4 b5 b6 b7 b8]. cbn in *. subst. destruct l; try reflexivity. cbn [line_entries v_cols v_line v_parent v_vname]. rewrite A3. reflexivity.
Qed.

Lemma made_alike : forall w ls v v' hs, ~ In "root" odd -> alike v v' -> (forall k, In k (headings ls) -> ~ In k odd) ->
  made w v' hs ls = made w v (own_heads hs) ls /\ own_heads (heads w v' hs ls) = heads w v (own_heads hs) ls.
Proof.
  intros w. induction ls as [|l ls IH]; intros v v' hs Ro A H; [split; reflexivity|]. cbn [made heads].
  assert (H1 : forall k, In k (headings [l]) -> ~ In k odd).
  { intros k I. apply H. unfold headings in *. cbn [map concat] in *. rewrite app_nil_r in I. apply in_app_iff. left. exact I. }
  assert (H2 : forall k, In k (headings ls) -> ~ In k odd).
  { intros k I. apply H. unfold headings in *. cbn [map concat]. apply in_app_iff. right. exact I. }
  destruct (IH (next (w_cols w) v l) (next (w_cols w) v' l) (next_heads (w_cols w) (v_cur v) hs l) Ro (next_alike _ _ _ _ Ro A H1) H2) as [E1 E2].
  rewrite (al_cur _ _ A), (entries_alike _ _ _ _ _ A), vname_own by apply (al_odd _ _ A). rewrite <- next_own in E1, E2 by exact H1.
  split; [rewrite E1; reflexivity|exact E2].
Qed.

(** and so are the places they go to *)
Lemma among_alike : forall decl ls v v', ~ In "root" odd -> alike v v' -> (forall k, In k (headings ls) -> ~ In k odd) -> among_themselves decl v ls -> among_themselves decl v' ls.
Proof.
  intros decl. induction ls as [|l ls IH]; intros v v' Ro A H M; [exact Logic.I|]. cbn [among_themselves] in *. destruct M as [M1 M2].
  assert (H1 : forall k, In k (headings [l]) -> ~ In k odd).
  { intros k I. apply H. unfold headings in *. cbn [map concat] in *. rewrite app_nil_r in I. apply in_app_iff. left. exact I. }
  assert (H2 : forall k, In k (headings ls) -> ~ In k odd).
  { intros k I. apply H. unfold headings in *. cbn [map concat]. apply in_app_iff. right. exact I. }
  split; [|eapply IH; [exact Ro|apply next_alike; eassumption|exact H2|exact M2]].
  destruct l; try exact M1. intros E. apply M1. rewrite <- E. unfold spot_of, spot_in. rewrite (al_cur _ _ A), (al_parent _ _ A), (al_last _ _ A). reflexivity.
Qed.
End Apart.

Lemma cells_munged : forall cells c i, cells_from (munge_param_map c) i cells = cells_from c i cells.
Proof.
  intros cells c. induction cells as [|x cells IH]; intros i; [reflexivity|]. cbn [cells_from]. rewrite IH. replace (column_name (munge_param_map c) i) with (column_name c i); [reflexivity|].
  rewrite <- !renamed_column, munge_idem. reflexivity.
Qed.

(** worlds that answer alike *)
Record same_world (w w' : world) : Prop := {
  sw_cols : forall n, w_cols w' n = w_cols w n; sw_parser : forall n k, w_parser w' n k = w_parser w n k; sw_doc : forall n k, w_doc w' n k = w_doc w n k
}.
Lemma next_same : forall d d' v l, (forall n, d' n = d n) -> next d' v l = next d v l.
Proof. intros d d' v l E. destruct l; cbn [next]; try reflexivity. rewrite E. reflexivity. Qed.
Lemma heads_same : forall d d' cur hs l, (forall n, d' n = d n) -> next_heads d' cur hs l = next_heads d cur hs l.
Proof. intros d d' cur hs l E. destruct l; cbn [next_heads]; try reflexivity. rewrite E. reflexivity. Qed.
Lemma noted_same : forall w w' v p r, same_world w w' -> noted w' v p r = noted w v p r.
Proof. intros w w' v p r [A B C]. unfold noted. rewrite !B. reflexivity. Qed.
Lemma made_same : forall w w' ls v hs, same_world w w' -> made w' v hs ls = made w v hs ls /\ heads w' v hs ls = heads w v hs ls.
Proof.
  intros w w' ls v hs S. revert v hs. induction ls as [|l ls IH]; intros v hs; [split; reflexivity|]. cbn [made heads].
  rewrite (next_same (w_cols w) (w_cols w')), (heads_same (w_cols w) (w_cols w')) by apply S.
  destruct (IH (next (w_cols w) v l) (next_heads (w_cols w) (v_cur v) hs l)) as [-> ->]. split; [|reflexivity]. f_equal.
  destruct l as [| | |p r x cells]; try reflexivity. cbn [line_entries]. rewrite (noted_same w w' v p r S). f_equal.
  - f_equal. destruct (eqs _ "root"); [|reflexivity]. unfold at_root. rewrite !(sw_doc _ _ S). reflexivity.
  - apply map_ext. intros [a b]. rewrite (noted_same w w' v r _ S). reflexivity.
Qed.

Lemma Forall2_at : forall A B (R : A -> B -> Prop) l m, Forall2 R l m -> forall b, In b m -> exists a, In a l /\ R a b.
Proof. intros A B R l m F. induction F as [|a b l m H F IH]; intros x I; [destruct I|]. destruct I as [<-|I]; [exists a; split; [left; reflexivity|exact H]|]. destruct (IH x I) as (a' & I' & H'). exists a'. split; [right; exact I'|exact H']. Qed.

Lemma dget_keys : forall A k (d : dict A) v, dget k d = Some v -> In k (dkeys d).
Proof. intros A k d v G. apply dget_in in G. unfold dkeys. apply in_map_iff. exists (k, v). split; [reflexivity|exact G]. Qed.

Lemma mem_not : forall k l, ~ In k l -> mem_str k l = false.
Proof. intros k l N. destruct (mem_str k l) eqn:E; [|reflexivity]. apply mem_str_in in E. contradiction. Qed.

Lemma own_none : forall odd s ds, (forall m, In m (dkeys ds) -> In m odd) -> own_heads odd (map (head_of s) ds) = [].
Proof.
  intros odd s ds. induction ds as [|[k i] ds IH]; intros F; [reflexivity|]. unfold own_heads in *. cbn [map filter head_of h_key fst].
  assert (Ik : In k odd) by (apply F; left; reflexivity). apply mem_str_in in Ik. rewrite Ik. cbn [negb]. apply IH. intros m I. apply F. right. exact I.
Qed.

Lemma own_one : forall odd s ds i, NoDup (dkeys ds) -> (forall m, In m (dkeys ds) -> m = "root" \/ In m odd) -> ~ In "root" odd -> dget "root" ds = Some i ->
  own_heads odd (map (head_of s) ds) = [head_of s ("root", i)].
Proof.
  intros odd s ds i. induction ds as [|[k j] ds IH]; intros N F R G; [discriminate G|]. unfold dkeys in N. cbn [map fst] in N. apply NoDup_cons_iff in N. destruct N as [Nk N].
  unfold own_heads. cbn [map filter head_of h_key fst]. cbn [dget] in G. destruct (F k (or_introl eq_refl)) as [->|Ik].
  - rewrite eqs_refl in G. injection G as ->. rewrite (mem_not _ _ R). cbn [negb]. f_equal. apply own_none. intros m I. destruct (F m (or_intror I)) as [->|X]; [contradiction|exact X].
  - assert (Kr : k <> "root") by (intros ->; contradiction). pose proof (proj2 (mem_str_in _ _) Ik) as Ik'. rewrite Ik'. cbn [negb]. apply IH; try assumption.
    + intros m I. apply F. right. exact I.
    + destruct (eqs k "root") eqn:X; [apply eqs_true in X; contradiction|]. destruct (eqs "root" k) eqn:Y; [apply eqs_true in Y; congruence|]. exact G.
Qed.

Lemma assoc_heads : forall s ds k, assoc k (map (fun h => (h_key h, h_args h)) (map (head_of s) ds)) = option_map (fun i => t_args (tget i s)) (dget k ds).
Proof.
  intros s ds k. induction ds as [|[k0 i] ds IH]; [reflexivity|]. unfold assoc in *. cbn [map find dget fst head_of h_key h_args]. rewrite (eqs_sym k0 k).
  destruct (eqs k k0); [reflexivity|exact IH].
Qed.

Lemma opened : forall odd syn g xs ds src fs s, quiet_place odd syn g -> xs <> [] -> Forall2 (file_says (in_env g) "") xs ds ->
  well_told_files (cols_of g) (props (in_terms g)) ["root"] first_root "@value" (decls_of installed_terms installed_sections) ds ->
  let w := told_world (told_in g ds) in
  tidy_columns odd (told_in g ds) -> means (src_rows src) fs -> (forall k, In k (headings fs) -> ~ In k odd) ->
  open_doc (in_env g) (in_fuel g) xs src (blank_doc g) = (s, Ok tt) ->
  exists title, lower title = "root" /\ let h0 := root_head title ds in
  (forall k, ~ In k odd -> In k (dkeys (d_sections (s_doc s))) <-> In k (map h_key (heads w first_view [h0] fs)))
  /\ forall h, In h (heads w first_view [h0] fs) -> exists i old new, dget (h_key h) (d_sections (s_doc s)) = Some i
     /\ head_of s (h_key h, i) = h /\ t_terms (tget i s) = (old ++ new)%list /\ (h_key h <> "root" -> old = [])
     /\ Forall2 (fun t z => shows s "root" (bare t) z /\ keeps s t z) (tops (h_key h) (made w first_view [h0] fs)) new.
Proof.
  intros odd syn g xs lines src fs s P Nx Fx W w Tc M Od H. unfold open_doc in H. rb H as s1 u H1. destruct u.
  destruct (declared_run _ _ _ _ _ _ P Nx Fx W H1) as (s0 & V & Es & So & Rb & D). pose proof (t_declared _ _ _ _ _ _ P Nx Fx W H1) as Dd. fold (told_in g lines) in Dd.
  assert (Cs : forall n, declared_columns (d_decl_sections (s_doc s1)) n = declared_columns (dc_secs (told_in g lines)) n) by (rewrite <- Dd; reflexivity).
  assert (C : calm odd (reopened s1)).
  { rewrite Es. eapply reopen_calm; [exact V|]. intros n O. specialize (Tc n O). rewrite <- Cs, Es in Tc. exact Tc. }
  destruct (more_run _ _ _ _ _ _ _ C M Od H) as (Q & _ & _ & s2 & V2 & F2 & _).
  assert (Sw : same_world w (world_in (reopened s1))).
  { split; try reflexivity.
    - intros n. exact (Cs n).
    - intros n k. change (w_doc w n k) with (told_prop (told_in g lines) n k). rewrite <- Dd, told_prop_of. reflexivity. }
  set (hs := heads_of s1) in *. set (w' := world_in (reopened s1)) in *. destruct (made_same w w' fs (fresh_view hs) hs Sw) as [E1 E2]. rewrite E1, E2 in Q. clear E1 E2.
  pose proof (v_odd _ _ _ _ V) as Ro.
  assert (Es1 : d_sections (s_doc s1) = d_sections (s_doc s0)) by (rewrite Es; reflexivity).
  assert (Et : forall i, tget i s1 = tget i s0) by (intros i; rewrite Es; reflexivity).
  destruct (CalmFacts.v_secs _ _ _ _ V _ _ (v_rootk _ _ _ _ V)) as (_ & (title & Vt & Lt) & _).
  set (h0 := root_head title lines).
  assert (Eh : h0 = head_of s1 ("root", d_root (s_doc s0))).
  { destruct Rb as [Rb _]. unfold desk3 in Rb. injection Rb as R1 R2 R3. unfold h0, root_head, head_of. cbn [snd fst]. rewrite Et, R1, R2, R3, Vt. reflexivity. }
  assert (Oh : own_heads odd hs = [h0]).
  { unfold hs, heads_of. rewrite Es1, Eh. apply own_one; [apply (v_names _ _ _ _ V)|exact So|exact Ro|apply (v_rootk _ _ _ _ V)]. }
  assert (A : alike odd first_view (fresh_view hs)).
  { split; try reflexivity; [|exact Ro]. intros k O. unfold fresh_view, hs, heads_of. cbn [v_secs]. rewrite assoc_heads, Es1.
    unfold first_view, assoc. cbn [v_secs find fst]. eqs_cases "root" k.
    - subst k. rewrite (v_rootk _ _ _ _ V). cbn [option_map snd]. rewrite Et. f_equal. apply (v_rootn _ _ _ _ V).
    - destruct (dget k (d_sections (s_doc s0))) as [i|] eqn:G; [|reflexivity]. apply dget_keys in G. destruct (So k G) as [X|X]; [congruence|contradiction]. }
  destruct (made_alike odd w fs first_view (fresh_view hs) hs Ro A Od) as [E1 E2]. rewrite Oh in E1, E2. rewrite E1 in Q. clear E1.
  assert (Nd : NoDup (dkeys (d_sections (s_doc s)))) by (rewrite (fi_sections _ _ F2), (vi_keys _ _ _ V2); apply (vi_nodup _ _ _ V2)).
  assert (Ek : dkeys (d_sections (s_doc s)) = map h_key (heads w (fresh_view hs) hs fs)) by (unfold dkeys; clear -Q; induction Q as [|a b l m [X _] Q IH]; [reflexivity|]; cbn [map]; rewrite IH; f_equal; apply X).
  exists title. split; [exact Lt|]. cbv zeta. fold h0. rewrite <- E2. split.
    + intros k O. rewrite Ek. unfold own_heads. rewrite !in_map_iff. split; intros (h & X & I); exists h; (split; [exact X|]).
      * apply filter_In. split; [exact I|]. rewrite X. rewrite (mem_not _ _ O). reflexivity.
      * apply filter_In in I. apply I.
    + intros h I. apply filter_In in I. destruct I as [I O]. destruct (Forall2_at _ _ _ _ _ Q _ I) as ((k & i) & Ik & (K1 & K2 & K3 & K4 & K5 & K6) & new & Tn & Wn).
      cbn [fst snd] in *. subst k. exists i, (terms_of s1 (h_key h)), new. split; [apply in_dget; assumption|]. split; [|split; [exact Tn|split]].
      * unfold head_of. cbn [fst snd]. rewrite K3, K4, K5, K6. destruct h. reflexivity.
      * intros X. unfold terms_of. rewrite Es1. destruct (dget (h_key h) (d_sections (s_doc s0))) as [j|] eqn:G; [|reflexivity]. apply dget_keys in G.
        destruct (So _ G) as [Y|Y]; [contradiction|]. apply mem_str_in in Y. rewrite Y in O. discriminate O.
      * exact Wn.
Qed.

Lemma tidy_by : forall odd D, forallb (fun kv => mem_str (strip (fst kv)) odd || negb (mem_str "section" (map lower (map strip (sd_args (snd kv)))))) (dc_secs D) = true -> tidy_columns odd D.
Proof.
  intros odd D F n O. unfold declared_columns. destruct (dget (lower n) (dc_secs D)) as [sd|] eqn:G; [|intros []]. apply dget_in in G.
  rewrite forallb_forall in F. specialize (F _ G). cbn [fst snd] in F. rewrite strip_lower, (mem_not _ _ O) in F. cbn [orb] in F. apply negb_true_iff in F.
  intros I. apply mem_str_in in I. congruence.
Qed.
