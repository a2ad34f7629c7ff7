(** * DeclaredFacts: the declarations after a term of a declaration file *)

From Verif Require Import ListFacts StrFacts HeapFacts Parser RunFacts NameFacts SpecNames SpecInherit InheritFacts SpecDeclared.

Definition Dof (s : st) : decls := decls_of (p_dterms (s_prs s)) (p_dsecs (s_prs s)).
Definition pvals (d : dict tdecl) : dict (dict string) := map (fun kv => (fst kv, td_props (snd kv))) d.

(** ** Dictionaries *)
Lemma dget_vals : forall A B (f : A -> B) k (d : dict A), dget k (map (fun kv => (fst kv, f (snd kv))) d) = option_map f (dget k d).
Proof. intros A B f k d. induction d as [|[k0 v] d IH]; [reflexivity|]. cbn [map dget fst snd]. destruct (eqs k k0); [reflexivity|exact IH]. Qed.
Lemma dset_vals : forall A B (f : A -> B) k v (d : dict A), map (fun kv => (fst kv, f (snd kv))) (dset k v d) = dset k (f v) (map (fun kv => (fst kv, f (snd kv))) d).
Proof. intros A B f k v d. induction d as [|[k0 v0] d IH]; [reflexivity|]. cbn [map dset fst snd]. destruct (eqs k k0); cbn [map fst snd]; [reflexivity|rewrite IH; reflexivity]. Qed.
Lemma fold_vals : forall A B (f : A -> B) (l d : dict A),
  map (fun kv => (fst kv, f (snd kv))) (fold_left (fun acc kv => dset (fst kv) (snd kv) acc) l d)
  = fold_left (fun acc kv => dset (fst kv) (snd kv) acc) (map (fun kv => (fst kv, f (snd kv))) l) (map (fun kv => (fst kv, f (snd kv))) d).
Proof. intros A B f l. induction l as [|[k v] l IH]; intros d; [reflexivity|]. cbn [fold_left map fst snd]. rewrite IH, dset_vals. reflexivity. Qed.

(** ** Names *)
Lemma at_dot_none : forall x, at_dot x = None <-> dot_free x.
Proof.
  intros x. induction x as [|c x IH]; [split; intros; [apply dot_free_iff; reflexivity|reflexivity]|].
  cbn [at_dot]. rewrite dot_free_iff in *. cbn [has_char]. destruct (Ascii.eqb c ".") eqn:E.
  - split; intros H; [discriminate H|]. exfalso. rewrite Ascii.eqb_sym in E. rewrite ?E in H. cbn in H. discriminate H.
  - rewrite Ascii.eqb_sym in E. rewrite ?E. cbn [orb]. destruct (at_dot x) as [[a b]|]; [split; intros H; [discriminate H|]|exact IH].
    apply IH in H. discriminate H.
Qed.
Lemma at_dot_cut : forall a b, dot_free a -> at_dot (a ++ "." ++ b)%string = Some (a, b).
Proof.
  induction a as [|c a IH]; intros b D; [reflexivity|]. assert (D2 : dot_free (String c "") /\ dot_free a) by (apply (dot_free_app (String c "") a); exact D).
  destruct D2 as [D1 D2]. change ((String c a ++ "." ++ b)%string) with (String c (a ++ "." ++ b)%string). cbn [at_dot]. rewrite (IH _ D2).
  apply at_dot_none in D1. cbn [at_dot] in D1. destruct (Ascii.eqb c "."); [discriminate D1|reflexivity].
Qed.

Lemma split_at : forall x p r, split_term x = Ok (p, r) -> p = parent_in x /\ r = record_in x.
Proof.
  intros x p r H. unfold parent_in, record_in. destruct (dot_cases x) as [D|[(a & b & -> & Ha & Hb)|[D _]]].
  - rewrite split_term_plain in H by exact D. apply at_dot_none in D. rewrite D. injection H as <- <-. split; reflexivity.
  - rewrite split_term_qualified in H by assumption. rewrite at_dot_cut by exact Ha. injection H as <- <-. split; reflexivity.
  - rewrite split_term_many in H by exact D. discriminate H.
Qed.
Lemma normal_full : forall x k, normalize_term x = Ok k -> k = full x.
Proof.
  intros x k H. unfold normalize_term, split_term_lower in H. destruct (split_term x) as [[p r]|e] eqn:E; [|discriminate H].
  injection H as <-. apply split_at in E. destruct E as [-> ->]. reflexivity.
Qed.
Lemma record_free : forall x p r, split_term x = Ok (p, r) -> dot_free r.
Proof. intros x p r H. apply (split_term_shape _ _ _ H). Qed.

Lemma child_of_starts : forall i x, dot_free i -> startswith (lower i ++ ".") (lower x) = child_of i x.
Proof.
  intros i x D. unfold child_of. destruct (at_dot x) as [[a b]|] eqn:E.
  - assert (X : x = (a ++ "." ++ b)%string /\ dot_free a).
    { revert a E. clear. induction x as [|c x IH]; intros a E; [discriminate E|]. cbn [at_dot] in E. destruct (Ascii.eqb c ".") eqn:C.
      - apply Ascii.eqb_eq in C. injection E as <- <-. subst c. split; [reflexivity|apply dot_free_iff; reflexivity].
      - destruct (at_dot x) as [[a' b']|]; [|discriminate E]. injection E as <- <-. destruct (IH a' eq_refl) as [-> Da]. split; [reflexivity|].
        apply at_dot_none. cbn [at_dot]. rewrite C. apply at_dot_none in Da. rewrite Da. reflexivity. }
    destruct X as [-> Da]. rewrite !lower_app. change (lower ".") with ".". eqs_cases (lower a) (lower i).
    + rewrite E0. apply startswith_spec. exists (lower b). rewrite <- app_s_assoc. reflexivity.
    + destruct (startswith _ _) eqn:S; [|reflexivity]. exfalso. apply startswith_spec in S. destruct S as (t & S). rewrite <- app_s_assoc in S.
      apply cut_unique in S; [|apply dot_free_lower; assumption..]. destruct S as [S _]. congruence.
  - destruct (startswith _ _) eqn:S; [|reflexivity]. exfalso. apply startswith_spec in S. destruct S as (t & S). rewrite <- app_s_assoc in S.
    apply at_dot_none in E. apply dot_free_lower in E. rewrite S in E. exact (not_free_mid _ _ E).
Qed.

(** ** Inherited children *)
Lemma round_told : forall T I sec x s s1, round T I sec x s s1 -> Dof s1 = copy_child T (Dof s) x.
Proof.
  intros T I sec x s s1 [_ (p & Sp) (td & sc & sd & k & E1 & E2 & E3 & E4 & E5)]. cbv zeta in E5.
  pose proof (split_at _ _ _ Sp) as [_ Rx]. rewrite Rx in E2, E5. apply normal_full in E2. subst k.
  unfold copy_child. change (dc_terms (Dof s)) with (pvals (p_dterms (s_prs s))). unfold pvals. rewrite dget_vals. unfold dterm in E1. rewrite E1. cbn [option_map]. cbv zeta.
  unfold dotted in E5. set (name := (T ++ "." ++ record_in x)%string) in *. set (ps := dset "term" name (dset "inheritsfrom" "" (td_props td))) in *.
  unfold declare, into_section.
  assert (Q1 : dget "section" ps = Some sc) by (unfold ps; rewrite !dget_dset_other by discriminate; exact E3).
  assert (Q2 : dget "term" ps = Some name) by apply dget_dset_same.
  rewrite Q1, Q2. change (dc_secs (Dof s)) with (p_dsecs (s_prs s)). rewrite E4.
  subst s1. destruct (mem_str name (sd_terms sd)); unfold Dof, decls_of; cbn [s_prs pmod set_s_prs p_dterms p_dsecs set_p_dsecs set_p_dterms dc_terms];
    rewrite dset_vals; reflexivity.
Qed.

Lemma filter_skip : forall A (f : A -> bool) n l x, n <= List.length l -> f x = false -> filter f (skipn n (l ++ [x])) = filter f (skipn n l).
Proof.
  intros A f n l x Hn Hf. rewrite skipn_app. replace (n - List.length l) with 0 by lia. cbn [skipn]. rewrite filter_app. cbn [filter]. rewrite Hf. apply app_nil_r.
Qed.

Lemma loop_told : forall T I sec, dot_free T -> dot_free I -> lower T <> lower I -> forall f n s s',
  inherit_loop f T I sec n s = (s', Ok tt) -> Dof s' = fold_left (copy_child T) (filter (child_of I) (skipn n (dsec sec s))) (Dof s).
Proof.
  intros T I sec DT DI NE f. induction f as [|f IH]; intros n s s' H; [discriminate H|].
  apply inherit_step in H. destruct H as [[En ->]|(x & En & H)].
  - apply nth_error_None in En. rewrite skipn_all2 by exact En. reflexivity.
  - assert (Sk : skipn n (dsec sec s) = x :: skipn (S n) (dsec sec s)).
    { clear -En. revert n En. induction (dsec sec s) as [|y l IH]; intros [|n] En; try discriminate En; [injection En as ->; reflexivity|].
      cbn [skipn]. rewrite (IH n En). reflexivity. }
    assert (Ln : n < List.length (dsec sec s)) by (apply nth_error_Some; congruence).
    rewrite Sk. cbn [filter]. rewrite <- child_of_starts by exact DI. destruct H as [[Sw H]|(s1 & R & H)].
    + rewrite Sw. apply IH. exact H.
    + rewrite (ro_child _ _ _ _ _ _ R). cbn [fold_left]. rewrite (IH _ _ _ H), <- (round_told _ _ _ _ _ _ R).
      f_equal. destruct (round_dsec _ _ _ _ _ _ sec R) as [-> |[-> _]]; [reflexivity|].
      apply filter_skip; [lia|]. unfold dotted, child_of. rewrite at_dot_cut by exact DT. apply eqs_false. exact NE.
Qed.

(** ** A row *)
Definition strs (d : dict string) : dict val := map (fun kv => (fst kv, VStr (snd kv))) d.
Lemma nonblank_strs : forall d, nonblank_props (strs d) = Ok (filter (fun kv => nonblank (snd kv)) d).
Proof.
  intros d. unfold nonblank_props. assert (E : forall l, rmap (fun kv : string * val => do? s <- as_str (snd kv) ;; Ok (if nonblank s then [(fst kv, s)] else [])) (strs l)
    = Ok (map (fun kv => if nonblank (snd kv) then [kv] else []) l)).
  { induction l as [|[k v] l IH]; [reflexivity|]. cbn [strs map rmap fst snd]. fold (strs l). rewrite IH. reflexivity. }
  rewrite E. cbn [rbind]. f_equal. induction d as [|[k v] d IH]; [reflexivity|]. cbn [map concat filter]. rewrite IH. destruct (nonblank (snd (k, v))); reflexivity.
Qed.
Lemma combine_strs : forall a b, combine a (map VStr b) = strs (combine a b).
Proof. induction a as [|x a IH]; intros [|y b]; try reflexivity. cbn [map combine strs fst snd]. rewrite IH. reflexivity. Qed.

Lemma nonblank_held : forall k (d : dict string) x, dget k (filter (fun kv => nonblank (snd kv)) d) = Some x -> nonempty x = true.
Proof.
  intros k d x. induction d as [|[k0 v] d IH]; [discriminate|]. cbn [filter]. destruct (nonblank (snd (k0, v))) eqn:N; [|exact IH].
  cbn [dget fst snd] in *. destruct (eqs k k0); [|exact IH]. intros E. injection E as <-. destruct v; [discriminate N|reflexivity].
Qed.

Lemma declare_told : forall t s s' sec, add_declared_term t s = (s', Ok tt) ->
  t_section (tget t s) = Some sec -> is_section_cls (t_cls (tget sec s)) = true ->
  exists x, t_val (tget t s) = VStr x
    /\ ((forall i, dget "inheritsfrom" (row_props (t_tvn (tget t s)) (sec_property_names (tget sec s)) (t_args (tget t s)) x) = Some i ->
         lower (record_in x) <> lower (record_in i)) ->
        Dof s' = declare_term (t_tvn (tget t s)) (sec_property_names (tget sec s)) (t_args (tget t s)) x (Dof s)).
Proof.
  intros t s s' sec H Hs Hc. unfold add_declared_term in H. rg H.
  destruct (t_val (tget t s)) as [| x | | |] eqn:Ev; try discriminate H. exists x. split; [reflexivity|]. intros NE. rg H.
  destruct (normalize_term x) as [nm|] eqn:En; [|discriminate H]. apply normal_full in En. subst nm. rg H. rg H.
  unfold arg_props in H. rewrite Hs in H. change (hget sec (s_heap s)) with (tget sec s) in H. rewrite Hc in H. rg H.
  rewrite Ev, combine_strs in H.
  set (cols := sec_property_names (tget sec s)) in *. set (tv := t_tvn (tget t s)) in *. set (cells := t_args (tget t s)) in *.
  assert (Es : dset (lower tv) (VStr x) (dict_of (strs (combine (map lower cols) cells))) = strs (dset (lower tv) x (dict_of (combine (map lower cols) cells)))).
  { unfold strs at 2. rewrite (dset_vals _ _ VStr). f_equal. unfold dict_of. symmetry. apply (fold_vals _ _ VStr _ []). }
  rewrite Es, nonblank_strs in H. rg H. cbv zeta in H. rg H.
  change (dset "term" x (filter (fun kv => nonblank (snd kv)) (dset (lower tv) x (dict_of (combine (map lower cols) cells))))) with (row_props tv cols cells x) in H.
  set (ps := row_props tv cols cells x) in *.
  assert (Held : forall k y, k <> "term" -> dget k ps = Some y -> nonempty y = true).
  { intros k y Nk E. unfold ps, row_props in E. rewrite dget_dset_other in E by exact Nk. apply nonblank_held in E. exact E. }
  assert (Pt : dget "term" ps = Some x) by apply dget_dset_same.
  set (s1 := pmod _ s) in H. rb H as s2 u H2. destruct u.
  assert (D2 : Dof s2 = declare x ps (Dof s)).
  { unfold declare, into_section. rewrite Pt. change (dc_terms (Dof s)) with (pvals (p_dterms (s_prs s))). change (dc_secs (Dof s)) with (p_dsecs (s_prs s)).
    destruct (dget "section" ps) as [sc|] eqn:Esc.
    - rewrite (Held "section" _ ltac:(discriminate) Esc) in H2. cbn [when] in H2. apply add_term_ok with (name := x) in H2; [|exact Pt].
      destruct H2 as (sc' & sd & G1 & G2 & ->). assert (sc' = sc) by congruence. subst sc'. change (p_dsecs (s_prs s1)) with (p_dsecs (s_prs s)) in G2. rewrite G2.
      destruct (mem_str x (sd_terms sd)); unfold Dof, decls_of, s1; cbn [s_prs pmod set_s_prs p_dterms p_dsecs set_p_dsecs set_p_dterms]; rewrite dset_vals; reflexivity.
    - apply ret_ok in H2. destruct H2 as [-> _]. unfold Dof, decls_of, s1; cbn [s_prs pmod set_s_prs p_dterms p_dsecs set_p_dsecs set_p_dterms]; rewrite dset_vals; reflexivity. }
  unfold declare_term. fold ps. cbv zeta. rewrite <- D2.
  destruct (dget "inheritsfrom" ps) as [i|] eqn:Ei.
  - rewrite (Held "inheritsfrom" _ ltac:(discriminate) Ei) in H. destruct (dget "section" ps) as [sc|] eqn:Esc; [|discriminate H].
    destruct (split_term x) as [[p1 T]|] eqn:Sx; [|discriminate H]. rg H. cbn iota beta in H.
    destruct (split_term i) as [[p2 I]|] eqn:Si; [|discriminate H]. rg H. cbn iota beta in H. rg H.
    pose proof (split_at _ _ _ Sx) as [_ ->]. pose proof (split_at _ _ _ Si) as [_ ->].
    apply loop_told in H; [|apply (record_free _ _ _ Sx)|apply (record_free _ _ _ Si)|apply (NE _ eq_refl)]. rewrite H. cbn [skipn]. unfold inherit. f_equal. 
  - apply ret_ok in H. destruct H as [-> _]. destruct (dget "section" ps); reflexivity.
Qed.

(** ** What manage_declare_terms does *)
Lemma is_root_name : forall n r, In n ["declaresection"; "declareterm"] -> lc_name r -> term_is r (dotted "root" n) = Ok (named_root r n).
Proof.
  intros n r I LC. destruct I as [<-|[<-|[]]]; (rewrite term_is_root; [reflexivity|apply dot_free_iff; reflexivity|apply tidy_iff; split; reflexivity|reflexivity|discriminate|exact LC]).
Qed.

Lemma values_told : forall t s s', add_value_set_value t s = (s', Ok tt) -> Dof s' = Dof s.
Proof.
  intros t s s' H. unfold add_value_set_value in H. rg H. rg H. destruct (t_parent (tget t s)) as [q|]; [|discriminate H].
  rg H. rb H as s2 ap H4. apply lift_ok in H4. destruct H4 as [-> H4]. cbv zeta in H. rewrite modP_run in H. injection H as <-.
  unfold Dof, decls_of. cbn [s_prs pmod set_s_prs p_dterms p_dsecs set_p_dterms]. f_equal. rewrite map_map. apply map_ext. intros [k td]. cbn [fst snd].
  destruct (dget "valuesetname" (td_props td)); [|reflexivity]. match goal with |- context [if ?b then _ else _] => destruct b end; reflexivity.
Qed.

Lemma manage_told : forall t s s' sec, manage_declare_terms t s = (s', Ok tt) -> lc_name (tget t s) ->
  (t_pt (tget t s) = "root" -> t_rt (tget t s) = "declareterm" -> t_section (tget t s) = Some sec /\ is_section_cls (t_cls (tget sec s)) = true) ->
  let r := tget t s in
  if eqs (t_pt r) "root" then
    if eqs (t_rt r) "declaresection" then
      exists x, t_val r = VStr x /\ Dof s' = mk_decls (dc_terms (Dof s)) (dset (lower x) (mk_sdecl (clean_args (t_args r)) []) (dc_secs (Dof s)))
    else if eqs (t_rt r) "declareterm" then
      exists x, t_val r = VStr x
        /\ ((forall i, dget "inheritsfrom" (row_props (t_tvn r) (sec_property_names (tget sec s)) (t_args r) x) = Some i -> lower (record_in x) <> lower (record_in i)) ->
            Dof s' = declare_term (t_tvn r) (sec_property_names (tget sec s)) (t_args r) x (Dof s))
    else Dof s' = Dof s
  else Dof s' = Dof s.
Proof.
  intros t s s' sec H LC Hs r. unfold manage_declare_terms in H. rg H. fold r in H, LC, Hs.
  change "root.declaresection" with (dotted "root" "declaresection") in H. rewrite is_root_name in H by (cbn; auto). rg H.
  change "root.declareterm" with (dotted "root" "declareterm") in H. rewrite is_root_name in H by (cbn; auto).
  assert (NR : forall n, named_root r n = eqs (t_pt r) "root" && eqs (t_rt r) n).
  { intros n. unfold named_root. rewrite (eqs_sym "root"), (eqs_sym n). reflexivity. }
  rewrite !NR in H. eqs_cases (t_pt r) "root"; cbn [andb] in H.
  - specialize (Hs E). eqs_cases (t_rt r) "declaresection".
    + unfold add_declared_section in H. rg H. fold r in H. destruct (t_val r) as [|x| | |] eqn:Ev; try discriminate H. exists x. split; [reflexivity|].
      cbn in H. injection H as <-. reflexivity.
    + rg H. eqs_cases (t_rt r) "declareterm".
      * apply (declare_told _ _ _ sec) in H; [|apply (Hs E1)..]. exact H.
      * rb H as s1 b H1. apply lift_ok in H1. destruct H1 as [-> _]. destruct b; [apply (values_told _ _ _ H)|apply ret_ok in H; destruct H as [-> _]; reflexivity].
  - rg H. rb H as s1 b H1. apply lift_ok in H1. destruct H1 as [-> _]. destruct b; [apply (values_told _ _ _ H)|apply ret_ok in H; destruct H as [-> _]; reflexivity].
Qed.
