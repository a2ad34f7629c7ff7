(** * IncludeFacts: proofs about included files *)

From Verif Require Import ListFacts StrFacts HeapFacts Parser RunFacts TotalFacts NameFacts ConstructFacts ParseFacts RowFacts SpecNames SpecParse SpecInclude.

Lemma construct_val : forall c term value args row col ftype parent doc section s s' i,
  construct c term value args row col ftype parent doc section s = (s', Ok i) ->
  t_val (tget i s') = init_val value.
Proof.
  intros until i. intros H. unfold construct in H.
  assert (Plain : mk_plain c term value args row col ftype parent doc section s = (s', Ok i) -> t_val (tget i s') = init_val value).
  { intros P. apply mk_plain_ok in P. destruct P as (p & r & P1 & _ & -> & ->).
    unfold tget. cbn [s_heap set_s_heap]. rewrite hget_app_new. reflexivity. }
  destruct c; auto; try discriminate H.
  destruct parent, section, doc; try discriminate.
  apply mk_section_ok in H. destruct H as (p & r & a & H1 & -> & -> & _).
  unfold tget. cbn [s_heap set_s_heap]. rewrite hget_app_new. reflexivity.
Qed.

Lemma cell_names_det : forall c p n p' n', cell_names c p n -> cell_names c p' n' -> p = p' /\ n = n'.
Proof. intros c p n p' n' H1 H2. apply split_term_lower_spec in H1, H2. rewrite H1 in H2. injection H2. auto. Qed.

(** what a run decides, up to the recursion limit *)
Definition lim {A} (lax : bool) (a b : st * res A) : Prop := a = b \/ (lax = true /\ snd a = Err ERecursion).
Definition lrun {A} (lax : bool) (m1 m2 : MM A) : Prop := forall s, lim lax (m1 s) (m2 s).

Lemma lrun_refl : forall A lax (m : MM A), lrun lax m m.
Proof. intros A lax m s. left. reflexivity. Qed.
Lemma lrun_bind : forall A B lax (m1 m2 : MM A) (f1 f2 : A -> MM B),
  lrun lax m1 m2 -> (forall a, lrun lax (f1 a) (f2 a)) -> lrun lax (bind m1 f1) (bind m2 f2).
Proof.
  intros A B lax m1 m2 f1 f2 H1 H2 s. unfold bind. destruct (H1 s) as [E|[L E]].
  - rewrite E. destruct (m2 s) as [s2 [a|er]]; [apply H2|left; reflexivity].
  - right. split; [exact L|]. destruct (m1 s) as [s1 [a|er]]; cbn in E; [discriminate E|]. injection E as ->. reflexivity.
Qed.

(** the same, when the continuations agree where the first action gets *)
Lemma lrun_bind_at : forall A B lax (m : MM A) (f1 f2 : A -> MM B) s,
  (forall s1 a, m s = (s1, Ok a) -> lim lax (f1 a s1) (f2 a s1)) -> lim lax (bind m f1 s) (bind m f2 s).
Proof. intros A B lax m f1 f2 s H. unfold bind. destruct (m s) as [s1 [a|er]] eqn:E; [apply H; reflexivity|left; reflexivity]. Qed.

Lemma include_row_ext : forall lax e load rec1 rec2 src ls t inc s v,
  as_str (t_val (tget t s)) = Ok v ->
  (forall y rows ft, (if inc : bool then find_include_doc (src_dir src) (strip v) else find_declare_doc e (src_dir src) (strip v)) = Ok y ->
     fetch e y = Some rows -> lrun lax (rec1 (mk_source (Some y) "" rows) ft) (rec2 (mk_source (Some y) "" rows) ft)) ->
  lim lax (include_row e load rec1 src ls t inc s) (include_row e load rec2 src ls t inc s).
Proof.
  intros lax e load rec1 rec2 src ls t inc s v Hv Hr. unfold include_row.
  apply lrun_bind_at. intros s1 r E. unfold getT, gets in E. injection E as <- <-.
  rewrite Hv. apply lrun_bind_at. intros s1 v1 E. injection E as <- <-.
  apply lrun_bind_at. intros s1 y E. unfold lift in E. injection E as <- Ey.
  apply lrun_bind_at. intros s2 u2 _. apply lrun_bind_at. intros s3 u3 _.
  destruct (fetch e y) as [rows|] eqn:F; [|left; reflexivity].
  apply lrun_bind; [apply lrun_refl|]. intros r3. apply lrun_bind; [apply Hr; assumption|intros; apply lrun_refl].
Qed.

Lemma init_val_nonempty : forall x v, as_str (init_val (VStr x)) = Ok v -> x <> "" /\ v = strip x.
Proof. intros x v H. destruct (string_dec x "") as [->|N]; [discriminate H|]. rewrite init_val_str in H by exact N. injection H as <-. auto. Qed.

(** where the two kinds of rows lead *)
Lemma row_step_ext : forall lax e load rec1 rec2 src ft line row ls s,
  (forall y rows ft', names_file e (src_dir src) row y -> fetch e y = Some rows ->
     lrun lax (rec1 (mk_source (Some y) "" rows) ft') (rec2 (mk_source (Some y) "" rows) ft')) ->
  lim lax (row_step e load rec1 src ft line row ls s) (row_step e load rec2 src ft line row ls s).
Proof.
  intros lax e load rec1 rec2 src ft line row ls s Hr. unfold row_step.
  destruct (skip_row row) eqn:Sk; [left; reflexivity|].
  apply lrun_bind_at. intros s0 pn E. unfold lift in E. injection E as <- Sp. destruct pn as [p n]. cbn iota beta.
  apply lrun_bind_at. intros s0 c E. unfold gets in E. injection E as <- <-.
  apply lrun_bind_at. intros s1 t Hc.
  assert (CN : cell_names (hd "" row) p n) by (apply split_term_lower_spec; exact Sp).
  pose proof (cell_names_tidy _ _ _ CN) as (T1 & T2 & T3 & T4 & T5 & T6 & T7).
  pose proof (construct_names _ _ _ _ _ _ _ _ _ _ _ _ _ Hc) as (p' & CN' & Ept).
  pose proof (cell_names_dotted _ _ _ CN) as CD. destruct (cell_names_det _ _ _ _ _ CN' CD) as [-> Ert]. cbn iota in Ept.
  pose proof (construct_val _ _ _ _ _ _ _ _ _ _ _ _ _ Hc) as Ev.
  apply lrun_bind_at. intros s2 r E. unfold getT, gets in E. injection E as <- <-.
  assert (LC : lc_name (tget t s1)).
  { unfold lc_name. rewrite Ept, Ert. exact (conj T3 (conj T5 T6)). }
  rewrite is_include_bare, is_declare_bare by exact LC.
  apply lrun_bind_at. intros s2 b1 E. injection E as <- <-.
  apply lrun_bind_at. intros s2 b2 E. injection E as <- <-.
  destruct (named_root (tget t s1) "include" || named_root (tget t s1) "declare") eqn:K; [|left; reflexivity].
  assert (NM : forall k, named_root (tget t s1) k = eqs "root" p && eqs k n) by (intros k; unfold named_root; rewrite Ept, Ert; reflexivity).
  assert (NB : ~ blank_row row). { intros B. apply skip_blank in B. congruence. }
  unfold bind at 1. unfold bind at 1.
  assert (L : lim lax (include_row e load rec1 src ls t (named_root (tget t s1) "include") s1) (include_row e load rec2 src ls t (named_root (tget t s1) "include") s1)).
  { destruct (as_str (t_val (tget t s1))) as [v|er] eqn:Av.
    2:{ left. unfold include_row, bind, getT, gets, lift. rewrite Av. reflexivity. }
    eapply include_row_ext; [exact Av|]. rewrite Ev in Av. apply init_val_nonempty in Av. destruct Av as [V1 ->].
    intros y rows ft' Hy F. apply Hr; [|exact F]. split; [exact V1|]. rewrite strip_idem in Hy. rewrite NM in Hy.
    rewrite !NM in K. eqs_cases "root" p; [|discriminate K]. cbn [andb] in K, Hy.
    eqs_cases "include" n.
    - rewrite <- E, <- E0 in CN. left. split; [split; assumption|exact Hy].
    - right. eqs_cases "declare" n; [|discriminate K]. rewrite <- E, <- E1 in CN. split; [split; assumption|exact Hy]. }
  destruct L as [L|[L1 L2]].
  - rewrite L. left. reflexivity.
  - right. split; [exact L1|]. destruct (include_row e load rec1 src ls t _ s1) as [s2 [u|er]]; cbn in L2; [discriminate L2|]. injection L2 as ->. reflexivity.
Qed.

Lemma rows_loop_ext : forall lax e load rec1 rec2 src ft rows line ls,
  (forall row y rows' ft', In row rows -> names_file e (src_dir src) row y -> fetch e y = Some rows' ->
     lrun lax (rec1 (mk_source (Some y) "" rows') ft') (rec2 (mk_source (Some y) "" rows') ft')) ->
  lrun lax (rows_loop e load rec1 src ft line rows ls) (rows_loop e load rec2 src ft line rows ls).
Proof.
  intros lax e load rec1 rec2 src ft rows. induction rows as [|row rows IH]; intros line ls Hr; cbn [rows_loop]; [apply lrun_refl|].
  apply lrun_bind; [|intros a; apply IH; intros; eapply Hr; eauto; right; assumption].
  intros s. apply row_step_ext. intros y rows' ft' Nf F. apply (Hr row y rows'); auto. left. reflexivity.
Qed.

Lemma generate_ext : forall lax e load n m src ft,
  (forall row y rows' ft', In row (src_rows src) -> names_file e (src_dir src) row y -> fetch e y = Some rows' ->
     lrun lax (generate_terms e load n (mk_source (Some y) "" rows') ft') (generate_terms e load m (mk_source (Some y) "" rows') ft')) ->
  lrun lax (generate_terms e load (S n) src ft) (generate_terms e load (S m) src ft).
Proof. intros. cbn [generate_terms]. apply lrun_bind; [apply lrun_refl|]. intros d. apply rows_loop_ext. assumption. Qed.

(** no circles: the fuel does not matter once it is above the height *)
Lemma generate_settles : forall e load height, no_circle e height ->
  forall k n m src ft, below e height k (src_dir src) (src_rows src) -> k < n -> k < m ->
  lrun false (generate_terms e load n src ft) (generate_terms e load m src ft).
Proof.
  intros e load height NC k. induction k as [k IH] using lt_wf_ind. intros n m src ft B Hn Hm.
  destruct n as [|n]; [lia|]. destruct m as [|m]; [lia|].
  apply generate_ext. intros row y rows ft' Hin Hy F.
  specialize (B row y Hin Hy). apply (IH (height y)); [exact B| |lia|lia]. cbn. apply NC. exact F.
Qed.

(** more fuel changes nothing unless the limit was hit *)
Lemma generate_more : forall e load n m src ft, n <= m ->
  lrun true (generate_terms e load n src ft) (generate_terms e load m src ft).
Proof.
  intros e load n. induction n as [|n IH]; intros m src ft L.
  - intros s. right. split; reflexivity.
  - destruct m as [|m]; [lia|]. apply generate_ext. intros. apply IH. lia.
Qed.

(** a row that names a file, as an equation *)
Lemma file_row_run : forall e load rec src ft line row ls s kind s' ls',
  In kind ["include"; "declare"] -> file_row kind row ->
  row_step e load rec src ft line row ls s = (s', Ok ls') ->
  ls' = ls /\ exists t s1, as_str (t_val (tget t s1)) = as_str (init_val (VStr (nth 1 row "")))
    /\ include_row e load rec src ls t (eqs "include" kind) s1 = (s', Ok tt).
Proof.
  intros e load rec src ft line row ls s kind s' ls' Hk [NB CN] H. unfold row_step in H.
  destruct (skip_row row) eqn:Sk; [exfalso; apply NB; apply skip_blank; exact Sk|].
  apply split_term_lower_spec in CN as Sp. rewrite Sp in H. rg H. cbn iota beta in H. rg H. rb H as s1 t Hc.
  pose proof (cell_names_tidy _ _ _ CN) as (T1 & T2 & T3 & T4 & T5 & T6 & T7).
  pose proof (construct_names _ _ _ _ _ _ _ _ _ _ _ _ _ Hc) as (p' & CN' & Ept).
  pose proof (cell_names_dotted _ _ _ CN) as CD. destruct (cell_names_det _ _ _ _ _ CN' CD) as [-> Ert]. cbn iota in Ept.
  pose proof (construct_val _ _ _ _ _ _ _ _ _ _ _ _ _ Hc) as Ev.
  rg H. assert (LC : lc_name (tget t s1)) by (unfold lc_name; rewrite Ept, Ert; exact (conj T3 (conj T5 T6))).
  rewrite is_include_bare in H by exact LC. rg H. rewrite is_declare_bare in H by exact LC. rg H.
  assert (K : named_root (tget t s1) "include" || named_root (tget t s1) "declare" = true).
  { unfold named_root. rewrite Ept, Ert. destruct Hk as [<-|[<-|[]]]; reflexivity. }
  rewrite K in H. cbn iota in H. rb H as s2 u Hi. destruct u. apply ret_ok in H. destruct H as [-> ->].
  split; [reflexivity|]. exists t, s1. rewrite Ev. split; [reflexivity|].
  unfold named_root in Hi. rewrite Ept, Ert in Hi. destruct Hk as [<-|[<-|[]]]; exact Hi.
Qed.

Lemma include_row_ok : forall e load rec src ls t inc s s',
  include_row e load rec src ls t inc s = (s', Ok tt) ->
  exists v y rows ft s1 s2, as_str (t_val (tget t s)) = Ok v
    /\ (if inc : bool then find_include_doc (src_dir src) (strip v) else find_declare_doc e (src_dir src) (strip v)) = Ok y
    /\ src_ref src <> Some y /\ fetch e y = Some rows
    /\ rec (mk_source (Some y) "" rows) ft s1 = (s2, Ok tt).
Proof.
  intros e load rec src ls t inc s s' H. unfold include_row in H. rg H.
  destruct (as_str (t_val (tget t s))) as [v|er] eqn:Av; [|discriminate H]. rg H.
  destruct (if inc : bool then find_include_doc (src_dir src) (strip v) else find_declare_doc e (src_dir src) (strip v)) as [y|er] eqn:Ey; [|discriminate H]. rg H.
  rb H as s1 u Hr. rb H as s2 u2 He. destruct (fetch e y) as [rows|] eqn:F; [|discriminate H]. rg H. rb H as s3 u3 Hrec. destruct u3.
  exists v, y, rows. do 3 eexists. split; [reflexivity|]. split; [exact Ey|]. split; [|split; [exact F|exact Hrec]].
  intros E. rewrite E in Hr. rewrite eqs_refl in Hr. discriminate Hr.
Qed.

(** a row whose file cannot be read stops the loading *)
Lemma bad_row_loop : forall e load rec src ft rows line ls s s' row kind,
  In row rows -> In kind ["include"; "declare"] -> file_row kind row ->
  (forall y rows' ft' s1 s2, names_file e (src_dir src) row y -> src_ref src <> Some y -> fetch e y = Some rows' ->
     rec (mk_source (Some y) "" rows') ft' s1 <> (s2, Ok tt)) ->
  rows_loop e load rec src ft line rows ls s <> (s', Ok tt).
Proof.
  intros e load rec src ft rows. induction rows as [|r0 rows IH]; intros line ls s s' row kind Hin Hk Fr Hr H; [contradiction Hin|].
  cbn [rows_loop] in H. rb H as s1 ls1 H1. destruct Hin as [->|Hin]; [|eapply IH; eauto].
  apply (file_row_run _ _ _ _ _ _ _ _ _ kind) in H1; auto. destruct H1 as (_ & t & s0 & Ev & Hi).
  apply include_row_ok in Hi. destruct Hi as (v & y & rows' & ft' & sa & sb & Av & Ey & Nr & F & Hrec).
  rewrite Ev in Av. apply init_val_nonempty in Av. destruct Av as [V1 ->]. rewrite strip_idem in Ey.
  eapply (Hr y rows' ft' sa sb); auto. split; [exact V1|].
  destruct Hk as [<-|[<-|[]]]; [left|right]; split; assumption.
Qed.

Lemma bad_row_generate : forall e load n src ft s s' row kind,
  In row (src_rows src) -> In kind ["include"; "declare"] -> file_row kind row ->
  (forall y rows' ft' s1 s2, names_file e (src_dir src) row y -> src_ref src <> Some y -> fetch e y = Some rows' ->
     generate_terms e load (pred n) (mk_source (Some y) "" rows') ft' s1 <> (s2, Ok tt)) ->
  generate_terms e load n src ft s <> (s', Ok tt).
Proof.
  intros e load n src ft s s' row kind Hin Hk Fr Hr H. destruct n as [|n]; [discriminate H|]. cbn [generate_terms] in H.
  rg H. revert H. eapply bad_row_loop; eauto.
Qed.

Lemma names_file_kind : forall e dir row y, names_file e dir row y -> exists kind, In kind ["include"; "declare"] /\ file_row kind row.
Proof. intros e dir row y [_ [[H _]|[H _]]]; [exists "include"|exists "declare"]; split; cbn; auto. Qed.

Lemma names_file_det : forall e dir row y y', names_file e dir row y -> names_file e dir row y' -> y = y'.
Proof.
  intros e dir row y y' [_ [[[_ H1] E1]|[[_ H1] E1]]] [_ [[[_ H2] E2]|[[_ H2] E2]]];
    try (rewrite E1 in E2; injection E2; auto); exfalso; destruct (cell_names_det _ _ _ _ _ H1 H2) as [_ E]; discriminate E.
Qed.

Lemma self_never : forall e load n f dir rows ft row s s',
  In row rows -> names_file e dir row f ->
  generate_terms e load n (mk_source (Some f) dir rows) ft s <> (s', Ok tt).
Proof.
  intros e load n f dir rows ft row s s' Hin Hy. destruct (names_file_kind _ _ _ _ Hy) as (k & Hk & Fr).
  eapply bad_row_generate; eauto. intros y rows' ft' s1 s2 Hy' Nr. cbn in *. rewrite (names_file_det _ _ _ _ _ Hy' Hy) in Nr. congruence.
Qed.

Lemma local_never : forall e load n ref rows ft row s s',
  In row rows -> file_row "include" row -> local_name (nth 1 row "") ->
  generate_terms e load n (mk_source ref "" rows) ft s <> (s', Ok tt).
Proof.
  intros e load n ref rows ft row s s' Hin Fr Lo. eapply (bad_row_generate _ _ _ _ _ _ _ row "include"); eauto; [left; reflexivity|].
  intros y rows' ft' s1 s2 Hy _ _. destruct Hy as [_ [[_ Hy]|[[_ C1] _]]].
  - cbn in Hy. unfold find_include_doc in Hy. unfold local_name in Lo. cbn zeta in Hy. rewrite Lo in Hy. discriminate Hy.
  - exfalso. destruct Fr as [_ C2]. destruct (cell_names_det _ _ _ _ _ C1 C2) as [_ E]. discriminate E.
Qed.

Lemma circle_never : forall e C, circle e C -> forall load n x rows ft s s', C x -> fetch e x = Some rows ->
  generate_terms e load n (mk_source (Some x) "" rows) ft s <> (s', Ok tt).
Proof.
  intros e C HC load n. induction n as [|n IH]; intros x rows ft s s' Cx F; [discriminate|].
  destruct (HC _ _ Cx F) as (row & y & Hin & Hy & Cy). destruct (names_file_kind _ _ _ _ Hy) as (k & Hk & Fr).
  eapply bad_row_generate; eauto. intros y' rows' ft' s1 s2 Hy' _ F'. cbn in *.
  rewrite (names_file_det _ _ _ _ _ Hy' Hy) in *. apply IH; assumption.
Qed.

(** the row itself: IncludeError, before anything else happens *)
Lemma file_row_fw : forall e load rec src ft line row ls s kind er,
  In kind ["include"; "declare"] -> file_row kind row ->
  is_section_cls (parser_term_class (dotted "root" kind) s) = false ->
  (forall t s1, t_val (tget t s1) = init_val (VStr (nth 1 row "")) ->
     exists s2, include_row e load rec src ls t (eqs "include" kind) s1 = (s2, Err er)) ->
  exists s2, row_step e load rec src ft line row ls s = (s2, Err er).
Proof.
  intros e load rec src ft line row ls s kind er Hk [NB CN] Hc Hi.
  set (R := fresh_plain (parser_term_class (dotted "root" kind) s) (dotted "root" kind) "root" kind (VStr (nth 1 row "")) (skipn 2 row) (Some line) (Some 1) ft None true None).
  assert (E : row_step e load rec src ft line row ls s = (include_row e load rec src ls (hlen s) (eqs "include" kind) ;;; ret ls) (push R s)).
  { unfold row_step. destruct (skip_row row) eqn:Sk; [exfalso; apply NB; apply skip_blank; exact Sk|].
    apply split_term_lower_spec in CN as Sp. rewrite Sp. fw. cbn iota beta. fw.
    assert (CN2 : split_term_lower (dotted "root" kind) = Ok ("root", kind)) by (apply split_term_lower_spec; apply (cell_names_dotted _ _ _ CN)).
    eapply bind_fw; [apply (construct_plain_fw _ _ _ _ _ _ _ _ _ _ _ "root" kind); [exact Hc|unfold term_names; rewrite CN2; reflexivity|discriminate]|].
    fold R. fw. rewrite push_new.
    assert (LC : lc_name R).
    { pose proof (cell_names_tidy _ _ _ CN) as (T1 & T2 & T3 & T4 & T5 & T6 & T7). exact (conj T3 (conj T5 T6)). }
    rewrite is_include_bare, is_declare_bare by exact LC. fw. fw.
    assert (K : named_root R "include" || named_root R "declare" = true) by (destruct Hk as [<-|[<-|[]]]; reflexivity).
    rewrite K. cbn iota.
    assert (K2 : named_root R "include" = eqs "include" kind) by (destruct Hk as [<-|[<-|[]]]; reflexivity).
    rewrite K2. reflexivity. }
  destruct (Hi (hlen s) (push R s)) as [s2 E2]; [rewrite push_new; reflexivity|].
  exists s2. rewrite E. unfold bind. rewrite E2. reflexivity.
Qed.

Lemma self_row : forall e load rec f dir rows ft line row ls s kind,
  In kind ["include"; "declare"] -> file_row kind row -> names_file e dir row f ->
  is_section_cls (parser_term_class (dotted "root" kind) s) = false ->
  exists s2, row_step e load rec (mk_source (Some f) dir rows) ft line row ls s = (s2, Err EInclude).
Proof.
  intros e load rec f dir rows ft line row ls s kind Hk Fr [V Nf] Hc. eapply file_row_fw; eauto.
  intros t s1 Ev. exists s1. unfold include_row. fw. rewrite Ev, init_val_str by exact V. cbn [as_str]. fw. rewrite strip_idem.
  assert (E : (if eqs "include" kind then find_include_doc dir (strip (nth 1 row "")) else find_declare_doc e dir (strip (nth 1 row ""))) = Ok f).
  { destruct Nf as [[[_ C] E]|[[_ C] E]]; destruct (cell_names_det _ _ _ _ _ C (proj2 Fr)) as [_ <-]; exact E. }
  cbn [src_dir src_ref]. rewrite E. fw. rewrite eqs_refl. reflexivity.
Qed.

Lemma local_row : forall e load rec ref rows ft line row ls s,
  file_row "include" row -> local_name (nth 1 row "") -> nth 1 row "" <> "" ->
  is_section_cls (parser_term_class "root.include" s) = false ->
  exists s2, row_step e load rec (mk_source ref "" rows) ft line row ls s = (s2, Err EInclude).
Proof.
  intros e load rec ref rows ft line row ls s Fr Lo V Hc. eapply file_row_fw; eauto; [left; reflexivity|].
  intros t s1 Ev. exists s1. unfold include_row. fw. rewrite Ev, init_val_str by exact V. cbn [as_str]. fw. rewrite strip_idem.
  cbn [src_dir]. change (eqs "include" "include") with true. cbn iota. unfold find_include_doc. cbn zeta. unfold local_name in Lo. rewrite Lo. reflexivity.
Qed.

(** whole documents *)
Lemma load_settles : forall e height n m src k s, no_circle e height -> below e height k (src_dir src) (src_rows src) ->
  k < n -> k < m -> load_source e n src s = load_source e m src s.
Proof.
  intros e height n m src k s NC B Hn Hm. unfold load_source.
  assert (L : lrun false (load_source e n src) (load_source e m src)).
  { unfold load_source. repeat (apply lrun_bind; [try apply lrun_refl|intros; try apply lrun_refl]).
    eapply generate_settles; eauto. }
  destruct (L s) as [E|[E _]]; [exact E|discriminate E].
Qed.

Lemma load_more : forall e n m src s, n <= m -> snd (load_source e n src s) <> Err ERecursion ->
  load_source e m src s = load_source e n src s.
Proof.
  intros e n m src s Hn Hs.
  assert (L : lrun true (load_source e n src) (load_source e m src)).
  { unfold load_source. repeat (apply lrun_bind; [try apply lrun_refl|intros; try apply lrun_refl]).
    apply generate_more. exact Hn. }
  destruct (L s) as [E|[_ E]]; [congruence|contradiction].
Qed.

Lemma load_never : forall e n src s s',
  (forall s1 s2, generate_terms e true n src None s1 <> (s2, Ok tt)) -> load_source e n src s <> (s', Ok tt).
Proof.
  intros e n src s s' Hg H. unfold load_source in H. rb H as s1 a H1. rg H. rb H as s2 b H2. rb H as s3 c H3. destruct c. exact (Hg _ _ H3).
Qed.

Lemma nested_local : forall e n src s s' row y rows' row', In row (src_rows src) -> names_file e (src_dir src) row y ->
  fetch e y = Some rows' -> In row' rows' -> file_row "include" row' -> local_name (nth 1 row' "") ->
  load_source e n src s <> (s', Ok tt).
Proof.
  intros e n src s s' row y rows' row' I1 N F I2 Fr Lc. apply load_never. intros s1 s2.
  destruct (names_file_kind _ _ _ _ N) as (kind & K & Fk). eapply bad_row_generate; [exact I1|exact K|exact Fk|].
  intros y' rows2 ft s3 s4 N' _ F'. rewrite (names_file_det _ _ _ _ _ N' N) in F'. assert (rows2 = rows') by congruence. subst rows2.
  eapply local_never; eassumption.
Qed.

Lemma circle_load : forall e C n src s s' row y, circle e C -> In row (src_rows src) -> names_file e (src_dir src) row y -> C y ->
  load_source e n src s <> (s', Ok tt).
Proof.
  intros e C n src s s' row y Cc I1 N Cy. apply load_never. intros s1 s2.
  destruct (names_file_kind _ _ _ _ N) as (kind & K & Fk). eapply bad_row_generate; [exact I1|exact K|exact Fk|].
  intros y' rows2 ft s3 s4 N' _ F'. rewrite (names_file_det _ _ _ _ _ N' N) in *. eapply circle_never; eassumption.
Qed.

Lemma self_load : forall e n f dir rows row s s', In row rows -> names_file e dir row f ->
  load_source e n (mk_source (Some f) dir rows) s <> (s', Ok tt).
Proof. intros e n f dir rows row s s' H1 H2. apply load_never. intros s1 s2. eapply self_never; eassumption. Qed.
