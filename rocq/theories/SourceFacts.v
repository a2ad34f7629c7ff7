(** * SourceFacts: proofs about row generators (C86) *)

From Verif Require Import ListFacts StrFacts HeapFacts Parser RunFacts NameFacts ConstructFacts ParseFacts RowFacts WhereFacts IncludeFacts RowGen SpecNames SpecParse SpecInclude SpecSource.

Lemma c86_text : forall files o c, given files o c -> text_of_ref o = option_map Chars c.
Proof. intros files o c H. destruct H as [[c|]|c|[c|]|n c H|s H|]; reflexivity. Qed.

Lemma find_err : forall e dir v er (inc : bool), (if inc then find_include_doc dir v else find_declare_doc e dir v) = Err er -> er = EInclude.
Proof.
  intros e dir v er inc H. destruct inc; [unfold find_include_doc in H|unfold find_declare_doc in H]; cbv zeta in H; repeat (match type of H with context [if ?b then _ else _] => destruct b | context [match ?x with _ => _ end] => destruct x end; try discriminate H); congruence.
Qed.

Lemma lim_eq : forall A (x y : st * res A), lim false x y -> x = y.
Proof. intros A x y [H|[H _]]; [exact H|discriminate H]. Qed.
Lemma include_src : forall e load rec a b ls t inc s v, as_str (t_val (tget t s)) = Ok v ->
  (forall y, (if inc : bool then find_include_doc (src_dir a) (strip v) else find_declare_doc e (src_dir a) (strip v)) = Ok y <-> (if inc : bool then find_include_doc (src_dir b) (strip v) else find_declare_doc e (src_dir b) (strip v)) = Ok y) ->
  (forall y, (if inc : bool then find_include_doc (src_dir a) (strip v) else find_declare_doc e (src_dir a) (strip v)) = Ok y -> src_ref a <> Some y /\ src_ref b <> Some y) ->
  include_row e load rec a ls t inc s = include_row e load rec b ls t inc s.
Proof.
  intros e load rec a b ls t inc s v Hv Hn Hr. apply lim_eq. unfold include_row. apply lrun_bind_at. intros s1 r E. unfold getT, gets in E. injection E as <- <-. rewrite Hv. apply lrun_bind_at. intros s1 v1 E. injection E as <- <-.
  assert (X : (if inc : bool then find_include_doc (src_dir a) (strip v) else find_declare_doc e (src_dir a) (strip v)) = (if inc : bool then find_include_doc (src_dir b) (strip v) else find_declare_doc e (src_dir b) (strip v))).
  { destruct (if inc : bool then find_include_doc (src_dir a) (strip v) else _) as [y|er] eqn:F1; [symmetry; apply Hn; reflexivity|]. destruct (if inc : bool then find_include_doc (src_dir b) (strip v) else _) as [y|er2] eqn:F2; [apply Hn; reflexivity|]. rewrite (find_err _ _ _ _ _ F1), (find_err _ _ _ _ _ F2). reflexivity. }
  rewrite <- X. apply lrun_bind_at. intros s1 y E. unfold lift in E. injection E as <- Ey. destruct (Hr y Ey) as [Ra Rb].
  assert (T : forall r, r <> Some y -> match r with Some f => if eqs f y then raise EInclude else ret tt | None => ret tt end = (ret tt : MM unit)) by (intros [f|] N; [|reflexivity]; eqs_cases f y; [congruence|reflexivity]).
  rewrite !T by assumption. left. reflexivity.
Qed.
Lemma row_src : forall e load rec a b ft line row ls s,
  (forall y, names_file e (src_dir a) row y <-> names_file e (src_dir b) row y) ->
  (forall y, names_file e (src_dir a) row y -> src_ref a <> Some y /\ src_ref b <> Some y) ->
  row_step e load rec a ft line row ls s = row_step e load rec b ft line row ls s.
Proof.
  intros e load rec a b ft line row ls s Hn Hr. apply lim_eq. unfold row_step.
  destruct (skip_row row) eqn:Sk; [left; reflexivity|].
  apply lrun_bind_at. intros s0 pn E. unfold lift in E. injection E as <- Sp. destruct pn as [p n]. cbn iota beta.
  apply lrun_bind_at. intros s0 c E. unfold gets in E. injection E as <- <-.
  apply lrun_bind_at. intros s1 t Hc.
  assert (CN : cell_names (hd "" row) p n) by (apply split_term_lower_spec; exact Sp).
  pose proof (cell_names_tidy _ _ _ CN) as (T1 & T2 & T3 & T4 & T5 & T6 & T7).
  pose proof (construct_names _ _ _ _ _ _ _ _ _ _ _ _ _ Hc) as (p' & CN' & Ept).
  pose proof (cell_names_dotted _ _ _ CN) as CD. destruct (cell_names_det _ _ _ _ _ CN' CD) as [-> Ert]. cbn iota in Ept.
  pose proof (construct_val _ _ _ _ _ _ _ _ _ _ _ _ _ Hc) as Ev.
  apply lrun_bind_at. intros s2 r E. unfold getT, gets in E. injection E as <- <-.
  assert (LC : lc_name (tget t s1)).
  { unfold lc_name. rewrite Ept, Ert. exact (conj T3 (conj T5 T6)). }
  rewrite is_include_bare, is_declare_bare by exact LC.
  apply lrun_bind_at. intros s2 b1 E. injection E as <- <-.
  apply lrun_bind_at. intros s2 b2 E. injection E as <- <-.
  destruct (named_root (tget t s1) "include" || named_root (tget t s1) "declare") eqn:K; [|left; reflexivity].
  assert (NM : forall k, named_root (tget t s1) k = eqs "root" p && eqs k n) by (intros k; unfold named_root; rewrite Ept, Ert; reflexivity).
  assert (NB : ~ blank_row row). { intros B. apply skip_blank in B. congruence. }
  unfold bind at 1. unfold bind at 1. left.
  replace (include_row e load rec b ls t (named_root (tget t s1) "include") s1) with (include_row e load rec a ls t (named_root (tget t s1) "include") s1); [reflexivity|].
  destruct (as_str (t_val (tget t s1))) as [v|er] eqn:Av.
  2:{ unfold include_row, bind, getT, gets, lift. rewrite Av. reflexivity. }
  assert (G : forall dir y, (if named_root (tget t s1) "include" then find_include_doc dir (strip v) else find_declare_doc e dir (strip v)) = Ok y <-> names_file e dir row y).
  { intros dir y. rewrite Ev in Av. apply init_val_nonempty in Av. destruct Av as [V1 ->]. rewrite strip_idem, NM. rewrite !NM in K. eqs_cases "root" p; [|discriminate K]. rewrite <- E in CN. cbn [andb] in *. unfold names_file, file_row.
    eqs_cases "include" n.
    - rewrite <- E0 in CN. split; [intros Hx; split; [exact V1|]; left; auto|]. intros X. destruct X as [_ X]. destruct X as [[_ X]|[[_ CX] _]]; [exact X|]. destruct (cell_names_det _ _ _ _ _ CN CX) as [_ D]. discriminate D.
    - eqs_cases "declare" n; [|discriminate K]. rewrite <- E1 in CN. split; [intros Hx; split; [exact V1|]; right; auto|]. intros X. destruct X as [_ X]. destruct X as [[[_ CX] _]|[_ X]]; [|exact X]. destruct (cell_names_det _ _ _ _ _ CN CX) as [_ D]. discriminate D. }
  eapply include_src; [exact Av| |].
  - intros y. rewrite !G. apply Hn.
  - intros y H. apply Hr. apply G. exact H.
Qed.
Lemma load_src : forall e n a b s, src_rows a = src_rows b ->
  (forall row y, In row (src_rows a) -> names_file e (src_dir a) row y <-> names_file e (src_dir b) row y) ->
  (forall row y, In row (src_rows a) -> names_file e (src_dir a) row y -> src_ref a <> Some y /\ src_ref b <> Some y) ->
  load_source e n a s = load_source e n b s.
Proof.
  intros e n a b s Hs Hn Hr. apply lim_eq. unfold load_source. apply lrun_bind_at. intros s1 u _. apply lrun_bind_at. intros s2 d _. apply lrun_bind_at. intros s3 u3 _. apply lrun_bind; [|intros; apply lrun_refl].
  destruct n as [|n]; [apply lrun_refl|]. cbn [generate_terms]. apply lrun_bind; [apply lrun_refl|intros d']. rewrite <- Hs. generalize (d_root d'). generalize 1. revert Hn Hr. generalize (src_rows a). intros rows. induction rows as [|row rows IH]; intros Hn Hr line ls; cbn [rows_loop]; [apply lrun_refl|].
  apply lrun_bind.
  - intros s'. left. apply row_src; [intros y; apply Hn; left; reflexivity|intros y; apply Hr; left; reflexivity].
  - intros l. apply IH; intros; [apply Hn; right; assumption|eapply Hr; [right|]; eassumption].
Qed.

Lemma c86_load : forall e n decls f dir rows path s, Forall (place_free e dir) rows -> Forall (fun row => ~ names_file e dir row f) rows ->
  open_gen e n decls (row_generator rows path) s = open_doc e n decls (mk_source (Some f) dir rows) s.
Proof.
  intros e n decls f dir rows path s Hp Hf. unfold open_gen, open_doc, bind. destruct (load_declarations e n decls s) as [s1 [[]|er]]; [|reflexivity]. rewrite Forall_forall in *.
  apply load_src; cbn; [reflexivity| |].
  - intros row y I. symmetry. apply Hp. exact I.
  - intros row y I N. split; [discriminate|]. intros [= ->]. apply (Hf _ I). apply Hp; assumption.
Qed.
