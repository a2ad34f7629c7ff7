(** * ReportFacts: proofs about reports of include errors (C84) *)

From Coq Require Import Lia.
From Verif Require Import ListFacts StrFacts HeapFacts Parser RunFacts FrameFacts TotalFacts NameFacts ConstructFacts ParseFacts RowFacts WhereFacts IncludeFacts Report SpecKept SpecNames SpecParse SpecInclude SpecReport.

(** ** Where include errors do not come from *)

Definition calm {A} (m : MM A) : Prop := forall s s', m s <> (s', Err EInclude).
Definition fair {A} (r : res A) : Prop := r <> Err EInclude.

Lemma calm_bind : forall A B (m : MM A) (f : A -> MM B), calm m -> (forall a, calm (f a)) -> calm (bind m f).
Proof. intros A B m f H1 H2 s s' H. unfold bind in H. destruct (m s) as [s1 [a|e]] eqn:E; [exact (H2 a _ _ H)|]. injection H as -> ->. exact (H1 _ _ E). Qed.
Lemma calm_ret : forall A (a : A), calm (ret a).
Proof. intros A a s s' H. discriminate H. Qed.
Lemma calm_raise : forall A e, e <> EInclude -> calm (@raise st A e).
Proof. intros A e N s s' H. injection H. auto. Qed.
Lemma calm_lift : forall A (r : res A), fair r -> calm (lift r).
Proof. intros A r N s s' H. injection H. auto. Qed.
Lemma calm_gets : forall A (f : st -> A), calm (gets f).
Proof. intros A f s s' H. discriminate H. Qed.
Lemma calm_reads : forall A (f : st -> res A), (forall s, fair (f s)) -> calm (PyBase.reads f).
Proof. intros A f N s s' H. injection H. intros E _. exact (N s E). Qed.
Lemma calm_assert : forall b, calm (assert_ b).
Proof. intros [|] s s' H; discriminate H. Qed.
Lemma calm_when : forall b m, calm m -> calm (when b m).
Proof. intros [|] m H; [exact H|apply calm_ret]. Qed.
Lemma calm_mapM : forall A (f : A -> MM unit) l, (forall a, calm (f a)) -> calm (mapM_ f l).
Proof. intros A f l H. induction l as [|a l IH]; [apply calm_ret|]. apply calm_bind; [apply H|intros _; exact IH]. Qed.
Lemma calm_modify : forall f, calm (modify f).
Proof. intros f s s' H. discriminate H. Qed.

Lemma fair_ok : forall A (a : A), fair (Ok a).
Proof. intros A a H. discriminate H. Qed.
Lemma fair_err : forall A e, e <> EInclude -> fair (@Err A e).
Proof. intros A e N H. injection H. auto. Qed.
Lemma fair_bind : forall A B (r : res A) (f : A -> res B), fair r -> (forall a, fair (f a)) -> fair (rbind r f).
Proof. intros A B r f H1 H2 H. destruct r as [a|e]; [exact (H2 a H)|]. apply H1. injection H as ->. reflexivity. Qed.
Lemma fair_rmap : forall A B (f : A -> res B) l, (forall a, fair (f a)) -> fair (rmap f l).
Proof. intros A B f l H. induction l as [|a l IH]; [apply fair_ok|]. cbn [rmap]. apply fair_bind; [apply H|intros b]. apply fair_bind; [exact IH|intros; apply fair_ok]. Qed.

Ltac f1 :=
  match goal with
  | |- forall _, _ => intro
  | |- fair (Ok _) => apply fair_ok
  | |- fair (Err _) => apply fair_err; discriminate
  | |- fair (rbind _ _) => apply fair_bind
  | |- fair (rmap _ _) => apply fair_rmap
  | |- fair (if ?b then _ else _) => destruct b
  | |- fair (match ?x with _ => _ end) => destruct x
  | |- fair (let _ := _ in _) => cbv zeta
  | |- calm (bind _ _) => apply calm_bind
  | |- calm (ret _) => apply calm_ret
  | |- calm (raise _) => apply calm_raise; discriminate
  | |- calm (lift _) => apply calm_lift
  | |- calm (gets _) => apply calm_gets
  | |- calm (getT _) => apply calm_gets
  | |- calm getD => apply calm_gets
  | |- calm getP => apply calm_gets
  | |- calm (PyBase.reads _) => apply calm_reads
  | |- calm (assert_ _) => apply calm_assert
  | |- calm (when _ _) => apply calm_when
  | |- calm (mapM_ _ _) => apply calm_mapM
  | |- calm (modify _) => apply calm_modify
  | |- calm (modT _ _) => apply calm_modify
  | |- calm (modD _) => apply calm_modify
  | |- calm (modP _) => apply calm_modify
  | |- calm (if ?b then _ else _) => destruct b
  | |- calm (match ?x with _ => _ end) => destruct x
  | |- calm (let _ := _ in _) => cbv zeta
  | |- _ => assumption
  end.
Ltac fw := repeat (cbv beta; f1).

Lemma f_as_str : forall v, fair (as_str v).
Proof. intros v. unfold as_str. fw. Qed.
Lemma f_split : forall s, fair (split_term s).
Proof. intros s. unfold split_term. fw. Qed.
Lemma f_split_lower : forall s, fair (split_term_lower s).
Proof. intros s. unfold split_term_lower. fw; apply f_split. Qed.
Lemma f_term_is_name : forall p n v, fair (term_is_name p n v).
Proof. intros. unfold term_is_name. fw. apply f_split_lower. Qed.
Lemma f_term_is : forall r n, fair (term_is r n).
Proof. intros. apply f_term_is_name. Qed.
Lemma f_term_names : forall h p t, fair (term_names h p t).
Proof. intros. unfold term_names. fw. apply f_split_lower. Qed.
Ltac fl := first [apply f_as_str|apply f_split|apply f_split_lower|apply f_term_is|apply f_term_is_name|apply f_term_names|idtac].
Lemma f_find_first : forall h i t v, fair (term_find_first h i t v).
Proof. intros. unfold term_find_first, child_name. fw; fl. Qed.
Lemma f_getitem : forall h i t, fair (term_getitem h i t).
Proof. intros. unfold term_getitem. fw. apply f_find_first. Qed.
Lemma c_alloc : forall r, calm (allocT r).
Proof. intros r s s' H. discriminate H. Qed.
Lemma c_construct : forall c term v args row col ft parent doc sec, calm (construct c term v args row col ft parent doc sec).
Proof. intros. unfold construct, mk_section, mk_plain. destruct c; fw; first [apply c_alloc|fl]. Qed.
Ltac cl := first [apply c_construct|fl].
Lemma c_add_section : forall sid, calm (add_section sid).
Proof. intros. unfold add_section. fw; cl. Qed.
Lemma c_add_list : forall t, calm (add_term_list t).
Proof. intros. unfold add_term_list. fw; first [apply c_add_section|cl]. Qed.
Lemma c_add_meta : forall t, calm (add_term_meta t).
Proof. intros. unfold add_term_meta. fw; cl. Qed.
Lemma c_ownership : forall n t, calm (set_ownership n t).
Proof. intros n. induction n as [|n IH]; intros t; cbn [set_ownership]; fw. apply IH. Qed.
Lemma c_section_add : forall sec t, calm (section_add_term sec t).
Proof. intros. unfold section_add_term, doc_add_term_nosec. fw; first [apply c_add_list|apply c_add_meta|apply c_ownership|cl]. Qed.
Lemma c_goc : forall i item v, calm (get_or_new_child0 i item v).
Proof. intros i item v. unfold get_or_new_child0, goc_check. fw; first [apply f_find_first|cl]. Qed.
Lemma c_set_section_plain : forall t s, calm (set_section_plain t s).
Proof. intros. unfold set_section_plain, set_child_item. fw; first [apply c_goc|apply f_getitem|cl]. Qed.
Lemma c_doc_add : forall t, calm (doc_add_term t).
Proof. intros. unfold doc_add_term. fw; first [apply c_add_list|apply c_add_section|apply c_section_add|apply c_add_meta|apply c_set_section_plain|apply c_ownership|cl]. Qed.
Lemma c_new_term : forall sec term v, calm (Ops.new_term sec term v []).
Proof. intros. unfold Ops.new_term, new_children. cbn [mapM_]. fw; first [apply c_doc_add|cl]. Qed.
Lemma f_descendents : forall n h i, fair (descendents n h i).
Proof.
  intros n. induction n as [|n IH]; intros h i; cbn [descendents]; fw. generalize (t_children (hget i h)). intros cs. induction cs as [|c cs IHc]; fw; [apply IH].
Qed.
Lemma f_all_terms : forall s, fair (all_terms s).
Proof. intros s. unfold all_terms, section_all_terms. fw. apply f_descendents. Qed.
Lemma f_in_section : forall h r sa, fair (in_section h r sa).
Proof. intros h r sa. unfold in_section. destruct sa as [|m|l]; [fw|fw; apply f_as_str|]. destruct (t_section r); [|fw]. induction l as [|m l IH]; [fw|]. apply fair_bind; [apply f_as_str|]. intros a. destruct (eqs _ _); [fw|exact IH]. Qed.
Lemma f_rfilter : forall A (f : A -> res bool) l, (forall a, fair (f a)) -> fair (rfilter f l).
Proof. intros A f l H. induction l as [|a l IH]; cbn [rfilter]; fw. apply H. Qed.
Lemma f_find : forall s t v sa, fair (doc_find s t v sa).
Proof.
  intros. unfold doc_find, find_list, find1, find_test. fw; first [apply f_all_terms|apply f_rfilter; fw; first [apply f_in_section|fl]|fl].
Qed.
Lemma f_get_term : forall s sec t v, fair (section_get_term s sec t v).
Proof. intros. unfold section_get_term, doc_find_first. fw. apply f_find. Qed.
Lemma c_set_section : forall t o, calm (set_section t o).
Proof.
  intros t o. unfold set_section, set_section_sec, section_setitem, get_or_new_term. cbn [mapM_].
  destruct o; fw; first [apply c_goc|apply c_new_term|apply c_set_section_plain|apply f_get_term|cl].
Qed.
Lemma f_normalize : forall v, fair (normalize_term v).
Proof. intros. unfold normalize_term. fw; fl. Qed.
Lemma f_arg_props : forall h r, fair (arg_props h r).
Proof. intros. unfold arg_props. fw; fl. Qed.
Lemma f_nonblank : forall d, fair (nonblank_props d).
Proof. intros. unfold nonblank_props. fw; fl. Qed.
Lemma c_to_section : forall x props, x <> EInclude -> calm (add_term_to_section x props).
Proof. intros. unfold add_term_to_section. fw. apply calm_raise. assumption. Qed.
Lemma c_inherit : forall n t_r ih_r sec k, calm (inherit_loop n t_r ih_r sec k).
Proof. intros n. induction n as [|n IH]; intros; cbn [inherit_loop]; fw; first [apply IH|apply c_to_section; discriminate|apply f_normalize|fl]. Qed.
Lemma c_declare : forall t, calm (manage_declare_terms t).
Proof.
  intros t. unfold manage_declare_terms, add_declared_section, add_declared_term, add_value_set_value.
  fw; first [apply c_inherit|apply c_to_section; discriminate|apply f_normalize|apply f_arg_props|apply f_nonblank|fl].
Qed.
Lemma c_normal : forall t, calm (consume_normal t).
Proof. intros. unfold consume_normal, set_meta, attach, add_child. fw; first [apply c_section_add|fl]. Qed.
Lemma c_rename : forall t, calm (rename_term t).
Proof. intros. unfold rename_term. fw; fl. Qed.
Lemma c_load1 : forall t, calm (load1 t).
Proof. intros. unfold load1. fw; first [apply c_add_section|apply c_doc_add|fl]. Qed.
Lemma c_consume : forall t, calm (consume t).
Proof. intros. unfold consume. fw; first [apply c_rename|apply c_set_section|apply c_normal|apply c_declare|fl]. Qed.
Lemma c_emit : forall load t, calm (emit load t).
Proof. intros. unfold emit. fw; first [apply c_consume|apply c_load1]. Qed.
Lemma f_get_section : forall v s, fair (get_section v s).
Proof. intros. unfold get_section. fw; fl. Qed.
Lemma c_section_for : forall t, calm (section_for t).
Proof.
  intros t. unfold section_for. apply calm_bind; [fw|intros r]. apply calm_bind; [fw|intros s]. destruct (is_section_cls _); [|fw]. pose proof (f_get_section (t_val r) s) as F.
  destruct (get_section (t_val r) s) as [i|e]; [fw|]. destruct e; fw. contradiction F. reflexivity.
Qed.

(** ** The reports are beside the parser *)

Definition erases {A} (m : M xst A) (n : MM A) : Prop := forall x, n (x_st x) = (x_st (fst (m x)), snd (m x)).
Lemma er_in : forall A (m : MM A), erases (in_st m) m.
Proof. intros A m x. unfold in_st. destruct (m (x_st x)) as [s r]. reflexivity. Qed.
Lemma er_bind : forall A B (m : M xst A) n (f : A -> M xst B) g, erases m n -> (forall a, erases (f a) (g a)) -> erases (bind m f) (bind n g).
Proof.
  intros A B m n f g H1 H2 x. unfold bind. rewrite (H1 x). destruct (m x) as [x1 [a|e]]; cbn [fst snd]; [apply H2|reflexivity].
Qed.
Lemma er_ret : forall A (a : A), erases (ret a) (ret a).
Proof. intros A a x. reflexivity. Qed.
Lemma er_raise : forall A e, erases (@raise xst A e) (raise e).
Proof. intros A e x. reflexivity. Qed.
Lemma er_include : forall A msg t, erases (@raise_include A msg t) (raise EInclude).
Proof. intros A msg t x. reflexivity. Qed.
Lemma er_on : forall A (m : M xst A) n h, erases m n -> (forall e, erases (h e) (raise EInclude)) -> erases (on_include m h) n.
Proof.
  intros A m n h H1 H2 x. unfold on_include. rewrite (H1 x). destruct (m x) as [x1 [a|e]] eqn:E; cbn [fst snd]; [reflexivity|]. destruct e; try reflexivity.
  destruct (x_rep x1) as [r|]; [|reflexivity]. apply (H2 r x1).
Qed.
Lemma er_after : forall A (m : M xst A) n (f : A -> xst -> xst), erases m n -> (forall a x, x_st (f a x) = x_st x) -> erases (a <- m ;; modify (f a) ;;; ret a) n.
Proof. intros A m n f H K x. unfold bind. rewrite (H x). destruct (m x) as [x1 [a|e]]; cbn; [rewrite K|]; reflexivity. Qed.
Lemma er_construct : forall p m, erases (construct_x p m) m.
Proof. intros p m. unfold construct_x. apply (er_after _ (in_st m) m (fun t => add_file t (file_name p))); [apply er_in|reflexivity]. Qed.
Lemma er_emit : forall load t, erases (emit_x load t) (emit load t).
Proof. intros load t x. unfold emit_x, bind, in_st. destruct (emit load t (x_st x)) as [s [[]|e]]; reflexivity. Qed.
Ltac er := repeat first [apply er_ret|apply er_in|apply er_construct|apply er_emit|apply er_include|apply er_raise|(apply er_bind; [|intros ?])].
Lemma er_args : forall load path ft line t args col, erases (emit_args_x load path ft line t col args) (emit_args load ft line t col args).
Proof.
  intros load path ft line t args. induction args as [|v args IH]; intros col; cbn [emit_args_x emit_args]; [apply er_ret|]. apply er_bind; [|intros _; apply IH].
  unfold when. destruct (nonempty (strip v)); [|apply er_ret]. cbv zeta. er.
Qed.
Section Same.
  Variables (e : env) (kind why : string -> string) (load : bool) (rec : string -> source -> option string -> M xst unit) (rec0 : source -> option string -> MM unit).
  Hypothesis Hrec : forall p src ft, erases (rec p src ft) (rec0 src ft).
  Lemma er_include_row : forall src ls t inc, erases (include_row_x e kind why load rec src ls t inc) (include_row e load rec0 src ls t inc).
  Proof.
    intros src ls t inc. unfold include_row_x, include_row. apply er_bind; [apply er_in|intros r]. apply er_bind; [apply er_in|intros v].
    apply er_bind; [|intros y].
    - intros x. unfold lift. destruct (if inc then _ else _) as [y|er]; [reflexivity|]. destruct er; reflexivity.
    - apply er_bind; [destruct (src_ref src); [destruct (eqs _ _)|]; er|intros _]. apply er_bind; [er|intros _]. destruct (fetch e y); [|er]. apply er_bind; [er|intros r2]. apply er_bind; [|intros _; er].
      apply er_on; [apply Hrec|]. intros err x. reflexivity.
  Qed.
  Lemma er_row : forall path src ft line row ls, erases (row_step_x e kind why load rec path src ft line row ls) (row_step e load rec0 src ft line row ls).
  Proof.
    intros. unfold row_step_x, row_step. destruct (skip_row row); [er|]. apply er_bind; [er|intros [p n]]. cbv zeta. apply er_bind; [er|intros c]. apply er_bind; [er|intros t]. apply er_bind; [er|intros r].
    apply er_bind; [er|intros b1]. apply er_bind; [er|intros b2]. destruct (b1 || b2); [apply er_bind; [apply er_include_row|intros _; er]|].
    apply er_bind; [er|intros b3]. apply er_bind; [destruct b3; er|intros t2]. apply er_bind; [er|intros _]. apply er_bind; [er|intros r2]. apply er_bind; [er|intros b4]. apply er_bind; [er|intros b5].
    apply er_bind; [destruct (b4 || b5); [er|apply er_args]|intros _; er].
  Qed.
  Lemma er_loop : forall path src ft rows line ls, erases (rows_loop_x e kind why load rec path src ft line rows ls) (rows_loop e load rec0 src ft line rows ls).
  Proof. intros path src ft rows. induction rows as [|row rows IH]; intros; cbn [rows_loop_x rows_loop]; [er|]. apply er_bind; [apply er_row|intros l; apply IH]. Qed.
End Same.
Lemma er_generate : forall e kind why load n path src ft, erases (generate_x e kind why load n path src ft) (generate_terms e load n src ft).
Proof.
  intros e kind why load n. induction n as [|n IH]; intros; cbn [generate_x generate_terms]; [er|]. apply er_bind; [er|intros d]. apply er_on; [|intros err; er]. apply er_loop. intros. apply IH.
Qed.
Lemma er_skip : forall A f (m : M xst A) n, (forall x, x_st (f x) = x_st x) -> erases m n -> erases (modify f ;;; m) n.
Proof. intros A f m n K H x. rewrite <- (K x). exact (H (f x)). Qed.
Lemma er_load : forall e kind why n path src, erases (load_x e kind why n path src) (load_source e n src).
Proof.
  intros. unfold load_x, load_source. apply er_bind; [er|intros _]. apply er_skip; [reflexivity|].
  apply er_bind; [er|intros d]. apply er_bind; [er|intros _]. apply er_bind; [|intros _; er]. apply er_on; [apply er_generate|]. intros err x. reflexivity.
Qed.

(** ** What is told *)

Definition said (x x' : xst) : Prop := x_last x <> None -> x_last x' <> None.
Definition plain {A} (m : M xst A) : Prop := forall x x' r, m x = (x', r) -> r <> Err EInclude /\ said x x'.
Lemma bind_cases : forall A B (m : M xst A) (f : A -> M xst B) x x' r, bind m f x = (x', r) ->
  (exists x1 a, m x = (x1, Ok a) /\ f a x1 = (x', r)) \/ (exists e, m x = (x', Err e) /\ r = Err e).
Proof. intros A B m f x x' r H. unfold bind in H. destruct (m x) as [x1 [a|e]]; [left; eauto|right]. injection H as -> <-. eauto. Qed.
Lemma pl_bind : forall A B (m : M xst A) (f : A -> M xst B), plain m -> (forall a, plain (f a)) -> plain (bind m f).
Proof.
  intros A B m f H1 H2 x x' r H. apply bind_cases in H. destruct H as [(x1 & a & E & H)|(e & E & ->)].
  - apply H1 in E. destruct E as [_ E]. apply H2 in H. destruct H as [H K]. split; [exact H|intros L; apply K, E, L].
  - apply H1 in E. destruct E as [N E]. split; [intros X; injection X as ->; apply N; reflexivity|exact E].
Qed.
Lemma pl_ret : forall A (a : A), plain (ret a).
Proof. intros A a x x' r H. injection H as <- <-. split; [discriminate|intros L; exact L]. Qed.
Lemma pl_in : forall A (m : MM A), calm m -> plain (in_st m).
Proof.
  intros A m C x x' r H. unfold in_st in H. destruct (m (x_st x)) as [s q] eqn:E. injection H as <- <-. split; [intros ->; exact (C _ _ E)|intros L; exact L].
Qed.
Lemma pl_construct : forall p m, calm m -> plain (construct_x p m).
Proof.
  intros p m C. unfold construct_x. apply pl_bind; [apply pl_in, C|intros t]. apply pl_bind; [|intros _; apply pl_ret]. intros x x' r H. injection H as <- <-. split; [discriminate|intros L; exact L].
Qed.
Lemma pl_emit : forall load t, plain (emit_x load t).
Proof. intros load t. unfold emit_x. apply pl_bind; [apply pl_in, c_emit|intros _]. intros x x' r H. injection H as <- <-. split; [discriminate|intros _; discriminate]. Qed.
Lemma emit_last : forall load t x x', emit_x load t x = (x', Ok tt) -> x_last x' = Some t /\ x_files x' = x_files x /\ quiet (x_st x) (x_st x').
Proof.
  intros load t x x' H. unfold emit_x, bind, in_st in H. destruct (emit load t (x_st x)) as [s [[]|e]] eqn:E; [|discriminate H]. injection H as <-. cbn. split; [reflexivity|]. split; [reflexivity|].
  eapply q_emit. exact E.
Qed.
Lemma pl_args : forall load path ft line t args col, plain (emit_args_x load path ft line t col args).
Proof.
  intros load path ft line t args. induction args as [|v args IH]; intros col; cbn [emit_args_x]; [apply pl_ret|]. apply pl_bind; [|intros _; apply IH]. unfold when. destruct (nonempty _); [|apply pl_ret].
  cbv zeta. apply pl_bind; [apply pl_in; fw|intros r]. apply pl_bind; [apply pl_in; fw|intros c]. apply pl_bind; [apply pl_construct, c_construct|intros k; apply pl_emit].
Qed.

Lemma xeta : forall x, mk_xst (x_st x) (x_last x) (x_files x) (x_rep x) (x_errors x) = x.
Proof. intros []. reflexivity. Qed.

Definition blames (x : xst) (err : report) (b : blame) : Prop :=
  match b with
  | NoTerm => rp_term err = None
  | OwnTerm f line => exists t, rp_term err = Some t /\ x_last x = Some t /\ t_row (tget t (x_st x)) = Some line /\ file_of (x_files x) t = file_name f
  | SomeTerm => rp_term err <> None
  end.

Section Told.
  Variables (e : env) (kind why : string -> string) (load : bool) (rec : string -> source -> option string -> M xst unit).
  Definition tells (path : string) (src : source) (m : M xst unit) : Prop := forall x x' r, m x = (x', r) ->
    said x x' /\ (r = Ok tt -> Forall (fine e (src_ref src) (src_dir src)) (src_rows src))
    /\ (r = Err EInclude -> exists err b, x_rep x' = Some err /\ bad_file e kind why path (src_ref src) (src_dir src) (src_rows src) (rp_msg err) b /\ blames x' err b).
  Hypothesis Hrec : forall path src ft, tells path src (rec path src ft).

  Definition row_tells (path : string) (src : source) (line : nat) (row : list string) (x x' : xst) (ok : Prop) (inc : Prop) : Prop :=
    said x x' /\ (ok -> fine e (src_ref src) (src_dir src) row)
    /\ (inc -> exists err b, x_rep x' = Some err /\ bad_row e kind why path (src_ref src) (src_dir src) line row (rp_msg err) b /\ blames x' err b).

  Lemma include_x : forall path src line row ls t inc x x' r,
    (if inc : bool then file_row "include" row else file_row "declare" row) -> t_val (tget t (x_st x)) = init_val (VStr (nth 1 row "")) ->
    t < hlen (x_st x) -> t_row (tget t (x_st x)) = Some line -> file_of (x_files x) t = file_name path ->
    include_row_x e kind why load rec src ls t inc x = (x', r) -> row_tells path src line row x x' (r = Ok tt) (r = Err EInclude).
  Proof.
    intros path src line row ls t inc x x' r Fr Ev Ht Hrow Hf H. unfold include_row_x in H.
    assert (NO : forall (er : exn), er <> EInclude -> forall y, said x y -> row_tells path src line row x y (@Err unit er = Ok tt) (@Err unit er = Err EInclude)).
    { intros er N y K. split; [exact K|]. split; [discriminate|]. intros X. injection X as ->. contradiction N. reflexivity. }
    apply bind_cases in H. destruct H as [(x0 & r0 & E & H)|(er & E & ->)]; [|discriminate E]. unfold in_st, getT, gets in E. injection E as <- <-.
    rewrite xeta in H.
    apply bind_cases in H. destruct H as [(x0 & v & E & H)|(er & E & ->)].
    2:{ apply (pl_in _ _ (calm_lift _ _ (f_as_str _))) in E. destruct E as [N K]. apply NO; [intros ->; apply N; reflexivity|exact K]. }
    unfold in_st, lift in E. injection E as <- Av. rewrite xeta in H.
    change (hget t (s_heap (x_st x))) with (tget t (x_st x)) in Av. rewrite Ev in Av. apply init_val_nonempty in Av. destruct Av as [Nv ->]. rewrite strip_idem in H.
    assert (NF : forall y, (if inc then find_include_doc (src_dir src) (strip (nth 1 row "")) else find_declare_doc e (src_dir src) (strip (nth 1 row ""))) = Ok y <-> names_file e (src_dir src) row y).
    { intros y. split.
      - intros F. split; [exact Nv|]. destruct inc; [left|right]; auto.
      - intros (_ & [(F & G)|(F & G)]); destruct inc; try exact G; destruct F as [_ F], Fr as [_ Fr]; destruct (cell_names_det _ _ _ _ _ F Fr) as [_ X]; discriminate X. }
    apply bind_cases in H. destruct H as [(x0 & y & E & H)|(er & E & ->)].
    2:{ destruct (if inc then find_include_doc _ _ else _) as [y|er0] eqn:Fi; [discriminate E|].
        assert (er0 = EInclude) as ->.
        { destruct inc; [unfold find_include_doc in Fi; cbv zeta in Fi; destruct (startswith _ _); [discriminate Fi|]; destruct (eqs _ _); [injection Fi as <-; reflexivity|discriminate Fi]|].
          unfold find_declare_doc in Fi. repeat match type of Fi with (if ?b then _ else _) = _ => destruct b | match ?o with _ => _ end = _ => destruct o end; first [discriminate Fi|injection Fi as <-; reflexivity]. }
        unfold raise_include, bind, modify, raise in E. injection E as <- <-. split; [intros L; exact L|]. split; [discriminate|]. intros _. eexists _, NoTerm. split; [reflexivity|]. split; [|reflexivity]. cbn [rp_msg].
        apply bad_name. assert (NN : forall y, ~ names_file e (src_dir src) row y) by (intros y N; apply NF in N; discriminate N).
        destruct inc; [apply no_include; assumption|apply no_declare; assumption]. }
    destruct (if inc then find_include_doc _ _ else _) as [y'|er0] eqn:Fi.
    2:{ exfalso. clear - E. destruct er0; discriminate E. }
    injection E as <- <-. assert (Ny : names_file e (src_dir src) row y') by (apply NF; reflexivity). clear NF Fi.
    apply bind_cases in H. destruct H as [(x0 & [] & E & H)|(er & E & ->)].
    2:{ destruct (src_ref src) as [f|] eqn:Rf; [|discriminate E]. destruct (eqs f y') eqn:Fy; [|discriminate E]. apply eqs_true in Fy. subst f.
        unfold raise_include, bind, modify, raise in E. injection E as <- <-. split; [intros L; exact L|]. split; [discriminate|]. intros _. eexists _, NoTerm. split; [reflexivity|]. split; [|reflexivity]. cbn [rp_msg].
        apply bad_name. rewrite Rf. apply names_itself; [reflexivity|exact Ny]. }
    assert (Rf : src_ref src <> Some y' /\ x0 = x).
    { destruct (src_ref src) as [f|]; [|injection E as <-; split; [discriminate|reflexivity]]. destruct (eqs f y') eqn:Fy; [discriminate E|]. injection E as <-. apply eqs_false in Fy. split; [congruence|reflexivity]. }
    destruct Rf as [Rf ->]. clear E.
    apply bind_cases in H. destruct H as [(x1 & [] & E & H)|(er & E & ->)].
    2:{ apply pl_emit in E. destruct E as [N K]. apply NO; [intros ->; apply N; reflexivity|exact K]. }
    destruct (emit_last _ _ _ _ E) as (El & Ef & Eq). destruct (fetch e y') as [rows|] eqn:Fe.
    2:{ unfold raise_include, bind, modify, raise in H. injection H as <- <-. split; [intros _; cbn; rewrite El; discriminate|]. split; [discriminate|]. intros _. eexists _, (OwnTerm path line). split; [reflexivity|].
        split; [apply bad_read; assumption|]. exists t. split; [reflexivity|]. split; [exact El|]. cbn [x_st x_files set_rep]. split; [|rewrite Ef; exact Hf].
        destruct Eq as (_ & L & _). specialize (L t Ht). destruct L as [L _]. unfold core in L. injection L as _ _ L _ _ _. rewrite L. exact Hrow. }
    apply bind_cases in H. destruct H as [(x2 & r2 & E2 & H)|(er & E2 & ->)]; [|discriminate E2]. unfold in_st, getT, gets in E2. injection E2 as <- <-.
    rewrite xeta in H.
    apply bind_cases in H. unfold on_include in H.
    match type of H with context [rec ?p ?s ?f x1] => destruct (rec p s f x1) as [x3 r3] eqn:R; pose proof (Hrec p s f _ _ _ R) as (K3 & O3 & I3) end. cbn [src_ref src_dir src_rows] in *.
    assert (K1 : x_last x3 <> None) by (apply K3; rewrite El; discriminate).
    destruct r3 as [[]|er].
    - destruct H as [(x4 & [] & E4 & H)|(er & E4 & ->)]; [|discriminate E4]. injection E4 as <-. apply pl_emit in H. destruct H as [N K]. split; [intros _; apply K, K1|]. split; [|intros X; contradiction].
      intros _. apply (fine_file e _ _ _ y' rows); [exact Ny|exact Rf|exact Fe|apply O3; reflexivity].
    - destruct er; try (destruct H as [(x4 & [] & E4 & H)|(er & E4 & ->)]; [discriminate E4|]; injection E4 as <- <-; apply NO; [discriminate|intros _; exact K1]).
      destruct (I3 eq_refl) as (err & b & Er & Bf & Bl). rewrite Er in H. destruct H as [(x4 & [] & E4 & H)|(er & E4 & ->)]; [discriminate E4|]. unfold gets, raise_include, bind, modify, raise in E4. injection E4 as <- <-.
      split; [intros _; exact K1|]. split; [discriminate|]. intros _. eexists _, (from_below b). split; [reflexivity|]. cbn [rp_msg].
      destruct Bf as (pre & row' & post & m & -> & Fp & Br & ->). split; [eapply bad_below; eassumption|]. cbn [rp_term].
      destruct b as [|f l|]; cbn [from_below blames rp_term] in *; [exact K1| |exact K1]. destruct Bl as (u & _ & B2 & B3 & B4). exists u. split; [exact B2|]. split; [exact B2|]. split; [exact B3|exact B4].
  Qed.

  Lemma row_x : forall path src ft line row ls x x' r, row_step_x e kind why load rec path src ft line row ls x = (x', r) ->
    row_tells path src line row x x' (exists l, r = Ok l) (r = Err EInclude).
  Proof.
    intros path src ft line row ls x x' r H. unfold row_step_x in H. destruct (skip_row row) eqn:Sk.
    { injection H as <- <-. split; [intros L; exact L|]. split; [|discriminate]. intros _. apply fine_other; intros [N _]; apply N, skip_blank, Sk. }
    assert (NO : forall y, (r <> Err EInclude /\ said x y) -> (forall l, r <> Ok l) -> row_tells path src line row x y (exists l, r = Ok l) (r = Err EInclude)).
    { intros y [N K] O. split; [exact K|]. split; [intros (l & E); contradiction (O l)|intros E; contradiction]. }
    apply bind_cases in H. destruct H as [(x0 & [p n] & E & H)|(er & E & ->)]; [|apply NO; [apply (pl_in _ _ (calm_lift _ _ (f_split_lower _))) in E; destruct E as [N K]; split; [intros X; injection X as ->; apply N; reflexivity|exact K]|discriminate]].
    unfold in_st, lift in E. injection E as <- Sp. rewrite xeta in H. cbv zeta in H.
    apply bind_cases in H. destruct H as [(x0 & c & E & H)|(er & E & ->)]; [|discriminate E]. unfold in_st, gets in E. injection E as <- Ec. rewrite xeta in H.
    apply bind_cases in H. destruct H as [(x1 & t & E & H)|(er & E & ->)]; [|apply NO; [apply (pl_construct _ _ (c_construct _ _ _ _ _ _ _ _ _ _)) in E; destruct E as [N K]; split; [intros X; injection X as ->; apply N; reflexivity|exact K]|discriminate]].
    unfold construct_x, bind, in_st in E. match type of E with context [construct ?a1 ?a2 ?a3 ?a4 ?a5 ?a6 ?a7 ?a8 ?a9 ?a10 (x_st x)] => destruct (construct a1 a2 a3 a4 a5 a6 a7 a8 a9 a10 (x_st x)) as [s1 [t1|er]] eqn:Hc; [|discriminate E] end.
    cbv beta iota delta [modify ret add_file] in E. injection E as <- <-. cbn [x_st x_last x_files x_rep x_errors] in *.
    set (x1 := mk_xst s1 (x_last x) ((t1, file_name path) :: x_files x) (x_rep x) (x_errors x)) in *.
    assert (Xs : x_st x1 = s1) by reflexivity. assert (Xl : x_last x1 = x_last x) by reflexivity. assert (Xf : file_of (x_files x1) t1 = file_name path) by (unfold file_of; cbn [x_files x1 find fst]; rewrite Nat.eqb_refl; reflexivity). clearbody x1.
    assert (CN : cell_names (hd "" row) p n) by (apply split_term_lower_spec; exact Sp).
    pose proof (cell_names_tidy _ _ _ CN) as (T1 & T2 & T3 & T4 & T5 & T6 & T7).
    pose proof (construct_names _ _ _ _ _ _ _ _ _ _ _ _ _ Hc) as (p' & CN' & Ept).
    pose proof (cell_names_dotted _ _ _ CN) as CD. destruct (cell_names_det _ _ _ _ _ CN' CD) as [-> Ert]. cbn iota in Ept.
    pose proof (construct_val _ _ _ _ _ _ _ _ _ _ _ _ _ Hc) as Ev.
    destruct (construct_made _ _ _ _ _ _ _ _ _ _ _ _ _ Hc) as (q & Es & Et & _ & Er & _).
    assert (LC : lc_name (tget t1 s1)) by (unfold lc_name; rewrite Ept, Ert; exact (conj T3 (conj T5 T6))).
    assert (NM : forall k, named_root (tget t1 s1) k = eqs "root" p && eqs k n) by (intros k; unfold named_root; rewrite Ept, Ert; reflexivity).
    assert (NB : ~ blank_row row) by (intros B; apply skip_blank in B; congruence).
    apply bind_cases in H. destruct H as [(x0 & r0 & E & H)|(er & E & ->)]; [|discriminate E]. unfold in_st, getT, gets in E. injection E as <- <-. rewrite xeta in H.
    rewrite Xs in H. change (hget t1 (s_heap s1)) with (tget t1 s1) in H.
    apply bind_cases in H. destruct H as [(x0 & b1 & E & H)|(er & E & ->)]; [|rewrite is_include_bare in E by exact LC; discriminate E]. rewrite is_include_bare in E by exact LC. unfold in_st, lift in E. injection E as <- <-. rewrite xeta in H.
    apply bind_cases in H. destruct H as [(x0 & b2 & E & H)|(er & E & ->)]; [|rewrite is_declare_bare in E by exact LC; discriminate E]. rewrite is_declare_bare in E by exact LC. unfold in_st, lift in E. injection E as <- <-. rewrite xeta in H.
    destruct (named_root (tget t1 s1) "include" || named_root (tget t1 s1) "declare") eqn:K.
    - assert (Fr : if named_root (tget t1 s1) "include" then file_row "include" row else file_row "declare" row).
      { rewrite !NM in *. eqs_cases "root" p; [|discriminate K]. cbn [andb] in *. eqs_cases "include" n; [split; [exact NB|congruence]|]. eqs_cases "declare" n; [|discriminate K]. split; [exact NB|congruence]. }
      assert (Q : forall y rr, include_row_x e kind why load rec src ls t1 (named_root (tget t1 s1) "include") x1 = (y, rr) -> row_tells path src line row x1 y (rr = Ok tt) (rr = Err EInclude)).
      { intros y rr. apply include_x; [exact Fr|rewrite Xs; exact Ev| | |exact Xf].
        - rewrite Xs, Es, Et, hlen_push. lia.
        - rewrite Xs, Es, Et, push_new. exact Er. }
      assert (Sx : forall y, said x1 y -> said x y) by (unfold said; rewrite Xl; auto).
      apply bind_cases in H. destruct H as [(x2 & [] & E & H)|(er & E & ->)].
      + apply Q in E. destruct E as (A & B & _). injection H as <- <-. split; [apply Sx, A|]. split; [intros _; apply B; reflexivity|discriminate].
      + apply Q in E. destruct E as (A & _ & B). split; [apply Sx, A|]. split; [intros (l & X); discriminate X|]. intros X. apply B. injection X as ->. reflexivity.
    - assert (P : plain (is_section <- in_st (lift (term_is (tget t1 s1) "section")) ;; t2 <- (if is_section then in_st (section_for t1) else ret t1) ;; emit_x load t2 ;;; r2 <- in_st (getT t2) ;;
        sec <- in_st (lift (term_is r2 "section")) ;; hdr <- in_st (lift (term_is r2 "header")) ;; (if sec || hdr then ret tt else emit_args_x load path ft line t2 0 (t_args r2)) ;;; ret (if is_section then t2 else ls))).
      { apply pl_bind; [apply pl_in, calm_lift, f_term_is|intros b3]. apply pl_bind; [destruct b3; [apply pl_in, c_section_for|apply pl_ret]|intros t2]. apply pl_bind; [apply pl_emit|intros _]. apply pl_bind; [apply pl_in; fw|intros r2].
        apply pl_bind; [apply pl_in, calm_lift, f_term_is|intros b4]. apply pl_bind; [apply pl_in, calm_lift, f_term_is|intros b5]. apply pl_bind; [destruct (b4 || b5); [apply pl_ret|apply pl_args]|intros _; apply pl_ret]. }
      apply P in H. destruct H as [N L]. split; [unfold said in *; rewrite <- Xl; exact L|]. split; [|intros X; contradiction]. intros _.
      assert (U : forall k, In k ["include"; "declare"] -> ~ file_row k row).
      { intros k I [_ F]. destruct (cell_names_det _ _ _ _ _ F CN) as [Ep En]. rewrite !NM, <- Ep, <- En in K. destruct I as [<-|[<-|[]]]; discriminate K. }
      apply fine_other; apply U; cbn; auto.
  Qed.

  Lemma loop_x : forall path src ft rows line ls x x' r, rows_loop_x e kind why load rec path src ft line rows ls x = (x', r) ->
    said x x' /\ (r = Ok tt -> Forall (fine e (src_ref src) (src_dir src)) rows)
    /\ (r = Err EInclude -> exists err b pre row post, x_rep x' = Some err /\ rows = (pre ++ row :: post)%list /\ Forall (fine e (src_ref src) (src_dir src)) pre
         /\ bad_row e kind why path (src_ref src) (src_dir src) (line + List.length pre) row (rp_msg err) b /\ blames x' err b).
  Proof.
    intros path src ft rows. induction rows as [|row rows IH]; intros line ls x x' r H; cbn [rows_loop_x] in H.
    { injection H as <- <-. split; [intros L; exact L|]. split; [intros _; constructor|discriminate]. }
    apply bind_cases in H. destruct H as [(x1 & l & E & H)|(er & E & ->)]; apply row_x in E; destruct E as (K & O & I).
    - apply IH in H. destruct H as (K2 & O2 & I2). split; [intros L; apply K2, K, L|]. assert (F : fine e (src_ref src) (src_dir src) row) by (apply O; exists l; reflexivity). split; [intros X; constructor; auto|].
      intros X. destruct (I2 X) as (err & b & pre & row' & post & A & -> & B & C & D). exists err, b, (row :: pre), row', post. split; [exact A|]. split; [reflexivity|]. split; [constructor; assumption|]. split; [|exact D].
      cbn [List.length]. rewrite Nat.add_succ_r. exact C.
    - split; [exact K|]. split; [discriminate|]. intros X. destruct I as (err & b & A & B & C); [injection X as ->; reflexivity|]. exists err, b, [], row, rows. split; [exact A|]. split; [reflexivity|]. split; [constructor|].
      cbn [List.length]. rewrite Nat.add_0_r. split; assumption.
  Qed.
End Told.

Lemma generate_tells : forall e kind why load n path src ft, tells e kind why path src (generate_x e kind why load n path src ft).
Proof.
  intros e kind why load n. induction n as [|n IH]; intros path src ft x x' r H; cbn [generate_x] in H.
  { unfold in_st in H. cbn in H. injection H as <- <-. split; [intros L; exact L|]. split; discriminate. }
  apply bind_cases in H. destruct H as [(x0 & d & E & H)|(er & E & ->)]; [|discriminate E]. unfold in_st, getD, gets in E. injection E as <- <-. rewrite xeta in H.
  unfold on_include in H. destruct (rows_loop_x _ _ _ _ _ _ _ _ _ _ _ x) as [x1 r1] eqn:L. apply (loop_x e kind why load _ IH) in L. destruct L as (K & O & I).
  destruct r1 as [[]|er]; [injection H as <- <-; split; [exact K|]; split; [exact O|discriminate]|].
  destruct er; try (injection H as <- <-; split; [exact K|]; split; discriminate).
  destruct (I eq_refl) as (err & b & pre & row & post & A & B & C & D & Bl). rewrite A in H. unfold raise_include, bind, modify, raise in H. injection H as <- <-. split; [exact K|]. split; [discriminate|]. intros _.
  eexists _, b. split; [reflexivity|]. split; [exists pre, row, post, (rp_msg err); auto|]. destruct b; exact Bl.
Qed.

(** nothing is added to the errors before the end *)
Definition hush {A} (m : M xst A) : Prop := forall x, x_errors (fst (m x)) = x_errors x.
Lemma hu_bind : forall A B (m : M xst A) (f : A -> M xst B), hush m -> (forall a, hush (f a)) -> hush (bind m f).
Proof. intros A B m f H1 H2 x. unfold bind. specialize (H1 x). destruct (m x) as [x1 [a|e]]; cbn [fst] in *; [rewrite H2|]; exact H1. Qed.
Lemma hu_ret : forall A (a : A), hush (ret a).
Proof. intros A a x. reflexivity. Qed.
Lemma hu_raise : forall A e, hush (@raise xst A e).
Proof. intros A e x. reflexivity. Qed.
Lemma hu_in : forall A (m : MM A), hush (in_st m).
Proof. intros A m x. unfold in_st. destruct (m (x_st x)). reflexivity. Qed.
Lemma hu_include : forall A msg t, hush (@raise_include A msg t).
Proof. intros A msg t x. reflexivity. Qed.
Lemma hu_on : forall A (m : M xst A) h, hush m -> (forall e, hush (h e)) -> hush (on_include m h).
Proof.
  intros A m h H1 H2 x. unfold on_include. specialize (H1 x). destruct (m x) as [x1 [a|e]]; cbn [fst] in *; [exact H1|]. destruct e; try exact H1. destruct (x_rep x1); [rewrite H2|]; exact H1.
Qed.
Lemma hu_construct : forall p m, hush (construct_x p m).
Proof. intros p m. unfold construct_x. apply hu_bind; [apply hu_in|intros t x; reflexivity]. Qed.
Lemma hu_emit : forall load t, hush (emit_x load t).
Proof. intros load t. unfold emit_x. apply hu_bind; [apply hu_in|intros _ x; reflexivity]. Qed.
Ltac hu := repeat first [apply hu_ret|apply hu_in|apply hu_construct|apply hu_emit|apply hu_include|apply hu_raise|(apply hu_bind; [|intros ?])].
Lemma hu_args : forall load path ft line t args col, hush (emit_args_x load path ft line t col args).
Proof. intros load path ft line t args. induction args as [|v args IH]; intros col; cbn [emit_args_x]; [hu|]. apply hu_bind; [|intros _; apply IH]. unfold when. destruct (nonempty _); cbv zeta; hu. Qed.
Lemma hu_generate : forall e kind why load n path src ft, hush (generate_x e kind why load n path src ft).
Proof.
  intros e kind why load n. induction n as [|n IH]; intros path src ft; cbn [generate_x]; [hu|]. apply hu_bind; [hu|intros d]. apply hu_on; [|intros; hu].
  generalize 1 at 1. generalize (d_root d). generalize (src_rows src) at 1. intros rows. induction rows as [|row rows IHr]; intros ls line; cbn [rows_loop_x]; [hu|]. apply hu_bind; [|intros l; apply IHr].
  unfold row_step_x. destruct (skip_row row); [hu|]. apply hu_bind; [hu|intros [p q]]. cbv zeta. apply hu_bind; [hu|intros c]. apply hu_bind; [hu|intros t]. apply hu_bind; [hu|intros r]. apply hu_bind; [hu|intros b1]. apply hu_bind; [hu|intros b2].
  destruct (b1 || b2).
  - apply hu_bind; [|intros _; hu]. unfold include_row_x. apply hu_bind; [hu|intros r1]. apply hu_bind; [hu|intros v]. apply hu_bind; [destruct (if b1 then _ else _) as [y|er]; [hu|destruct er; hu]|intros y].
    apply hu_bind; [destruct (src_ref src); [destruct (eqs _ _)|]; hu|intros _]. apply hu_bind; [hu|intros _]. destruct (fetch e y); [|hu]. apply hu_bind; [hu|intros r2]. apply hu_bind; [|intros _; hu]. apply hu_on; [apply IH|intros err x; reflexivity].
  - apply hu_bind; [hu|intros b3]. apply hu_bind; [destruct b3; hu|intros t2]. apply hu_bind; [hu|intros _]. apply hu_bind; [hu|intros r2]. apply hu_bind; [hu|intros b4]. apply hu_bind; [hu|intros b5]. apply hu_bind; [destruct (b4 || b5); [hu|apply hu_args]|intros _; hu].
Qed.

(** the parse itself *)
Lemma load_x_cases : forall e kind why n path src x x' r, load_x e kind why n path src x = (x', r) ->
  (r = Err EInclude /\ exists err b, x_errors x' = [err] /\ bad_file e kind why path (src_ref src) (src_dir src) (src_rows src) (rp_msg err) b /\ blames x' err b)
  \/ (r <> Err EInclude /\ x_errors x' = [] /\ (r = Ok tt -> Forall (fine e (src_ref src) (src_dir src)) (src_rows src))).
Proof.
  intros e kind why n path src x x' r H. unfold load_x in H. apply bind_cases in H. destruct H as [(x1 & [] & E & H)|(er & E & X)]; [clear E|discriminate E].
  apply bind_cases in H. destruct H as [(x2 & [] & E & H)|(er & E & X)]; [|discriminate E]. injection E as <-.
  set (x2 := mk_xst _ _ _ _ _) in H. assert (E2 : x_errors x2 = []) by reflexivity. clearbody x2. clear x1.
  apply bind_cases in H. destruct H as [(x3 & d & E & H)|(er & E & X)]; [|discriminate E]. unfold in_st, getD, gets in E. injection E as <- <-. rewrite xeta in H.
  apply bind_cases in H. destruct H as [(x3 & [] & E & H)|(er & E & X)].
  2:{ right. pose proof (hu_in _ (load1 (d_root (s_doc (x_st x2)))) x2) as Hx. rewrite E in Hx. cbn [fst] in Hx. apply (pl_in _ _ (c_load1 _)) in E. destruct E as [N _]. subst r. split; [intros X; injection X as ->; apply N; reflexivity|]. split; [congruence|discriminate]. }
  pose proof (hu_in _ (load1 (d_root (s_doc (x_st x2)))) x2) as Hx. rewrite E in Hx. cbn [fst] in Hx. rewrite E2 in Hx. clear E E2 x2.
  pose proof (hu_generate e kind why true n path src None x3) as Hg. unfold on_include in H.
  destruct (generate_x e kind why true n path src None x3) as [x5 r5] eqn:G. cbn [fst] in Hg. rewrite Hx in Hg. pose proof (generate_tells _ _ _ _ _ _ _ _ _ _ _ G) as (_ & O & I). unfold bind in H. rewrite G in H.
  destruct r5 as [[]|er].
  - right. destruct (in_st finish_load x5) as [x6 r6] eqn:F. pose proof (hu_in _ finish_load x5) as Hf. rewrite F in Hf. cbn [fst] in Hf.
    assert (r6 = r /\ x6 = x') as [-> ->] by (destruct r6 as [[]|]; injection H as <- <-; auto). clear H.
    split; [|split; [congruence|intros _; apply O; reflexivity]]. unfold finish_load in F. apply (pl_in unit _) in F; [apply F|fw].
  - destruct er; try (injection H as <- <-; right; split; [discriminate|]; split; [exact Hg|discriminate]). left. destruct (I eq_refl) as (err & b & A & B & C). rewrite A in H. cbn [modify raise] in H. unfold modify, raise in H. injection H as <- <-.
    split; [reflexivity|]. exists err, b. cbn [x_errors]. rewrite Hg. split; [reflexivity|]. split; [exact B|]. destruct b; exact C.
Qed.

Lemma c84_same : forall e kind why n path src x, load_source e n src (x_st x) = (x_st (fst (load_x e kind why n path src x)), snd (load_x e kind why n path src x)).
Proof. intros. apply er_load. Qed.
Lemma c84_report : forall e kind why n path src x x', load_x e kind why n path src x = (x', Err EInclude) ->
  exists err b, x_errors x' = [err] /\ bad_file e kind why path (src_ref src) (src_dir src) (src_rows src) (rp_msg err) b /\ blames x' err b.
Proof. intros e kind why n path src x x' H. apply load_x_cases in H. destruct H as [[_ H]|[H _]]; [exact H|contradiction H; reflexivity]. Qed.
Lemma c84_fine : forall e kind why n path src x x', load_x e kind why n path src x = (x', Ok tt) ->
  x_errors x' = [] /\ doc_errors x' = [] /\ Forall (fine e (src_ref src) (src_dir src)) (src_rows src).
Proof.
  intros e kind why n path src x x' H. apply load_x_cases in H. destruct H as [[H _]|(_ & A & B)]; [discriminate H|]. split; [exact A|]. split; [unfold doc_errors, errors_as_dict; rewrite A; reflexivity|apply B; reflexivity].
Qed.
Lemma c84_other : forall e kind why n path src x x' er, load_x e kind why n path src x = (x', Err er) -> er <> EInclude -> x_errors x' = [].
Proof. intros e kind why n path src x x' er H N. apply load_x_cases in H. destruct H as [[H _]|(_ & A & B)]; [injection H as ->; contradiction|exact A]. Qed.

(** ** The two kinds of rows *)

Lemma names_det : forall e dir row y z, names_file e dir row y -> names_file e dir row z -> y = z.
Proof.
  intros e dir row y z [_ [[F1 A]|[F1 A]]] [_ [[F2 B]|[F2 B]]]; try congruence; destruct F1 as [_ F1], F2 as [_ F2]; destruct (cell_names_det _ _ _ _ _ F1 F2) as [_ X]; discriminate X.
Qed.
Lemma names_row : forall e dir row y, names_file e dir row y -> file_row "include" row \/ file_row "declare" row.
Proof. intros e dir row y [_ [[F _]|[F _]]]; auto. Qed.
Lemma c84_apart : forall e kind why path ref dir line row msg b, bad_row e kind why path ref dir line row msg b -> ~ fine e ref dir row.
Proof.
  intros e kind why path ref dir line row msg b H. induction H as [path ref dir line row msg C|path ref dir line row y N R F|path ref dir line row y pre row' post msg b N R F Fp B IH]; intros G.
  - destruct G as [ref dir row N1 N2|ref dir row y rows Ny Rf Fe _]; destruct C as [F1 _ NN|F1 _ NN|f Rff Nf]; try contradiction.
    + apply names_row in Nf. destruct Nf; contradiction.
    + exact (NN _ Ny).
    + exact (NN _ Ny).
    + rewrite (names_det _ _ _ _ _ Nf Ny) in Rff. contradiction.
  - destruct G as [ref dir row N1 N2|ref dir row z rows Nz Rf Fe _]; [apply names_row in N; destruct N; contradiction|]. rewrite (names_det _ _ _ _ _ N Nz) in F. congruence.
  - destruct G as [ref dir row N1 N2|ref dir row z rows Nz Rf Fe Fr]; [apply names_row in N; destruct N; contradiction|]. rewrite <- (names_det _ _ _ _ _ N Nz) in *. rewrite F in Fe. injection Fe as <-.
    apply Forall_app in Fr. destruct Fr as [_ Fr]. inversion Fr as [|? ? F1 _]; subst. exact (IH F1).
Qed.

(** ** The errors as a dict *)

Lemma c84_dict : forall e kind why n path src x x', load_x e kind why n path src x = (x', Err EInclude) ->
  exists msg b, bad_file e kind why path (src_ref src) (src_dir src) (src_rows src) msg b
    /\ match b with
       | NoTerm => errors_as_dict x' = Err EAttr
       | OwnTerm f line => exists en, errors_as_dict x' = Ok [en] /\ ee_error en = msg /\ ee_file en = file_name f /\ ee_row en = Some line
       | SomeTerm => exists en, errors_as_dict x' = Ok [en] /\ ee_error en = msg
       end.
Proof.
  intros e kind why n path src x x' H. apply c84_report in H. destruct H as (err & b & A & B & C). exists (rp_msg err), b. split; [exact B|]. unfold errors_as_dict. rewrite A. cbn [rmap].
  unfold error_dict. destruct b as [|f line|]; cbn [blames] in C.
  - rewrite C. reflexivity.
  - destruct C as (t & C & _ & R & F). rewrite C. eexists. split; [reflexivity|]. auto.
  - destruct (rp_term err) as [t|]; [|contradiction C; reflexivity]. eexists. split; reflexivity.
Qed.
