(** * GrowFacts: a relation kept by all operations of the parser

    [Walk]: a relation kept by the elementary steps is kept by a whole parse. *)

From Verif Require Import ListFacts StrFacts HeapFacts Parser RunFacts EmitFacts RowFacts TotalFacts FrameFacts SpecKept.

(** an update of the parser that keeps the declared names distinct *)
Definition keymod (f : prec -> prec) : Prop :=
  forall p, (NoDup (dkeys (p_dterms p)) -> NoDup (dkeys (p_dterms (f p)))) /\ (NoDup (dkeys (p_dsecs p)) -> NoDup (dkeys (p_dsecs (f p)))).
Lemma keys_map : forall {A} (f : string * A -> string * A) (d : dict A), (forall kv, fst (f kv) = fst kv) -> map fst (map f d) = map fst d.
Proof. intros A f d H. rewrite map_map. apply map_ext. exact H. Qed.
Ltac keys := intro; cbn; split; intro; try assumption; try (apply nodup_dset; assumption);
  try (rewrite keys_map; [assumption|]; intros [? ?]; cbn [fst snd];
       repeat match goal with |- context [match ?x with _ => _ end] => destruct x end; reflexivity).

Lemma pres_inherit : forall R f t_r ih_r sec n, preorder R -> (forall f s, keymod f -> R s (pmod f s)) -> pres R (inherit_loop f t_r ih_r sec n).
Proof.
  intros R f t_r ih_r sec n PO P. revert n. induction f as [|f IH]; intros; cbn [inherit_loop]; [apply pres_raise; exact PO|].
  apply pres_bind; [exact PO|apply pres_gets; exact PO|]. intros p. destruct (dget sec (p_dsecs p)); [|apply pres_raise; exact PO].
  destruct (nth_error _ n); [|apply pres_ret; exact PO]. apply pres_bind; [exact PO| |intros; apply IH].
  apply pres_when; [exact PO|]. apply pres_bind; [exact PO|apply pres_lift; exact PO|]. intros [a b].
  destruct (dget _ _); [|apply pres_raise; exact PO]. cbv zeta. apply pres_bind; [exact PO|apply pres_lift; exact PO|]. intros k.
  apply pres_bind; [exact PO|apply pres_modP; intros; apply P; keys|]. intros _.
  unfold add_term_to_section. apply pres_bind; [exact PO|apply pres_gets; exact PO|]. intros q. cbv zeta.
  repeat match goal with |- pres _ (match ?x with _ => _ end) => destruct x end; try (apply pres_raise; exact PO); try (apply pres_ret; exact PO).
  apply pres_modP. intros; apply P. keys.
Qed.
Lemma pres_declare : forall R t, preorder R -> (forall f s, keymod f -> R s (pmod f s)) -> pres R (manage_declare_terms t).
Proof.
  intros R t PO P.
  unfold manage_declare_terms, add_declared_section, add_declared_term, add_value_set_value, add_term_to_section.
  repeat (cbv beta; match goal with
    | |- forall _, _ => intro
    | |- pres _ (bind _ _) => apply pres_bind; [exact PO| |]
    | |- pres _ (ret _) => apply pres_ret; exact PO
    | |- pres _ (raise _) => apply pres_raise; exact PO
    | |- pres _ (lift _) => apply pres_lift; exact PO
    | |- pres _ (gets _) => apply pres_gets; exact PO
    | |- pres _ (getT _) => apply pres_gets; exact PO
    | |- pres _ getP => apply pres_gets; exact PO
    | |- pres _ (when _ _) => apply pres_when; [exact PO|]
    | |- pres _ (modP _) => apply pres_modP; intro; apply P; keys
    | |- pres _ (inherit_loop _ _ _ _ _) => apply pres_inherit; assumption
    | |- pres _ (if ?b then _ else _) => destruct b
    | |- pres _ (match ?x with _ => _ end) => destruct x
    | |- pres _ (let _ := _ in _) => cbv zeta
    end).
Qed.

(** an update that only adds to the lists of a term, or of the document *)
Definition ext (f : trec -> trec) : Prop :=
  forall r, core (f r) = core r /\ prefix (t_children r) (t_children (f r)) /\ prefix (t_terms r) (t_terms (f r)).
Definition dext (f : docrec -> docrec) : Prop :=
  forall d, d_root (f d) = d_root d /\ prefix (d_terms d) (d_terms (f d)) /\ d_sections (f d) = d_sections d
    /\ d_decl_terms (f d) = d_decl_terms d /\ d_decl_sections (f d) = d_decl_sections d.
Lemma prefix_refl : forall {A} (l : list A), prefix l l.
Proof. intros A l. exists []. rewrite app_nil_r. reflexivity. Qed.
Lemma prefix_trans : forall {A} (a b c : list A), prefix a b -> prefix b c -> prefix a c.
Proof. intros A a b c [x ->] [y ->]. exists (x ++ y)%list. rewrite app_assoc. reflexivity. Qed.
Lemma prefix_add : forall {A} (l : list A) x, prefix l (l ++ x).
Proof. intros. exists x. reflexivity. Qed.

Section Walk.
  Variable R : st -> st -> Prop.
  Hypothesis PO : preorder R.
  Hypothesis Ralloc : forall r s, R s (push r s).
  Hypothesis RmodN : forall i f s, ext f -> (forall r, t_rt (f r) = t_rt r) -> R s (hmod i f s).
  Hypothesis RmodD : forall f s, dext f -> R s (dmod f s).
  Hypothesis Rsec : forall i name s, dget (lower name) (d_sections (s_doc s)) = None ->
    R s (dmod (fun d => set_d_sections (dset (lower name) i (d_sections d)) d) s).
  Hypothesis RmodP : forall f s, (forall p, p_dterms (f p) = p_dterms p /\ p_dsecs (f p) = p_dsecs p) -> R s (pmod f s).

  Lemma w_alloc : forall r, pres R (allocT r).
  Proof. intros r s s' x H. injection H as <- _. apply Ralloc. Qed.

  Ltac leaf := repeat match goal with |- context [match ?x with _ => _ end] => destruct x end;
    repeat split; first [reflexivity|apply prefix_refl|apply prefix_add].
  Ltac w1 :=
    match goal with
    | |- forall _, _ => intro
    | |- pres _ (bind _ _) => apply pres_bind; [exact PO| |]
    | |- pres _ (ret _) => apply pres_ret; exact PO
    | |- pres _ (raise _) => apply pres_raise; exact PO
    | |- pres _ (lift _) => apply pres_lift; exact PO
    | |- pres _ (gets _) => apply pres_gets; exact PO
    | |- pres _ (getT _) => apply pres_gets; exact PO
    | |- pres _ getD => apply pres_gets; exact PO
    | |- pres _ getP => apply pres_gets; exact PO
    | |- pres _ (reads _) => apply pres_reads; exact PO
    | |- pres _ (assert_ _) => apply pres_assert; exact PO
    | |- pres _ (allocT _) => apply w_alloc
    | |- pres _ (when _ _) => apply pres_when; [exact PO|]
    | |- pres _ (mapM_ _ _) => apply pres_mapM; [exact PO|intros ? _]
    | |- pres _ (modT _ _) => apply pres_modT; intro; apply RmodN; intro; leaf
    | |- pres _ (modD _) => apply pres_modD; intro; apply RmodD; intro; leaf
    | |- pres _ (modP _) => apply pres_modP; intro; apply RmodP; intro; split; leaf
    | |- pres _ (set_ownership _ _) => apply pres_ownership; [exact PO|intros; apply RmodN; intro; leaf]
    | |- pres _ (if ?b then _ else _) => destruct b
    | |- pres _ (match ?x with _ => _ end) => destruct x
    | |- pres _ (let _ := _ in _) => cbv zeta
    end.
  Ltac w := repeat (cbv beta; w1).

  Lemma w_construct : forall c term value args row col ftype parent doc section, pres R (construct c term value args row col ftype parent doc section).
  Proof. intros. unfold construct. destruct c; unfold mk_section, mk_plain; w. Qed.
  Lemma w_new_child0 : forall i term value, pres R (new_child0 i term value).
  Proof. intros. unfold new_child0. w. apply w_construct. Qed.
  Lemma w_new_children : forall i kw, pres R (new_children i kw).
  Proof. intros. unfold new_children. w. apply w_new_child0. Qed.
  Lemma w_add_section : forall sid, pres R (add_section sid).
  Proof.
    intros. unfold add_section. do 4 (w1; [w1; try (intro; leaf)|]; try intro).
    intros s s' x H. unfold bind at 1, getD, gets in H. cbv beta iota in H.
    match type of H with context [dget ?k ?d] => destruct (dget k d) eqn:E end.
    - injection H as <- _. apply PO.
    - unfold bind in H. rewrite modD_run in H. injection H as <- _. apply Rsec. exact E.
  Qed.
  Lemma w_add_list : forall t, pres R (add_term_list t).
  Proof. intros. unfold add_term_list. w. apply w_add_section. Qed.
  Lemma w_add_meta : forall t, pres R (add_term_meta t).
  Proof. intros. unfold add_term_meta. w. Qed.
  Lemma w_section_add : forall sec t, pres R (section_add_term sec t).
  Proof. intros. unfold section_add_term, doc_add_term_nosec. w; first [apply w_add_list|apply w_add_meta]. Qed.
  Lemma w_goc : forall i item v, pres R (get_or_new_child0 i item v).
  Proof. intros. unfold get_or_new_child0, goc_check. w; apply w_construct. Qed.
  Lemma w_set_child : forall i item v, pres R (set_child_item i item v).
  Proof. intros. unfold set_child_item. w. apply w_goc. Qed.
  Lemma w_set_section_plain : forall t s, pres R (set_section_plain t s).
  Proof. intros. unfold set_section_plain. w. apply w_set_child. Qed.
  Lemma w_doc_add : forall t, pres R (doc_add_term t).
  Proof. intros. unfold doc_add_term. w; first [apply w_add_list|apply w_add_section|apply w_section_add|apply w_add_meta|apply w_set_section_plain]. Qed.
  Lemma w_new_term : forall sec term value kw, pres R (Ops.new_term sec term value kw).
  Proof. intros. unfold Ops.new_term. w; first [apply w_construct|apply w_new_children|apply w_doc_add]. Qed.
  Lemma w_set_section : forall t o, pres R (set_section t o).
  Proof.
    intros. unfold set_section, set_section_sec, section_setitem, get_or_new_term.
    w; first [apply w_goc|apply w_new_term|apply w_set_section_plain].
  Qed.

  Lemma w_set_meta : forall t, pres R (set_meta t).
  Proof. intros. unfold set_meta. w. Qed.
  Lemma w_add_child : forall p c, pres R (add_child p c).
  Proof. intros. unfold add_child. w. Qed.
  Lemma w_attach : forall t, pres R (attach t).
  Proof. intros. unfold attach. w; apply w_add_child. Qed.
  Lemma w_normal : forall t, pres R (consume_normal t).
  Proof. intros. unfold consume_normal. w; first [apply w_set_meta|apply w_attach|apply w_section_add]. Qed.
  Lemma w_load1 : forall t, pres R (load1 t).
  Proof. intros. unfold load1. w; first [apply w_add_section|apply w_doc_add]. Qed.
  Lemma w_section_for : forall t, pres R (section_for t).
  Proof. intros. unfold section_for. w. Qed.

  (** a numeric name or a synonym is replaced *)
  Hypothesis RmodT : forall i f s, ext f -> R s (hmod i f s).
  Lemma w_rename : forall t, pres R (rename_term t).
  Proof. intros. unfold rename_term. w; apply pres_modT; intro; apply RmodT; intro; leaf. Qed.

  Hypothesis Rdecl : forall t, pres R (manage_declare_terms t).

  Lemma w_consume : forall t, pres R (consume t).
  Proof. intros. unfold consume. w; first [apply w_rename|apply w_set_section|apply w_normal|apply Rdecl]. Qed.
  Lemma w_emit : forall load t, pres R (emit load t).
  Proof. intros. unfold emit. w; first [apply w_consume|apply w_load1]. Qed.
  Lemma w_emit_args : forall load ft line args t col, pres R (emit_args load ft line t col args).
  Proof. intros load ft line args. induction args; intros; cbn [emit_args]; w; first [apply w_construct|apply w_emit|apply IHargs]. Qed.

  Section Rows.
    Variable e : env.
    Variable load : bool.
    Variable rec : source -> option string -> MM unit.
    Hypothesis Rrec : forall src ft, pres R (rec src ft).
    Lemma w_include : forall src ls t b, pres R (include_row e load rec src ls t b).
    Proof. intros. unfold include_row. w; first [apply w_emit|apply Rrec]. Qed.
    Lemma w_row : forall src ft line row ls, pres R (row_step e load rec src ft line row ls).
    Proof. intros. unfold row_step. w; first [apply w_construct|apply w_include|apply w_section_for|apply w_emit|apply w_emit_args]. Qed.
    Lemma w_rows : forall src ft rows line ls, pres R (rows_loop e load rec src ft line rows ls).
    Proof. intros src ft rows. induction rows; intros; cbn [rows_loop]; w; first [apply w_row|apply IHrows]. Qed.
  End Rows.

  Lemma w_generate : forall e load n src ft, pres R (generate_terms e load n src ft).
  Proof. intros e load n. induction n as [|n IH]; intros; cbn [generate_terms]; w. apply w_rows. exact IH. Qed.
End Walk.

(** ** Terms are only added *)
Definition grown (s s' : st) : Prop :=
  s_reg s' = s_reg s /\ d_root (s_doc s') = d_root (s_doc s) /\ hlen s <= hlen s'
  /\ forall i, i < hlen s -> core (tget i s') = core (tget i s).

Lemma grown_po : preorder grown.
Proof.
  split.
  - intros s. repeat split; auto.
  - intros a b c (A1 & A2 & A3 & A4) (B1 & B2 & B3 & B4). repeat split; try congruence; [lia|].
    intros i Hi. rewrite B4 by lia. apply A4. exact Hi.
Qed.
Lemma grown_push : forall r s, grown s (push r s).
Proof. intros r s. split; [reflexivity|]. split; [reflexivity|]. split; [rewrite hlen_push; lia|]. intros i Hi. rewrite push_old by exact Hi. reflexivity. Qed.
Lemma grown_hmod0 : forall i f s, (forall r, core (f r) = core r) -> grown s (hmod i f s).
Proof. intros i f s H. split; [reflexivity|]. split; [reflexivity|]. split; [rewrite hlen_hmod; lia|]. intros j Hj. apply (field_hmod core). exact H. Qed.
Lemma grown_hmod : forall i f s, ext f -> grown s (hmod i f s).
Proof. intros i f s H. apply grown_hmod0. intros r. apply H. Qed.
Lemma grown_dmod0 : forall f s, (forall d, d_root (f d) = d_root d) -> grown s (dmod f s).
Proof. intros f s H. split; [reflexivity|]. split; [apply H|]. split; [rewrite hlen_dmod; lia|reflexivity]. Qed.
Lemma grown_dmod : forall f s, dext f -> grown s (dmod f s).
Proof. intros f s H. apply grown_dmod0. intros d. apply H. Qed.
Lemma grown_sec : forall i name s, dget (lower name) (d_sections (s_doc s)) = None ->
  grown s (dmod (fun d => set_d_sections (dset (lower name) i (d_sections d)) d) s).
Proof. intros i name s _. apply grown_dmod0. reflexivity. Qed.
Lemma grown_pmod : forall f s, grown s (pmod f s).
Proof. intros f s. split; [reflexivity|]. split; [reflexivity|]. split; [rewrite hlen_pmod; lia|reflexivity]. Qed.

Lemma grown_declare : forall t, pres grown (manage_declare_terms t).
Proof. intros t. apply pres_declare; [exact grown_po|intros; apply grown_pmod]. Qed.

Lemma grown_generate : forall e load n src ft, pres grown (generate_terms e load n src ft).
Proof. intros. apply w_generate; auto using grown_po, grown_push, grown_hmod, grown_dmod, grown_sec, grown_pmod, grown_declare. Qed.
Lemma grown_emit : forall load t, pres grown (emit load t).
Proof. intros. apply w_emit; auto using grown_po, grown_push, grown_hmod, grown_dmod, grown_sec, grown_pmod, grown_declare. Qed.

(** ** Nothing is lost *)
Lemma kept_po : preorder kept.
Proof.
  split.
  - intros s. split; auto using prefix_refl.
  - intros a b c [a1 a2 [a3 a3'] a4 a5 a6 a7 a8 a9] [b1 b2 [b3 b3'] b4 b5 b6 b7 b8 b9]. fold (hlen a) in *. fold (hlen b) in *.
    split; try congruence; fold (hlen a); try lia.
    + split; congruence.
    + eapply prefix_trans; eassumption.
    + auto.
    + intros i Hi. rewrite b7 by lia. auto.
    + intros i Hi. eapply prefix_trans; [apply a8; exact Hi|apply b8; lia].
    + intros i Hi. eapply prefix_trans; [apply a9; exact Hi|apply b9; lia].
Qed.
Lemma kept_push : forall r s, kept s (push r s).
Proof.
  intros r s. split; try reflexivity; auto using prefix_refl; fold (hlen s); fold (hlen (push r s)); try (rewrite hlen_push; lia);
  intros i Hi; fold (tget i (push r s)); fold (tget i s); rewrite push_old by exact Hi; [reflexivity|apply prefix_refl..].
Qed.
Lemma kept_hmod : forall i f s, ext f -> kept s (hmod i f s).
Proof.
  intros i f s H. split; try reflexivity; auto using prefix_refl; fold (hlen s); fold (hlen (hmod i f s)); try (rewrite hlen_hmod; lia); intros j Hj; fold (tget j (hmod i f s)); fold (tget j s);
  (destruct (Nat.eq_dec j i) as [->|N]; [rewrite tget_hmod by exact Hj; rewrite Nat.eqb_refl; apply H
    |]); unfold tget, hmod; cbn [s_heap set_s_heap]; rewrite hget_upd_other by congruence; [reflexivity|apply prefix_refl..].
Qed.
Lemma kept_dmod : forall f s, dext f -> kept s (dmod f s).
Proof.
  intros f s H. destruct (H (s_doc s)) as (A & B & C & D & E). split; try reflexivity; auto using prefix_refl.
  intros k i. cbn. rewrite C. auto.
Qed.
Lemma kept_sec : forall i name s, dget (lower name) (d_sections (s_doc s)) = None ->
  kept s (dmod (fun d => set_d_sections (dset (lower name) i (d_sections d)) d) s).
Proof.
  intros i name s H. split; try reflexivity; auto using prefix_refl. intros k j E. cbn. rewrite dget_dset. eqs_cases k (lower name); [subst k; congruence|exact E].
Qed.
Lemma kept_pmod : forall f s, kept s (pmod f s).
Proof. intros f s. split; try reflexivity; auto using prefix_refl. Qed.
Lemma kept_declare : forall t, pres kept (manage_declare_terms t).
Proof. intros t. apply pres_declare; [exact kept_po|intros; apply kept_pmod]. Qed.
Lemma kept_generate : forall e load n src ft, pres kept (generate_terms e load n src ft).
Proof. intros. apply w_generate; auto using kept_po, kept_push, kept_hmod, kept_dmod, kept_sec, kept_pmod, kept_declare. Qed.

(** ** The names of the declarations stay distinct *)
Definition distinct (s : st) : Prop := NoDup (dkeys (p_dterms (s_prs s))) /\ NoDup (dkeys (p_dsecs (s_prs s))).
Definition distinct_kept (s s' : st) : Prop := distinct s -> distinct s'.
Lemma distinct_po : preorder distinct_kept.
Proof. split; unfold distinct_kept; auto. Qed.
Lemma distinct_declare : forall t, pres distinct_kept (manage_declare_terms t).
Proof. intros t. apply pres_declare; [exact distinct_po|]. intros f s K [A B]. destruct (K (s_prs s)) as [C D]. split; [exact (C A)|exact (D B)]. Qed.
Lemma distinct_generate : forall e load n src ft, pres distinct_kept (generate_terms e load n src ft).
Proof.
  intros. apply w_generate; try exact distinct_po; try exact distinct_declare; try (intros; intros A; exact A).
  intros f s H [A B]. destruct (H (s_prs s)) as [C D]. split; cbn; [rewrite C|rewrite D]; assumption.
Qed.
