(** * RunFacts: effects of the primitive state changes *)

From Verif Require Import ListFacts StrFacts SpecNames NameFacts HeapFacts ConstructFacts Parser.

Definition hmod (i : nat) (f : trec -> trec) (s : st) : st := set_s_heap (upd i (f (tget i s)) (s_heap s)) s.
Definition dmod (f : docrec -> docrec) (s : st) : st := set_s_doc (f (s_doc s)) s.
Definition pmod (f : prec -> prec) (s : st) : st := set_s_prs (f (s_prs s)) s.


Lemma modT_run : forall i f s, modT i f s = (hmod i f s, Ok tt).
Proof. reflexivity. Qed.
Lemma modD_run : forall f s, modD f s = (dmod f s, Ok tt).
Proof. reflexivity. Qed.
Lemma modP_run : forall f s, modP f s = (pmod f s, Ok tt).
Proof. reflexivity. Qed.

Lemma hlen_hmod : forall i f s, hlen (hmod i f s) = hlen s.
Proof. intros. unfold hlen, hmod. cbn. apply upd_length. Qed.
Lemma hlen_dmod : forall f s, hlen (dmod f s) = hlen s.
Proof. reflexivity. Qed.
Lemma hlen_pmod : forall f s, hlen (pmod f s) = hlen s.
Proof. reflexivity. Qed.

Lemma tget_hmod : forall i j f s, j < hlen s ->
  tget i (hmod j f s) = if i =? j then f (tget j s) else tget i s.
Proof.
  intros i j f s H. unfold hmod, tget. cbn [s_heap set_s_heap]. destruct (Nat.eqb_spec i j) as [->|N].
  - apply hget_upd_same. exact H.
  - apply hget_upd_other. congruence.
Qed.
Lemma tget_dmod : forall i f s, tget i (dmod f s) = tget i s.
Proof. reflexivity. Qed.
Lemma tget_pmod : forall i f s, tget i (pmod f s) = tget i s.
Proof. reflexivity. Qed.

Lemma doc_hmod : forall i f s, s_doc (hmod i f s) = s_doc s.
Proof. reflexivity. Qed.
Lemma doc_dmod : forall f s, s_doc (dmod f s) = f (s_doc s).
Proof. reflexivity. Qed.
Lemma doc_pmod : forall f s, s_doc (pmod f s) = s_doc s.
Proof. reflexivity. Qed.
Lemma prs_hmod : forall i f s, s_prs (hmod i f s) = s_prs s.
Proof. reflexivity. Qed.
Lemma prs_dmod : forall f s, s_prs (dmod f s) = s_prs s.
Proof. reflexivity. Qed.
Lemma prs_pmod : forall f s, s_prs (pmod f s) = f (s_prs s).
Proof. reflexivity. Qed.
Lemma reg_hmod : forall i f s, s_reg (hmod i f s) = s_reg s.
Proof. reflexivity. Qed.
Lemma reg_dmod : forall f s, s_reg (dmod f s) = s_reg s.
Proof. reflexivity. Qed.
Lemma reg_pmod : forall f s, s_reg (pmod f s) = s_reg s.
Proof. reflexivity. Qed.

Ltac srw := rewrite ?hlen_hmod, ?hlen_dmod, ?hlen_pmod, ?tget_dmod, ?tget_pmod, ?doc_hmod, ?doc_dmod, ?doc_pmod,
  ?prs_hmod, ?prs_dmod, ?prs_pmod, ?reg_hmod, ?reg_dmod, ?reg_pmod in *.

Lemma upd_same : forall {A} i (d : A) l, upd i (nth i l d) l = l.
Proof. induction i; destruct l; simpl; auto. f_equal. apply IHi. Qed.

Lemma hmod_id : forall i f s, f (tget i s) = tget i s -> hmod i f s = s.
Proof.
  intros i f s H. unfold hmod. rewrite H. unfold tget, hget. rewrite upd_same. destruct s. reflexivity.
Qed.

Lemma hlen_app : forall r s, hlen (set_s_heap (s_heap s ++ [r]) s) = S (hlen s).
Proof. intros. unfold hlen. cbn. rewrite app_length. cbn. lia. Qed.
Lemma tget_app : forall i r s, i <= hlen s -> tget i (set_s_heap (s_heap s ++ [r]) s) = if i =? hlen s then r else tget i s.
Proof.
  intros i r s H. unfold tget. cbn [s_heap set_s_heap]. destruct (Nat.eqb_spec i (hlen s)) as [->|N].
  - apply hget_app_new.
  - apply hget_app_old. unfold hlen in *. lia.
Qed.

(** [rinv H]: take a successful run apart, keeping states as chains of
    [hmod], [dmod] and [pmod] *)
Ltac rinv1 H :=
  match type of H with
  | bind _ _ _ = (_, Ok _) =>
      let s1 := fresh "s" in let a := fresh "a" in let H1 := fresh "R" in
      apply bind_ok in H; destruct H as (s1 & a & H1 & H); cbv beta in H; rinv1 H1; rinv1 H
  | ret _ _ = (_, Ok _) => apply ret_ok in H; destruct H; subst
  | gets _ _ = (_, Ok _) => apply gets_ok in H; destruct H; subst
  | lift _ _ = (_, Ok _) => apply lift_ok in H; destruct H as [? H]; subst
  | reads _ _ = (_, Ok _) => apply reads_ok in H; destruct H as [? H]; subst
  | raise _ _ = (_, Ok _) => destruct (raise_ok _ _ _ _ H)
  | assert_ _ _ = (_, Ok _) => apply assert_ok in H; destruct H as [H ?]; subst
  | getT _ _ = _ => unfold getT in H; rinv1 H
  | getD _ = _ => unfold getD in H; rinv1 H
  | getP _ = _ => unfold getP in H; rinv1 H
  | modT _ _ _ = (_, Ok _) => rewrite modT_run in H; injection H as <- <-
  | modD _ _ = (_, Ok _) => rewrite modD_run in H; injection H as <- <-
  | modP _ _ = (_, Ok _) => rewrite modP_run in H; injection H as <- <-
  | (let '(a, b) := ?x in _) _ = _ => let a := fresh "x" in let b := fresh "y" in let E := fresh "E" in
       destruct x as [a b] eqn:E; rinv1 H
  | _ => idtac
  end.
Ltac rinv H := rinv1 H.

(** one step, with names *)
Tactic Notation "rb" ident(H) "as" ident(s1) ident(a) ident(H1) :=
  apply bind_ok in H; destruct H as (s1 & a & H1 & H); cbv beta in H.
(** a step that reads the state *)
Ltac rg H := match type of H with
  | bind (getT ?i) ?k ?s = ?rr => change (k (tget i s) s = rr) in H; cbv beta in H
  | bind getP ?k ?s = ?rr => change (k (s_prs s) s = rr) in H; cbv beta in H
  | bind getD ?k ?s = ?rr => change (k (s_doc s) s = rr) in H; cbv beta in H
  | bind (gets ?f) ?k ?s = ?rr => change (k (f s) s = rr) in H; cbv beta in H
  | bind (modT ?i ?f) ?k ?s = ?rr => change (k tt (hmod i f s) = rr) in H; cbv beta in H
  | bind (modD ?f) ?k ?s = ?rr => change (k tt (dmod f s) = rr) in H; cbv beta in H
  | bind (modP ?f) ?k ?s = ?rr => change (k tt (pmod f s) = rr) in H; cbv beta in H
  | bind (ret ?a) ?k ?s = ?rr => change (k a s = rr) in H; cbv beta in H
  | bind (lift (Ok ?a)) ?k ?s = ?rr => change (k a s = rr) in H; cbv beta in H
  end.

(** ** Names of terms *)

(** what term_is decides for a lower-case name *)
Definition named_root (r : trec) (n : string) : bool := eqs "root" (t_pt r) && eqs n (t_rt r).

Definition lc_name (r : trec) : Prop := dot_free (t_pt r) /\ lower (t_pt r) = t_pt r /\ lower (t_rt r) = t_rt r.

Lemma term_is_root : forall n, dot_free n -> tidy n -> lower n = n -> n <> "*" ->
  forall r, lc_name r -> term_is r (dotted "root" n) = Ok (named_root r n).
Proof.
  intros n D T L N r (Hd & Hp & Hr). unfold term_is, dotted, named_root.
  rewrite term_is_qualified; [|exact Hd|apply dot_free_iff; reflexivity|exact D|discriminate|apply tidy_iff; split; reflexivity|exact T].
  change (eqs "root" "*") with false. change (lower "root") with "root". rewrite Hp, Hr, L.
  apply eqs_false in N. rewrite N. reflexivity.
Qed.
Lemma term_is_bare : forall n, dot_free n -> tidy n -> lower n = n -> n <> "*" ->
  forall r, lc_name r -> term_is r n = Ok (named_root r n).
Proof.
  intros n D T L N r (Hd & Hp & Hr). unfold term_is, named_root. rewrite term_is_plain by assumption.
  rewrite Hp, Hr, L. apply eqs_false in N. rewrite N. rewrite eqs_sym. reflexivity.
Qed.

Ltac ti := intros r H; first
  [apply (term_is_bare _); [apply dot_free_iff; reflexivity|apply tidy_iff; split; reflexivity|reflexivity|discriminate|exact H]].
Lemma is_header_eq : forall r, lc_name r -> term_is r "root.header" = Ok (named_root r "header").
Proof. intros r H. apply (term_is_root "header"); [apply dot_free_iff; reflexivity|apply tidy_iff; split; reflexivity|reflexivity|discriminate|exact H]. Qed.
Lemma is_section_eq : forall r, lc_name r -> term_is r "root.section" = Ok (named_root r "section").
Proof. intros r H. apply (term_is_root "section"); [apply dot_free_iff; reflexivity|apply tidy_iff; split; reflexivity|reflexivity|discriminate|exact H]. Qed.
Lemma is_root_eq : forall r, lc_name r -> term_is r "root.root" = Ok (named_root r "root").
Proof. intros r H. apply (term_is_root "root"); [apply dot_free_iff; reflexivity|apply tidy_iff; split; reflexivity|reflexivity|discriminate|exact H]. Qed.
Lemma is_section_bare : forall r, lc_name r -> term_is r "section" = Ok (named_root r "section").
Proof. ti. Qed.
Lemma is_header_bare : forall r, lc_name r -> term_is r "header" = Ok (named_root r "header").
Proof. ti. Qed.
Lemma is_include_bare : forall r, lc_name r -> term_is r "include" = Ok (named_root r "include").
Proof. ti. Qed.
Lemma is_declare_bare : forall r, lc_name r -> term_is r "declare" = Ok (named_root r "declare").
Proof. ti. Qed.

(** ** Renaming *)

Definition renamed (pm : list string) (n : string) : string :=
  match py_int n with
  | Some z => match pindex z pm with Some c => c | None => n end
  | None => n
  end.

Lemma rename_run : forall t s, synonyms (p_dterms (s_prs s)) = [] ->
  rename_term t s = (hmod t (fun r => set_t_rt (renamed (p_pmap (s_prs s)) (t_rt r)) r) s, Ok tt).
Proof.
  intros t s H. unfold rename_term, getT, getP, bind, gets. rewrite H. cbn [dget ret].
  assert (E : forall n, n = t_rt (tget t s) -> hmod t (fun r => set_t_rt n r) s = s).
  { intros n ->. apply hmod_id. destruct (tget t s). reflexivity. }
  unfold renamed. destruct (py_int (t_rt (tget t s))) as [z|] eqn:Z.
  - destruct (pindex z (p_pmap (s_prs s))) eqn:I.
    + rewrite modT_run. f_equal. unfold hmod. rewrite Z, I. reflexivity.
    + unfold ret. f_equal. symmetry. apply hmod_id. rewrite Z, I. destruct (tget t s); reflexivity.
  - unfold ret. f_equal. symmetry. apply hmod_id. rewrite Z. destruct (tget t s); reflexivity.
Qed.

