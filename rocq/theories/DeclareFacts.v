(** * DeclareFacts: the declarations of a document after a load *)

From Verif Require Import ListFacts StrFacts DictFacts HeapFacts OrderFacts PackFacts Parser RunFacts FrameFacts ParseFacts SpecKept GrowFacts.

Lemma dget_dict_of : forall {A} (d : dict A) k, NoDup (dkeys d) -> dget k (dict_of d) = dget k d.
Proof.
  intros A d k N. unfold dict_of. rewrite dupdate_disjoint; [reflexivity|exact N|]. intros; intros [].
Qed.
Lemma dget_newer : forall {A} (e d : dict A) k, NoDup (dkeys e) -> dget k (dupdate d e) = first_of (dget k e) (dget k d).
Proof. intros A e d k N. rewrite dget_dupdate. rewrite dget_dict_of by exact N. destruct (dget k e); reflexivity. Qed.

Lemma distinct_started : forall s, distinct (started s).
Proof.
  intros s. split; cbn.
  all: repeat (constructor; [intros X; cbn in X; repeat (destruct X as [X|X]; [discriminate X|]); exact X|]); constructor.
Qed.

(** what load1 does to the tables *)
Lemma load_decls : forall e n src s s', load_source e n src s = (s', Ok tt) ->
  forall k, dget k (d_decl_terms (s_doc s')) = first_of (dget k (p_dterms (s_prs s'))) (dget k (d_decl_terms (s_doc s)))
    /\ dget k (d_decl_sections (s_doc s')) = first_of (dget k (p_dsecs (s_prs s'))) (dget k (d_decl_sections (s_doc s))).
Proof.
  intros e n src s s' H k. unfold load_source in H. rb H as s1 u H1. unfold start_parser in H1. apply modify_ok in H1. subst s1.
  fold (started s) in H. rg H. rb H as s2 u2 H2. rb H as s3 u3 H3.
  assert (D2 : distinct s2 /\ kept (started s) s2).
  { apply (w_load1 (fun a b => (distinct a -> distinct b) /\ kept a b)) in H2.
    - destruct H2 as [A B]. split; [apply A; apply distinct_started|exact B].
    - split; [intros x; split; [auto|apply kept_po]|intros x y z [A B] [C D]; split; [auto|eapply kept_po; eassumption]].
    - intros r x. split; [auto|apply kept_push].
    - intros i f x Hx. split; [auto|apply kept_hmod; exact Hx].
    - intros f x Hx. split; [auto|apply kept_dmod; exact Hx].
    - intros i nm x Hx. split; [auto|apply kept_sec; exact Hx]. }
  destruct D2 as [D2 K2]. pose proof (distinct_generate _ _ _ _ _ _ _ _ H3 D2) as [DA DB].
  apply kept_generate in H3. pose proof (proj2 kept_po _ _ _ K2 H3) as K. destruct (kp_decls _ _ K) as [KA KB].
  unfold finish_load, getP, bind, gets in H. rewrite !modD_run in H. injection H as <-. cbn.
  rewrite !dget_newer by assumption. rewrite KA, KB. split; reflexivity.
Qed.

Lemma loaded_decls : forall e n decls s s', decls <> [] -> load_declarations e n decls s = (s', Ok tt) ->
  forall k, dget k (d_decl_terms (s_doc s')) = first_of (dget k (p_dterms (s_prs s'))) (dget k (d_decl_terms (s_doc s)))
    /\ dget k (d_decl_sections (s_doc s')) = first_of (dget k (p_dsecs (s_prs s'))) (dget k (d_decl_sections (s_doc s))).
Proof.
  intros e n decls s s' ND H k. destruct decls as [|d0 decls]; [congruence|]. unfold load_declarations in H.
  rb H as sa found Hf. apply reads_ok in Hf. destruct Hf as [-> _]. rg H. cbv zeta in H.
  rb H as s1 u H1. unfold start_parser in H1. apply modify_ok in H1. subst s1. fold (started s) in H.
  rb H as s2 u2 H2. rg H. rewrite modD_run in H. injection H as <-.
  pose proof (distinct_generate _ _ _ _ _ _ _ _ H2 (distinct_started s)) as [DA DB].
  apply kept_generate in H2. destruct (kp_decls _ _ H2) as [KA KB]. cbn.
  rewrite !dget_newer by assumption. rewrite KA, KB. split; reflexivity.
Qed.

Lemma opened_decls : forall e n decls src s s1 s2, decls <> [] ->
  load_declarations e n decls s = (s1, Ok tt) -> load_source e n src s1 = (s2, Ok tt) ->
  open_doc e n decls src s = (s2, Ok tt) /\ forall k,
    dget k (d_decl_terms (s_doc s2)) = first_of (dget k (p_dterms (s_prs s2))) (first_of (dget k (p_dterms (s_prs s1))) (dget k (d_decl_terms (s_doc s))))
    /\ dget k (d_decl_sections (s_doc s2)) = first_of (dget k (p_dsecs (s_prs s2))) (first_of (dget k (p_dsecs (s_prs s1))) (dget k (d_decl_sections (s_doc s)))).
Proof.
  intros e n decls src s s1 s2 ND H1 H2. split; [unfold open_doc, bind; rewrite H1; exact H2|]. intros k.
  destruct (load_decls _ _ _ _ _ H2 k) as [-> ->]. destruct (loaded_decls _ _ _ _ _ ND H1 k) as [-> ->]. split; reflexivity.
Qed.
