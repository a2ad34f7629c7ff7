(** * MFrame: the operations leave the register of classes alone *)

From Verif Require Import HeapFacts Ops RunFacts EmitFacts RowFacts TotalFacts FrameFacts Maint.

Definition samereg (s s' : st) : Prop := s_reg s' = s_reg s.
Lemma samereg_po : preorder samereg.
Proof. split; unfold samereg; congruence. Qed.
Lemma samereg_alloc : forall r, pres samereg (allocT r).
Proof. intros r s s' x H. injection H as <- _. reflexivity. Qed.
Ltac pr1 :=
  match goal with
  | |- forall _, _ => intro
  | |- pres _ (bind _ _) => apply pres_bind; [exact samereg_po| |]
  | |- pres _ (ret _) => apply pres_ret; exact samereg_po
  | |- pres _ (raise _) => apply pres_raise; exact samereg_po
  | |- pres _ (lift _) => apply pres_lift; exact samereg_po
  | |- pres _ (gets _) => apply pres_gets; exact samereg_po
  | |- pres _ (getT _) => apply pres_gets; exact samereg_po
  | |- pres _ getD => apply pres_gets; exact samereg_po
  | |- pres _ getP => apply pres_gets; exact samereg_po
  | |- pres _ (reads _) => apply pres_reads; exact samereg_po
  | |- pres _ (assert_ _) => apply pres_assert; exact samereg_po
  | |- pres _ (allocT _) => apply samereg_alloc
  | |- pres _ (when _ _) => apply pres_when; [exact samereg_po|]
  | |- pres _ (mapM_ _ _) => apply pres_mapM; [exact samereg_po|intros ? _]
  | |- pres _ (modT _ _) => apply pres_modT; intro; reflexivity
  | |- pres _ (modD _) => apply pres_modD; intro; reflexivity
  | |- pres _ (modP _) => apply pres_modP; intro; reflexivity
  | |- pres _ (set_ownership _ _) => apply pres_ownership; [exact samereg_po|intros; reflexivity]
  | |- pres _ (if ?b then _ else _) => destruct b
  | |- pres _ (match ?x with _ => _ end) => destruct x
  | |- pres _ (let _ := _ in _) => cbv zeta
  end.
Ltac pr := repeat (cbv beta; pr1).

Lemma reg_construct : forall c term value args row col ftype parent doc section, pres samereg (construct c term value args row col ftype parent doc section).
Proof. intros. unfold construct. destruct c; unfold mk_section, mk_plain; pr. Qed.
Lemma reg_new_child0 : forall i term value, pres samereg (new_child0 i term value).
Proof. intros. unfold new_child0. pr. apply reg_construct. Qed.
Lemma reg_new_children : forall i kw, pres samereg (new_children i kw).
Proof. intros. unfold new_children. pr. apply reg_new_child0. Qed.
Lemma reg_add_section : forall sid, pres samereg (add_section sid).
Proof. intros. unfold add_section. pr. Qed.
Lemma reg_add_list : forall t, pres samereg (add_term_list t).
Proof. intros. unfold add_term_list. pr. apply reg_add_section. Qed.
Lemma reg_add_meta : forall t, pres samereg (add_term_meta t).
Proof. intros. unfold add_term_meta. pr. Qed.
Lemma reg_section_add : forall sec t, pres samereg (section_add_term sec t).
Proof. intros. unfold section_add_term, doc_add_term_nosec. pr; first [apply reg_add_list|apply reg_add_meta]. Qed.
Lemma reg_set_child : forall i item v, pres samereg (set_child_item i item v).
Proof. intros. unfold set_child_item, get_or_new_child0, goc_check, remove_child. pr; apply reg_construct. Qed.
Lemma reg_set_section : forall t s, pres samereg (set_section_plain t s).
Proof. intros. unfold set_section_plain. pr. apply reg_set_child. Qed.
Lemma reg_doc_add : forall t, pres samereg (doc_add_term t).
Proof. intros. unfold doc_add_term. pr; first [apply reg_add_list|apply reg_add_section|apply reg_section_add|apply reg_add_meta|apply reg_set_section]. Qed.
Lemma reg_new_term : forall sec term value kw, pres samereg (Ops.new_term sec term value kw).
Proof. intros. unfold Ops.new_term. pr; first [apply reg_construct|apply reg_new_children|apply reg_doc_add]. Qed.
