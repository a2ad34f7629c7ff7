(** * ListFacts: generic lemmas about lists *)

From Coq Require Import List Lia Permutation.
Import ListNotations.

Lemma NoDup_app_intro : forall {A} (a b : list A), NoDup a -> NoDup b ->
  (forall x, In x a -> In x b -> False) -> NoDup (a ++ b).
Proof.
  induction a; intros b Ha Hb D; [exact Hb|]. inversion Ha; subst. cbn. constructor.
  - rewrite in_app_iff. intros [I|I]; [tauto|]. eapply D; [left; reflexivity|exact I].
  - apply IHa; auto. intros x I1 I2. eapply D; [right; exact I1|exact I2].
Qed.

Lemma NoDup_app_elim : forall {A} (a b : list A), NoDup (a ++ b) ->
  NoDup a /\ NoDup b /\ (forall x, In x a -> In x b -> False).
Proof.
  induction a; intros b H; cbn in H; [repeat split; auto; constructor|].
  inversion H as [|? ? H1 H2]; subst. destruct (IHa b H2) as (I1 & I2 & I3). rewrite in_app_iff in H1.
  split; [constructor; tauto|]. split; [exact I2|]. intros x [<-|I] J; [tauto|eauto].
Qed.

Lemma filter_none : forall {A} (f : A -> bool) l, (forall x, In x l -> f x = false) -> filter f l = [].
Proof.
  induction l as [|a l IH]; intros H; [reflexivity|]. cbn. rewrite H by (left; reflexivity). apply IH.
  intros x Hx. apply H. right. exact Hx.
Qed.
