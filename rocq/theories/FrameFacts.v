(** * FrameFacts: what a computation leaves alone

    [pres R m]: every run of [m], successful or not, relates the states before
    and after by [R]. *)

From Verif Require Import ListFacts StrFacts HeapFacts Ops RunFacts.

Definition pres {A} (R : st -> st -> Prop) (m : MM A) : Prop := forall s s' r, m s = (s', r) -> R s s'.

Definition preorder (R : st -> st -> Prop) : Prop := (forall s, R s s) /\ (forall a b c, R a b -> R b c -> R a c).

Section Pres.
  Variable R : st -> st -> Prop.
  Hypothesis PO : preorder R.

  Lemma pres_ret : forall {A} (a : A), pres R (ret a).
  Proof. intros A a s s' r H. injection H as <- _. apply PO. Qed.
  Lemma pres_raise : forall {A} e, pres R (raise e : MM A).
  Proof. intros A e s s' r H. injection H as <- _. apply PO. Qed.
  Lemma pres_lift : forall {A} (x : res A), pres R (lift x).
  Proof. intros A x s s' r H. destruct x; injection H as <- _; apply PO. Qed.
  Lemma pres_gets : forall {A} (f : st -> A), pres R (gets f).
  Proof. intros A f s s' r H. injection H as <- _. apply PO. Qed.
  Lemma pres_reads : forall {A} (f : st -> res A), pres R (reads f).
  Proof. intros A f s s' r H. unfold reads in H. destruct (f s); injection H as <- _; apply PO. Qed.
  Lemma pres_assert : forall b, pres R (assert_ b).
  Proof. intros b s s' r H. destruct b; injection H as <- _; apply PO. Qed.
  Lemma pres_bind : forall {A B} (m : MM A) (f : A -> MM B), pres R m -> (forall a, pres R (f a)) -> pres R (bind m f).
  Proof.
    intros A B m f Hm Hf s s' r H. unfold bind in H. destruct (m s) as [s1 [a|e]] eqn:E.
    - apply PO with s1; [eapply Hm; exact E|eapply Hf; exact H].
    - injection H as <- _. eapply Hm. exact E.
  Qed.
  (** the continuation only matters for what is read *)
  Lemma pres_getT : forall {A} i (f : trec -> MM A), (forall r, pres R (f r)) -> pres R (bind (getT i) f).
  Proof. intros A i f H. apply pres_bind; [apply pres_gets|exact H]. Qed.
  Lemma pres_when : forall b (m : MM unit), pres R m -> pres R (when b m).
  Proof. intros b m H. destruct b; [exact H|apply pres_ret]. Qed.
  Lemma pres_mapM : forall {A} (f : A -> MM unit) l, (forall a, In a l -> pres R (f a)) -> pres R (mapM_ f l).
  Proof.
    intros A f l. induction l as [|x l IH]; intros H; [apply pres_ret|]. cbn [mapM_]. apply pres_bind; [apply H; left; reflexivity|].
    intros _. apply IH. intros a I. apply H. right. exact I.
  Qed.
  Lemma pres_modT : forall i f, (forall s, R s (hmod i f s)) -> pres R (modT i f).
  Proof. intros i f H s s' r E. injection E as <- _. apply H. Qed.
  Lemma pres_modD : forall f, (forall s, R s (dmod f s)) -> pres R (modD f).
  Proof. intros f H s s' r E. injection E as <- _. apply H. Qed.
  Lemma pres_modP : forall f, (forall s, R s (pmod f s)) -> pres R (modP f).
  Proof. intros f H s s' r E. injection E as <- _. apply H. Qed.
End Pres.

Lemma hmod_out : forall j f s, hlen s <= j -> hmod j f s = s.
Proof.
  intros j f s H. unfold hmod. assert (E : upd j (f (tget j s)) (s_heap s) = s_heap s).
  { unfold hlen in H. revert H. generalize (f (tget j s)). intros x. revert j. induction (s_heap s) as [|y l IH]; intros j H; [destruct j; reflexivity|].
    destruct j; [cbn in H; lia|]. cbn [upd]. f_equal. apply IH. cbn in H. lia. }
  rewrite E. destruct s. reflexivity.
Qed.

(** a field of a term that an update leaves alone *)
Lemma field_hmod : forall {A} (f : trec -> A) i j g s, (forall r, f (g r) = f r) -> f (tget i (hmod j g s)) = f (tget i s).
Proof.
  intros A f i j g s H. destruct (Nat.ltb_spec j (hlen s)) as [L|L].
  - rewrite tget_hmod by exact L. destruct (Nat.eqb_spec i j) as [->|]; [apply H|reflexivity].
  - rewrite hmod_out by exact L. reflexivity.
Qed.

Definition keeps {A} (f : trec -> A) (i : nat) (s s' : st) : Prop := f (tget i s') = f (tget i s).
Lemma keeps_po : forall {A} (f : trec -> A) i, preorder (keeps f i).
Proof. intros A f i. split; unfold keeps; congruence. Qed.
Lemma keeps_modT : forall {A} (f : trec -> A) i j g, (forall r, f (g r) = f r) -> pres (keeps f i) (modT j g).
Proof. intros. apply pres_modT. intros s. apply field_hmod. exact H. Qed.

Ltac pres1 :=
  match goal with
  | |- forall _, _ => intro
  | |- pres _ (bind _ _) => apply pres_bind; [auto using keeps_po| |]
  | |- pres _ (ret _) => apply pres_ret; auto using keeps_po
  | |- pres _ (raise _) => apply pres_raise; auto using keeps_po
  | |- pres _ (lift _) => apply pres_lift; auto using keeps_po
  | |- pres _ (gets _) => apply pres_gets; auto using keeps_po
  | |- pres _ (getT _) => apply pres_gets; auto using keeps_po
  | |- pres _ getD => apply pres_gets; auto using keeps_po
  | |- pres _ getP => apply pres_gets; auto using keeps_po
  | |- pres _ (reads _) => apply pres_reads; auto using keeps_po
  | |- pres _ (assert_ _) => apply pres_assert; auto using keeps_po
  | |- pres _ (when _ _) => apply pres_when; [auto using keeps_po|]
  | |- pres _ (mapM_ _ _) => apply pres_mapM; [auto using keeps_po|intros ? _]
  | |- pres (keeps _ _) (modT _ _) => apply keeps_modT; reflexivity
  | |- pres (keeps _ _) (modD _) => apply pres_modD; intro; reflexivity
  | |- pres (keeps _ _) (modP _) => apply pres_modP; intro; reflexivity
  | |- pres _ (if ?b then _ else _) => destruct b
  | |- pres _ (match ?x with _ => _ end) => destruct x
  | |- pres _ (let _ := _ in _) => cbv zeta
  end.
Ltac presa := repeat pres1; try (cbv beta; assumption).

(** the fields set_ownership may change are parent, section and document *)
Lemma pres_ownership : forall R fuel t, preorder R ->
  (forall c a b d s, R s (hmod c (fun q => set_t_doc a (set_t_section b (set_t_parent d q))) s)) -> pres R (set_ownership fuel t).
Proof.
  intros R fuel. induction fuel as [|f IH]; intros t PO H; cbn [set_ownership]; [apply pres_raise; exact PO|].
  apply pres_bind; [exact PO|apply pres_gets; exact PO|]. intros r. apply pres_bind; [exact PO|apply pres_assert; exact PO|].
  intros _. apply pres_mapM; [exact PO|]. intros c _. apply pres_bind; [exact PO|apply pres_modT; intros s; apply H|]. intros _. apply IH; assumption.
Qed.

(** the relation a run establishes *)
Ltac usep R H := match type of H with ?m ?s = _ => let X := fresh "X" in assert (X : pres R m); [|apply X in H; clear X] end.
Lemma modT_inv : forall i f s s' r, modT i f s = (s', r) -> s' = hmod i f s /\ r = Ok tt.
Proof. intros i f s s' r H. rewrite modT_run in H. injection H as <- <-. auto. Qed.
Lemma modD_inv : forall f s s' r, modD f s = (s', r) -> s' = dmod f s /\ r = Ok tt.
Proof. intros f s s' r H. rewrite modD_run in H. injection H as <- <-. auto. Qed.
