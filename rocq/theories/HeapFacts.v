(** * HeapFacts: the monad, the heap and the dicts *)

From Verif Require Import StrFacts State.

(** ** Inversion of monadic runs *)

Section Inv.
  Context {S : Type}.
  Implicit Types s : S.

  Lemma bind_ok : forall {A B} (m : M S A) (f : A -> M S B) s s' b,
    bind m f s = (s', Ok b) -> exists s1 a, m s = (s1, Ok a) /\ f a s1 = (s', Ok b).
  Proof. intros A B m f s s' b H. unfold bind in H. destruct (m s) as [s1 [a|e]]; [eauto|discriminate]. Qed.

  Lemma bind_run : forall {A B} (m : M S A) (f : A -> M S B) s s1 a,
    m s = (s1, Ok a) -> bind m f s = f a s1.
  Proof. intros. unfold bind. rewrite H. reflexivity. Qed.

  Lemma bind_err : forall {A B} (m : M S A) (f : A -> M S B) s s1 e,
    m s = (s1, Err e) -> bind m f s = (s1, Err e).
  Proof. intros. unfold bind. rewrite H. reflexivity. Qed.

  Lemma ret_ok : forall {A} (a b : A) s s', ret a s = (s', Ok b) -> s' = s /\ b = a.
  Proof. intros. inversion H. auto. Qed.
  Lemma gets_ok : forall {A} (f : S -> A) s s' b, gets f s = (s', Ok b) -> s' = s /\ b = f s.
  Proof. intros. inversion H. auto. Qed.
  Lemma modify_ok : forall (f : S -> S) s s' b, modify f s = (s', Ok b) -> s' = f s.
  Proof. intros. inversion H. auto. Qed.
  Lemma lift_ok : forall {A} (r : res A) s s' b, lift r s = (s', Ok b) -> s' = s /\ r = Ok b.
  Proof. intros. inversion H. auto. Qed.
  Lemma reads_ok : forall {A} (f : S -> res A) s s' b, reads f s = (s', Ok b) -> s' = s /\ f s = Ok b.
  Proof. intros. inversion H. auto. Qed.
  Lemma raise_ok : forall {A} e s s' (b : A), raise e s = (s', Ok b) -> False.
  Proof. intros. discriminate. Qed.
  Lemma assert_ok : forall b s s' u, assert_ b s = (s', Ok u) -> b = true /\ s' = s.
  Proof. intros. destruct b; inversion H. auto. Qed.
End Inv.

(** ** Association lists *)

Lemma dget_dset_same : forall {A} k (v : A) d, dget k (dset k v d) = Some v.
Proof.
  induction d as [|[k' v'] d IH]; simpl; [rewrite eqs_refl; reflexivity|].
  destruct (eqs k k') eqn:E; simpl; rewrite E; [reflexivity|exact IH].
Qed.
Lemma dget_dset_other : forall {A} k k' (v : A) d, k <> k' -> dget k (dset k' v d) = dget k d.
Proof.
  intros A k k' v d Hn. induction d as [|[k2 v2] d IH]; simpl.
  - apply eqs_false in Hn. rewrite Hn. reflexivity.
  - destruct (eqs k' k2) eqn:E; simpl.
    + apply eqs_true in E. subst. apply eqs_false in Hn. rewrite Hn. reflexivity.
    + rewrite IH. reflexivity.
Qed.
Lemma dget_dset : forall {A} k k' (v : A) d,
  dget k (dset k' v d) = if eqs k k' then Some v else dget k d.
Proof.
  intros. eqs_cases k k'; [subst; apply dget_dset_same|apply dget_dset_other; assumption].
Qed.
Lemma dkeys_dset : forall {A} k (v : A) d,
  dkeys (dset k v d) = if dmem k d then dkeys d else dkeys d ++ [k].
Proof.
  unfold dkeys, dmem. induction d as [|[k' v'] d IH]; simpl; [reflexivity|].
  destruct (eqs k k') eqn:E; simpl; [reflexivity|].
  destruct (dget k d); simpl in *; rewrite IH; reflexivity.
Qed.
Lemma dset_absent : forall {A} k (v : A) d, dget k d = None -> dset k v d = d ++ [(k, v)].
Proof.
  induction d as [|[k' v'] d IH]; simpl; intros H; [reflexivity|].
  destruct (eqs k k'); [discriminate|]. rewrite IH by exact H. reflexivity.
Qed.
Lemma dget_none : forall {A} k (d : dict A), dget k d = None <-> ~ In k (dkeys d).
Proof.
  unfold dkeys. induction d as [|[k' v'] d IH]; simpl; [tauto|].
  destruct (eqs k k') eqn:E.
  - apply eqs_true in E. subst. split; [discriminate|]. intros H. exfalso. apply H. left. reflexivity.
  - apply eqs_false in E. rewrite IH. split; [|tauto]. intros H [H1|H1]; [congruence|auto].
Qed.
Lemma dget_in : forall {A} k (v : A) d, dget k d = Some v -> In (k, v) d.
Proof.
  induction d as [|[k' v'] d IH]; simpl; [discriminate|]. destruct (eqs k k') eqn:E.
  - apply eqs_true in E. subst. intros H. injection H as ->. left. reflexivity.
  - auto.
Qed.
Lemma dget_some : forall {A} k (v : A) d, NoDup (dkeys d) -> (dget k d = Some v <-> In (k, v) d).
Proof.
  intros A k v d Hn. split; [apply dget_in|].
  unfold dkeys in Hn. induction d as [|[k' v'] d IH]; simpl in *; [tauto|]. inversion Hn; subst.
  intros [H|H].
  - inversion H; subst. rewrite eqs_refl. reflexivity.
  - eqs_cases k k'; [|auto]. subst. exfalso. apply H1. apply in_map_iff. exists (k', v). auto.
Qed.
Lemma dget_app : forall {A} k (d e : dict A), dget k (d ++ e) = match dget k d with Some v => Some v | None => dget k e end.
Proof. induction d as [|[k' v'] d IH]; simpl; intros; [reflexivity|]. destruct (eqs k k'); auto. Qed.

Lemma nodup_dset : forall {A} k (v : A) d, NoDup (dkeys d) -> NoDup (dkeys (dset k v d)).
Proof.
  intros A k v d H. rewrite dkeys_dset. unfold dmem. destruct (dget k d) eqn:E; [exact H|].
  apply dget_none in E. rewrite <- (rev_involutive (dkeys d ++ [k])). apply NoDup_rev. rewrite rev_app_distr. simpl.
  constructor; [rewrite <- in_rev; exact E|apply NoDup_rev; exact H].
Qed.

Lemma dkeys_ddel : forall {A} k (d : dict A), NoDup (dkeys d) ->
  dkeys (ddel k d) = filter (fun x => negb (eqs k x)) (dkeys d).
Proof.
  unfold dkeys. induction d as [|[k' v'] d IH]; simpl; intros H; [reflexivity|]. inversion H; subst.
  destruct (eqs k k') eqn:E; simpl.
  - apply eqs_true in E. subst. symmetry. clear IH H H3. induction d as [|[k2 v2] d IH]; simpl; [reflexivity|].
    simpl in H2. destruct (eqs k' k2) eqn:E; [apply eqs_true in E; subst; exfalso; apply H2; left; reflexivity|].
    simpl. rewrite IH; [reflexivity|]. tauto.
  - rewrite IH by assumption. reflexivity.
Qed.
Lemma ddel_filter : forall {A} k (d : dict A), NoDup (dkeys d) ->
  ddel k d = filter (fun kv => negb (eqs k (fst kv))) d.
Proof.
  unfold dkeys. induction d as [|[k' v'] d IH]; simpl; intros H; [reflexivity|]. inversion H; subst.
  destruct (eqs k k') eqn:E; simpl.
  - apply eqs_true in E. subst. symmetry. clear IH H H3. induction d as [|[k2 v2] d IH]; simpl; [reflexivity|].
    simpl in H2. destruct (eqs k' k2) eqn:E; [apply eqs_true in E; subst; exfalso; apply H2; left; reflexivity|].
    simpl. rewrite IH; [reflexivity|]. tauto.
  - rewrite IH by assumption. reflexivity.
Qed.

(** ** Heap *)

Lemma upd_length : forall {A} i (x : A) l, List.length (upd i x l) = List.length l.
Proof. induction i; destruct l; simpl; auto. Qed.
Lemma nth_upd_same : forall {A} i (x d : A) l, i < List.length l -> nth i (upd i x l) d = x.
Proof. induction i; destruct l; simpl; intros; try lia; auto. apply IHi. lia. Qed.
Lemma nth_upd_other : forall {A} i j (x d : A) l, i <> j -> nth j (upd i x l) d = nth j l d.
Proof. induction i; destruct l; simpl; intros; auto; destruct j; auto; try congruence. Qed.
Lemma upd_out : forall {A} i (x : A) l, List.length l <= i -> upd i x l = l.
Proof. induction i; destruct l; simpl; intros; auto; try lia. rewrite IHi by lia. reflexivity. Qed.

Lemma hget_upd_same : forall i r h, i < List.length h -> hget i (upd i r h) = r.
Proof. intros. unfold hget. apply nth_upd_same. assumption. Qed.
Lemma hget_upd_other : forall i j r h, i <> j -> hget j (upd i r h) = hget j h.
Proof. intros. unfold hget. apply nth_upd_other. assumption. Qed.
Lemma hget_app_old : forall i h h', i < List.length h -> hget i (h ++ h') = hget i h.
Proof. intros. unfold hget. apply app_nth1. assumption. Qed.
Lemma hget_app_new : forall h r, hget (List.length h) (h ++ [r]) = r.
Proof. intros. unfold hget. rewrite app_nth2 by lia. rewrite Nat.sub_diag. reflexivity. Qed.
Lemma hget_out : forall i h, List.length h <= i -> hget i h = dummy_t.
Proof. intros. unfold hget. apply nth_overflow. assumption. Qed.

(** [minv H]: take a successful run apart *)
Ltac minv1 H :=
  match type of H with
  | bind _ _ _ = (_, Ok _) =>
      let s1 := fresh "s" in let a := fresh "a" in let H1 := fresh "H" in let H2 := fresh "H" in
      apply bind_ok in H; destruct H as (s1 & a & H1 & H2); cbv beta in H2; minv1 H1; minv1 H2
  | ret _ _ = (_, Ok _) => apply ret_ok in H; destruct H; subst
  | gets _ _ = (_, Ok _) => apply gets_ok in H; destruct H; subst
  | modify _ _ = (_, Ok _) => apply modify_ok in H; subst
  | lift _ _ = (_, Ok _) => apply lift_ok in H; destruct H as [? H]; subst
  | reads _ _ = (_, Ok _) => apply reads_ok in H; destruct H as [? H]; subst
  | raise _ _ = (_, Ok _) => destruct (raise_ok _ _ _ _ H)
  | assert_ _ _ = (_, Ok _) => apply assert_ok in H; destruct H as [H ?]; subst
  | getT _ _ = _ => unfold getT in H; minv1 H
  | getD _ = _ => unfold getD in H; minv1 H
  | getP _ = _ => unfold getP in H; minv1 H
  | modT _ _ _ = _ => unfold modT in H; minv1 H
  | modD _ _ = _ => unfold modD in H; minv1 H
  | modP _ _ = _ => unfold modP in H; minv1 H
  | putT _ _ _ = _ => unfold putT in H; minv1 H
  | (let '(a, b) := ?x in _) _ = _ => let a := fresh "x" in let b := fresh "y" in let E := fresh "E" in
       destruct x as [a b] eqn:E; minv1 H
  | _ => idtac
  end.
Ltac minv H := minv1 H.

Lemma alloc_ok : forall r s s' i, allocT r s = (s', Ok i) ->
  i = List.length (s_heap s) /\ s' = set_s_heap (s_heap s ++ [r]) s.
Proof. intros. inversion H. auto. Qed.
