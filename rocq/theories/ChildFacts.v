(** * ChildFacts: what the operations on children of a term do, whatever their outcome *)

From Verif Require Import ListFacts StrFacts HeapFacts SpecNames NameFacts Ops ConstructFacts RunFacts EmitFacts RowFacts TotalFacts FrameFacts SpecInv InvFacts.

(** take a run apart whatever its outcome: [H] becomes the last step, failures
    of earlier steps become separate goals *)
Lemma bind_any : forall {S A B} (m : M S A) (f : A -> M S B) s s' r, bind m f s = (s', r) ->
  (exists e, m s = (s', Err e) /\ r = Err e) \/ (exists s1 a, m s = (s1, Ok a) /\ f a s1 = (s', r)).
Proof.
  intros S A B m f s s' r H. unfold bind in H. destruct (m s) as [s1 [a|e]] eqn:E.
  - right. exists s1, a. auto.
  - injection H as <- <-. left. exists e. auto.
Qed.
Tactic Notation "ra" ident(H) "as" ident(s1) ident(a) ident(H1) :=
  apply bind_any in H; destruct H as [(? & H1 & H)|(s1 & a & H1 & H)]; [|cbv beta in H].

Section WithQuirks.
Context {QK : Quirks}.

Lemma lift_any : forall {S A} (x : res A) (s s' : S) r, lift x s = (s', r) -> s' = s /\ r = x.
Proof. intros S A x s s' r H. injection H as <- <-. auto. Qed.
Lemma assert_any : forall {S} b (s s' : S) r, assert_ b s = (s', r) -> s' = s /\ (r = Ok tt /\ b = true \/ r = Err EAssert).
Proof. intros S b s s' r H. destruct b; injection H as <- <-; auto. Qed.

Definition failed {A} (r : res A) : Prop := exists e, r = Err e.

Lemma mk_plain_any : forall c term value args row col ftype parent doc section s s' r,
  mk_plain c term value args row col ftype parent doc section s = (s', r) ->
  (s' = s /\ failed r) \/
  exists p n, term_names (s_heap s) parent term = Ok (p, n)
    /\ (forall j, parent = Some j -> lower (t_rt (tget j s)) = lower p)
    /\ r = Ok (hlen s) /\ s' = push (fresh_plain c term p n value args row col ftype parent doc section) s.
Proof.
  intros until r. intros H. destruct r as [i|e].
  - apply mk_plain_ok in H. destruct H as (p & n & H1 & H2 & -> & ->). right. exists p, n. repeat (split; [assumption||reflexivity|]). reflexivity.
  - left. split; [|exists e; reflexivity]. unfold mk_plain in H. ra H as s1 h H1; [discriminate H1|]. apply gets_ok in H1. destruct H1 as [-> ->].
    ra H as s1 x H1; [apply lift_any in H1; tauto|]. apply lift_any in H1. destruct H1 as [-> _]. destruct x as [p n].
    ra H as s1 u H1; [apply assert_any in H1; tauto|]. apply assert_any in H1. destruct H1 as [-> _]. discriminate H.
Qed.

Lemma construct_child : forall c term value args row col ftype i doc section s s' r,
  construct c term value args row col ftype (Some i) doc section s = (s', r) ->
  (s' = s /\ failed r) \/
  exists p n, is_section_cls c = false /\ term_names (s_heap s) (Some i) term = Ok (p, n) /\ lower (t_rt (tget i s)) = lower p
    /\ r = Ok (hlen s) /\ s' = push (fresh_plain c term p n value args row col ftype (Some i) doc section) s.
Proof.
  intros until r. intros H.
  destruct c; cbn in H; try (injection H as <- <-; left; split; [reflexivity|eexists; reflexivity]);
    (apply mk_plain_any in H; destruct H as [H|(p & n & H1 & H2 & H3 & H4)]; [left; exact H|right; exists p, n; auto]).
Qed.
Lemma construct_in_section : forall c term value args row col ftype doc sec s s' r,
  construct c term value args row col ftype None doc (Some sec) s = (s', r) ->
  (s' = s /\ failed r) \/
  exists p n, is_section_cls c = false /\ cell_names term p n
    /\ r = Ok (hlen s) /\ s' = push (fresh_plain c term p n value args row col ftype None doc (Some sec)) s.
Proof.
  intros until r. intros H.
  assert (P : mk_plain c term value args row col ftype None doc (Some sec) s = (s', r) -> is_section_cls c = false -> 
    (s' = s /\ failed r) \/
    exists p n, is_section_cls c = false /\ cell_names term p n
    /\ r = Ok (hlen s) /\ s' = push (fresh_plain c term p n value args row col ftype None doc (Some sec)) s).
  { intros P C. apply mk_plain_any in P. destruct P as [P|(p & n & H1 & _ & H3 & H4)]; [left; exact P|].
    right. exists p, n. apply term_names_ok in H1. destruct H1 as (p0 & H1 & ->). auto. }
  destruct c; cbn in H; auto; (injection H as <- <-; left; split; [reflexivity|eexists; reflexivity]).
Qed.

(** the record of a child made under [i] *)
Definition child_of (s : st) (i : nat) (term : string) (value : val) (R : trec) : Prop :=
  exists c p n tvn, is_section_cls c = false /\ term_names (s_heap s) (Some i) term = Ok (p, n) /\ lower (t_rt (tget i s)) = lower p
    /\ R = set_t_tvn tvn (fresh_plain c term p n value [] None None None (Some i) true (t_section (tget i s))).

Definition text_of (v : val) : val := match v with VNone => VNone | v => VStr (str_val v) end.

(** three outcomes: nothing; an object that belongs to nothing; a new last child *)
Definition grew_child (s : st) (i : nat) (term : string) (value : val) (s' : st) (r : res nat) : Prop :=
  (s' = s /\ failed r)
  \/ exists R, child_of s i term value R
     /\ ((s' = push R s /\ failed r)
         \/ (s' = hmod i (fun q => set_t_children (t_children q ++ [hlen s]) q) (push R s) /\ r = Ok (hlen s))).

Lemma hmod_new : forall f r s, hmod (hlen s) f (push r s) = push (f r) s.
Proof.
  intros f r s. unfold hmod. rewrite push_new. unfold push. cbn [s_heap set_s_heap].
  assert (E : upd (hlen s) (f r) (s_heap s ++ [r]) = s_heap s ++ [f r]).
  { unfold hlen. induction (s_heap s) as [|x l IH]; [reflexivity|]. cbn [List.length upd app]. f_equal. exact IH. }
  rewrite E. reflexivity.
Qed.

Lemma new_child0_any : forall i term value s s' r, new_child0 i term value s = (s', r) -> grew_child s i term (text_of value) s' r.
Proof.
  intros i term value s s' r H. unfold new_child0 in H. rg H.
  ra H as s1 u H1. { left. destruct (t_doc _); [discriminate H1|]. injection H1 as <- _. split; [reflexivity|]. subst. eexists. reflexivity. }
  assert (s1 = s) by (destruct (t_doc _); [injection H1 as <- _; reflexivity|discriminate H1]). subst s1. clear H1 u. rg H.
  ra H as s1 k H1. { apply construct_child in H1. destruct H1 as [[-> _]|(p & n & _ & _ & _ & E & _)]; [|discriminate E]. left. subst. split; [reflexivity|eexists; reflexivity]. }
  apply construct_child in H1. destruct H1 as [[_ [e E]]|(p & n & C & T & L & E & ->)]; [discriminate E|]. injection E as ->. rg H. rg H. rewrite doc_push in H.
  fold (text_of value) in H. set (R0 := fresh_plain _ _ _ _ _ _ _ _ _ _ _ _) in *.
  rewrite hmod_new in H.
  set (R := match dget (tjoin R0) (d_decl_terms (s_doc s)) with
            | Some td => match dget "termvaluename" (td_props td) with Some n0 => set_t_tvn n0 R0 | None => R0 end
            | None => R0 end) in *.
  assert (CH : child_of s i term (text_of value) R).
  { exists (doc_term_class (lower term) s), p, n. unfold R. destruct (dget _ _) as [td|]; [destruct (dget _ _) as [n0|]|].
    - exists n0. auto.
    - exists "@value". auto.
    - exists "@value". auto. }
  right. exists R. split; [exact CH|]. rg H. rewrite push_new in H.
  ra H as s1 b H1. { apply lift_any in H1. destruct H1 as [-> _]. left. subst. split; [reflexivity|eexists; reflexivity]. }
  apply lift_any in H1. destruct H1 as [-> _].
  ra H as s1 u H1. { apply assert_any in H1. destruct H1 as [-> _]. left. subst. split; [reflexivity|eexists; reflexivity]. }
  apply assert_any in H1. destruct H1 as [-> _]. rg H. injection H as <- <-. right. auto.
Qed.

(** ** Good order is kept *)

(** the old objects keep their class, and all lists stay *)
Definition grows (s s' : st) : Prop := hlen s <= hlen s' /\ s_doc s' = s_doc s
  /\ forall i, i < hlen s -> t_cls (tget i s') = t_cls (tget i s) /\ t_parent (tget i s') = t_parent (tget i s)
    /\ t_section (tget i s') = t_section (tget i s) /\ t_pt (tget i s') = t_pt (tget i s) /\ t_rt (tget i s') = t_rt (tget i s)
    /\ (is_section_cls (t_cls (tget i s)) = true -> tget i s' = tget i s)
    /\ (forall j, In i (t_children (tget j s')) -> In i (t_children (tget j s))).
Lemma grows_refl : forall s, grows s s.
Proof. intros s. split; [lia|]. split; [reflexivity|]. auto 10. Qed.
Lemma grows_trans : forall a b c, grows a b -> grows b c -> grows a c.
Proof.
  intros a b c (L1 & D1 & H1) (L2 & D2 & H2). split; [lia|]. split; [congruence|]. intros i Hi.
  destruct (H1 i Hi) as (A & B & C & D & E & F & G). destruct (H2 i ltac:(lia)) as (A' & B' & C' & D' & E' & F' & G').
  split; [congruence|]. split; [congruence|]. split; [congruence|]. split; [congruence|]. split; [congruence|].
  split; [|auto]. intros X. rewrite F', F; auto. rewrite A. exact X.
Qed.
Lemma grows_plain : forall s s' i, grows s s' -> is_plain s i -> is_plain s' i.
Proof. intros s s' i (L & _ & H) [A B]. split; [lia|]. rewrite (proj1 (H i A)). exact B. Qed.
Lemma grows_sec : forall s s' i, grows s s' -> is_sec s i -> is_sec s' i.
Proof. intros s s' i (L & _ & H) [A B]. split; [lia|]. rewrite (proj1 (H i A)). exact B. Qed.

(** what operations on the children of [i] keep *)
Definition tends (i : nat) (s s' : st) : Prop := doc_ok s -> is_plain s i -> doc_ok s' /\ grows s s'.
Lemma tends_po : forall i, preorder (tends i).
Proof.
  intros i. split.
  - intros s K P. split; [exact K|apply grows_refl].
  - intros a b c H1 H2 K P. destruct (H1 K P) as [K1 G1]. destruct (H2 K1 (grows_plain _ _ _ G1 P)) as [K2 G2].
    split; [exact K2|eapply grows_trans; eassumption].
Qed.

Lemma grows_push : forall r s, t_children r = [] -> grows s (push r s).
Proof.
  intros r s CH. split; [rewrite hlen_push; lia|]. split; [apply doc_push|]. intros i Hi. rewrite push_old by exact Hi.
  repeat (split; [reflexivity||auto|]). intros j I. rewrite tget_push_any in I. destruct (j =? hlen s); [rewrite CH in I; destruct I|exact I].
Qed.
Lemma grows_hmod : forall i f s, is_section_cls (t_cls (tget i s)) = false -> 
  (forall c, c < hlen s -> In c (t_children (f (tget i s))) -> In c (t_children (tget i s))) ->
  (forall r, t_cls (f r) = t_cls r /\ t_parent (f r) = t_parent r /\ t_section (f r) = t_section r /\ t_pt (f r) = t_pt r /\ t_rt (f r) = t_rt r) ->
  grows s (hmod i f s).
Proof.
  intros i f s N CH F. split; [rewrite hlen_hmod; lia|]. split; [apply doc_hmod|]. intros j Hj.
  assert (G : forall j', In j (t_children (tget j' (hmod i f s))) -> In j (t_children (tget j' s))).
  { intros j' I. rewrite tget_hmod_any in I. destruct ((j' =? i) && (i <? hlen s)) eqn:E; [|exact I].
    apply andb_true_iff in E. destruct E as [E _]. apply Nat.eqb_eq in E. subst j'. apply CH; assumption. }
  rewrite tget_hmod_any.
  destruct ((j =? i) && (i <? hlen s)) eqn:E; [|auto 10]. apply andb_true_iff in E. destruct E as [E _]. apply Nat.eqb_eq in E. subst j.
  destruct (F (tget i s)) as (A & B & C & D & X). repeat (split; [assumption|]). split; [|exact G]. intros Y. congruence.
Qed.

Lemma child_of_fields : forall s i term value R, child_of s i term value R ->
  is_section_cls (t_cls R) = false /\ t_children R = [] /\ t_parent R = Some i /\ t_section R = t_section (tget i s) /\ t_doc R = true
  /\ lower (t_pt R) = lower (t_rt (tget i s)) /\ t_val R = init_val value /\ t_terms R = [].
Proof. intros s i term value R (c & p & n & tvn & C & T & L & ->). cbn. auto 10. Qed.

Lemma is_plain_hmod : forall s i j f, (forall r, t_cls (f r) = t_cls r) -> is_plain s i -> is_plain (hmod j f s) i.
Proof. intros s i j f F [L C]. split; [rewrite hlen_hmod; exact L|]. rewrite (field_hmod t_cls) by exact F. exact C. Qed.
Lemma is_sec_hmod : forall s i j f, (forall r, t_cls (f r) = t_cls r) -> is_sec s i -> is_sec (hmod j f s) i.
Proof. intros s i j f F [L C]. split; [rewrite hlen_hmod; exact L|]. rewrite (field_hmod t_cls) by exact F. exact C. Qed.

(** appending an object that is nobody's child *)
Lemma tends_append : forall s0 s i k, doc_ok s -> is_plain s i -> i < k -> is_plain s k -> t_parent (tget k s) = Some i ->
  (forall j, ~ In k (t_children (tget j s))) -> hlen s0 <= k -> grows s0 s ->
  doc_ok (hmod i (fun q => set_t_children (t_children q ++ [k]) q) s)
  /\ grows s0 (hmod i (fun q => set_t_children (t_children q ++ [k]) q) s).
Proof.
  intros s0 s i k K P L PK PP N B G. split; [apply ok_add_child; assumption|].
  destruct G as (G1 & G2 & G3). split; [rewrite hlen_hmod; exact G1|]. split; [rewrite doc_hmod; exact G2|].
  intros j Hj. destruct (G3 j Hj) as (A1 & A2 & A3 & A4 & A5 & A6 & A7).
  rewrite (field_hmod t_cls), (field_hmod t_parent), (field_hmod t_section), (field_hmod t_pt), (field_hmod t_rt) by reflexivity.
  repeat (split; [assumption|]). split.
  - intros X. rewrite <- A6 by exact X. rewrite tget_hmod_any. destruct (Nat.eqb_spec j i) as [->|]; [|reflexivity].
    destruct P as [_ P]. rewrite <- A1 in X. congruence.
  - intros j' I. apply A7. rewrite tget_hmod_any in I. destruct ((j' =? i) && (i <? hlen s)) eqn:E; [|exact I].
    apply andb_true_iff in E. destruct E as [E _]. apply Nat.eqb_eq in E. subst j'.
    change (In j (t_children (tget i s) ++ [k])) in I. apply in_app_or in I. destruct I as [I|[<-|[]]]; [exact I|lia].
Qed.

Lemma tends_push : forall s i term value R, doc_ok s -> is_plain s i -> child_of s i term value R ->
  doc_ok (push R s) /\ grows s (push R s) /\ is_plain (push R s) i /\ is_plain (push R s) (hlen s) /\ t_parent (tget (hlen s) (push R s)) = Some i
  /\ (forall j, ~ In (hlen s) (t_children (tget j (push R s)))).
Proof.
  intros s i term value R K P CH.
  destruct (child_of_fields _ _ _ _ _ CH) as (C1 & C2 & C3 & C4 & C5 & C6 & C7 & C8).
  split. { apply ok_push; [exact K|exact C2|]. rewrite C1, C4. destruct (ok_plain s K i P) as (j & A & B). exists j. auto. }
  split; [apply grows_push; exact C2|]. split; [apply is_plain_push; exact P|].
  split; [split; [rewrite hlen_push; lia|rewrite push_new; exact C1]|]. split; [rewrite push_new; exact C3|].
  intros j I. rewrite tget_push_any in I. destruct (Nat.eqb_spec j (hlen s)); [rewrite C2 in I; destruct I|].
  destruct (ok_child s K _ _ I) as (_ & [A _] & _). lia.
Qed.

Lemma grew_child_tends : forall s i term value s' r, grew_child s i term value s' r -> tends i s s'.
Proof.
  intros s i term value s' r H K P. destruct H as [[-> _]|(R & CH & H)]; [split; [exact K|apply grows_refl]|].
  destruct (tends_push s i term value R K P CH) as (A1 & A2 & A3 & A4 & A5 & A6).
  destruct H as [[-> _]|[-> _]]; [auto|]. apply tends_append; auto. destruct P. assumption.
Qed.

Lemma new_child0_tends : forall i term value, pres (tends i) (new_child0 i term value).
Proof. intros i term value s s' r H. eapply grew_child_tends. eapply new_child0_any. exact H. Qed.

Lemma new_children_tends : forall i kw, pres (tends i) (new_children i kw).
Proof.
  intros i kw. unfold new_children. apply pres_mapM; [apply tends_po|]. intros kv _. apply pres_bind; [apply tends_po|apply new_child0_tends|].
  intros a. apply pres_ret. apply tends_po.
Qed.

(** fields of a plain term outside [core] *)
Lemma tends_mod : forall s i f, doc_ok s -> is_section_cls (t_cls (tget i s)) = false ->
  (forall r, t_cls (f r) = t_cls r /\ t_parent (f r) = t_parent r /\ t_section (f r) = t_section r /\ t_pt (f r) = t_pt r /\ t_rt (f r) = t_rt r
             /\ t_children (f r) = t_children r) ->
  doc_ok (hmod i f s) /\ grows s (hmod i f s).
Proof.
  intros s i f K N F. split.
  - apply ok_hmod; [|apply F|intros X; congruence|exact K]. intros r. destruct (F r) as (A & B & C & D & E & G). auto.
  - apply grows_hmod; [exact N| |].
    + intros c _ I. rewrite (proj2 (proj2 (proj2 (proj2 (proj2 (F _)))))) in I. exact I.
    + intros r. destruct (F r) as (A & B & C & D & E & G). auto.
Qed.

Definition set_declared_tvn (d : docrec) (q : trec) : trec :=
  match dget (tjoin q) (d_decl_terms d) with
  | Some td => match dget "termvaluename" (td_props td) with Some n => set_t_tvn n q | None => q end
  | None => q
  end.
Lemma declared_tvn_fields : forall d q, t_cls (set_declared_tvn d q) = t_cls q /\ t_parent (set_declared_tvn d q) = t_parent q
  /\ t_section (set_declared_tvn d q) = t_section q /\ t_pt (set_declared_tvn d q) = t_pt q /\ t_rt (set_declared_tvn d q) = t_rt q
  /\ t_children (set_declared_tvn d q) = t_children q.
Proof. intros d q. unfold set_declared_tvn. destruct (dget _ _) as [td|]; [destruct (dget _ _)|]; auto 10. Qed.

Lemma new_child_tends : forall i term value kw, pres (tends i) (new_child i term value kw).
Proof.
  intros i term value kw s s' r H K P. unfold new_child in H. rg H.
  assert (SAME : s' = s -> doc_ok s' /\ grows s s') by (intros ->; split; [exact K|apply grows_refl]).
  ra H as s1 u H1. { apply SAME. destruct (t_doc _); [discriminate H1|]. injection H1 as <- _. reflexivity. }
  assert (s1 = s) by (destruct (t_doc _); [injection H1 as <- _; reflexivity|discriminate H1]). subst s1. clear H1 u. rg H.
  ra H as s1 k H1. { apply construct_child in H1. destruct H1 as [[-> _]|(p & n & _ & _ & _ & E & _)]; [apply SAME; reflexivity|discriminate E]. }
  apply construct_child in H1. destruct H1 as [[_ [e E]]|(p & n & C & T & L & E & ->)]; [discriminate E|]. injection E as ->.
  fold (text_of value) in H. set (R := fresh_plain _ _ _ _ _ _ _ _ _ _ _ _) in *.
  assert (CH : child_of s i term (text_of value) R) by (exists (doc_term_class (lower term) s), p, n, "@value"; auto).
  destruct (tends_push s i term _ R K P CH) as (A1 & A2 & A3 & A4 & A5 & A6).
  ra H as s1 u H1. { apply new_children_tends in H1. destruct (H1 A1 A4) as [B1 B2]. split; [exact B1|eapply grows_trans; eassumption]. }
  apply new_children_tends in H1. destruct (H1 A1 A4) as [B1 B2].
  assert (G : grows s s1) by (eapply grows_trans; eassumption). clear H1. rg H. rg H.
  change (fun q : trec => match dget (tjoin q) (d_decl_terms (s_doc s1)) with
                   | Some td => match dget "termvaluename" (td_props td) with Some n0 => set_t_tvn n0 q | None => q end
                   | None => q end) with (set_declared_tvn (s_doc s1)) in H.
  pose proof (grows_plain _ _ _ B2 A4) as P1.
  destruct (tends_mod s1 (hlen s) (set_declared_tvn (s_doc s1)) B1 (proj2 P1)) as [D1 D2]; [intros q; apply declared_tvn_fields|].
  set (s2 := hmod (hlen s) _ s1) in *. assert (G2 : grows s s2) by (eapply grows_trans; eassumption).
  assert (FIN : s' = s2 -> doc_ok s' /\ grows s s') by (intros ->; auto). rg H.
  ra H as s3 b H1. { apply lift_any in H1. apply FIN. tauto. } apply lift_any in H1. destruct H1 as [-> _].
  ra H as s3 u2 H1. { apply assert_any in H1. apply FIN. tauto. } apply assert_any in H1. destruct H1 as [-> _]. rg H. injection H as <- _.
  destruct D2 as (E1 & E2 & E3). destruct B2 as (F1 & F2 & F3). rewrite hlen_push in F1.
  pose proof (F3 (hlen s) ltac:(rewrite hlen_push; lia)) as (X1 & X2 & X3 & X4 & X5 & X6 & X7).
  pose proof (E3 (hlen s) ltac:(lia)) as (Y1 & Y2 & Y3 & Y4 & Y5 & Y6 & Y7).
  apply (tends_append s s2 i (hlen s)); [exact D1|eapply grows_plain; eassumption|apply P| | | |lia|exact G2].
  - destruct P1 as [P11 P12]. split; [lia|rewrite Y1; exact P12].
  - rewrite Y2, X2. exact A5.
  - intros j I. apply Y7, X7 in I. exact (A6 _ I).
Qed.

Lemma find_first_child : forall h i n v c, term_find_first h i n v = Ok (Some c) -> In c (t_children (hget i h)).
Proof.
  intros h i n v c H. unfold term_find_first in H. destruct (child_name _ _); [|discriminate]. cbn in H. injection H as H.
  apply find_some in H. tauto.
Qed.

Lemma goc_check_any : forall i rt c s s' r, goc_check i rt c s = (s', r) -> s' = s.
Proof.
  intros i rt c s s' r H. unfold goc_check in H. rg H. ra H as s1 o H1; [apply lift_any in H1; tauto|].
  apply lift_any in H1. destruct H1 as [-> _]. apply assert_any in H. tauto.
Qed.

(** the shared part of get_or_new_child: [fill] makes the children of a new
    child, [update] those of an existing one *)
Section Goc.
  Variables (i : nat) (term : string) (value : val) (fill update : nat -> MM unit).
  Hypothesis FILL : forall k, pres (tends k) (fill k).
  Hypothesis UPDATE : forall k, pres (tends k) (update k).

  Definition goc : MM nat :=
    ' (_, rt) <- lift (split_term term) ;;
    r <- getT i ;;
    let term' := dotted (t_rt r) rt in
    h <- gets s_heap ;;
    o <- lift (term_find_first h i rt VFalse) ;;
    c <- (match o with
          | None =>
              (if t_doc r then ret tt else raise EAttr) ;;;
              tc <- gets (doc_term_class (lower term')) ;;
              c <- construct tc term' value [] None None None (Some i) true (t_section r) ;;
              fill c ;;;
              q <- getT c ;;
              b <- lift (term_is q "Datafile.Section") ;;
              assert_ (negb b) ;;;
              modT i (fun r => set_t_children (t_children r ++ [c]) r) ;;;
              ret c
          | Some c =>
              (match value with VFalse => ret tt | _ => modT c (set_t_val value) end) ;;;
              update c ;;;
              ret c
          end) ;;
    goc_check i rt c ;;;
    ret c.

  Lemma goc_tends : pres (tends i) goc.
  Proof.
    intros s s' r H K P. unfold goc in H.
    assert (SAME : s' = s -> doc_ok s' /\ grows s s') by (intros ->; split; [exact K|apply grows_refl]).
    ra H as s1 x H1; [apply lift_any in H1; apply SAME; tauto|]. apply lift_any in H1. destruct H1 as [-> _]. destruct x as [p rt].
    rg H. rg H. ra H as s1 o H1; [apply lift_any in H1; apply SAME; tauto|]. apply lift_any in H1. destruct H1 as [-> H1]. symmetry in H1.
    assert (B : forall s2 r2, (match o with
          | None =>
              (if t_doc (tget i s) then ret tt else raise EAttr) ;;;
              tc <- gets (doc_term_class (lower (dotted (t_rt (tget i s)) rt))) ;;
              c <- construct tc (dotted (t_rt (tget i s)) rt) value [] None None None (Some i) true (t_section (tget i s)) ;;
              fill c ;;;
              q <- getT c ;;
              b <- lift (term_is q "Datafile.Section") ;;
              assert_ (negb b) ;;;
              modT i (fun r => set_t_children (t_children r ++ [c]) r) ;;;
              ret c
          | Some c =>
              (match value with VFalse => ret tt | _ => modT c (set_t_val value) end) ;;;
              update c ;;;
              ret c
          end) s = (s2, r2) -> doc_ok s2 /\ grows s s2).
    { intros s2 r2 G. assert (SM : s2 = s -> doc_ok s2 /\ grows s s2) by (intros ->; split; [exact K|apply grows_refl]). destruct o as [c|].
      - pose proof (find_first_child _ _ _ _ _ H1) as IC. apply (ok_child s K) in IC. destruct IC as (_ & PC & _).
        assert (V : forall s3 r3, (match value with VFalse => ret tt | _ => modT c (set_t_val value) end) s = (s3, r3) -> doc_ok s3 /\ grows s s3).
        { intros s3 r3 V.
          assert (W : s3 = s \/ s3 = hmod c (set_t_val value) s) by (destruct value; injection V as <- _; auto). destruct W as [->| ->].
          - split; [exact K|apply grows_refl].
          - apply tends_mod; [exact K|apply PC|auto 10]. }
        ra G as s3 u G1; [eapply V; exact G1|]. apply V in G1. destruct G1 as [K3 G3].
        pose proof (grows_plain _ _ _ G3 PC) as P3.
        ra G as s4 u4 G1. { apply UPDATE in G1. destruct (G1 K3 P3) as [K4 G4]. split; [exact K4|eapply grows_trans; eassumption]. }
        apply UPDATE in G1. destruct (G1 K3 P3) as [K4 G4]. injection G as <- _. split; [exact K4|eapply grows_trans; eassumption].
      - ra G as s1 u G1. { apply SM. destruct (t_doc _); [discriminate G1|]. injection G1 as <- _. reflexivity. }
        assert (s1 = s) by (destruct (t_doc _); [injection G1 as <- _; reflexivity|discriminate G1]). subst s1. clear G1 u. rg G.
        ra G as s1 k G1. { apply construct_child in G1. destruct G1 as [[-> _]|(p0 & n & _ & _ & _ & E & _)]; [apply SM; reflexivity|discriminate E]. }
        apply construct_child in G1. destruct G1 as [[_ [e E]]|(p0 & n & C & T & L & E & ->)]; [discriminate E|]. injection E as ->.
        set (R := fresh_plain _ _ _ _ _ _ _ _ _ _ _ _) in *.
        assert (CH : child_of s i (dotted (t_rt (tget i s)) rt) value R)
          by (exists (doc_term_class (lower (dotted (t_rt (tget i s)) rt)) s), p0, n, "@value"; auto).
        destruct (tends_push s i _ _ R K P CH) as (A1 & A2 & A3 & A4 & A5 & A6).
        ra G as s1 u G1. { apply FILL in G1. destruct (G1 A1 A4) as [B1 B2]. split; [exact B1|eapply grows_trans; eassumption]. }
        apply FILL in G1. destruct (G1 A1 A4) as [B1 B2]. pose proof (grows_trans _ _ _ A2 B2) as GG.
        assert (FIN : s2 = s1 -> doc_ok s2 /\ grows s s2) by (intros ->; auto). rg G.
        ra G as s3 b G2. { apply lift_any in G2. apply FIN. tauto. } apply lift_any in G2. destruct G2 as [-> _].
        ra G as s3 u2 G2. { apply assert_any in G2. apply FIN. tauto. } apply assert_any in G2. destruct G2 as [-> _]. rg G. injection G as <- _.
        pose proof (grows_plain _ _ _ B2 A4) as P1. destruct B2 as (F1 & F2 & F3). rewrite hlen_push in F1.
        pose proof (F3 (hlen s) ltac:(rewrite hlen_push; lia)) as (X1 & X2 & X3 & X4 & X5 & X6 & X7).
        apply (tends_append s s1 i (hlen s)); [exact B1|eapply grows_plain; eassumption|apply P|exact P1| | |lia|exact GG].
        + rewrite X2. exact A5.
        + intros j I. apply X7 in I. exact (A6 _ I). }
    ra H as s2 c H2; [eapply B; exact H2|]. apply B in H2.
    ra H as s3 u H3; [apply goc_check_any in H3; subst; exact H2|]. apply goc_check_any in H3. subst s3. injection H as <- _. exact H2.
  Qed.
End Goc.

Lemma goc_child0 : forall i term value s, get_or_new_child0 i term value s = goc i term value (fun _ => ret tt) (fun _ => ret tt) s.
Proof.
  intros. unfold get_or_new_child0, goc. unfold bind, ret, getT, gets. destruct (lift (split_term term) s) as [s1 [[p rt]|e]]; [|reflexivity].
  cbv zeta. destruct (lift (term_find_first (s_heap s1) i rt VFalse) s1) as [s2 [[c|]|e]]; [| |reflexivity].
  - destruct value; reflexivity.
  - destruct (t_doc (tget i s1)); [|reflexivity]. destruct (construct _ _ _ _ _ _ _ _ _ _ s2) as [s3 [c|e]]; reflexivity.
Qed.

Lemma tends_ret : forall k, pres (tends k) (ret tt).
Proof. intros k. apply pres_ret, tends_po. Qed.

Lemma get_or_new_child0_tends : forall i term value, pres (tends i) (get_or_new_child0 i term value).
Proof.
  intros i term value s s' r H. rewrite goc_child0 in H. eapply goc_tends; [| |exact H]; intros; apply tends_ret.
Qed.

Lemma get_or_new_child_tends : forall i term value kw, pres (tends i) (get_or_new_child i term value kw).
Proof.
  intros i term value kw. apply (goc_tends i term value (fun c => new_children c kw)
    (fun c => mapM_ (fun kv => k <- get_or_new_child0 c (fst kv) (snd kv) ;; ret tt) kw)).
  - intros k. apply new_children_tends.
  - intros k. apply pres_mapM; [apply tends_po|]. intros kv _. apply pres_bind; [apply tends_po|apply get_or_new_child0_tends|].
    intros a. apply tends_ret.
Qed.

Lemma set_child_item_tends : forall i item value, pres (tends i) (set_child_item i item value).
Proof.
  intros i item value. unfold set_child_item. apply pres_bind; [apply tends_po|apply get_or_new_child0_tends|]. intros c.
  apply pres_bind; [apply tends_po|apply pres_gets, tends_po|]. intros h.
  apply pres_bind; [apply tends_po|apply pres_lift, tends_po|]. intros c'. cbv zeta. apply pres_assert, tends_po.
Qed.

End WithQuirks.
