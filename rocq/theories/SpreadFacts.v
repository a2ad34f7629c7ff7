(** * SpreadFacts: extra cells written as rows of their own (C82) *)

From Verif Require Import StrFacts SpecNames PyBase State SpecParse Parser SpecInv SpecDoc SpecRound SpecOutline SpecSpread DocFacts OutlineFacts.

Definition lines_map := list (nat * nat).
Definition under (n n' : nat) (R : lines_map) : Prop := forall l l', In (l, l') R -> l < n /\ l' < n'.
Inductive spots (R : lines_map) : spot -> spot -> Prop :=
| sp_at : forall k, spots R (At k) (At k)
| sp_under : forall l l', In (l, l') R -> spots R (Under l) (Under l')
| sp_loose : spots R Loose Loose.

Inductive alike : nat -> nat -> lines_map -> list entry -> list entry -> Prop :=
| al_end : forall n n' R, alike n n' R [] []
| al_row : forall n n' R e e' l l' es es', e_line e = Some l -> e_line e' = Some l' -> n <= l -> n' <= l' ->
    spots R (e_spot e) (e_spot e') -> e_name e = e_name e' -> e_value e = e_value e' ->
    alike (S l) (S l') ((l, l') :: R) es es' -> alike n n' R (e :: es) (e' :: es')
| al_cell : forall n n' R e e' es es', e_line e = None -> e_line e' = None ->
    spots R (e_spot e) (e_spot e') -> e_name e = e_name e' -> e_value e = e_value e' ->
    alike n n' R es es' -> alike n n' R (e :: es) (e' :: es')
| al_alone : forall n n' R e e' l' es es', e_line e = None -> e_line e' = Some l' -> n' <= l' ->
    spots R (e_spot e) (e_spot e') -> e_name e = e_name e' -> e_value e = e_value e' ->
    alike n (S l') R es es' -> alike n n' R (e :: es) (e' :: es').

Lemma alike_weaken : forall n n' R es es', alike n n' R es es' -> forall m m', m <= n -> m' <= n' -> alike m m' R es es'.
Proof.
  induction 1; intros m m' A B.
  - constructor.
  - econstructor; try eassumption; lia.
  - apply al_cell; try assumption. apply IHalike; assumption.
  - eapply al_alone; try eassumption; [lia|]. apply IHalike; lia.
Qed.
Lemma under_weaken : forall n n' R m m', under n n' R -> n <= m -> n' <= m' -> under m m' R.
Proof. intros n n' R m m' U A B l l' I. destruct (U l l' I). lia. Qed.
Lemma under_cons : forall n n' R l l', under n n' R -> n <= l -> n' <= l' -> under (S l) (S l') ((l, l') :: R).
Proof. intros n n' R l l' U A B k k' [E|I]; [injection E as <- <-; lia|]. destruct (U k k' I). lia. Qed.

Definition twins (R : lines_map) (a b : spot * rose) : Prop := spots R (fst a) (fst b) /\ bare (snd a) = bare (snd b).

Lemma filter_rel : forall {A B} (P Q : A -> B -> Prop) f g l m, Forall2 P l m -> (forall a b, P a b -> f a = g b /\ (f a = true -> Q a b)) ->
  Forall2 Q (filter f l) (filter g m).
Proof.
  intros A B P Q f g l m F H. induction F as [|a b l m X _ IH]; [constructor|]. cbn [filter]. destruct (H a b X) as [E K]. rewrite <- E.
  destruct (f a); [constructor; [apply K; reflexivity|exact IH]|exact IH].
Qed.
Lemma twins_bare : forall R l m, Forall2 (twins R) l m -> map bare (map snd l) = map bare (map snd m).
Proof. induction 1 as [|a b l m [_ X] _ IH]; [reflexivity|]. cbn [map]. rewrite X, IH. reflexivity. Qed.
Lemma bare_node : forall e e' k k', e_name e = e_name e' -> e_value e = e_value e' -> map bare k = map bare k' -> bare (Rose e k) = bare (Rose e' k').
Proof. intros e e' k k' A B C. cbn [bare]. rewrite A, B, C. reflexivity. Qed.

Lemma filter_all : forall {A} (f : A -> bool) l, (forall x, In x l -> f x = true) -> filter f l = l.
Proof. intros A f l H. induction l as [|x l IH]; [reflexivity|]. cbn. rewrite (H x (or_introl eq_refl)), IH; [reflexivity|]. intros y Y. apply H. right. exact Y. Qed.
Lemma filter_nothing : forall {A} (f : A -> bool) l, (forall x, In x l -> f x = false) -> filter f l = [].
Proof. intros A f l H. induction l as [|x l IH]; [reflexivity|]. cbn. rewrite (H x (or_introl eq_refl)). apply IH. intros y Y. apply H. right. exact Y. Qed.
Lemma twins_right : forall R l m y, Forall2 (twins R) l m -> In y m -> exists x, spots R x (fst y).
Proof. intros R l m y F. induction F as [|a b l m [X _] _ IH]; intros []; [subst; eauto|apply IH; assumption]. Qed.

Lemma hung_alike : forall n n' R es es', alike n n' R es es' -> under n n' R -> Forall2 (twins R) (hung es) (hung es').
Proof.
  induction 1 as [n n' R|n n' R e e' l l' es es' L L' N N' SP EN EV A IH|n n' R e e' es es' L L' SP EN EV A IH|n n' R e e' l' es es' L L' N' SP EN EV A IH]; intro U; cbn [hung fold_right].
  - constructor.
  - specialize (IH (under_cons _ _ _ _ _ U N N')). fold (hung es) (hung es'). unfold hang.
    assert (M : forall a b, twins ((l, l') :: R) a b -> mine e (fst a) = mine e' (fst b) /\ (mine e (fst a) = false -> twins R a b)).
    { intros a b [S B]. unfold mine. rewrite L, L'. split.
      - inversion S as [k E1 E2|k k' I E1 E2|E1 E2]; cbn [below]; try reflexivity. destruct I as [I|I]; [injection I as <- <-; rewrite !Nat.eqb_refl; reflexivity|].
        destruct (U _ _ I). destruct (Nat.eqb_spec k l), (Nat.eqb_spec k' l'); try lia; reflexivity.
      - intros F. split; [|exact B]. inversion S as [k E1 E2|k k' I E1 E2|E1 E2]; try constructor. destruct I as [I|I]; [|exact I].
        injection I as <- <-. rewrite <- E1 in F. cbn [below] in F. rewrite Nat.eqb_refl in F. discriminate. }
    constructor.
    + split; [exact SP|]. apply bare_node; try assumption. apply (twins_bare ((l, l') :: R)). eapply filter_rel; [exact IH|]. intros a b T. destruct (M a b T) as [E _]. split; [exact E|]. intros _. exact T.
    + eapply filter_rel; [exact IH|]. intros a b T. destruct (M a b T) as [E K]. rewrite E. split; [reflexivity|]. intros F. apply K. rewrite E. destruct (mine e' (fst b)); [discriminate|reflexivity].
  - specialize (IH U). fold (hung es) (hung es'). unfold hang.
    assert (M : forall a, mine e a = false) by (intro a; unfold mine; rewrite L; reflexivity).
    assert (M' : forall a, mine e' a = false) by (intro a; unfold mine; rewrite L'; reflexivity).
    rewrite (filter_nothing (fun x => mine e (fst x))), (filter_all (fun x => negb (mine e (fst x)))) by (intros; rewrite M; reflexivity).
    rewrite (filter_nothing (fun x => mine e' (fst x))), (filter_all (fun x => negb (mine e' (fst x)))) by (intros; rewrite M'; reflexivity).
    constructor; [split; [exact SP|]; apply bare_node; auto|exact IH].
  - specialize (IH (under_weaken _ _ _ _ _ U (le_n _) (Nat.le_trans _ _ _ N' (Nat.le_succ_diag_r _)))). fold (hung es) (hung es'). unfold hang.
    assert (M : forall a, mine e a = false) by (intro a; unfold mine; rewrite L; reflexivity).
    assert (M' : forall b, In b (hung es') -> mine e' (fst b) = false).
    { intros b I. destruct (twins_right _ _ _ _ IH I) as (x & S). unfold mine. rewrite L'. inversion S as [k E1 E2|k k' J E1 E2|E1 E2]; try reflexivity.
      cbn [below]. destruct (U _ _ J). destruct (Nat.eqb_spec k' l'); [lia|reflexivity]. }
    rewrite (filter_nothing (fun x => mine e (fst x))), (filter_all (fun x => negb (mine e (fst x)))) by (intros; rewrite M; reflexivity).
    rewrite (filter_nothing (fun x => mine e' (fst x))), (filter_all (fun x => negb (mine e' (fst x)))) by (intros y Y; rewrite (M' y Y); reflexivity).
    constructor; [split; [exact SP|]; apply bare_node; auto|exact IH].
Qed.

Lemma tops_alike : forall k n n' es es', alike n n' [] es es' -> map bare (tops k es) = map bare (tops k es').
Proof.
  intros k n n' es es' A. unfold tops. apply (twins_bare []). eapply filter_rel; [eapply hung_alike; [exact A|intros ? ? []]|].
  intros a b T. split; [|intros _; exact T]. destruct T as [S _]. destruct S; reflexivity.
Qed.

(** ** The entries of the lines *)

Record vlike (R : lines_map) (v v' : view) : Prop := {
  vl_secs : v_secs v = v_secs v'; vl_cur : v_cur v = v_cur v'; vl_cols : v_cols v = v_cols v'; vl_vname : v_vname v = v_vname v';
  vl_parent : v_parent v = v_parent v'; vl_last : Forall2 (fun a b => fst a = fst b /\ In (snd a, snd b) R) (v_last v) (v_last v')
}.
Lemma assoc_like : forall (R : lines_map) (l l' : list (string * nat)) p, Forall2 (fun a b => fst a = fst b /\ In (snd a, snd b) R) l l' ->
  match assoc p l, assoc p l' with Some x, Some y => In (x, y) R | None, None => True | _, _ => False end.
Proof.
  intros R l l' p F. unfold assoc. induction F as [|[k a] [k' b] l l' [E I] _ IH]; [exact Logic.I|]. cbn [fst snd] in *. subst k'. cbn [find fst]. destruct (eqs k p); [exact I|exact IH].
Qed.
Lemma spot_in_like : forall R v v' p, vlike R v v' -> spots R (spot_in v p) (spot_in v' p).
Proof.
  intros R v v' p V. unfold spot_in. rewrite (vl_cur _ _ _ V). destruct (eqs p "root"); [constructor|].
  pose proof (assoc_like R (v_last v) (v_last v') p (vl_last _ _ _ V)) as H. destruct (assoc p (v_last v)), (assoc p (v_last v')); try contradiction; constructor. exact H.
Qed.
Lemma spot_of_like : forall R v v' p r, vlike R v v' -> spots R (spot_of v p r) (spot_of v' p r).
Proof.
  intros R v v' p r V. unfold spot_of. rewrite (vl_parent _ _ _ V). destruct (eqs p current_parent); [apply spot_in_like, V|].
  destruct (eqs p r); [constructor|apply spot_in_like, V].
Qed.
Lemma vlike_more : forall R v v' x, vlike R v v' -> vlike (x :: R) v v'.
Proof.
  intros R v v' x [A B C D E F]. split; try assumption. clear - F. induction F as [|a b l m [P Q] _ IH]; constructor; [split; [exact P|right; exact Q]|exact IH].
Qed.

(** the two views after the line *)
Lemma next_like : forall decl R v v' l, vlike R v v' -> vlike ((v_line v, v_line v') :: R) (next decl v l) (next decl v' l).
Proof.
  intros decl R v v' l V. pose proof (vlike_more R v v' (v_line v, v_line v') V) as [A B C D E F]. destruct l as [|n cells|n cells|p r x cells]; cbn [next].
  - split; assumption.
  - destruct (eqs (lower (strip n)) "root"); [split; try assumption; reflexivity|]. rewrite A. split; cbn; try reflexivity; assumption.
  - split; cbn; try reflexivity; assumption.
  - destruct (eqs p current_parent); split; cbn; try reflexivity; try assumption. constructor; [split; [reflexivity|left; reflexivity]|exact F].
Qed.
(** a line that registers nothing *)
Lemma next_still : forall decl R v v' l l', vlike R v v' -> (forall p r x cells, l <> LTerm p r x cells \/ p = current_parent) -> l' = l ->
  vlike R (next decl v l) (next decl v' l').
Proof.
  intros decl R v v' l l' [A B C D E F] N ->. destruct l as [|n cells|n cells|p r x cells]; cbn [next].
  - split; assumption.
  - destruct (eqs (lower (strip n)) "root"); [split; try assumption; reflexivity|]. rewrite A. split; cbn; try reflexivity; assumption.
  - split; cbn; try reflexivity; assumption.
  - destruct (N p r x cells) as [H|H]; [congruence|]. subst p. change (eqs current_parent current_parent) with true. cbv iota. split; cbn; try reflexivity; assumption.
Qed.
Lemma line_next : forall decl v l, v_line (next decl v l) = S (v_line v).
Proof. intros decl v [| n c|n c|p r x c]; cbn [next]; try reflexivity; [destruct (eqs (lower (strip n)) "root")|destruct (eqs p current_parent)]; reflexivity. Qed.

Lemma cells_alike : forall n n' R es es' (nc : list (string * string)) sp sp' m m', spots R sp sp' -> alike n n' R es es' ->
  alike n n' R (map (fun x => mk_entry None sp (fst x) (snd x) (m x)) nc ++ es) (map (fun x => mk_entry None sp' (fst x) (snd x) (m' x)) nc ++ es').
Proof. intros n n' R es es' nc sp sp' m m' S A. induction nc as [|x nc IH]; [exact A|]. cbn [map app]. apply al_cell; try reflexivity; [exact S|exact IH]. Qed.

Lemma alone_like : forall decl R v v' nc, vlike R v v' -> vlike R v (next decl v' (alone nc)).
Proof. intros decl R v v' nc [A B C D E F]. cbn. change (eqs current_parent current_parent) with true. cbv iota. split; cbn; assumption. Qed.

Lemma alones_alike : forall w R ncs n v v' hs ls ls' sp m, vlike R v v' -> v_parent v' <> "root" -> under n (v_line v') R ->
  spots R sp (spot_in v' (v_parent v')) ->
  (forall v'', vlike R v v'' -> v_line v' <= v_line v'' -> alike n (v_line v'') R (made w v hs ls) (made w v'' hs ls')) ->
  alike n (v_line v') R (map (fun x => mk_entry None sp (fst x) (snd x) (m x)) ncs ++ made w v hs ls) (made w v' hs (map alone ncs ++ ls')).
Proof.
  intros w R ncs. induction ncs as [|nc ncs IH]; intros n v v' hs ls ls' sp m V P U S K; cbn [map app].
  - apply K; [exact V|lia].
  - cbn [made]. change (alone nc) with (LTerm current_parent (fst nc) (snd nc) []) at 1. cbn [line_entries]. unfold spot_of, cells_from. change (eqs current_parent current_parent) with true. cbv iota. cbn [map app].
    eapply al_alone; [reflexivity|reflexivity|apply le_n|exact S|reflexivity|reflexivity|].
    change (next_heads (w_cols w) (v_cur v') hs (alone nc)) with hs. rewrite <- (line_next (w_cols w) v' (alone nc)).
    assert (N : v_parent (next (w_cols w) v' (alone nc)) = v_parent v' /\ forall p, spot_in (next (w_cols w) v' (alone nc)) p = spot_in v' p).
    { cbn. change (eqs current_parent current_parent) with true. cbv iota. split; reflexivity. }
    destruct N as [N1 N2]. apply IH.
    + apply alone_like, V.
    + rewrite N1. exact P.
    + rewrite line_next. eapply under_weaken; [exact U|lia|lia].
    + rewrite N1, N2. exact S.
    + intros v'' V'' L. rewrite line_next in L. apply K; [exact V''|lia].
Qed.

Lemma heads_alone : forall w ncs v hs ls, heads w v hs (map alone ncs ++ ls) = heads w (fold_left (next (w_cols w)) (map alone ncs) v) hs ls.
Proof. intros w ncs. induction ncs as [|nc ncs IH]; intros v hs ls; [reflexivity|]. cbn [map app heads fold_left]. apply IH. Qed.
Lemma alones_like : forall decl R ncs v v', vlike R v v' -> vlike R v (fold_left (next decl) (map alone ncs) v').
Proof. intros decl R ncs. induction ncs as [|nc ncs IH]; intros v v' V; [exact V|]. cbn [map fold_left]. apply IH, alone_like, V. Qed.

Lemma made_spread : forall w ls ls' v, spread (w_cols w) v ls ls' -> Forall usual ls -> forall v' R hs, vlike R v v' -> under (v_line v) (v_line v') R ->
  alike (v_line v) (v_line v') R (made w v hs ls) (made w v' hs ls') /\ heads w v hs ls = heads w v' hs ls'.
Proof.
  intros w ls ls' v SP. induction SP as [v|v l ls ls' SP IH|v p r x cells ls ls' PE SP IH|v ls ls' SP IH|v ls ls' SP IH]; intros US v' R hs V U.
  - split; [constructor|reflexivity].
  - inversion US as [|? ? U1 U2]; subst. cbn [made heads]. rewrite <- (vl_cur _ _ _ V).
    assert (ST : (forall p r x c, l <> LTerm p r x c) -> alike (v_line v) (v_line v') R
       (made w (next (w_cols w) v l) (next_heads (w_cols w) (v_cur v) hs l) ls) (made w (next (w_cols w) v' l) (next_heads (w_cols w) (v_cur v) hs l) ls')
       /\ heads w (next (w_cols w) v l) (next_heads (w_cols w) (v_cur v) hs l) ls = heads w (next (w_cols w) v' l) (next_heads (w_cols w) (v_cur v) hs l) ls').
    { intros NT. pose proof (next_still (w_cols w) R v v' l l V (fun p r x c => or_introl (NT p r x c)) eq_refl) as V'.
      specialize (IH U2 _ R (next_heads (w_cols w) (v_cur v) hs l) V'). rewrite !line_next in IH. destruct (IH (under_weaken _ _ _ _ _ U (Nat.le_succ_diag_r _) (Nat.le_succ_diag_r _))) as [A H].
      split; [eapply alike_weaken; [exact A|lia|lia]|exact H]. }
    destruct l as [|n cells|n cells|p r x cells]; cbn [line_entries app]; [apply ST; discriminate|apply ST; discriminate|apply ST; discriminate|clear ST].
    pose proof (next_like (w_cols w) R v v' (LTerm p r x cells) V) as V'.
    specialize (IH U2 _ _ hs V'). rewrite !line_next in IH. destruct (IH (under_cons _ _ _ _ _ U (le_n _) (le_n _))) as [A H]. clear IH.
    change (next_heads (w_cols w) (v_cur v) hs (LTerm p r x cells)) with hs. split; [|exact H].
    eapply al_row; [reflexivity|reflexivity|apply le_n|apply le_n|cbn [e_spot]; apply spot_of_like, V|reflexivity|reflexivity|].
    rewrite (vl_cols _ _ _ V). apply cells_alike with (m := fun nc => noted w v r (fst nc)) (m' := fun nc => noted w v' r (fst nc)); [|exact A].
    unfold cell_spot. destruct (eqs p current_parent); [|constructor; left; reflexivity]. rewrite <- (vl_parent _ _ _ V).
    pose proof (spot_in_like R v v' (v_parent v) V) as S. destruct S; constructor. right. assumption.
  - inversion US as [|? ? U1 U2]; subst. set (l := LTerm p r x cells) in *.
    pose proof (next_like (w_cols w) R v v' (LTerm p r x cells) V) as V1.
    assert (EN : next (w_cols w) v' (LTerm p r x []) = next (w_cols w) v' (LTerm p r x cells)) by reflexivity.
    assert (PR : v_parent (next (w_cols w) v' (LTerm p r x [])) <> "root").
    { cbn [next]. destruct U1 as (_ & _ & NR & _). eqs_cases p current_parent; cbn [v_parent]; [|exact NR]. rewrite <- (vl_parent _ _ _ V). apply PE, E. }
    assert (G : forall v'', vlike ((v_line v, v_line v') :: R) (next (w_cols w) v l) v'' -> S (v_line v') <= v_line v'' ->
      alike (S (v_line v)) (v_line v'') ((v_line v, v_line v') :: R) (made w (next (w_cols w) v l) hs ls) (made w v'' hs ls')
      /\ heads w (next (w_cols w) v l) hs ls = heads w v'' hs ls').
    { intros v'' V'' L. specialize (IH U2 v'' _ hs V''). rewrite line_next in IH. apply IH. eapply under_weaken; [eapply under_cons; [exact U|apply le_n|apply le_n]|lia|exact L]. }
    cbn [made heads]. change (next_heads (w_cols w) (v_cur v) hs l) with hs. change (next_heads (w_cols w) (v_cur v') hs (LTerm p r x [])) with hs. split.
    + unfold l at 1. cbn [line_entries]. unfold cells_from at 2. cbn [map]. cbn [app].
      eapply al_row; [reflexivity|reflexivity|apply le_n|apply le_n|cbn [e_spot]; apply spot_of_like, V|reflexivity|reflexivity|].
      rewrite <- (line_next (w_cols w) v' (LTerm p r x [])).
      apply alones_alike with (m := fun nc => noted w v r (fst nc)).
      * rewrite EN. exact V1.
      * exact PR.
      * rewrite line_next. apply under_cons with (n := v_line v) (n' := v_line v'); [exact U|apply le_n|apply le_n].
      * unfold cell_spot. cbn [next]. destruct (eqs p current_parent) eqn:E; cbn [v_parent].
        -- apply eqs_true in E. unfold spot_in at 2. cbn [v_last v_cur]. rewrite <- (vl_parent _ _ _ V). specialize (PE E). apply eqs_false in PE. unfold spot_in. rewrite PE.
           pose proof (assoc_like R (v_last v) (v_last v') (v_parent v) (vl_last _ _ _ V)) as H. destruct (assoc (v_parent v) (v_last v)), (assoc (v_parent v) (v_last v')); try contradiction; constructor. right. exact H.
        -- unfold spot_in. cbn [v_last]. destruct U1 as (_ & _ & NR & _). apply eqs_false in NR. rewrite NR. unfold assoc. cbn [find fst]. rewrite eqs_refl. cbn. constructor. left. reflexivity.
      * intros v'' V'' L. rewrite line_next in L. apply G; assumption.
    + rewrite heads_alone. apply (G (fold_left (next (w_cols w)) (map alone (cells_from (v_cols v) 0 cells)) (next (w_cols w) v' (LTerm p r x [])))).
      * apply alones_like. rewrite EN. exact V1.
      * assert (ML : forall ncs y, v_line y <= v_line (fold_left (next (w_cols w)) (map alone ncs) y)).
        { induction ncs as [|nc ncs IHn]; intro y; [apply le_n|]. cbn [map fold_left]. eapply Nat.le_trans; [|apply IHn]. rewrite line_next. lia. }
        eapply Nat.le_trans; [|apply ML]. rewrite line_next. apply le_n.
  - inversion US as [|? ? U1 U2]; subst. cbn [made heads line_entries app]. change (next_heads (w_cols w) (v_cur v) hs LBlank) with hs.
    assert (V' : vlike R (next (w_cols w) v LBlank) v') by (destruct V; split; assumption).
    specialize (IH U2 v' R hs V'). rewrite line_next in IH. destruct (IH (under_weaken _ _ _ _ _ U (Nat.le_succ_diag_r _) (le_n _))) as [A H].
    split; [eapply alike_weaken; [exact A|lia|lia]|exact H].
  - cbn [made heads line_entries app]. change (next_heads (w_cols w) (v_cur v') hs LBlank) with hs.
    assert (V' : vlike R v (next (w_cols w) v' LBlank)) by (destruct V; split; assumption).
    specialize (IH US _ R hs V'). rewrite line_next in IH. destruct (IH (under_weaken _ _ _ _ _ U (le_n _) (Nat.le_succ_diag_r _))) as [A H].
    split; [eapply alike_weaken; [exact A|lia|lia]|exact H].
Qed.

Lemma vlike_first : vlike [] first_view first_view.
Proof. split; try reflexivity. constructor. Qed.

Lemma c82_outline : forall w ls ls', spread (w_cols w) first_view ls ls' -> Forall usual ls -> outline w ls = outline w ls'.
Proof.
  intros w ls ls' SP US. destruct (made_spread w ls ls' first_view SP US first_view [] first_heads vlike_first) as [A H]; [intros ? ? []|].
  unfold outline. rewrite <- H. apply map_ext. intro h. f_equal. eapply tops_alike, A.
Qed.
Lemma c82_same : forall g rows rows' ls ls' s s', proper g -> means rows ls -> means rows' ls' -> spread (cols_of g) first_view ls ls' ->
  loads g rows s -> loads g rows' s' -> forall o, shows_doc s o <-> shows_doc s' o.
Proof.
  intros g rows rows' ls ls' s s' P M M' SP L L' o. pose proof (c77_outline g rows ls s P M L) as A. pose proof (c77_outline g rows' ls' s' P M' L') as B.
  assert (E : outline (world_of g) ls = outline (world_of g) ls') by (apply c82_outline; [exact SP|apply M]).
  split; intro S.
  - rewrite (shows_doc_fun _ _ _ S A), E. exact B.
  - rewrite (shows_doc_fun _ _ _ S B), <- E. exact A.
Qed.

(** ** Such a file is read *)

Fixpoint fits (decl : string -> list string) (v : view) (ls : list line) : Prop :=
  match ls with
  | [] => True
  | l :: ls' => match l with LTerm p r _ _ => p = current_parent \/ p = "root" \/ p = r \/ In p (map fst (v_last v)) | _ => True end /\ fits decl (next decl v l) ls'
  end.
Lemma assoc_known : forall p (l : list (string * nat)), In p (map fst l) <-> exists k, assoc p l = Some k.
Proof.
  intros p l. unfold assoc. induction l as [|[k a] l IH]; cbn [map fst In find option_map].
  - split; [intros []|intros [k H]; discriminate H].
  - eqs_cases k p; [|rewrite IH; intuition congruence]. subst. split; [intros _; eexists; reflexivity|intros _; left; reflexivity].
Qed.
Lemma fits_placed : forall decl ls pre, fits decl (view_after decl pre) ls <-> (forall a l b, ls = (a ++ l :: b)%list -> placed (pre ++ a) l).
Proof.
  intros decl ls. induction ls as [|l ls IH]; intros pre.
  - split; [intros _ [|? a] z b H; discriminate H|intros _; exact Logic.I].
  - cbn [fits].
    assert (H1 : match l with LTerm p r _ _ => p = current_parent \/ p = "root" \/ p = r \/ In p (map fst (v_last (view_after decl pre))) | _ => True end <-> placed pre l).
    { destruct l as [| | |p r x cells]; cbn [placed]; try tauto. rewrite assoc_known. setoid_rewrite (last_uses decl p pre). tauto. }
    assert (E : next decl (view_after decl pre) l = view_after decl (pre ++ [l])) by (unfold view_after; rewrite fold_left_app; reflexivity).
    rewrite H1, E, IH. split.
    + intros [A B] [|y a] z b H; cbn [app] in H; injection H as <- H.
      * rewrite app_nil_r. exact A.
      * specialize (B a z b H). rewrite <- app_assoc in B. exact B.
    + intros A. split; [specialize (A [] l ls eq_refl); rewrite app_nil_r in A; exact A|]. intros a z b H. rewrite <- app_assoc. apply (A (l :: a) z b). rewrite H. reflexivity.
Qed.
Lemma last_next : forall decl v v' l, map fst (v_last v) = map fst (v_last v') -> map fst (v_last (next decl v l)) = map fst (v_last (next decl v' l)).
Proof. intros decl v v' [|n c|n c|p r x c] H; cbn [next]; try exact H; [destruct (eqs _ _); exact H|]. destruct (eqs p current_parent); cbn; [exact H|f_equal; exact H]. Qed.
Lemma fits_alone : forall decl ncs v ls, fits decl (fold_left (next decl) (map alone ncs) v) ls -> fits decl v (map alone ncs ++ ls).
Proof. intros decl ncs. induction ncs as [|nc ncs IH]; intros v ls F; [exact F|]. cbn [map app fits fold_left] in *. split; [left; reflexivity|apply IH, F]. Qed.
Lemma last_alones : forall decl ncs v, v_last (fold_left (next decl) (map alone ncs) v) = v_last v.
Proof. intros decl ncs. induction ncs as [|nc ncs IH]; intro v; [reflexivity|]. cbn [map fold_left]. rewrite IH. reflexivity. Qed.
Lemma fits_spread : forall decl v ls ls', spread decl v ls ls' -> forall v', map fst (v_last v) = map fst (v_last v') -> fits decl v ls -> fits decl v' ls'.
Proof.
  intros decl v ls ls' SP. induction SP as [v|v l ls ls' SP IH|v p r x cells ls ls' PE SP IH|v ls ls' SP IH|v ls ls' SP IH]; intros v' L F; cbn [fits] in *.
  - exact Logic.I.
  - destruct F as [F1 F2]. rewrite <- L. split; [exact F1|]. eapply IH; [apply last_next, L|exact F2].
  - destruct F as [F1 F2]. rewrite <- L. split; [exact F1|]. apply fits_alone. eapply IH; [|exact F2]. rewrite last_alones. exact (last_next decl v v' (LTerm p r x cells) L).
  - destruct F as [_ F]. eapply IH; [exact L|exact F].
  - split; [exact Logic.I|]. eapply IH; [exact L|exact F].
Qed.
Lemma c82_read : forall g rows' ls ls', proper g -> plain_classes g -> in_fuel g <> 0 -> spread (cols_of g) first_view ls ls' -> Forall usual ls ->
  (forall pre l post, ls = (pre ++ l :: post)%list -> placed pre l) -> means rows' ls' -> Forall sound ls' ->
  exists s', loads g rows' s' /\ shows_doc s' (outline (world_of g) ls).
Proof.
  intros g rows' ls ls' P C Fu SP U Pl M S. destruct (c77_total g rows' ls' P C Fu M S) as (s' & L & O).
  - apply (fits_placed (cols_of g) ls' []). eapply fits_spread; [exact SP|reflexivity|]. apply (fits_placed (cols_of g) ls []). exact Pl.
  - exists s'. split; [exact L|]. rewrite (c82_outline (world_of g) _ _ SP U). exact O.
Qed.
