(** * PadFacts: two runs that differ only in empty cells at the ends of rows

    [rel V m1 m2]: from states that agree except in empty cells at the end of
    recorded cells, the two runs end in such states, and with results related by
    [V] or the same exception. *)

From Verif Require Import ListFacts StrFacts HeapFacts Ops Parser RunFacts EmitFacts NameFacts ParseFacts DigitFacts NumberFacts FrameFacts RowFacts GrowFacts SpecNames SpecParse SpecNumber SpecDoc SpecPad SpecInclude IncludeFacts IncFacts RowsFacts SpecKept.

Definition rc (x y : list string) (r : trec) : trec := set_t_args x (set_t_hargs y r).
Notation pads := padded_cells.

Lemma pads_refl : forall x, pads x x.
Proof. intros x. exists 0. cbn. rewrite app_nil_r. reflexivity. Qed.
Lemma strip_repeat : forall n, map strip (repeat "" n) = repeat "" n.
Proof. induction n as [|n IH]; [reflexivity|]. cbn [repeat map]. rewrite IH. reflexivity. Qed.
Lemma pads_strip : forall x y, pads x y -> pads (map strip x) (map strip y).
Proof. intros x y [n ->]. exists n. rewrite map_app, strip_repeat. reflexivity. Qed.

Lemma mem_app : forall s a b, mem_str s (a ++ b) = mem_str s a || mem_str s b.
Proof. intros s a b. unfold mem_str. apply existsb_app. Qed.
Lemma pads_mem : forall k x y, nonempty k = true -> pads x y -> mem_str k (map lower x) = mem_str k (map lower y).
Proof.
  intros k x y N [n ->]. rewrite map_app, mem_app. replace (mem_str k (map lower (repeat "" n))) with false; [rewrite orb_false_r; reflexivity|].
  symmetry. unfold mem_str. induction n as [|n IH]; [reflexivity|]. cbn. rewrite IH, orb_false_r. destruct k; [discriminate N|reflexivity].
Qed.

(** columns *)
Definition pm_rel (p q : list string) : Prop := forall n, nth n p (str_of_nat n) = nth n q (str_of_nat n).
Lemma munge_nth : forall x i n, nth n (munge_from i x) (str_of_nat (i + n)) = match nth n x "" with "" => str_of_nat (i + n) | c => lower c end.
Proof.
  induction x as [|c x IH]; intros i n; [destruct n; reflexivity|]. destruct n as [|n].
  - cbn. rewrite Nat.add_0_r. destruct c; reflexivity.
  - cbn [munge_from nth]. replace (i + S n) with (S i + n) by lia. rewrite <- IH. reflexivity.
Qed.
Lemma munge_pads : forall x y, pads x y -> pm_rel (munge_param_map x) (munge_param_map y).
Proof.
  intros x y [k ->] n. unfold munge_param_map. pose proof (munge_nth x 0 n) as H1. pose proof (munge_nth (x ++ repeat "" k) 0 n) as H2. cbn [Nat.add] in H1, H2. rewrite H1, H2. clear H1 H2.
  destruct (Nat.ltb_spec n (List.length x)) as [L|L]; [rewrite app_nth1 by exact L; reflexivity|].
  rewrite app_nth2 by exact L. rewrite nth_overflow by exact L. generalize (n - Datatypes.length x). intros m.
  assert (E : nth m (repeat "" k) "" = ""). { revert m. induction k as [|k IH]; intros [|m]; cbn; auto. }
  rewrite E. reflexivity.
Qed.

Definition secname (r : trec) : Prop := t_pt r = "root" /\ (t_rt r = "section" \/ t_rt r = "root").
Definition canon (n : string) : Prop := py_int n = None \/ exists k, n = str_of_nat k.

Lemma dotted_one : forall p r a b, dotted p r = dotted a b -> has_char "." a = false -> has_char "." b = false -> p = a /\ r = b.
Proof.
  unfold dotted. induction p as [|c p IH]; intros r a b H HA HB.
  - destruct a as [|d a].
    + cbn in H. injection H as ->. split; reflexivity.
    + cbn in H. injection H as E _. subst d. discriminate HA.
  - destruct a as [|d a].
    + exfalso. cbn in H. injection H as -> H. subst b. clear - HB. induction p as [|c p IH]; [discriminate HB|].
      cbn [append has_char] in HB. apply orb_false_iff in HB. apply IH, HB.
    + cbn in H. injection H as -> H. cbn [has_char] in HA. apply orb_false_iff in HA. destruct (IH r a b H (proj2 HA) HB) as [-> ->]. split; reflexivity.
Qed.

(** ** names that are not numbers *)
Definition okc (c : ascii) : bool := isspace c || is_digit c || Ascii.eqb c "+" || Ascii.eqb c "-" || Ascii.eqb c "_".
Fixpoint allc (s : string) : bool := match s with "" => true | String c s' => okc c && allc s' end.
Lemma okc_space : forall c, int_space c = true -> okc c = true.
Proof. intros c H. unfold int_space in H. apply andb_true_iff in H. unfold okc. rewrite (proj1 H). reflexivity. Qed.
Lemma allc_lstrip : forall s, allc (lstrip_by int_space s) = true -> allc s = true.
Proof.
  induction s as [|c s IH]; intros H; [reflexivity|]. cbn [lstrip_by] in H. destruct (int_space c) eqn:E; [|exact H]. cbn. rewrite (okc_space _ E), (IH H). reflexivity.
Qed.
Lemma allc_rstrip : forall s, allc (rstrip_by int_space s) = true -> allc s = true.
Proof.
  induction s as [|c s IH]; intros H; [reflexivity|]. cbn [rstrip_by] in H. cbn. destruct (rstrip_by int_space s) as [|d r] eqn:E.
  - rewrite (IH eq_refl). destruct (int_space c) eqn:F; [rewrite (okc_space _ F); reflexivity|]. cbn in H. destruct (okc c); [reflexivity|discriminate H].
  - cbn [allc] in H. apply andb_true_iff in H. rewrite (proj1 H). apply IH. exact (proj2 H).
Qed.
Lemma allc_digits : forall s acc ok n, parse_digits acc ok s = Some n -> allc s = true.
Proof.
  induction s as [|c s IH]; intros acc ok n H; [reflexivity|]. cbn in H. unfold allc. fold (allc s). unfold okc.
  destruct (is_digit c) eqn:E; [rewrite (IH _ _ _ H), !orb_true_r; reflexivity|].
  destruct (Ascii.eqb c "_") eqn:F; [|discriminate H]. destruct ok; [|discriminate H]. cbn [andb] in H. rewrite (IH _ _ _ H), !orb_true_r. reflexivity.
Qed.
Lemma int_allc : forall s, py_int s <> None -> allc s = true.
Proof.
  intros s H. apply allc_lstrip, allc_rstrip. unfold py_int in H. destruct (rstrip_by int_space (lstrip_by int_space s)) as [|c r]; [reflexivity|].
  assert (D : forall f x, option_map (A := N) (B := Z) f x <> None -> exists n, x = Some n) by (intros f [n|] K; [exists n; reflexivity|contradiction]).
  destruct (Ascii.eqb c "-") eqn:E1; [|destruct (Ascii.eqb c "+") eqn:E2].
  - apply D in H. destruct H as [n H]. cbn. unfold okc. rewrite E1, (allc_digits _ _ _ _ H), !orb_true_r. reflexivity.
  - apply D in H. destruct H as [n H]. cbn. unfold okc. rewrite E2, (allc_digits _ _ _ _ H), !orb_true_r. reflexivity.
  - apply D in H. destruct H as [n H]. exact (allc_digits _ _ _ _ H).
Qed.
Lemma allc_app : forall a b, allc (a ++ b) = allc a && allc b.
Proof. induction a as [|c a IH]; intros b; [reflexivity|]. cbn. rewrite IH, andb_assoc. reflexivity. Qed.
Lemma is_digit_iff : forall c, is_digit c = true -> exists d, digit c d.
Proof.
  intros c H. assert (K : (c = "0" \/ c = "1" \/ c = "2" \/ c = "3" \/ c = "4" \/ c = "5" \/ c = "6" \/ c = "7" \/ c = "8" \/ c = "9")%char).
  { destruct c as [[|] [|] [|] [|] [|] [|] [|] [|]]; try discriminate H; auto 20. }
  decompose [or] K; subst c; eexists; constructor.
Qed.
Lemma wordy_int : forall n, wordy n -> py_int n = None.
Proof.
  intros n (a & c & b & -> & ND & NS & N1 & N2 & N3). destruct (py_int (a ++ String c b)) eqn:E; [|reflexivity]. exfalso.
  assert (H : py_int (a ++ String c b) <> None) by (rewrite E; discriminate). apply int_allc in H. rewrite allc_app in H. apply andb_true_iff in H. destruct H as [_ H].
  cbn [allc] in H. apply andb_true_iff in H. destruct H as [H _]. unfold okc in H. rewrite NS in H. cbn [orb] in H.
  destruct (is_digit c) eqn:D; [apply ND, is_digit_iff, D|]. cbn [orb] in H. apply orb_true_iff in H. destruct H as [H|H]; [apply orb_true_iff in H; destruct H as [H|H]|]; apply Ascii.eqb_eq in H; contradiction.
Qed.

Section Sim.
  (** the declared columns, which do not change while parsing *)
  Variable DS : dict sdecl.

  Definition full (x y : list string) : Prop := x = [] -> y = [].
  Record Rr (a b : trec) : Prop := mk_Rr {
    rr_eq : b = rc (t_args b) (t_hargs b) a;
    rr_args : pads (t_args a) (t_args b);
    rr_hargs : pads (t_hargs a) (t_hargs b);
    rr_full : full (t_hargs a) (t_hargs b);
    rr_sec : is_section_cls (t_cls a) = true -> secname a;
    rr_head : lower (t_rt a) = "header" -> full (t_args a) (t_args b);
    rr_num : py_int (t_rt a) <> None -> t_args a = t_args b
  }.

  (** parsers that read the same columns *)
  Record Pr (p q : prec) : Prop := mk_Pr { pr_eq : q = set_p_pmap (p_pmap q) p; pr_map : pm_rel (p_pmap p) (p_pmap q); pr_syn : synonyms (p_dterms p) = [] }.

  Definition sec_at (i : nat) (s : st) : Prop := is_section_cls (t_cls (tget i s)) = true.
  Record sim (s1 s2 : st) : Prop := mk_sim {
    sm_heap : Forall2 Rr (s_heap s1) (s_heap s2);
    sm_doc : s_doc s1 = s_doc s2;
    sm_prs : Pr (s_prs s1) (s_prs s2);
    sm_reg : s_reg s1 = s_reg s2;
    sm_ds : d_decl_sections (s_doc s1) = DS;
    sm_root : sec_at (d_root (s_doc s1)) s1;
    sm_secs : forall n i, dget n (d_sections (s_doc s1)) = Some i -> sec_at i s1
  }.

  Definition rres {A} (V : A -> A -> Prop) (a b : res A) : Prop :=
    match a, b with Ok x, Ok y => V x y | Err e, Err e' => e = e' | _, _ => False end.
  Definition rel {A} (V : A -> A -> Prop) (m1 m2 : MM A) : Prop :=
    forall s1 s2, sim s1 s2 -> sim (fst (m1 s1)) (fst (m2 s2)) /\ rres V (snd (m1 s1)) (snd (m2 s2)).

  Lemma Rr_form : forall a b, Rr a b -> exists x y, b = rc x y a.
  Proof. intros a b H. exists (t_args b), (t_hargs b). apply H. Qed.
  Lemma full_refl : forall x, full x x.
  Proof. intros x E. exact E. Qed.
  Lemma rc_self : forall r, r = rc (t_args r) (t_hargs r) r.
  Proof. intros []. reflexivity. Qed.
  Lemma Rr_refl : forall r, (is_section_cls (t_cls r) = true -> secname r) -> Rr r r.
  Proof. intros r H. split; auto using pads_refl, full_refl, rc_self. Qed.
  Lemma Rr_dummy : Rr dummy_t dummy_t.
  Proof. apply Rr_refl. discriminate. Qed.
  Lemma sim_get : forall i h1 h2, Forall2 Rr h1 h2 -> Rr (hget i h1) (hget i h2).
  Proof.
    intros i h1 h2 H. revert i. unfold hget. induction H as [|a b l1 l2 Hab H IH]; intros [|i]; cbn; try apply Rr_dummy; [exact Hab|apply IH].
  Qed.
  Lemma sim_upd : forall i a b h1 h2, Forall2 Rr h1 h2 -> Rr a b -> Forall2 Rr (upd i a h1) (upd i b h2).
  Proof.
    intros i a b h1 h2 H Hab. revert i. induction H as [|x y l1 l2 Hxy H IH]; intros [|i]; cbn; constructor; auto.
  Qed.

  (** ** heaps as seen by the code *)
  Definition heq (h1 h2 : list trec) : Prop := Forall2 Rr h1 h2.
  Lemma heq_get : forall i h1 h2, heq h1 h2 -> exists x y, hget i h2 = rc x y (hget i h1).
  Proof. intros i h1 h2 H. apply Rr_form, sim_get, H. Qed.
  Lemma heq_read : forall {A} (f : trec -> A) i h1 h2, (forall x y r, f (rc x y r) = f r) -> heq h1 h2 -> f (hget i h1) = f (hget i h2).
  Proof. intros A f i h1 h2 HF H. destruct (heq_get i _ _ H) as (x & y & ->). symmetry. apply HF. Qed.

  (** ** the monad *)
  Lemma rel_ret : forall {A} (V : A -> A -> Prop) a b, V a b -> rel V (ret a) (ret b).
  Proof. intros A V a b H s1 s2 S. split; [exact S|exact H]. Qed.
  Lemma rel_raise : forall {A} (V : A -> A -> Prop) e, rel V (raise e) (raise e).
  Proof. intros A V e s1 s2 S. split; [exact S|reflexivity]. Qed.
  Lemma rel_lift : forall {A} (x y : res A), x = y -> rel eq (lift x) (lift y).
  Proof. intros A x y <- s1 s2 S. split; [exact S|]. destruct x; reflexivity. Qed.
  Lemma rel_assert : forall a b, a = b -> rel eq (assert_ a) (assert_ b).
  Proof. intros a b <-. destruct a; [apply rel_ret; reflexivity|apply rel_raise]. Qed.
  Lemma rel_bind : forall {A B} (V : A -> A -> Prop) (W : B -> B -> Prop) m1 m2 k1 k2,
    rel V m1 m2 -> (forall a b, V a b -> rel W (k1 a) (k2 b)) -> rel W (bind m1 k1) (bind m2 k2).
  Proof.
    intros A B V W m1 m2 k1 k2 Hm Hk s1 s2 S. unfold bind. destruct (Hm s1 s2 S) as [S' R].
    destruct (m1 s1) as [s1' [a|e]], (m2 s2) as [s2' [b|e']]; cbn in S', R; try contradiction.
    - apply Hk; assumption.
    - split; assumption.
  Qed.
  Lemma rel_bind_eq : forall {A B} (W : B -> B -> Prop) (m1 m2 : MM A) k1 k2,
    rel eq m1 m2 -> (forall a, rel W (k1 a) (k2 a)) -> rel W (bind m1 k1) (bind m2 k2).
  Proof. intros A B W m1 m2 k1 k2 Hm Hk. eapply rel_bind; [exact Hm|]. intros a b <-. apply Hk. Qed.
  Lemma rel_when : forall b m1 m2, rel eq m1 m2 -> rel eq (when b m1) (when b m2).
  Proof. intros [|] m1 m2 H; [exact H|apply rel_ret; reflexivity]. Qed.
  Lemma rel_mapM : forall {A} (f g : A -> MM unit) l, (forall x, rel eq (f x) (g x)) -> rel eq (mapM_ f l) (mapM_ g l).
  Proof.
    intros A f g l H. induction l as [|x l IH]; [apply rel_ret; reflexivity|]. cbn [mapM_]. apply rel_bind_eq; [apply H|]. intros _. exact IH.
  Qed.

  (** ** the state *)
  Lemma rel_getT_V : forall i, rel Rr (getT i) (getT i).
  Proof. intros i s1 s2 S. split; [exact S|]. cbn. apply sim_get, S. Qed.
  (** a record read by code that does not look at its cells *)
  Lemma rel_getT : forall {A} (W : A -> A -> Prop) i k1 k2,
    (forall x y r, k2 (rc x y r) = k2 r) -> (forall r, rel W (k1 r) (k2 r)) ->
    rel W (bind (getT i) k1) (bind (getT i) k2).
  Proof.
    intros A W i k1 k2 HI HK. eapply rel_bind; [apply rel_getT_V|]. intros a b Hab. destruct (Rr_form _ _ Hab) as (x & y & ->). rewrite HI. apply HK.
  Qed.
  Lemma rel_heap : rel heq (gets s_heap) (gets s_heap).
  Proof. intros s1 s2 S. split; [exact S|]. apply S. Qed.
  Lemma rel_getD : rel eq getD getD.
  Proof. intros s1 s2 S. split; [exact S|]. apply S. Qed.
  Lemma rel_getP_V : rel Pr getP getP.
  Proof. intros s1 s2 S. split; [exact S|]. apply S. Qed.
  (** the parser read by code that does not look at the columns *)
  Lemma rel_getP : forall {A} (W : A -> A -> Prop) k1 k2,
    (forall x p, k2 (set_p_pmap x p) = k2 p) -> (forall p, rel W (k1 p) (k2 p)) ->
    rel W (bind getP k1) (bind getP k2).
  Proof.
    intros A W k1 k2 HI HK. eapply rel_bind; [apply rel_getP_V|]. intros p q Hpq. rewrite (pr_eq _ _ Hpq). rewrite HI. apply HK.
  Qed.
  Lemma rel_gets : forall {A} (f : st -> A), (forall s1 s2, sim s1 s2 -> f s1 = f s2) -> rel eq (gets f) (gets f).
  Proof. intros A f H s1 s2 S. split; [exact S|]. cbn. apply H, S. Qed.
  Lemma rel_reads : forall {A} (f : st -> res A), (forall s1 s2, sim s1 s2 -> f s1 = f s2) -> rel eq (PyBase.reads f) (PyBase.reads f).
  Proof. intros A f H s1 s2 S. split; [exact S|]. cbn. rewrite (H _ _ S). destruct (f s2); reflexivity. Qed.
  Lemma sec_modT : forall j i f s, (forall r, t_cls (f r) = t_cls r) -> sec_at j s -> sec_at j (fst (modT i f s)).
  Proof. intros j i f s H S. unfold sec_at in *. change (fst (modT i f s)) with (hmod i f s). rewrite (field_hmod t_cls) by exact H. exact S. Qed.
  Lemma rel_modT_V : forall i f g, (forall r, t_cls (f r) = t_cls r) -> (forall a b, Rr a b -> Rr (f a) (g b)) -> rel eq (modT i f) (modT i g).
  Proof.
    intros i f g HC H s1 s2 [Hh Hd Hp Hr Hs Ht Hu]. split; [|reflexivity]. split; try assumption.
    - cbn. apply sim_upd; [exact Hh|]. apply H. apply sim_get, Hh.
    - apply (sec_modT _ i f s1 HC), Ht.
    - intros n j Hj. apply (sec_modT _ i f s1 HC), (Hu n j Hj).
  Qed.
  (** an update that leaves the cells, the class and the name alone *)
  Definition plain_upd (f : trec -> trec) : Prop :=
    forall r, (forall x y, f (rc x y r) = rc x y (f r)) /\ t_cls (f r) = t_cls r /\ t_args (f r) = t_args r /\ t_hargs (f r) = t_hargs r
              /\ t_pt (f r) = t_pt r /\ t_rt (f r) = t_rt r.
  Lemma rel_modT : forall i f, plain_upd f -> rel eq (modT i f) (modT i f).
  Proof.
    intros i f H. apply rel_modT_V; [intros r; apply (H r)|]. intros a b [E A1 A2 A3 A4 A5 A6]. destruct (H a) as (C & Ec & Ea & Eh & Ep & Er). destruct (H b) as (_ & _ & Fa & Fh & _).
    split; rewrite ?Ea, ?Eh, ?Fa, ?Fh, ?Er, ?Ec; try assumption.
    - rewrite E at 1. apply C.
    - unfold secname. rewrite Ep, Er. exact A4.
  Qed.
  Definition plain_dupd (f : docrec -> docrec) : Prop :=
    forall d, d_decl_sections (f d) = d_decl_sections d /\ d_root (f d) = d_root d /\ d_sections (f d) = d_sections d.
  Lemma rel_modD : forall f, plain_dupd f -> rel eq (modD f) (modD f).
  Proof.
    intros f H s1 s2 [Hh Hd Hp Hr Hs Ht Hu]. split; [|reflexivity]. destruct (H (s_doc s1)) as (E1 & E2 & E3). split; try assumption; cbn.
    - rewrite Hd; reflexivity.
    - rewrite E1. exact Hs.
    - rewrite E2. exact Ht.
    - intros n i. rewrite E3. apply Hu.
  Qed.
  Lemma rel_modP : forall f g, (forall p q, Pr p q -> Pr (f p) (g q)) -> rel eq (modP f) (modP g).
  Proof. intros f g H s1 s2 [Hh Hd Hp Hr Hs Ht Hu]. split; [|reflexivity]. split; try assumption. cbn. apply H, Hp. Qed.
  Definition plain_pupd (f : prec -> prec) : Prop :=
    forall p, (forall x, f (set_p_pmap x p) = set_p_pmap x (f p)) /\ p_pmap (f p) = p_pmap p /\ p_dterms (f p) = p_dterms p.
  Lemma rel_modP1 : forall f, plain_pupd f -> rel eq (modP f) (modP f).
  Proof.
    intros f H. apply rel_modP. intros p q [E M Y]. destruct (H p) as (C & Em & Ed). destruct (H q) as (_ & Fm & _). split; rewrite ?Em, ?Fm, ?Ed; try assumption.
    rewrite E at 1. apply C.
  Qed.
  Lemma sec_push : forall i r s, sec_at i s -> sec_at i (push r s).
  Proof.
    intros i r s H. unfold sec_at in *. destruct (Nat.ltb_spec i (hlen s)) as [L|L]; [rewrite push_old by exact L; exact H|].
    unfold tget, hget in H. rewrite nth_overflow in H by exact L. discriminate H.
  Qed.
  Lemma rel_alloc : forall a b, Rr a b -> rel eq (allocT a) (allocT b).
  Proof.
    intros a b Hab s1 s2 [Hh Hd Hp Hr Hs Ht Hu]. split.
    - change (fst (allocT a s1)) with (push a s1). change (fst (allocT b s2)) with (push b s2). split; try assumption.
      + cbn. apply Forall2_app; [exact Hh|]. constructor; [exact Hab|constructor].
      + apply sec_push, Ht.
      + intros n i Hi. apply sec_push, (Hu n i Hi).
    - cbn. clear - Hh. induction Hh; cbn; congruence.
  Qed.

  (** ** pure readings of the heap *)
  Lemma heq_names : forall h1 h2 parent term, heq h1 h2 -> term_names h1 parent term = term_names h2 parent term.
  Proof.
    intros h1 h2 [i|] term H; unfold term_names; [|reflexivity]. rewrite (heq_read t_rt i _ _ (fun _ _ _ => eq_refl) H). reflexivity.
  Qed.
  Lemma heq_child_matches : forall h1 h2 n v c, heq h1 h2 -> child_matches h1 n v c = child_matches h2 n v c.
  Proof.
    intros h1 h2 n v c H. apply (heq_read (fun r => eqs (rt_lc r) (lower n) && match v with VFalse => true | _ => veq (t_val r) v end)); [reflexivity|exact H].
  Qed.
  Lemma find_ext' : forall {A} (f g : A -> bool) l, (forall x, f x = g x) -> find f l = find g l.
  Proof. intros A f g l H. induction l as [|x l IH]; [reflexivity|]. cbn. rewrite H, IH. reflexivity. Qed.
  Lemma rmap_ext' : forall {A B} (f g : A -> res B) l, (forall x, f x = g x) -> rmap f l = rmap g l.
  Proof. intros A B f g l H. induction l as [|x l IH]; [reflexivity|]. cbn. rewrite H, IH. reflexivity. Qed.
  Lemma rfilter_ext' : forall {A} (f g : A -> res bool) l, (forall x, f x = g x) -> rfilter f l = rfilter g l.
  Proof. intros A f g l H. induction l as [|x l IH]; [reflexivity|]. cbn. rewrite H, IH. reflexivity. Qed.

  Lemma heq_find_first : forall h1 h2 i term v, heq h1 h2 -> term_find_first h1 i term v = term_find_first h2 i term v.
  Proof.
    intros h1 h2 i term v H. unfold term_find_first.
    rewrite (heq_read (fun r => child_name r term) i _ _ (fun _ _ _ => eq_refl) H). destruct (child_name (hget i h2) term) as [n|e]; [|reflexivity]. cbn [rbind].
    rewrite (heq_read t_children i _ _ (fun _ _ _ => eq_refl) H). f_equal. apply find_ext'. intros c. apply heq_child_matches, H.
  Qed.
  Lemma heq_getitem : forall h1 h2 i item, heq h1 h2 -> term_getitem h1 i item = term_getitem h2 i item.
  Proof.
    intros h1 h2 i item H. unfold term_getitem. rewrite (heq_read (fun r => lower (t_tvn r)) i _ _ (fun _ _ _ => eq_refl) H), (heq_find_first _ _ _ _ _ H). reflexivity.
  Qed.
  Lemma Rr_sec_names : forall a b, Rr a b -> pads (sec_property_names a) (sec_property_names b).
  Proof.
    intros a b [E A1 A2 A3 A4 A5 A6]. unfold sec_property_names. destruct (t_hargs a) as [|x l] eqn:Ea.
    - rewrite (A3 eq_refl). exact A1.
    - destruct A2 as [n ->]. cbn. exists n. reflexivity.
  Qed.
  Lemma Rr_names : forall a b h1 h2, Rr a b -> heq h1 h2 -> pads (property_names h1 a) (property_names h2 b).
  Proof.
    intros a b h1 h2 H HQ. unfold property_names. destruct (Rr_form _ _ H) as (x & y & E). assert (Ec : t_cls b = t_cls a) by (rewrite E; reflexivity).
    assert (Es : t_section b = t_section a) by (rewrite E; reflexivity). rewrite Ec, Es. destruct (is_section_cls (t_cls a)); [apply Rr_sec_names, H|].
    destruct (t_section a) as [i|]; [|apply pads_refl]. apply Rr_sec_names, sim_get, HQ.
  Qed.
  Lemma heq_length : forall h1 h2, heq h1 h2 -> List.length h1 = List.length h2.
  Proof. intros h1 h2 H. induction H; cbn; congruence. Qed.
  Lemma heq_desc : forall h1 h2, heq h1 h2 -> forall n i, descendents n h1 i = descendents n h2 i.
  Proof.
    intros h1 h2 H n. induction n as [|n IH]; intros i; [reflexivity|]. cbn [descendents].
    rewrite (heq_read t_children i _ _ (fun _ _ _ => eq_refl) H). induction (t_children (hget i h2)) as [|c cs IHc]; [reflexivity|].
    rewrite IH, IHc. reflexivity.
  Qed.
  Lemma heq_section_terms : forall h1 h2, heq h1 h2 -> forall i, section_all_terms h1 i = section_all_terms h2 i.
  Proof.
    intros h1 h2 H i. unfold section_all_terms, heap_fuel. rewrite (heq_length _ _ H).
    rewrite (heq_read t_terms i _ _ (fun _ _ _ => eq_refl) H), (heq_read t_val i _ _ (fun _ _ _ => eq_refl) H).
    erewrite rmap_ext'; [reflexivity|]. intros t. cbn beta. rewrite (heq_desc _ _ H). reflexivity.
  Qed.
  Lemma heq_in_section : forall h1 h2 r sa, heq h1 h2 -> in_section h1 r sa = in_section h2 r sa.
  Proof.
    intros h1 h2 r sa H. unfold in_section. destruct sa as [|n|l]; [reflexivity| |]; destruct (t_section r) as [i|]; try reflexivity.
    - rewrite (heq_read t_val i _ _ (fun _ _ _ => eq_refl) H). reflexivity.
    - rewrite (heq_read t_val i _ _ (fun _ _ _ => eq_refl) H). reflexivity.
  Qed.
  Lemma heq_find_test : forall h1 h2 term v sa i, heq h1 h2 -> find_test h1 term v sa i = find_test h2 term v sa i.
  Proof.
    intros h1 h2 term v sa i H. unfold find_test. cbv zeta. destruct (heq_get i _ _ H) as (x & y & ->).
    rewrite (heq_in_section h1 h2 _ _ H). reflexivity.
  Qed.
  Lemma sim_find1 : forall s1 s2 term v sa, sim s1 s2 -> find1 s1 term v sa = find1 s2 term v sa.
  Proof.
    intros s1 s2 term v sa [Hh Hd Hp Hr Hs Ht Hu]. change (heq (s_heap s1) (s_heap s2)) in Hh. unfold find1, all_terms. cbv zeta. rewrite Hd.
    erewrite (rmap_ext' (fun kv => section_all_terms (s_heap s1) (snd kv))); [|intros kv; apply heq_section_terms, Hh].
    destruct (if startswith _ _ then _ else _) as [l|e]; [|reflexivity]. cbn [rbind]. apply rfilter_ext'. intros i. apply heq_find_test, Hh.
  Qed.
  Lemma sim_doc_find : forall s1 s2 term v sa, sim s1 s2 -> doc_find s1 term v sa = doc_find s2 term v sa.
  Proof.
    intros s1 s2 term v sa S. unfold doc_find, find_list. rewrite (sm_doc _ _ S).
    destruct (dget _ _) as [ds|]; [|apply sim_find1, S]. erewrite rmap_ext'; [reflexivity|]. intros e. apply sim_find1, S.
  Qed.
  Lemma sim_val : forall s1 s2 i, sim s1 s2 -> t_val (tget i s1) = t_val (tget i s2).
  Proof. intros s1 s2 i S. exact (heq_read t_val i _ _ (fun _ _ _ => eq_refl) (sm_heap _ _ S)). Qed.
  Lemma sim_section_get_term : forall s1 s2 sec term v, sim s1 s2 -> section_get_term s1 sec term v = section_get_term s2 sec term v.
  Proof.
    intros s1 s2 sec term v S. unfold section_get_term, doc_find_first, section_name. rewrite (sim_val _ _ sec S), (sim_doc_find _ _ _ _ _ S). reflexivity.
  Qed.
  Lemma sim_class : forall name s1 s2, sim s1 s2 -> doc_term_class name s1 = doc_term_class name s2.
  Proof. intros name s1 s2 S. unfold doc_term_class. rewrite (sm_doc _ _ S), (sm_reg _ _ S). reflexivity. Qed.
  Lemma Pr_dterms : forall p q, Pr p q -> p_dterms p = p_dterms q.
  Proof. intros p q [E _ _]. rewrite E. reflexivity. Qed.
  Lemma sim_super : forall s1 s2, sim s1 s2 -> super_terms s1 = super_terms s2.
  Proof. intros s1 s2 S. unfold super_terms. rewrite (sm_doc _ _ S), (Pr_dterms _ _ (sm_prs _ _ S)). reflexivity. Qed.
  Lemma sim_pclass : forall name s1 s2, sim s1 s2 -> parser_term_class name s1 = parser_term_class name s2.
  Proof. intros name s1 s2 S. unfold parser_term_class. rewrite (sim_super _ _ S), (sm_reg _ _ S). reflexivity. Qed.

  (** ** the operations *)
  Ltac pu := intros ?; repeat split; reflexivity.
  Ltac rstep :=
    match goal with
    | |- forall _, _ => intro
    | |- rel _ (bind (getT _) _) (bind (getT _) _) => apply rel_getT; [intros; reflexivity|intro]
    | |- rel _ (bind getP _) (bind getP _) => apply rel_getP; [intros; reflexivity|intro]
    | |- rel _ (bind (gets s_heap) _) _ => eapply rel_bind; [apply rel_heap|let h1 := fresh "h1" in let h2 := fresh "h2" in let H := fresh "HQ" in intros h1 h2 H]
    | |- rel _ (bind _ _) _ => apply rel_bind_eq; [|intro]
    | |- rel _ (ret _) _ => apply rel_ret; reflexivity
    | |- rel _ (raise _) _ => apply rel_raise
    | |- rel _ (lift _) _ => apply rel_lift; try reflexivity
    | |- rel _ (assert_ _) _ => apply rel_assert; try reflexivity
    | |- rel _ (when _ _) _ => apply rel_when
    | |- rel _ (modT _ _) _ => apply rel_modT; pu
    | |- rel _ (modD _) _ => apply rel_modD; pu
    | |- rel _ (modP _) _ => apply rel_modP1; pu
    | |- rel _ getD _ => apply rel_getD
    | |- rel _ (gets (doc_term_class _)) _ => apply rel_gets; apply sim_class
    | |- rel _ (gets (parser_term_class _)) _ => apply rel_gets; apply sim_pclass
    | |- rel _ (mapM_ _ _) _ => apply rel_mapM; intro
    | |- rel _ (if ?b then _ else _) (if ?b then _ else _) => destruct b
    | |- rel _ (match ?x with _ => _ end) (match ?x with _ => _ end) => destruct x
    end.

  Lemma r_add_child : forall p c, rel eq (add_child p c) (add_child p c).
  Proof. intros p c. unfold add_child. repeat rstep. Qed.

  Lemma bind_ok_run : forall {A B} (m : MM A) (k : A -> MM B) s a, snd (m s) = Ok a -> bind m k s = k a (fst (m s)).
  Proof. intros A B m k s a H. unfold bind. destruct (m s) as [s' r]. cbn in *. subst r. reflexivity. Qed.

  Lemma r_add_section : forall i, rel eq (add_section i) (add_section i).
  Proof.
    intros i. unfold add_section. rstep; [rstep|]. intros s1 s2 S. rewrite !(bind_ok_run (getT i) _ _ _ eq_refl). cbn [getT gets fst].
    assert (HR : Rr (tget i s1) (tget i s2)) by (apply sim_get, S). destruct (Rr_form _ _ HR) as (x & y & E). rewrite E.
    change (t_cls (rc x y (tget i s1))) with (t_cls (tget i s1)). change (t_val (rc x y (tget i s1))) with (t_val (tget i s1)).
    destruct (is_section_cls (t_cls (tget i s1))) eqn:K; [|split; [exact S|reflexivity]]. cbn [assert_].
    rewrite !(bind_ok_run (ret tt) _ _ tt eq_refl). cbn [ret fst]. destruct (as_str (t_val (tget i s1))) as [n|er]; [|split; [exact S|reflexivity]].
    rewrite !(bind_ok_run (lift (Ok n)) _ _ n eq_refl). cbn [lift fst]. rewrite !(bind_ok_run getD _ _ _ eq_refl). cbn [getD gets fst]. rewrite <- (sm_doc _ _ S).
    destruct (dget (lower n) (d_sections (s_doc s1))) as [j|]; [split; [exact S|reflexivity]|].
    rewrite !(bind_ok_run (modD _) _ _ tt eq_refl). split; [|reflexivity]. destruct S as [Hh Hd Hp Hr Hs Ht Hu]. split; try assumption; cbn.
    - rewrite Hd. reflexivity.
    - intros m j. rewrite dget_dset. eqs_cases m (lower n); [|apply Hu]. intros X. injection X as <-. exact K.
  Qed.

  (** cells of a new term named [term] *)
  Definition args_ok (term : string) (x y : list string) : Prop :=
    pads x y /\ forall p r, split_term_lower term = Ok (p, r) -> (lower r = "header" -> full x y) /\ (py_int r <> None -> x = y).
  Lemma args_refl : forall term x, args_ok term x x.
  Proof. intros term x. split; [apply pads_refl|]. intros p r _. split; [intros _; apply full_refl|reflexivity]. Qed.
  Lemma full_strip : forall x y, full x y -> full (map strip x) (map strip y).
  Proof. intros x y H E. destruct x; [|discriminate E]. rewrite (H eq_refl). reflexivity. Qed.

  Lemma r_mk_plain : forall c term v args1 args2 row col ft parent doc sec, args_ok term args1 args2 -> is_section_cls c = false ->
    rel eq (mk_plain c term v args1 row col ft parent doc sec) (mk_plain c term v args2 row col ft parent doc sec).
  Proof.
    intros c term v args1 args2 row col ft parent doc sec [HP HA] HC. unfold mk_plain. rstep. rewrite <- (heq_names _ _ parent term HQ).
    destruct (term_names h1 parent term) as [[p r]|er] eqn:ET; [|intros s1 s2 S; split; [exact S|reflexivity]].
    intros s1 s2 S. rewrite !(bind_ok_run (lift (Ok (p, r))) _ _ (p, r) eq_refl). cbn [lift fst]. revert s1 s2 S.
    match goal with |- forall u1 u2, sim u1 u2 -> sim (fst (?m1 u1)) (fst (?m2 u2)) /\ _ => change (rel eq m1 m2) end.
    apply rel_bind_eq.
    { apply rel_assert. destruct parent as [i|]; [|reflexivity]. rewrite (heq_read rt_lc i _ _ (fun _ _ _ => eq_refl) HQ). reflexivity. }
    intros _. apply rel_alloc. unfold term_names in ET. destruct (split_term_lower term) as [[p0 r0]|er]; [|discriminate ET]. cbn in ET. injection ET as _ <-.
    destruct (HA _ _ eq_refl) as [H1 H2]. split; cbn.
    - reflexivity.
    - apply pads_strip, HP.
    - apply pads_refl.
    - apply full_refl.
    - rewrite HC. discriminate.
    - intros K. apply full_strip, H1, K.
    - intros K. rewrite (H2 K). reflexivity.
  Qed.

  Lemma term_is_name_sec : forall p r v, v = "Root.Section" \/ v = "Root.Root" -> term_is_name p r v = Ok true ->
    dotted (lower p) (lower r) = lower v.
  Proof.
    intros p r v [->| ->] H; unfold term_is_name in H; cbn in H; injection H as H;
      destruct (eqs (dotted (lower p) (lower r)) _) eqn:E; try (apply eqs_true in E; exact E);
      repeat match type of H with context [if ?b then _ else _] => destruct b eqn:?; try discriminate H end; discriminate H.
  Qed.
  Lemma split_lower_id : forall term p r, split_term_lower term = Ok (p, r) -> lower p = p /\ lower r = r.
  Proof.
    intros term p r H. unfold split_term_lower in H. destruct (split_term term) as [[a b]|e]; [|discriminate H]. cbn in H. injection H as <- <-.
    split; apply lower_idem.
  Qed.

  (** cells of a new section: the declared ones if there are none *)
  Definition sec_pr (p r : string) : Prop := p = "root" /\ (r = "section" \/ r = "root").
  Definition heads_ok (term : string) (v : val) (x y : list string) : Prop :=
    x = y \/ pads x y /\ exists n, v = VStr n /\ forall p r, split_term_lower term = Ok (p, r) -> sec_pr p r -> full x y \/ declared_columns DS n = [].

  Definition cells_of (n : string) (d : docrec) (args : list string) : list string := match args with [] => section_args n d | _ => args end.
  Lemma r_mk_section : forall c term v args1 args2 row ft, is_section_cls c = true -> heads_ok term v args1 args2 ->
    rel eq (mk_section c term v args1 row ft) (mk_section c term v args2 row ft).
  Proof.
    intros c term v args1 args2 row ft HC HH s1 s2 S. unfold mk_section.
    rewrite !(bind_ok_run getD _ _ _ eq_refl). cbn [getD gets fst]. rewrite <- (sm_doc _ _ S).
    assert (AL : forall sargs1 sargs2 p r, split_term_lower term = Ok (p, r) -> sec_pr p r -> pads sargs1 sargs2 ->
        rel eq (allocT (mk_trec c None term p r (init_val v) (map strip sargs1) None true ft row row "@value" "any" None [] [] [] [] "@value"))
               (allocT (mk_trec c None term p r (init_val v) (map strip sargs2) None true ft row row "@value" "any" None [] [] [] [] "@value"))).
    { intros x y p r ES HS HP. apply rel_alloc. split; cbn.
      - reflexivity.
      - apply pads_strip, HP.
      - apply pads_refl.
      - apply full_refl.
      - intros _. exact HS.
      - destruct HS as [_ [-> | ->]]; discriminate.
      - intros K. exfalso. destruct HS as [_ [-> | ->]]; apply K; reflexivity. }
    assert (KK : forall sargs1 sargs2, (forall p r, split_term_lower term = Ok (p, r) -> sec_pr p r -> pads sargs1 sargs2) ->
      let m sargs := (' (p, r) <- lift (split_term_lower term) ;;
        b1 <- lift (term_is_name p r "Root.Section") ;;
        b2 <- (if b1 then ret true else lift (term_is_name p r "Root.Root")) ;;
        assert_ (b1 || b2) ;;;
        allocT (mk_trec c None term p r (init_val v) (map strip sargs) None true ft row row "@value" "any" None [] [] [] [] "@value")) in
      rel eq (m sargs1) (m sargs2)).
    { intros x y HXY. cbv zeta. clear s1 s2 S. intros s1 s2 S. destruct (split_term_lower term) as [[p r]|er] eqn:ES; [|split; [exact S|reflexivity]].
      assert (HS : forall w, (w = "Root.Section" \/ w = "Root.Root") -> term_is_name p r w = Ok true -> sec_pr p r).
      { intros w Hw T. destruct (split_lower_id _ _ _ ES) as [K1 K2]. pose proof (term_is_name_sec _ _ _ Hw T) as D. rewrite K1, K2 in D. unfold sec_pr.
        destruct Hw as [-> | ->]; [destruct (dotted_one p r "root" "section" D eq_refl eq_refl)|destruct (dotted_one p r "root" "root" D eq_refl eq_refl)]; auto. }
      unfold bind, lift, assert_. destruct (term_is_name p r "Root.Section") as [[|]|e1] eqn:E1.
      - cbn [orb]. unfold ret. assert (Q : sec_pr p r) by (apply (HS "Root.Section"); auto). exact (AL _ _ _ _ eq_refl Q (HXY _ _ eq_refl Q) s1 s2 S).
      - destruct (term_is_name p r "Root.Root") as [[|]|e2] eqn:E2; cbn [orb]; unfold ret, raise.
        + assert (Q : sec_pr p r) by (apply (HS "Root.Root"); auto). exact (AL _ _ _ _ eq_refl Q (HXY _ _ eq_refl Q) s1 s2 S).
        + split; [exact S|reflexivity].
        + split; [exact S|reflexivity].
      - split; [exact S|reflexivity]. }
    destruct HH as [<-|(HP & n & -> & HH)].
    - revert s1 s2 S. intros s1 s2 S. destruct args1 as [|a args1].
      + destruct (as_str v) as [n|er]; [|split; [exact S|reflexivity]]. apply (KK _ _ (fun _ _ _ _ => pads_refl _) s1 s2 S).
      + apply (KK _ _ (fun _ _ _ _ => pads_refl _) s1 s2 S).
    - assert (E : forall args (k : list string -> MM nat) s0,
        bind (match args with [] => name <- lift (as_str (VStr n)) ;; ret (section_args name (s_doc s1)) | _ => ret args end) k s0 = k (cells_of n (s_doc s1) args) s0).
      { intros [|a l] k s0; reflexivity. }
      rewrite !E. clear E. apply KK; [|exact S].
      intros p r E1 E2. specialize (HH p r E1 E2). destruct HP as [k ->]. unfold cells_of. destruct args1 as [|a args1]; [|exists k; reflexivity].
      cbn [app] in HH |- *. destruct HH as [HH|HH].
      + rewrite (HH eq_refl). apply pads_refl.
      + assert (SA : section_args n (s_doc s1) = []) by (unfold section_args; rewrite (sm_ds _ _ S); exact HH). rewrite SA.
        destruct (repeat "" k) eqn:RK; [apply pads_refl|]. rewrite <- RK. exists k. reflexivity.
  Qed.

  Lemma r_construct : forall c term v args1 args2 row col ft parent doc sec, args_ok term args1 args2 -> heads_ok term v args1 args2 ->
    rel eq (construct c term v args1 row col ft parent doc sec) (construct c term v args2 row col ft parent doc sec).
  Proof.
    intros c term v args1 args2 row col ft parent doc sec HA HH. unfold construct.
    destruct c; try (apply r_mk_plain; [exact HA|reflexivity]); [|apply rel_raise].
    destruct parent; [apply rel_raise|]. destruct sec; [apply rel_raise|]. destruct doc; [|apply rel_raise].
    apply r_mk_section; [reflexivity|exact HH].
  Qed.
  Lemma r_construct_same : forall c term v args row col ft parent doc sec,
    rel eq (construct c term v args row col ft parent doc sec) (construct c term v args row col ft parent doc sec).
  Proof. intros. apply r_construct; [apply args_refl|left; reflexivity]. Qed.

  Lemma r_goc_check : forall i rt c, rel eq (goc_check i rt c) (goc_check i rt c).
  Proof. intros i rt c. unfold goc_check. rstep. rstep; [apply rel_lift, heq_find_first, HQ|]. repeat rstep. Qed.

  Lemma r_goc0 : forall i term v, rel eq (get_or_new_child0 i term v) (get_or_new_child0 i term v).
  Proof.
    intros i term v. unfold get_or_new_child0. rstep; [repeat rstep|]. destruct a as [x rt]. rstep. cbv zeta. rstep. rstep; [apply rel_lift, heq_find_first, HQ|].
    rstep; [|rstep; [apply r_goc_check|repeat rstep]].
    destruct a as [c|].
    - repeat rstep.
    - rstep; [repeat rstep|]. rstep; [repeat rstep|]. rstep; [apply r_construct_same|]. repeat rstep.
  Qed.

  Lemma r_set_child_item : forall i item v, rel eq (set_child_item i item v) (set_child_item i item v).
  Proof.
    intros i item v. unfold set_child_item. rstep; [apply r_goc0|]. rstep. rstep; [apply rel_lift, heq_getitem, HQ|].
    cbv zeta. rstep. rewrite (heq_read t_val a0 _ _ (fun _ _ _ => eq_refl) HQ). reflexivity.
  Qed.

  Lemma r_set_section_plain : forall t i, rel eq (set_section_plain t i) (set_section_plain t i).
  Proof.
    intros t i. unfold set_section_plain. eapply rel_bind; [apply rel_getT_V|]. intros r r' HR. rstep.
    rewrite (pads_mem "section" _ _ eq_refl (Rr_names _ _ _ _ HR HQ)). destruct (Rr_form _ _ HR) as (x & y & ->).
    change (t_tvn (rc x y r)) with (t_tvn r). destruct (eqs (lower (t_tvn r)) "section"); [repeat rstep|].
    destruct (mem_str _ _); [apply r_set_child_item|repeat rstep].
  Qed.

  Lemma r_set_ownership : forall n t, rel eq (set_ownership n t) (set_ownership n t).
  Proof. induction n as [|n IH]; intros t; [apply rel_raise|]. cbn [set_ownership]. repeat rstep. apply IH. Qed.

  Lemma r_add_term_meta : forall t, rel eq (add_term_meta t) (add_term_meta t).
  Proof.
    intros t. unfold add_term_meta. rstep. rstep; [repeat rstep|]. cbv zeta. rstep; [repeat rstep|]. rstep; [repeat rstep|]. rstep.
    assert (E : match t_section r with Some s => t_dtvn (hget s h1) | None => "" end = match t_section r with Some s => t_dtvn (hget s h2) | None => "" end).
    { destruct (t_section r) as [i|]; [|reflexivity]. exact (heq_read t_dtvn i _ _ (fun _ _ _ => eq_refl) HQ). }
    rstep; [|repeat rstep]. rewrite E. destruct (eqs (t_tvn r) "" || _); [|repeat rstep].
    repeat rstep.
  Qed.

  Lemma r_add_term_list : forall t, rel eq (add_term_list t) (add_term_list t).
  Proof.
    intros t. unfold add_term_list. rstep; [repeat rstep|]. rstep; [repeat rstep|]. destruct (mem_id _ _); [repeat rstep|].
    rstep. rstep; [repeat rstep|]. rstep; [|repeat rstep]. destruct (is_section_cls (t_cls r)); [|repeat rstep]. rstep; [apply r_add_section|repeat rstep].
  Qed.

  Lemma r_nosec : forall t, rel eq (doc_add_term_nosec t) (doc_add_term_nosec t).
  Proof. intros t. unfold doc_add_term_nosec. rstep; [apply r_add_term_list|]. rstep. apply r_add_term_meta. Qed.

  Lemma r_section_add_term : forall sec t, rel eq (section_add_term sec t) (section_add_term sec t).
  Proof.
    intros sec t. unfold section_add_term. rstep. rstep. rstep; [|repeat rstep]. destruct (mem_id _ _); [repeat rstep|]. destruct (eqs _ _); [|apply rel_raise].
    rstep; [repeat rstep|]. rstep; [repeat rstep|]. rstep; [apply r_nosec|]. rstep. unfold heap_fuel. rewrite (heq_length _ _ HQ). apply r_set_ownership.
  Qed.

  Lemma r_doc_add_term : forall t, rel eq (doc_add_term t) (doc_add_term t).
  Proof.
    intros t. unfold doc_add_term. rstep; [apply r_add_term_list|]. rstep. rstep. rstep; [|apply r_add_term_meta].
    destruct (t_section r) as [i|]; [|repeat rstep]. destruct (eqs _ _); [|repeat rstep]. rstep; [apply r_add_section|]. rstep; [apply r_set_section_plain|].
    rstep. destruct (t_section r0); [apply r_section_add_term|apply rel_raise].
  Qed.

  Lemma r_new_child0 : forall i term v, rel eq (new_child0 i term v) (new_child0 i term v).
  Proof.
    intros i term v. unfold new_child0. rstep. rstep; [repeat rstep|]. rstep; [repeat rstep|]. rstep; [apply r_construct_same|]. rstep; [repeat rstep|].
    rstep; [|repeat rstep]. apply rel_modT. intros q. split; [|split; [|split; [|split; [|split]]]]; intros; cbv beta;
      try change (tjoin (rc x y q)) with (tjoin q);
      destruct (dget (tjoin q) (d_decl_terms a2)) as [td|]; try reflexivity; destruct (dget "termvaluename" (td_props td)); reflexivity.
  Qed.
  Lemma r_new_children : forall i kw, rel eq (new_children i kw) (new_children i kw).
  Proof. intros i kw. unfold new_children. rstep. rstep; [apply r_new_child0|repeat rstep]. Qed.

  Lemma r_new_term : forall sec term v kw, rel eq (Ops.new_term sec term v kw) (Ops.new_term sec term v kw).
  Proof.
    intros sec term v kw. unfold Ops.new_term. rstep. rstep; [repeat rstep|]. rstep; [repeat rstep|]. rstep; [apply r_construct_same|].
    rstep; [apply r_new_children|]. rstep; [apply r_doc_add_term|repeat rstep].
  Qed.
  Lemma r_goc_term : forall sec term v kw, rel eq (get_or_new_term sec term v kw) (get_or_new_term sec term v kw).
  Proof.
    intros sec term v kw. unfold get_or_new_term. rstep; [apply rel_reads; intros s1 s2; apply sim_section_get_term|].
    destruct a as [t|]; [|apply r_new_term]. rstep; [repeat rstep|]. rstep; [|repeat rstep]. rstep. rstep; [apply r_goc0|repeat rstep].
  Qed.
  Lemma r_set_section_sec : forall t o, rel eq (set_section_sec t o) (set_section_sec t o).
  Proof.
    intros t o. unfold set_section_sec, section_setitem. eapply rel_bind; [apply rel_getT_V|]. intros r r' HR.
    rewrite (pads_mem "section" _ _ eq_refl (Rr_sec_names _ _ HR)). destruct (Rr_form _ _ HR) as (x & y & ->).
    change (t_tvn (rc x y r)) with (t_tvn r). destruct (eqs _ _); [repeat rstep|]. destruct (mem_str _ _); [|repeat rstep].
    rstep; [apply r_goc_term|repeat rstep].
  Qed.
  Lemma r_set_section : forall t o, rel eq (set_section t o) (set_section t o).
  Proof.
    intros t o. unfold set_section. rstep. destruct (is_section_cls _); [apply r_set_section_sec|]. destruct o; [apply r_set_section_plain|repeat rstep].
  Qed.

  (** ** the consumer *)
  (** runs from states in which [P] holds *)
  Definition relS {A} (P : st -> Prop) (V : A -> A -> Prop) (m1 m2 : MM A) : Prop :=
    forall s1 s2, sim s1 s2 -> P s1 -> sim (fst (m1 s1)) (fst (m2 s2)) /\ rres V (snd (m1 s1)) (snd (m2 s2)).
  Lemma relS_rel : forall {A} P (V : A -> A -> Prop) m1 m2, rel V m1 m2 -> relS P V m1 m2.
  Proof. intros A P V m1 m2 H s1 s2 S _. apply H, S. Qed.
  Lemma relS_bind : forall {A B} (P : st -> Prop) (Q : A -> st -> Prop) (W : B -> B -> Prop) m1 m2 k1 k2,
    relS P eq m1 m2 -> (forall s1 s2 s' a, sim s1 s2 -> P s1 -> m1 s1 = (s', Ok a) -> Q a s') ->
    (forall a, relS (Q a) W (k1 a) (k2 a)) -> relS P W (bind m1 k1) (bind m2 k2).
  Proof.
    intros A B P Q W m1 m2 k1 k2 Hm HQ Hk s1 s2 S HP. unfold bind. destruct (Hm s1 s2 S HP) as [S' R]. specialize (fun s' a => HQ s1 s2 s' a S HP).
    destruct (m1 s1) as [s1' [a|e]], (m2 s2) as [s2' [b|e']]; cbn in S', R; try contradiction.
    - subst b. apply Hk; [exact S'|]. apply HQ. reflexivity.
    - split; assumption.
  Qed.
  (** a condition kept by growing states *)
  Definition stable (P : st -> Prop) : Prop := forall s s', grown s s' -> P s -> P s'.
  Lemma relS_then : forall {A B} (P : st -> Prop) (W : B -> B -> Prop) (m1 m2 : MM A) k1 k2,
    stable P -> relS P eq m1 m2 -> pres grown m1 -> (forall a, relS P W (k1 a) (k2 a)) -> relS P W (bind m1 k1) (bind m2 k2).
  Proof. intros A B P W m1 m2 k1 k2 HS Hm HG Hk. eapply relS_bind; [exact Hm| |exact Hk]. intros s1 s2 s' a _ HP H. eapply HS; [eapply HG; exact H|exact HP]. Qed.

  (** [t] is not a term of a declaration file, or a section *)
  Definition nodecl (t : nat) (s : st) : Prop := t < hlen s /\ (t_ftype (tget t s) = Some "declare" -> sec_at t s).
  Lemma nodecl_stable : forall t, stable (nodecl t).
  Proof.
    intros t s s' (_ & _ & L & C) [H1 H2]. split; [lia|]. specialize (C t H1). unfold core in C. injection C as C1 _ _ _ C5 _. unfold sec_at in *. rewrite C1, C5. exact H2.
  Qed.
  (** [t] can be emitted *)
  Definition epre (t : nat) (s : st) : Prop := nodecl t s /\ canon (t_rt (tget t s)).

  Lemma g_set_section : forall t o, pres grown (set_section t o).
  Proof. intros. apply w_set_section; auto using grown_po, grown_push, grown_hmod, grown_dmod, grown_sec, grown_pmod. Qed.
  Lemma g_normal : forall t, pres grown (consume_normal t).
  Proof. intros. apply w_normal; auto using grown_po, grown_push, grown_hmod, grown_dmod, grown_sec, grown_pmod. Qed.
  Lemma g_rename : forall t, pres grown (rename_term t).
  Proof. intros. apply w_rename; auto using grown_po, grown_push, grown_hmod, grown_dmod, grown_sec, grown_pmod. Qed.

  Lemma set_rt_id : forall r n, t_rt r = n -> set_t_rt n r = r.
  Proof. intros [] n <-. reflexivity. Qed.
  Lemma upd_hget : forall i h, upd i (hget i h) h = h.
  Proof. intros i h. unfold hget. revert i. induction h as [|x h IH]; intros [|i]; cbn; try reflexivity. f_equal. apply IH. Qed.
  (** the new name, as seen in the heap *)
  Lemma rename_at : forall t s k, synonyms (p_dterms (s_prs s)) = [] -> t_rt (tget t s) = str_of_nat k ->
    rename_term t s = (hmod t (set_t_rt (nth k (p_pmap (s_prs s)) (str_of_nat k))) s, Ok tt).
  Proof.
    intros t s k SY E. unfold rename_term, bind, getT, getP, gets. rewrite SY. cbn [dget]. unfold ret. rewrite E, py_int_str. unfold pindex.
    destruct (Z.ltb_spec (Z.of_nat k) 0) as [L|_]; [lia|]. rewrite Nat2Z.id.
    destruct (nth_error (p_pmap (s_prs s)) k) as [n|] eqn:EN.
    - rewrite (nth_error_nth _ _ _ EN). reflexivity.
    - apply nth_error_None in EN. rewrite nth_overflow by exact EN. f_equal. symmetry. unfold hmod. rewrite (set_rt_id _ _ E). unfold tget. rewrite upd_hget. destruct s. reflexivity.
  Qed.

  Lemma r_rename : forall t, relS (epre t) eq (rename_term t) (rename_term t).
  Proof.
    intros t s1 s2 S [[HL HD] HC]. assert (HR : Rr (tget t s1) (tget t s2)) by (apply sim_get, S).
    assert (ER : t_rt (tget t s2) = t_rt (tget t s1)) by (destruct (Rr_form _ _ HR) as (x & y & ->); reflexivity).
    assert (SY : synonyms (p_dterms (s_prs s1)) = []) by apply (sm_prs _ _ S).
    assert (SY2 : synonyms (p_dterms (s_prs s2)) = []) by (rewrite <- (Pr_dterms _ _ (sm_prs _ _ S)); exact SY).
    destruct HC as [HC|[k HC]].
    - rewrite (rename_id t s1 SY HC), (rename_id t s2 SY2) by (rewrite ER; exact HC). split; [exact S|reflexivity].
    - rewrite (rename_at t s1 k SY HC), (rename_at t s2 k SY2) by (rewrite ER; exact HC). split; [|reflexivity]. cbn [fst].
      rewrite <- (pr_map _ _ (sm_prs _ _ S) k). set (n := nth k _ _).
      assert (NUM : py_int (t_rt (tget t s1)) <> None) by (rewrite HC, py_int_str; discriminate).
      destruct S as [Hh Hd Hp Hr Hs Ht Hu]. split; try assumption.
      + apply sim_upd; [exact Hh|]. destruct HR as [E A1 A2 A3 A4 A5 A6]. specialize (A6 NUM). split; cbn; try assumption.
        * rewrite E at 1. reflexivity.
        * intros K. exfalso. destruct (A4 K) as [_ [K1|K1]]; rewrite K1 in NUM; apply NUM; reflexivity.
        * intros _. rewrite A6. apply full_refl.
        * intros _. exact A6.
      + exact (sec_modT _ t (set_t_rt n) s1 (fun _ => eq_refl) Ht).
      + intros m j Hj. exact (sec_modT _ t (set_t_rt n) s1 (fun _ => eq_refl) (Hu m j Hj)).
  Qed.

  Lemma r_set_meta : forall t, rel eq (set_meta t) (set_meta t).
  Proof. intros t. unfold set_meta. rstep. apply rel_modT. pu. Qed.

  Definition not_sec (t : nat) (s : st) : Prop := is_section_cls (t_cls (tget t s)) = false.

  Lemma sim_modT_at : forall t f g s1 s2, sim s1 s2 -> (forall r, t_cls (f r) = t_cls r) -> Rr (f (tget t s1)) (g (tget t s2)) -> sim (fst (modT t f s1)) (fst (modT t g s2)).
  Proof.
    intros t f g s1 s2 [Hh Hd Hp Hr Hs Ht Hu] HC H. split; try assumption.
    - cbn. apply sim_upd; assumption.
    - apply (sec_modT _ t f s1 HC), Ht.
    - intros n i Hi. apply (sec_modT _ t f s1 HC), (Hu n i Hi).
  Qed.

  Lemma r_attach : forall t, relS (not_sec t) eq (attach t) (attach t).
  Proof.
    intros t s1 s2 S HT.
    assert (HR : Rr (tget t s1) (tget t s2)) by (apply sim_get, S). destruct (Rr_form _ _ HR) as (x & y & E).
    unfold attach. rewrite !(bind_ok_run (getT t) _ _ _ eq_refl). cbn [getT gets fst]. rewrite E.
    change (t_pt (rc x y (tget t s1))) with (t_pt (tget t s1)). change (t_rt (rc x y (tget t s1))) with (t_rt (tget t s1)). change (t_col (rc x y (tget t s1))) with (t_col (tget t s1)).
    destruct (eqs (t_pt (tget t s1)) ELIDED_TERM) eqn:EE.
    - rewrite !(bind_ok_run getP _ _ _ eq_refl). cbn [getP gets fst]. assert (EP := pr_eq _ _ (sm_prs _ _ S)).
      assert (E1 : p_lastparent (s_prs s2) = p_lastparent (s_prs s1)) by (rewrite EP; reflexivity). assert (E2 : p_tmap (s_prs s2) = p_tmap (s_prs s1)) by (rewrite EP; reflexivity).
      rewrite E1, E2. rewrite !(bind_ok_run (modT t _) _ _ tt eq_refl).
      assert (S' : sim (fst (modT t (set_t_pt (p_lastparent (s_prs s1))) s1)) (fst (modT t (set_t_pt (p_lastparent (s_prs s1))) s2))).
      { apply sim_modT_at; [exact S|reflexivity|]. destruct HR as [X A1 A2 A3 A4 A5 A6]. split; cbn; try assumption.
        - rewrite E at 1. rewrite E. reflexivity.
        - intros K. unfold not_sec in HT. congruence. }
      destruct (dget _ _); [apply r_add_child; exact S'|split; [exact S'|reflexivity]].
    - destruct (t_col (tget t s1)) as [c|].
      + destruct (Nat.ltb 1 c).
        * revert s1 s2 S HT HR E EE. intros s1 s2 S _ _ _ _. revert s1 s2 S.
          match goal with |- forall u1 u2, sim u1 u2 -> sim (fst (?m1 u1)) (fst (?m2 u2)) /\ _ => change (rel eq m1 m2) end.
          rstep. destruct (dget _ _); [apply r_add_child|apply rel_raise].
        * generalize (t_rt (tget t s1)) (t_pt (tget t s1)). intros rt pt. clear - S. revert s1 s2 S.
          match goal with |- forall u1 u2, sim u1 u2 -> sim (fst (?m1 u1)) (fst (?m2 u2)) /\ _ => change (rel eq m1 m2) end.
          rstep. apply rel_bind_eq; [rstep|]. intros _. rstep. destruct (dget _ _); [apply r_add_child|apply rel_raise].
      + split; [exact S|reflexivity].
  Qed.

  Lemma r_consume_normal : forall t, relS (not_sec t) eq (consume_normal t) (consume_normal t).
  Proof.
    intros t. unfold consume_normal. eapply (relS_bind _ (fun _ => not_sec t)); [apply relS_rel, r_set_meta| |].
    - intros s1 s2 s' a _ H R. unfold set_meta in R. unfold bind, getP, gets in R. rewrite modT_run in R. injection R as <- _. unfold not_sec in *. rewrite (field_hmod t_cls) by reflexivity. exact H.
    - intros _. eapply (relS_bind _ (fun _ _ => True)); [apply r_attach|auto|]. intros _. apply relS_rel. rstep. rstep. rstep. apply r_section_add_term.
  Qed.

  Lemma term_is_root_section : forall r, secname r -> term_is r "root.section" = Ok true \/ term_is r "root.root" = Ok true.
  Proof. intros r [Ep [Er|Er]]; unfold term_is; rewrite Ep, Er; [left|right]; reflexivity. Qed.

  Definition fin (t : nat) : MM bool := r <- getT t ;; match t_ftype r with Some "declare" => manage_declare_terms t ;;; ret false | _ => ret true end.
  Lemma declare_match : forall {A} (o : option string) (a b : A), match o with Some "declare" => a | _ => b end = if match o with Some f => eqs f "declare" | None => false end then a else b.
  Proof.
    intros A [f|] a b; [|reflexivity]. eqs_cases f "declare"; [subst; reflexivity|].
    repeat (match goal with |- context [match ?f with EmptyString => _ | String _ _ => _ end] => destruct f | |- context [match ?c with Ascii.Ascii _ _ _ _ _ _ _ _ => _ end] => destruct c
                | |- context [match ?b with true => _ | false => _ end] => destruct b end; try reflexivity). contradiction.
  Qed.
  Lemma manage_sec : forall t s, secname (tget t s) -> manage_declare_terms t s = (s, Ok tt).
  Proof.
    intros t s [Ep Er]. unfold manage_declare_terms. rewrite (bind_ok_run (getT t) _ _ _ eq_refl). cbn [getT gets fst]. unfold term_is. rewrite Ep.
    destruct Er as [Er|Er]; rewrite Er; reflexivity.
  Qed.
  Lemma r_fin : forall t, relS (nodecl t) eq (fin t) (fin t).
  Proof.
    intros t s1 s2 S [HL HD]. unfold fin. rewrite !(bind_ok_run (getT t) _ _ _ eq_refl). cbn [getT gets fst]. rewrite !declare_match.
    assert (HR : Rr (tget t s1) (tget t s2)) by (apply sim_get, S). destruct (Rr_form _ _ HR) as (x & y & E).
    assert (EF : t_ftype (tget t s2) = t_ftype (tget t s1)) by (rewrite E; reflexivity). rewrite EF.
    destruct (t_ftype (tget t s1)) as [f|]; [|split; [exact S|reflexivity]]. eqs_cases f "declare"; [|split; [exact S|reflexivity]]. subst f.
    assert (SN := rr_sec _ _ HR (HD eq_refl)). assert (SN2 : secname (tget t s2)) by (rewrite E; exact SN).
    unfold bind. rewrite (manage_sec t s1 SN), (manage_sec t s2 SN2). split; [exact S|reflexivity].
  Qed.

  Lemma relS_getP : forall {A} P (W : A -> A -> Prop) k1 k2,
    (forall x p, k2 (set_p_pmap x p) = k2 p) -> (forall p, relS P W (k1 p) (k2 p)) ->
    relS P W (bind getP k1) (bind getP k2).
  Proof.
    intros A P W k1 k2 HI HK s1 s2 S HP. rewrite !(bind_ok_run getP _ _ _ eq_refl). cbn [getP gets fst].
    rewrite (pr_eq _ _ (sm_prs _ _ S)), HI. apply HK; assumption.
  Qed.
  Lemma relS_getT : forall {A} P (W : A -> A -> Prop) t k1 k2,
    (forall a b, Rr a b -> relS (fun s => P s /\ tget t s = a) W (k1 a) (k2 b)) -> relS P W (bind (getT t) k1) (bind (getT t) k2).
  Proof.
    intros A P W t k1 k2 HK s1 s2 S HP. rewrite !(bind_ok_run (getT t) _ _ _ eq_refl). cbn [getT gets fst]. apply HK; auto. apply sim_get, S.
  Qed.
  Lemma relS_lift : forall {A B} P (W : B -> B -> Prop) (x : res A) k1 k2,
    (forall v, x = Ok v -> relS P W (k1 v) (k2 v)) -> relS P W (bind (lift x) k1) (bind (lift x) k2).
  Proof. intros A B P W [v|er] k1 k2 HK s1 s2 S HP; [exact (HK v eq_refl s1 s2 S HP)|split; [exact S|reflexivity]]. Qed.
  Lemma relS_weak : forall {A} (P Q : st -> Prop) (W : A -> A -> Prop) m1 m2, (forall s, Q s -> P s) -> relS P W m1 m2 -> relS Q W m1 m2.
  Proof. intros A P Q W m1 m2 H HM s1 s2 S HQ. apply HM; auto. Qed.

  Lemma term_is_header : forall r, term_is r "root.header" = Ok true -> lower (t_rt r) = "header".
  Proof.
    intros r H. unfold term_is, term_is_name in H. cbn in H. injection H as H.
    assert (E : dotted (lower (t_pt r)) (lower (t_rt r)) = "root.header").
    { destruct (eqs (dotted (lower (t_pt r)) (lower (t_rt r))) _) eqn:E; try (apply eqs_true in E; exact E);
      repeat match type of H with context [if ?b then _ else _] => destruct b eqn:?; try discriminate H end; discriminate H. }
    exact (proj2 (dotted_one _ _ "root" "header" E eq_refl eq_refl)).
  Qed.

  Lemma Pr_pmap : forall f x y, plain_pupd f -> pads x y -> forall p q, Pr p q -> Pr (f (set_p_pmap (munge_param_map x) p)) (f (set_p_pmap (munge_param_map y) q)).
  Proof.
    intros f x y H HP p q [E M Y]. destruct (H p) as (C & Em & Ed). destruct (H q) as (C' & Fm & Fd).
    destruct (H (set_p_pmap (munge_param_map x) p)) as (_ & X1 & X2). destruct (H (set_p_pmap (munge_param_map y) q)) as (_ & Y1 & Y2). split.
    - rewrite Y1, !C, !C'. rewrite E. rewrite C. reflexivity.
    - rewrite X1, Y1. apply munge_pads, HP.
    - rewrite X2. exact Y.
  Qed.
  Lemma plain_id : plain_pupd (fun p => p).
  Proof. intros p. repeat split; reflexivity. Qed.

  Lemma r_consume : forall t, relS (epre t) eq (consume t) (consume t).
  Proof.
    intros t. unfold consume.
    eapply (relS_bind _ (fun _ => nodecl t)); [apply r_rename| |].
    { intros s1 s2 s' a _ [H _] R. eapply nodecl_stable; [eapply g_rename; exact R|exact H]. }
    intros _. apply relS_getP; [reflexivity|]. intros p. apply relS_then; [apply nodecl_stable|apply relS_rel, r_set_section|apply g_set_section|]. intros _.
    apply relS_getT. intros r r' HR. destruct (Rr_form _ _ HR) as (x & y & E).
    assert (ET : term_is r' = term_is r) by (rewrite E; reflexivity). assert (EV : t_val r' = t_val r) by (rewrite E; reflexivity). rewrite ET, EV.
    apply relS_lift. intros [|] EH.
    - apply relS_rel. apply rel_bind_eq; [apply rel_modP, (Pr_pmap _ _ _ plain_id), HR|]. intros _. apply rel_bind_eq; [rstep|]. intros v. apply rel_bind_eq; [rstep|]. intros _.
      apply rel_bind_eq; [|intros _; rstep]. apply rel_modT_V; [reflexivity|]. intros a b [X A1 A2 A3 A4 A5 A6]. split; cbn; try assumption.
      + rewrite X at 1. reflexivity.
      + apply HR.
      + apply (rr_head _ _ HR), term_is_header, EH.
    - apply relS_lift. intros is_sec E1. apply relS_lift. intros is_root E2. fold (fin t).
      eapply (relS_bind _ (fun _ => nodecl t)); [| |intros _; apply r_fin].
      + destruct is_sec; [|destruct is_root].
        * apply relS_rel. rstep; [rstep|]. rstep. rewrite (heq_read t_rt (d_root a) _ _ (fun _ _ _ => eq_refl) HQ). apply rel_bind_eq; [|intros _; apply r_set_section].
          apply rel_modP. apply (Pr_pmap (fun p => set_p_dtvn "@value" (set_p_lastsec t (set_p_lastparent (t_rt (hget (d_root a) h2)) p)))); [pu|apply HR].
        * apply relS_rel. apply rel_bind_eq; [rstep|]. intros _. apply r_set_section.
        * eapply relS_weak; [|apply r_consume_normal]. intros s [HN HT]. unfold not_sec. rewrite HT. destruct (is_section_cls (t_cls r)) eqn:K; [|reflexivity].
          exfalso. destruct (term_is_root_section _ (rr_sec _ _ HR K)) as [Q|Q]; congruence.
      + intros s1 s2 s' a _ [HN _] R. eapply nodecl_stable; [|exact HN].
        assert (PG : forall f, pres grown (modP f)) by (intros f; apply pres_modP; intros; apply grown_pmod).
        revert R. destruct is_sec; [|destruct is_root]; intros R.
        * revert R. match goal with |- ?m s1 = _ -> _ => assert (Q : pres grown m); [|intros R; eapply Q; exact R] end.
          apply pres_bind; [exact grown_po|apply pres_gets; exact grown_po|]. intros d. apply pres_bind; [exact grown_po|apply pres_gets; exact grown_po|]. intros h.
          apply pres_bind; [exact grown_po|apply PG|]. intros _. apply g_set_section.
        * revert R. match goal with |- ?m s1 = _ -> _ => assert (Q : pres grown m); [|intros R; eapply Q; exact R] end.
          apply pres_bind; [exact grown_po|apply PG|]. intros _. apply g_set_section.
        * eapply g_normal. exact R.
  Qed.

  (** ** the producer *)
  Lemma r_load1 : forall t, rel eq (load1 t) (load1 t).
  Proof.
    intros t. unfold load1. rstep; [repeat rstep|]. rstep. rstep; [repeat rstep|]. destruct a0; [repeat rstep|]. rstep; [repeat rstep|].
    destruct a0; [rstep; [apply r_add_section|repeat rstep]|]. destruct (eqs _ _); [apply r_doc_add_term|repeat rstep].
  Qed.
  Lemma r_emit : forall load t, relS (epre t) eq (emit load t) (emit load t).
  Proof.
    intros load t. unfold emit. eapply (relS_bind _ (fun _ _ => True)); [apply r_consume|auto|]. intros b. apply relS_rel. rstep. apply r_load1.
  Qed.

  (** names are kept, except by [rename_term] *)
  Definition rtk (s s' : st) : Prop := hlen s <= hlen s' /\ forall i, i < hlen s -> t_rt (tget i s') = t_rt (tget i s).
  Lemma rtk_po : preorder rtk.
  Proof.
    split; [intros s; split; auto|]. intros a b c [A1 A2] [B1 B2]. split; [lia|]. intros i Hi. rewrite B2 by lia. apply A2, Hi.
  Qed.
  Lemma rtk_push : forall r s, rtk s (push r s).
  Proof. intros r s. split; [rewrite hlen_push; lia|]. intros i Hi. rewrite push_old by exact Hi. reflexivity. Qed.
  Lemma rtk_hmod : forall i f s, ext f -> (forall r, t_rt (f r) = t_rt r) -> rtk s (hmod i f s).
  Proof. intros i f s _ H. split; [rewrite hlen_hmod; lia|]. intros j Hj. apply (field_hmod t_rt). exact H. Qed.
  Lemma rtk_dmod : forall f s, rtk s (dmod f s).
  Proof. intros f s. split; [rewrite hlen_dmod; lia|reflexivity]. Qed.
  Lemma rtk_pmod : forall f s, rtk s (pmod f s).
  Proof. intros f s. split; [rewrite hlen_pmod; lia|reflexivity]. Qed.
  Lemma rtk_declare : forall t, pres rtk (manage_declare_terms t).
  Proof. intros t. apply pres_declare; [exact rtk_po|intros; apply rtk_pmod]. Qed.

  Lemma emit_rt : forall load t s s' u, synonyms (p_dterms (s_prs s)) = [] -> py_int (t_rt (tget t s)) = None ->
    emit load t s = (s', u) -> rtk s s'.
  Proof.
    intros load t s s' u SY PI H. unfold emit, consume in H. unfold bind at 1 2 in H. rewrite rename_id in H by assumption. cbn iota beta in H.
    assert (SS : forall t o, pres rtk (set_section t o)) by (intros; apply w_set_section; auto using rtk_po, rtk_push, rtk_hmod, rtk_dmod, rtk_pmod).
    assert (SN : forall t, pres rtk (consume_normal t)) by (intros; apply w_normal; auto using rtk_po, rtk_push, rtk_hmod, rtk_dmod, rtk_pmod).
    assert (SL : forall t, pres rtk (load1 t)) by (intros; apply w_load1; auto using rtk_po, rtk_push, rtk_hmod, rtk_dmod, rtk_pmod).
    assert (SM : forall f, pres rtk (modP f)) by (intros; apply pres_modP; intros; apply rtk_pmod).
    match type of H with match ?m s with _ => _ end = _ => assert (PM : pres rtk m) end.
    { repeat (cbv beta; match goal with
      | |- forall _, _ => intro
      | |- pres _ (bind _ _) => apply pres_bind; [exact rtk_po| |]
      | |- pres _ (ret _) => apply pres_ret; exact rtk_po
      | |- pres _ (lift _) => apply pres_lift; exact rtk_po
      | |- pres _ (gets _) => apply pres_gets; exact rtk_po
      | |- pres _ (getT _) => apply pres_gets; exact rtk_po
      | |- pres _ getD => apply pres_gets; exact rtk_po
      | |- pres _ getP => apply pres_gets; exact rtk_po
      | |- pres _ (modP _) => apply SM
      | |- pres _ (set_section _ _) => apply SS
      | |- pres _ (consume_normal _) => apply SN
      | |- pres _ (manage_declare_terms _) => apply rtk_declare
      | |- pres _ (modT _ _) => apply pres_modT; intro; apply rtk_hmod; [intro; repeat split; first [reflexivity|apply prefix_refl]|reflexivity]
      | |- pres _ (match ?x with _ => _ end) => destruct x
      end). }
    match type of H with match ?m s with _ => _ end = _ => destruct (m s) as [s1 [b|er]] eqn:E end.
    - apply PM in E. destruct rtk_po as [_ T]. eapply T; [exact E|]. revert H. destruct (b && load); cbn [when]; intros H; [eapply SL; exact H|injection H as <- _; apply rtk_po].
    - injection H as <- _. eapply PM. exact E.
  Qed.

  Lemma sec_lt : forall i s, sec_at i s -> i < hlen s.
  Proof.
    intros i s H. unfold sec_at in H. destruct (Nat.ltb_spec i (hlen s)) as [L|L]; [exact L|]. unfold tget, hget in H. rewrite nth_overflow in H by exact L. discriminate H.
  Qed.
  Lemma sec_stable : forall i, stable (sec_at i).
  Proof. intros i s s' G H. apply (sect_grown _ _ _ G (conj (sec_lt _ _ H) H)). Qed.
  Lemma sec_epre : forall s1 s2 t, sim s1 s2 -> sec_at t s1 -> epre t s1.
  Proof.
    intros s1 s2 t S H. split; [split; [apply sec_lt, H|auto]|]. left. destruct (rr_sec _ _ (sim_get t _ _ (sm_heap _ _ S)) H) as [_ E]. fold (tget t s1) in E. destruct E as [-> | ->]; reflexivity.
  Qed.

  Lemma construct_new : forall c term value args row col ftype parent doc section s s' i,
    construct c term value args row col ftype parent doc section s = (s', Ok i) -> i = hlen s /\ hlen s' = S (hlen s) /\ t_ftype (tget i s') = ftype.
  Proof.
    intros until i. intros H. unfold construct in H.
    assert (Plain : mk_plain c term value args row col ftype parent doc section s = (s', Ok i) -> i = hlen s /\ hlen s' = S (hlen s) /\ t_ftype (tget i s') = ftype).
    { intros P. apply ConstructFacts.mk_plain_ok in P. destruct P as (p & r & P1 & _ & -> & ->). split; [reflexivity|]. split; [apply hlen_push|].
      fold (push (ConstructFacts.fresh_plain c term p r value args row col ftype parent doc section) s). fold (hlen s). rewrite push_new. reflexivity. }
    destruct c; auto; [|discriminate H]. destruct parent, section, doc; try discriminate H.
    apply ConstructFacts.mk_section_ok in H. destruct H as (p & r & a & H1 & -> & -> & _). split; [reflexivity|]. split; [apply hlen_push|].
    match goal with |- context [set_s_heap (s_heap s ++ [?x]) s] => fold (push x s) end. fold (hlen s). rewrite push_new. reflexivity.
  Qed.

  Lemma arg_name_canon : forall x k p r, cell_names (dotted x (str_of_nat k)) p r -> r = str_of_nat k.
  Proof.
    intros x k p r H. destruct (str_of_nat_digits k) as [D _]. pose proof (digits_dot_free _ D) as DF.
    assert (X : forall a b t, dotted x (str_of_nat k) = (a ++ "." ++ b)%string -> dot_free b -> trimmed b t -> lower t = str_of_nat k).
    { intros a b t E Db T. change (dotted x (str_of_nat k) = dotted a b) in E. pose proof (dot_free_split x _ DF) as E1. rewrite E in E1. rewrite (dot_free_split a _ Db) in E1. subst b.
      apply trimmed_iff in T. rewrite (tidy_strip _ (digits_starts _ D)) in T. subst t. apply digits_lower, D. }
    inversion H as [t Dt T E1 E2|a b q t E Da Db Ta Tb Ne E1 E2|a b t E Wa Db Tb E1 E2]; subst.
    - exfalso. apply dot_free_iff in Dt. unfold dotted in Dt. rewrite has_char_app in Dt. cbn in Dt. rewrite orb_true_r in Dt. discriminate Dt.
    - eapply X; eassumption.
    - eapply X; eassumption.
  Qed.

  (** with what holds afterwards *)
  Definition relT {A} (P : st -> Prop) (Q : A -> st -> Prop) (m1 m2 : MM A) : Prop :=
    forall s1 s2, sim s1 s2 -> P s1 -> sim (fst (m1 s1)) (fst (m2 s2)) /\ rres eq (snd (m1 s1)) (snd (m2 s2)) /\ (forall a, m1 s1 = (fst (m1 s1), Ok a) -> Q a (fst (m1 s1))).
  Lemma relT_of : forall {A} P (Q : A -> st -> Prop) m1 m2, relS P eq m1 m2 ->
    (forall s1 s2 s' a, sim s1 s2 -> P s1 -> m1 s1 = (s', Ok a) -> Q a s') -> relT P Q m1 m2.
  Proof. intros A P Q m1 m2 H HQ s1 s2 S HP. destruct (H s1 s2 S HP) as [S' R]. split; [exact S'|]. split; [exact R|]. intros a E. exact (HQ s1 s2 _ a S HP E). Qed.
  Lemma relT_S : forall {A} P (Q : A -> st -> Prop) m1 m2, relT P Q m1 m2 -> relS P eq m1 m2.
  Proof. intros A P Q m1 m2 H s1 s2 S HP. destruct (H s1 s2 S HP) as (S' & R & _). auto. Qed.
  Lemma relT_bind : forall {A B} (P : st -> Prop) (Q : A -> st -> Prop) (R : B -> st -> Prop) m1 m2 k1 k2,
    relT P Q m1 m2 -> (forall a, relT (Q a) R (k1 a) (k2 a)) -> relT P R (bind m1 k1) (bind m2 k2).
  Proof.
    intros A B P Q R m1 m2 k1 k2 Hm Hk s1 s2 S HP. unfold bind. destruct (Hm s1 s2 S HP) as (S' & E & HQ).
    destruct (m1 s1) as [s1' [a|e]], (m2 s2) as [s2' [b|e']]; cbn in S', E, HQ; try contradiction.
    - subst b. apply Hk; [exact S'|]. apply HQ. reflexivity.
    - split; [exact S'|]. split; [exact E|]. intros a X. discriminate X.
  Qed.
  Lemma relT_keep : forall {A} P (m1 m2 : MM A), stable P -> rel eq m1 m2 -> pres grown m1 -> relT P (fun _ => P) m1 m2.
  Proof. intros A P m1 m2 HS H G. apply relT_of; [apply relS_rel, H|]. intros s1 s2 s' a _ HP E. eapply HS; [eapply G; exact E|exact HP]. Qed.
  Lemma relT_keepS : forall {A} P P' (m1 m2 : MM A), stable P -> relS P' eq m1 m2 -> pres grown m1 -> relT (fun s => P s /\ P' s) (fun _ => P) m1 m2.
  Proof.
    intros A P P' m1 m2 HS H G. apply relT_of; [eapply relS_weak; [|exact H]; intros s [_ X]; exact X|].
    intros s1 s2 s' a _ [HP _] E. eapply HS; [eapply G; exact E|exact HP].
  Qed.
  Lemma relT_ret : forall {A} (P : st -> Prop) (Q : A -> st -> Prop) a, (forall s, P s -> Q a s) -> relT P Q (ret a) (ret a).
  Proof. intros A P Q a H s1 s2 S HP. split; [exact S|]. split; [reflexivity|]. intros b E. injection E as <-. apply H, HP. Qed.
  Lemma relT_raise : forall {A} (P : st -> Prop) (Q : A -> st -> Prop) e, relT P Q (raise e) (raise e).
  Proof. intros A P Q e s1 s2 S HP. split; [exact S|]. split; [reflexivity|]. intros b E. discriminate E. Qed.
  Lemma relT_getT : forall {A} P (Q : A -> st -> Prop) t k1 k2,
    (forall a b, Rr a b -> relT (fun s => P s /\ tget t s = a) Q (k1 a) (k2 b)) -> relT P Q (bind (getT t) k1) (bind (getT t) k2).
  Proof.
    intros A P Q t k1 k2 HK s1 s2 S HP. rewrite !(bind_ok_run (getT t) _ _ _ eq_refl). cbn [getT gets fst]. apply HK; auto. apply sim_get, S.
  Qed.
  Lemma relT_lift : forall {A B} P (Q : B -> st -> Prop) (x : res A) k1 k2,
    (forall v, x = Ok v -> relT P Q (k1 v) (k2 v)) -> relT P Q (bind (lift x) k1) (bind (lift x) k2).
  Proof.
    intros A B P Q [v|er] k1 k2 HK s1 s2 S HP; [exact (HK v eq_refl s1 s2 S HP)|]. split; [exact S|]. split; [reflexivity|]. intros a E. discriminate E.
  Qed.
  Lemma relT_weak : forall {A} (P P' : st -> Prop) (Q Q' : A -> st -> Prop) m1 m2,
    (forall s, P s -> P' s) -> (forall a s, Q' a s -> Q a s) -> relT P' Q' m1 m2 -> relT P Q m1 m2.
  Proof. intros A P P' Q Q' m1 m2 H1 H2 HT s1 s2 S HP. destruct (HT s1 s2 S (H1 _ HP)) as (S' & R & HQ). split; [exact S'|]. split; [exact R|]. intros a E. apply H2, HQ, E. Qed.
  Lemma relT_class : forall {A} P (Q : A -> st -> Prop) name k1 k2,
    (forall c, relT P Q (k1 c) (k2 c)) -> relT P Q (bind (gets (parser_term_class name)) k1) (bind (gets (parser_term_class name)) k2).
  Proof.
    intros A P Q name k1 k2 HK s1 s2 S HP. rewrite !(bind_ok_run (gets (parser_term_class name)) _ _ _ eq_refl). cbn [gets fst]. rewrite (sim_pclass name _ _ S). apply HK; assumption.
  Qed.

  (** the terms of the cells *)
  Lemma emit_blanks : forall load ft line t n col s, emit_args load ft line t col (repeat "" n) s = (s, Ok tt).
  Proof. intros load ft line t n. induction n as [|n IH]; intros col s; [reflexivity|]. cbn [repeat emit_args]. unfold bind. cbn. apply IH. Qed.
  Lemma r_emit_args : forall load ft line t n args col, ft <> Some "declare" ->
    rel eq (emit_args load ft line t col args) (emit_args load ft line t col (args ++ repeat "" n)).
  Proof.
    intros load ft line t n args col HF. revert col. induction args as [|v args IH]; intros col.
    - intros s1 s2 S. cbn [app emit_args]. rewrite emit_blanks. split; [exact S|reflexivity].
    - cbn [app emit_args]. apply rel_bind_eq; [|intros _; apply IH]. destruct (nonempty (strip v)); [|apply rel_ret; reflexivity]. cbn [when].
      assert (X : relT (fun _ => True) (fun _ _ => True) 
         (r <- getT t ;; c <- gets (parser_term_class (dotted (rt_lc r) (str_of_nat col))) ;;
         k <- construct c (dotted (rt_lc r) (str_of_nat col)) (VStr v) [] (Some line) (Some (col + 2)) ft (Some t) false None ;; emit load k)
         (r <- getT t ;; c <- gets (parser_term_class (dotted (rt_lc r) (str_of_nat col))) ;;
         k <- construct c (dotted (rt_lc r) (str_of_nat col)) (VStr v) [] (Some line) (Some (col + 2)) ft (Some t) false None ;; emit load k)).
      { apply relT_getT. intros r r' HR. destruct (Rr_form _ _ HR) as (x & y & ->). change (rt_lc (rc x y r)) with (rt_lc r).
        apply relT_class. intros c. eapply (relT_bind _ epre); [apply relT_of; [apply relS_rel, r_construct_same|]|intros k; apply relT_of; [apply r_emit|auto]].
        intros s1 s2 s' k S _ H. destruct (construct_new _ _ _ _ _ _ _ _ _ _ _ _ _ H) as (-> & L & FT). apply ConstructFacts.construct_names in H. destruct H as (p & CN & _).
        split; [split; [lia|intros K; rewrite FT in K; contradiction]|]. right. exists col. eapply arg_name_canon. exact CN. }
      intros s1 s2 S. destruct (X s1 s2 S Logic.I) as (S' & R & _). split; assumption.
  Qed.

  Lemma r_section_for : forall (P : st -> Prop) t, relT P (fun i s => P s /\ sec_at i s) (section_for t) (section_for t).
  Proof.
    intros P t s1 s2 S HP. unfold section_for. rewrite !(bind_ok_run (getT t) _ _ _ eq_refl). cbn [getT gets fst].
    rewrite !(bind_ok_run (gets (fun s => s)) _ _ _ eq_refl). cbn [gets fst].
    assert (HR : Rr (tget t s1) (tget t s2)) by (apply sim_get, S). destruct (Rr_form _ _ HR) as (x & y & ->). change (t_cls (rc x y (tget t s1))) with (t_cls (tget t s1)).
    destruct (is_section_cls (t_cls (tget t s1))) eqn:K; [|exact (relT_raise P (fun i s => P s /\ sec_at i s) _ s1 s2 S HP)]. change (t_val (rc x y (tget t s1))) with (t_val (tget t s1)).
    unfold get_section. destruct (as_str (t_val (tget t s1))) as [n|er] eqn:EV.
    - cbn [rbind]. rewrite <- (sm_doc _ _ S). destruct (dget (lower n) (d_sections (s_doc s1))) as [i|] eqn:EI.
      + split; [exact S|]. split; [reflexivity|]. intros a X. injection X as <-. split; [exact HP|]. exact (sm_secs _ _ S _ _ EI).
      + split; [exact S|]. split; [reflexivity|]. intros a X. injection X as <-. split; [exact HP|exact K].
    - cbn [rbind]. destruct er; try (exact (relT_raise P (fun i s => P s /\ sec_at i s) _ s1 s2 S HP)).
      split; [exact S|]. split; [reflexivity|]. intros a X. injection X as <-. split; [exact HP|exact K].
  Qed.

  Lemma term_is_row : forall c p n m r, cell_names c p n -> t_pt r = p -> t_rt r = n -> In m ["include"; "declare"; "section"; "header"] ->
    term_is r m = Ok (eqs p "root" && eqs m n).
  Proof.
    intros c p n m r CN Ep Er Hm. apply cell_names_tidy in CN. destruct CN as (_ & _ & Dp & _ & Lp & Ln & _). unfold term_is. rewrite Ep, Er.
    assert (X : dot_free m /\ tidy m /\ eqs m "*" = false /\ lower m = m).
    { cbn in Hm. decompose [or] Hm; try contradiction; subst m; (split; [apply dot_free_iff; reflexivity|]); (split; [apply tidy_iff; split; reflexivity|]); split; reflexivity. }
    destruct X as (Dm & Tm & Sm & Lm). rewrite term_is_plain by assumption. rewrite Sm, Lp, Ln, Lm. reflexivity.
  Qed.

  Lemma r_emit_sec : forall load i, relS (sec_at i) eq (emit load i) (emit load i).
  Proof. intros load i s1 s2 S H. apply r_emit; [exact S|]. eapply sec_epre; eassumption. Qed.

  Notation cols := (declared_columns DS).
  Definition rec_ok (rec1 rec2 : source -> option string -> MM unit) : Prop :=
    (forall a b f, f <> Some "declare" -> src_ref a = src_ref b -> src_dir a = src_dir b -> padded_rows cols (src_rows a) (src_rows b) -> rel eq (rec1 a f) (rec2 b f))
    /\ forall a f, pres grown (rec1 a f).

  Lemma r_include : forall e1 e2 load rec1 rec2 src1 src2 ls t, files_padded cols e1 e2 -> rec_ok rec1 rec2 -> src_ref src1 = src_ref src2 -> src_dir src1 = src_dir src2 ->
    relT (fun s => sec_at ls s /\ nodecl t s /\ t_rt (tget t s) = "include") (fun _ => sec_at ls) (include_row e1 load rec1 src1 ls t true) (include_row e2 load rec2 src2 ls t true).
  Proof.
    intros e1 e2 load rec1 rec2 src1 src2 ls t (F1 & F2 & F3) [HR HG] ER ED. unfold include_row. rewrite ER, ED. apply relT_getT. intros r r' H. destruct (Rr_form _ _ H) as (x & y & ->). change (t_val (rc x y r)) with (t_val r).
    apply relT_lift. intros v _. apply relT_lift. intros res _. eapply (relT_bind _ (fun _ s => sec_at ls s /\ nodecl t s /\ t_rt (tget t s) = "include")).
    { destruct (src_ref src2) as [f|]; [destruct (eqs f res)|]; [apply relT_raise|apply relT_ret; tauto..]. }
    intros _. eapply (relT_bind _ (fun _ s => sec_at ls s /\ rt_lc (tget t s) = "include")).
    { apply relT_of; [eapply relS_weak; [|apply r_emit]; intros s (_ & H1 & H2); split; [exact H1|left; rewrite H2; reflexivity]|].
      intros s1 s2 s' u S (P1 & P2 & P3) E. split; [eapply sec_stable; [eapply grown_emit; exact E|exact P1]|].
      apply emit_rt in E; [|apply (pr_syn _ _ (sm_prs _ _ S))|rewrite P3; reflexivity]. unfold rt_lc. rewrite (proj2 E t (proj1 P2)), P3. reflexivity. }
    intros _. specialize (F3 res). destruct (fetch e1 res) as [a|], (fetch e2 res) as [b|]; try contradiction; [|apply relT_raise].
    apply relT_getT. intros q q' H'. destruct (Rr_form _ _ H') as (x' & y' & ->). change (rt_lc (rc x' y' q)) with (rt_lc q).
    intros s1 s2 S [[P1 P2] P3]. rewrite P3 in P2. rewrite P2. revert s1 s2 S P1 P3. intros s1 s2 S P1 _. revert s1 s2 S P1.
    match goal with |- forall u1 u2, sim u1 u2 -> sec_at ls u1 -> sim (fst (?m1 u1)) (fst (?m2 u2)) /\ _ => change (relT (sec_at ls) (fun _ => sec_at ls) m1 m2) end.
    eapply (relT_bind _ (fun _ => sec_at ls)); [apply relT_keep; [apply sec_stable|apply HR; [discriminate|reflexivity..|exact F3]|apply HG]|].
    intros _. apply relT_of; [apply r_emit_sec|]. intros s1 s2 s' u S H1 E. eapply sec_stable; [eapply grown_emit; exact E|exact H1].
  Qed.

  Lemma pads_hd : forall r1 r2, pads r1 r2 -> skip_row r1 = false -> hd "" r2 = hd "" r1.
  Proof. intros [|c r1] r2 [n ->] H; [discriminate H|reflexivity]. Qed.
  Lemma pads_skip : forall r1 r2, pads r1 r2 -> skip_row r2 = skip_row r1.
  Proof. intros [|c r1] r2 [[|n] ->]; reflexivity. Qed.
  Lemma pads_nth : forall k r1 r2, pads r1 r2 -> nth k r2 "" = nth k r1 "".
  Proof.
    intros k r1 r2 [n ->]. revert k. induction r1 as [|c r1 IH]; intros k; cbn [app].
    - revert k. induction n as [|n IHn]; intros [|k]; cbn; auto. rewrite IHn. destruct k; reflexivity.
    - destruct k; [reflexivity|apply IH].
  Qed.
  Lemma skip_repeat : forall k n, skipn k (repeat "" n) = repeat "" (n - k).
  Proof. induction k as [|k IH]; intros [|n]; try reflexivity. cbn. apply IH. Qed.
  Lemma pads_skipn : forall k r1 r2, pads r1 r2 -> pads (skipn k r1) (skipn k r2).
  Proof. intros k r1 r2 [n ->]. rewrite skipn_app, skip_repeat. eexists. reflexivity. Qed.

  Lemma r_row : forall e1 e2 load rec1 rec2 src1 src2 ft line r1 r2 ls, files_padded cols e1 e2 -> rec_ok rec1 rec2 ->
    src_ref src1 = src_ref src2 -> src_dir src1 = src_dir src2 -> ft <> Some "declare" -> padded_row cols r1 r2 ->
    relT (sec_at ls) sec_at (row_step e1 load rec1 src1 ft line r1 ls) (row_step e2 load rec2 src2 ft line r2 ls).
  Proof.
    intros e1 e2 load rec1 rec2 src1 src2 ft line r1 r2 ls HE HRec ER ED HF (HP & HB & HM). unfold row_step. rewrite (pads_skip _ _ HP).
    destruct (skip_row r1) eqn:SK; [apply relT_ret; auto|]. rewrite (pads_hd _ _ HP SK), (pads_nth 1 _ _ HP). apply relT_lift. intros [p n] EN. apply split_term_lower_spec in EN.
    assert (RD : wordy n /\ ~ (p = "root" /\ n = "declare")).
    { destruct HB as [HB|HB]; [apply skip_blank in HB; congruence|apply HB, EN]. }
    destruct RD as [WN ND]. apply wordy_int in WN. pose proof (cell_names_dotted _ _ _ EN) as CD. fold (dotted p n) in CD.
    assert (DET : forall p' n', split_term_lower (dotted p n) = Ok (p', n') -> p' = p /\ n' = n).
    { intros p' n' H. apply split_term_lower_spec in H. exact (cell_names_det _ _ _ _ _ H CD). }
    assert (FULL : 2 < List.length r1 -> full (skipn 2 r1) (skipn 2 r2)).
    { intros L E. exfalso. apply (f_equal (@List.length string)) in E. rewrite skipn_length in E. cbn in E. lia. }
    assert (Ln : lower n = n) by (apply cell_names_tidy in EN; apply EN).
    apply relT_class. intros c. eapply (relT_bind _ (fun t s => sec_at ls s /\ t < hlen s /\ t_ftype (tget t s) = ft /\ t_pt (tget t s) = p /\ t_rt (tget t s) = n)).
    { apply relT_of.
      - apply relS_rel, r_construct.
        + split; [apply pads_skipn, HP|]. intros p' n' H. destruct (DET _ _ H) as [-> ->]. rewrite WN. split; [|intros K; contradiction].
          rewrite Ln. intros ->. destruct HM as [->|[_ HM]]; [apply full_refl|apply FULL, (HM p), EN].
        + destruct HM as [<-|[HM _]]; [left; reflexivity|]. right. split; [apply pads_skipn, HP|]. exists (nth 1 r1 ""). split; [reflexivity|].
          intros p' n' H [-> Hn]. destruct (DET _ _ H) as [<- ->]. destruct (HM) as [L|L]; [destruct Hn; subst; auto|left; apply FULL, L|right; exact L].
      - intros s1 s2 s' t S Hs H. pose proof H as H0. destruct (construct_new _ _ _ _ _ _ _ _ _ _ _ _ _ H) as (-> & L & FT).
        apply ConstructFacts.construct_names in H. destruct H as (p' & CN & Ep). destruct (cell_names_det _ _ _ _ _ CN CD) as [E1 E2].
        split; [|split; [lia|split; [exact FT|split; [rewrite Ep; exact E1|exact E2]]]].
        eapply sec_stable; [|exact Hs]. eapply (w_construct grown); eauto using grown_po, grown_push. }
    intros t. apply relT_getT. intros r r' HR. destruct (Rr_form _ _ HR) as (x & y & E). assert (ET : term_is r' = term_is r) by (rewrite E; reflexivity). rewrite ET. clear E ET.
    intros s1 s2 S [(P1 & P2 & P3 & P4 & P5) P6].
    assert (TI : forall m, In m ["include"; "declare"; "section"; "header"] -> term_is r m = Ok (eqs p "root" && eqs m n)).
    { intros m Hm. rewrite <- P6. apply (term_is_row (hd "" r1)); auto. }
    rewrite !(TI "include"), !(TI "declare"), !(TI "section") by (cbn; auto).
    assert (LF : forall A B (v : A) (k : A -> MM B), bind (lift (Ok v)) k = k v) by reflexivity. rewrite !LF.
    assert (X : eqs p "root" && eqs "declare" n = false).
    { eqs_cases p "root"; [|reflexivity]. eqs_cases "declare" n; [|reflexivity]. exfalso. apply ND. auto. }
    rewrite X, orb_false_r. clear X.
    assert (GG : sec_at ls s1 /\ t < hlen s1 /\ t_ftype (tget t s1) = ft /\ t_pt (tget t s1) = p /\ t_rt (tget t s1) = n) by auto.
    clear P1 P2 P3 P4 P5 P6. revert s1 s2 S GG.
    match goal with |- forall u1 u2, sim u1 u2 -> @?P u1 -> sim (fst (?m1 u1)) (fst (?m2 u2)) /\ _ => change (relT P sec_at m1 m2) end. cbv beta.
    destruct (eqs p "root" && eqs "include" n) eqn:EI.
    - apply andb_true_iff in EI. destruct EI as [_ EI]. apply eqs_true in EI. subst n.
      eapply (relT_bind _ (fun _ => sec_at ls)); [|intros _; apply relT_ret; auto].
      eapply relT_weak; [| |apply r_include; assumption]; [|auto]. intros s (P1 & P2 & P3 & P4 & P5). split; [exact P1|]. split; [|exact P5].
      split; [exact P2|]. intros K. rewrite P3 in K. contradiction.
    - set (b := eqs p "root" && eqs "section" n).
      eapply (relT_bind _ (fun i s => sec_at ls s /\ (if b then sec_at i s else epre i s))).
      { destruct b.
        - eapply relT_weak; [| |apply (r_section_for (sec_at ls) t)]; [intros s H; apply H|auto].
        - apply relT_ret. intros s (P1 & P2 & P3 & P4 & P5). split; [exact P1|]. split; [split; [exact P2|intros K; rewrite P3 in K; contradiction]|]. left. rewrite P5. exact WN. }
      intros i. eapply (relT_bind _ (fun _ s => sec_at ls s /\ (b = true -> sec_at i s))).
      { apply relT_of; [intros s1 s2 S [_ H]; destruct b; [apply r_emit_sec; assumption|apply r_emit; assumption]|].
        intros s1 s2 s' u S [H1 H2] Em. apply grown_emit in Em. split; [eapply sec_stable; eassumption|]. destruct b; [intros _; eapply sec_stable; eassumption|discriminate]. }
      intros _. apply relT_getT. intros q q' HQ. destruct (Rr_form _ _ HQ) as (x' & y' & E'). assert (ET : term_is q' = term_is q) by (rewrite E'; reflexivity). rewrite ET. clear E' ET.
      apply relT_lift. intros is_sec _. apply relT_lift. intros is_hdr _.
      eapply (relT_bind _ (fun _ s => sec_at ls s /\ (b = true -> sec_at i s))); [|intros _; apply relT_ret; intros s [H1 H2]; destruct b; auto].
      destruct (is_sec || is_hdr); [apply relT_ret; tauto|].
      eapply relT_weak; [intros s [H _]; exact H|intros u s H; exact H|]. apply relT_keep.
      + intros s s' G [H1 H2]. split; [eapply sec_stable; eassumption|]. intros K. eapply sec_stable; [exact G|auto].
      + destruct (rr_args _ _ HQ) as [k ->]. apply r_emit_args. exact HF.
      + apply (w_emit_args grown); auto using grown_po, grown_push, grown_hmod, grown_dmod, grown_sec, grown_pmod, grown_declare.
  Qed.

  Lemma r_rows : forall e1 e2 load rec1 rec2 src1 src2 ft, files_padded cols e1 e2 -> rec_ok rec1 rec2 ->
    src_ref src1 = src_ref src2 -> src_dir src1 = src_dir src2 -> ft <> Some "declare" -> forall a b, padded_rows cols a b -> forall line ls,
    relS (sec_at ls) eq (rows_loop e1 load rec1 src1 ft line a ls) (rows_loop e2 load rec2 src2 ft line b ls).
  Proof.
    intros e1 e2 load rec1 rec2 src1 src2 ft HE HR ER ED HF a b H. induction H as [|r1 r2 a b H1 H IH]; intros line ls; [apply relS_rel, rel_ret; reflexivity|].
    cbn [rows_loop]. assert (X := r_row e1 e2 load rec1 rec2 src1 src2 ft line r1 r2 ls HE HR ER ED HF H1).
    eapply (relS_bind _ sec_at); [eapply relT_S, X| |intros i; apply IH].
    intros s1 s2 s' i S HP E. destruct (X s1 s2 S HP) as (_ & _ & HQ). rewrite E in HQ. exact (HQ i eq_refl).
  Qed.

  Lemma r_generate : forall e1 e2 load, files_padded cols e1 e2 -> forall n a b f, f <> Some "declare" -> src_ref a = src_ref b -> src_dir a = src_dir b ->
    padded_rows cols (src_rows a) (src_rows b) -> rel eq (generate_terms e1 load n a f) (generate_terms e2 load n b f).
  Proof.
    intros e1 e2 load HE n. induction n as [|n IH]; intros a b f HF ER ED HP; [apply rel_raise|]. cbn [generate_terms].
    intros s1 s2 S. rewrite !(bind_ok_run getD _ _ _ eq_refl). cbn [getD gets fst]. rewrite <- (sm_doc _ _ S).
    apply r_rows; auto; [|apply S]. split; [exact IH|]. intros. apply grown_generate.
  Qed.
End Sim.

(** ** whole documents *)
Lemma sim_pad : forall h1 h2, Forall2 Rr h1 h2 -> Forall2 same_but_pad h1 h2.
Proof.
  intros h1 h2 H. induction H as [|a b h1 h2 [E A1 A2 _ _ _ _] H IH]; constructor; [|exact IH]. split; [|split; assumption]. rewrite E. destruct a. reflexivity.
Qed.
Lemma heap_refl : forall h, (forall r, In r h -> is_section_cls (t_cls r) = true -> secname r) -> Forall2 Rr h h.
Proof. induction h as [|r h IH]; intros H; constructor; [apply Rr_refl, H; left; reflexivity|apply IH; intros q Hq; apply H; right; exact Hq]. Qed.
Lemma Pr_refl : forall p, synonyms (p_dterms p) = [] -> Pr p p.
Proof. intros p H. split; [destruct p; reflexivity|intros k; reflexivity|exact H]. Qed.
Lemma sim_refl : forall s, sections_ok s -> synonyms (p_dterms (s_prs s)) = [] -> sim (d_decl_sections (s_doc s)) s s.
Proof. intros s [H1 H2 H3] HS. split; auto using Pr_refl. apply heap_refl. exact H1. Qed.
Lemma no_syn : forall p, no_synonyms p -> synonyms (p_dterms p) = [].
Proof.
  intros p H. unfold no_synonyms in H. unfold synonyms. induction (p_dterms p) as [|[k td] l IH]; [reflexivity|]. cbn [fold_left snd]. rewrite (H k td) by (left; reflexivity). apply IH. intros k' td' Hi. apply (H k' td'). right. exact Hi.
Qed.

Lemma finish_same : forall DS s1 s2, sim DS s1 s2 -> same_padded (finish_load s1) (finish_load s2).
Proof.
  intros DS s1 s2 S. pose proof (sm_doc _ _ _ S) as Ed. pose proof (pr_eq _ _ (sm_prs _ _ _ S)) as Ep.
  unfold finish_load, same_padded. cbn. split; [apply sim_pad, S|]. split; [|split; [apply (sm_reg _ _ _ S)|reflexivity]].
  unfold super_terms. cbn. rewrite Ed, Ep. reflexivity.
Qed.
Lemma then_finish : forall DS (m1 m2 : MM unit) s1 s2, sim DS (fst (m1 s1)) (fst (m2 s2)) -> rres eq (snd (m1 s1)) (snd (m2 s2)) ->
  same_padded (bind m1 (fun _ => finish_load) s1) (bind m2 (fun _ => finish_load) s2).
Proof.
  intros DS m1 m2 s1 s2 S R. unfold bind. destruct (m1 s1) as [s1' [[]|e]], (m2 s2) as [s2' [[]|e']]; cbn in S, R; try contradiction.
  - eapply finish_same, S.
  - subst e'. split; [apply sim_pad, S|]. split; [apply (sm_doc _ _ _ S)|]. split; [apply (sm_reg _ _ _ S)|reflexivity].
Qed.

Lemma padded_document : forall e1 e2 n ref dir a b s, sections_ok s ->
  let cols := declared_columns (d_decl_sections (s_doc s)) in
  files_padded cols e1 e2 -> padded_rows cols a b ->
  same_padded (load_source e1 n (mk_source ref dir a) s) (load_source e2 n (mk_source ref dir b) s).
Proof.
  intros e1 e2 n ref dir a b s HS cols HE HP. unfold load_source, start_parser.
  set (s0 := set_s_prs (fresh_parser s) s). assert (S0 : sim (d_decl_sections (s_doc s)) s0 s0).
  { apply (sim_refl s0); [destruct HS; split; assumption|reflexivity]. }
  change (same_padded ((d <- getD ;; load1 (d_root d) ;;; generate_terms e1 true n (mk_source ref dir a) None ;;; finish_load) s0)
    ((d <- getD ;; load1 (d_root d) ;;; generate_terms e2 true n (mk_source ref dir b) None ;;; finish_load) s0)).
  clearbody s0. rewrite !(bind_ok_run getD _ _ _ eq_refl). cbn [getD gets fst].
  assert (X : forall e x, (load1 (d_root (s_doc s0)) ;;; generate_terms e true n x None ;;; finish_load) s0
    = bind (load1 (d_root (s_doc s0)) ;;; generate_terms e true n x None) (fun _ => finish_load) s0).
  { intros e x. unfold bind. destruct (load1 _ s0) as [s' [u|er]]; [|reflexivity]. destruct (generate_terms e true n x None s') as [s'' [v|er]]; reflexivity. }
  rewrite !X. clear X.
  assert (Y : rel (d_decl_sections (s_doc s)) eq (load1 (d_root (s_doc s0)) ;;; generate_terms e1 true n (mk_source ref dir a) None)
                (load1 (d_root (s_doc s0)) ;;; generate_terms e2 true n (mk_source ref dir b) None)).
  { apply rel_bind_eq; [apply r_load1|]. intros _. apply r_generate; auto. discriminate. }
  destruct (Y s0 s0 S0) as [S' R]. eapply then_finish; eassumption.
Qed.

Lemma padded_after : forall e1 e2 n src1 src2 line ls a b s, sections_ok s -> no_synonyms (s_prs s) -> is_section_cls (t_cls (tget ls s)) = true ->
  let cols := declared_columns (d_decl_sections (s_doc s)) in
  files_padded cols e1 e2 -> padded_rows cols a b -> src_ref src1 = src_ref src2 -> src_dir src1 = src_dir src2 ->
  same_padded ((rows_loop e1 true (generate_terms e1 true n) src1 None line a ls ;;; finish_load) s)
              ((rows_loop e2 true (generate_terms e2 true n) src2 None line b ls ;;; finish_load) s).
Proof.
  intros e1 e2 n src1 src2 line ls a b s HS HN HL cols HE HP ER ED. pose proof (sim_refl s HS (no_syn _ HN)) as S.
  assert (X := r_rows _ e1 e2 true (generate_terms e1 true n) (generate_terms e2 true n) src1 src2 None HE).
  destruct (X (conj (r_generate _ e1 e2 true HE n) (fun a f => grown_generate e1 true n a f)) ER ED ltac:(discriminate) a b HP line ls s s S HL) as [S' R].
  eapply then_finish; eassumption.
Qed.
