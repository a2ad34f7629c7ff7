(** * NameFacts: proofs about term names *)

From Verif Require Import StrFacts SpecNames Names.

Lemma white_iff : forall s, white s <-> blank s.
Proof.
  unfold white, blank. induction s; simpl; split; intros H; auto.
  - inversion H; subst. apply andb_true_iff. split; [assumption|]. apply IHs. assumption.
  - apply andb_true_iff in H. constructor; tauto.
Qed.

Lemma dot_free_iff : forall s, dot_free s <-> has_char "." s = false.
Proof.
  unfold dot_free. induction s; cbn [list_ascii_of_string has_char].
  - split; auto.
  - destruct (Ascii.eqb "." a) eqn:E.
    + apply Ascii.eqb_eq in E. subst. split; [|discriminate]. intros H. exfalso. apply H. left. reflexivity.
    + apply Ascii.eqb_neq in E. rewrite <- IHs. simpl. split; [tauto|]. intros H [H1|H1]; auto.
Qed.

Lemma ends_blank_snoc : forall w c, ends_blank (w ++ String c "") = isspace c.
Proof. intros. rewrite ends_blank_app. reflexivity. Qed.

Lemma string_snoc : forall s, s = "" \/ exists w c, s = (w ++ String c "")%string.
Proof.
  induction s; [auto|]. right. destruct IHs as [->|(w & c & ->)].
  - exists "", a. reflexivity.
  - exists (String a w), c. reflexivity.
Qed.

Lemma tidy_iff : forall t, tidy t <-> starts_blank t = false /\ ends_blank t = false.
Proof.
  intros t. unfold tidy. split.
  - intros [H1 H2]. split.
    + destruct t; [reflexivity|]. simpl. eapply H1. reflexivity.
    + destruct (string_snoc t) as [->|(w & c & E)]; [reflexivity|]. rewrite E, ends_blank_snoc. eapply H2. exact E.
  - intros [H1 H2]. split.
    + intros c w ->. exact H1.
    + intros c w ->. rewrite ends_blank_snoc in H2. exact H2.
Qed.

Lemma trimmed_iff : forall s t, trimmed s t <-> strip s = t.
Proof.
  intros s t. split.
  - intros (u & v & -> & Hu & Hv & Ht). rewrite white_iff in *. apply tidy_iff in Ht.
    apply strip_intro; tauto.
  - intros <-. destruct (strip_elim s) as (u & v & E & Hu & Hv & H1 & H2).
    exists u, v. rewrite !white_iff, tidy_iff. auto.
Qed.

Lemma dots_app : forall a b, dots (a ++ b) = dots a + dots b.
Proof.
  unfold dots. induction a; intros; simpl; [reflexivity|].
  destruct (ascii_dec a "."); rewrite IHa; reflexivity.
Qed.
Lemma dots_free : forall s, dots s = 0 <-> dot_free s.
Proof. intros. unfold dots, dot_free. symmetry. apply count_occ_not_In. Qed.

Lemma split_on_len : forall s, List.length (split_on "." s) = S (dots s).
Proof.
  unfold dots. induction s; [reflexivity|]. cbn [split_on list_ascii_of_string count_occ].
  destruct (Ascii.eqb "." a) eqn:E.
  - apply Ascii.eqb_eq in E. subst. destruct (ascii_dec "." "."); [|congruence]. simpl. rewrite IHs. reflexivity.
  - apply Ascii.eqb_neq in E. destruct (ascii_dec a "."); [congruence|].
    destruct (split_on "." s) eqn:S; [destruct (split_on_nonnil _ _ S)|]. simpl in *. exact IHs.
Qed.

(** the three shapes of a text *)
Lemma dot_cases : forall s,
  dot_free s
  \/ (exists a b, s = (a ++ "." ++ b)%string /\ dot_free a /\ dot_free b)
  \/ (2 <= dots s /\ has_char "." s = true).
Proof.
  intros s. destruct (has_char "." s) eqn:E.
  - right. destruct (has_char_split _ _ E) as (a & b & -> & Ha).
    destruct (has_char "." b) eqn:Eb.
    + right. split; [|exact eq_refl]. destruct (has_char_split _ _ Eb) as (b1 & b2 & -> & Hb).
      change (String "." (b1 ++ String "." b2)) with ("." ++ b1 ++ "." ++ b2)%string.
      rewrite !dots_app. unfold dots at 2 4. simpl. lia.
    + left. exists a, b. rewrite !dot_free_iff. auto.
  - left. apply dot_free_iff. exact E.
Qed.

Lemma split_term_plain : forall s, dot_free s -> split_term s = Ok (ROOT_TERM, strip s).
Proof. intros s H. apply dot_free_iff in H. unfold split_term. rewrite H. reflexivity. Qed.

Lemma has_dot_mid : forall a b, has_char "." (a ++ "." ++ b) = true.
Proof. intros. rewrite has_char_app. apply orb_true_iff. right. reflexivity. Qed.

Lemma split_term_qualified : forall a b, dot_free a -> dot_free b ->
  split_term (a ++ "." ++ b) = Ok (if eqs (strip a) "" then ELIDED_TERM else strip a, strip b).
Proof.
  intros a b Ha Hb. apply dot_free_iff in Ha, Hb. unfold split_term.
  rewrite has_dot_mid. change ("." ++ b)%string with (String "." b).
  rewrite split_on_app by exact Ha. rewrite split_on_none by exact Hb. reflexivity.
Qed.

Lemma split_term_many : forall s, 2 <= dots s -> split_term s = Err EValue.
Proof.
  intros s H. destruct (dot_cases s) as [D|[(a & b & -> & Ha & Hb)|[D E]]].
  - apply dots_free in D. lia.
  - rewrite !dots_app in H. apply dots_free in Ha, Hb. unfold dots in H at 2. simpl in H. lia.
  - unfold split_term. rewrite E. pose proof (split_on_len s) as L.
    destruct (split_on "." s) as [|x [|y [|z l]]]; simpl in L; try reflexivity; lia.
Qed.

Lemma white_strip : forall a, white a <-> strip a = "".
Proof. intros. rewrite white_iff, strip_nil_blank. reflexivity. Qed.

Lemma white_dot_free : forall a, white a -> dot_free a.
Proof.
  intros a H Hin. unfold white in H. rewrite Forall_forall in H. apply H in Hin. discriminate.
Qed.

Lemma cut_unique : forall a b a' b', dot_free a -> dot_free a' ->
  (a ++ "." ++ b = a' ++ "." ++ b')%string -> a = a' /\ b = b'.
Proof.
  intros a b a' b'. rewrite !dot_free_iff. revert a'.
  induction a; intros a' Ha Ha' H; destruct a'.
  - simpl in H. injection H. auto.
  - simpl in H. injection H as <- H. discriminate.
  - simpl in H. injection H as -> H. discriminate.
  - cbn [has_char append] in *. injection H as <- H.
    destruct (Ascii.eqb "." a); [discriminate|].
    destruct (IHa _ Ha Ha' H) as [-> ->]. auto.
Qed.

Lemma not_free_mid : forall a b, ~ dot_free (a ++ "." ++ b).
Proof. intros a b H. apply dot_free_iff in H. rewrite has_dot_mid in H. discriminate. Qed.

Lemma split_term_lower_spec : forall s p r, split_term_lower s = Ok (p, r) <-> cell_names s p r.
Proof.
  intros s p r. unfold split_term_lower. split.
  - destruct (dot_cases s) as [D|[(a & b & -> & Ha & Hb)|[D E]]].
    + rewrite split_term_plain by exact D. cbn. intros H. injection H as <- <-.
      apply cell_plain; [exact D|]. apply trimmed_iff. reflexivity.
    + rewrite split_term_qualified by assumption. eqs_cases (strip a) ""; cbn; intros H; injection H as <- <-.
      * change (lower ELIDED_TERM) with current_parent. apply (cell_elided _ a b); auto.
        -- apply white_strip. exact E.
        -- apply trimmed_iff. reflexivity.
      * apply (cell_qualified _ a b); auto; apply trimmed_iff; reflexivity.
    + rewrite split_term_many by exact D. discriminate.
  - intros H. destruct H.
    + apply trimmed_iff in H0. subst. rewrite split_term_plain by assumption. reflexivity.
    + apply trimmed_iff in H2, H3. subst. rewrite split_term_qualified by assumption.
      apply eqs_false in H4. rewrite H4. reflexivity.
    + pose proof (white_dot_free _ H0) as D. apply white_strip in H0. apply trimmed_iff in H2. subst.
      rewrite split_term_qualified by assumption. rewrite H0. reflexivity.
Qed.

Lemma split_term_lower_err : forall s, split_term_lower s = Err EValue <-> 2 <= dots s.
Proof.
  intros s. split.
  - destruct (dot_cases s) as [D|[(a & b & -> & Ha & Hb)|[D E]]].
    + unfold split_term_lower. rewrite split_term_plain by exact D. discriminate.
    + unfold split_term_lower. rewrite split_term_qualified by assumption. discriminate.
    + intros _. exact D.
  - intros H. unfold split_term_lower. rewrite split_term_many by exact H. reflexivity.
Qed.

Lemma split_term_lower_total : forall s,
  split_term_lower s = Err EValue \/ exists p r, split_term_lower s = Ok (p, r).
Proof.
  intros s. destruct (dot_cases s) as [D|[(a & b & -> & Ha & Hb)|[D E]]].
  - right. unfold split_term_lower. rewrite split_term_plain by exact D. cbn. eauto.
  - right. unfold split_term_lower. rewrite split_term_qualified by assumption. cbn [rbind]. eauto.
  - left. apply split_term_lower_err. exact D.
Qed.

Lemma dots_lower : forall s, dots (lower s) = dots s.
Proof.
  unfold dots. induction s; [reflexivity|]. cbn [lower list_ascii_of_string count_occ].
  pose proof (lower_char_dot a) as H.
  destruct (ascii_dec (lower_char a) "."), (ascii_dec a "."); auto.
  - rewrite e in H. symmetry in H. apply Ascii.eqb_eq in H. congruence.
  - subst. apply Ascii.eqb_eq in H. congruence.
Qed.

Lemma dot_free_lower : forall s, dot_free (lower s) <-> dot_free s.
Proof. intros. rewrite <- !dots_free, dots_lower. reflexivity. Qed.

Lemma eqs_lower_nil : forall s, eqs (lower s) "" = eqs s "".
Proof. destruct s; reflexivity. Qed.

Lemma split_term_lower_lower : forall s, split_term_lower (lower s) = split_term_lower s.
Proof.
  intros s. unfold split_term_lower.
  destruct (dot_cases s) as [D|[(a & b & -> & Ha & Hb)|[D E]]].
  - rewrite !split_term_plain; [|assumption|apply dot_free_lower; assumption].
    cbn. rewrite strip_lower, lower_idem. reflexivity.
  - rewrite !lower_app. change (lower ".") with ".".
    rewrite !split_term_qualified by (rewrite ?dot_free_lower; assumption).
    rewrite !strip_lower, eqs_lower_nil. eqs_cases (strip a) ""; cbn; rewrite ?lower_idem; reflexivity.
  - rewrite !split_term_many; rewrite ?dots_lower; auto.
Qed.

Lemma white_app : forall a b, white (a ++ b) <-> white a /\ white b.
Proof. intros. rewrite !white_iff. apply blank_app. Qed.

Lemma dot_free_app : forall a b, dot_free (a ++ b) <-> dot_free a /\ dot_free b.
Proof. intros. rewrite !dot_free_iff, has_char_app, orb_false_iff. reflexivity. Qed.

Lemma split_term_outer : forall u s v, white u -> white v -> split_term (u ++ s ++ v) = split_term s.
Proof.
  intros u s v Hu Hv. pose proof (white_dot_free _ Hu) as Du. pose proof (white_dot_free _ Hv) as Dv.
  destruct (dot_cases s) as [D|[(a & b & -> & Ha & Hb)|[D E]]].
  - rewrite !split_term_plain; [|assumption|rewrite !dot_free_app; auto].
    rewrite strip_outer by (apply white_iff; assumption). reflexivity.
  - replace (u ++ (a ++ "." ++ b) ++ v)%string with ((u ++ a) ++ "." ++ (b ++ v))%string
      by (rewrite !app_s_assoc; reflexivity).
    rewrite !split_term_qualified by (rewrite ?dot_free_app; auto).
    assert (H1 : strip (u ++ a) = strip a).
    { rewrite <- (app_s_nil (u ++ a)). rewrite <- app_s_assoc. apply strip_outer; [apply white_iff; exact Hu|reflexivity]. }
    assert (H2 : strip (b ++ v) = strip b).
    { change (b ++ v)%string with ("" ++ b ++ v)%string. apply strip_outer; [reflexivity|apply white_iff; exact Hv]. }
    rewrite H1, H2. reflexivity.
  - rewrite !split_term_many; rewrite ?dots_app; auto; lia.
Qed.

Lemma split_term_lower_insensitive : forall u s v s', white u -> white v -> lower s = lower s' ->
  split_term_lower (u ++ s ++ v) = split_term_lower s'.
Proof.
  intros u s v s' Hu Hv H. unfold split_term_lower at 1. rewrite split_term_outer by assumption.
  change (do? (p, r) <- split_term s;; Ok (lower p, lower r)) with (split_term_lower s).
  rewrite <- (split_term_lower_lower s), H. apply split_term_lower_lower.
Qed.

Lemma cell_names_tidy : forall s p r, cell_names s p r ->
  tidy p /\ tidy r /\ dot_free p /\ dot_free r /\ lower p = p /\ lower r = r /\ p <> "".
Proof.
  assert (T : forall a p, trimmed a p -> tidy (lower p)).
  { intros a p (u & v & _ & _ & _ & H). rewrite tidy_iff in *.
    rewrite starts_blank_lower, ends_blank_lower. exact H. }
  assert (D : forall a p, trimmed a p -> dot_free a -> dot_free (lower p)).
  { intros a p (u & v & -> & _) H. rewrite !dot_free_app in H. apply dot_free_lower. tauto. }
  intros s p r [r' D0 T0|a b p' r' E Da Db Tp Tr Np|a b r' E W Db Tr]; rewrite ?lower_idem; subst.
  - refine (conj _ (conj (T _ _ T0) (conj _ (conj (D _ _ T0 D0) (conj eq_refl (conj eq_refl _)))))).
    + apply tidy_iff. split; reflexivity.
    + apply dot_free_iff. reflexivity.
    + discriminate.
  - refine (conj (T _ _ Tp) (conj (T _ _ Tr) (conj (D _ _ Tp Da) (conj (D _ _ Tr Db) (conj eq_refl (conj eq_refl _)))))).
    intros H. apply Np. apply lower_nil. exact H.
  - refine (conj _ (conj (T _ _ Tr) (conj _ (conj (D _ _ Tr Db) (conj eq_refl (conj eq_refl _)))))).
    + apply tidy_iff. split; reflexivity.
    + apply dot_free_iff. reflexivity.
    + discriminate.
Qed.

Lemma tidy_strip : forall t, tidy t -> strip t = t.
Proof. intros t H. apply tidy_iff in H. apply strip_id; tauto. Qed.

Lemma normalize_spec : forall s n, normalize_term s = Ok n <->
  exists p r, cell_names s p r /\ n = (p ++ "." ++ r)%string.
Proof.
  intros s n. unfold normalize_term. split.
  - destruct (split_term_lower s) as [[p r]|e] eqn:E; [|discriminate]. cbn. intros H. injection H as <-.
    exists p, r. rewrite <- split_term_lower_spec. auto.
  - intros (p & r & H & ->). apply split_term_lower_spec in H. rewrite H. reflexivity.
Qed.

Lemma cell_names_dotted : forall s p r, cell_names s p r -> cell_names (p ++ "." ++ r) p r.
Proof.
  intros s p r H. apply cell_names_tidy in H. destruct H as (H1 & H2 & H3 & H4 & H5 & H6 & H7).
  rewrite <- H5 at 2. rewrite <- H6 at 2. apply (cell_qualified _ p r); auto; apply trimmed_iff, tidy_strip; assumption.
Qed.

Lemma normalize_idem : forall s n, normalize_term s = Ok n -> normalize_term n = Ok n.
Proof.
  intros s n H. apply normalize_spec in H. destruct H as (p & r & H & ->).
  apply normalize_spec. exists p, r. split; [|reflexivity]. eapply cell_names_dotted. exact H.
Qed.

(** ** term_is *)

Lemma dotted_lower_eq : forall pt rt a b, dot_free pt -> dot_free a ->
  eqs (dotted (lower pt) (lower rt)) (lower (a ++ "." ++ b)) = eqs (lower a) (lower pt) && eqs (lower b) (lower rt).
Proof.
  intros pt rt a b Hp Ha. rewrite !lower_app. change (lower ".") with ".". unfold dotted.
  eqs_cases (lower pt ++ "." ++ lower rt)%string (lower a ++ "." ++ lower b)%string.
  - apply cut_unique in E; [|apply dot_free_lower; assumption..].
    destruct E as [-> ->]. rewrite !eqs_refl. reflexivity.
  - eqs_cases (lower a) (lower pt); eqs_cases (lower b) (lower rt); try reflexivity. congruence.
Qed.

Lemma eqs_star_lower : forall a, eqs (lower a) "*" = eqs a "*".
Proof.
  intros a. eqs_cases a "*".
  - subst. reflexivity.
  - apply eqs_false. intros H. apply E. destruct a as [|c a]; [discriminate|].
    destruct a; [|discriminate]. cbn [lower] in H. injection H as H.
    f_equal.
    assert (Hc : Ascii.eqb "*" (lower_char c) = Ascii.eqb "*" c) by by_chars c.
    rewrite H, Ascii.eqb_refl in Hc. symmetry in Hc. apply Ascii.eqb_eq in Hc. auto.
Qed.

Lemma side_iff : forall a n, side a n <-> eqs a "*" || eqs (lower a) (lower n) = true.
Proof.
  intros. unfold side. rewrite orb_true_iff, !eqs_true. reflexivity.
Qed.

Lemma term_is_qualified : forall pt rt a b,
  dot_free pt -> dot_free a -> dot_free b -> a <> "" -> tidy a -> tidy b ->
  term_is_name pt rt (a ++ "." ++ b)
  = Ok ((eqs a "*" || eqs (lower a) (lower pt)) && (eqs b "*" || eqs (lower b) (lower rt))).
Proof.
  intros pt rt a b Hp Ha Hb Na Ta Tb. unfold term_is_name. rewrite has_dot_mid.
  unfold split_term_lower. rewrite split_term_qualified by assumption.
  rewrite !tidy_strip by assumption. apply eqs_false in Na. rewrite Na. cbn [rbind].
  rewrite dotted_lower_eq by assumption. rewrite !eqs_star_lower. f_equal.
  destruct (eqs a "*") eqn:EA, (eqs b "*") eqn:EB, (eqs (lower a) (lower pt)), (eqs (lower b) (lower rt)); reflexivity.
Qed.

Lemma term_is_plain : forall pt rt p,
  dot_free pt -> dot_free p -> tidy p ->
  term_is_name pt rt p = Ok (eqs (lower pt) "root" && (eqs p "*" || eqs (lower p) (lower rt))).
Proof.
  intros pt rt p Hp Hd Ht. pose proof (term_is_qualified pt rt "root" p Hp) as Q.
  assert (D : dot_free "root") by (apply dot_free_iff; reflexivity).
  assert (T : tidy "root") by (apply tidy_iff; split; reflexivity).
  specialize (Q D Hd ltac:(discriminate) T Ht).
  unfold term_is_name in *. rewrite has_dot_mid in Q.
  apply dot_free_iff in Hd. rewrite Hd. change ("root." ++ p)%string with ("root" ++ "." ++ p)%string.
  rewrite Q. f_equal. change (lower "root") with "root". rewrite (eqs_sym (lower pt)). reflexivity.
Qed.

Lemma term_is_decides : forall pt rt p, dot_free pt -> tidy_pattern p ->
  exists b, term_is_name pt rt p = Ok b /\ (b = true <-> denotes p pt rt).
Proof.
  intros pt rt p Hp [Hd Ht|a b -> Ha Hb Na Ta Tb].
  - rewrite term_is_plain by assumption. eexists. split; [reflexivity|].
    rewrite andb_true_iff, eqs_true, <- side_iff. split.
    + intros [H1 H2]. apply denotes_plain; auto.
    + intros [H1 H2 H3|a b -> _ _ _ _]; [auto|]. destruct (not_free_mid _ _ Hd).
  - rewrite term_is_qualified by assumption. eexists. split; [reflexivity|].
    rewrite andb_true_iff, <- !side_iff. split.
    + intros [H1 H2]. eapply denotes_qualified; eauto.
    + intros [H1 H2 H3|a' b' E Ha' Hb' H1 H2].
      * destruct (not_free_mid _ _ H1).
      * apply cut_unique in E; [|assumption..]. destruct E as [-> ->]. auto.
Qed.

Lemma term_is_many : forall pt rt p, 2 <= dots p -> term_is_name pt rt p = Err EValue.
Proof.
  intros pt rt p H. unfold term_is_name.
  assert (E : has_char "." p = true).
  { destruct (has_char "." p) eqn:E; [reflexivity|]. apply dot_free_iff, dots_free in E. lia. }
  rewrite E. unfold split_term_lower. rewrite split_term_many by exact H. reflexivity.
Qed.

Lemma term_is_any_decides : forall pt rt ps, dot_free pt -> Forall tidy_pattern ps ->
  exists b, term_is_any pt rt ps = Ok b /\ (b = true <-> Exists (fun p => denotes p pt rt) ps).
Proof.
  intros pt rt ps Hp H. induction H as [|p ps Ht _ IH]; simpl.
  - exists false. split; [reflexivity|]. rewrite Exists_nil. split; [discriminate|tauto].
  - destruct (term_is_decides pt rt p Hp Ht) as (b & E & Hb). rewrite E. cbn [rbind].
    destruct b.
    + exists true. split; [reflexivity|]. split; [|reflexivity]. intros _. left. apply Hb. reflexivity.
    + destruct IH as (b & E' & Hb'). exists b. split; [exact E'|]. rewrite Exists_cons, Hb'.
      split; [tauto|]. intros [H'|H']; [|exact H']. apply Hb in H'. discriminate.
Qed.
