(** * SlugFacts: proofs about slugify *)

From Verif Require Import StrFacts SpecNames NameFacts SpecText Slug.

Definition safe_chars : list ascii :=
  list_ascii_of_string "abcdefghijklmnopqrstuvwxyz0123456789_.-".
Definition safe (c : ascii) : bool := existsb (Ascii.eqb c) safe_chars.

Lemma safe_in : forall c, safe c = true <-> In c safe_chars.
Proof.
  intros c. unfold safe. rewrite existsb_exists. split.
  - intros (x & H & E). apply Ascii.eqb_eq in E. subst. exact H.
  - intros H. exists c. split; [exact H|apply Ascii.eqb_refl].
Qed.

(** what fold_ascii and lower can produce *)
Definition low_ascii (c : ascii) : bool := (nat_of_ascii c <? 128) && Ascii.eqb (lower_char c) c.

Lemma fold_low : forall c d, In d (list_ascii_of_string (lower (ascii_fold c))) -> low_ascii d = true.
Proof.
  intros c d.
  assert (H : forallb low_ascii (list_ascii_of_string (lower (ascii_fold c))) = true).
  { apply (all256_spec (fun c => forallb low_ascii (list_ascii_of_string (lower (ascii_fold c))))).
    vm_compute. reflexivity. }
  rewrite forallb_forall in H. apply H.
Qed.

Lemma chars_app : forall a b, list_ascii_of_string (a ++ b) = list_ascii_of_string a ++ list_ascii_of_string b.
Proof. induction a; intros; simpl; congruence. Qed.

Lemma fold_ascii_low : forall s d, In d (list_ascii_of_string (lower (fold_ascii s))) -> low_ascii d = true.
Proof.
  induction s; intros d H; [destruct H|]. cbn [fold_ascii] in H. rewrite lower_app, chars_app, in_app_iff in H.
  destruct H as [H|H]; [eapply fold_low; exact H|auto].
Qed.

Lemma strip_chars : forall s d, In d (list_ascii_of_string (strip s)) -> In d (list_ascii_of_string s).
Proof.
  intros s d H. destruct (strip_elim s) as (u & v & E & _). rewrite E, !chars_app, !in_app_iff. auto.
Qed.

Lemma filter_chars : forall f s d, In d (list_ascii_of_string (filter_str f s)) <-> In d (list_ascii_of_string s) /\ f d = true.
Proof.
  induction s; simpl; intros d; [tauto|]. destruct (f a) eqn:E; simpl; rewrite IHs.
  - split; [intros [->|H]; tauto|tauto].
  - split; [tauto|]. intros [[->|H] H2]; [congruence|tauto].
Qed.

Lemma squeeze_chars : forall s p d, In d (list_ascii_of_string (squeeze p s)) ->
  d = "-"%char \/ (In d (list_ascii_of_string s) /\ slug_dash d = false).
Proof.
  induction s; simpl; intros p d H; [tauto|]. destruct (slug_dash a) eqn:E.
  - destruct p; simpl in H.
    + apply IHs in H. tauto.
    + destruct H as [<-|H]; [auto|]. apply IHs in H. tauto.
  - simpl in H. destruct H as [<-|H]; [auto|]. apply IHs in H. tauto.
Qed.

Lemma keep_safe : forall c, low_ascii c = true -> slug_keep c = true -> slug_dash c = false -> safe c = true.
Proof.
  intros c H1 H2 H3.
  assert (H : negb (low_ascii c && slug_keep c && negb (slug_dash c)) || safe c = true).
  { apply (all256_spec (fun c => negb (low_ascii c && slug_keep c && negb (slug_dash c)) || safe c)).
    vm_compute. reflexivity. }
  rewrite H1, H2, H3 in H. exact H.
Qed.

Lemma slugify_safe : forall s c, In c (list_ascii_of_string (slugify s)) -> In c safe_chars.
Proof.
  intros s c H. apply safe_in. unfold slugify in H. apply squeeze_chars in H. destruct H as [->|[H1 H2]]; [reflexivity|].
  apply filter_chars in H1. destruct H1 as [H1 H3]. rewrite <- strip_lower in H1. apply strip_chars in H1.
  apply fold_ascii_low in H1. apply keep_safe; assumption.
Qed.

(** no two dashes *)
Lemma squeeze_true_start : forall s, startswith "-" (squeeze true s) = false.
Proof.
  induction s; [reflexivity|]. cbn [squeeze]. destruct (slug_dash a) eqn:E; [exact IHs|].
  cbn [startswith]. destruct (Ascii.eqb "-" a) eqn:E2; [|reflexivity].
  apply Ascii.eqb_eq in E2. subst. discriminate.
Qed.

Lemma squeeze_nodd : forall s p a b, squeeze p s <> (a ++ "--" ++ b)%string.
Proof.
  induction s; intros p x y H; cbn [squeeze] in H.
  - destruct x; discriminate.
  - destruct (slug_dash a) eqn:E.
    + destruct p; [eapply IHs; exact H|]. destruct x as [|c x]; cbn [append] in H.
      * injection H as H. pose proof (squeeze_true_start s) as Q. rewrite H in Q. discriminate.
      * injection H as _ H. eapply IHs. exact H.
    + destruct x as [|c x]; cbn [append] in H.
      * injection H as -> H. discriminate.
      * injection H as _ H. eapply IHs. exact H.
Qed.

Lemma slugify_nodd : forall s a b, slugify s <> (a ++ "--" ++ b)%string.
Proof. intros. apply squeeze_nodd. Qed.

(** case and outer white space *)
Lemma fold_lower_char : forall c, lower (ascii_fold (lower_char c)) = lower (ascii_fold c).
Proof.
  intros c. apply String.eqb_eq.
  apply (all256_spec (fun c => String.eqb (lower (ascii_fold (lower_char c))) (lower (ascii_fold c)))).
  vm_compute. reflexivity.
Qed.
Lemma fold_lower : forall s, lower (fold_ascii (lower s)) = lower (fold_ascii s).
Proof. induction s; [reflexivity|]. cbn [lower fold_ascii]. rewrite !lower_app, fold_lower_char, IHs. reflexivity. Qed.

Lemma slugify_lower : forall s, slugify (lower s) = slugify s.
Proof. intros s. unfold slugify. rewrite <- !strip_lower, fold_lower. reflexivity. Qed.

Lemma fold_app : forall a b, fold_ascii (a ++ b) = (fold_ascii a ++ fold_ascii b)%string.
Proof. induction a; intros; cbn; [reflexivity|]. rewrite IHa. apply app_s_assoc. Qed.

Lemma fold_blank : forall s, blank s -> blank (fold_ascii s).
Proof.
  unfold blank. induction s; intros H; [reflexivity|]. cbn [all_chars fold_ascii] in *.
  apply andb_true_iff in H. destruct H as [H1 H2]. rewrite all_chars_app, IHs by exact H2. rewrite andb_true_r.
  assert (E : negb (isspace a) || all_chars isspace (ascii_fold a) = true).
  { apply (all256_spec (fun a => negb (isspace a) || all_chars isspace (ascii_fold a))). vm_compute. reflexivity. }
  rewrite H1 in E. exact E.
Qed.

Lemma slugify_insensitive : forall u s v s', white u -> white v -> lower s = lower s' ->
  slugify (u ++ s ++ v) = slugify s'.
Proof.
  intros u s v s' Hu Hv H. apply white_iff in Hu, Hv. unfold slugify at 1. rewrite !fold_app.
  rewrite strip_outer by (apply fold_blank; assumption). fold (slugify s).
  rewrite <- (slugify_lower s), H. apply slugify_lower.
Qed.

(** idempotence *)
Definition fixed (c : ascii) : bool :=
  String.eqb (ascii_fold c) (String c "") && Ascii.eqb (lower_char c) c && negb (isspace c) && slug_keep c.

Lemma safe_fixed : forall c, safe c = true -> fixed c = true.
Proof.
  intros c H. assert (E : negb (safe c) || fixed c = true).
  { apply (all256_spec (fun c => negb (safe c) || fixed c)). vm_compute. reflexivity. }
  rewrite H in E. exact E.
Qed.

Lemma fixed_spec : forall c, fixed c = true ->
  ascii_fold c = String c "" /\ lower_char c = c /\ isspace c = false /\ slug_keep c = true.
Proof.
  intros c H. unfold fixed in H. repeat (apply andb_true_iff in H; destruct H as [H ?]).
  apply String.eqb_eq in H. apply Ascii.eqb_eq in H2. apply negb_true_iff in H1. auto.
Qed.

Lemma safe_all : forall s, (forall c, In c (list_ascii_of_string s) -> safe c = true) ->
  fold_ascii s = s /\ lower s = s /\ filter_str slug_keep s = s /\ starts_blank s = false /\ ends_blank s = false.
Proof.
  induction s; intros H; [repeat split|]. simpl in H.
  destruct (fixed_spec a) as (F1 & F2 & F3 & F4); [apply safe_fixed; apply H; auto|].
  destruct IHs as (I1 & I2 & I3 & I4 & I5); [auto|]. cbn [fold_ascii lower filter_str starts_blank ends_blank].
  rewrite F1, F2, F3, F4, I1, I2, I3. repeat split; try reflexivity. destruct s; [first [exact F3|reflexivity]|exact I5].
Qed.

Lemma squeeze_id : forall s, (forall c, In c (list_ascii_of_string s) -> safe c = true) ->
  (forall a b, s <> (a ++ "--" ++ b)%string) -> squeeze false s = s.
Proof.
  assert (G : forall s p, (forall c, In c (list_ascii_of_string s) -> safe c = true) ->
    (forall a b, s <> (a ++ "--" ++ b)%string) -> (p = true -> startswith "-" s = false) -> squeeze p s = s).
  { induction s; intros p H1 H2 H3; [reflexivity|]. cbn [squeeze]. simpl in H1.
    assert (N : forall x y, s <> (x ++ "--" ++ y)%string).
    { intros x y E. apply (H2 (String a x) y). rewrite E. reflexivity. }
    assert (Ha : slug_dash a = Ascii.eqb "-" a).
    { destruct (fixed_spec a) as (_ & _ & F3 & _); [apply safe_fixed; apply H1; auto|].
      unfold slug_dash. rewrite F3, orb_false_r. apply Ascii.eqb_sym. }
    rewrite Ha. destruct (Ascii.eqb "-" a) eqn:E.
    - apply Ascii.eqb_eq in E. subst. destruct p; [specialize (H3 eq_refl); discriminate|].
      rewrite IHs; auto. intros _. destruct s; [reflexivity|]. cbn [startswith].
      destruct (Ascii.eqb "-" a) eqn:E; [|reflexivity]. apply Ascii.eqb_eq in E. subst.
      exfalso. apply (H2 "" s). reflexivity.
    - rewrite IHs; auto. discriminate. }
  intros s H1 H2. apply G; auto. discriminate.
Qed.

Lemma slugify_idem : forall s, slugify (slugify s) = slugify s.
Proof.
  intros s. assert (H : forall c, In c (list_ascii_of_string (slugify s)) -> safe c = true).
  { intros c Hc. apply safe_in. eapply slugify_safe. exact Hc. }
  destruct (safe_all _ H) as (I1 & I2 & I3 & I4 & I5).
  unfold slugify at 1. rewrite I1, strip_id by assumption. rewrite I2, I3. apply squeeze_id; [exact H|].
  intros a b. apply slugify_nodd.
Qed.

(** ** What is kept *)

Lemma squeeze_word : forall w p rest, (forall c, In c (list_ascii_of_string w) -> slug_dash c = false) -> w <> "" ->
  squeeze p (w ++ rest) = (w ++ squeeze false rest)%string.
Proof.
  induction w as [|c w IH]; intros p rest H N; [congruence|]. cbn [append squeeze].
  rewrite (H c) by (left; reflexivity). f_equal. destruct w as [|d w]; [reflexivity|].
  apply IH; [|discriminate]. intros x I. apply H. right. exact I.
Qed.
Lemma squeeze_gap : forall g rest, (forall c, In c (list_ascii_of_string g) -> slug_dash c = true) ->
  squeeze true (g ++ rest) = squeeze true rest.
Proof.
  induction g as [|c g IH]; intros rest H; [reflexivity|]. cbn [append squeeze].
  rewrite (H c) by (left; reflexivity). apply IH. intros x I. apply H. right. exact I.
Qed.
Lemma squeeze_gap1 : forall g rest, g <> "" -> (forall c, In c (list_ascii_of_string g) -> slug_dash c = true) ->
  squeeze false (g ++ rest) = String "-" (squeeze true rest).
Proof.
  destruct g as [|c g]; intros rest N H; [congruence|]. cbn [append squeeze].
  rewrite (H c) by (left; reflexivity). rewrite squeeze_gap; [reflexivity|]. intros x I. apply H. right. exact I.
Qed.

Lemma filter_app_s : forall f a b, filter_str f (a ++ b) = (filter_str f a ++ filter_str f b)%string.
Proof. induction a; intros; cbn [append filter_str]; [reflexivity|]. destruct (f a); [cbn [append]; f_equal; apply IHa|apply IHa]. Qed.

Lemma word_char : forall c, nat_of_ascii c < 128 -> isspace c = false -> c <> "-"%char ->
  slug_keep (lower_char c) = existsb (Ascii.eqb (lower_char c)) slug_letters /\ slug_dash (lower_char c) = false.
Proof.
  intros c H1 H2 H3.
  assert (A : (if (nat_of_ascii c <? 128) && negb (isspace c) && negb (Ascii.eqb c "-")
    then Bool.eqb (slug_keep (lower_char c)) (existsb (Ascii.eqb (lower_char c)) slug_letters) && negb (slug_dash (lower_char c))
    else true) = true).
  { apply (all256_spec (fun c => if (nat_of_ascii c <? 128) && negb (isspace c) && negb (Ascii.eqb c "-")
    then Bool.eqb (slug_keep (lower_char c)) (existsb (Ascii.eqb (lower_char c)) slug_letters) && negb (slug_dash (lower_char c))
    else true)). vm_compute. reflexivity. }
  apply Nat.ltb_lt in H1. apply Ascii.eqb_neq in H3. rewrite H1, H2, H3 in A. cbn [negb andb] in A.
  apply andb_true_iff in A. destruct A as [A B]. split; [apply eqb_prop; exact A|apply negb_true_iff; exact B].
Qed.

Lemma word_filter : forall w, slug_word_text w -> filter_str slug_keep (lower w) = slug_clean w
  /\ (forall c, In c (list_ascii_of_string (slug_clean w)) -> slug_dash c = false).
Proof.
  induction w as [|c w IH]; intros H; [split; [reflexivity|intros c []]|].
  assert (Hw : slug_word_text w) by (intros x I; apply H; right; exact I).
  destruct (IH Hw) as [I1 I2]. destruct (H c (or_introl eq_refl)) as (H1 & H2 & H3).
  destruct (word_char c H1 H2 H3) as [K D]. cbn [lower filter_str slug_clean]. rewrite K.
  destruct (existsb (Ascii.eqb (lower_char c)) slug_letters).
  - split; [f_equal; exact I1|]. intros x [<-|I]; auto.
  - split; [exact I1|exact I2].
Qed.

Lemma gap_filter : forall g, slug_gap g -> exists g', filter_str slug_keep (lower g) = g' /\ g' <> ""
  /\ (forall c, In c (list_ascii_of_string g') -> slug_dash c = true).
Proof.
  intros g [N H]. exists (filter_str slug_keep (lower g)). split; [reflexivity|].
  assert (C : forall c, nat_of_ascii c < 128 -> isspace c = true \/ c = "-"%char ->
    slug_keep (lower_char c) = true /\ slug_dash (lower_char c) = true).
  { intros c H1 H2.
    assert (A : (if (isspace c || Ascii.eqb c "-") then slug_keep (lower_char c) && slug_dash (lower_char c) else true) = true).
    { apply (all256_spec (fun c => if (isspace c || Ascii.eqb c "-") then slug_keep (lower_char c) && slug_dash (lower_char c) else true)).
      vm_compute. reflexivity. }
    rewrite <- Ascii.eqb_eq in H2. apply orb_true_iff in H2. rewrite H2 in A. apply andb_true_iff in A. exact A. }
  split.
  - destruct g as [|c g]; [congruence|]. cbn [lower filter_str].
    destruct (C c) as [K _]; [apply H; left; reflexivity|apply H; left; reflexivity|]. rewrite K. discriminate.
  - clear N. induction g as [|c g IH]; intros x I; [destruct I|].
    destruct (C c) as [K D]; [apply H; left; reflexivity|apply H; left; reflexivity|].
    cbn [lower filter_str] in I. rewrite K in I. destruct I as [<-|I]; [exact D|].
    apply IH; [|exact I]. intros y Iy. apply H. right. exact Iy.
Qed.

Lemma squeeze_gapped : forall l w0 p,
  slug_word_text w0 -> slug_clean w0 <> "" ->
  Forall (fun gw => slug_gap (fst gw) /\ slug_word_text (snd gw) /\ slug_clean (snd gw) <> "") l ->
  squeeze p (filter_str slug_keep (lower (gapped w0 l))) = join "-" (slug_clean w0 :: map (fun gw => slug_clean (snd gw)) l).
Proof.
  induction l as [|[g w] l IH]; intros w0 p H N F; unfold gapped; cbn [fold_right map fst snd].
  - rewrite app_s_nil. destruct (word_filter w0 H) as [E D]. rewrite E.
    pose proof (squeeze_word (slug_clean w0) p "" D N) as X. rewrite app_s_nil in X. rewrite X. cbn. apply app_s_nil.
  - inversion F as [|? ? (F1 & F2 & F3) F4]; subst. cbn [fst snd] in *.
    destruct (word_filter w0 H) as [E D]. destruct (gap_filter g F1) as (g' & Eg & Ng & Dg).
    change (w ++ fold_right (fun gw acc => (fst gw ++ snd gw ++ acc)%string) "" l)%string with (gapped w l).
    rewrite !lower_app, !filter_app_s, E, Eg, squeeze_word, squeeze_gap1, IH by assumption. reflexivity.
Qed.

Lemma fold_id : forall s, (forall c, In c (list_ascii_of_string s) -> nat_of_ascii c < 128) -> fold_ascii s = s.
Proof.
  induction s as [|c s IH]; intros H; [reflexivity|]. cbn [fold_ascii].
  assert (L : nat_of_ascii c < 128) by (apply H; left; reflexivity).
  unfold ascii_fold. apply Nat.ltb_lt in L. rewrite L. cbn [append]. f_equal. apply IH.
  intros x I. apply H. right. exact I.
Qed.

Lemma clean_nonempty_word : forall w, slug_word_text w -> slug_clean w <> "" ->
  w <> "" /\ forall c, In c (list_ascii_of_string w) -> isspace c = false.
Proof.
  intros w H N. split; [intros ->; apply N; reflexivity|]. intros c I. apply H in I. tauto.
Qed.

Lemma starts_word : forall w rest, w <> "" -> (forall c, In c (list_ascii_of_string w) -> isspace c = false) ->
  starts_blank (w ++ rest) = false.
Proof. destruct w as [|c w]; intros rest N H; [congruence|]. cbn. apply H. left. reflexivity. Qed.

Lemma ends_word : forall a w, w <> "" -> (forall c, In c (list_ascii_of_string w) -> isspace c = false) ->
  ends_blank (a ++ w) = false.
Proof.
  intros a w N H. destruct (string_snoc w) as [->|(x & c & ->)]; [congruence|].
  rewrite app_s_assoc, ends_blank_app. cbn. apply H. rewrite chars_app, in_app_iff. right. left. reflexivity.
Qed.

Lemma gapped_chars : forall l w0, slug_word_text w0 ->
  Forall (fun gw => slug_gap (fst gw) /\ slug_word_text (snd gw) /\ slug_clean (snd gw) <> "") l ->
  forall c, In c (list_ascii_of_string (gapped w0 l)) -> nat_of_ascii c < 128.
Proof.
  induction l as [|[g w] l IH]; intros w0 H F c I; unfold gapped in I; cbn [fold_right fst snd] in I.
  - rewrite app_s_nil in I. apply H in I. tauto.
  - inversion F as [|? ? (F1 & F2 & F3) F4]; subst. cbn [fst snd] in *.
    change (w ++ fold_right (fun gw acc => (fst gw ++ snd gw ++ acc)%string) "" l)%string with (gapped w l) in I.
    rewrite !chars_app, !in_app_iff in I. destruct I as [I|[I|I]].
    + apply H in I. tauto.
    + apply (proj2 F1) in I. tauto.
    + exact (IH w F2 F4 c I).
Qed.

Lemma gapped_ends : forall l w0, slug_word_text w0 -> slug_clean w0 <> "" ->
  Forall (fun gw => slug_gap (fst gw) /\ slug_word_text (snd gw) /\ slug_clean (snd gw) <> "") l ->
  exists a w, gapped w0 l = (a ++ w)%string /\ slug_word_text w /\ slug_clean w <> "".
Proof.
  induction l as [|[g w] l IH]; intros w0 H N F.
  - exists "", w0. unfold gapped. cbn. rewrite app_s_nil. auto.
  - inversion F as [|? ? (F1 & F2 & F3) F4]; subst. cbn [fst snd] in *.
    destruct (IH w F2 F3 F4) as (a & x & E & X1 & X2). exists (w0 ++ g ++ a)%string, x.
    split; [|auto]. unfold gapped. cbn [fold_right fst snd].
    change (w ++ fold_right (fun gw acc => (fst gw ++ snd gw ++ acc)%string) "" l)%string with (gapped w l).
    rewrite E, !app_s_assoc. reflexivity.
Qed.

Lemma slugify_words : forall w0 l, slug_word_text w0 -> slug_clean w0 <> "" ->
  Forall (fun gw => slug_gap (fst gw) /\ slug_word_text (snd gw) /\ slug_clean (snd gw) <> "") l ->
  slugify (gapped w0 l) = join "-" (slug_clean w0 :: map (fun gw => slug_clean (snd gw)) l).
Proof.
  intros w0 l H N F. unfold slugify. rewrite fold_id by (apply gapped_chars; assumption).
  rewrite strip_id; [apply squeeze_gapped; assumption| |].
  - destruct (clean_nonempty_word w0 H N) as [A B]. apply starts_word; assumption.
  - destruct (gapped_ends l w0 H N F) as (a & w & -> & X1 & X2). destruct (clean_nonempty_word w X1 X2) as [A B].
    apply ends_word; assumption.
Qed.
