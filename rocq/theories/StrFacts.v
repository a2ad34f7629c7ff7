(** * StrFacts: lemmas about the string primitives *)

From Verif Require Import PyStr.

Lemma eqs_true : forall a b, eqs a b = true <-> a = b.
Proof. exact String.eqb_eq. Qed.
Lemma eqs_false : forall a b, eqs a b = false <-> a <> b.
Proof. exact String.eqb_neq. Qed.
Lemma eqs_refl : forall a, eqs a a = true.
Proof. exact String.eqb_refl. Qed.
Lemma eqs_sym : forall a b, eqs a b = eqs b a.
Proof. exact String.eqb_sym. Qed.

Ltac eqs_cases a b :=
  let H := fresh "E" in
  destruct (eqs a b) eqn:H; [apply eqs_true in H | apply eqs_false in H].

Lemma app_s_assoc : forall a b c : string, (a ++ (b ++ c) = (a ++ b) ++ c)%string.
Proof. induction a; intros; simpl; congruence. Qed.
Lemma app_s_nil : forall a : string, (a ++ "" = a)%string.
Proof. induction a; simpl; congruence. Qed.
Lemma app_s_inv_head : forall a b c : string, (a ++ b = a ++ c)%string -> b = c.
Proof. induction a; simpl; intros b c H; [exact H|]. injection H; auto. Qed.
Lemma app_s_length : forall a b, String.length (a ++ b) = String.length a + String.length b.
Proof. induction a; simpl; intros; auto. Qed.

(** ** Characters: all statements about one character are checked on all 256 *)

Definition all256 (f : ascii -> bool) : bool :=
  forallb (fun n => f (ascii_of_nat n)) (seq 0 256).

Lemma all256_spec : forall f, all256 f = true -> forall c, f c = true.
Proof.
  intros f H c. unfold all256 in H. rewrite forallb_forall in H.
  rewrite <- (ascii_nat_embedding c). apply H. apply in_seq.
  pose proof (nat_ascii_bounded c). lia.
Qed.

Lemma lower_char_idem : forall c, lower_char (lower_char c) = lower_char c.
Proof.
  intros c. apply Ascii.eqb_eq.
  apply (all256_spec (fun c => Ascii.eqb (lower_char (lower_char c)) (lower_char c))).
  vm_compute. reflexivity.
Qed.

Lemma isspace_lower : forall c, isspace (lower_char c) = isspace c.
Proof.
  intros c. apply eqb_prop.
  apply (all256_spec (fun c => Bool.eqb (isspace (lower_char c)) (isspace c))).
  vm_compute. reflexivity.
Qed.

(** a boolean equation about one character, checked on all 256 *)
Ltac by_chars c :=
  match goal with
  | |- ?l = ?r =>
      let f := eval pattern c in (Bool.eqb l r) in
      match f with
      | ?g _ => apply eqb_prop; apply (all256_spec g); vm_compute; reflexivity
      end
  end.

Lemma lower_char_dot : forall c, Ascii.eqb "." (lower_char c) = Ascii.eqb "." c.
Proof. intros c. by_chars c. Qed.

(** ** lower *)

Lemma lower_idem : forall s, lower (lower s) = lower s.
Proof. induction s; simpl; [reflexivity|]. rewrite lower_char_idem. congruence. Qed.
Lemma lower_app : forall a b, (lower (a ++ b) = lower a ++ lower b)%string.
Proof. induction a; intros; simpl; congruence. Qed.
Lemma lower_nil : forall s, lower s = "" <-> s = "".
Proof. destruct s; simpl; split; congruence. Qed.
Lemma lower_length : forall s, String.length (lower s) = String.length s.
Proof. induction s; simpl; congruence. Qed.

Lemma has_dot_lower : forall s, has_char "." (lower s) = has_char "." s.
Proof.
  induction s; [reflexivity|]. cbn [lower has_char]. rewrite lower_char_dot.
  destruct (Ascii.eqb "." a); auto.
Qed.

(** ** strip *)

Definition blank (s : string) : Prop := all_chars isspace s = true.
Definition starts_blank (s : string) : bool :=
  match s with "" => false | String c _ => isspace c end.
Fixpoint ends_blank (s : string) : bool :=
  match s with
  | "" => false
  | String c "" => isspace c
  | String _ s' => ends_blank s'
  end.

Lemma all_chars_app : forall f a b, all_chars f (a ++ b) = all_chars f a && all_chars f b.
Proof. induction a; intros; simpl; [reflexivity|]. rewrite IHa, andb_assoc. reflexivity. Qed.

Lemma lstrip_spec : forall s, exists u, s = (u ++ lstrip s)%string /\ blank u /\ starts_blank (lstrip s) = false.
Proof.
  induction s.
  - exists "". split; [|split]; reflexivity.
  - simpl. destruct (isspace a) eqn:E.
    + destruct IHs as (u & H1 & H2 & H3). exists (String a u). split; [|split].
      * simpl. rewrite <- H1. reflexivity.
      * unfold blank in *. simpl. rewrite E. exact H2.
      * exact H3.
    + exists "". split; [|split]; simpl; auto. reflexivity.
Qed.

Lemma rstrip_spec : forall s, exists v, s = (rstrip s ++ v)%string /\ blank v /\ ends_blank (rstrip s) = false.
Proof.
  induction s.
  - exists "". split; [|split]; reflexivity.
  - destruct IHs as (v & H1 & H2 & H3). simpl. destruct (rstrip s) eqn:R.
    + destruct (isspace a) eqn:E.
      * exists (String a v). split; [|split].
        -- rewrite H1. reflexivity.
        -- unfold blank in *. simpl. rewrite E. exact H2.
        -- reflexivity.
      * exists v. split; [|split]; auto. rewrite H1. reflexivity.
    + exists v. split; [|split]; auto. rewrite H1. reflexivity.
Qed.

Lemma blank_app : forall a b, blank (a ++ b) <-> blank a /\ blank b.
Proof. intros. unfold blank. rewrite all_chars_app, andb_true_iff. tauto. Qed.

Lemma lstrip_blank_app : forall u s, blank u -> lstrip (u ++ s) = lstrip s.
Proof.
  induction u; simpl; intros s H; [reflexivity|]. unfold blank in H. simpl in H.
  apply andb_true_iff in H. destruct H as [H1 H2]. rewrite H1. apply IHu. exact H2.
Qed.
Lemma lstrip_id : forall s, starts_blank s = false -> lstrip s = s.
Proof. destruct s; simpl; [reflexivity|]. intros ->. reflexivity. Qed.
Lemma rstrip_blank : forall v, blank v -> rstrip v = "".
Proof.
  induction v; intros H; [reflexivity|]. unfold blank in *. simpl in *.
  apply andb_true_iff in H. destruct H as [H1 H2]. rewrite IHv by exact H2. rewrite H1. reflexivity.
Qed.
Lemma rstrip_app_blank : forall s v, blank v -> rstrip (s ++ v) = rstrip s.
Proof.
  induction s; simpl; intros v H; [apply rstrip_blank; exact H|]. rewrite IHs by exact H. reflexivity.
Qed.
Lemma rstrip_id : forall s, ends_blank s = false -> rstrip s = s.
Proof.
  induction s; intros H; [reflexivity|]. simpl in *. destruct s.
  - simpl. rewrite H. reflexivity.
  - rewrite IHs by exact H. reflexivity.
Qed.

Lemma ends_blank_app : forall a b, ends_blank (a ++ b) = match b with "" => ends_blank a | _ => ends_blank b end.
Proof.
  induction a; intros b; simpl.
  - destruct b; reflexivity.
  - destruct b.
    + rewrite app_s_nil. reflexivity.
    + destruct (a0 ++ String a1 b)%string eqn:E.
      * destruct a0; discriminate.
      * rewrite <- E. apply IHa.
Qed.

Lemma strip_intro : forall u t v,
  blank u -> blank v -> starts_blank t = false -> ends_blank t = false ->
  strip (u ++ t ++ v) = t.
Proof.
  intros u t v Hu Hv Ht Ht'. unfold strip. rewrite lstrip_blank_app by exact Hu.
  destruct t as [|c t'].
  - simpl. pose proof (lstrip_spec v) as (u' & E & Hu' & H3).
    assert (Hb : blank (lstrip v)). { rewrite E in Hv. apply blank_app in Hv. tauto. }
    rewrite rstrip_blank by exact Hb. reflexivity.
  - rewrite lstrip_id by exact Ht. rewrite rstrip_app_blank by exact Hv. apply rstrip_id. exact Ht'.
Qed.

Lemma strip_elim : forall s, exists u v,
  s = (u ++ strip s ++ v)%string /\ blank u /\ blank v
  /\ starts_blank (strip s) = false /\ ends_blank (strip s) = false.
Proof.
  intros s. unfold strip.
  destruct (lstrip_spec s) as (u & H1 & H2 & H3).
  destruct (rstrip_spec (lstrip s)) as (v & H4 & H5 & H6).
  exists u, v. repeat split; auto.
  - rewrite <- H4. exact H1.
  - destruct (rstrip (lstrip s)) eqn:E; [reflexivity|].
    rewrite H4 in H3. simpl in *. exact H3.
Qed.

Lemma strip_idem : forall s, strip (strip s) = strip s.
Proof.
  intros s. destruct (strip_elim s) as (u & v & _ & _ & _ & H1 & H2).
  rewrite <- (app_s_nil (strip s)) at 1.
  change (strip s ++ "")%string with ("" ++ strip s ++ "")%string.
  apply strip_intro; auto; reflexivity.
Qed.

Lemma strip_id : forall t, starts_blank t = false -> ends_blank t = false -> strip t = t.
Proof.
  intros t H1 H2. rewrite <- (app_s_nil t) at 1. change (t ++ "")%string with ("" ++ t ++ "")%string.
  apply strip_intro; auto; reflexivity.
Qed.

Lemma strip_outer : forall u s v, blank u -> blank v -> strip (u ++ s ++ v) = strip s.
Proof.
  intros u s v Hu Hv. destruct (strip_elim s) as (a & b & E & Ha & Hb & H1 & H2).
  rewrite E at 1.
  replace (u ++ (a ++ strip s ++ b) ++ v)%string with ((u ++ a) ++ strip s ++ (b ++ v))%string
    by (rewrite !app_s_assoc; reflexivity).
  apply strip_intro; auto; apply blank_app; auto.
Qed.

Lemma blank_lower : forall s, all_chars isspace (lower s) = all_chars isspace s.
Proof. induction s; simpl; [reflexivity|]. rewrite isspace_lower. congruence. Qed.
Lemma starts_blank_lower : forall s, starts_blank (lower s) = starts_blank s.
Proof. destruct s; simpl; [reflexivity|]. apply isspace_lower. Qed.
Lemma ends_blank_lower : forall s, ends_blank (lower s) = ends_blank s.
Proof.
  induction s; [reflexivity|]. simpl. destruct s; simpl in *; [apply isspace_lower|exact IHs].
Qed.

Lemma strip_lower : forall s, strip (lower s) = lower (strip s).
Proof.
  intros s. destruct (strip_elim s) as (u & v & E & Hu & Hv & H1 & H2).
  rewrite E at 1. rewrite !lower_app. apply strip_intro; unfold blank in *;
    rewrite ?blank_lower, ?starts_blank_lower, ?ends_blank_lower; auto.
Qed.

Lemma strip_nil_blank : forall s, strip s = "" <-> blank s.
Proof.
  intros s. split; intros H.
  - destruct (strip_elim s) as (u & v & E & Hu & Hv & _). rewrite H in E. simpl in E. rewrite E.
    apply blank_app. auto.
  - pose proof (strip_intro s "" "" H eq_refl eq_refl eq_refl) as P. simpl in P. rewrite app_s_nil in P. exact P.
Qed.

(** ** has_char and split *)

Lemma has_char_app : forall c a b, has_char c (a ++ b) = has_char c a || has_char c b.
Proof. induction a; intros; simpl; [reflexivity|]. destruct (Ascii.eqb c a); auto. Qed.

Lemma split_on_none : forall c s, has_char c s = false -> split_on c s = [s].
Proof.
  induction s; simpl; intros H; [reflexivity|]. destruct (Ascii.eqb c a); [discriminate|].
  rewrite IHs by exact H. reflexivity.
Qed.

Lemma split_on_app : forall c a b, has_char c a = false ->
  split_on c (a ++ String c b) = a :: split_on c b.
Proof.
  induction a; simpl; intros b H.
  - rewrite Ascii.eqb_refl. reflexivity.
  - destruct (Ascii.eqb c a); [discriminate|]. rewrite IHa by exact H. reflexivity.
Qed.

(** every string with the character splits at its first occurrence *)
Lemma has_char_split : forall c s, has_char c s = true ->
  exists a b, s = (a ++ String c b)%string /\ has_char c a = false.
Proof.
  induction s; simpl; intros H; [discriminate|]. destruct (Ascii.eqb c a) eqn:E.
  - apply Ascii.eqb_eq in E. subst. exists "", s. split; reflexivity.
  - destruct (IHs H) as (x & y & -> & H2). exists (String a x), y. split; [reflexivity|].
    simpl. rewrite E. exact H2.
Qed.

Lemma split_on_nonnil : forall c s, split_on c s <> [].
Proof. destruct s; simpl; [discriminate|]. destruct (Ascii.eqb c a); [discriminate|]. destruct (split_on c s); discriminate. Qed.

Lemma split_on_pieces : forall c s x, In x (split_on c s) -> has_char c x = false.
Proof.
  induction s; simpl; intros x H.
  - destruct H as [<-|[]]. reflexivity.
  - destruct (Ascii.eqb c a) eqn:E.
    + destruct H as [<-|H]; [reflexivity|auto].
    + destruct (split_on c s) eqn:S.
      * destruct H as [<-|[]]. simpl. rewrite E. reflexivity.
      * destruct H as [<-|H].
        -- simpl. rewrite E. apply IHs. left. reflexivity.
        -- apply IHs. right. exact H.
Qed.

Lemma join_split : forall c s, join (String c "") (split_on c s) = s.
Proof.
  induction s; simpl; [reflexivity|]. destruct (Ascii.eqb c a) eqn:E.
  - apply Ascii.eqb_eq in E. subst. destruct (split_on a s) eqn:S.
    + destruct (split_on_nonnil a s S).
    + change (join (String a "") ("" :: s0 :: l)) with ("" ++ String a "" ++ join (String a "") (s0 :: l))%string.
      rewrite IHs. reflexivity.
  - destruct (split_on c s) eqn:S.
    + destruct (split_on_nonnil c s S).
    + destruct l; cbn [join] in *; rewrite <- IHs; reflexivity.
Qed.

Lemma split_join : forall c l, l <> [] -> (forall x, In x l -> has_char c x = false) ->
  split_on c (join (String c "") l) = l.
Proof.
  induction l; intros H1 H2; [congruence|]. destruct l.
  - simpl. apply split_on_none. apply H2. left. reflexivity.
  - change (join (String c "") (a :: s :: l)) with (a ++ String c "" ++ join (String c "") (s :: l))%string.
    simpl (String c "" ++ _)%string. rewrite split_on_app by (apply H2; left; reflexivity).
    f_equal. apply IHl; [discriminate|]. intros x Hx. apply H2. right. exact Hx.
Qed.

Lemma startswith_app : forall p s, startswith p (p ++ s) = true.
Proof. induction p; simpl; intros; [reflexivity|]. rewrite Ascii.eqb_refl. apply IHp. Qed.
Lemma startswith_spec : forall p s, startswith p s = true <-> exists t, s = (p ++ t)%string.
Proof.
  split.
  - revert s. induction p; intros s H; [exists s; reflexivity|]. destruct s; [discriminate|].
    simpl in H. apply andb_true_iff in H. destruct H as [H1 H2]. apply Ascii.eqb_eq in H1. subst.
    destruct (IHp _ H2) as (t & ->). exists t. reflexivity.
  - intros (t & ->). apply startswith_app.
Qed.

Lemma nonempty_true : forall s, nonempty s = true <-> s <> "".
Proof. intros. unfold nonempty. rewrite negb_true_iff. apply eqs_false. Qed.
Lemma nonempty_false : forall s, nonempty s = false <-> s = "".
Proof. intros. unfold nonempty. rewrite negb_false_iff. apply eqs_true. Qed.
Lemma nonblank_true : forall s, nonblank s = true <-> ~ blank s.
Proof. intros. unfold nonblank. rewrite negb_true_iff, eqs_false, strip_nil_blank. tauto. Qed.
