(** * DigitFacts: numbers written with str() and read with int() *)

From Verif Require Import StrFacts SpecNames NameFacts PyStr TreeFacts.
From Coq Require Import DecimalString DecimalN DecimalPos.

Definition digits (s : string) : Prop := Forall (fun c => is_digit c = true) (list_ascii_of_string s).

Lemma uint_digits_ne : forall u, digits (NilEmpty.string_of_uint u).
Proof. unfold digits. induction u; cbn; constructor; auto. Qed.
Lemma str_of_nat_digits : forall n, digits (str_of_nat n) /\ str_of_nat n <> "".
Proof.
  intros n. unfold str_of_nat, str_of_N. pose proof (to_uint_nonnil (N.of_nat n)) as H.
  assert (E : NilZero.string_of_uint (N.to_uint (N.of_nat n)) = NilEmpty.string_of_uint (N.to_uint (N.of_nat n))).
  { destruct (N.to_uint (N.of_nat n)); [congruence|reflexivity..]. }
  rewrite E. split; [apply uint_digits_ne|]. destruct (N.to_uint (N.of_nat n)); [congruence|discriminate..].
Qed.

Lemma digit_char : forall c, is_digit c = true -> lower_char c = c /\ isspace c = false /\ Ascii.eqb c "." = false
  /\ Ascii.eqb c "-" = false /\ Ascii.eqb c "+" = false /\ Ascii.eqb c "*" = false.
Proof.
  assert (A : forall c, negb (is_digit c) || (Ascii.eqb (lower_char c) c && negb (isspace c) && negb (Ascii.eqb c ".")
              && negb (Ascii.eqb c "-") && negb (Ascii.eqb c "+") && negb (Ascii.eqb c "*")) = true).
  { apply all256_spec. vm_compute. reflexivity. }
  intros c H. specialize (A c). rewrite H in A. cbn [negb orb] in A.
  repeat (apply andb_prop in A; destruct A as [A ?B]). repeat split; try (apply negb_true_iff; assumption).
  apply Ascii.eqb_eq. exact A.
Qed.

Lemma digits_lower : forall s, digits s -> lower s = s.
Proof.
  unfold digits. induction s; intros H; [reflexivity|]. cbn in H. inversion H as [|? ? H1 H2]; subst.
  cbn [lower]. rewrite IHs by exact H2. f_equal. apply digit_char. exact H1.
Qed.
Lemma digits_dot_free : forall s, digits s -> dot_free s.
Proof.
  unfold digits, dot_free. intros s H I. rewrite Forall_forall in H. apply H in I. discriminate I.
Qed.
Lemma digits_starts : forall s, digits s -> tidy s.
Proof.
  unfold digits. intros s H. rewrite Forall_forall in H. split.
  - intros c w ->. apply digit_char, H. left. reflexivity.
  - intros c w ->. apply digit_char, H.
    assert (E : forall a b, list_ascii_of_string (a ++ b) = list_ascii_of_string a ++ list_ascii_of_string b).
    { induction a; intros; cbn; [reflexivity|]. f_equal. apply IHa. }
    rewrite E. apply in_app_iff. right. left. reflexivity.
Qed.

Lemma parse_digits_pos : forall u acc, parse_digits (Npos acc) true (NilEmpty.string_of_uint u) = Some (Npos (Pos.of_uint_acc u acc)).
Proof.
  assert (S : forall d acc, (d < 10)%N -> (N.pos acc * 10 + d)%N = N.pos (match d with N0 => Pos.mul 10 acc | Npos p => Pos.add p (Pos.mul 10 acc) end)).
  { intros d acc H. destruct d; lia. }
  induction u; intros acc; cbn [NilEmpty.string_of_uint parse_digits]; [reflexivity|..];
  match goal with |- context [is_digit ?c] => change (is_digit c) with true; change (digit_val c) with (digit_val c) end; cbn iota;
  match goal with |- context [digit_val ?c] => let v := eval vm_compute in (digit_val c) in change (digit_val c) with v end;
  rewrite S by lia; rewrite IHu; reflexivity.
Qed.

Lemma parse_digits_of : forall u, u <> Decimal.Nil -> parse_digits 0 false (NilEmpty.string_of_uint u) = Some (Pos.of_uint u).
Proof.
  assert (Z : forall u, parse_digits 0 true (NilEmpty.string_of_uint u) = Some (Pos.of_uint u)).
  { induction u; cbn [NilEmpty.string_of_uint parse_digits]; [reflexivity|..];
    match goal with |- context [is_digit ?c] => change (is_digit c) with true end; cbn iota;
    match goal with |- context [digit_val ?c] => let v := eval vm_compute in (digit_val c) in change (digit_val c) with v end.
    - exact IHu.
    - apply (parse_digits_pos u 1).
    - apply (parse_digits_pos u 2).
    - apply (parse_digits_pos u 3).
    - apply (parse_digits_pos u 4).
    - apply (parse_digits_pos u 5).
    - apply (parse_digits_pos u 6).
    - apply (parse_digits_pos u 7).
    - apply (parse_digits_pos u 8).
    - apply (parse_digits_pos u 9). }
  intros u H. destruct u; [congruence|..]; match goal with |- context [NilEmpty.string_of_uint ?w] => exact (Z w) end.
Qed.

Lemma lstrip_by_id : forall f c s, f c = false -> lstrip_by f (String c s) = String c s.
Proof. intros f c s H. cbn. rewrite H. reflexivity. Qed.
Lemma rstrip_by_id : forall f s, Forall (fun c => f c = false) (list_ascii_of_string s) -> rstrip_by f s = s.
Proof.
  induction s; intros H; [reflexivity|]. cbn in H. inversion H; subst. cbn [rstrip_by]. rewrite IHs by assumption.
  destruct s; [|reflexivity]. rewrite H2. reflexivity.
Qed.

Lemma py_int_str : forall n, py_int (str_of_nat n) = Some (Z.of_nat n).
Proof.
  intros n. destruct (str_of_nat_digits n) as [D Ne]. unfold py_int.
  assert (SP : forall c, is_digit c = true -> int_space c = false).
  { intros c H. apply digit_char in H. unfold int_space. destruct H as (_ & -> & _). reflexivity. }
  assert (St : rstrip_by int_space (lstrip_by int_space (str_of_nat n)) = str_of_nat n).
  { unfold digits in D. destruct (str_of_nat n) as [|c s]; [congruence|]. cbn in D. inversion D; subst.
    rewrite lstrip_by_id by (apply SP; assumption). apply rstrip_by_id. cbn. constructor; [apply SP; assumption|].
    eapply Forall_impl; [|eassumption]. intros; apply SP; assumption. }
  rewrite St.
  assert (E : parse_digits 0 false (str_of_nat n) = Some (N.of_nat n)).
  { unfold str_of_nat, str_of_N. pose proof (to_uint_nonnil (N.of_nat n)) as H.
    assert (E : NilZero.string_of_uint (N.to_uint (N.of_nat n)) = NilEmpty.string_of_uint (N.to_uint (N.of_nat n))).
    { destruct (N.to_uint (N.of_nat n)); [congruence|reflexivity..]. }
    rewrite E, parse_digits_of by exact H. f_equal. apply (DecimalN.Unsigned.of_to (N.of_nat n)). }
  destruct (str_of_nat n) as [|c s]; [congruence|]. unfold digits in D. cbn in D. inversion D as [|? ? D1 D2]; subst.
  apply digit_char in D1. destruct D1 as (_ & _ & _ & -> & -> & _). rewrite E. cbn [option_map]. f_equal. lia.
Qed.
