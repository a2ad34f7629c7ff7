(** * IntFacts: integers written and read back *)

From Coq Require Import NArith ZArith Decimal DecimalN DecimalString Lia.
From Verif Require Import PyStr.

Fixpoint dec (acc : N) (d : uint) : N :=
  match d with
  | Nil => acc
  | D0 l => dec (acc * 10) l | D1 l => dec (acc * 10 + 1) l | D2 l => dec (acc * 10 + 2) l | D3 l => dec (acc * 10 + 3) l | D4 l => dec (acc * 10 + 4) l
  | D5 l => dec (acc * 10 + 5) l | D6 l => dec (acc * 10 + 6) l | D7 l => dec (acc * 10 + 7) l | D8 l => dec (acc * 10 + 8) l | D9 l => dec (acc * 10 + 9) l
  end%N.
Lemma dec_pos : forall d p, dec (Npos p) d = Npos (Pos.of_uint_acc d p).
Proof. induction d; intros p; cbn [dec Pos.of_uint_acc]; [reflexivity|..]; (match goal with |- dec ?n _ = Npos (Pos.of_uint_acc _ ?q) => replace n with (Npos q) by lia end); apply IHd. Qed.
Lemma dec_zero : forall d, dec 0 d = N.of_uint d.
Proof. induction d; cbn; [reflexivity|exact IHd|..]; apply dec_pos. Qed.
Lemma parse_uint : forall d acc ok, ok = true \/ d <> Nil -> parse_digits acc ok (NilEmpty.string_of_uint d) = Some (dec acc d).
Proof.
  induction d; intros acc ok H; [destruct H as [->|H]; [reflexivity|contradiction]|..]; (cbn [NilEmpty.string_of_uint parse_digits]; change (is_digit _) with true; cbv iota; rewrite IHd by (left; reflexivity); cbn [dec]; f_equal; f_equal; vm_compute digit_val; lia).
Qed.
Lemma parse_str : forall n, parse_digits 0 false (str_of_N n) = Some n.
Proof.
  intros n. unfold str_of_N. rewrite <- (DecimalN.Unsigned.of_to n) at 2. destruct (N.to_uint n) eqn:E; [reflexivity|..]; (unfold NilZero.string_of_uint; rewrite parse_uint by (right; discriminate); rewrite dec_zero; reflexivity).
Qed.

Lemma lstrip_none : forall f s, all_chars (fun c => negb (f c)) s = true -> lstrip_by f s = s.
Proof. intros f [|c s] H; [reflexivity|]. cbn in *. destruct (f c); [discriminate H|reflexivity]. Qed.
Lemma rstrip_none : forall f s, all_chars (fun c => negb (f c)) s = true -> rstrip_by f s = s.
Proof. intros f s. induction s as [|c s IH]; intros H; [reflexivity|]. cbn in *. apply andb_prop in H. destruct H as (A & B). rewrite IH by exact B. destruct s; [|reflexivity]. destruct (f c); [discriminate A|reflexivity]. Qed.
Lemma digits_plain : forall d, all_chars (fun c => negb (int_space c)) (NilEmpty.string_of_uint d) = true.
Proof. induction d; cbn [NilEmpty.string_of_uint all_chars]; [reflexivity|..]; exact IHd. Qed.
Lemma str_plain : forall n, all_chars (fun c => negb (int_space c)) (str_of_N n) = true.
Proof. intros n. unfold str_of_N, NilZero.string_of_uint. destruct (N.to_uint n); [reflexivity|..]; apply (digits_plain (_ _)). Qed.
Lemma str_first : forall n, exists c t, str_of_N n = String c t /\ Ascii.eqb c "-" = false /\ Ascii.eqb c "+" = false.
Proof. intros n. unfold str_of_N, NilZero.string_of_uint. destruct (N.to_uint n); cbn [NilEmpty.string_of_uint]; eexists; eexists; split; try reflexivity; split; reflexivity. Qed.

Lemma int_str : forall z, py_int (str_of_Z z) = Some z.
Proof.
  intros [|p|p]; [reflexivity| |]; unfold py_int, str_of_Z.
  - rewrite lstrip_none by apply str_plain. rewrite rstrip_none by apply str_plain. destruct (str_first (Npos p)) as (c & t & E & A & B). rewrite E, A, B, <- E, parse_str. reflexivity.
  - rewrite lstrip_none by (cbn [all_chars]; rewrite str_plain; reflexivity). rewrite rstrip_none by (cbn [all_chars]; rewrite str_plain; reflexivity). change (Ascii.eqb "-" "-") with true. cbv iota. rewrite parse_str. reflexivity.
Qed.
