(** * NumberFacts: proofs about numeric names *)

From Coq Require Import NArith ZArith.
From Verif Require Import StrFacts RunFacts Parser SpecNames SpecNumber NameFacts IntFacts.

Lemma digit_is : forall c, is_digit c = true -> digit c (digit_val c).
Proof. intros [[] [] [] [] [] [] [] []] H; try discriminate H; constructor. Qed.
Lemma digit_inv : forall c d, digit c d -> is_digit c = true /\ digit_val c = d.
Proof. intros c d H. destruct H; split; reflexivity. Qed.

Lemma parse_snoc : forall s acc ok n c d, parse_digits acc ok s = Some n -> digit c d -> parse_digits acc ok (s ++ String c "") = Some (n * 10 + d)%N.
Proof.
  induction s as [|x s IH]; intros acc ok n c d H D; destruct (digit_inv _ _ D) as [K1 K2].
  - cbn in H. destruct ok; [|discriminate H]. injection H as ->. cbn. rewrite K1, K2. reflexivity.
  - cbn [append parse_digits] in *. destruct (is_digit x); [apply IH; assumption|]. destruct (Ascii.eqb x "_" && ok); [apply IH; assumption|discriminate H].
Qed.

Lemma numeral_parse : forall s n, numeral s n -> parse_digits 0 false s = Some n.
Proof.
  intros s n H. induction H as [c d D|s n c d H IH D].
  - destruct (digit_inv _ _ D) as [K1 K2]. cbn. rewrite K1, K2. f_equal. 
  - rewrite (parse_snoc _ _ _ _ _ _ IH D). f_equal. lia.
Qed.

(** without underscores the parsed digits are a numeral *)
Lemma parse_all_digits : forall s acc ok n, (forall a c b, s = (a ++ String c b)%string -> c <> "_"%char) -> parse_digits acc ok s = Some n -> all_chars is_digit s = true /\ (ok = true \/ s <> "").
Proof.
  induction s as [|c s IH]; intros acc ok n U H; cbn in *.
  - destruct ok; [auto|discriminate H].
  - destruct (is_digit c) eqn:K.
    + destruct (IH _ _ _ (fun a x b E => U (String c a) x b (f_equal (String c) E)) H) as [A _]. rewrite A. split; [reflexivity|right; discriminate].
    + destruct (Ascii.eqb_spec c "_") as [->|NE]; [exfalso; exact (U "" "_"%char s eq_refl eq_refl)|discriminate H].
Qed.

Lemma str_snoc_ind : forall (P : string -> Prop), P "" -> (forall s c, P s -> P (s ++ String c "")%string) -> forall s, P s.
Proof.
  intros P H0 HS. assert (G : forall t s, P s -> P (s ++ t)%string).
  { induction t as [|c t IH]; intros s H; [rewrite app_s_nil; exact H|]. replace (s ++ String c t)%string with ((s ++ String c "") ++ t)%string by (rewrite <- app_s_assoc; reflexivity).
    apply IH. apply HS. exact H. }
  intros s. exact (G s "" H0).
Qed.
Lemma all_digit_app : forall f a b, all_chars f (a ++ b)%string = all_chars f a && all_chars f b.
Proof. intros f. induction a as [|c a IH]; intros b; [reflexivity|]. cbn. rewrite IH. apply andb_assoc. Qed.
Lemma digits_numeral : forall s, all_chars is_digit s = true -> s <> "" -> exists n, numeral s n.
Proof.
  apply (str_snoc_ind (fun s => all_chars is_digit s = true -> s <> "" -> exists n, numeral s n)); [intros _ H; contradiction H; reflexivity|].
  intros s c IH A _. rewrite all_digit_app in A. apply andb_true_iff in A. destruct A as [A B]. cbn in B. rewrite andb_true_r in B. apply digit_is in B.
  destruct s as [|x s]; [exists (digit_val c); constructor; exact B|]. destruct (IH A) as [n H]; [discriminate|]. exists (10 * n + digit_val c)%N. constructor; assumption.
Qed.

Lemma space_int : forall c, int_space c = true -> isspace c = true.
Proof. intros c H. unfold int_space in H. apply andb_true_iff in H. apply H. Qed.
Lemma tidy_int_strip : forall s, tidy s -> rstrip_by int_space (lstrip_by int_space s) = s.
Proof.
  intros s [H1 H2]. assert (L : lstrip_by int_space s = s).
  { destruct s as [|c s]; [reflexivity|]. cbn. destruct (int_space c) eqn:K; [|reflexivity]. apply space_int in K. rewrite (H1 c s eq_refl) in K. discriminate K. }
  rewrite L. clear H1 L. induction s as [|c s IH]; [reflexivity|]. cbn [rstrip_by]. rewrite IH.
  - destruct s; [|reflexivity]. destruct (int_space c) eqn:K; [|reflexivity]. apply space_int in K. rewrite (H2 c "" eq_refl) in K. discriminate K.
  - intros d w E. apply (H2 d (String c w)). rewrite E. reflexivity.
Qed.

Lemma unsigned_int : forall s, tidy s -> unsigned s -> py_int s = option_map Z.of_N (parse_digits 0 false s).
Proof.
  intros s T U. unfold py_int. rewrite tidy_int_strip by exact T. destruct s as [|c s]; [reflexivity|].
  destruct (U "" c s eq_refl) as (U1 & U2 & _). apply Ascii.eqb_neq in U1, U2. rewrite U1, U2. reflexivity.
Qed.

Lemma pindex_nat : forall {A} n (l : list A), pindex (Z.of_N n) l = nth_error l (N.to_nat n).
Proof. intros A n l. unfold pindex. destruct (Z.ltb_spec (Z.of_N n) 0); [lia|]. replace (Z.to_nat (Z.of_N n)) with (N.to_nat n) by lia. reflexivity. Qed.

Lemma unsigned_numeral : forall s n, tidy s -> unsigned s -> (py_int s = Some (Z.of_N n) <-> numeral s n) .
Proof.
  intros s n T U. rewrite unsigned_int by assumption. split.
  - intros H. destruct (parse_digits 0 false s) as [m|] eqn:E; [|discriminate H]. cbn in H. injection H as H. apply N2Z.inj in H. subst m.
    destruct (parse_all_digits s 0%N false n (fun a c b E => proj2 (proj2 (U a c b E))) E) as [A [K|K]]; [discriminate K|].
    destruct (digits_numeral s A K) as [m M]. assert (E2 := numeral_parse _ _ M). rewrite E in E2. injection E2 as ->. exact M.
  - intros H. rewrite (numeral_parse _ _ H). reflexivity.
Qed.

Lemma c15_rename : forall t s, t < hlen s -> tidy (t_rt (tget t s)) -> unsigned (t_rt (tget t s)) ->
  dget (join_lc (tget t s)) (synonyms (p_dterms (s_prs s))) = None ->
  exists name, renames (p_pmap (s_prs s)) (t_rt (tget t s)) name
    /\ rename_term t s = modT t (set_t_rt name) s.
Proof.
  intros t s L T U SY.
  assert (KEEP : modT t (set_t_rt (t_rt (tget t s))) s = (s, Ok tt)).
  { unfold modT, modify. f_equal. assert (E : set_t_rt (t_rt (tget t s)) (tget t s) = tget t s) by (destruct (tget t s); reflexivity).
    rewrite E. clear. unfold tget, hget. assert (G : forall h i, upd i (nth i h dummy_t) h = h).
    { induction h as [|x h IH]; intros [|i]; cbn; try reflexivity. f_equal. apply IH. }
    rewrite G. destruct s. reflexivity. }
  assert (RUN : rename_term t s = match py_int (t_rt (tget t s)) with
                | Some z => match pindex z (p_pmap (s_prs s)) with Some n => modT t (set_t_rt n) s | None => (s, Ok tt) end
                | None => (s, Ok tt) end).
  { unfold rename_term, bind, getT, getP, gets. rewrite SY. unfold ret. destruct (py_int _); [|reflexivity]. destruct (pindex _ _); reflexivity. }
  rewrite RUN. destruct (parse_digits 0 false (t_rt (tget t s))) as [n|] eqn:E.
  - assert (PI : py_int (t_rt (tget t s)) = Some (Z.of_N n)) by (rewrite unsigned_int, E by assumption; reflexivity).
    assert (N := proj1 (unsigned_numeral _ n T U) PI). rewrite PI, pindex_nat. destruct (nth_error (p_pmap (s_prs s)) (N.to_nat n)) as [c|] eqn:X.
    + exists c. split; [exact (ren_column _ _ n c N X)|reflexivity].
    + exists (t_rt (tget t s)). split; [exact (ren_too_far _ _ n N X)|symmetry; exact KEEP].
  - rewrite unsigned_int, E by assumption. cbn [option_map]. exists (t_rt (tget t s)). split; [|symmetry; exact KEEP].
    apply ren_other. intros [n N]. apply numeral_parse in N. rewrite E in N. discriminate N.
Qed.
