(** * CsvFacts: the csv reader undoes the csv writer *)

From Verif Require Import StrFacts Csv.

Definition chars (s : string) : list ascii := list_ascii_of_string s.

Lemma rev_str_app : forall l s, fold_left (fun s c => String c s) l s = (rev_str l ++ s)%string.
Proof.
  unfold rev_str. induction l as [|c l IH]; intros s; simpl; [reflexivity|].
  rewrite IH, (IH (String c "")). rewrite <- app_s_assoc. reflexivity.
Qed.
Lemma rev_str_rev : forall s, rev_str (rev (chars s)) = s.
Proof.
  induction s; [reflexivity|]. cbn [chars list_ascii_of_string rev]. unfold rev_str.
  rewrite fold_left_app. cbn [fold_left]. fold (rev_str (rev (list_ascii_of_string s))).
  fold (chars s). rewrite IHs. reflexivity.
Qed.

Lemma special_false : forall c, csv_special c = false ->
  Ascii.eqb c dquote = false /\ Ascii.eqb c comma = false /\ Ascii.eqb c cr = false /\ Ascii.eqb c lf = false.
Proof. intros c H. unfold csv_special in H. repeat (apply orb_false_iff in H; destruct H as [H ?]). auto. Qed.

Lemma run_infield : forall f acc fs rest,
  all_chars (fun c => negb (csv_special c)) f = true ->
  csv_run InField acc fs (f ++ rest) = csv_run InField (rev (chars f) ++ acc) fs rest.
Proof.
  induction f as [|c f IH]; intros acc fs rest H; [reflexivity|]. cbn [all_chars] in H.
  apply andb_true_iff in H. destruct H as [H1 H2]. apply negb_true_iff in H1.
  apply special_false in H1. destruct H1 as (H3 & H4 & H5 & H6).
  cbn [append csv_run]. rewrite H5, H6, H4. cbn [orb]. rewrite IH by exact H2.
  unfold chars. cbn [list_ascii_of_string rev]. rewrite <- app_assoc. reflexivity.
Qed.

Lemma run_quoted : forall f acc fs rest,
  csv_run InQuoted acc fs (double_quotes f ++ String dquote rest)
  = csv_run QuoteInQuoted (rev (chars f) ++ acc) fs rest.
Proof.
  induction f as [|c f IH]; intros acc fs rest.
  - cbn [double_quotes append csv_run]. rewrite Ascii.eqb_refl. reflexivity.
  - cbn [double_quotes]. unfold chars. cbn [list_ascii_of_string rev]. rewrite <- app_assoc. cbn [app].
    destruct (Ascii.eqb c dquote) eqn:E.
    + apply Ascii.eqb_eq in E. subst. cbn [append csv_run]. rewrite !Ascii.eqb_refl. apply IH.
    + cbn [append csv_run]. rewrite E. apply IH.
Qed.

(** one field in state SField, ended by a comma or a line end *)
Lemma run_field_comma : forall f fs rest,
  csv_run SField [] fs (csv_field f ++ String comma rest) = csv_run SField [] (f :: fs) rest.
Proof.
  intros f fs rest. unfold csv_field. destruct (all_chars (fun c => negb (csv_special c)) f) eqn:E.
  - destruct f as [|c f].
    + cbn [append csv_run]. reflexivity.
    + pose proof E as E'. cbn [all_chars] in E'. apply andb_true_iff in E'. destruct E' as [H1 H2].
      apply negb_true_iff in H1. apply special_false in H1. destruct H1 as (H3 & H4 & H5 & H6).
      cbn [append csv_run]. rewrite H5, H6, H3, H4. cbn [orb]. rewrite run_infield by exact H2.
      cbn [csv_run]. replace (rev (chars f) ++ [c]) with (rev (chars (String c f))) by reflexivity.
      rewrite rev_str_rev. reflexivity.
  - unfold quote_field. cbn [append]. rewrite <- app_s_assoc. cbn [append].
    cbn [csv_run]. rewrite Ascii.eqb_refl. change (Ascii.eqb dquote cr || Ascii.eqb dquote lf) with false. cbv iota.
    rewrite run_quoted, app_nil_r. cbn [csv_run].
    change (Ascii.eqb comma dquote) with false. rewrite Ascii.eqb_refl. cbv iota. rewrite rev_str_rev. reflexivity.
Qed.

Lemma run_field_end : forall f fs rest,
  csv_run SField [] fs (csv_field f ++ crlf ++ rest) = rev (f :: fs) :: csv_run SRec [] [] rest.
Proof.
  intros f fs rest. unfold csv_field, crlf. destruct (all_chars (fun c => negb (csv_special c)) f) eqn:E.
  - destruct f as [|c f].
    + cbn [append csv_run]. reflexivity.
    + pose proof E as E'. cbn [all_chars] in E'. apply andb_true_iff in E'. destruct E' as [H1 H2].
      apply negb_true_iff in H1. apply special_false in H1. destruct H1 as (H3 & H4 & H5 & H6).
      cbn [append csv_run]. rewrite H5, H6, H3, H4. cbn [orb]. rewrite run_infield by exact H2.
      replace (rev (chars f) ++ [c]) with (rev (chars (String c f))) by reflexivity.
      cbn [csv_run]. rewrite rev_str_rev. reflexivity.
  - unfold quote_field. cbn [append]. rewrite <- app_s_assoc. cbn [append].
    cbn [csv_run]. rewrite Ascii.eqb_refl. change (Ascii.eqb dquote cr || Ascii.eqb dquote lf) with false. cbv iota.
    rewrite run_quoted, app_nil_r. cbn [csv_run].
    rewrite rev_str_rev. reflexivity.
Qed.

Lemma run_body : forall row f fs rest,
  csv_run SField [] fs (join (String comma "") (map csv_field (f :: row)) ++ crlf ++ rest)
  = (rev fs ++ f :: row) :: csv_run SRec [] [] rest.
Proof.
  induction row as [|g row IH]; intros f fs rest.
  - cbn [map join]. rewrite run_field_end. reflexivity.
  - cbn [map]. change (join (String comma "") (csv_field f :: csv_field g :: map csv_field row))
      with (csv_field f ++ String comma "" ++ join (String comma "") (map csv_field (g :: row)))%string.
    rewrite <- app_s_assoc. cbn [append]. rewrite run_field_comma, IH. cbn [rev]. rewrite <- app_assoc. reflexivity.
Qed.

Lemma field_start : forall f c s, csv_field f = String c s -> Ascii.eqb c cr || Ascii.eqb c lf = false.
Proof.
  intros f c s H. unfold csv_field in H. destruct (all_chars (fun c => negb (csv_special c)) f) eqn:E.
  - subst. cbn [all_chars] in E. apply andb_true_iff in E. destruct E as [E _]. apply negb_true_iff in E.
    apply special_false in E. destruct E as (_ & _ & -> & ->). reflexivity.
  - unfold quote_field in H. injection H as <- _. reflexivity.
Qed.

Lemma body_start : forall row c s, join (String comma "") (map csv_field row) = String c s ->
  Ascii.eqb c cr || Ascii.eqb c lf = false.
Proof.
  intros row c s H. destruct row as [|f row]; [discriminate|].
  destruct (csv_field f) as [|c' s'] eqn:E.
  - destruct row as [|g row]; cbn [map join] in H; rewrite E in H; [discriminate|].
    cbn [append] in H. injection H as <- _. reflexivity.
  - assert (c = c').
    { destruct row as [|g row]; cbn [map join] in H; rewrite E in H; cbn [append] in H; congruence. }
    subst. eapply field_start. exact E.
Qed.

Lemma run_record : forall row rest,
  csv_run SRec [] [] (csv_record row ++ rest) = row :: csv_run SRec [] [] rest.
Proof.
  intros row rest. destruct row as [|f row]; [reflexivity|]. unfold csv_record.
  eqs_cases (join (String comma "") (map csv_field (f :: row))) "".
  - destruct row as [|g row].
    + cbn [map join] in E. assert (f = "").
      { unfold csv_field in E. destruct (all_chars (fun c => negb (csv_special c)) f); [exact E|discriminate]. }
      subst. reflexivity.
    + change (map csv_field (f :: g :: row)) with (csv_field f :: map csv_field (g :: row)) in E.
      cbn [map join] in E. destruct (csv_field f); discriminate.
  - destruct (join (String comma "") (map csv_field (f :: row))) as [|c s] eqn:B; [congruence|].
    pose proof (body_start _ _ _ B) as Hs.
    transitivity (csv_run SField [] [] ((String c s ++ crlf) ++ rest)).
    + cbn [append csv_run]. rewrite Hs. reflexivity.
    + rewrite <- B, <- app_s_assoc. rewrite run_body. reflexivity.
Qed.

Lemma csv_roundtrip : forall rows, csv_read (csv_write rows) = rows.
Proof.
  unfold csv_read. induction rows as [|r rows IH]; [reflexivity|].
  cbn [csv_write fold_right]. rewrite run_record. f_equal. exact IH.
Qed.

Lemma as_csv_read : forall s text, doc_as_csv s = Ok text ->
  exists rows, doc_rows s = Ok rows /\ csv_read text = map (map cell_text) rows.
Proof.
  intros s text H. unfold doc_as_csv in H. destruct (doc_rows s) as [rows|e]; [|discriminate].
  cbn in H. injection H as <-. exists rows. split; [reflexivity|]. apply csv_roundtrip.
Qed.
