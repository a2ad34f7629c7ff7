(** * LineFacts: writing lines and reading them back *)

From Verif Require Import StrFacts SpecNames NameFacts SpecText TextFacts TextRows Render Csv.

Lemma one_line_app : forall a b, one_line (a ++ b) <-> one_line a /\ one_line b.
Proof.
  intros. rewrite <- !no_breaks_iff. unfold no_breaks. induction a; cbn [append all_chars].
  - tauto.
  - rewrite !andb_true_iff, IHa. tauto.
Qed.

Lemma splitlines_join : forall ls, Forall one_line ls -> last ls "x" <> "" ->
  splitlines (join newline ls) = ls.
Proof.
  assert (G : forall ls, Forall one_line ls -> last ls "x" <> "" ->
    exists init lst, Forall (fun p => one_line (fst p)) init /\ one_line lst /\ lst <> "" /\ ls <> [] /\
      join newline ls = text_of init lst /\ ls = map fst init ++ [lst] \/ ls = []).
  { induction ls as [|l ls IH]; intros F L; [exists [], ""; auto|].
    inversion F as [|? ? F1 F2]; subst. destruct ls as [|l' ls].
    - exists [], l. left. cbn in L. repeat split; auto; discriminate.
    - destruct (IH F2 L) as (init & lst & [(A1 & A2 & A3 & A4 & A5 & A6)|A]); [|discriminate].
      exists ((l, false) :: init), lst. left. repeat split; auto; try discriminate.
      + change (join newline (l :: l' :: ls)) with (l ++ newline ++ join newline (l' :: ls))%string.
        rewrite A5. reflexivity.
      + rewrite A6. reflexivity. }
  intros ls F L. destruct (G ls F L) as (init & lst & [(A1 & A2 & A3 & A4 & A5 & A6)|A]).
  - rewrite A5, splitlines_text by assumption. unfold lines_of. rewrite A6. destruct lst; [congruence|reflexivity].
  - subst. reflexivity.
Qed.

Lemma format_cells : forall nv cells, pair_cells cell_text nv cells ->
  text_line (format_line nv) cells /\ ~ comment_line (format_line nv) /\ one_line (format_line nv)
  /\ format_line nv <> "".
Proof.
  intros [n v] cells (m & ts & (H1 & H2 & H3 & H4) & Ht & (V1 & V2 & V3 & V4 & V5) & ->). cbn [fst snd] in *.
  assert (E : format_line (n, v) = (n ++ ": " ++ cell_text v)%string) by (destruct v; reflexivity).
  rewrite E. split; [|split; [|split]].
  - apply line_plain.
    + intros y Hy. assert (S : startswith "====" (n ++ ": " ++ cell_text v) = true) by (rewrite Hy; apply startswith_app).
      destruct (startswith "====" n) eqn:Sn.
      * apply startswith_spec in Sn. destruct Sn as (t & Sn). exact (H3 t Sn).
      * destruct n as [|c1 [|c2 [|c3 [|c4 n]]]]; cbn [append startswith] in S, Sn; 
          rewrite ?andb_true_r, ?andb_false_r in *; try congruence; try discriminate.
    + apply (line_value _ n (String " " (cell_text v)) _ (cell_text v)); auto.
      * exists " ", "". rewrite app_s_nil. split; [reflexivity|]. split; [repeat constructor|]. split; [constructor|exact V3].
      * rewrite V4. apply pipe_cells_join; assumption.
  - intros C. apply is_comment_spec in C. unfold is_comment in C.
    destruct (lstrip_spec n) as (u & En & Hu & Hs). destruct (lstrip n) as [|c r] eqn:El.
    + rewrite En, app_s_nil, lstrip_blank_app in C by exact Hu. cbn in C. discriminate.
    + rewrite En, <- app_s_assoc, lstrip_blank_app in C by exact Hu.
      apply H4. apply is_comment_spec. unfold is_comment. rewrite El.
      assert (X : starts_blank (String c r ++ ": " ++ cell_text v) = false) by exact Hs.
      rewrite lstrip_id in C by exact X. exact C.
  - rewrite !one_line_app. split; [exact H1|]. split; [|exact V2]. apply no_breaks_iff. reflexivity.
  - intros X. destruct n; discriminate.
Qed.

Lemma written_rows : forall l rows, written cell_text l rows ->
  let ls := concat (map (fun tv => (if eqs (fst tv) "Section" then [""] else []) ++ [format_line tv]) l) in
  rows_of ls rows /\ Forall one_line ls /\ last ls "x" <> "".
Proof.
  assert (Z : text_line "" [""]).
  { apply line_cells_spec. reflexivity. }
  assert (Z1 : ~ comment_line "").
  { intros X. apply is_comment_spec in X. discriminate. }
  assert (Z2 : one_line "") by (apply no_breaks_iff; reflexivity).
  assert (LL : forall a ls, a <> "" -> last ls "x" <> "" -> last (a :: ls) "x" <> "").
  { intros a ls A L. destruct ls; [exact A|exact L]. }
  induction 1 as [|v l cells rows P W IH|n v l cells rows N P W IH]; cbn zeta in *; cbn [map concat fst].
  - repeat split; [constructor|constructor|discriminate].
  - destruct IH as (I1 & I2 & I3). destruct (format_cells _ _ P) as (F1 & F2 & F3 & F4).
    change (eqs "Section" "Section") with true. cbn [app]. repeat split.
    + apply rows_line; auto. apply rows_line; auto.
    + auto.
    + match goal with |- last ("" :: ?x :: ?l) _ <> _ => change (last (x :: l) "x" <> "") end. auto.
  - destruct IH as (I1 & I2 & I3). destruct (format_cells _ _ P) as (F1 & F2 & F3 & F4).
    rewrite (proj2 (eqs_false _ _)) by exact N. cbn [app]. repeat split.
    + apply rows_line; auto.
    + auto.
    + auto.
Qed.

Lemma lines_roundtrip : forall s l rows text, doc_lines s = Ok l -> written cell_text l rows ->
  doc_as_lines s = Ok text -> text_rows text = rows.
Proof.
  intros s l rows text L W T. unfold doc_as_lines in T. rewrite L in T. cbn in T. injection T as <-.
  destruct (written_rows _ _ W) as (H1 & H2 & H3). unfold text_rows. rewrite splitlines_join by assumption.
  apply rows_of_iff. exact H1.
Qed.

Lemma section_roundtrip : forall h d i l rows text, section_lines h d i = Ok l -> Forall2 (pair_cells cell_text) l rows ->
  section_as_lines h d i = Ok text -> text_rows text = rows.
Proof.
  intros h d i l rows text L W T. unfold section_as_lines in T. rewrite L in T. cbn in T. injection T as <-.
  assert (G : rows_of (map format_line l) rows /\ Forall one_line (map format_line l) /\ last (map format_line l) "x" <> "").
  { clear L. induction W as [|nv cells l rows P W (I1 & I2 & I3)]; [repeat split; [constructor|constructor|discriminate]|].
    destruct (format_cells _ _ P) as (F1 & F2 & F3 & F4). cbn [map]. repeat split.
    - apply rows_line; assumption.
    - constructor; assumption.
    - destruct (map format_line l); [exact F4|exact I3]. }
  destruct G as (H1 & H2 & H3). unfold text_rows. rewrite splitlines_join by assumption. apply rows_of_iff. exact H1.
Qed.

(** ** Deciding the hypotheses *)

Definition line_nameb (n : string) : bool :=
  all_chars (fun c => negb (is_linebreak c)) n && negb (has_char ":" n) && negb (startswith "====" n) && negb (is_comment n).
Lemma line_nameb_ok : forall n, line_nameb n = true -> line_name n.
Proof.
  intros n H. unfold line_nameb in H. rewrite !andb_true_iff, !negb_true_iff in H. destruct H as [[[H1 H2] H3] H4].
  split; [apply no_breaks_iff; exact H1|]. split; [apply has_char_in; exact H2|]. split.
  - intros y ->. rewrite startswith_app in H3. discriminate.
  - intros X. apply is_comment_spec in X. congruence.
Qed.

Definition line_textb (v : string) (texts : list string) : bool :=
  negb (match texts with [] => true | _ => false end) && all_chars (fun c => negb (is_linebreak c)) v
  && eqs (strip v) v && eqs v (join "|" (map escape texts)) && forallb (fun t => negb (ends_bs false t)) texts.
Lemma line_textb_ok : forall v texts, line_textb v texts = true -> line_text v texts.
Proof.
  intros v texts H. unfold line_textb in H. rewrite !andb_true_iff, !eqs_true in H. destruct H as [[[[H1 H2] H3] H4] H5].
  split; [destruct texts; discriminate|]. split; [apply no_breaks_iff; exact H2|].
  split; [rewrite <- H3; apply tidy_iff; destruct (strip_elim v) as (? & ? & ? & ? & ? & X); exact X|]. split; [exact H4|].
  apply Forall_forall. intros t I X. rewrite forallb_forall in H5. apply H5 in I. apply negb_true_iff in I.
  apply ends_bs_iff in X. congruence.
Qed.

(** the texts a pair is read back as *)
Definition texts_of (v : val) : list string := map (replace "\|" "|") (split_pipe false (cell_text v)).
Definition pairb (nv : string * val) : bool := line_nameb (fst nv) && line_textb (cell_text (snd nv)) (texts_of (snd nv)).
Definition written_as (l : list (string * val)) : list (list string) :=
  concat (map (fun tv => (if eqs (fst tv) "Section" then [[""]] else []) ++ [strip (fst tv) :: texts_of (snd tv)]) l).

Lemma written_ok : forall l, forallb pairb l = true -> written cell_text l (written_as l).
Proof.
  assert (P : forall nv, pairb nv = true -> pair_cells cell_text nv (strip (fst nv) :: texts_of (snd nv))).
  { intros nv H. unfold pairb in H. apply andb_true_iff in H. destruct H as [H1 H2].
    exists (strip (fst nv)), (texts_of (snd nv)). split; [apply line_nameb_ok; exact H1|].
    split; [apply trimmed_iff; reflexivity|]. split; [apply line_textb_ok; exact H2|reflexivity]. }
  induction l as [|[n v] l IH]; intros H; [constructor|]. cbn [forallb] in H. apply andb_true_iff in H. destruct H as [H1 H2].
  unfold written_as. cbn [map concat fst snd]. apply P in H1. cbn [fst snd] in H1. eqs_cases n "Section".
  - subst. cbn [app]. apply written_section; [exact H1|exact (IH H2)].
  - cbn [app]. apply written_term; [assumption|exact H1|exact (IH H2)].
Qed.

(** a text without pipes stands for itself *)
Lemma line_text_plain : forall v, one_line v -> tidy v -> ~ In "|"%char (list_ascii_of_string v) ->
  ~ ends_in_backslash v -> line_text v [v].
Proof.
  intros v H1 H2 H3 H4. split; [discriminate|]. split; [exact H1|]. split; [exact H2|]. split; [|auto].
  cbn [map join]. clear - H3. induction v as [|c v IH]; [reflexivity|]. cbn [list_ascii_of_string In] in H3.
  cbn [escape]. destruct (Ascii.eqb c "|") eqn:E; [apply Ascii.eqb_eq in E; subst; tauto|].
  f_equal. apply IH. tauto.
Qed.
