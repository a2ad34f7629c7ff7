(** * TextFacts: proofs about the line reader *)

From Verif Require Import StrFacts SpecNames NameFacts SpecText TextRows.

Definition is_bs (c : ascii) : bool := Ascii.eqb c "\".
Definition is_pipe (c : ascii) : bool := Ascii.eqb c "|".

(** some pipe does not follow a backslash; [prev]: a backslash precedes *)
Fixpoint open_pipe (prev : bool) (s : string) : bool :=
  match s with
  | "" => false
  | String c s' => (is_pipe c && negb prev) || open_pipe (is_bs c) s'
  end.
Fixpoint ends_bs (prev : bool) (s : string) : bool :=
  match s with
  | "" => prev
  | String c s' => ends_bs (is_bs c) s'
  end.

Lemma split_pipe_none : forall s prev, open_pipe prev s = false -> split_pipe prev s = [s].
Proof.
  induction s; intros prev H; [reflexivity|]. cbn [open_pipe split_pipe] in *.
  apply orb_false_iff in H. destruct H as [H1 H2]. fold (is_pipe a). fold (is_bs a). rewrite H1, IHs by exact H2. reflexivity.
Qed.

Lemma split_pipe_cut : forall a s prev, open_pipe prev a = false -> ends_bs prev a = false ->
  split_pipe prev (a ++ "|" ++ s) = a :: split_pipe false s.
Proof.
  induction a; intros s prev H1 H2.
  - cbn [ends_bs] in H2. subst. reflexivity.
  - cbn [open_pipe ends_bs] in *. apply orb_false_iff in H1. destruct H1 as [H3 H4].
    cbn [append split_pipe]. fold (is_pipe a). fold (is_bs a). rewrite H3.
    change (a0 ++ String "|" s)%string with (a0 ++ "|" ++ s)%string. rewrite IHa by assumption. reflexivity.
Qed.

Lemma open_pipe_cut : forall s prev, open_pipe prev s = true ->
  exists a b, s = (a ++ "|" ++ b)%string /\ open_pipe prev a = false /\ ends_bs prev a = false.
Proof.
  induction s; intros prev H; [discriminate|]. cbn [open_pipe] in H.
  destruct (is_pipe a && negb prev) eqn:E.
  - apply andb_true_iff in E. destruct E as [E1 E2]. apply Ascii.eqb_eq in E1. apply negb_true_iff in E2. subst.
    exists "", s. repeat split.
  - apply IHs in H. destruct H as (x & y & -> & H1 & H2). exists (String a x), y. split; [reflexivity|].
    cbn [open_pipe ends_bs]. rewrite E. auto.
Qed.

Lemma ends_bs_app : forall w c prev, ends_bs prev (w ++ String c "") = is_bs c.
Proof. induction w; intros; [reflexivity|]. cbn [append ends_bs]. apply IHw. Qed.

Lemma ends_bs_iff : forall s, ends_bs false s = true <-> ends_in_backslash s.
Proof.
  intros s. split.
  - intros H. destruct (string_snoc s) as [->|(w & c & ->)]; [discriminate|].
    rewrite ends_bs_app in H. apply Ascii.eqb_eq in H. subst. exists w. reflexivity.
  - intros (w & ->). rewrite ends_bs_app. reflexivity.
Qed.

Lemma open_pipe_app : forall a b prev, open_pipe prev (a ++ b) = open_pipe prev a || open_pipe (ends_bs prev a) b.
Proof. induction a; intros; [reflexivity|]. cbn [append open_pipe ends_bs]. rewrite IHa, orb_assoc. reflexivity. Qed.

Lemma open_pipe_iff : forall s, open_pipe false s = false <-> no_open_pipe s.
Proof.
  intros s. split.
  - intros H a b ->. rewrite open_pipe_app in H. apply orb_false_iff in H. destruct H as [_ H].
    cbn [append open_pipe] in H. apply orb_false_iff in H. destruct H as [H _].
    cbn in H. apply negb_false_iff in H. apply ends_bs_iff. exact H.
  - intros H. destruct (open_pipe false s) eqn:E; [|reflexivity]. apply open_pipe_cut in E.
    destruct E as (a & b & -> & _ & E). specialize (H a b eq_refl). apply ends_bs_iff in H. congruence.
Qed.

Lemma pipe_cells_split : forall s ps, pipe_cells s ps -> split_pipe false s = ps.
Proof.
  induction 1 as [s H|a s cells H1 H2 _ IH].
  - apply split_pipe_none. apply open_pipe_iff. exact H.
  - rewrite split_pipe_cut.
    + rewrite IH. reflexivity.
    + apply open_pipe_iff. exact H1.
    + destruct (ends_bs false a) eqn:E; [|reflexivity]. apply ends_bs_iff in E. tauto.
Qed.

Lemma pipe_cells_total : forall n s, String.length s <= n -> exists ps, pipe_cells s ps.
Proof.
  induction n; intros s L.
  - destruct s; [|simpl in L; lia]. exists [""]. constructor. apply open_pipe_iff. reflexivity.
  - destruct (open_pipe false s) eqn:E.
    + apply open_pipe_cut in E. destruct E as (a & b & -> & H1 & H2).
      rewrite !app_s_length in L. simpl in L. destruct (IHn b) as (ps & P); [lia|].
      exists (a :: ps). apply pipe_cut; [apply open_pipe_iff; exact H1| |exact P].
      intros H. apply ends_bs_iff in H. congruence.
    + exists [s]. constructor. apply open_pipe_iff. exact E.
Qed.

Lemma split_pipe_spec : forall s ps, split_pipe false s = ps <-> pipe_cells s ps.
Proof.
  intros s ps. split; [|apply pipe_cells_split]. intros <-.
  destruct (pipe_cells_total _ s (le_n _)) as (ps & P). pose proof (pipe_cells_split _ _ P). congruence.
Qed.

(** ** Escapes *)

Lemma escape_start : forall t, startswith "|" (escape t) = false.
Proof.
  destruct t as [|c t]; [reflexivity|]. cbn [escape]. destruct (Ascii.eqb c "|") eqn:E; [reflexivity|].
  cbn [startswith]. rewrite Ascii.eqb_sym, E. reflexivity.
Qed.

Lemma replace_escape : forall t, replace "\|" "|" (escape t) = t.
Proof.
  unfold replace. induction t as [|c t IH]; [reflexivity|]. cbn [escape]. destruct (Ascii.eqb c "|") eqn:E.
  - apply Ascii.eqb_eq in E. subst. cbn. f_equal. exact IH.
  - cbn [replace_aux]. assert (S : startswith "\|" (String c (escape t)) = false).
    { cbn [startswith]. pose proof (escape_start t) as H. destruct (escape t) eqn:Et.
      - apply andb_false_r.
      - cbn [startswith] in H. rewrite andb_true_r in *. rewrite H. apply andb_false_r. }
    rewrite S. f_equal. exact IH.
Qed.

(** a text without open pipes is an escaped text *)
Lemma escape_exists : forall n s, String.length s <= n -> open_pipe false s = false -> exists t, s = escape t.
Proof.
  assert (G : forall n s prev, String.length s <= n -> open_pipe prev s = false ->
    (prev = false -> exists t, s = escape t)
    /\ (prev = true -> (exists t, s = escape t) \/ exists t, s = String "|" (escape t))).
  { induction n; intros s prev L H.
    - destruct s; [|simpl in L; lia]. split; intros _; [exists ""; reflexivity|left; exists ""; reflexivity].
    - destruct s as [|c s]; [split; intros _; [exists ""; reflexivity|left; exists ""; reflexivity]|].
      cbn [open_pipe String.length] in *. apply orb_false_iff in H. destruct H as [H1 H2].
      destruct (IHn s (is_bs c)) as [I1 I2]; [lia|exact H2|].
      destruct (is_bs c) eqn:B.
      + apply Ascii.eqb_eq in B. subst. destruct (I2 eq_refl) as [(t & ->)|(t & ->)].
        * assert (X : exists t0, String "\" (escape t) = escape t0) by (exists (String "\" t); reflexivity).
          split; intros _; [exact X|left; exact X].
        * assert (X : exists t0, String "\" (String "|" (escape t)) = escape t0) by (exists (String "|" t); reflexivity).
          split; intros _; [exact X|left; exact X].
      + destruct (I1 eq_refl) as (t & ->). destruct (is_pipe c) eqn:P.
        * apply Ascii.eqb_eq in P. subst. destruct prev; [|discriminate]. split; [discriminate|].
          intros _. right. exists t. reflexivity.
        * assert (X : exists t0, String c (escape t) = escape t0).
          { exists (String c t). cbn [escape]. unfold is_pipe in P. rewrite P. reflexivity. }
          split; intros _; [exact X|left; exact X]. }
  intros n s L H. destruct (G n s false L H) as [X _]. auto.
Qed.

Lemma pieces_escaped : forall s ps, pipe_cells s ps -> exists ts, ps = map escape ts.
Proof.
  assert (E : forall s, no_open_pipe s -> exists t, s = escape t).
  { intros s H. apply open_pipe_iff in H. eapply escape_exists; [reflexivity|exact H]. }
  induction 1 as [s H|a s cells H _ _ IH].
  - destruct (E s H) as (t & ->). exists [t]. reflexivity.
  - destruct (E a H) as (t & ->). destruct IH as (ts & ->). exists (t :: ts). reflexivity.
Qed.

Lemma map_replace_escape : forall ts, map (replace "\|" "|") (map escape ts) = ts.
Proof. induction ts; [reflexivity|]. cbn [map]. rewrite replace_escape, IHts. reflexivity. Qed.

(** ** Lines *)

Lemma has_char_in : forall c s, has_char c s = false <-> ~ In c (list_ascii_of_string s).
Proof.
  induction s; cbn [has_char list_ascii_of_string In]; [tauto|]. destruct (Ascii.eqb c a) eqn:E.
  - apply Ascii.eqb_eq in E. subst. split; [discriminate|tauto].
  - apply Ascii.eqb_neq in E. rewrite IHs. split; [|tauto]. intros H [H1|H1]; [congruence|auto].
Qed.

Lemma split_first_none : forall c s, has_char c s = false -> split_first c s = (s, None).
Proof.
  induction s; cbn [has_char split_first]; intros H; [reflexivity|].
  destruct (Ascii.eqb c a); [discriminate|]. rewrite IHs by exact H. reflexivity.
Qed.
Lemma split_first_cut : forall c a b, has_char c a = false -> split_first c (a ++ String c b) = (a, Some b).
Proof.
  induction a; cbn [has_char split_first append]; intros b H; [rewrite Ascii.eqb_refl; reflexivity|].
  destruct (Ascii.eqb c a); [discriminate|]. rewrite IHa by exact H. reflexivity.
Qed.

Definition plain_cells (row : string) : list string :=
  match split_first ":" row with
  | (a, Some b) => strip a :: map (replace "\|" "|") (split_pipe false (strip b))
  | (a, None) => [strip a]
  end.

Lemma cut_char : forall c a b a' b', has_char c a = false -> has_char c a' = false ->
  (a ++ String c b = a' ++ String c b')%string -> a = a' /\ b = b'.
Proof.
  intros c. induction a; intros b a' b' H1 H2 E; destruct a'; cbn [append] in E.
  - injection E. auto.
  - injection E as <- E. cbn [has_char] in H2. rewrite Ascii.eqb_refl in H2. discriminate.
  - injection E as -> E. cbn [has_char] in H1. rewrite Ascii.eqb_refl in H1. discriminate.
  - injection E as <- E. cbn [has_char] in *. destruct (Ascii.eqb c a); [discriminate|].
    destruct (IHa _ _ _ H1 H2 E) as [-> ->]. auto.
Qed.

Lemma plain_cells_spec : forall l cells, plain_cells l = cells <-> plain_line l cells.
Proof.
  intros l cells. split.
  - intros <-. unfold plain_cells. destruct (has_char ":" l) eqn:E.
    + destruct (has_char_split _ _ E) as (a & b & -> & Ha). rewrite split_first_cut by exact Ha.
      assert (P : pipe_cells (strip b) (split_pipe false (strip b))) by (apply split_pipe_spec; reflexivity).
      destruct (pieces_escaped _ _ P) as (ts & Ets). rewrite Ets in *. rewrite map_replace_escape.
      apply (line_value _ a b _ (strip b)); auto.
      * apply has_char_in. exact Ha.
      * apply trimmed_iff. reflexivity.
      * apply trimmed_iff. reflexivity.
    + rewrite split_first_none by exact E. apply line_no_value; [apply has_char_in; exact E|apply trimmed_iff; reflexivity].
  - intros [n H1 H2|a b n v texts -> Ha Hn Hv P]; unfold plain_cells.
    + apply has_char_in in H1. rewrite split_first_none by exact H1. apply trimmed_iff in H2. subst. reflexivity.
    + apply has_char_in in Ha. change (a ++ ":" ++ b)%string with (a ++ String ":" b)%string.
      rewrite split_first_cut by exact Ha. apply trimmed_iff in Hn, Hv. subst.
      apply split_pipe_spec in P. rewrite P, map_replace_escape. reflexivity.
Qed.

Lemma lstrip_eq_spec : forall l, exists e, l = (e ++ lstrip_c "=" l)%string
  /\ Forall (eq "="%char) (list_ascii_of_string e) /\ (forall y, lstrip_c "=" l <> String "=" y).
Proof.
  induction l as [|c l IH].
  - exists "". repeat split; [constructor|discriminate].
  - cbn [lstrip_c]. destruct (Ascii.eqb "=" c) eqn:E.
    + apply Ascii.eqb_eq in E. subst. destruct IH as (e & E1 & E2 & E3). exists (String "=" e).
      split; [cbn [append]; rewrite <- E1; reflexivity|]. split; [constructor; auto|exact E3].
    + exists "". split; [reflexivity|]. split; [constructor|]. intros y H. injection H as -> _.
      rewrite Ascii.eqb_refl in E. discriminate.
Qed.

Lemma lstrip_eq_app : forall e x, Forall (eq "="%char) (list_ascii_of_string e) -> (forall y, x <> String "=" y) ->
  lstrip_c "=" (e ++ x) = x.
Proof.
  induction e as [|c e IH]; intros x H Hx.
  - cbn [append]. destruct x as [|c x]; [reflexivity|]. cbn [lstrip_c]. destruct (Ascii.eqb "=" c) eqn:E; [|reflexivity].
    apply Ascii.eqb_eq in E. subst. destruct (Hx x eq_refl).
  - cbn [list_ascii_of_string] in H. inversion H; subst. cbn [append lstrip_c]. rewrite Ascii.eqb_refl. auto.
Qed.

Lemma heading_start : forall e x, Forall (eq "="%char) (list_ascii_of_string e) -> 4 <= String.length e ->
  startswith "====" (e ++ x) = true.
Proof.
  intros e x H L. destruct e as [|c1 [|c2 [|c3 [|c4 e]]]]; simpl in L; try lia.
  cbn [list_ascii_of_string] in H. inversion H as [|? ? <- H1]; subst. inversion H1 as [|? ? <- H2]; subst.
  inversion H2 as [|? ? <- H3]; subst. inversion H3 as [|? ? <- H4]; subst. reflexivity.
Qed.

Lemma line_cells_spec : forall l cells, line_cells l = cells <-> text_line l cells.
Proof.
  intros l cells. unfold line_cells. split.
  - destruct (startswith "====" l) eqn:E; intros H.
    + destruct (lstrip_eq_spec l) as (e & E1 & E2 & E3).
      apply (line_heading _ e (lstrip_c "=" l)); auto.
      * rewrite E1 in E. clear H. apply startswith_spec in E. destruct E as (t & E).
        destruct e as [|c1 [|c2 [|c3 [|c4 e]]]]; try (simpl; lia); cbn [append] in E; exfalso.
        -- apply (E3 ("===" ++ t)%string). exact E.
        -- injection E as _ E. apply (E3 ("==" ++ t)%string). exact E.
        -- injection E as _ _ E. apply (E3 ("=" ++ t)%string). exact E.
        -- injection E as _ _ _ E. apply (E3 t%string). exact E.
      * apply plain_cells_spec. exact H.
    + apply line_plain; [|apply plain_cells_spec; exact H].
      intros y ->. rewrite startswith_app in E. discriminate.
  - intros [e x c -> H1 H2 H3 P|c H P].
    + rewrite heading_start, lstrip_eq_app by assumption. apply plain_cells_spec in P. exact P.
    + destruct (startswith "====" l) eqn:E.
      * apply startswith_spec in E. destruct E as (t & ->). destruct (H t eq_refl).
      * apply plain_cells_spec in P. exact P.
Qed.

Lemma is_comment_spec : forall l, is_comment l = true <-> comment_line l.
Proof.
  intros l. unfold is_comment, comment_line. split.
  - intros H. apply startswith_spec in H. destruct H as (t & H).
    destruct (lstrip_spec l) as (u & E & Hu & _). exists u, t. rewrite <- H. split; [apply white_iff; exact Hu|exact E].
  - intros (u & v & Hu & ->). apply white_iff in Hu. rewrite lstrip_blank_app by exact Hu. reflexivity.
Qed.

(** ** Lines of a text *)

Definition no_breaks (l : string) : Prop := all_chars (fun c => negb (is_linebreak c)) l = true.

Lemma snoc_app : forall a c b, (snoc a c ++ b = a ++ String c b)%string.
Proof. intros. unfold snoc. rewrite <- app_s_assoc. reflexivity. Qed.

Definition cur_line (cur : option string) : string := match cur with Some l => l | None => "" end.

Lemma splitlines_line : forall l cur rest, no_breaks l ->
  splitlines_aux false cur (l ++ LF ++ rest) = (cur_line cur ++ l)%string :: splitlines_aux false None rest
  /\ splitlines_aux false cur (l ++ CRLF ++ rest) = (cur_line cur ++ l)%string :: splitlines_aux false None rest.
Proof.
  induction l; intros cur rest H.
  - rewrite app_s_nil. split.
    + cbn [append LF splitlines_aux]. change (is_linebreak (ascii_of_nat 10)) with true.
      change (nat_of_ascii (ascii_of_nat 10) =? 13) with false. reflexivity.
    + cbn [append CRLF LF splitlines_aux]. change (is_linebreak (ascii_of_nat 10)) with true.
      change (is_linebreak (ascii_of_nat 13)) with true.
      change (nat_of_ascii (ascii_of_nat 13) =? 13) with true.
      change (nat_of_ascii (ascii_of_nat 13) =? 10) with false.
      change (nat_of_ascii (ascii_of_nat 10) =? 10) with true. reflexivity.
  - unfold no_breaks in *. cbn [all_chars] in H. apply andb_true_iff in H. destruct H as [H1 H2].
    apply negb_true_iff in H1. cbn [append splitlines_aux]. rewrite H1.
    destruct (IHl (Some (snoc (cur_line cur) a)) rest H2) as [I1 I2].
    cbn [cur_line] in *. rewrite snoc_app in I1, I2. split; [exact I1|exact I2].
Qed.

Lemma splitlines_last : forall l cur, no_breaks l ->
  splitlines_aux false cur l = match cur, l with None, "" => [] | _, _ => [(cur_line cur ++ l)%string] end.
Proof.
  induction l; intros cur H.
  - destruct cur; cbn; [rewrite app_s_nil|]; reflexivity.
  - unfold no_breaks in *. cbn [all_chars] in H. apply andb_true_iff in H. destruct H as [H1 H2].
    apply negb_true_iff in H1. cbn [splitlines_aux]. rewrite H1, IHl by exact H2.
    cbn [cur_line]. change (match cur with Some l0 => l0 | None => "" end) with (cur_line cur). rewrite snoc_app.
    destruct cur; destruct l; reflexivity.
Qed.

Lemma linebreak_in : forall c, is_linebreak c = true <-> In (nat_of_ascii c) [10; 11; 12; 13; 28; 29; 30; 133].
Proof.
  intros c. assert (E : is_linebreak c = existsb (Nat.eqb (nat_of_ascii c)) [10; 11; 12; 13; 28; 29; 30; 133]) by by_chars c.
  rewrite E, existsb_exists. split.
  - intros (x & I & H). apply Nat.eqb_eq in H. rewrite H. exact I.
  - intros I. exists (nat_of_ascii c). split; [exact I|apply Nat.eqb_refl].
Qed.

Lemma no_breaks_iff : forall l, no_breaks l <-> one_line l.
Proof.
  unfold no_breaks, one_line. induction l; cbn [all_chars list_ascii_of_string In].
  - split; [tauto|reflexivity].
  - rewrite andb_true_iff, negb_true_iff, IHl, <- not_true_iff_false, linebreak_in. split.
    + intros [H1 H2] c [<-|I]; [exact H1|exact (H2 c I)].
    + intros H. split; [exact (H a (or_introl eq_refl))|intros c I; exact (H c (or_intror I))].
Qed.

Lemma splitlines_text : forall ls last, Forall (fun p => one_line (fst p)) ls -> one_line last ->
  splitlines (text_of ls last) = lines_of ls last.
Proof.
  unfold splitlines, lines_of. induction ls as [|[l b] ls IH]; intros last H Hl.
  - cbn [text_of map app]. apply no_breaks_iff in Hl. rewrite splitlines_last by exact Hl. destruct last; reflexivity.
  - inversion H as [|? ? H1 H2]; subst. cbn [fst] in H1. apply no_breaks_iff in H1.
    cbn [text_of map fst app]. rewrite <- (IH last) by assumption.
    destruct (splitlines_line l None (text_of ls last)) as [I1 I2]; [assumption|].
    destruct b; [exact I2|exact I1].
Qed.

Lemma rows_of_iff : forall ls rows,
  map line_cells (filter (fun l => negb (is_comment l)) ls) = rows <-> rows_of ls rows.
Proof.
  intros ls rows. split.
  - intros <-. induction ls as [|l ls IH]; [constructor|]. cbn [filter]. destruct (is_comment l) eqn:C; cbn [negb].
    + apply rows_comment; [apply is_comment_spec; exact C|exact IH].
    + cbn [map]. apply rows_line; [|apply line_cells_spec; reflexivity|exact IH].
      intros X. apply is_comment_spec in X. congruence.
  - induction 1 as [|l ls rows H _ IH|l ls cells rows H H1 _ IH]; [reflexivity| |]; cbn [filter].
    + apply is_comment_spec in H. rewrite H. exact IH.
    + destruct (is_comment l) eqn:C; [apply is_comment_spec in C; tauto|]. cbn [negb map].
      apply line_cells_spec in H1. congruence.
Qed.

Lemma text_rows_spec : forall ls last rows, Forall (fun p => one_line (fst p)) ls -> one_line last ->
  text_rows (text_of ls last) = rows <-> rows_of (lines_of ls last) rows.
Proof. intros. unfold text_rows. rewrite splitlines_text by assumption. apply rows_of_iff. Qed.

(** the line written for a name and cells is read back *)
Lemma pipe_cells_join : forall ts, ts <> [] -> Forall (fun t => ~ ends_in_backslash t) ts ->
  pipe_cells (join "|" (map escape ts)) (map escape ts).
Proof.
  assert (O : forall t prev, open_pipe prev (escape t) = false).
  { induction t as [|c t IH]; intros; [reflexivity|]. cbn [escape]. destruct (Ascii.eqb c "|") eqn:E.
    - cbn. apply IH.
    - cbn [open_pipe]. unfold is_pipe at 1. rewrite E. apply IH. }
  assert (B : forall t prev, ends_bs prev (escape t) = ends_bs prev t).
  { induction t as [|c t IH]; intros; [reflexivity|]. cbn [escape]. destruct (Ascii.eqb c "|") eqn:E.
    - apply Ascii.eqb_eq in E. subst. cbn [ends_bs]. apply IH.
    - cbn [ends_bs]. apply IH. }
  induction ts as [|t ts IH]; intros N F; [congruence|]. inversion F; subst. destruct ts as [|t' ts].
  - cbn. constructor. apply open_pipe_iff. apply O.
  - change (pipe_cells (escape t ++ "|" ++ join "|" (map escape (t' :: ts))) (escape t :: map escape (t' :: ts))).
    apply pipe_cut.
    + apply open_pipe_iff, O.
    + intros X. apply ends_bs_iff in X. rewrite B in X. apply ends_bs_iff in X. tauto.
    + apply IH; [discriminate|assumption].
Qed.
