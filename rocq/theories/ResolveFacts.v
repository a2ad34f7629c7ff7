(** * ResolveFacts: the files that names mean (C72) *)

From Verif Require Import StrFacts HeapFacts SpecNames NameFacts SpecParse Parser SpecDoc SpecInclude IncludeFacts RunFacts Resolve SpecResolve.

(** ** Paths *)

Lemma endswith_spec : forall c d, endswith_char c d = true <-> exists r, d = (r ++ String c "")%string.
Proof.
  intros c d. induction d as [|x d IH]; [split; [discriminate|intros ([|? r] & H); discriminate H]|].
  destruct d as [|y d].
  - cbn [endswith_char]. rewrite Ascii.eqb_eq. split; [intros ->; exists ""; reflexivity|]. intros ([|z r] & H); [injection H as <-; reflexivity|]. destruct r; discriminate H.
  - change (endswith_char c (String x (String y d))) with (endswith_char c (String y d)). rewrite IH. split.
    + intros (r & ->). exists (String x r). reflexivity.
    + intros ([|z r] & H); [discriminate H|]. injection H as -> H. exists r. exact H.
Qed.

Lemma absolute_spec : forall n, startswith "/" n = true <-> absolute n.
Proof. intros n. apply startswith_spec. Qed.
Lemma slash_spec : forall d, endswith_char "/" d = true <-> ends_in_slash d.
Proof. intros d. apply endswith_spec. Qed.
Lemma not_iff : forall b P, (b = true <-> P) -> (b = false <-> ~ P).
Proof. intros [] P H; split; intro X; try discriminate; try (exfalso; apply X; apply H; reflexivity); auto. intros p. apply H in p. discriminate. Qed.

Lemma join_spec : forall d n y, path_join d n = y <-> joined d n y.
Proof.
  intros d n y. unfold path_join. destruct (startswith "/" n) eqn:A.
  - apply absolute_spec in A. split; [intros <-; apply joined_absolute; exact A|]. intros H. inversion H; subst; try contradiction; reflexivity.
  - pose proof (proj1 (not_iff _ _ (absolute_spec n)) A) as NA. destruct (eqs d "") eqn:E; cbn [orb].
    + apply eqs_true in E. subst d. cbn. split; [intros <-; apply joined_nothing; [exact NA|reflexivity]|]. intros H. inversion H; subst; try contradiction; try reflexivity.
    + apply eqs_false in E. destruct (endswith_char "/" d) eqn:S.
      * apply slash_spec in S. split; [intros <-; apply joined_slash; assumption|]. intros H. inversion H; subst; try contradiction; reflexivity.
      * pose proof (proj1 (not_iff _ _ (slash_spec d)) S) as NS. split; [intros <-; apply joined_plain; assumption|]. intros H. inversion H; subst; try contradiction; reflexivity.
Qed.

Lemma slashes_cons : forall c u, slashes (String c u) <-> c = "/"%char /\ slashes u.
Proof. intros c u. unfold slashes. cbn. split; [intros H; split; auto|]. intros [-> H] x [<-|I]; auto. Qed.

Lemma lstrip_slashes : forall u x, slashes u -> lstrip_c "/" (u ++ x) = lstrip_c "/" x.
Proof. intros u. induction u as [|c u IH]; intros x H; [reflexivity|]. apply slashes_cons in H. destruct H as [-> H]. cbn [append lstrip_c]. cbn. apply IH. exact H. Qed.
Lemma lstrip_id : forall x, ~ absolute x -> lstrip_c "/" x = x.
Proof. intros [|c x] H; [reflexivity|]. cbn [lstrip_c]. destruct (Ascii.eqb_spec "/" c) as [<-|]; [|reflexivity]. exfalso. apply H. exists x. reflexivity. Qed.
Lemma lstrip_of : forall s, exists u, s = (u ++ lstrip_c "/" s)%string /\ slashes u /\ ~ absolute (lstrip_c "/" s).
Proof.
  intros s. induction s as [|c s (u & E & S & N)]; [exists ""; split; [reflexivity|]; split; [intros c []|intros (r & H); discriminate H]|]. cbn [lstrip_c].
  destruct (Ascii.eqb_spec "/" c) as [<-|NE].
  - exists (String "/" u). cbn [append]. rewrite <- E. split; [reflexivity|]. split; [apply slashes_cons; auto|exact N].
  - exists "". split; [reflexivity|]. split; [intros x []|]. intros (r & H). injection H as -> _. apply NE. reflexivity.
Qed.
Lemma rstrip_slashes : forall u, slashes u -> rstrip_c "/" u = "".
Proof. intros u. induction u as [|c u IH]; intros H; [reflexivity|]. apply slashes_cons in H. destruct H as [-> H]. cbn [rstrip_c]. rewrite IH by exact H. reflexivity. Qed.
Lemma ends_cons : forall c x, x <> "" -> ends_in_slash (String c x) -> ends_in_slash x.
Proof. intros c x N ([|d r] & H); [injection H as _ H; contradiction|]. injection H as -> H. exists r. exact H. Qed.
Lemma ends_more : forall c x, ends_in_slash x -> ends_in_slash (String c x).
Proof. intros c x (r & ->). exists (String c r). reflexivity. Qed.
Lemma rstrip_app : forall t v, slashes v -> ~ ends_in_slash t -> rstrip_c "/" (t ++ v) = t.
Proof.
  intros t. induction t as [|c t IH]; intros v S N; [apply rstrip_slashes; exact S|]. cbn [append rstrip_c].
  rewrite IH by (try exact S; intros X; apply N; apply ends_more; exact X). destruct t as [|d t]; [|reflexivity].
  destruct (Ascii.eqb_spec "/" c) as [<-|]; [|reflexivity]. exfalso. apply N. exists "". reflexivity.
Qed.
Lemma rstrip_of : forall s, exists v, s = (rstrip_c "/" s ++ v)%string /\ slashes v /\ ~ ends_in_slash (rstrip_c "/" s).
Proof.
  intros s. induction s as [|c s (v & E & S & N)]; [exists ""; split; [reflexivity|]; split; [intros c []|intros ([|? r] & H); discriminate H]|]. cbn [rstrip_c].
  destruct (rstrip_c "/" s) as [|d r] eqn:R.
  - destruct (Ascii.eqb_spec "/" c) as [<-|NE].
    + exists (String "/" s). split; [reflexivity|]. split; [|exact N]. apply slashes_cons. split; [reflexivity|]. cbn in E. subst v. exact S.
    + cbn in E. subst v. exists s. split; [reflexivity|]. split; [exact S|]. intros ([|x [|y r]] & H); try discriminate H. injection H as H. apply NE. symmetry. exact H.
  - exists v. split; [cbn [append]; f_equal; exact E|]. split; [exact S|]. intros X. apply N. eapply ends_cons; [|exact X]. discriminate.
Qed.

Lemma lstrip_app_absolute : forall t v, ~ absolute t -> t <> "" -> ~ absolute (t ++ v).
Proof. intros [|c t] v N E; [contradiction|]. intros (r & H). injection H as -> H. apply N. exists t. reflexivity. Qed.

Lemma unslashed_spec : forall s t, strip_c "/" s = t <-> unslashed s t.
Proof.
  intros s t. unfold strip_c. split.
  - intros <-. destruct (lstrip_of s) as (u & E & S & N). destruct (rstrip_of (lstrip_c "/" s)) as (v & E2 & S2 & N2).
    exists u, v. split; [rewrite <- E2; exact E|]. split; [exact S|]. split; [exact S2|]. split; [|exact N2].
    intros (r & H). apply N. exists (r ++ v)%string. rewrite E2, H. reflexivity.
  - intros (u & v & -> & S & S2 & N & N2). rewrite lstrip_slashes by exact S. destruct t as [|c t].
    + change (("" ++ v)%string) with v. rewrite <- (app_s_nil v), lstrip_slashes by exact S2. reflexivity.
    + rewrite lstrip_id by (apply lstrip_app_absolute; [exact N|discriminate]). apply rstrip_app; assumption.
Qed.

(** ** Names *)

Lemma web_spec : forall n, startswith "http" n = true <-> on_the_web n.
Proof. intros n. apply startswith_spec. Qed.

Lemma places_of : forall pkg d n l, places pkg d n l <-> l = [n; path_join pkg n; path_join pkg (n ++ ".csv"); path_join d n; path_join d (n ++ ".csv")].
Proof.
  intros pkg d n l. split.
  - intros (p1 & p2 & d1 & d2 & A & B & C & D & ->). apply join_spec in A, B, C, D. subst. reflexivity.
  - intros ->. do 4 eexists. split; [apply join_spec; reflexivity|]. split; [apply join_spec; reflexivity|]. split; [apply join_spec; reflexivity|]. split; [apply join_spec; reflexivity|reflexivity].
Qed.

Fixpoint search (ex : string -> bool) (l : list string) : option string :=
  match l with [] => None | x :: l' => if ex x then Some x else search ex l' end.
Lemma search_some : forall ex l y, search ex l = Some y <-> first_there ex l y.
Proof.
  intros ex l. induction l as [|x l IH]; intros y; cbn [search].
  - split; [discriminate|]. intros ([|? a] & b & H & _); discriminate H.
  - destruct (ex x) eqn:E.
    + split; [intros H; injection H as <-; exists [], l; repeat split; [exact E|constructor]|]. intros ([|z a] & b & H & Y & F); injection H as -> H; [reflexivity|]. inversion F; congruence.
    + rewrite IH. split.
      * intros (a & b & -> & Y & F). exists (x :: a), b. repeat split; [exact Y|constructor; assumption].
      * intros ([|z a] & b & H & Y & F); injection H as -> H; [congruence|]. exists a, b. inversion F. auto.
Qed.
Lemma search_none : forall ex l, search ex l = None <-> Forall (fun x => ex x = false) l.
Proof.
  intros ex l. induction l as [|x l IH]; cbn [search]; [split; [constructor|reflexivity]|]. destruct (ex x) eqn:E.
  - split; [discriminate|]. intros F. inversion F. congruence.
  - rewrite IH. split; [constructor; assumption|intros F; inversion F; assumption].
Qed.

Lemma declare_search : forall pkg e d n, find_declare_doc (with_package pkg e) d n =
  match search (fexists e) [n; path_join pkg n; path_join pkg (n ++ ".csv"); path_join d n; path_join d (n ++ ".csv")] with
  | Some y => Ok y
  | None => if startswith "http" n then Ok (strip_c "/" n) else Err EInclude
  end.
Proof.
  intros pkg e d n. unfold find_declare_doc, with_package, declaration_path. cbn [fexists declpath search]. destruct (fexists e n); [reflexivity|].
  destruct (fexists e (path_join pkg n)) eqn:A; cbn [negb]; [rewrite A; reflexivity|].
  destruct (fexists e (path_join pkg (n ++ ".csv"))); cbn [negb]; [reflexivity|].
  destruct (fexists e (path_join d n)); [reflexivity|]. destruct (fexists e (path_join d (n ++ ".csv"))); reflexivity.
Qed.

Lemma declare_means : forall pkg e d n y, find_declare_doc (with_package pkg e) d n = Ok y <-> declaration_means (fexists e) pkg d n y.
Proof.
  intros pkg e d n y. rewrite declare_search. set (l := [n; _; _; _; _]). assert (P : places pkg d n l) by (apply places_of; reflexivity).
  destruct (search (fexists e) l) as [z|] eqn:S.
  - split.
    + intros H. injection H as <-. apply (means_local _ _ _ _ l); [exact P|]. apply search_some. exact S.
    + intros [l' y' P' F|l' y' P' F _ _]; apply places_of in P'; fold l in P'; subst l'; [apply search_some in F|apply search_none in F]; rewrite S in F; [injection F as ->; reflexivity|discriminate F].
  - destruct (startswith "http" n) eqn:W.
    + split.
      * intros H. injection H as <-. apply (means_web _ _ _ _ l); [exact P|apply search_none; exact S|apply web_spec; exact W|apply unslashed_spec; reflexivity].
      * intros [l' y' P' F|l' y' P' F _ U]; apply places_of in P'; fold l in P'; subst l'; [apply search_some in F; rewrite S in F; discriminate F|]. apply unslashed_spec in U. subst y'. reflexivity.
    + split; [discriminate|]. intros [l' y' P' F|l' y' P' F W' _]; [|apply web_spec in W'; congruence]. apply places_of in P'. fold l in P'. subst l'. apply search_some in F. congruence.
Qed.

Lemma declare_nothing : forall pkg e d n, (forall y, ~ declaration_means (fexists e) pkg d n y) -> find_declare_doc (with_package pkg e) d n = Err EInclude.
Proof.
  intros pkg e d n H. destruct (find_declare_doc (with_package pkg e) d n) as [y|x] eqn:E; [apply declare_means in E; destruct (H y E)|].
  rewrite declare_search in E. destruct (search _ _); [discriminate E|]. destruct (startswith "http" n); [discriminate E|]. symmetry. exact E.
Qed.

Lemma include_spec : forall d n y, find_include_doc d n = Ok y <-> include_means d n y.
Proof.
  intros d n y. unfold find_include_doc. cbv zeta. set (r := strip_c "/" n). assert (U : unslashed n r) by (apply unslashed_spec; reflexivity).
  destruct (startswith "http" r) eqn:W.
  - split; [intros H; injection H as <-; apply means_page; [exact U|apply web_spec; exact W]|].
    intros [r' U' W'|r' y' U' W' D J]; apply unslashed_spec in U'; fold r in U'; subst r'; [reflexivity|]. exfalso. apply W'. apply web_spec. exact W.
  - destruct (eqs d "") eqn:E.
    + split; [discriminate|]. apply eqs_true in E. intros [r' U' W'|r' y' U' W' D J]; [|contradiction]. apply unslashed_spec in U'. fold r in U'. subst r'. apply web_spec in W'. congruence.
    + split.
      * intros H. injection H as <-. apply (means_file _ _ r); [exact U| |apply eqs_false; exact E|apply join_spec; reflexivity]. intros X. apply web_spec in X. congruence.
      * intros [r' U' W'|r' y' U' W' D J]; apply unslashed_spec in U'; fold r in U'; subst r'; [apply web_spec in W'; congruence|]. apply join_spec in J. subst. reflexivity.
Qed.

Lemma include_nothing : forall d n, (forall y, ~ include_means d n y) -> find_include_doc d n = Err EInclude.
Proof.
  intros d n H. destruct (find_include_doc d n) as [y|x] eqn:E; [apply include_spec in E; destruct (H y E)|]. unfold find_include_doc in E. cbv zeta in E.
  destruct (startswith _ _); [discriminate E|]. destruct (eqs d ""); [symmetry; exact E|discriminate E].
Qed.

(** ** Documents *)

Lemma generate_reads : forall e load n src ft s s' row kind, generate_terms e load n src ft s = (s', Ok tt) ->
  In row (src_rows src) -> In kind ["include"; "declare"] -> file_row kind row ->
  exists y rows, names_file e (src_dir src) row y /\ src_ref src <> Some y /\ fetch e y = Some rows.
Proof.
  intros e load n src ft s s' row kind H Hin Hk Fr.
  assert (D : (exists y rows, names_file e (src_dir src) row y /\ src_ref src <> Some y /\ fetch e y = Some rows) \/
    ~ (exists y rows, names_file e (src_dir src) row y /\ src_ref src <> Some y /\ fetch e y = Some rows)).
  { assert (N : (exists y, names_file e (src_dir src) row y) \/ ~ exists y, names_file e (src_dir src) row y).
    { destruct (string_dec (nth 1 row "") "") as [V|V]; [right; intros (y & X & _); contradiction|].
      destruct Hk as [<-|[<-|[]]].
      - destruct (find_include_doc (src_dir src) (strip (nth 1 row ""))) as [y|] eqn:F; [left; exists y; split; [exact V|left; auto]|right].
        intros (y & _ & [[_ X]|[[_ C] _]]); [congruence|]. destruct (cell_names_det _ _ _ _ _ C (proj2 Fr)). discriminate.
      - destruct (find_declare_doc e (src_dir src) (strip (nth 1 row ""))) as [y|] eqn:F; [left; exists y; split; [exact V|right; auto]|right].
        intros (y & _ & [[[_ C] _]|[_ X]]); [|congruence]. destruct (cell_names_det _ _ _ _ _ C (proj2 Fr)). discriminate. }
    destruct N as [(y & Y)|N]; [|right; intros (y & rows & Y & _); apply N; exists y; exact Y].
    destruct (fetch e y) as [rows|] eqn:F; [|right; intros (z & rows & Z & _ & F'); rewrite (names_file_det _ _ _ _ _ Z Y), F in F'; discriminate].
    destruct (src_ref src) as [x|] eqn:R; [|left; exists y, rows; split; [exact Y|split; [discriminate|exact F]]].
    destruct (string_dec x y) as [->|NE]; [right; intros (z & rows' & Z & NR & _); rewrite (names_file_det _ _ _ _ _ Z Y) in NR; contradiction|].
    left. exists y, rows. split; [exact Y|]. split; [congruence|exact F]. }
  destruct D as [D|D]; [exact D|]. exfalso. revert H. eapply bad_row_generate; [exact Hin|exact Hk|exact Fr|].
  intros y rows' ft' s1 s2 Y NR F _. apply D. exists y, rows'. auto.
Qed.

Lemma load_reads : forall e n src s s' row kind, load_source e n src s = (s', Ok tt) ->
  In row (src_rows src) -> In kind ["include"; "declare"] -> file_row kind row ->
  exists y rows, names_file e (src_dir src) row y /\ src_ref src <> Some y /\ fetch e y = Some rows.
Proof.
  intros e n src s s' row kind H Hin Hk Fr. unfold load_source in H. rb H as s1 u H1. rb H as s2 d H2. rb H as s3 u3 H3. rb H as s4 u4 H4. destruct u4.
  eapply generate_reads; eassumption.
Qed.

Lemma declare_row_reads : forall pkg e n src s s' row, load_source (with_package pkg e) n src s = (s', Ok tt) ->
  In row (src_rows src) -> file_row "declare" row ->
  exists name y rows, trimmed (nth 1 row "") name /\ declaration_means (fexists e) pkg (src_dir src) name y /\ src_ref src <> Some y /\ fetch e y = Some rows.
Proof.
  intros pkg e n src s s' row H Hin Fr. destruct (load_reads _ _ _ _ _ row "declare" H Hin ltac:(cbn; auto) Fr) as (y & rows & [V [[[_ C] _]|[_ Y]]] & NR & F).
  - destruct (cell_names_det _ _ _ _ _ C (proj2 Fr)). discriminate.
  - exists (strip (nth 1 row "")), y, rows. split; [apply trimmed_iff; reflexivity|]. split; [apply declare_means; exact Y|]. split; [exact NR|exact F].
Qed.

Lemma include_row_reads : forall e n src s s' row, load_source e n src s = (s', Ok tt) ->
  In row (src_rows src) -> file_row "include" row ->
  exists name y rows, trimmed (nth 1 row "") name /\ include_means (src_dir src) name y /\ src_ref src <> Some y /\ fetch e y = Some rows.
Proof.
  intros e n src s s' row H Hin Fr. destruct (load_reads _ _ _ _ _ row "include" H Hin ltac:(cbn; auto) Fr) as (y & rows & [V [[_ Y]|[[_ C] _]]] & NR & F).
  - exists (strip (nth 1 row "")), y, rows. split; [apply trimmed_iff; reflexivity|]. split; [apply include_spec; exact Y|]. split; [exact NR|exact F].
  - destruct (cell_names_det _ _ _ _ _ C (proj2 Fr)). discriminate.
Qed.
