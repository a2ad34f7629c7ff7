(** * RelineFacts: writing a document as lines and reading it again (C83) *)

From Coq Require Import Lia.
From Verif Require Import ListFacts StrFacts HeapFacts NameFacts SpecText TextFacts TextRows LineFacts ConstructFacts Csv Parser RunFacts EmitFacts DigitFacts RowFacts ParseFacts TotalFacts Render RowsFacts OrderFacts PrintFacts ReadFacts CsvFacts RoundFacts DocFacts OutlineFacts InvFacts ForestFacts AnswerFacts SpreadFacts SpecNames SpecInv SpecParse SpecDoc SpecRound SpecOutline SpecSpread.

(** ** The lines of a document *)

Fixpoint cell_pairs (cols cells : list string) : list (string * string) :=
  match cols, cells with
  | c :: cs, x :: xs => if eqs x "" then cell_pairs cs xs else (c, x) :: cell_pairs cs xs
  | _, _ => []
  end.
Definition row_pairs (cols : list string) (row : list string) : list (string * string) :=
  (hd "" row, nth 1 row "") :: map (fun cx => (("    ." ++ title (fst cx))%string, snd cx)) (cell_pairs cols (skipn 2 row)).
Definition sect_head (c : sect) : list (string * string) := if eqs (sc_name c) "Root" then [] else [("Section", join "|" (sc_name c :: sc_cols c))].
Definition sect_pairs (c : sect) : list (string * string) :=
  (sect_head c ++ flat_map (row_pairs (sc_cols c)) (flat_map (tree_rows (sc_cols c) "root") (sc_terms c)))%list.
Definition pair_like (a : string * val) (b : string * string) : Prop := fst a = fst b /\ SpecRound.text_of (snd a) (snd b).

Lemma child_lines_texts : forall names vals texts l, Forall2 SpecRound.text_of vals texts -> Forall tidy texts -> child_lines names vals = Ok l ->
  Forall2 pair_like l (map (fun cx => (("    ." ++ title (fst cx))%string, snd cx)) (cell_pairs names texts)).
Proof.
  intros names. induction names as [|n names IH]; intros vals texts l F T H; [destruct vals; injection H as <-; constructor|].
  destruct F as [|v x vals texts E F]; [injection H as <-; constructor|]. inversion T as [|? ? T1 T2]; subst. cbn [child_lines] in H. destruct (child_lines names vals) as [rest|] eqn:C; [|discriminate H].
  cbn [rbind] in H. specialize (IH _ _ _ F T2 C). cbn [cell_pairs]. destruct E as [x|]; cbn [truthy as_str rbind] in H.
  - unfold nonempty in H. eqs_cases x ""; cbn [negb] in H; [injection H as <-; exact IH|]. unfold nonblank in H. rewrite (tidy_strip _ T1) in H.
    destruct (eqs_false x "") as [_ X]. rewrite X in H by assumption. cbn [negb] in H. injection H as <-. cbn [map]. constructor; [split; [reflexivity|constructor]|exact IH].
  - injection H as <-. exact IH.
Qed.
Lemma row_lines_texts : forall sec row texts l, Forall2 SpecRound.text_of (print_row row) texts -> Forall tidy (skipn 2 texts) -> row_lines sec row = Ok l ->
  Forall2 pair_like l (row_pairs (columns_of sec) texts).
Proof.
  intros sec [n rv] texts l F T H. unfold row_lines in H. cbn [fst snd] in *. unfold print_row in F. cbn [fst snd] in F. change (sec_property_names sec) with (columns_of sec) in H.
  destruct (child_lines (columns_of sec) _) as [kids|] eqn:C; [|discriminate H]. injection H as <-.
  inversion F as [|? nt ? ts F1 F2 E1 E2]; subst. clear F. inversion F1; subst. unfold row_pairs. cbn [hd skipn]. set (vals := match rv with RList l => l | RVal v => [v] end) in *.
  destruct F2 as [|v x vals ts F1' F2]; cbn [nth hd tl] in *.
  - constructor; [split; [reflexivity|constructor]|]. eapply child_lines_texts; [constructor|constructor|exact C].
  - constructor; [split; [reflexivity|exact F1']|]. eapply child_lines_texts; [exact F2|exact T|exact C].
Qed.

(** ** The rows read *)

Definition row_split (cols : list string) (row : list string) : list (list string) :=
  [hd "" row; nth 1 row ""] :: map (fun cx => [("." ++ title (fst cx))%string; snd cx]) (cell_pairs cols (skipn 2 row)).
Definition sect_split (c : sect) : list (list string) :=
  ((if eqs (sc_name c) "Root" then [] else [[""]; "Section" :: sc_name c :: sc_cols c])
   ++ flat_map (row_split (sc_cols c)) (flat_map (tree_rows (sc_cols c) "root") (sc_terms c)))%list.

(** what a row says *)
Record item := mk_item { it_p : string; it_n : string; it_x : string; it_cells : list string }.
Definition item_row (i : item) : list string := name_text (it_p i) (it_n i) :: it_x i :: it_cells i.
Definition item_line (i : item) : line := LTerm (it_p i) (it_n i) (it_x i) (it_cells i).
Fixpoint tree_items (cols : list string) (p : string) (t : tree) : list item :=
  match t with
  | Tree n v kids =>
      mk_item p n v (cell_texts cols (filter childless kids))
      :: (map (fun k => mk_item n (name_of k) (value_of k) []) (leftover cols (filter childless kids))
          ++ flat_map (fun k => if childless k then [] else tree_items cols n k) kids)
  end.
Lemma map_flat_map : forall {A B C} (f : B -> C) (g : A -> list B) l, map f (flat_map g l) = flat_map (fun a => map f (g a)) l.
Proof. intros A B C f g l. induction l as [|a l IH]; [reflexivity|]. cbn [flat_map]. rewrite map_app, IH. reflexivity. Qed.
Lemma flat_map_ext_in : forall {A B} (f g : A -> list B) l, Forall (fun a => f a = g a) l -> flat_map f l = flat_map g l.
Proof. intros A B f g l H. induction H as [|a l E _ IH]; [reflexivity|]. cbn [flat_map]. rewrite E, IH. reflexivity. Qed.
Lemma tree_items_rows : forall cols t p, tree_rows cols p t = map item_row (tree_items cols p t).
Proof.
  intros cols t. induction t as [n v kids IH] using tree_ind'. intros p. cbn [tree_rows tree_items map]. f_equal. rewrite map_app, map_map, map_flat_map. f_equal.
  apply flat_map_ext_in. eapply Forall_impl; [|exact IH]. intros k H. cbn beta. destruct (childless k); [reflexivity|apply H].
Qed.

Record good (cols : list string) (i : item) : Prop := {
  gr_parent : parent_ok (it_p i); gr_pw : it_p i = "root" \/ line_word (it_p i); gr_name : cell_name (it_n i); gr_nw : line_word (it_n i); gr_own : it_p i <> it_n i;
  gr_top : it_p i = "root" -> ~ In (it_n i) ["section"; "header"; "include"; "declare"];
  gr_df : ~ (it_p i = "datafile" /\ it_n i = "section");
  gr_tx : tidy (it_x i); gr_vx : line_value (it_x i); gr_tc : Forall tidy (it_cells i);
  gr_cs : Forall (fun cx => cell_name (lower (fst cx)) /\ line_word (lower (fst cx)) /\ line_value (snd cx)) (cell_pairs cols (it_cells i));
  gr_len : List.length (it_cells i) <= List.length cols
}.

Lemma cell_texts_len : forall cols L, List.length (cell_texts cols L) = List.length cols.
Proof. intros cols. induction cols as [|c cs IH]; intros L; [reflexivity|]. cbn [cell_texts List.length]. rewrite IH. reflexivity. Qed.
Lemma cell_texts_pairs : forall (P : tree -> Prop) cols L, Forall P L -> Forall (fun cx => exists t, P t /\ lower (fst cx) = name_of t /\ snd cx = value_of t) (cell_pairs cols (cell_texts cols L)).
Proof.
  intros P cols. induction cols as [|c cs IH]; intros L F; [constructor|]. cbn [cell_texts cell_pairs].
  assert (G : Forall P (filter (fun t => negb (called (lower c) t)) L)) by (apply Forall_forall; intros t I; apply filter_In in I; rewrite Forall_forall in F; apply F, I).
  destruct (find (called (lower c)) L) as [t|] eqn:E; [|apply IH, G]. apply find_some in E. destruct E as [I E]. apply called_name in E.
  destruct (eqs (value_of t) ""); [apply IH, G|]. constructor; [|apply IH, G]. exists t. rewrite Forall_forall in F. cbn [fst snd]. auto.
Qed.

Lemma line_tree_inv : forall n v kids, line_tree (Tree n v kids) -> line_word n /\ line_value v /\ Forall line_tree kids.
Proof. intros n v kids H. inversion H; subst. auto. Qed.
Lemma line_tree_name : forall t, line_tree t -> line_word (name_of t) /\ line_value (value_of t).
Proof. intros [n v kids] H. apply line_tree_inv in H. split; apply H. Qed.

Lemma tree_items_good : forall dt cols t above p, writable dt cols above p t -> line_tree t -> p = "root" \/ (In p above /\ cell_name p /\ line_word p) ->
  (p = "root" -> ~ In (name_of t) ["section"; "header"; "include"; "declare"]) -> ~ (p = "datafile" /\ name_of t = "section") ->
  Forall (good cols) (tree_items cols p t).
Proof.
  intros dt cols t. induction t as [n v kids IH] using tree_ind'. intros above p W LT P Top Df.
  pose proof (writable_inv _ _ _ _ _ _ _ W) as (C & Na & Tv & Vn1 & Vn2 & ND & Vc & Dk & Wk). apply line_tree_inv in LT. destruct LT as (Lw & Lv & Lk).
  assert (Pn : p <> n) by (destruct P as [->|[P _]]; [intros <-; exact (cn_root _ C "" eq_refl)|intros ->; contradiction]).
  assert (Nr : n <> "root") by exact (cn_root _ C "").
  assert (Dk' : forall k, In k kids -> ~ (n = "datafile" /\ name_of k = "section")).
  { intros k I [E1 E2]. apply Dk. split; [exact E1|]. rewrite <- E2. apply in_map. exact I. }
  cbn [tree_items name_of] in *. set (L := filter childless kids) in *.
  assert (WL : Forall (fun k => cell_name (name_of k) /\ tidy (value_of k) /\ line_tree k /\ n <> name_of k /\ In k kids) L).
  { apply Forall_forall. intros k I. apply filter_In in I. destruct I as [I _]. rewrite Forall_forall in Wk, Lk. pose proof (Lk k I) as Lk1. pose proof (Wk k I) as Wk1. destruct k as [m x ks].
    pose proof (writable_inv _ _ _ _ _ _ _ Wk1) as (H1 & H2 & H3 & _). cbn [name_of value_of]. split; [exact H1|]. split; [exact H3|]. split; [exact Lk1|]. split; [intros E; apply H2; left; exact E|exact I]. }
  constructor; [|apply Forall_app; split].
  - split; cbn [it_p it_n it_x it_cells]; try assumption.
    + destruct P as [P|(_ & P & _)]; [left|right]; exact P.
    + destruct P as [P|(_ & _ & P)]; [left|right]; exact P.
    + apply tidy_texts. intros k I. rewrite Forall_forall in WL. apply WL, I.
    + eapply Forall_impl; [|apply (cell_texts_pairs _ cols L WL)]. intros [c x] (t & (H1 & H2 & H3 & _) & E1 & E2). cbn [fst snd] in *. rewrite E1, E2. destruct (line_tree_name _ H3). auto.
    + rewrite cell_texts_len. apply le_n.
  - apply Forall_map. apply Forall_forall. intros k I. unfold leftover in I. apply filter_In in I. destruct I as [I _]. rewrite Forall_forall in WL. destruct (WL k I) as (H1 & H2 & H3 & H4 & H5).
    destruct (line_tree_name _ H3) as [H6 H7]. split; cbn [it_p it_n it_x it_cells]; auto; try (right; assumption); try contradiction; [destruct cols; constructor|cbn; lia].
  - apply Forall_flat_map. rewrite Forall_forall in *. intros k I. destruct (childless k); [constructor|]. eapply IH; [exact I|apply Wk, I|apply Lk, I| |intros E; contradiction|apply Dk', I].
    right. split; [left; reflexivity|]. split; assumption.
Qed.

(** ** The lines of the rows *)

Definition split_line (cols : list string) (i : item) : list line :=
  LTerm (it_p i) (it_n i) (it_x i) [] :: map (fun cx => alone (lower (fst cx), snd cx)) (cell_pairs cols (it_cells i)).

Lemma item_reads : forall cols i, good cols i -> reads (item_row i) (item_line i) /\ usual (item_line i) /\ sound (item_line i)
  /\ reads [name_text (it_p i) (it_n i); it_x i] (LTerm (it_p i) (it_n i) (it_x i) []).
Proof.
  intros cols [p n x cells] [P PW C NW Npn Top Df Tx Vx Tc Cs Le]. cbn [it_p it_n it_x it_cells] in *. unfold item_row, item_line. cbn [it_p it_n it_x it_cells].
  pose proof (name_text_reads p n P C) as (CN & NT1 & NT2).
  assert (Rd : forall cells, Forall tidy cells -> reads (name_text p n :: x :: cells) (LTerm p n x cells)).
  { intros cs Tcs. set (row := name_text p n :: x :: cs).
    assert (Sc : map strip cs = cs) by (clear - Tcs; induction Tcs as [|c cs T _ IH]; [reflexivity|]; cbn; rewrite (tidy_strip _ T), IH; reflexivity).
    replace (LTerm p n x cs) with (LTerm p n (strip (nth 1 row "")) (map strip (skipn 2 row))) by (change (nth 1 row "") with x; change (skipn 2 row) with cs; rewrite (tidy_strip _ Tx), Sc; reflexivity).
    apply reads_term; [|exact CN|].
    - intros [B|(c & cs' & B & H)]; [discriminate B|]. injection B as <- <-. destruct H as [H|[w H]].
      + apply white_strip in H. contradiction.
      + apply trimmed_iff in H. exact (NT2 _ H).
    - intros E I. apply (Top E). destruct I as [<-|[<-|[]]]; cbn; auto. }
  split; [apply Rd, Tc|]. split; [|split; [split; [apply C|exact Df]|apply Rd; constructor]].
  cbn. split; [apply C|]. split; [apply C|]. split; [exact (cn_root _ C "")|]. split; [intros E; destruct P as [->|P]; [discriminate E|]; exfalso; apply (cn_elided _ P), E|].
  intros E I. apply (Top E). destruct I as [<-|[<-|[]]]; cbn; auto.
Qed.

Lemma title_column : forall c, cell_name (lower c) -> tidy (title c) /\ dot_free (title c) /\ lower (title c) = lower c.
Proof.
  intros c C. assert (L : lower (title c) = lower c).
  { apply title_lower. intros I. apply (cn_sharp _ C). clear C. induction c as [|a c IH]; cbn [lower list_ascii_of_string In] in *; [exact I|]. destruct I as [->|I]; [left; reflexivity|right; apply IH, I]. }
  split; [eapply tidy_via_lower; [symmetry; rewrite L; symmetry; apply (cn_lower _ C)|apply C]|]. split; [|exact L]. eapply dot_free_via_lower; [|apply (cn_dot _ C)]. rewrite L. symmetry. apply C.
Qed.
Lemma alone_reads : forall c x, cell_name (lower c) -> tidy x -> ~ In (lower c) ["section"; "header"] ->
  reads [("." ++ title c)%string; x] (alone (lower c, x)) /\ usual (alone (lower c, x)) /\ sound (alone (lower c, x)).
Proof.
  intros c x C T N. destruct (title_column c C) as (T1 & T2 & T3). unfold alone. cbn [fst snd]. split; [|split].
  - replace x with (strip (nth 1 [("." ++ title c)%string; x] "")) at 2 by (cbn [nth]; apply tidy_strip, T). change (@nil string) with (map strip (skipn 2 [("." ++ title c)%string; x])).
    apply reads_term; [| |discriminate].
    + intros [B|(a & cs & B & H)]; [discriminate B|]. injection B as <- _. destruct H as [H|(w & u & v & E & H1 & H2 & H3)].
      * inversion H as [|? ? H1 _]. discriminate H1.
      * destruct u as [|b u]; [discriminate E|]. injection E as <- _. inversion H1 as [|? ? H4 _]. discriminate H4.
    + cbn [hd]. rewrite <- T3. eapply (cell_elided _ "" (title c)); [reflexivity|constructor|exact T2|]. apply trimmed_iff. apply tidy_strip, T1.
  - cbn. split; [apply C|]. split; [apply C|]. split; [exact (cn_root _ C "")|]. split; [intros _; exact N|discriminate].
  - cbn. split; [apply C|]. intros [E _]. discriminate E.
Qed.

(** ** The names of the lines *)

Lemma lower_keeps : forall c s, In c (list_ascii_of_string s) -> In (lower_char c) (list_ascii_of_string (lower s)).
Proof. intros c s. induction s as [|a s IH]; cbn [list_ascii_of_string lower In]; [tauto|]. intros [->|I]; [left; reflexivity|right; apply IH, I]. Qed.
Lemma lower_fixed : forall c, In (nat_of_ascii c) [10; 11; 12; 13; 28; 29; 30; 133] \/ c = ":"%char -> lower_char c = c.
Proof.
  intros c H. assert (E : Ascii.eqb (lower_char c) c || negb (existsb (Nat.eqb (nat_of_ascii c)) [10; 11; 12; 13; 28; 29; 30; 133] || Ascii.eqb c ":") = true).
  { apply (all256_spec (fun c => Ascii.eqb (lower_char c) c || negb (existsb (Nat.eqb (nat_of_ascii c)) [10; 11; 12; 13; 28; 29; 30; 133] || Ascii.eqb c ":"))). vm_compute. reflexivity. }
  apply orb_true_iff in E. destruct E as [E|E]; [apply Ascii.eqb_eq, E|]. exfalso. apply negb_true_iff, orb_false_iff in E. destruct E as [E1 E2]. destruct H as [H|H].
  - assert (X : existsb (Nat.eqb (nat_of_ascii c)) [10; 11; 12; 13; 28; 29; 30; 133] = true) by (apply existsb_exists; eexists; split; [exact H|apply Nat.eqb_refl]). congruence.
  - subst c. discriminate E2.
Qed.
Lemma one_line_lower : forall s, one_line (lower s) -> one_line s.
Proof. intros s H c I B. apply (H c); [|exact B]. rewrite <- (lower_fixed c (or_introl B)). apply lower_keeps, I. Qed.
Lemma no_colon_lower : forall s, ~ In ":"%char (list_ascii_of_string (lower s)) -> ~ In ":"%char (list_ascii_of_string s).
Proof. intros s H I. apply H. apply lower_keeps in I. exact I. Qed.
Lemma line_word_lower : forall s, line_word (lower s) -> line_word s.
Proof.
  intros s (A & B & C). split; [apply one_line_lower, A|]. split; [apply no_colon_lower, B|]. intros y ->. apply (C (lower y)). reflexivity.
Qed.
Lemma in_app_s : forall c a b, In c (list_ascii_of_string (a ++ b)) -> In c (list_ascii_of_string a) \/ In c (list_ascii_of_string b).
Proof. intros c a b. induction a as [|d a IH]; cbn [append list_ascii_of_string In]; [tauto|]. intros [H|H]; [tauto|]. destruct (IH H); tauto. Qed.
Lemma line_word_dot : forall p n, line_word p -> line_word n -> line_word (p ++ "." ++ n).
Proof.
  intros p n (A & B & C) (A' & B' & C'). split; [rewrite !one_line_app; split; [exact A|]; split; [apply no_breaks_iff; reflexivity|exact A']|]. split.
  - intros I. apply in_app_s in I. destruct I as [I|I]; [exact (B I)|]. cbn [append list_ascii_of_string In] in I. destruct I as [I|I]; [discriminate I|exact (B' I)].
  - intros y E. destruct p as [|c1 [|c2 [|c3 [|c4 p]]]]; cbn [append] in E; try discriminate E. apply (C p). injection E as -> -> -> -> _. reflexivity.
Qed.
Lemma tidy_dot : forall a b, a <> "" -> b <> "" -> tidy a -> tidy b -> tidy (a ++ "." ++ b).
Proof.
  intros a b Na Nb A B. apply tidy_iff in A, B. apply tidy_iff. split.
  - destruct a as [|c a]; [congruence|]. apply A.
  - rewrite !ends_blank_app. cbn [append]. destruct b as [|c b]; [congruence|apply B].
Qed.
Lemma tidy_no_comment : forall s, tidy s -> (forall w, s <> String "#" w) -> ~ comment_line s.
Proof.
  intros s T H (u & w & U & E). destruct u as [|c u]; [exact (H w E)|]. inversion U as [|? ? U1 _]; subst. pose proof (proj1 T c (u ++ "#" ++ w)%string eq_refl). congruence.
Qed.
Definition spelled (p n : string) : string := if eqs p "root" then n else (p ++ "." ++ n)%string.
Lemma name_text_lower : forall p n, parent_ok p -> cell_name n -> lower (name_text p n) = spelled p n /\ spelled p n <> "section" \/ p = "root" /\ lower (name_text p n) = n.
Proof.
  intros p n P C. destruct (title_cell n C) as (T1 & T2 & T3 & T4 & T5). unfold name_text, spelled. destruct P as [->|P].
  - right. split; [reflexivity|]. rewrite replace_root by apply C. exact T3.
  - left. rewrite (proj2 (eqs_false p "root")) by exact (cn_root _ P ""). destruct (title_cell p P) as (S1 & S2 & S3 & S4 & S5). split.
    + rewrite replace_other by (apply P || apply C). unfold title. change (p ++ "." ++ n)%string with (p ++ String "." n)%string. rewrite title_dot. fold (title p). rewrite lower_app. cbn [lower]. rewrite S3, T3. reflexivity.
    + intros E. pose proof (has_dot_mid p n) as H. rewrite E in H. discriminate H.
Qed.
Lemma name_line : forall cols i, good cols i -> line_name (name_text (it_p i) (it_n i)) /\ tidy (name_text (it_p i) (it_n i)) /\ name_text (it_p i) (it_n i) <> "Section".
Proof.
  intros cols [p n x cells] [P PW C NW Npn Top Df Tx Vx Tc Cs Le]. cbn [it_p it_n it_x it_cells] in *.
  pose proof (name_text_reads p n P C) as (_ & NT1 & NT2).
  assert (W : line_word (name_text p n) /\ tidy (name_text p n)).
  { destruct (name_text_lower p n P C) as [[E _]|[-> E]].
    - unfold spelled in E. destruct PW as [->|PW].
      + change (eqs "root" "root") with true in E. cbv iota in E. split; [apply line_word_lower; rewrite E; exact NW|]. eapply tidy_via_lower; [|apply (cn_tidy _ C)]. rewrite E. apply C.
      + destruct P as [->|P]; [change (eqs "root" "root") with true in E; cbv iota in E; split; [apply line_word_lower; rewrite E; exact NW|]; eapply tidy_via_lower; [|apply (cn_tidy _ C)]; rewrite E; apply C|].
        rewrite (proj2 (eqs_false p "root")) in E by exact (cn_root _ P ""). split; [apply line_word_lower; rewrite E; apply line_word_dot; assumption|].
        eapply tidy_via_lower; [|apply (tidy_dot p n); [apply P|apply C|apply P|apply C]]. rewrite E. rewrite lower_app. cbn [append lower]. rewrite (cn_lower _ P), (cn_lower _ C). reflexivity.
    - split; [apply line_word_lower; rewrite E; exact NW|]. eapply tidy_via_lower; [|apply (cn_tidy _ C)]. rewrite E. apply C. }
  destruct W as [W T]. split; [|split; [exact T|]].
  - destruct W as (A & B & D). split; [exact A|]. split; [exact B|]. split; [exact D|]. apply tidy_no_comment; [exact T|]. rewrite (tidy_strip _ T) in NT2. exact NT2.
  - intros E. destruct (name_text_lower p n P C) as [[F G]|[-> F]].
    + rewrite E in F. apply G. symmetry. exact F.
    + rewrite E in F. apply (Top eq_refl). left. exact F.
Qed.
Lemma column_line : forall c, cell_name (lower c) -> line_word (lower c) ->
  line_name ("    ." ++ title c) /\ trimmed ("    ." ++ title c) ("." ++ title c) /\ ("    ." ++ title c)%string <> "Section".
Proof.
  intros c C W. destruct (title_column c C) as (T1 & T2 & T3). rewrite <- T3 in W. apply line_word_lower in W. destruct W as (A & B & D).
  assert (Ne : title c <> "") by (intros E; rewrite E in T3; apply (cn_some _ C); rewrite <- T3; reflexivity).
  split; [|split; [|discriminate]].
  - split; [change (one_line ("    ." ++ title c)); apply one_line_app; split; [apply no_breaks_iff; reflexivity|exact A]|]. split.
    + intros I. cbn [append list_ascii_of_string In] in I. repeat (destruct I as [I|I]; [discriminate I|]). exact (B I).
    + split; [intros y E; discriminate E|]. intros X. apply is_comment_spec in X. discriminate X.
  - exists "    ", "". rewrite app_s_nil. split; [reflexivity|]. split; [repeat constructor|]. split; [constructor|].
    apply tidy_iff. apply tidy_iff in T1. split; [reflexivity|]. rewrite ends_blank_app. destruct (title c); [congruence|apply T1].
Qed.

Lemma value_line : forall v x, SpecRound.text_of v x -> tidy x -> line_value x -> line_text (cell_text v) [x].
Proof. intros v x E T (A & B & C). replace (cell_text v) with x by (destruct E; reflexivity). apply line_text_plain; assumption. Qed.
Lemma trimmed_self : forall s, tidy s -> trimmed s s.
Proof. intros s T. apply trimmed_iff, tidy_strip, T. Qed.

Lemma written_app_l : forall l r l' r', SpecText.written cell_text l r -> SpecText.written cell_text l' r' -> SpecText.written cell_text (l ++ l') (r ++ r').
Proof. intros l r l' r' H K. induction H; cbn [app]; [exact K|apply written_section; assumption|apply written_term; assumption]. Qed.
Lemma pairs_tidy : forall cols cells, Forall tidy cells -> Forall (fun cx => tidy (snd cx)) (cell_pairs cols cells).
Proof.
  intros cols. induction cols as [|c cols IH]; intros cells T; [constructor|]. destruct T as [|x cells T1 T2]; [constructor|]. cbn [cell_pairs]. destruct (eqs x ""); [apply IH, T2|constructor; [exact T1|apply IH, T2]].
Qed.
Lemma row_written : forall cols i l, good cols i -> Forall2 pair_like l (row_pairs cols (item_row i)) -> SpecText.written cell_text l (row_split cols (item_row i)).
Proof.
  intros cols i l G F. destruct (name_line _ _ G) as (N1 & N2 & N3). pose proof (gr_cs _ _ G) as Cs. pose proof (pairs_tidy cols _ (gr_tc _ _ G)) as Tc.
  unfold row_pairs, row_split in *. cbn [item_row hd nth skipn] in *. inversion F as [|[n v] ? l' ? [E1 E2] F2]; subst. cbn [fst snd] in *. subst n.
  apply written_term; [exact N3| |].
  - exists (name_text (it_p i) (it_n i)), [it_x i]. split; [exact N1|]. split; [apply trimmed_self, N2|]. split; [apply value_line; [exact E2|apply G|apply G]|reflexivity].
  - clear F. revert l' F2. induction Cs as [|[c x] cs (C1 & C2 & C3) _ IH]; intros l' F2; cbn [map] in *; inversion F2 as [|[n v'] ? l'' ? [E3 E4] F3]; subst; [constructor|]. cbn [fst snd] in *. subst n.
    inversion Tc as [|? ? T1 T2]; subst. cbn [snd] in T1. destruct (column_line c C1 C2) as (M1 & M2 & M3). apply written_term; [exact M3| |apply IH; assumption].
    exists ("." ++ title c)%string, [x]. split; [exact M1|]. split; [exact M2|]. split; [apply value_line; assumption|reflexivity].
Qed.

Lemma escape_plain : forall v, ~ In "|"%char (list_ascii_of_string v) -> escape v = v.
Proof.
  intros v H. induction v as [|c v IH]; [reflexivity|]. cbn [list_ascii_of_string In] in H. cbn [escape]. destruct (Ascii.eqb c "|") eqn:E; [apply Ascii.eqb_eq in E; subst; tauto|]. f_equal. apply IH. tauto.
Qed.
Lemma join_one_line : forall l, Forall one_line l -> one_line (join "|" l).
Proof.
  intros l F. induction F as [|x l H F IH]; [intros c []|]. destruct l as [|y l]; [exact H|]. change (join "|" (x :: y :: l)) with (x ++ "|" ++ join "|" (y :: l))%string.
  rewrite !one_line_app. split; [exact H|]. split; [apply no_breaks_iff; reflexivity|exact IH].
Qed.
Lemma join_ends : forall l, Forall tidy l -> ends_blank (join "|" l) = false.
Proof.
  intros l F. induction F as [|x l H F IH]; [reflexivity|]. apply tidy_iff in H. destruct l as [|y l]; [apply H|]. change (join "|" (x :: y :: l)) with (x ++ String "|" (join "|" (y :: l)))%string.
  rewrite ends_blank_app. change (String "|" (join "|" (y :: l))) with ("|" ++ join "|" (y :: l))%string. rewrite ends_blank_app. cbn [append]. destruct (join "|" (y :: l)); [reflexivity|exact IH].
Qed.
Lemma heading_written : forall nm cols l, nm <> "" -> tidy nm -> line_value nm -> Forall tidy cols -> Forall line_value cols ->
  Forall2 pair_like l [("Section", join "|" (nm :: cols))] -> SpecText.written cell_text l [[""]; "Section" :: nm :: cols].
Proof.
  intros nm cols l Ne T V Tc Vc F. inversion F as [|[n v] ? l' ? [E1 E2] F2]; subst. inversion F2; subst. cbn [fst snd] in *. subst n. apply written_section; [|constructor].
  exists "Section", (nm :: cols). split; [apply line_nameb_ok; reflexivity|]. split; [apply trimmed_iff; reflexivity|]. split; [|reflexivity]. cbn [snd].
  assert (Ev : cell_text v = join "|" (nm :: cols)) 
    by (assert (T2 : forall a b, SpecRound.text_of a b -> cell_text a = b) by (intros a b []; reflexivity); apply T2; exact E2). rewrite Ev.
  assert (Va : Forall line_value (nm :: cols)) by (constructor; assumption).
  split; [discriminate|]. split; [apply join_one_line; eapply Forall_impl; [|exact Va]; intros a H; apply H|]. split.
  - apply tidy_iff. split; [|apply join_ends; constructor; assumption]. apply tidy_iff in T. destruct nm as [|c nm]; [congruence|]. destruct cols; apply T.
  - split; [|eapply Forall_impl; [|exact Va]; intros a H; apply H]. f_equal. clear - Va. induction Va as [|a l (_ & H & _) _ IH]; [reflexivity|]. cbn [map]. rewrite escape_plain by exact H. f_equal. exact IH.
Qed.

(** ** The pairs of a document *)

Definition sect_items (c : sect) : list item := flat_map (tree_items (sc_cols c) "root") (sc_terms c).
Lemma sect_items_rows : forall c, flat_map (tree_rows (sc_cols c) "root") (sc_terms c) = map item_row (sect_items c).
Proof. intros c. unfold sect_items. rewrite map_flat_map. apply flat_map_ext_in. apply Forall_forall. intros t _. apply tree_items_rows. Qed.
Lemma sect_items_good : forall dt c, Forall (writable_top dt (sc_cols c)) (sc_terms c) -> line_sect c -> Forall (good (sc_cols c)) (sect_items c).
Proof.
  intros dt c W L. apply Forall_flat_map. pose proof (ls_terms _ L) as Lt. rewrite Forall_forall in *. intros t I. destruct (W t I) as [W1 W2].
  eapply tree_items_good; [exact W1|apply Lt, I|left; reflexivity|intros _; exact W2|intros [E _]; discriminate E].
Qed.
Lemma terms_written : forall s dt cols i ls, (forall q, value_name (s_doc s) q = value_name_in dt q) -> columns_of (tget i s) = cols ->
  forall terms xs, Forall2 (shows s "root") terms xs -> Forall (writable_top dt cols) terms ->
  Forall2 (fun t b => term_rows (heap_fuel (s_heap s)) (s_heap s) (s_doc s) t = Ok b) xs ls ->
  SpecRound.written (map print_row (concat (map (expand_row (s_doc s) (tget i s)) (concat ls)))) (flat_map (tree_rows cols "root") terms).
Proof.
  intros s dt cols i ls VN Ec terms xs St. revert ls. induction St as [|t x ts xs S1 S2 IH]; intros ls W M; inversion M as [|? l ? ls' M1 M2]; subst; [constructor|].
  inversion W as [|? ? [W1 W1'] W2]; subst. cbn [concat flat_map]. rewrite map_app, concat_app, map_app. apply PrintFacts.written_app; [|apply IH; auto].
  eapply term_rows_texts with (p := "root"); try eassumption; reflexivity.
Qed.
Lemma rmap_rel : forall {A B C} (f : A -> res (list B)) (P : A -> C -> Prop) (Q : B -> string * string -> Prop) (g : C -> list (string * string)) l texts m,
  (forall a c b, P a c -> f a = Ok b -> Forall2 Q b (g c)) -> Forall2 P l texts -> rmap f l = Ok m -> Forall2 Q (concat m) (flat_map g texts).
Proof.
  intros A B C f P Q g l texts m H F. revert m. induction F as [|a c l texts F1 F2 IH]; intros m M; cbn [rmap] in M; [injection M as <-; constructor|].
  destruct (f a) as [b|] eqn:E; [|discriminate M]. cbn [rbind] in M. destruct (rmap f l) as [m'|]; [|discriminate M]. injection M as <-. cbn [concat flat_map]. apply Forall2_app; [eapply H; eassumption|apply IH; reflexivity].
Qed.
Lemma Forall2_map_l : forall {A B C} (f : A -> B) (P : B -> C -> Prop) l m, Forall2 P (map f l) m -> Forall2 (fun a c => P (f a) c) l m.
Proof. intros A B C f P l. induction l as [|a l IH]; intros m H; inversion H; subst; constructor; auto. Qed.
Lemma Forall2_and_r : forall {A B} (P : A -> B -> Prop) (Q : B -> Prop) l m, Forall2 P l m -> Forall Q m -> Forall2 (fun a b => P a b /\ Q b) l m.
Proof. intros A B P Q l m F. induction F; intros G; inversion G; subst; constructor; auto. Qed.

Lemma section_pairs : forall s dt kv c l, (forall q, value_name (s_doc s) q = value_name_in dt q) -> shows_section s kv c -> Forall (writable_top dt (sc_cols c)) (sc_terms c) -> line_sect c ->
  section_lines (s_heap s) (s_doc s) (snd kv) = Ok l -> Forall2 pair_like l (sect_pairs c).
Proof.
  intros s dt [k i] c l VN (_ & Sv & Sc & St) W L H. cbn [snd] in *. unfold section_lines in H. fold (tget i s) in H. cbv zeta in H. rewrite Sv in H.
  destruct (if veq (VStr (sc_name c)) (VStr "Root") then _ else _) as [hd0|] eqn:Hd; [|discriminate H]. cbn [rbind] in H.
  destruct (section_rows (s_heap s) (s_doc s) i) as [rows|] eqn:R; [|discriminate H]. cbn [rbind] in H. destruct (rmap (row_lines (tget i s)) rows) as [m|] eqn:M; [|discriminate H]. injection H as <-.
  unfold sect_pairs. apply Forall2_app.
  - unfold sect_head. cbn [veq] in Hd. change (sec_property_names (tget i s)) with (columns_of (tget i s)) in Hd. rewrite Sc in Hd. destruct (eqs (sc_name c) "Root"); injection Hd as <-; [constructor|]. constructor; [split; [reflexivity|constructor]|constructor].
  - unfold section_rows in R. fold (tget i s) in R. destruct (rmap _ (t_terms (tget i s))) as [ls|] eqn:T; [|discriminate R]. injection R as <-. apply rmap_Forall2 in T.
    pose proof (terms_written s dt (sc_cols c) i ls VN Sc _ _ St W T) as Wr.
    assert (Td : Forall (fun row => Forall tidy (skipn 2 row)) (flat_map (tree_rows (sc_cols c) "root") (sc_terms c))).
    { rewrite sect_items_rows. apply Forall_map. eapply Forall_impl; [|apply (sect_items_good dt c W L)]. intros it G. apply G. }
    apply (Forall2_and_r _ _ _ _ Wr) in Td. apply Forall2_map_l in Td. rewrite <- Sc. eapply rmap_rel; [|rewrite Sc; exact Td|exact M].
    intros row texts b [P Q] E. eapply row_lines_texts; eassumption.
Qed.
Lemma doc_pairs : forall s dt decl o l, (forall q, value_name (s_doc s) q = value_name_in dt q) -> shows_doc s o -> writable_doc dt decl o -> Forall line_sect o ->
  doc_lines s = Ok l -> Forall2 pair_like l (flat_map sect_pairs o).
Proof.
  intros s dt decl o l VN Sh W L H. apply writable_all in W. unfold doc_lines in H. destruct (rmap _ _) as [m|] eqn:M; [|discriminate H]. injection H as <-.
  pose proof (Forall2_and_r _ _ _ _ (Forall2_and_r _ _ _ _ Sh W) L) as F. eapply rmap_rel; [|exact F|exact M]. intros kv c b [[A B] C] E. eapply section_pairs; eassumption.
Qed.
Lemma flat_written : forall {C} (g : C -> list (string * string)) (h : C -> list (list string)) (P : C -> Prop),
  (forall c l, P c -> Forall2 pair_like l (g c) -> SpecText.written cell_text l (h c)) ->
  forall cs l, Forall P cs -> Forall2 pair_like l (flat_map g cs) -> SpecText.written cell_text l (flat_map h cs).
Proof.
  intros C g h P H cs. induction cs as [|c cs IH]; intros l F K; cbn [flat_map] in *; [inversion K; subst; constructor|]. inversion F as [|? ? F1 F2]; subst.
  apply Forall2_app_inv_r in K. destruct K as (l1 & l2 & K1 & K2 & ->). apply written_app_l; [apply H; assumption|apply IH; assumption].
Qed.
Lemma flat_map_map : forall {A B C} (f : A -> B) (g : B -> list C) l, flat_map g (map f l) = flat_map (fun a => g (f a)) l.
Proof. intros A B C f g l. induction l as [|a l IH]; [reflexivity|]. cbn. rewrite IH. reflexivity. Qed.
Lemma sect_written : forall dt decl c l, Forall (writable_top dt (sc_cols c)) (sc_terms c) -> sc_name c = "Root" \/ writable_section dt decl c -> line_sect c ->
  Forall2 pair_like l (sect_pairs c) -> SpecText.written cell_text l (sect_split c).
Proof.
  intros dt decl c l W N L F. unfold sect_pairs in F. apply Forall2_app_inv_r in F. destruct F as (l1 & l2 & F1 & F2 & ->). unfold sect_split. apply written_app_l.
  - unfold sect_head in F1. eqs_cases (sc_name c) "Root"; [inversion F1; subst; constructor|]. destruct N as [N|N]; [congruence|].
    apply heading_written; [apply N|apply N|apply L|apply N|apply L|exact F1].
  - rewrite sect_items_rows in F2 |- *. rewrite (flat_map_map item_row (row_pairs (sc_cols c))) in F2. rewrite (flat_map_map item_row (row_split (sc_cols c))). eapply (flat_written (fun i => row_pairs (sc_cols c) (item_row i)) (fun i => row_split (sc_cols c) (item_row i))); [|apply (sect_items_good dt c W L)|exact F2]. intros i l G K. apply row_written; assumption.
Qed.
Lemma doc_written : forall dt decl o l, writable_doc dt decl o -> Forall line_sect o -> Forall2 pair_like l (flat_map sect_pairs o) -> SpecText.written cell_text l (flat_map sect_split o).
Proof.
  intros dt decl o l W L F. pose proof (writable_all _ _ _ W) as Wa.
  assert (N : Forall (fun c => sc_name c = "Root" \/ writable_section dt decl c) o).
  { destruct W as [ts rest H1 H2 H3]. constructor; [left; reflexivity|]. eapply Forall_impl; [|exact H2]. intros c H. right. exact H. }
  eapply (flat_written sect_pairs sect_split (fun c => Forall (writable_top dt (sc_cols c)) (sc_terms c) /\ (sc_name c = "Root" \/ writable_section dt decl c) /\ line_sect c)); [|clear - Wa N L|exact F].
  - intros c l0 (A & B & C) K. eapply sect_written; eassumption.
  - rewrite Forall_forall in *. intros c I. split; [apply Wa, I|]. split; [apply N, I|apply L, I].
Qed.

(** ** The lines of the document and the lines read *)

Lemma cells_pairs : forall cs pre xs, Forall (fun cx => fst cx <> "") (cell_pairs cs xs) -> List.length xs <= List.length cs ->
  cells_from (pre ++ cs) (List.length pre) xs = map (fun cx => (lower (fst cx), snd cx)) (cell_pairs cs xs).
Proof.
  intros cs. induction cs as [|c cs IH]; intros pre xs F L; [destruct xs; [reflexivity|cbn in L; lia]|]. destruct xs as [|x xs]; [reflexivity|]. cbn [cells_from cell_pairs] in *.
  assert (N : cells_from (pre ++ c :: cs) (S (List.length pre)) xs = cells_from ((pre ++ [c]) ++ cs) (List.length (pre ++ [c])) xs).
  { rewrite <- app_assoc. cbn [app]. rewrite app_length. cbn [List.length]. rewrite Nat.add_1_r. reflexivity. }
  cbn [List.length] in L. rewrite N. destruct (eqs x ""); [apply IH; [exact F|lia]|]. inversion F as [|? ? F1 F2]; subst. cbn [map fst snd]. rewrite IH by (assumption || lia). f_equal. f_equal.
  unfold column_name. rewrite nth_error_app2, Nat.sub_diag by apply le_n. cbn [nth_error]. rewrite (proj2 (eqs_false c "")) by exact F1. reflexivity.
Qed.
Lemma item_cells : forall cols i, good cols i -> map alone (cells_from cols 0 (it_cells i)) = map (fun cx => alone (lower (fst cx), snd cx)) (cell_pairs cols (it_cells i)).
Proof.
  intros cols i G. change (cells_from cols 0 (it_cells i)) with (cells_from ([] ++ cols) (List.length (@nil string)) (it_cells i)). rewrite cells_pairs; [rewrite map_map; reflexivity| |apply G].
  eapply Forall_impl; [|apply (gr_cs _ _ G)]. intros [c x] (C & _). cbn [fst] in *. intros ->. exact (cn_some _ C eq_refl).
Qed.
Lemma item_elided : forall cols i, good cols i -> eqs (it_p i) current_parent = false.
Proof. intros cols i G. apply eqs_false. destruct (gr_parent _ _ G) as [->|P]; [discriminate|apply P]. Qed.
Lemma items_view : forall decl cols items v, Forall (good cols) items -> let v' := fold_left (next decl) (map item_line items) v in
  v_cols v' = v_cols v /\ v_secs v' = v_secs v /\ incl (map fst (v_last v)) (map fst (v_last v')).
Proof.
  intros decl cols items. induction items as [|i items IH]; intros v F; cbn [map fold_left]; [cbv zeta; repeat split; intros x I; exact I|]. inversion F as [|? ? G F2]; subst.
  cbv zeta in *. destruct (IH (next decl v (item_line i)) F2) as (A & B & C). rewrite A, B. unfold item_line in *. cbn [next] in *. rewrite (item_elided _ _ G) in *. cbn [v_cols v_secs v_last] in *.
  split; [reflexivity|]. split; [reflexivity|]. intros x I. apply C. right. exact I.
Qed.
Lemma spread_items : forall decl cols items v rest rest', Forall (good cols) items -> v_cols v = cols ->
  spread decl (fold_left (next decl) (map item_line items) v) rest rest' ->
  spread decl v (map item_line items ++ rest) (flat_map (split_line cols) items ++ rest').
Proof.
  intros decl cols items. induction items as [|i items IH]; intros v rest rest' F E S; [exact S|]. inversion F as [|? ? G F2]; subst. cbn [map app flat_map fold_left] in *.
  unfold split_line at 1. rewrite <- (item_cells _ _ G). rewrite <- app_assoc. cbn [app].
  rewrite <- app_comm_cons || idtac. apply spread_cells; [intros X; pose proof (item_elided _ _ G) as Y; apply eqs_false in Y; contradiction|].
  apply (IH (next decl v (item_line i))); [exact F2| |exact S]. unfold item_line. cbn [next]. rewrite (item_elided _ _ G). reflexivity.
Qed.

Definition sect_lines (c : sect) : list line := ((if eqs (sc_name c) "Root" then [] else [LBlank; LSection (sc_name c) (sc_cols c)]) ++ map item_line (sect_items c))%list.
Definition sect_lines' (c : sect) : list line := ((if eqs (sc_name c) "Root" then [] else [LBlank; LSection (sc_name c) (sc_cols c)]) ++ flat_map (split_line (sc_cols c)) (sect_items c))%list.

Lemma find_app_none : forall {A} (f : A -> bool) l m, find f l = None -> find f (l ++ m) = find f m.
Proof. intros A f l m. induction l as [|a l IH]; [reflexivity|]. cbn [find app]. destruct (f a); [discriminate|exact IH]. Qed.

Section Doc.
Variables (dt : dict tdecl) (decl : string -> list string).

Lemma spread_sects : forall rest v, Forall (writable_section dt decl) rest -> Forall line_sect rest -> NoDup ("root" :: map (fun c => lower (sc_name c)) rest) ->
  (forall c, In c rest -> assoc (lower (sc_name c)) (v_secs v) = None) ->
  spread decl v (flat_map sect_lines rest) (flat_map sect_lines' rest).
Proof.
  intros rest. induction rest as [|c rest IH]; intros v W L N A; [constructor|]. inversion W as [|? ? W1 W2]; subst. inversion L as [|? ? L1 L2]; subst.
  cbn [map] in N. apply NoDup_cons_iff in N. destruct N as [Nr N]. pose proof N as N'. apply NoDup_cons_iff in N. destruct N as [Nc N].
  assert (Rn : lower (sc_name c) <> "root") by (intros E; apply Nr; left; exact E).
  assert (Rt : eqs (sc_name c) "Root" = false) by (apply eqs_false; intros E; apply Rn; rewrite E; reflexivity).
  assert (St : strip (sc_name c) = sc_name c) by (apply tidy_strip, (wsc_name _ _ _ W1)).
  cbn [flat_map]. unfold sect_lines at 1, sect_lines' at 1. rewrite Rt. cbn [app]. rewrite <- !app_assoc || idtac. apply spread_same. apply spread_same.
  set (v2 := next decl (next decl v LBlank) (LSection (sc_name c) (sc_cols c))).
  assert (V2 : v_cols v2 = sc_cols c /\ forall c', In c' rest -> assoc (lower (sc_name c')) (v_secs v2) = None).
  { unfold v2. cbn [next]. rewrite St, (proj2 (eqs_false _ "root")) by exact Rn. cbn [v_cols v_secs v_line v_last v_tops]. rewrite (A c (or_introl eq_refl)).
    assert (Ow : match sc_cols c with [] => map strip (decl (sc_name c)) | _ :: _ => sc_cols c end = sc_cols c).
    { destruct (sc_cols c) eqn:E; [|reflexivity]. rewrite (wsc_decl _ _ _ W1 E). reflexivity. }
    rewrite Ow. split; [reflexivity|]. intros c' I. unfold assoc. assert (A' := A c' (or_intror I)). unfold assoc in A'.
    destruct (find _ (v_secs v)) eqn:E in A'; [discriminate A'|]. clear A'. rewrite (find_app_none _ _ _ E). cbn [find fst]. rewrite (proj2 (eqs_false (lower (sc_name c)) (lower (sc_name c')))); [reflexivity|].
    intros X. apply Nc. rewrite X. apply (in_map (fun c => lower (sc_name c)) _ _ I). }
  destruct V2 as [V2 V3]. pose proof (sect_items_good dt c (wsc_terms _ _ _ W1) L1) as G.
  apply spread_items; [exact G|exact V2|]. apply IH; try assumption.
  - apply NoDup_cons_iff. split; [intros I; apply Nr; right; exact I|exact N].
  - destruct (items_view decl _ _ v2 G) as (_ & E & _). rewrite E. exact V3.
Qed.
End Doc.

Lemma heading_reads : forall nm cols, tidy nm -> Forall tidy cols -> reads ("Section" :: nm :: cols) (LSection nm cols).
Proof.
  intros nm cols T Tc. assert (Sc : map strip cols = cols) by (clear - Tc; induction Tc as [|c cs T _ IH]; [reflexivity|]; cbn; rewrite (tidy_strip _ T), IH; reflexivity).
  replace (LSection nm cols) with (LSection (nth 1 ("Section" :: nm :: cols) "") (map strip (skipn 2 ("Section" :: nm :: cols)))) by (cbn [nth skipn]; rewrite Sc; reflexivity).
  apply reads_section.
  - intros [B|(c & cs & B & H)]; [discriminate B|]. injection B as <- _. destruct H as [H|(w & H)].
    + inversion H as [|? ? H1 _]. discriminate H1.
    + apply trimmed_iff in H. discriminate H.
  - apply (cell_plain "Section" "Section"); [apply dot_free_iff; reflexivity|apply trimmed_iff; reflexivity].
Qed.
Lemma blank_reads : reads [""] LBlank.
Proof. apply reads_blank. right. exists "", []. split; [reflexivity|]. left. constructor. Qed.

Definition speaks (row : list string) (l : line) : Prop := reads row l /\ usual l /\ sound l.
Lemma speaks_means : forall rows ls, Forall2 speaks rows ls -> means rows ls /\ Forall sound ls.
Proof.
  intros rows ls F. induction F as [|r l rows ls (A & B & C) _ [[IH1 IH2] IH3]]; [repeat constructor|]. split; [split|]; constructor; assumption.
Qed.
Lemma split_speaks : forall cols i, good cols i -> ~ In "section" (map lower cols) -> ~ In "header" (map lower cols) -> Forall2 speaks (row_split cols (item_row i)) (split_line cols i).
Proof.
  intros cols i G Ns Nh. destruct (item_reads _ _ G) as (_ & U & S & R). unfold row_split, split_line. cbn [item_row hd nth skipn]. constructor; [split; [exact R|split; assumption]|].
  pose proof (gr_cs _ _ G) as Cs. pose proof (pairs_tidy cols _ (gr_tc _ _ G)) as Tc.
  assert (Ic : Forall (fun cx => In (fst cx) cols) (cell_pairs cols (it_cells i))).
  { clear. generalize (it_cells i). intros cells. revert cells. assert (H : forall cs cells, incl cs cols -> Forall (fun cx => In (fst cx) cols) (cell_pairs cs cells)); [|intros; apply H; intros x I; exact I].
    intros cs. induction cs as [|c cs IH]; intros cells I; [constructor|]. destruct cells as [|x cells]; [constructor|]. cbn [cell_pairs]. assert (I' : incl cs cols) by (intros y J; apply I; right; exact J).
    destruct (eqs x ""); [apply IH, I'|constructor; [apply I; left; reflexivity|apply IH, I']]. }
  induction Cs as [|[c x] cs (C1 & _ & _) _ IH]; cbn [map]; [constructor|]. inversion Tc as [|? ? T1 T2]; subst. inversion Ic as [|? ? I1 I2]; subst. cbn [fst snd] in *. constructor; [|apply IH; assumption].
  apply alone_reads; [exact C1|exact T1|]. intros [E|[E|[]]]; [apply Ns|apply Nh]; rewrite E; apply in_map; exact I1.
Qed.
Lemma flat_speaks : forall {C} (g : C -> list (list string)) (h : C -> list line) (P : C -> Prop), (forall c, P c -> Forall2 speaks (g c) (h c)) -> forall cs, Forall P cs -> Forall2 speaks (flat_map g cs) (flat_map h cs).
Proof. intros C g h P H cs F. induction F as [|c cs F1 F2 IH]; cbn [flat_map]; [constructor|]. apply Forall2_app; [apply H, F1|exact IH]. Qed.

Section Doc2.
Variables (dt : dict tdecl) (decl : string -> list string).
Definition sect_fine (c : sect) : Prop := (sc_name c = "Root" /\ sc_cols c = [] \/ writable_section dt decl c) /\ Forall (writable_top dt (sc_cols c)) (sc_terms c) /\ line_sect c.
Lemma doc_fine : forall o, writable_doc dt decl o -> Forall line_sect o -> Forall sect_fine o.
Proof.
  intros o W L. pose proof (writable_all _ _ _ W) as Wa.
  assert (N : Forall (fun c => sc_name c = "Root" /\ sc_cols c = [] \/ writable_section dt decl c) o).
  { destruct W as [ts rest H1 H2 H3]. constructor; [left; split; reflexivity|]. eapply Forall_impl; [|exact H2]. intros c H. right. exact H. }
  rewrite Forall_forall in *. intros c I. split; [apply N, I|]. split; [apply Wa, I|apply L, I].
Qed.
Lemma heading_speaks : forall c, sect_fine c -> Forall2 speaks (if eqs (sc_name c) "Root" then [] else [[""]; "Section" :: sc_name c :: sc_cols c]) (if eqs (sc_name c) "Root" then [] else [LBlank; LSection (sc_name c) (sc_cols c)]).
Proof.
  intros c ([[N _]|N] & _ & _); [rewrite N; constructor|]. destruct (eqs (sc_name c) "Root"); [constructor|]. constructor; [split; [exact blank_reads|split; exact Logic.I]|]. constructor; [|constructor].
  destruct (wsc_name _ _ _ N) as [T Ne]. split; [apply heading_reads; [exact T|apply N]|]. split; [apply (wsc_usual _ _ _ N)|exact Ne].
Qed.
Lemma usual_cols : forall c, sect_fine c -> ~ In "section" (map lower (sc_cols c)).
Proof. intros c ([[_ E]|N] & _ & _); [rewrite E; intros []|apply (wsc_usual _ _ _ N)]. Qed.
Lemma doc_speaks : forall o, Forall sect_fine o -> Forall2 speaks (doc_texts o) (flat_map sect_lines o).
Proof.
  intros o F. unfold doc_texts. eapply flat_speaks; [|exact F]. intros c S. unfold sect_rows, sect_lines. apply Forall2_app; [apply heading_speaks, S|]. rewrite sect_items_rows.
  destruct S as (_ & W & L). pose proof (sect_items_good dt c W L) as G. induction G as [|i items G _ IH]; cbn [map]; [constructor|]. constructor; [|exact IH]. destruct (item_reads _ _ G) as (A & B & C & _). split; [exact A|split; assumption].
Qed.
Lemma doc_speaks' : forall o, Forall sect_fine o -> Forall2 speaks (flat_map sect_split o) (flat_map sect_lines' o).
Proof.
  intros o F. eapply flat_speaks; [|exact F]. intros c S. unfold sect_split, sect_lines'. apply Forall2_app; [apply heading_speaks, S|]. rewrite sect_items_rows.
  rewrite (flat_map_map item_row (row_split (sc_cols c))). pose proof (usual_cols c S) as U. destruct S as (_ & W & L). eapply flat_speaks; [|apply (sect_items_good dt c W L)]. intros i G. apply split_speaks; [exact G|exact U|apply L].
Qed.

(** ** Every row has its parent *)

Lemma fits_mono : forall ls v v', incl (map fst (v_last v)) (map fst (v_last v')) -> fits decl v ls -> fits decl v' ls.
Proof.
  intros ls. induction ls as [|l ls IH]; intros v v' I F; [exact Logic.I|]. cbn [fits] in *. destruct F as [F1 F2]. split.
  - destruct l; try exact F1. destruct F1 as [F1|[F1|[F1|F1]]]; auto.
  - eapply IH; [|exact F2]. destruct l as [|n c|n c|p r x c]; cbn [next]; try exact I; [destruct (eqs _ _); exact I|]. destruct (eqs p current_parent); cbn [v_last map fst]; [exact I|]. intros y [<-|J]; [left; reflexivity|right; apply I, J].
Qed.
Lemma fits_app : forall a b v, fits decl v a -> fits decl (fold_left (next decl) a v) b -> fits decl v (a ++ b).
Proof. intros a. induction a as [|l a IH]; intros b v F G; [exact G|]. cbn [fits app fold_left] in *. destruct F as [F1 F2]. split; [exact F1|apply IH; assumption]. Qed.
Lemma fits_flat : forall {C} cols (f : C -> list item) cs v, Forall (fun c => Forall (good cols) (f c) /\ forall v', incl (map fst (v_last v)) (map fst (v_last v')) -> fits decl v' (map item_line (f c))) cs ->
  fits decl v (map item_line (flat_map f cs)).
Proof.
  intros C cols f cs. induction cs as [|c cs IH]; intros v F; [exact Logic.I|]. inversion F as [|? ? [G F1] F2]; subst. cbn [flat_map]. rewrite map_app. apply fits_app; [apply F1; intros x I; exact I|].
  destruct (items_view decl cols (f c) v G) as (_ & _ & Iv). apply IH. eapply Forall_impl; [|exact F2]. intros d [H1 H2]. split; [exact H1|]. intros v' J. apply H2. intros y Y. apply J, Iv, Y.
Qed.
Lemma fits_tree : forall cols t p v, Forall (good cols) (tree_items cols p t) -> p = "root" \/ In p (map fst (v_last v)) -> fits decl v (map item_line (tree_items cols p t)).
Proof.
  intros cols t. induction t as [n x kids IH] using tree_ind'. intros p v G P. cbn [tree_items map] in *. inversion G as [|? ? G1 G2]; subst. apply Forall_app in G2. destruct G2 as [G2 G3]. cbn [fits].
  pose proof (item_elided _ _ G1) as El. cbn [it_p] in El. split; [unfold item_line; cbn [it_p it_n]; tauto|]. set (v1 := next decl v _).
  assert (I1 : In n (map fst (v_last v1))) by (unfold v1, item_line; cbn [it_p it_n it_x it_cells next]; rewrite El; left; reflexivity). clearbody v1. rewrite map_app. apply fits_app.
  - set (lo := leftover cols (filter childless kids)) in *. clearbody lo. assert (E : map (fun k => mk_item n (name_of k) (value_of k) []) lo = flat_map (fun k => [mk_item n (name_of k) (value_of k) []]) lo) by (symmetry; apply flat_map_single).
    rewrite E in *. eapply (fits_flat cols). apply Forall_flat_map in G2. eapply Forall_impl; [|exact G2]. intros k Gk. split; [exact Gk|]. intros v' J. cbn [map fits item_line it_p it_n]. split; [right; right; right; apply J, I1|exact Logic.I].
  - destruct (items_view decl cols _ v1 G2) as (_ & _ & Iv). set (v2 := fold_left _ _ v1) in *. clearbody v2. eapply (fits_flat cols). apply Forall_flat_map in G3. rewrite Forall_forall in *.
    intros k Ik. pose proof (G3 k Ik) as Gk. split; [exact Gk|]. intros v' J. cbn beta in *. destruct (childless k); [exact Logic.I|]. apply IH; [exact Ik|exact Gk|]. right. apply J, Iv, I1.
Qed.
Lemma fits_doc : forall o v, Forall sect_fine o -> fits decl v (flat_map sect_lines o).
Proof.
  intros o. induction o as [|c o IH]; intros v F; [exact Logic.I|]. inversion F as [|? ? F1 F2]; subst. cbn [flat_map]. apply fits_app; [|apply IH, F2].
  unfold sect_lines. destruct F1 as (_ & W & L). pose proof (sect_items_good dt c W L) as G. apply fits_app; [destruct (eqs (sc_name c) "Root"); repeat (split || exact Logic.I)|].
  unfold sect_items in *. eapply (fits_flat (sc_cols c)). apply Forall_flat_map in G. eapply Forall_impl; [|exact G]. intros t Gt. split; [exact Gt|]. intros v' _. apply fits_tree; [exact Gt|left; reflexivity].
Qed.
End Doc2.

Lemma spread_doc : forall dt decl o, writable_doc dt decl o -> Forall line_sect o -> spread decl first_view (flat_map sect_lines o) (flat_map sect_lines' o).
Proof.
  intros dt decl o W L. destruct W as [ts rest H1 H2 H3]. inversion L as [|? ? L1 L2]; subst. cbn [flat_map]. unfold sect_lines at 1, sect_lines' at 1. cbn [sc_name sc_cols]. change (eqs "Root" "Root") with true. cbn [app].
  pose proof (sect_items_good dt (mk_sect "Root" [] ts) H1 L1) as G. apply spread_items; [exact G|reflexivity|].
  destruct (items_view decl _ _ first_view G) as (_ & E & _). eapply spread_sects; [exact H2|exact L2|exact H3|]. rewrite E. intros c I. unfold assoc. cbn [first_view v_secs find fst].
  rewrite (proj2 (eqs_false "root" (lower (sc_name c)))); [reflexivity|]. intros X. apply NoDup_cons_iff in H3. apply (proj1 H3). rewrite X. apply (in_map (fun c => lower (sc_name c)) _ _ I).
Qed.

Lemma c83_lines : forall g s o text, proper g -> plain_classes g -> in_fuel g <> 0 ->
  shows_doc s o -> writable_doc (d_decl_terms (s_doc s)) (declared_columns (in_secs g)) o -> Forall line_sect o -> doc_as_lines s = Ok text ->
  exists s', loads g (text_rows text) s' /\ shows_doc s' (map arrange_sect o).
Proof.
  intros g s o text P C Fu Sh W L T. set (dt := d_decl_terms (s_doc s)) in *. set (decl := declared_columns (in_secs g)) in *.
  assert (R : text_rows text = flat_map sect_split o).
  { pose proof T as T0. unfold doc_as_lines in T0. destruct (doc_lines s) as [l|] eqn:D; [|discriminate T0]. eapply lines_roundtrip; [exact D| |exact T].
    eapply doc_written; [exact W|exact L|]. eapply doc_pairs; [apply value_name_same|exact Sh|exact W|exact L|exact D]. }
  rewrite R. pose proof (doc_fine dt decl o W L) as F. destruct (speaks_means _ _ (doc_speaks dt decl o F)) as [M _]. destruct (speaks_means _ _ (doc_speaks' dt decl o F)) as [M' S'].
  destruct (round_doc g _ o P C Fu W) as (s1 & L1 & Ho & Rt & _).
  destruct (c82_read g (flat_map sect_split o) _ _ P C Fu (spread_doc dt decl o W L) (proj2 M)) as (s2 & L2 & O2); [|exact M'|exact S'|].
  - apply (fits_placed decl _ []). apply fits_doc with (dt := dt). exact F.
  - exists s2. split; [exact L2|]. pose proof (c77_outline g _ _ s1 P M L1) as O1. rewrite <- (shows_doc_fun _ _ _ (holds_shows _ _ Ho Rt) O1) in O2. exact O2.
Qed.

(** ** Once more *)

Lemma child_lines_ok : forall names vals texts, Forall2 SpecRound.text_of vals texts -> exists l, child_lines names vals = Ok l.
Proof.
  intros names. induction names as [|n names IH]; intros vals texts F; [destruct vals; eexists; reflexivity|]. destruct F as [|v x vals texts E F]; [eexists; reflexivity|].
  cbn [child_lines]. destruct (IH _ _ F) as (l & ->). cbn [rbind]. destruct E; cbn [truthy as_str rbind]; [destruct (nonempty v)|]; eexists; reflexivity.
Qed.
Lemma row_lines_ok : forall sec row texts, Forall2 SpecRound.text_of (print_row row) texts -> exists l, row_lines sec row = Ok l.
Proof.
  intros sec [n rv] texts F. unfold row_lines, print_row in *. cbn [fst snd] in *. set (vals := match rv with RList l => l | RVal v => [v] end) in *. inversion F as [|? ? ? ts F1 F2]; subst.
  assert (X : exists t', Forall2 SpecRound.text_of (tl vals) t') by (destruct F2; [exists []; constructor|eexists; eassumption]). destruct X as (t' & X). destruct (child_lines_ok (sec_property_names sec) _ _ X) as (l & ->). eexists; reflexivity.
Qed.
Lemma doc_lines_ok : forall s dt decl o rows, (forall q, value_name (s_doc s) q = value_name_in dt q) -> shows_doc s o -> writable_doc dt decl o -> doc_rows s = Ok rows -> exists l, doc_lines s = Ok l.
Proof.
  intros s dt decl o rows VN Sh W H. apply writable_all in W. unfold doc_rows in H. unfold doc_lines. destruct (rmap _ _) as [ls|] eqn:M in H; [|discriminate H]. clear H. apply rmap_Forall2 in M.
  edestruct (@rmap_ok (string * nat) (list (string * val))) as (m & E); [|rewrite E; eexists; reflexivity]. intros kv I. unfold shows_doc in Sh. revert W ls M.
  induction Sh as [|kv' c kvs o S1 S2 IH]; intros W ls M; [destruct I|]. inversion M as [|? l ? ls' M1 M2]; subst. inversion W as [|? ? W1 W2]; subst. destruct I as [->|I]; [|eapply IH; eassumption]. clear IH.
  destruct (section_rows _ _ _) as [rs|] eqn:E; [|discriminate M1]. destruct S1 as (_ & Sv & Sc & St). unfold section_lines. fold (tget (snd kv) s). cbv zeta. rewrite Sv. cbn [veq]. rewrite E.
  assert (X : exists l', rmap (row_lines (tget (snd kv) s)) rs = Ok l').
  { unfold section_rows in E. fold (tget (snd kv) s) in E. destruct (rmap _ (t_terms (tget (snd kv) s))) as [ts|] eqn:T; [|discriminate E]. injection E as <-. apply rmap_Forall2 in T.
    pose proof (terms_written s dt (sc_cols c) (snd kv) ts VN Sc _ _ St W1 T) as Wr. apply Forall2_map_l in Wr.
    edestruct (@rmap_ok (string * rowval) (list (string * val))) as (m & Em); [|rewrite Em; eexists; reflexivity]. intros row J. clear - Wr J.
    induction Wr as [|a b la lb Wa Wb IH]; [destruct J|]. destruct J as [->|J]; [eapply row_lines_ok; exact Wa|apply IH, J]. }
  destruct X as (l' & X). cbn [rbind]. destruct (eqs (sc_name c) "Root"); cbn [rbind]; rewrite X; eexists; reflexivity.
Qed.

Lemma line_tree_arrange : forall cols t, line_tree t -> line_tree (arrange cols t).
Proof.
  intros cols t. induction t as [n v kids IH] using tree_ind'. intros L. apply line_tree_inv in L. destruct L as (A & B & C). cbn [arrange]. constructor; [exact A|exact B|].
  rewrite Forall_forall in *. intros k I. apply arranged_in in I. destruct I as [[I _]|(k' & I & _ & ->)]; [apply C, I|apply IH; [exact I|apply C, I]].
Qed.
Lemma line_sect_arrange : forall c, line_sect c -> line_sect (arrange_sect c).
Proof. intros c [A B C D]. split; cbn [arrange_sect sc_name sc_cols sc_terms]; try assumption. apply Forall_map. eapply Forall_impl; [|exact D]. intros t. apply line_tree_arrange. Qed.
Lemma sect_pairs_arrange : forall dt c, Forall (writable_top dt (sc_cols c)) (sc_terms c) -> sect_pairs (arrange_sect c) = sect_pairs c.
Proof.
  intros dt c W. unfold sect_pairs, sect_head, arrange_sect. cbn [sc_name sc_cols sc_terms]. f_equal. f_equal. induction W as [|t ts [W1 _] _ IH]; [reflexivity|]. cbn [map flat_map]. rewrite IH, (arrange_rows dt _ _ _ _ W1). reflexivity.
Qed.
Lemma pair_format : forall l l' ps, Forall2 pair_like l ps -> Forall2 pair_like l' ps ->
  map (fun tv : string * val => (if eqs (fst tv) "Section" then [""] else []) ++ [format_line tv])%list l = map (fun tv => (if eqs (fst tv) "Section" then [""] else []) ++ [format_line tv])%list l'.
Proof.
  intros l l' ps F. revert l'. induction F as [|[n v] [n1 x] l ps [E1 E2] _ IH]; intros l' F'; inversion F' as [|[n' v'] ? l'' ? [E3 E4] F'']; subst; [reflexivity|]. cbn [fst snd] in *. subst. cbn [map fst]. f_equal; [|apply IH; assumption].
  f_equal. f_equal. unfold format_line. cbn [fst snd]. f_equal. f_equal. destruct E2; inversion E4; reflexivity.
Qed.
Lemma same_lines : forall s s' dt decl o text, (forall q, value_name (s_doc s) q = value_name_in dt q) -> (forall q, value_name (s_doc s') q = value_name_in dt q) -> writable_doc dt decl o -> Forall line_sect o ->
  shows_doc s o -> shows_doc s' (map arrange_sect o) -> doc_as_lines s = Ok text -> (exists rows', doc_rows s' = Ok rows') -> doc_as_lines s' = Ok text.
Proof.
  intros s s' dt decl o text VN VN' W L S S' T (rows' & R'). destruct (arrange_doc _ _ _ W) as [W' _]. destruct (doc_lines_ok _ _ _ _ _ VN' S' W' R') as (l' & D'). unfold doc_as_lines in *.
  destruct (doc_lines s) as [l|] eqn:D; [|discriminate T]. rewrite D'. cbn [rbind] in *. injection T as <-.
  pose proof (doc_pairs _ _ _ _ _ VN S W L D) as P. pose proof (doc_pairs _ _ _ _ _ VN' S' W' ltac:(apply Forall_map; eapply Forall_impl; [|exact L]; intros c; apply line_sect_arrange) D') as P'.
  rewrite (flat_map_map arrange_sect sect_pairs) in P'. rewrite (flat_map_ext_in (fun c => sect_pairs (arrange_sect c)) sect_pairs) in P'.
  - rewrite (pair_format _ _ _ P P'). reflexivity.
  - apply writable_all in W. eapply Forall_impl; [|exact W]. intros c. apply sect_pairs_arrange.
Qed.

Lemma split_own : forall dt decl o, Forall (sect_fine dt decl) o -> Forall (fun l => ~ own_parent l) (flat_map sect_lines' o).
Proof.
  intros dt decl o F. apply Forall_flat_map. eapply Forall_impl; [|exact F]. intros c (_ & W & L). unfold sect_lines'. apply Forall_app. split; [destruct (eqs _ _); repeat constructor; intros (r & x & cs & H); discriminate H|].
  apply Forall_flat_map. eapply Forall_impl; [|apply (sect_items_good dt c W L)]. intros i G. unfold split_line. constructor.
  - intros (r & x & cs & H). injection H as H1 H2 _ _. apply (gr_own _ _ G). congruence.
  - apply Forall_map. eapply Forall_impl; [|exact (gr_cs _ _ G)]. intros cx (Cn & _) (r & x & cs & H). unfold alone in H. injection H as H1 H2 _ _. apply (cn_elided _ Cn). cbn [fst] in H2. congruence.
Qed.
Lemma loaded_rows : forall g rows ls s o dt, proper g -> means rows ls -> Forall (fun l => ~ own_parent l) ls -> loads g rows s ->
  (forall q, value_name_in (dupdate (in_terms g) installed_terms) q = value_name_in dt q) -> writable_doc dt (declared_columns (in_secs g)) o -> shows_doc s o -> exists rs, doc_rows s = Ok rs.
Proof.
  intros g rows ls s o dt Pg M NS L A W Sh. destruct (file_terms _ _ _ _ Pg M L) as [D _]. pose proof (loads_forest _ _ _ _ Pg M NS L) as Fo.
  apply (shows_doc_rows s dt) with (decl := declared_columns (in_secs g)) (o := o); try assumption.
  - intros q. rewrite value_name_same, D. apply A.
  - intros i c C. destruct (Nat.lt_ge_cases i (hlen s)) as [Hi|Hi]; [apply (forest_kids s Fo); assumption|]. rewrite tget_out in C by exact Hi. destruct C.
  - intros k i c _ C. destruct (Nat.lt_ge_cases i (hlen s)) as [Hi|Hi]; [apply (fr_tt _ Fo i c Hi C)|]. rewrite tget_out in C by exact Hi. destruct C.
Qed.

Lemma c83_again : forall g s o text, proper g -> plain_classes g -> in_fuel g <> 0 ->
  shows_doc s o -> writable_doc (d_decl_terms (s_doc s)) (declared_columns (in_secs g)) o -> Forall line_sect o -> doc_as_lines s = Ok text ->
  exists s', loads g (text_rows text) s' /\ shows_doc s' (map arrange_sect o)
    /\ ((forall q, value_name_in (dupdate (in_terms g) installed_terms) q = value_name_in (d_decl_terms (s_doc s)) q) -> doc_as_lines s' = Ok text).
Proof.
  intros g s o text P C Fu Sh W L T. destruct (c83_lines g s o text P C Fu Sh W L T) as (s' & L' & S2). exists s'. split; [exact L'|]. split; [exact S2|]. intros D.
  set (dt := d_decl_terms (s_doc s)) in *. set (decl := declared_columns (in_secs g)) in *.
  assert (R : text_rows text = flat_map sect_split o).
  { pose proof T as T0. unfold doc_as_lines in T0. destruct (doc_lines s) as [l|] eqn:E; [|discriminate T0]. eapply lines_roundtrip; [exact E| |exact T].
    eapply doc_written; [exact W|exact L|]. eapply doc_pairs; [apply value_name_same|exact Sh|exact W|exact L|exact E]. }
  pose proof (doc_fine dt decl o W L) as F. destruct (speaks_means _ _ (doc_speaks' dt decl o F)) as [M' _]. rewrite <- R in M'.
  destruct (file_terms _ _ _ _ P M' L') as [D' _]. destruct (arrange_doc _ _ _ W) as [W' _].
  eapply (same_lines s s' dt decl o text); try assumption.
  - intros q. apply value_name_same.
  - intros q. rewrite value_name_same, D'. apply D.
  - eapply loaded_rows; [exact P|exact M'|eapply split_own; exact F|exact L'|exact D|exact W'|exact S2].
Qed.

Lemma c83_file : forall g rows ls s, proper g -> plain_classes g -> means rows ls -> Forall (fun l => ~ own_parent l) ls -> loads g rows s ->
  writable_doc (dupdate (in_terms g) installed_terms) (declared_columns (in_secs g)) (outline (world_of g) ls) -> Forall line_sect (outline (world_of g) ls) ->
  exists text s', doc_as_lines s = Ok text /\ loads g (text_rows text) s' /\ shows_doc s' (map arrange_sect (outline (world_of g) ls)) /\ doc_as_lines s' = Ok text.
Proof.
  intros g rows ls s Pg PC M NS L W Li. destruct (file_terms _ _ _ _ Pg M L) as [D _]. pose proof (c77_outline _ _ _ _ Pg M L) as Sh.
  destruct (loaded_rows _ _ _ _ _ _ Pg M NS L (fun q => eq_refl) W Sh) as (rs & R). destruct (doc_lines_ok s (dupdate (in_terms g) installed_terms) _ _ rs ltac:(intros q; rewrite value_name_same, D; reflexivity) Sh W R) as (l & E).
  assert (T : exists text, doc_as_lines s = Ok text) by (unfold doc_as_lines; rewrite E; eexists; reflexivity). destruct T as (text & T).
  assert (Fu : in_fuel g <> 0).
  { intros Z. unfold loads, load_into, load_source in L. rewrite Z in L. rb L as s1 u H1. rg L. rb L as s2 u2 H2. rb L as s3 u3 H3. discriminate H3. }
  destruct (c83_again g s _ _ Pg PC Fu Sh ltac:(rewrite D; exact W) Li T) as (s' & L' & S' & A). exists text, s'. repeat split; try assumption. apply A. intros q. rewrite D. reflexivity.
Qed.

(** ** Deciding *)

Definition one_lineb (l : string) : bool := forallb (fun c => negb (existsb (Nat.eqb (nat_of_ascii c)) [10; 11; 12; 13; 28; 29; 30; 133])) (list_ascii_of_string l).
Definition has_char (c : ascii) (s : string) : bool := existsb (Ascii.eqb c) (list_ascii_of_string s).
Definition line_valueb (v : string) : bool := one_lineb v && negb (has_char "|" v) && negb (ends_bs false v).
Definition line_wordb (n : string) : bool := one_lineb n && negb (has_char ":" n) && negb (eqs (substring 0 4 n) "====").
Fixpoint line_treeb (t : tree) : bool := match t with Tree n v kids => line_wordb n && line_valueb v && forallb line_treeb kids end.
Definition line_sectb (c : sect) : bool :=
  line_valueb (sc_name c) && forallb line_valueb (sc_cols c) && negb (existsb (eqs "header") (map lower (sc_cols c))) && forallb line_treeb (sc_terms c).
Lemma one_lineb_ok : forall l, one_lineb l = true -> one_line l.
Proof.
  intros l H c I J. unfold one_lineb in H. rewrite forallb_forall in H. specialize (H c I). apply negb_true_iff in H. apply Bool.not_true_iff_false in H. apply H. apply existsb_exists. exists (nat_of_ascii c). split; [exact J|apply Nat.eqb_refl].
Qed.
Lemma has_char_ok : forall c s, has_char c s = false -> ~ In c (list_ascii_of_string s).
Proof. intros c s H I. apply Bool.not_true_iff_false in H. apply H. apply existsb_exists. exists c. split; [exact I|apply Ascii.eqb_refl]. Qed.
Lemma line_valueb_ok : forall v, line_valueb v = true -> line_value v.
Proof.
  intros v H. unfold line_valueb in H. apply andb_true_iff in H. destruct H as [H C]. apply andb_true_iff in H. destruct H as [A B]. apply negb_true_iff in B, C.
  split; [apply one_lineb_ok, A|]. split; [apply has_char_ok, B|]. intros E. apply ends_bs_iff in E. congruence.
Qed.
Lemma line_wordb_ok : forall n, line_wordb n = true -> line_word n.
Proof.
  intros v H. unfold line_wordb in H. apply andb_true_iff in H. destruct H as [H C]. apply andb_true_iff in H. destruct H as [A B]. apply negb_true_iff in B, C.
  split; [apply one_lineb_ok, A|]. split; [apply has_char_ok, B|]. intros y ->. apply eqs_false in C. apply C. cbn. destruct y; reflexivity.
Qed.
Lemma line_treeb_ok : forall t, line_treeb t = true -> line_tree t.
Proof.
  intros t. induction t as [n v kids IH] using tree_ind'. intros H. cbn [line_treeb] in H. apply andb_true_iff in H. destruct H as [H C]. apply andb_true_iff in H. destruct H as [A B].
  constructor; [apply line_wordb_ok, A|apply line_valueb_ok, B|]. rewrite forallb_forall in C. rewrite Forall_forall in *. intros k I. apply IH; [exact I|apply C, I].
Qed.
Lemma line_sectb_ok : forall o, forallb line_sectb o = true -> Forall line_sect o.
Proof.
  intros o H. rewrite forallb_forall in H. apply Forall_forall. intros c I. specialize (H c I). unfold line_sectb in H. do 3 (apply andb_true_iff in H; let X := fresh in destruct H as [H X]).
  rewrite forallb_forall in *. split; [apply line_valueb_ok; assumption| | |]; try (apply Forall_forall; intros; first [apply line_valueb_ok|apply line_treeb_ok]; auto; fail).
  intros J. match goal with X : negb _ = true |- _ => apply negb_true_iff in X; apply Bool.not_true_iff_false in X; apply X end. apply existsb_exists. exists "header". split; [exact J|reflexivity].
Qed.
