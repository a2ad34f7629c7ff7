(** * RowsFacts: what the rows of a document contain (C36) *)

From Verif Require Import ListFacts StrFacts HeapFacts SpecNames NameFacts Render SpecInv InvFacts SpecFind FindFacts SpecEdit SpecDict DictFacts SpecRows RunFacts.

Section WithQuirks.
Context {QK : Quirks}.

Lemma value_name_spec : forall s q, let n := value_name (s_doc s) q in
  (exists td, dget q (d_decl_terms (s_doc s)) = Some td /\ dget "termvaluename" (td_props td) = Some n)
  \/ (n = "@value" /\ forall td, dget q (d_decl_terms (s_doc s)) = Some td -> dget "termvaluename" (td_props td) = None).
Proof.
  intros s q. cbn. unfold value_name. destruct (dget q (d_decl_terms (s_doc s))) as [td|] eqn:E; [|right; split; [reflexivity|discriminate]].
  destruct (dget "termvaluename" (td_props td)) as [n|] eqn:E'; [left; exists td; auto|]. right. split; [reflexivity|]. intros td' X. injection X as <-. exact E'.
Qed.

Lemma rmap_in : forall {A B} (f : A -> res B) l m, rmap f l = Ok m -> forall x, In x l -> exists y, f x = Ok y /\ In y m.
Proof.
  intros A B f. induction l as [|a l IH]; intros m H x I; [destruct I|]. cbn [rmap] in H. destruct (f a) as [b|] eqn:E; [|discriminate H]. cbn [rbind] in H.
  destruct (rmap f l) as [m'|] eqn:E'; [|discriminate H]. injection H as <-. destruct I as [<-|I]; [exists b; split; [exact E|left; reflexivity]|].
  destruct (IH m' eq_refl x I) as (y & Y & J). exists y. split; [exact Y|right; exact J].
Qed.

Definition qname (s : st) (x : nat) : string := dotted (parent_name s x) (rt_lc (tget x s)).
Lemma qualified_name : forall s x q, qualified_term (s_heap s) (tget x s) = Ok q -> q = qname s x.
Proof.
  intros s x q H. unfold qualified_term in H. unfold qname, parent_name. destruct (t_parent (tget x s)) as [p|]; [injection H as <-; reflexivity|].
  destruct (eqs _ _); [injection H as <-; reflexivity|discriminate H].
Qed.

(** every term that is not a leaf gives a row *)
Lemma term_rows_head : forall f s i l, term_rows f (s_heap s) (s_doc s) i = Ok l -> In (qname s i, row_props (s_heap s) (value_name (s_doc s) (qname s i)) (tget i s)) l /\ value_name (s_doc s) (qname s i) <> "".
Proof.
  intros [|f] s i l H; [discriminate H|]. cbn [term_rows] in H. fold (tget i s) in H. destruct (t_section (tget i s)); [|discriminate H]. destruct (negb _); [discriminate H|].
  destruct (qualified_term _ _) as [q|] eqn:Q; [|discriminate H]. cbn [rbind] in H. apply qualified_name in Q. subst q. eqs_cases (value_name (s_doc s) (qname s i)) ""; [discriminate H|].
  destruct (rmap _ _); [|discriminate H]. injection H as <-. split; [left; reflexivity|exact E].
Qed.
Lemma term_rows_in : forall s i x, under s i x -> t_children (tget x s) <> [] -> forall f l, term_rows f (s_heap s) (s_doc s) i = Ok l -> exists f' l', term_rows f' (s_heap s) (s_doc s) x = Ok l' /\ incl l' l.
Proof.
  assert (STEP : forall s i x f l, In x (t_children (tget i s)) -> t_children (tget x s) <> [] -> term_rows f (s_heap s) (s_doc s) i = Ok l -> exists f' l', term_rows f' (s_heap s) (s_doc s) x = Ok l' /\ incl l' l).
  { intros s i x [|f] l C N H; [discriminate H|]. cbn [term_rows] in H. fold (tget i s) in H. destruct (t_section (tget i s)); [|discriminate H]. destruct (negb (t_doc _)); [discriminate H|].
    destruct (qualified_term _ _) as [q|] eqn:Q; [|discriminate H]. cbn [rbind] in H. destruct (eqs _ ""); [discriminate H|]. destruct (rmap _ _) as [ls|] eqn:R; [|discriminate H]. injection H as <-.
    destruct (rmap_in _ _ _ R x) as (l' & E & J).
    - apply filter_In. split; [exact C|]. unfold is_terminal. fold (tget x s). destruct (t_children (tget x s)); [contradiction|reflexivity].
    - exists f, l'. split; [exact E|]. intros y Y. right. apply in_concat. exists l'. auto. }
  intros s i x U. induction U as [c C|c d U IH D]; intros N f l H; [eapply STEP; eassumption|].
  destruct (IH) with (f := f) (l := l) as (f1 & l1 & H1 & S1); [intros E; rewrite E in D; destruct D|exact H|]. destruct (STEP s c d f1 l1 D N H1) as (f2 & l2 & H2 & S2).
  exists f2, l2. split; [exact H2|]. intros y Y. apply S1. apply S2. exact Y.
Qed.

(** the properties of a row *)
Definition leaf_of (s : st) (c : nat) : bool := is_terminal (tget c s) && nonempty (rt_lc (tget c s)).
Lemma row_props_fold : forall s cs d, NoDup (dkeys d) ->
  let d' := fold_left (fun d c => let q := hget c (s_heap s) in if is_terminal q && nonempty (rt_lc q) then dset (rt_lc q) (t_val q) d else d) cs d in
  NoDup (dkeys d')
  /\ (forall k, (forall c, In c cs -> leaf_of s c = true -> rt_lc (tget c s) <> k) -> dget k d' = dget k d)
  /\ (forall c, In c cs -> leaf_of s c = true -> (forall c', In c' cs -> leaf_of s c' = true -> rt_lc (tget c' s) = rt_lc (tget c s) -> c' = c) -> dget (rt_lc (tget c s)) d' = Some (t_val (tget c s))).
Proof.
  intros s. induction cs as [|c cs IH]; intros d N; cbn [fold_left].
  - split; [exact N|]. split; [reflexivity|]. intros c [].
  - cbv zeta. fold (tget c s). fold (leaf_of s c). destruct (leaf_of s c) eqn:L.
    + destruct (IH (dset (rt_lc (tget c s)) (t_val (tget c s)) d) (nodup_dset _ _ _ N)) as (A & B & C). split; [exact A|]. split.
      * intros k K. rewrite B by (intros c' I' L'; apply K; [right; exact I'|exact L']). apply dget_dset_other. intros E. symmetry in E. revert E. apply K; [left; reflexivity|exact L].
      * intros c' [<-|I'] L' U'; [|apply C; [exact I'|exact L'|]; intros c2 I2 L2; apply U'; [right; exact I2|exact L2]].
        destruct (in_dec Nat.eq_dec c cs) as [J|J]; [apply C; [exact J|exact L|]; intros c2 I2 L2; apply U'; [right; exact I2|exact L2]|].
        rewrite B; [apply dget_dset_same|]. intros c2 I2 L2 E2. assert (c2 = c) by (apply U'; [right; exact I2|exact L2|exact E2]). subst c2. contradiction.
    + destruct (IH d N) as (A & B & C). split; [exact A|]. split.
      * intros k K. apply B. intros c' I' L'. apply K; [right; exact I'|exact L'].
      * intros c' [<-|I'] L' U'; [congruence|]. apply C; [exact I'|exact L'|]. intros c2 I2 L2. apply U'; [right; exact I2|exact L2].
Qed.

Lemma row_props_keys : forall s cs d k,
  In k (dkeys (fold_left (fun d c => let q := hget c (s_heap s) in if is_terminal q && nonempty (rt_lc q) then dset (rt_lc q) (t_val q) d else d) cs d)) ->
  In k (dkeys d) \/ exists c, In c cs /\ leaf_of s c = true /\ rt_lc (tget c s) = k.
Proof.
  intros s. induction cs as [|c cs IH]; intros d k I; [left; exact I|]. cbn [fold_left] in I. cbv zeta in I. fold (tget c s) in I. fold (leaf_of s c) in I.
  apply IH in I. destruct I as [I|(c' & I & L & E)]; [|right; exists c'; repeat split; [right; exact I|exact L|exact E]].
  destruct (leaf_of s c) eqn:L; [|left; exact I]. destruct (dget k d) eqn:D; [left; destruct (in_dec string_dec k (dkeys d)) as [J|J]; [exact J|apply dget_none in J; congruence]|].
  right. exists c. split; [left; reflexivity|]. split; [exact L|]. destruct (string_dec (rt_lc (tget c s)) k) as [E|E]; [exact E|]. exfalso.
  assert (X : dget k (dset (rt_lc (tget c s)) (t_val (tget c s)) d) = None) by (rewrite dget_dset_other by (intros Y; apply E; symmetry; exact Y); exact D).
  apply dget_none in X. exact (X I).
Qed.

(** a dict made of different keys *)
Lemma dict_of_id : forall {A} (l : dict A), NoDup (dkeys l) -> dict_of l = l.
Proof.
  intros A l N. unfold dict_of, dupdate. assert (G : forall (e d : dict A), NoDup (dkeys (d ++ e)%list) -> fold_left (fun d kv => dset (fst kv) (snd kv) d) e d = (d ++ e)%list).
  - induction e as [|[k v] e IH]; intros d M; cbn [fold_left fst snd]; [rewrite app_nil_r; reflexivity|].
    assert (X : dget k d = None).
    { apply dget_none. unfold dkeys in *. rewrite map_app in M. cbn in M. intros J. apply NoDup_remove_2 in M. apply M. apply in_or_app. left. exact J. }
    rewrite dset_absent by exact X. rewrite IH; rewrite <- app_assoc; [reflexivity|exact M].
  - apply (G l []). exact N.
Qed.

(** a property goes to the column of its name or to a row of its own *)
Lemma take_cols_get : forall names d n v, dget n d = Some v ->
  (exists k col, nth_error names k = Some col /\ lower col = n /\ nth_error (fst (take_cols names d)) k = Some v) \/ dget n (snd (take_cols names d)) = Some v.
Proof.
  induction names as [|a names IH]; intros d n v H; [right; exact H|]. cbn [take_cols]. destruct (string_dec (lower a) n) as [E|E].
  - left. exists 0, a. rewrite E, H. destruct (take_cols names (ddel n d)). repeat split; auto.
  - destruct (IH (ddel (lower a) d) n v) as [(k & col & A & B & C)|R]; [rewrite dget_ddel_other by congruence; exact H| |].
    + left. exists (S k), col. destruct (take_cols names (ddel (lower a) d)). repeat split; auto.
    + right. destruct (take_cols names (ddel (lower a) d)). exact R.
Qed.

Lemma take_cols_length : forall names d, length (fst (take_cols names d)) = length names.
Proof. induction names as [|a names IH]; intros d; [reflexivity|]. cbn [take_cols]. specialize (IH (ddel (lower a) d)). destruct (take_cols names (ddel (lower a) d)). cbn in *. congruence. Qed.
Lemma take_cols_sound : forall names d, NoDup (dkeys d) ->
  (forall k col v, nth_error names k = Some col -> nth_error (fst (take_cols names d)) k = Some v -> v = VStr "" \/ dget (lower col) d = Some v)
  /\ NoDup (dkeys (snd (take_cols names d)))
  /\ forall n v, dget n (snd (take_cols names d)) = Some v -> dget n d = Some v /\ ~ In n (map lower names).
Proof.
  induction names as [|a names IH]; intros d N.
  - cbn. split; [intros [|k] col v X; discriminate X|]. split; [exact N|]. auto.
  - assert (N' : NoDup (dkeys (ddel (lower a) d))) by (rewrite dkeys_ddel by exact N; apply NoDup_filter; exact N).
    destruct (IH (ddel (lower a) d) N') as (A & B & C). cbn [take_cols]. destruct (take_cols names (ddel (lower a) d)) as [vs rest]. cbn [fst snd] in *. split; [|split; [exact B|]].
    + intros [|k] col v X Y; cbn in X, Y.
      * injection X as <-. injection Y as <-. destruct (dget (lower a) d); [right; reflexivity|left; reflexivity].
      * destruct (A k col v X Y) as [->|G]; [left; reflexivity|]. apply dget_ddel in G; [|exact N]. right. exact (proj2 G).
    + intros n v H. destruct (C n v H) as (G & K). apply dget_ddel in G; [|exact N]. split; [exact (proj2 G)|]. cbn. intros [E|J]; [apply (proj1 G); symmetry; exact E|exact (K J)].
Qed.

(** the row of a term *)
Lemma dget_map_lower : forall (d : dict val) k, (forall k', In k' (dkeys d) -> lower k' = lower k -> k' = k) -> dget (lower k) (map (fun kv => (lower (fst kv), snd kv)) d) = dget k d.
Proof.
  induction d as [|[a v] d IH]; intros k U; [reflexivity|]. cbn. eqs_cases (lower k) (lower a).
  - assert (X : a = k) by (apply U; [left; reflexivity|congruence]). subst a. rewrite eqs_refl. reflexivity.
  - eqs_cases k a; [congruence|]. apply IH. intros k' I'. apply U. right. exact I'.
Qed.

Lemma nodup_map_on : forall {A B} (f : A -> B) l, (forall x y, In x l -> In y l -> f x = f y -> x = y) -> NoDup l -> NoDup (map f l).
Proof.
  intros A B f l U N. induction N as [|x l X N IH]; cbn; constructor.
  - rewrite in_map_iff. intros (y & E & J). apply X. rewrite <- (U y x); [exact J|right; exact J|left; reflexivity|exact E].
  - apply IH. intros a b Ia Ib. apply U; right; assumption.
Qed.
Lemma nodup_map_inv : forall {A B} (f : A -> B) l x y, NoDup (map f l) -> In x l -> In y l -> f x = f y -> x = y.
Proof.
  intros A B f l x y. induction l as [|a l IH]; intros N I J E; [destruct I|]. cbn in N. inversion N as [|? ? X N']; subst.
  destruct I as [->|I], J as [->|J]; [reflexivity| | |auto]; exfalso; apply X; [rewrite E|rewrite <- E]; apply in_map; assumption.
Qed.

Section Row.
Variable s : st.
Variable x : nat.
Let q := qname s x.
Let vn := value_name (s_doc s) q.
Hypothesis AP : apart s x.

Lemma leaf_of_iff : forall c, In c (t_children (tget x s)) -> (leaf_of s c = true <-> leaf s c).
Proof.
  intros c C. unfold leaf_of, leaf, is_terminal. destruct (t_children (tget c s)) eqn:E; cbn; [|split; intros X; discriminate X]. split; [intros _; reflexivity|intros _].
  destruct AP as (_ & A). destruct (A c C E) as (N & _). unfold rt_lc. unfold nonempty. destruct (t_rt (tget c s)); [contradiction|reflexivity].
Qed.
Lemma leaf_not_value : forall c, In c (t_children (tget x s)) -> leaf_of s c = true -> rt_lc (tget c s) <> lower vn.
Proof. intros c C L. apply leaf_of_iff in L; [|exact C]. destruct AP as (_ & A). destruct (A c C L) as (_ & N). apply N. exact (value_name_spec s q). Qed.
Lemma leaf_unique : forall c c', In c (t_children (tget x s)) -> leaf_of s c = true -> In c' (t_children (tget x s)) -> leaf_of s c' = true -> rt_lc (tget c' s) = rt_lc (tget c s) -> c' = c.
Proof.
  intros c c' C L C' L' E. destruct AP as (N & _). apply leaf_of_iff in L; [|exact C]. apply leaf_of_iff in L'; [|exact C']. eapply nodup_map_inv; [exact N| | |exact E]; apply filter_In; split; try assumption.
  - unfold leaf in L'. rewrite L'. reflexivity.
  - unfold leaf in L. rewrite L. reflexivity.
Qed.

Let props := row_props (s_heap s) vn (tget x s).
Let low := dict_of (map (fun kv => (lower (fst kv), snd kv)) props).

Lemma props_facts : NoDup (dkeys props) /\ dget vn props = Some (t_val (tget x s))
  /\ (forall k, In k (dkeys props) -> k = vn \/ exists c, In c (t_children (tget x s)) /\ leaf_of s c = true /\ rt_lc (tget c s) = k)
  /\ forall c, In c (t_children (tget x s)) -> leaf_of s c = true -> dget (rt_lc (tget c s)) props = Some (t_val (tget c s)).
Proof.
  destruct (row_props_fold s (t_children (tget x s)) [(vn, t_val (tget x s))]) as (A & B & C); [repeat constructor; intros []|].
  split; [exact A|]. split; [|split].
  - unfold props, row_props. rewrite B; [cbn; rewrite eqs_refl; reflexivity|]. intros c I L E. apply (leaf_not_value c I L). rewrite <- E. symmetry. unfold rt_lc. apply lower_idem.
  - intros k K. apply row_props_keys in K. destruct K as [[K|[]]|K]; [left; symmetry; exact K|right; exact K].
  - intros c I L. apply C; [exact I|exact L|]. intros c' I' L'. apply leaf_unique; assumption.
Qed.

Lemma lower_apart : forall k k', In k (dkeys props) -> In k' (dkeys props) -> lower k' = lower k -> k' = k.
Proof.
  destruct props_facts as (_ & _ & K & _). intros k k' I I' E.
  assert (LL : forall c, lower (rt_lc (tget c s)) = rt_lc (tget c s)) by (intros; unfold rt_lc; apply lower_idem).
  destruct (K k I) as [->|(c & C & L & <-)], (K k' I') as [->|(c' & C' & L' & <-)]; rewrite ?LL in E; [reflexivity| | |exact E]; exfalso.
  - exact (leaf_not_value c' C' L' E).
  - exact (leaf_not_value c C L (eq_sym E)).
Qed.

Lemma low_facts : NoDup (dkeys low) /\ dget (lower vn) low = Some (t_val (tget x s))
  /\ (forall c, In c (t_children (tget x s)) -> leaf_of s c = true -> dget (rt_lc (tget c s)) low = Some (t_val (tget c s)))
  /\ (forall k v, dget k low = Some v -> k = lower vn \/ exists c, In c (t_children (tget x s)) /\ leaf_of s c = true /\ rt_lc (tget c s) = k /\ t_val (tget c s) = v).
Proof.
  destruct props_facts as (N & V & K & C).
  assert (NL : NoDup (dkeys (map (fun kv => (lower (fst kv), snd kv)) props))).
  { unfold dkeys. rewrite map_map. cbn [fst]. rewrite <- (map_map fst lower). apply nodup_map_on; [|exact N]. intros k k' I I' E. apply lower_apart; assumption. }
  assert (IDL : low = map (fun kv => (lower (fst kv), snd kv)) props) by (apply dict_of_id; exact NL).
  assert (G : forall k v, dget k props = Some v -> dget (lower k) low = Some v).
  { intros k v D. rewrite IDL, dget_map_lower; [exact D|]. intros k' I'. apply lower_apart; [|exact I']. apply dget_in in D. apply in_map_iff. exists (k, v). auto. }
  rewrite IDL at 1. split; [exact NL|]. split; [apply G; exact V|]. split.
  - intros c I L. rewrite <- (C c I L). specialize (G _ _ (C c I L)). unfold rt_lc in *. rewrite lower_idem in G. rewrite G. symmetry. apply C; assumption.
  - intros k v D. rewrite IDL in D. apply dget_in in D. apply in_map_iff in D. destruct D as ([k0 v0] & E & I). cbn in E. injection E as <- <-.
    destruct (K k0) as [->|(c & I' & L & E)]; [apply in_map_iff; exists (k0, v0); auto|left; reflexivity|]. right. exists c. split; [exact I'|]. split; [exact L|]. split; [subst k0; unfold rt_lc; symmetry; apply lower_idem|].
    specialize (C c I' L). rewrite E in C. apply dget_some in I; [|exact N]. congruence.
Qed.

Variable sec : trec.
Lemma row_args_facts : exists cells rest, row_args (s_doc s) sec q props = (t_val (tget x s) :: cells, rest)
  /\ length cells = length (columns_of sec)
  /\ (forall c, In c (t_children (tget x s)) -> leaf_of s c = true ->
        (exists k col, nth_error (columns_of sec) k = Some col /\ lower col = rt_lc (tget c s) /\ nth_error cells k = Some (t_val (tget c s))) \/ In (rt_lc (tget c s), t_val (tget c s)) rest)
  /\ (forall k col v, nth_error (columns_of sec) k = Some col -> nth_error cells k = Some v -> v = VStr "" \/ exists c, In c (t_children (tget x s)) /\ leaf_of s c = true /\ rt_lc (tget c s) = lower col /\ t_val (tget c s) = v)
  /\ forall k v, In (k, v) rest -> exists c, In c (t_children (tget x s)) /\ leaf_of s c = true /\ rt_lc (tget c s) = k /\ t_val (tget c s) = v /\ ~ In k (map lower (columns_of sec)).
Proof.
  destruct low_facts as (N & V & C & K). unfold row_args. fold low. change (sec_property_names sec) with (columns_of sec). cbn [take_cols]. fold vn. rewrite V.
  assert (N' : NoDup (dkeys (ddel (lower vn) low))) by (rewrite dkeys_ddel by exact N; apply NoDup_filter; exact N).
  pose proof (take_cols_length (columns_of sec) (ddel (lower vn) low)) as LEN. pose proof (take_cols_get (columns_of sec) (ddel (lower vn) low)) as GET.
  destruct (take_cols_sound (columns_of sec) (ddel (lower vn) low) N') as (S1 & S2 & S3). destruct (take_cols (columns_of sec) (ddel (lower vn) low)) as [cells rest]. cbn [fst snd] in *.
  exists cells, rest. split; [reflexivity|]. split; [exact LEN|].
  assert (ND : forall k v, dget k (ddel (lower vn) low) = Some v -> exists c, In c (t_children (tget x s)) /\ leaf_of s c = true /\ rt_lc (tget c s) = k /\ t_val (tget c s) = v).
  { intros k v H. apply dget_ddel in H; [|exact N]. destruct H as (NE & H). destruct (K k v H) as [E|E]; [contradiction|exact E]. }
  split; [|split].
  - intros c I L. destruct (GET (rt_lc (tget c s)) (t_val (tget c s))) as [G|G]; [rewrite dget_ddel_other by (apply leaf_not_value; assumption); apply C; assumption|left; exact G|right; apply dget_in; exact G].
  - intros k col v X Y. destruct (S1 k col v X Y) as [->|G]; [left; reflexivity|right; apply ND; exact G].
  - intros k v I. apply dget_some in I; [|exact S2]. destruct (S3 k v I) as (G & NI). destruct (ND k v G) as (c & A & B & D & E). exists c. repeat split; assumption.
Qed.
End Row.

Lemma dot_free_split : forall p n, dot_free n -> last (split_on "." (dotted p n)) "" = n.
Proof.
  intros p n D. apply dot_free_iff in D. unfold dotted. change (p ++ "." ++ n)%string with (p ++ String "."%char n)%string.
  induction p as [|a p IH].
  - change (("" ++ String "." n)%string) with ((("" ++ String "." n)%string)). rewrite split_on_app by reflexivity. rewrite split_on_none by exact D. reflexivity.
  - cbn [append split_on]. destruct (Ascii.eqb "." a).
    + destruct (split_on "." (p ++ String "." n)) eqn:E; [destruct (split_on_nonnil _ _ E)|]. exact IH.
    + destruct (split_on "." (p ++ String "." n)) as [|y l] eqn:E; [destruct (split_on_nonnil _ _ E)|]. destruct l as [|z l]; [|exact IH].
      exfalso. clear - E. revert y E. induction p as [|b p IH]; intros y E.
      * rewrite split_on_app in E by reflexivity. destruct (split_on "." n) eqn:E'; [destruct (split_on_nonnil _ _ E')|discriminate E].
      * cbn [append split_on] in E. destruct (Ascii.eqb "." b).
        -- destruct (split_on "." (p ++ String "." n)) eqn:E'; [destruct (split_on_nonnil _ _ E')|discriminate E].
        -- destruct (split_on "." (p ++ String "." n)) as [|y' l'] eqn:E'; [destruct (split_on_nonnil _ _ E')|]. injection E as _ E. subst l'. eapply IH. reflexivity.
Qed.

Lemma print_name_cell : forall s x, VStr (print_name (qname s x)) = name_cell (parent_name s x) (lower (t_rt (tget x s))).
Proof. reflexivity. Qed.

Section Rows.
Variable s : st.
Hypothesis KID : forall i c, In c (t_children (tget i s)) -> t_parent (tget c s) = Some i.
Hypothesis DOT : forall i, dot_free (t_rt (tget i s)).

(** what the rows of one term are *)
Lemma expand_facts : forall x sec, apart s x -> exists cells rest,
  map print_row (expand_row (s_doc s) sec (qname s x, row_props (s_heap s) (value_name (s_doc s) (qname s x)) (tget x s)))
   = (name_cell (parent_name s x) (lower (t_rt (tget x s))) :: t_val (tget x s) :: cells) :: rest
  /\ length cells = length (columns_of sec)
  /\ (forall c, In c (t_children (tget x s)) -> leaf s c ->
        (exists k col, nth_error (columns_of sec) k = Some col /\ lower col = lower (t_rt (tget c s)) /\ nth_error cells k = Some (t_val (tget c s)))
        \/ In [name_cell (parent_name s c) (lower (t_rt (tget c s))); t_val (tget c s)] rest)
  /\ (forall k col v, nth_error (columns_of sec) k = Some col -> nth_error cells k = Some v -> v = VStr "" \/ exists c, In c (t_children (tget x s)) /\ leaf s c /\ lower (t_rt (tget c s)) = lower col /\ t_val (tget c s) = v)
  /\ forall r, In r rest -> exists c, In c (t_children (tget x s)) /\ leaf_row s (columns_of sec) c r.
Proof.
  intros x sec AP. destruct (row_args_facts s x AP sec) as (cells & rest & E & L & A & B & C). unfold expand_row. cbn [fst snd]. rewrite E. cbn [map print_row fst snd].
  exists cells, (map print_row (map (fun kv => ((last (split_on "." (qname s x)) "" ++ "." ++ fst kv)%string, RVal (snd kv))) rest)).
  assert (NM : forall c, In c (t_children (tget x s)) -> VStr (print_name (last (split_on "." (qname s x)) "" ++ "." ++ lower (t_rt (tget c s)))) = name_cell (parent_name s c) (lower (t_rt (tget c s)))).
  { intros c I. unfold qname. rewrite dot_free_split by (unfold rt_lc; apply dot_free_lower; apply DOT). unfold name_cell, parent_name. rewrite (KID x c I). reflexivity. }
  split; [reflexivity|]. split; [exact L|]. split; [|split].
  - intros c I LF. destruct (A c I) as [G|G]; [apply leaf_of_iff with (x := x); assumption|left; exact G|right].
    rewrite map_map. apply in_map_iff. exists (rt_lc (tget c s), t_val (tget c s)). split; [|exact G]. rewrite <- (NM c I). reflexivity.
  - intros k col v X Y. destruct (B k col v X Y) as [->|(c & I & LF & N & V)]; [left; reflexivity|right]. exists c. split; [exact I|]. split; [apply leaf_of_iff with (x := x); assumption|]. split; [exact N|exact V].
  - intros r R. rewrite map_map in R. apply in_map_iff in R. destruct R as ([k v] & <- & R). destruct (C k v R) as (c & I & LF & N & V & NI). exists c. split; [exact I|].
    split; [apply leaf_of_iff with (x := x); assumption|]. split; [unfold rt_lc in N; rewrite N; exact NI|]. rewrite <- (NM c I), <- N, V. reflexivity.
Qed.

(** every row of a term is the row of it or of a non-leaf below it *)
Lemma term_rows_sound : forall f i l, term_rows f (s_heap s) (s_doc s) i = Ok l -> forall r, In r l -> exists x, (x = i \/ under s i x) /\ r = (qname s x, row_props (s_heap s) (value_name (s_doc s) (qname s x)) (tget x s)).
Proof.
  induction f as [|f IH]; intros i l H r R; [discriminate H|]. cbn [term_rows] in H. fold (tget i s) in H. destruct (t_section (tget i s)); [|discriminate H]. destruct (negb (t_doc _)); [discriminate H|].
  destruct (qualified_term _ _) as [q|] eqn:Q; [|discriminate H]. cbn [rbind] in H. apply qualified_name in Q. subst q. destruct (eqs _ ""); [discriminate H|]. destruct (rmap _ _) as [ls|] eqn:M; [|discriminate H]. injection H as <-.
  destruct R as [<-|R]; [exists i; split; [left; reflexivity|reflexivity]|]. apply in_concat in R. destruct R as (m & Im & Ir).
  assert (G : exists c, In c (t_children (tget i s)) /\ term_rows f (s_heap s) (s_doc s) c = Ok m).
  { clear - M Im. revert M Im. generalize (t_children (tget i s)). intros cs. revert ls. induction cs as [|c cs IHc]; intros ls M Im; cbn [filter] in M.
    - injection M as <-. destruct Im.
    - destruct (negb _).
      + cbn [rmap] in M. destruct (term_rows f _ _ c) as [m'|] eqn:E; [|discriminate M]. cbn [rbind] in M. destruct (rmap _ _) as [ls'|] eqn:E'; [|discriminate M]. injection M as <-.
        destruct Im as [<-|Im]; [exists c; split; [left; reflexivity|exact E]|]. destruct (IHc ls' eq_refl Im) as (c' & I' & X). exists c'. split; [right; exact I'|exact X].
      + destruct (IHc ls M Im) as (c' & I' & X). exists c'. split; [right; exact I'|exact X]. }
  destruct G as (c & Ic & E). destruct (IH c m E r Ir) as (x & X & ->). exists x. split; [|reflexivity]. right. destruct X as [->|X]; [constructor; exact Ic|].
  clear - Ic X. induction X as [d D|d e U IHu D]; [eapply under_deep; [constructor; exact Ic|exact D]|eapply under_deep; eassumption].
Qed.

Lemma rmap_back : forall {A B} (f : A -> res B) l m, rmap f l = Ok m -> forall y, In y m -> exists x, In x l /\ f x = Ok y.
Proof.
  intros A B f. induction l as [|a l IH]; intros m H y I; cbn [rmap] in H; [injection H as <-; destruct I|]. destruct (f a) as [b|] eqn:E; [|discriminate H]. cbn [rbind] in H.
  destruct (rmap f l) as [m'|] eqn:E'; [|discriminate H]. injection H as <-. destruct I as [<-|I]; [exists a; split; [left; reflexivity|exact E]|].
  destruct (IH m' eq_refl y I) as (x & X & J). exists x. split; [right; exact X|exact J].
Qed.

Variable rows : list (list val).
Hypothesis RUN : doc_rows s = Ok rows.

Lemma doc_rows_in : forall k i, In (k, i) (secs s) -> exists l, section_rows (s_heap s) (s_doc s) i = Ok l /\ incl (section_heading (tget i s) ++ map print_row l) rows.
Proof.
  intros k i I. unfold doc_rows in RUN. destruct (rmap _ _) as [ls|] eqn:M; [|discriminate RUN]. injection RUN as <-. destruct (rmap_in _ _ _ M (k, i) I) as (y & Y & J). cbn [snd] in Y.
  destruct (section_rows _ _ i) as [l|]; [|discriminate Y]. injection Y as <-. exists l. split; [reflexivity|]. intros r R. apply in_concat. eexists. split; [exact J|exact R].
Qed.

Lemma term_row_in : forall k i t x, In (k, i) (secs s) -> In t (t_terms (tget i s)) -> x = t \/ under s t x /\ t_children (tget x s) <> [] -> 
  incl (map print_row (expand_row (s_doc s) (tget i s) (qname s x, row_props (s_heap s) (value_name (s_doc s) (qname s x)) (tget x s)))) rows.
Proof.
  intros k i t x I T X. destruct (doc_rows_in k i I) as (l & E & S). intros r R. apply S. apply in_or_app. right. unfold section_rows in E. fold (tget i s) in E.
  destruct (rmap _ _) as [ls|] eqn:M; [|discriminate E]. injection E as <-. apply in_map_iff in R. destruct R as (r0 & <- & R). apply in_map. apply in_concat.
  destruct (rmap_in _ _ _ M t T) as (l & L & J). cbn beta in L.
  assert (G : exists f' l', term_rows f' (s_heap s) (s_doc s) x = Ok l' /\ incl l' l).
  { destruct X as [->|[U N]]; [exists (heap_fuel (s_heap s)), l; split; [exact L|intros y Y; exact Y]|]. eapply term_rows_in; eassumption. }
  destruct G as (f' & l' & L' & S'). destruct (term_rows_head _ _ _ _ L') as (H & _). eexists. split; [|exact R]. apply in_map_iff. eexists. split; [reflexivity|]. apply in_concat. exists l. split; [exact J|apply S'; exact H].
Qed.

(** C36: every term is there *)
Lemma rows_complete : forall k i t x, In (k, i) (secs s) -> In t (t_terms (tget i s)) -> (forall y, y = t \/ under s t y -> apart s y) -> x = t \/ under s t x ->
  (exists row, In row rows /\ row_for s (columns_of (tget i s)) x row)
  \/ leaf s x /\ (own_row s rows x \/ in_column s (columns_of (tget i s)) rows x).
Proof.
  intros k i t x I T AP X.
  assert (D : x = t \/ (under s t x /\ t_children (tget x s) <> []) \/ (under s t x /\ leaf s x)).
  { destruct X as [->|U]; [left; reflexivity|right]. unfold leaf. destruct (t_children (tget x s)) eqn:E; [right; auto|left; split; [exact U|intros Y; discriminate Y]]. }
  assert (OWN : forall y, y = t \/ under s t y /\ t_children (tget y s) <> [] -> exists row, In row rows /\ row_for s (columns_of (tget i s)) y row).
  { intros y Y. pose proof (term_row_in k i t y I T Y) as S. destruct (expand_facts y (tget i s)) as (cells & rest & E & L & A & B & C); [apply AP; destruct Y as [->|[U _]]; [left; reflexivity|right; exact U]|].
    rewrite E in S. eexists. split; [apply S; left; reflexivity|]. exists cells. split; [reflexivity|]. split; [exact L|exact B]. }
  destruct D as [->|[D|[U LF]]]; [left; apply OWN; left; reflexivity|left; apply OWN; right; exact D|right].
  split; [exact LF|].
  assert (P : exists p, (p = t \/ under s t p /\ t_children (tget p s) <> []) /\ In x (t_children (tget p s))).
  { inversion U as [c C|c d U' C]; subst; [exists t; split; [left; reflexivity|exact C]|]. exists c. split; [right; split; [exact U'|intros Y; rewrite Y in C; destruct C]|exact C]. }
  destruct P as (p & Y & C). pose proof (term_row_in k i t p I T Y) as S. destruct (expand_facts p (tget i s)) as (cells & rest & E & L & A & B & _); [apply AP; destruct Y as [->|[U' _]]; [left; reflexivity|right; exact U']|].
  rewrite E in S. destruct (A x C LF) as [(n & col & N & W & V)|G].
  - right. exists p, cells, n, col. split; [apply KID; exact C|]. split; [apply S; left; reflexivity|]. auto.
  - left. exists []. apply S. right. exact G.
Qed.

(** and nothing else *)
Lemma rows_sound : (forall k i t y, In (k, i) (secs s) -> In t (t_terms (tget i s)) -> y = t \/ under s t y -> apart s y) -> forall row, In row rows -> row_accounted s row.
Proof.
  intros AP row R. unfold doc_rows in RUN. destruct (rmap _ _) as [ls|] eqn:M; [|discriminate RUN]. injection RUN as <-. apply in_concat in R. destruct R as (m & Im & Ir).
  destruct (rmap_back _ _ _ M m Im) as ([k i] & I & E). cbn [snd] in E. destruct (section_rows _ _ i) as [l|] eqn:SR; [|discriminate E]. injection E as <-. apply in_app_or in Ir. destruct Ir as [Ir|Ir].
  - unfold section_heading in Ir. destruct (veq (t_val (tget i s)) (VStr "Root")) eqn:V; [destruct Ir|]. destruct Ir as [<-|[<-|[]]]; [left; reflexivity|]. right. exists k, i. split; [exact I|]. left. split; [|reflexivity].
    intros X. rewrite X in V. cbv in V. discriminate V.
  - clear M. right. exists k, i. split; [exact I|]. right. unfold section_rows in SR. fold (tget i s) in SR. destruct (rmap _ _) as [ts|] eqn:MT; [|discriminate SR]. injection SR as <-. apply in_map_iff in Ir. destruct Ir as (r0 & <- & Ir).
    apply in_concat in Ir. destruct Ir as (m & Im' & Ir). apply in_map_iff in Im'. destruct Im' as (pr & <- & Ip). apply in_concat in Ip. destruct Ip as (tl & It & Ip).
    destruct (rmap_back _ _ _ MT tl It) as (t & T & TR). cbn beta in TR. destruct (term_rows_sound _ _ _ TR pr Ip) as (x & X & ->).
    destruct (expand_facts x (tget i s)) as (cells & rest & E & L & A & B & C); [eapply AP; eassumption|]. apply (in_map print_row) in Ir. rewrite E in Ir. destruct Ir as [<-|Ir].
    + exists x. split; [exists t; auto|]. left. exists cells. split; [reflexivity|]. split; [exact L|exact B].
    + destruct (C _ Ir) as (c & Ic & LR). exists c. split; [exists t; split; [exact T|]; right; destruct X as [->|X]; [constructor; exact Ic|eapply under_deep; eassumption]|]. right. exact LR.
Qed.
End Rows.

(** used in examples *)
Lemma value_name_unique : forall s x n, declared_value_name s x n -> n = value_name (s_doc s) (qname s x).
Proof.
  intros s x n H. pose proof (value_name_spec s (qname s x)) as V. cbv zeta in V. unfold declared_value_name in H. fold (rt_lc (tget x s)) in H. change (parent_name s x ++ "." ++ rt_lc (tget x s))%string with (qname s x) in H.
  destruct H as [(td & A & B)|(-> & A)], V as [(td' & A' & B')|(-> & A')].
  - congruence.
  - rewrite (A' td A) in B. discriminate B.
  - rewrite (A td' A') in B'. discriminate B'.
  - reflexivity.
Qed.
Fixpoint nodupb (l : list string) : bool := match l with [] => true | x :: l => negb (existsb (eqs x) l) && nodupb l end.
Lemma nodupb_ok : forall l, nodupb l = true -> NoDup l.
Proof.
  induction l as [|x l IH]; intros H; [constructor|]. cbn in H. apply andb_true_iff in H. destruct H as (A & B). constructor; [|apply IH; exact B]. intros J. apply negb_true_iff in A.
  assert (E : existsb (eqs x) l = true) by (apply existsb_exists; exists x; split; [exact J|apply eqs_refl]). congruence.
Qed.
Definition apartb (s : st) (x : nat) : bool :=
  nodupb (map (fun c => lower (t_rt (tget c s))) (filter (fun c => match t_children (tget c s) with [] => true | _ => false end) (t_children (tget x s))))
  && forallb (fun c => match t_children (tget c s) with [] => negb (eqs (t_rt (tget c s)) "") && negb (eqs (lower (t_rt (tget c s))) (lower (value_name (s_doc s) (qname s x)))) | _ => true end) (t_children (tget x s)).
Lemma apart_check : forall s, forallb (apartb s) (seq 0 (hlen s)) = true -> forall x, apart s x.
Proof.
  intros s H x. destruct (Nat.lt_ge_cases x (hlen s)) as [X|X].
  - rewrite forallb_forall in H. specialize (H x ltac:(apply in_seq; lia)). unfold apartb in H. apply andb_true_iff in H. destruct H as (A & B). split; [apply nodupb_ok; exact A|].
    intros c C L. rewrite forallb_forall in B. specialize (B c C). rewrite L in B. apply andb_true_iff in B. destruct B as (B1 & B2). apply negb_true_iff in B1, B2. apply eqs_false in B1, B2.
    split; [exact B1|]. intros n N. apply value_name_unique in N. subst n. exact B2.
  - unfold apart. rewrite (tget_out x s X). split; [constructor|intros c []].
Qed.
Lemma dotless_all : forall s, dotless s -> forall i, dot_free (t_rt (tget i s)).
Proof. intros s D i. destruct (Nat.lt_ge_cases i (hlen s)) as [L|L]; [apply (D i L)|]. rewrite tget_out by exact L. apply dot_free_iff. reflexivity. Qed.

(** ** C36 *)
Lemma c36_complete : forall s rows, in_order s -> doc_rows s = Ok rows -> forall k i t x, In (k, i) (secs s) -> In t (t_terms (tget i s)) ->
  (forall y, y = t \/ under s t y -> apart s y) -> x = t \/ under s t x ->
  (exists row, In row rows /\ row_for s (columns_of (tget i s)) x row)
  \/ leaf s x /\ (own_row s rows x \/ in_column s (columns_of (tget i s)) rows x).
Proof. intros s rows O R. apply rows_complete; [intros i c C; apply (ok_child s (io_ok s O) i c C)|apply dotless_all; exact (io_dots s O)|exact R]. Qed.
Lemma c36_sections : forall s rows, doc_rows s = Ok rows -> forall k i, In (k, i) (secs s) -> t_val (tget i s) <> VStr "Root" ->
  In (VStr "Section" :: t_val (tget i s) :: map VStr (columns_of (tget i s))) rows.
Proof.
  intros s rows R k i I N. destruct (doc_rows_in s rows R k i I) as (l & _ & S). apply S. unfold section_heading.
  destruct (veq (t_val (tget i s)) (VStr "Root")) eqn:V; [exfalso; apply N; destruct (t_val (tget i s)); try discriminate V; cbn in V; apply eqs_true in V; subst; reflexivity|]. right. left. reflexivity.
Qed.
Lemma c36_sound : forall s rows, in_order s -> doc_rows s = Ok rows -> (forall y, apart s y) -> forall row, In row rows -> row_accounted s row.
Proof. intros s rows O R A. apply rows_sound; [intros i c C; apply (ok_child s (io_ok s O) i c C)|apply dotless_all; exact (io_dots s O)|exact R|intros; apply A]. Qed.

(** no failure: every term knows a section that has a document *)
Lemma rmap_ok : forall {A B} (f : A -> res B) l, (forall x, In x l -> exists y, f x = Ok y) -> exists m, rmap f l = Ok m.
Proof.
  intros A B f. induction l as [|a l IH]; intros H; [exists []; reflexivity|]. cbn [rmap]. destruct (H a (or_introl eq_refl)) as (b & ->). cbn [rbind].
  destruct IH as (m & ->); [intros x I; apply H; right; exact I|]. eexists. reflexivity.
Qed.

Lemma value_name_nonempty : forall s q, value_names s -> value_name (s_doc s) q <> "".
Proof.
  intros s q V. destruct (value_name_spec s q) as [(td & A & B)|(-> & _)]; [|discriminate]. intros E. rewrite E in B. apply dget_in in A. exact (V q td A B).
Qed.
Lemma term_rows_total : forall s, doc_ok s -> value_names s -> (forall x, is_plain s x -> housed s x) -> forall f i, is_plain s i -> hlen s < i + f ->
  (t_parent (tget i s) <> None \/ lower (t_pt (tget i s)) = "root") -> exists l, term_rows f (s_heap s) (s_doc s) i = Ok l.
Proof.
  intros s K V HO. induction f as [|f IH]; intros i P F R; [destruct P; lia|]. cbn [term_rows]. fold (tget i s). destruct (HO i P) as (k & j & E & I). rewrite E.
  destruct (ok_section s K k j I) as (_ & D & _). fold (tget j s). rewrite D. cbn [negb].
  assert (Q : exists q, qualified_term (s_heap s) (tget i s) = Ok q).
  { unfold qualified_term. destruct (t_parent (tget i s)); [eauto|]. destruct R as [R|R]; [contradiction|]. unfold pt_lc. rewrite R. cbn. eauto. }
  destruct Q as (q & ->). cbn [rbind]. pose proof (value_name_nonempty s q V) as N. apply eqs_false in N. rewrite N.
  destruct (rmap_ok (term_rows f (s_heap s) (s_doc s)) (filter (fun c => negb (is_terminal (hget c (s_heap s)))) (t_children (tget i s)))) as (m & ->); [|eexists; reflexivity].
  intros c C. apply filter_In in C. destruct C as (C & _). destruct (ok_child s K i c C) as (L & PC & PA). apply IH; [exact PC|lia|left; rewrite PA; discriminate].
Qed.
Lemma c36_total : forall s, doc_ok s -> value_names s -> (forall x, is_plain s x -> housed s x) -> exists rows, doc_rows s = Ok rows.
Proof.
  intros s K V HO. unfold doc_rows. edestruct (@rmap_ok (string * nat) (list (list val))) as (m & E); [|rewrite E; eexists; reflexivity].
  intros [k i] I. cbn [snd]. unfold section_rows. fold (tget i s). destruct (rmap_ok (fun t => term_rows (heap_fuel (s_heap s)) (s_heap s) (s_doc s) t) (t_terms (tget i s))) as (m & ->); [|eexists; reflexivity].
  intros t T. destruct (ok_in s K k i t I T) as (L & _). destruct (ok_listed s K t L) as (P & R & _). apply term_rows_total; [exact K|exact V|exact HO|exact P|unfold heap_fuel, hlen; lia|right; exact R].
Qed.

Lemma order_tvn : forall i v s, in_order s -> in_order (fst (modT i (set_t_tvn v) s)).
Proof.
  intros i v s [K [N1 N2] D]. rewrite modT_run. cbn [fst].
  assert (G : forall j, t_pt (tget j (hmod i (set_t_tvn v) s)) = t_pt (tget j s) /\ t_rt (tget j (hmod i (set_t_tvn v) s)) = t_rt (tget j s) /\ t_section (tget j (hmod i (set_t_tvn v) s)) = t_section (tget j s) /\ t_cls (tget j (hmod i (set_t_tvn v) s)) = t_cls (tget j s)).
  { intros j. rewrite tget_hmod_any. destruct ((j =? i) && (i <? hlen s)) eqn:E; [|auto]. apply andb_true_iff in E. destruct E as [E _]. apply Nat.eqb_eq in E. subst. auto. }
  constructor.
  - apply ok_hmod; [auto 10|reflexivity|auto|exact K].
  - constructor.
    + intros j L. rewrite (proj1 (G j)). apply N1. rewrite hlen_hmod in L. exact L.
    + intros k j I. destruct (N2 k j I) as (A & B & C). destruct (G j) as (-> & -> & -> & _). split; [exact A|]. split; [exact B|]. destruct (t_section (tget j s)) as [m|]; [|exact Logic.I].
      unfold is_sec in *. rewrite hlen_hmod. destruct (G m) as (_ & _ & _ & ->). exact C.
  - intros j L. destruct (G j) as (-> & -> & _). apply D. rewrite hlen_hmod in L. exact L.
Qed.

Lemma housed_check : forall s, forallb (fun x => is_section_cls (t_cls (tget x s)) || existsb (fun kv => match t_section (tget x s) with Some i => i =? snd kv | None => false end) (secs s)) (seq 0 (hlen s)) = true ->
  forall x, is_plain s x -> housed s x.
Proof.
  intros s H x (L & P). rewrite forallb_forall in H. specialize (H x ltac:(apply in_seq; lia)). cbv beta in H. rewrite P in H. cbn [orb] in H. apply existsb_exists in H. destruct H as ((k, i) & I & E). cbn [snd] in E.
  destruct (t_section (tget x s)) as [j|] eqn:T; [|discriminate E]. apply Nat.eqb_eq in E. subst j. exists k, i. auto.
Qed.

End WithQuirks.
