(** * EditFacts: item assignment on terms (C26) and sections (C25), moving and
    deleting (C53, C54) *)

From Verif Require Import ListFacts StrFacts HeapFacts SpecNames NameFacts SpecOrder OrderFacts Ops ConstructFacts RunFacts EmitFacts RowFacts TotalFacts FrameFacts SpecInv InvFacts ChildFacts ListOps OpFacts SecFacts SpecFind FindFacts SpecEdit AddFacts.

Section WithQuirks.
Context {QK : Quirks}.

(** ** Looking up children *)

Lemma veq_refl : forall v, veq v v = true.
Proof. intros [| s | z | | i]; cbn; [reflexivity|apply eqs_refl|apply Z.eqb_refl|reflexivity|apply Nat.eqb_refl]. Qed.

Lemma matches_called : forall s n c, child_matches (s_heap s) n VFalse c = true <-> called s n c.
Proof.
  intros s n c. unfold child_matches, called, rt_lc. fold (tget c s). rewrite andb_true_r. split; intros H; [apply eqs_true; exact H|apply eqs_true; exact H].
Qed.

Lemma find_first_called : forall s n l a c b, l = a ++ c :: b -> called s n c -> (forall x, In x a -> ~ called s n x) ->
  find (child_matches (s_heap s) n VFalse) l = Some c.
Proof.
  intros s n l a c b -> C N. induction a as [|x a IH]; cbn [find app].
  - apply matches_called in C. rewrite C. reflexivity.
  - destruct (child_matches _ _ _ x) eqn:E; [apply matches_called in E; destruct (N x (or_introl eq_refl) E)|]. apply IH. intros y Y. apply N. right. exact Y.
Qed.
Lemma find_none_called : forall s n l, (forall x, In x l -> ~ called s n x) -> find (child_matches (s_heap s) n VFalse) l = None.
Proof.
  intros s n l N. induction l as [|x l IH]; cbn; [reflexivity|]. destruct (child_matches _ _ _ x) eqn:E; [apply matches_called in E; destruct (N x (or_introl eq_refl) E)|].
  apply IH. intros y Y. apply N. right. exact Y.
Qed.

Lemma item_name : forall s i n item, dot_free n -> child_item s i n item -> child_name (tget i s) item = Ok n.
Proof.
  intros s i n item D [|a Da E]; unfold child_name.
  - apply dot_free_iff in D. rewrite D. reflexivity.
  - rewrite has_dot_mid. apply dot_free_iff in Da, D. 
    assert (X : split_on "." (a ++ "." ++ n) = [a; n]).
    { change (a ++ "." ++ n)%string with (a ++ String "." n)%string. rewrite split_on_app by exact Da. rewrite split_on_none by exact D. reflexivity. }
    rewrite X. unfold rt_lc. apply eqs_true in E. rewrite E. reflexivity.
Qed.
Lemma item_split : forall s i n item, dot_free n -> tidy n -> child_item s i n item -> exists p, split_term item = Ok (p, n).
Proof.
  intros s i n item D T [|a Da E].
  - rewrite split_term_plain by exact D. rewrite tidy_strip by exact T. eexists. reflexivity.
  - rewrite split_term_qualified by assumption. rewrite (tidy_strip n T). eexists. reflexivity.
Qed.
Lemma item_self : forall s i n item, child_item s i n item -> child_item s i n n.
Proof. intros. constructor. Qed.

Lemma find_first_one : forall s i n item c, dot_free n -> child_item s i n item -> first_child s i n c ->
  term_find_first (s_heap s) i item VFalse = Ok (Some c).
Proof.
  intros s i n item c D C (a & b & E & Cc & Ca). unfold term_find_first. fold (tget i s). rewrite (item_name s i n item D C). cbn [rbind].
  rewrite (find_first_called s n _ a c b E Cc Ca). reflexivity.
Qed.
Lemma find_first_no : forall s i n item, dot_free n -> child_item s i n item -> no_child s i n ->
  term_find_first (s_heap s) i item VFalse = Ok None.
Proof.
  intros s i n item D C N. unfold term_find_first. fold (tget i s). rewrite (item_name s i n item D C). cbn [rbind].
  rewrite (find_none_called s n _ N). reflexivity.
Qed.

Lemma first_or_none : forall s i n, (exists c, first_child s i n c) \/ no_child s i n.
Proof.
  intros s i n. unfold first_child, no_child. induction (t_children (tget i s)) as [|x l IH]; [right; intros y []|].
  destruct (child_matches (s_heap s) n VFalse x) eqn:E.
  - left. exists x, [], l. split; [reflexivity|]. split; [apply matches_called; exact E|intros y []].
  - assert (NX : ~ called s n x) by (intros X; apply matches_called in X; congruence).
    destruct IH as [(c & a & b & -> & C & A)|N].
    + left. exists c, (x :: a), b. split; [reflexivity|]. split; [exact C|]. intros y [<-|Y]; [exact NX|apply A; exact Y].
    + right. intros y [<-|Y]; [exact NX|apply N; exact Y].
Qed.

(** assignment keeps names, so the same children are found *)
Lemma called_set_val : forall s c v n x, called (hmod c (set_t_val v) s) n x <-> called s n x.
Proof. intros s c v n x. unfold called. rewrite tget_hmod_any. destruct (Nat.eqb_spec x c) as [->|]; cbn [andb]; [destruct (c <? hlen s)|]; reflexivity. Qed.
Lemma first_set_val : forall s i n c v, first_child s i n c -> first_child (hmod c (set_t_val v) s) i n c.
Proof.
  intros s i n c v (a & b & E & C & A). exists a, b. split; [|split; [apply called_set_val; exact C|intros x X Y; apply called_set_val in Y; exact (A x X Y)]].
  rewrite tget_hmod_any. destruct (Nat.eqb_spec i c) as [->|]; cbn [andb]; [destruct (c <? hlen s)|]; exact E.
Qed.
Lemma item_set_val : forall s i n c v item, child_item s i n item -> child_item (hmod c (set_t_val v) s) i n item.
Proof.
  intros s i n c v item [|a Da E]; constructor; [exact Da|]. rewrite E. rewrite tget_hmod_any. destruct (Nat.eqb_spec i c) as [->|]; cbn [andb]; [destruct (c <? hlen s)|]; reflexivity.
Qed.

(** ** term[name] = v *)

Lemma setitem_own : forall s i item v, own_value s i item -> term_setitem i item v s = (hmod i (set_t_val v) s, Ok tt).
Proof.
  intros s i item v O. unfold term_setitem. fw.
  assert (E : eqs (lower item) (lower (t_tvn (tget i s))) || eqs (lower item) "value" = true).
  { destruct O as [O|O]; apply eqs_true in O; rewrite O; [reflexivity|apply orb_true_r]. }
  rewrite E. reflexivity.
Qed.

Lemma not_own : forall s i item, ~ own_value s i item -> eqs (lower item) (lower (t_tvn (tget i s))) = false /\ eqs (lower item) "value" = false.
Proof.
  intros s i item N. split; apply eqs_false; intros E; apply N; [left|right]; exact E.
Qed.

Lemma setitem_old : forall s i n item c v, doc_ok s -> dot_free n -> tidy n -> child_item s i n item -> ~ own_value s i item ->
  first_child s i n c -> v <> VNone -> v <> VFalse -> term_setitem i item v s = (hmod c (set_t_val v) s, Ok tt).
Proof.
  intros s i n item c v K D T CI NO FC N1 N2. destruct (not_own s i item NO) as [O1 O2].
  assert (Lc : c < hlen s). { destruct FC as (a & b & E & _). apply (ok_child s K i c). rewrite E. apply in_or_app. right. left. reflexivity. }
  unfold term_setitem. fw. rewrite O1, O2. cbn [orb].
  assert (X : set_child_item i item v s = (hmod c (set_t_val v) s, Ok tt)).
  { destruct (item_split s i n item D T CI) as (p & SP).
    set (s1 := hmod c (set_t_val v) s).
    assert (F1 : forall it, child_item s1 i n it -> term_find_first (s_heap s1) i it VFalse = Ok (Some c)).
    { intros it It. apply (find_first_one s1 i n it c D It). apply first_set_val. exact FC. }
    unfold set_child_item. eapply bind_fw.
    { unfold get_or_new_child0. eapply bind_fw; [rewrite SP; reflexivity|]. cbn iota beta. fw. fw. rewrite (find_first_one s i n n c D (item_plain s i n) FC).
      fw. eapply bind_fw.
      { cbn iota. eapply bind_fw; [|reflexivity]. instantiate (1 := tt). instantiate (1 := s1). destruct v; try contradiction; reflexivity. }
      eapply bind_fw; [|reflexivity]. unfold goc_check. fw. rewrite (F1 n (item_plain s1 i n)). fw. cbn iota. rewrite Nat.eqb_refl. reflexivity. }
    fw. unfold term_getitem. fold (tget i s1). assert (TV : t_tvn (tget i s1) = t_tvn (tget i s)).
    { unfold s1. rewrite tget_hmod_any. destruct (Nat.eqb_spec i c) as [->|]; cbn [andb]; [destruct (c <? hlen s)|]; reflexivity. }
    rewrite TV, O1. rewrite (F1 item (item_set_val s i n c v item CI)). cbn [rbind]. fw. fold (tget c s1).
    assert (V : t_val (tget c s1) = v). { unfold s1. rewrite tget_hmod_any, Nat.eqb_refl. apply Nat.ltb_lt in Lc. rewrite Lc. reflexivity. }
    rewrite V, veq_refl. reflexivity. }
  destruct v; try contradiction; exact X.
Qed.

(** the record of the child made by an assignment *)
Definition item_rec (s : st) (i : nat) (n : string) (v : val) : trec :=
  fresh_plain (doc_term_class (lower (t_rt (tget i s) ++ "." ++ n)) s) (t_rt (tget i s) ++ "." ++ n) (t_rt (tget i s)) (lower n) v [] None None None (Some i) true (t_section (tget i s)).
Definition with_child (s : st) (i : nat) (R : trec) : st := hmod i (fun q => set_t_children (t_children q ++ [hlen s]) q) (push R s).

Lemma tget_with_child : forall s i R j, i < hlen s -> tget j (with_child s i R) =
  if j =? i then set_t_children (t_children (tget i s) ++ [hlen s]) (tget i s) else if j =? hlen s then R else tget j s.
Proof.
  intros s i R j L. unfold with_child. rewrite tget_hmod_any, hlen_push. assert (X : i <? S (hlen s) = true) by (apply Nat.ltb_lt; lia). rewrite X, andb_true_r.
  rewrite !tget_push_any. destruct (Nat.eqb_spec i (hlen s)); [lia|]. destruct (j =? i); reflexivity.
Qed.

Lemma term_is_datafile : forall pt rt, dot_free pt -> term_is_name pt rt "Datafile.Section" = Ok (eqs "datafile" (lower pt) && eqs "section" (lower rt)).
Proof.
  intros pt rt D. change "Datafile.Section" with ("Datafile" ++ "." ++ "Section")%string. rewrite (term_is_qualified pt rt "Datafile" "Section"); [reflexivity|exact D|apply dot_free_iff; reflexivity|apply dot_free_iff; reflexivity|discriminate|apply tidy_iff; split; reflexivity|apply tidy_iff; split; reflexivity].
Qed.

Lemma setitem_new : forall s i n item x, is_plain s i -> t_doc (tget i s) = true -> dot_free n -> tidy n -> child_item s i n item -> ~ own_value s i item ->
  no_child s i n -> made_name (t_rt (tget i s)) -> allowed_child s i n ->
  is_section_cls (doc_term_class (lower (t_rt (tget i s) ++ "." ++ n)) s) = false ->
  (forall c, In c (t_children (tget i s)) -> c < hlen s) -> tidy x ->
  term_setitem i item (VStr x) s = (with_child s i (item_rec s i n (VStr x)), Ok tt).
Proof.
  intros s i n item x Pi Di D T CI NO NC (M1 & M2 & M3 & M4) AL CL LT TX. destruct (not_own s i item NO) as [O1 O2].
  pose proof (proj1 Pi) as Li. set (R := item_rec s i n (VStr x)). set (s1 := with_child s i R).
  assert (TS : forall j, j < hlen s -> t_rt (tget j s1) = t_rt (tget j s) /\ t_tvn (tget j s1) = t_tvn (tget j s)).
  { intros j L. unfold s1. rewrite tget_with_child by exact Li. destruct (Nat.eqb_spec j i) as [->|]; [split; reflexivity|].
    destruct (Nat.eqb_spec j (hlen s)); [lia|]. split; reflexivity. }
  assert (NEW : tget (hlen s) s1 = R). { unfold s1. rewrite tget_with_child by exact Li. destruct (Nat.eqb_spec (hlen s) i); [lia|]. rewrite Nat.eqb_refl. reflexivity. }
  assert (FC : first_child s1 i n (hlen s)).
  { exists (t_children (tget i s)), []. split; [unfold s1; rewrite tget_with_child, Nat.eqb_refl by exact Li; reflexivity|]. split.
    - unfold called. rewrite NEW. cbn. apply lower_idem.
    - intros y Y C. apply (NC y Y). unfold called in *. destruct (TS y (LT y Y)) as [E _]. rewrite E in C. exact C. }
  assert (CI1 : child_item s1 i n item). { destruct CI as [|a Da E]; constructor; [exact Da|]. rewrite E. destruct (TS i Li) as [E' _]. rewrite E'. reflexivity. }
  assert (X : set_child_item i item (VStr x) s = (s1, Ok tt)).
  { destruct (item_split s i n item D T CI) as (p & SP).
    unfold set_child_item. eapply bind_fw.
    { unfold get_or_new_child0. eapply bind_fw; [rewrite SP; reflexivity|]. cbn iota beta. fw. fw. rewrite (find_first_no s i n n D (item_plain s i n) NC).
      fw. eapply bind_fw.
      { cbn iota. rewrite Di. fw. fw. cbv zeta. eapply bind_fw.
        - apply (construct_plain_fw _ _ _ _ _ _ _ _ _ _ _ (t_rt (tget i s)) (lower n)); [exact CL| |].
          + unfold term_names. unfold dotted. unfold split_term_lower. rewrite split_term_qualified by assumption. rewrite !tidy_strip by assumption.
            apply eqs_false in M3. rewrite M3. cbn [rbind]. rewrite M4. fold (tget i s). rewrite if_same. reflexivity.
          + intros j E. injection E as <-. reflexivity.
        - cbv beta. match goal with |- context[push ?r s] => change r with R end. fw. rewrite push_new.
          assert (TI : term_is R "Datafile.Section" = Ok false).
          { unfold term_is. change (t_pt R) with (t_rt (tget i s)). change (t_rt R) with (lower n). rewrite term_is_datafile by exact M2. rewrite lower_idem.
            eqs_cases "datafile" (lower (t_rt (tget i s))); [|reflexivity]. eqs_cases "section" (lower n); [|reflexivity]. destruct AL. auto. }
          rewrite TI. fw. cbn [negb]. eapply bind_fw; [reflexivity|]. cbv beta. fw. reflexivity. }
      cbv beta. fold (with_child s i R). fold s1. eapply bind_fw; [|reflexivity]. unfold goc_check. fw. rewrite (find_first_one s1 i n n (hlen s) D (item_plain s1 i n) FC). fw. cbn iota. rewrite Nat.eqb_refl. reflexivity. }
    cbv beta. fw. unfold term_getitem. fold (tget i s1). destruct (TS i Li) as [_ TV]. rewrite TV, O1. rewrite (find_first_one s1 i n item (hlen s) D CI1 FC). cbn [rbind]. fw. fold (tget (hlen s) s1).
    rewrite NEW. change (t_val R) with (init_val (VStr x)).
    assert (V : veq (init_val (VStr x)) (VStr x) || veq (init_val (VStr x)) VNone && veq (VStr x) (VStr "") = true).
    { unfold init_val. cbn [truthy strip_val]. destruct x as [|c x]; [reflexivity|]. cbn [nonempty]. rewrite (tidy_strip _ TX). rewrite veq_refl. reflexivity. }
    rewrite V. reflexivity. }
  unfold term_setitem. fw. rewrite O1, O2. cbn [orb]. exact X.
Qed.

Lemma setitem_none : forall s i n item, dot_free n -> child_item s i n item -> ~ own_value s i item -> no_child s i n ->
  term_setitem i item VNone s = (s, Ok tt).
Proof.
  intros s i n item D CI NO NC. destruct (not_own s i item NO) as [O1 O2]. unfold term_setitem. fw. rewrite O1, O2. cbn [orb]. fw.
  rewrite (find_first_no s i n item D CI NC). fw. reflexivity.
Qed.
Lemma setitem_del : forall s i n item c, doc_ok s -> is_plain s i -> t_doc (tget i s) = true -> dot_free n -> child_item s i n item -> ~ own_value s i item ->
  first_child s i n c -> removable s c -> term_setitem i item VNone s = (orphaned c s, Ok tt).
Proof.
  intros s i n item c K Pi Di D CI NO FC RM. destruct (not_own s i item NO) as [O1 O2]. unfold term_setitem. fw. rewrite O1, O2. cbn [orb]. fw.
  rewrite (find_first_one s i n item c D CI FC). fw. cbn iota. apply remove_child_run; try assumption. destruct FC as (a & b & -> & _). apply in_or_app. right. left. reflexivity.
Qed.
Lemma orphaned_children : forall s i n c, doc_ok s -> first_child s i n c ->
  (forall j, tget j (orphaned c s) = if j =? i then set_t_children (without c (t_children (tget i s))) (tget i s) else tget j s).
Proof.
  intros s i n c K FC j. assert (I : In c (t_children (tget i s))) by (destruct FC as (a & b & -> & _); apply in_or_app; right; left; reflexivity).
  destruct (ok_child s K i c I) as (L & P & PA). unfold orphaned. rewrite PA. rewrite tget_hmod_any. assert (Li : i <? hlen s = true) by (apply Nat.ltb_lt; destruct P; lia).
  rewrite Li, andb_true_r. destruct (j =? i); [|reflexivity]. rewrite without_first by apply (ok_children s K). reflexivity.
Qed.

(** ** section[name] = v *)

Lemma found_any_value : forall s p v sa i, found s p v sa i -> found s p VFalse sa i.
Proof. intros s p v sa i (A & B & C & _). split; [exact A|]. split; [exact B|]. split; [exact C|left; reflexivity]. Qed.

Lemma picked_sub : forall {A} (P Q : A -> Prop) l r r', (forall x, P x -> Q x) -> picked P l r -> picked Q l r' -> incl r r'.
Proof.
  intros A P Q l r r' PQ (f & F & ->) (g & G & ->) x X. apply filter_In in X. destruct X as [X Y]. apply filter_In. split; [exact X|]. apply G; [exact X|]. apply PQ. apply F; assumption.
Qed.
Lemma in_nil_nil : forall {A} (l : list A), incl l [] -> l = [].
Proof. intros A [|x l] I; [reflexivity|]. destruct (I x (or_introl eq_refl)). Qed.

Lemma new_term_class : forall s sec term value s' t, Ops.new_term sec term value [] s = (s', Ok t) -> is_section_cls (doc_term_class (lower term) s) = false.
Proof.
  intros s sec term value s' t H. unfold Ops.new_term in H. rg H. rb H as s1 u H1. rg H. assert (s1 = s) by (destruct (t_doc _); [injection H1 as <- _; reflexivity|discriminate H1]). subst s1.
  rb H as s2 t2 H2. destruct (doc_term_class (lower term) s); cbn in H2 |- *; try reflexivity; discriminate H2.
Qed.

Section SetItem.
  Variables (s : st) (k : string) (sec : nat) (item n nm : string) (v : val).
  Hypotheses (K : doc_ok s) (N : names_ok s) (I : In (k, sec) (secs s)) (OD : ~ odd k) (NM : t_val (tget sec s) = VStr nm)
    (CN : cell_names item "root" n) (NR : n <> "root") (T : tidy_pattern item)
    (DE : dget (lower item) (d_derived (s_doc s)) = None)
    (CL : is_section_cls (doc_term_class (lower item) s) = false)
    (NV : v <> VNone).

  Lemma set_same : forall t r, doc_find s item v (SOne nm) = Ok (t :: r) -> t_val (tget t s) = v -> section_setitem sec item v s = (s, Ok tt).
  Proof.
    intros t r F V. assert (HI : hmod t (set_t_val v) s = s) by (apply hmod_id; rewrite <- V; destruct (tget t s); reflexivity).
    unfold section_setitem. eapply bind_fw; [|reflexivity]. unfold get_or_new_term. eapply bind_fw.
    - unfold PyBase.reads, section_get_term, section_name. rewrite NM. cbn [secarg_of]. unfold doc_find_first. rewrite F. cbn [rbind hd_error]. reflexivity.
    - cbn iota. eapply bind_fw with (s1 := s) (a := tt). { rewrite <- HI at 2. destruct v; try contradiction; apply modT_run. } cbn [mapM_]. fw. reflexivity.
  Qed.

  Lemma head_filter : forall {A} (f g : A -> bool) l t r, filter f l = t :: r -> (forall x, In x l -> g x = true -> f x = true) -> g t = true ->
    exists r', filter g l = t :: r'.
  Proof.
    intros A f g l t r. induction l as [|x l IH]; intros E S G; [discriminate E|]. cbn [filter] in *. destruct (f x) eqn:FX.
    - injection E as <- _. rewrite G. eexists. reflexivity.
    - destruct (g x) eqn:GX; [rewrite (S x (or_introl eq_refl) GX) in FX; discriminate FX|]. apply IH; [exact E| |exact G]. intros y Y. apply S. right. exact Y.
  Qed.

  Lemma find_top_ok : forall s0 w, doc_ok s0 -> names_ok s0 -> d_derived (s_doc s0) = d_derived (s_doc s) ->
    exists r, doc_find s0 item w (SOne nm) = Ok r /\ picked (found s0 item w (SOne nm)) (listed s0) r /\ find1 s0 item w (SOne nm) = Ok r.
  Proof.
    intros s0 w K0 N0 D0. destruct (cell_denotes item n CN T) as [TP _].
    destruct (find1_spec s0 item w (SOne nm) K0 N0 T) as (l & r & E & C & P & _). apply (cand_top_only s0 item l TP) in C. subst l. exists r.
    split; [unfold doc_find; rewrite D0, DE; exact E|]. auto.
  Qed.

  (** the first term of that name has the value already *)
  Lemma set_first : forall t r, doc_find s item VFalse (SOne nm) = Ok (t :: r) -> t_val (tget t s) = v -> section_setitem sec item v s = (s, Ok tt).
  Proof.
    intros t r F V.
    destruct (find_top_ok s VFalse K N eq_refl) as (r0 & E0 & (f & F0 & P0) & _). rewrite F in E0. injection E0 as <-.
    destruct (find_top_ok s v K N eq_refl) as (r1 & E1 & (g & G1 & P1) & _).
    assert (IL : In t (listed s) /\ f t = true). { apply filter_In. rewrite <- P0. left. reflexivity. } destruct IL as [IL FT].
    destruct (head_filter f g (listed s) t r (eq_sym P0)) as (r' & E).
    - intros x X GX. apply F0; [exact X|]. apply (found_any_value s item v). apply G1; assumption.
    - apply G1; [exact IL|]. apply F0 in FT; [|exact IL]. destruct FT as (A & B & C & _). split; [exact A|]. split; [exact B|]. split; [exact C|]. right. left. symmetry. exact V.
    - rewrite E in P1. subst r1. apply (set_same t r' E1 V).
  Qed.

  (** there is no such term with this value: a new one is added *)
  Lemma set_new : doc_find s item v (SOne nm) = Ok [] -> 
    exists s' t, section_setitem sec item v s = (s', Ok tt) /\ Ops.new_term sec item v [] s = (s', Ok t).
  Proof.
    intros F. destruct (new_term_run s k sec item v n K I OD CN CL) as (s' & H). exists s', (hlen s). split; [|exact H].
    unfold section_setitem. eapply bind_fw; [|reflexivity]. unfold get_or_new_term. eapply bind_fw.
    - unfold PyBase.reads, section_get_term, section_name. rewrite NM. cbn [secarg_of]. unfold doc_find_first. rewrite F. cbn [rbind hd_error]. reflexivity.
    - cbn iota. exact H.
  Qed.

  Lemma set_absent : doc_find s item VFalse (SOne nm) = Ok [] ->
    exists s' t, section_setitem sec item v s = (s', Ok tt) /\ section_get_term s' sec item VFalse = Ok (Some t) /\ t_val (tget t s') = init_val v
      /\ Ops.new_term sec item v [] s = (s', Ok t).
  Proof.
    intros F0.
    destruct (find_top_ok s VFalse K N eq_refl) as (r0 & E0 & P0 & E0'). rewrite F0 in E0. injection E0 as <-.
    destruct (find_top_ok s v K N eq_refl) as (r1 & E1 & P1 & _).
    assert (r1 = []). { apply in_nil_nil. eapply picked_sub; [|exact P1|exact P0]. apply found_any_value. } subst r1.
    destruct (set_new E1) as (s' & t & S1 & H). exists s', t. split; [exact S1|].
    destruct (new_term_found s k sec item v [] s' t K N I OD (cell_names_root _ _ CN) H) as (K' & N' & L & _).
    destruct (new_term_ok s k sec item v [] s' t K I OD (cell_names_root _ _ CN) H) as (_ & -> & c & n' & R & Rs & C & CN' & ER & F2 & ES).
    pose proof (secs_lt s k sec K I) as Ls.
    destruct (with_meta_fields (s_doc s) (t_dtvn (tget sec s)) (set_t_children (seq (S (hlen s)) (List.length (@nil (string * val)))) (fresh_plain c item "root" n' v [] None None None None true (Some sec)))) as (a & b & W).
    rewrite W in ER.
    assert (VT : t_val (tget (hlen s) s') = init_val v). { rewrite ES, appended_new by exact Ls. rewrite ER. reflexivity. }
    assert (LI : section_is s' (SOne nm) (hlen s)).
    { exists sec, nm. rewrite ES. rewrite appended_new, appended_sec by exact Ls. rewrite ER. cbn. auto. }
    assert (DV : d_derived (s_doc s') = d_derived (s_doc s)) by (rewrite ES, appended_doc; reflexivity).
    destruct (find_top_ok s' VFalse K' N' DV) as (r2 & E2 & P2 & E2').
    assert (FL : found_last s' item VFalse (SOne nm) (hlen s)).
    { apply (L n CN NR); [intros ds X; congruence|exact T|left; reflexivity|exact LI]. }
    destruct FL as (r3 & E3). rewrite E2 in E3. injection E3 as ->.
    assert (R3 : r3 = []).
    { subst s'. destruct (cell_denotes item n CN T) as [TP _]. destruct (find1_appended s k sec R Rs item VFalse (SOne nm) [] K N I K' N' TP E0') as [X Y].
      assert (Z : found (appended (hlen s) sec R Rs s) item VFalse (SOne nm) (hlen s)). { apply (picked_in _ _ _ _ P2). apply in_or_app. right. left. reflexivity. }
      specialize (X Z). rewrite X in E2'. injection E2' as E2'. destruct r3; [reflexivity|]. destruct r3; discriminate E2'. }
    subst r3. split; [|split; [exact VT|exact H]].
    unfold section_get_term, section_name. assert (VN : t_val (tget sec s') = VStr nm) by (rewrite ES, appended_sec by exact Ls; exact NM).
    rewrite VN. cbn [secarg_of]. unfold doc_find_first. rewrite E2. reflexivity.
  Qed.

  (** there are terms of that name, and the first has another value: it stays first *)
  Lemma set_other : forall t r, doc_find s item VFalse (SOne nm) = Ok (t :: r) -> ~ value_is v (t_val (tget t s)) ->
    exists s', section_setitem sec item v s = (s', Ok tt) /\ section_get_term s' sec item VFalse = Ok (Some t) /\ t_val (tget t s') = t_val (tget t s).
  Proof.
    intros t r F0 NE.
    destruct (find_top_ok s VFalse K N eq_refl) as (r0 & E0 & P0 & E0'). rewrite F0 in E0. injection E0 as <-.
    destruct (find_top_ok s v K N eq_refl) as (r1 & E1 & P1 & _).
    assert (GT : forall s0 r0, t_val (tget sec s0) = VStr nm -> doc_find s0 item VFalse (SOne nm) = Ok (t :: r0) -> section_get_term s0 sec item VFalse = Ok (Some t)).
    { intros s0 r0 A B. unfold section_get_term, section_name. rewrite A. cbn [secarg_of]. unfold doc_find_first. rewrite B. reflexivity. }
    destruct r1 as [|t1 r1].
    - destruct (set_new E1) as (s' & t' & S1 & H). exists s'. split; [exact S1|].
      destruct (new_term_found s k sec item v [] s' t' K N I OD (cell_names_root _ _ CN) H) as (K' & N' & _ & L).
      destruct (new_term_ok s k sec item v [] s' t' K I OD (cell_names_root _ _ CN) H) as (_ & -> & c & n' & R & Rs & C & CN' & ER & F2 & ES).
      pose proof (secs_lt s k sec K I) as Ls.
      assert (DV : d_derived (s_doc s') = d_derived (s_doc s)) by (rewrite ES, appended_doc; reflexivity).
      destruct (find_top_ok s' VFalse K' N' DV) as (r2 & E2 & P2 & E2').
      assert (VN : t_val (tget sec s') = VStr nm) by (rewrite ES, appended_sec by exact Ls; exact NM).
      destruct (cell_denotes item n CN T) as [TP _].
      assert (LT : In t (listed s)). { apply (picked_in _ _ _ t) in P0. destruct P0 as [P0 _]. apply P0. left. reflexivity. }
      destruct (ok_listed s K t LT) as (PT & _). destruct (ok_section s K _ _ I) as (SS & _).
      split.
      + destruct (L item VFalse (SOne nm) (t :: r) TP E0') as [X|X]; rewrite X in E2'; injection E2' as <-; (eapply GT; [exact VN|exact E2]).
      + rewrite ES. f_equal. apply appended_old; [apply PT|exact Ls|]. intros ->. exact (sec_plain _ _ SS PT).
    - assert (V1 : value_is v (t_val (tget t1 s))). { apply (picked_in _ _ _ t1) in P1. destruct P1 as [P1 _]. destruct (P1 (or_introl eq_refl)) as (_ & _ & _ & _ & X). exact X. }
      exists (hmod t1 (set_t_val v) s).
      assert (S1 : section_setitem sec item v s = (hmod t1 (set_t_val v) s, Ok tt)).
      { unfold section_setitem. eapply bind_fw; [|reflexivity]. unfold get_or_new_term. eapply bind_fw.
        - unfold PyBase.reads, section_get_term, section_name. rewrite NM. cbn [secarg_of]. unfold doc_find_first. rewrite E1. cbn [rbind hd_error]. reflexivity.
        - cbn iota. eapply bind_fw with (s1 := hmod t1 (set_t_val v) s) (a := tt). { destruct v; try contradiction; apply modT_run. } cbn [mapM_]. fw. reflexivity. }
      split; [exact S1|].
      assert (N1 : t1 <> t) by (intros ->; contradiction).
      assert (LT1 : In t1 (listed s)). { apply (picked_in _ _ _ t1) in P1. destruct P1 as [P1 _]. apply P1. left. reflexivity. }
      destruct (ok_listed s K t1 LT1) as (PT1 & _). destruct (ok_section s K _ _ I) as (SS & _).
      assert (NS : t1 <> sec) by (intros ->; exact (sec_plain _ _ SS PT1)).
      assert (SAME : forall j, t_val (tget j (hmod t1 (set_t_val v) s)) = if j =? t1 then v else t_val (tget j s)).
      { intros j. rewrite tget_hmod by apply PT1. destruct (j =? t1); reflexivity. }
      assert (TV : t_val (tget t (hmod t1 (set_t_val v) s)) = t_val (tget t s)). { rewrite SAME. destruct (Nat.eqb_spec t t1); [congruence|reflexivity]. }
      split; [|exact TV].
      assert (VN : t_val (tget sec (hmod t1 (set_t_val v) s)) = VStr nm). { rewrite SAME. destruct (Nat.eqb_spec sec t1); [congruence|exact NM]. }
      set (s' := hmod t1 (set_t_val v) s) in *.
      assert (FLD : forall {A} (f : trec -> A) j, (forall q x, f (set_t_val x q) = f q) -> f (tget j s') = f (tget j s)).
      { intros A f j FF. unfold s'. rewrite tget_hmod by apply PT1. destruct (Nat.eqb_spec j t1) as [->|]; [apply FF|reflexivity]. }
      assert (K' : doc_ok s'). { destruct (tends_mod s t1 (set_t_val v) K (proj2 PT1)) as [X _]; [intros q; auto 10|exact X]. }
      assert (N' : names_ok s').
      { constructor.
        - intros i L. unfold s' in L. rewrite hlen_hmod in L. rewrite (FLD _ t_pt) by reflexivity. apply (nm_dots s N i L).
        - intros k' i I'. destruct (nm_sections s N k' i I') as (A & B & C). rewrite (FLD _ t_pt), (FLD _ t_rt), (FLD _ t_section) by reflexivity. split; [exact A|]. split; [exact B|].
          destruct (t_section (tget i s)) as [j|]; [|exact C]. unfold is_sec in *. rewrite (FLD _ t_cls) by reflexivity. unfold s'. rewrite hlen_hmod. exact C. }
      assert (DV : d_derived (s_doc s') = d_derived (s_doc s)) by reflexivity.
      destruct (find_top_ok s' VFalse K' N' DV) as (r2 & E2 & P2 & E2').
      assert (P2' : picked (found s' item VFalse (SOne nm)) (listed s') (t :: r)).
      { change (listed s') with (listed s). eapply picked_ext; [|exact P0]. intros x X. unfold found. rewrite (FLD _ t_pt), (FLD _ t_rt) by reflexivity.
        destruct (ok_listed s K x X) as (PX & _). destruct (ok_plain s K x PX) as (j & SJ & SJ').
        assert (VJ : t_val (tget j s') = t_val (tget j s)). { unfold s'. rewrite SAME. destruct (Nat.eqb_spec j t1) as [->|]; [destruct (sec_plain _ _ SJ' PT1)|reflexivity]. }
        assert (LI : section_is s (SOne nm) x <-> section_is s' (SOne nm) x).
        { cbn. unfold lies_in. rewrite (FLD _ t_section) by reflexivity. split; intros (j' & m & A & B & C); rewrite SJ in A; injection A as <-; exists j, m; (split; [exact SJ|]); (split; [|exact C]); congruence. }
        rewrite LI. split; intros (A & B & C & D); (split; [exact A|]); (split; [exact B|]); (split; [exact C|left; reflexivity]). }
      pose proof (picked_unique _ _ _ _ P2 P2') as ->. eapply GT; [exact VN|exact E2].
  Qed.
End SetItem.

(** ** section.move_term and del section[name] *)

Definition only_more (t : nat) (s s' : st) : Prop := forall i, In t (t_terms (tget i s)) -> In t (t_terms (tget i s')).
Lemma only_more_po : forall t, preorder (only_more t).
Proof. intros t. split; unfold only_more; auto. Qed.
Lemma only_more_hmod : forall t i f s, (forall r, In t (t_terms r) -> In t (t_terms (f r))) -> only_more t s (hmod i f s).
Proof.
  intros t i f s H j J. rewrite tget_hmod_any. destruct (Nat.eqb_spec j i) as [->|]; cbn [andb]; [|exact J]. destruct (i <? hlen s); [apply H; exact J|exact J].
Qed.

Definition move_tail (sec t : nat) (dt : bool) : MM unit :=
  (if dt then ret tt else raise EAttr) ;;;
  doc_add_term_nosec t ;;;
  h <- gets s_heap ;;
  set_ownership (heap_fuel h) t.

Lemma move_tail_keeps : forall t sec dt x, pres (only_more x) (move_tail sec t dt).
Proof.
  intros t sec dt x. pose proof (only_more_po x) as PO. unfold move_tail.
  apply pres_bind; [exact PO|destruct dt; [apply pres_ret|apply pres_raise]; exact PO|]. intros _.
  apply pres_bind; [exact PO| |].
  { unfold doc_add_term_nosec. apply pres_bind; [exact PO| |].
    - unfold add_term_list. apply pres_bind; [exact PO| |].
      + apply pres_modT. intros s. apply only_more_hmod. intros r0 I. exact I.
      + intros _. apply pres_bind; [exact PO|apply pres_gets; exact PO|]. intros d. destruct (mem_id t (d_terms d)); [apply pres_ret; exact PO|].
        apply pres_getT; [exact PO|]. intros r1. apply pres_bind; [exact PO|apply pres_assert; exact PO|]. intros _. apply pres_bind; [exact PO| |intros _; apply pres_ret; exact PO].
        destruct (is_section_cls (t_cls r1)).
        * apply pres_bind; [exact PO| |intros _; apply pres_ret; exact PO]. unfold add_section. apply pres_bind; [exact PO|apply pres_modT; intros s; apply only_more_hmod; intros r2 I; exact I|].
          intros _. apply pres_getT; [exact PO|]. intros r2. apply pres_bind; [exact PO|apply pres_assert; exact PO|]. intros _. apply pres_bind; [exact PO|apply pres_lift; exact PO|]. intros nm.
          apply pres_bind; [exact PO|apply pres_gets; exact PO|]. intros d'. destruct (dget _ _); [apply pres_ret; exact PO|]. apply pres_bind; [exact PO| |intros _; apply pres_ret; exact PO].
          apply pres_modD. intros s i I. exact I.
        * apply pres_modD. intros s i I. exact I.
    - intros b. apply pres_when; [exact PO|]. unfold add_term_meta. apply pres_getT; [exact PO|]. intros r1. apply pres_bind; [exact PO|apply pres_gets; exact PO|]. intros d. cbv zeta.
      apply pres_bind; [exact PO|apply pres_when; [exact PO|]; apply pres_modT; intros s; apply only_more_hmod; intros r2 I; exact I|]. intros _.
      apply pres_bind; [exact PO|destruct (eqs _ _); [apply pres_ret; exact PO|]; destruct (t_section r1); [apply pres_ret|apply pres_raise]; exact PO|]. intros _.
      apply pres_bind; [exact PO|apply pres_gets; exact PO|]. intros h. cbv zeta. apply pres_bind; [exact PO| |intros _; apply pres_assert; exact PO].
      destruct (_ || _); [|apply pres_ret; exact PO]. destruct (t_section r1); [|apply pres_raise; exact PO]. apply pres_modT. intros s. apply only_more_hmod. intros r2 I. exact I. }
  intros _. apply pres_bind; [exact PO|apply pres_gets; exact PO|]. intros h. apply pres_ownership; [exact PO|]. intros c a b d s. apply only_more_hmod. intros r2 I. exact I.
Qed.

Lemma move_unfold : forall t sec, section_add_term sec t =
  (s <- getT sec ;; r <- getT t ;;
   (if mem_id t (t_terms s) then ret tt
    else if eqs (pt_lc r) "root" then modT sec (fun s => set_t_terms (t_terms s ++ [t]) s) ;;; move_tail sec t (t_doc s)
    else raise EGenerate) ;;;
   r <- getT t ;;
   assert_ (match t_section r with Some _ => true | None => eqs (join_lc r) "root.root" end)).
Proof. reflexivity. Qed.

Lemma move_keeps : forall t sec x, pres (only_more x) (section_add_term sec t).
Proof.
  intros t sec x. pose proof (only_more_po x) as PO. rewrite move_unfold.
  apply pres_getT; [exact PO|]. intros r. apply pres_getT; [exact PO|]. intros q. apply pres_bind; [exact PO| |].
  - destruct (mem_id t (t_terms r)); [apply pres_ret; exact PO|]. destruct (eqs (pt_lc q) "root"); [|apply pres_raise; exact PO].
    apply pres_bind; [exact PO| |].
    { apply pres_modT. intros s. apply only_more_hmod. intros r0 I. cbn. apply in_or_app. left. exact I. }
    intros _. apply move_tail_keeps.
  - intros _. apply pres_getT; [exact PO|]. intros r2. apply pres_assert. exact PO.
Qed.

Lemma move_listed : forall s sec t s', sec < hlen s -> section_add_term sec t s = (s', Ok tt) -> In t (t_terms (tget sec s')).
Proof.
  intros s sec t s' L H. destruct (mem_id t (t_terms (tget sec s))) eqn:M.
  - apply (move_keeps t sec t s s' _ H). apply mem_id_in. exact M.
  - rewrite move_unfold in H. rg H. rg H. rewrite M in H. rb H as s1 u H1. destruct (eqs (pt_lc (tget t s)) "root"); [|discriminate H1].
    rg H1. rg H. apply assert_any in H. destruct H as [-> _].
    apply (move_tail_keeps t sec _ t _ _ _ H1). rewrite tget_hmod, Nat.eqb_refl by exact L. cbn. apply in_or_app. right. left. reflexivity.
Qed.

Lemma delitem_absent : forall s sec item, (forall t, In t (t_terms (tget sec s)) -> lower (t_term (tget t s)) <> lower item) -> section_delitem sec item s = (s, Ok tt).
Proof.
  intros s sec item H. unfold section_delitem. fw. fw. assert (E : existsb (fun t => eqs (lower (t_term (hget t (s_heap s)))) (lower item)) (t_terms (tget sec s)) = false).
  { apply not_true_is_false. intros X. apply existsb_exists in X. destruct X as (t & A & B). apply (H t A). apply eqs_true. exact B. }
  rewrite E. reflexivity.
Qed.
Lemma delitem_present : forall s sec item t, In t (t_terms (tget sec s)) -> lower (t_term (tget t s)) = lower item -> section_delitem sec item s = (s, Err EAttr).
Proof.
  intros s sec item t I E. unfold section_delitem. fw. fw. assert (X : existsb (fun t => eqs (lower (t_term (hget t (s_heap s)))) (lower item)) (t_terms (tget sec s)) = true).
  { apply existsb_exists. exists t. split; [exact I|]. apply eqs_true. exact E. }
  rewrite X. reflexivity.
Qed.

End WithQuirks.
