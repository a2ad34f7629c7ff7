(** * YamlDocFacts: the document of a YAML file *)

From Verif Require Import ListFacts StrFacts HeapFacts SpecNames NameFacts Ops Parser ConstructFacts RunFacts RowFacts TotalFacts SpecInv InvFacts ChildFacts ListOps SpecFind SpecEdit OpFacts SecFacts FindFacts AddFacts EditFacts StepFacts DocProps VersionFacts SpecTree RoundFacts Yaml YamlFacts SpecStray SpecYaml.

Lemma ynode_ind2 : forall P : ynode -> Prop, (forall k v kids, Forall P kids -> P (YNode k v kids)) -> forall n, P n.
Proof. intros P H. fix F 1. intros [k v kids]. apply H. induction kids; constructor; auto. Qed.

(** ** Names *)

Lemma qual_in : forall pre pk k, qual (pre ++ [pk; k]) = (lower pk ++ "." ++ lower k)%string.
Proof. intros pre pk k. unfold qual. rewrite rev_app_distr. reflexivity. Qed.
Lemma qual_top : forall k, qual [k] = ("root." ++ lower k)%string.
Proof. reflexivity. Qed.
Lemma parent_name_in : forall pre pk, parent_name (pre ++ [pk]) = Some (qual (pre ++ [pk])).
Proof. intros [|p pre] pk; reflexivity. Qed.

Lemma lower_ne : forall k, k <> "" -> lower k <> "".
Proof. intros [|c k] H; [contradiction|discriminate]. Qed.
Lemma trimmed_self : forall k, tidy k -> trimmed k k.
Proof. intros k T. exists "", "". rewrite app_s_nil. split; [reflexivity|]. split; [constructor|]. split; [constructor|exact T]. Qed.

Lemma qualified_cell : forall a b, dot_free a -> dot_free b -> tidy a -> tidy b -> a <> "" ->
  cell_names (lower a ++ "." ++ lower b) (lower a) (lower b).
Proof.
  intros a b Da Db Ta Tb N. rewrite <- (lower_idem a) at 2. rewrite <- (lower_idem b) at 2.
  apply (cell_qualified _ (lower a) (lower b) (lower a) (lower b)); [reflexivity|apply dot_free_lower; exact Da|apply dot_free_lower; exact Db| | |apply lower_ne; exact N];
    apply trimmed_self; apply tidy_lower; assumption.
Qed.

Section Doc.
Context {QK : Quirks}.

(** finished terms stay *)
Lemma node_keep : forall s s' lo, doc_ok s -> (forall j, lo <= j -> is_plain s j -> tget j s' = tget j s) ->
  forall n top i, lo <= i -> is_plain s i -> node_at s top n i -> node_at s' top n i.
Proof.
  intros s s' lo K E n. induction n as [k v kids IH] using ynode_ind2. intros top i L1 L2 H. inversion H as [k0 v0 kids0 i0 N V F]; subst.
  assert (Ei : tget i s' = tget i s) by (apply E; assumption). constructor; rewrite ?Ei; [exact N|exact V|].
  assert (C : forall c, In c (t_children (tget i s)) -> lo <= c /\ is_plain s c). { intros c I. destruct (ok_child s K i c I) as (A & B & _). split; [lia|exact B]. }
  clear H. induction F as [|n c kids cs (X1 & X2 & X3) F IHF]; constructor.
  - destruct (C c (or_introl eq_refl)) as [C1 C2]. rewrite (E c C1 C2). split; [|split; assumption]. inversion IH; subst. auto.
  - apply IHF; [inversion IH; assumption|]. intros x I. apply C. right. exact I.
Qed.

Definition plain_names (s : st) (names : list string) : Prop := forall n, In n names -> is_section_cls (doc_term_class n s) = false.

(** ** A node below the term [j] *)

Definition kid_runs (path : list string) (key : string) (n : ynode) : Prop :=
  forall y last j s, in_order s -> is_plain s j -> t_doc (tget j s) = true -> t_rt (tget j s) = lower key -> dget (qual path) last = Some j ->
  plain_names s (names_in path n) ->
  exists s1 last1, (forall rest, add_items y last (emitted path n ++ rest) s = add_items y last1 rest s1)
    /\ in_order s1 /\ s_doc s1 = s_doc s /\ s_reg s1 = s_reg s /\ hlen s < hlen s1
    /\ (forall i, i < hlen s -> tget i s1 = if i =? j then set_t_children (t_children (tget j s) ++ [hlen s]) (tget j s) else tget i s)
    /\ node_at s1 false n (hlen s) /\ t_parent (tget (hlen s) s1) = Some j /\ t_pt (tget (hlen s) s1) = lower key
    /\ (forall m, ~ In m (names_in path n) -> dget m last1 = dget m last).

Definition kids_names (path : list string) (kids : list ynode) : list string := concat (map (names_in path) kids).

Lemma set_children_twice : forall a b r, set_t_children a (set_t_children b r) = set_t_children a r.
Proof. intros a b []. reflexivity. Qed.
Lemma set_children_same : forall r, set_t_children (t_children r) r = r.
Proof. intros []. reflexivity. Qed.

Lemma kids_run : forall path key kids, Forall (kid_runs path key) kids -> forall y last j s, in_order s -> is_plain s j -> t_doc (tget j s) = true ->
  t_rt (tget j s) = lower key -> dget (qual path) last = Some j -> Forall (fun n => ~ In (qual path) (names_in path n)) kids ->
  plain_names s (kids_names path kids) ->
  exists s1 last1 cs, (forall rest, add_items y last (concat (map (emitted path) kids) ++ rest) s = add_items y last1 rest s1)
    /\ in_order s1 /\ s_doc s1 = s_doc s /\ s_reg s1 = s_reg s /\ hlen s <= hlen s1
    /\ (forall i, i < hlen s -> tget i s1 = if i =? j then set_t_children (t_children (tget j s) ++ cs) (tget j s) else tget i s)
    /\ Forall2 (fun n c => node_at s1 false n c /\ t_parent (tget c s1) = Some j /\ t_pt (tget c s1) = lower key) kids cs
    /\ (forall m, ~ In m (kids_names path kids) -> dget m last1 = dget m last).
Proof.
  intros path key kids FA. induction FA as [|n kids R FA IH]; intros y last j s O P D RT L ND PN.
  - exists s, last, []. split; [reflexivity|]. split; [exact O|]. split; [reflexivity|]. split; [reflexivity|]. split; [lia|]. split; [|split; [constructor|auto]].
    intros i Li. destruct (Nat.eqb_spec i j) as [->|]; [|reflexivity]. rewrite app_nil_r, set_children_same. reflexivity.
  - inversion ND as [|x l ND1 ND2]; subst.
    assert (PN1 : plain_names s (names_in path n)). { intros m I. apply PN. unfold kids_names. cbn [map concat]. apply in_app_iff. left. exact I. }
    assert (PN2 : plain_names s (kids_names path kids)). { intros m I. apply PN. unfold kids_names. cbn [map concat]. apply in_app_iff. right. exact I. }
    destruct (R y last j s O P D RT L PN1) as (s1 & last1 & R1 & O1 & D1 & G1 & H1 & T1 & N1 & Pa1 & Pt1 & L1).
    pose proof (proj1 P) as Lj.
    assert (Tj : tget j s1 = set_t_children (t_children (tget j s) ++ [hlen s]) (tget j s)). { rewrite T1, Nat.eqb_refl by exact Lj. reflexivity. }
    destruct (IH y last1 j s1 O1) as (s2 & last2 & cs & R2 & O2 & D2 & G2 & H2 & T2 & N2 & L2).
    + split; [lia|]. rewrite Tj. exact (proj2 P).
    + rewrite Tj. exact D.
    + rewrite Tj. exact RT.
    + rewrite L1; assumption.
    + exact ND2.
    + intros m I. specialize (PN2 m I). unfold doc_term_class in *. rewrite G1, D1. exact PN2.
    + exists s2, last2, (hlen s :: cs). split.
      { intros rest. cbn [map concat]. rewrite <- app_assoc. rewrite R1. apply R2. }
      split; [exact O2|]. split; [congruence|]. split; [congruence|]. split; [lia|]. split; [|split].
      * intros i Li. rewrite T2 by lia. destruct (Nat.eqb_spec i j) as [->|NE].
        -- rewrite Tj. cbn [t_children set_t_children]. rewrite <- app_assoc. destruct (tget j s). reflexivity.
        -- rewrite T1 by exact Li. destruct (Nat.eqb_spec i j); [contradiction|reflexivity].
      * assert (KE : forall x, S j <= x -> x < hlen s1 -> tget x s2 = tget x s1). { intros x A B. rewrite T2 by exact B. destruct (Nat.eqb_spec x j); [lia|reflexivity]. }
        constructor; [|exact N2]. split; [|rewrite KE by lia; split; assumption].
        assert (Pc : is_plain s1 (hlen s)). { apply (ok_child s1 (io_ok _ O1) j). rewrite Tj. cbn. apply in_app_iff. right. left. reflexivity. }
        apply (node_keep s1 s2 (S j) (io_ok _ O1)); [intros x A B; apply KE; [exact A|exact (proj1 B)]|lia|exact Pc|exact N1].
      * intros m I. unfold kids_names in I. cbn [map concat] in I. rewrite L2, L1; [reflexivity| |]; intros X; apply I; apply in_app_iff; auto.
Qed.

Lemma names_node : forall path k v kids, names_in path (YNode k (Some v) kids) = qual (path ++ [k]) :: kids_names (path ++ [k]) kids.
Proof.
  intros path k v kids. unfold names_in, kids_names. cbn [emitted app map fst]. f_equal. rewrite concat_map, map_map. reflexivity.
Qed.

Lemma kid_run : forall n pre pk, usual_node (pre ++ [pk]) n -> dot_free pk -> tidy pk -> pk <> "" -> lower pk <> "root" -> kid_runs (pre ++ [pk]) pk n.
Proof.
  intros n. induction n as [k v kids IH] using ynode_ind2. intros pre pk U DP TP NP NR y last j s O P D RT L PN.
  inversion U as [path0 k0 v0 kids0 Dk Tk Nk NRk NSk Uk NDk]; subst. clear U. rename v0 into w.
  rewrite names_node in PN.
  assert (NS : lower k <> "section") by (apply NSk; destruct pre; discriminate).
  assert (Q : qual ((pre ++ [pk]) ++ [k]) = (lower pk ++ "." ++ lower k)%string) by (rewrite <- app_assoc; apply qual_in).
  set (path := (pre ++ [pk])%list) in *. set (tn := qual (path ++ [k])) in *.
  assert (LQ : lower tn = tn) by (rewrite Q; rewrite !lower_app, !lower_idem; reflexivity).
  destruct (new_child_run s j tn (lower pk) (lower k) w (proj1 P) D) as (tvn & E).
  { apply split_term_lower_spec. rewrite Q. apply qualified_cell; assumption. }
  { exact NR. } { apply dot_free_lower. exact DP. } { apply dot_free_lower. exact Dk. } { rewrite RT. reflexivity. } { rewrite lower_idem. exact NS. }
  { rewrite LQ. apply PN. left. reflexivity. }
  set (R := set_t_tvn tvn _) in E. set (s1 := with_child s j R) in E. pose proof (proj1 P) as Lj.
  assert (H1 : hlen s1 = S (hlen s)). { unfold s1, with_child. rewrite hlen_hmod, hlen_push. reflexivity. }
  assert (O1 : in_order s1). { eapply order_edits; [|exact O]. eapply edits_more; [apply edits_none|]. eapply (ed_new_child s s1 j); [exact P|exact E]. }
  assert (NEW : tget (hlen s) s1 = R). { unfold s1. rewrite tget_with_child by exact Lj. destruct (Nat.eqb_spec (hlen s) j); [lia|]. rewrite Nat.eqb_refl. reflexivity. }
  assert (OLD : forall i, i < hlen s -> tget i s1 = if i =? j then set_t_children (t_children (tget j s) ++ [hlen s]) (tget j s) else tget i s).
  { intros i Li. unfold s1. rewrite tget_with_child by exact Lj. destruct (i =? j); [reflexivity|]. destruct (Nat.eqb_spec i (hlen s)); [lia|reflexivity]. }
  destruct (kids_run (path ++ [k]) k kids) with (y := y) (last := dset tn (hlen s) last) (j := hlen s) (s := s1) as (s2 & last2 & cs & R2 & O2 & D2 & G2 & H2 & T2 & N2 & L2).
  - rewrite Forall_forall in IH, Uk |- *. intros n I. apply (IH n I path k (Uk n I)); assumption.
  - exact O1.
  - split; [lia|]. rewrite NEW. unfold R. cbn. apply PN. left. rewrite LQ. reflexivity.
  - rewrite NEW. reflexivity.
  - rewrite NEW. reflexivity.
  - rewrite dget_dset. fold tn. rewrite eqs_refl. reflexivity.
  - exact NDk.
  - intros m I. apply (PN m). right. exact I.
  - exists s2, last2. split.
    { intros rest. cbn [emitted app]. fold tn. rewrite (parent_name_in pre pk : parent_name path = _). fold path. cbn [add_items]. change (bind (lift (Ok w)) ?f s) with (f w s). cbv beta. rewrite L. unfold bind at 1. rewrite E. rewrite R2. reflexivity. }
    split; [exact O2|]. split; [rewrite D2; reflexivity|]. split; [rewrite G2; reflexivity|]. split; [lia|].
    assert (NEW2 : tget (hlen s) s2 = set_t_children cs R). { rewrite T2, Nat.eqb_refl, NEW by lia. reflexivity. }
    split.
    { intros i Li. rewrite T2 by lia. destruct (Nat.eqb_spec i (hlen s)); [lia|]. apply OLD. exact Li. }
    split. { constructor; rewrite NEW2; cbn; [reflexivity| |].
             - exists (text_of w). split; [apply text_of_text|apply init_val_stored].
             - eapply Forall2_imp; [|exact N2]. intros a c (A1 & A2 & A3). auto. }
    rewrite NEW2. split; [reflexivity|]. split; [reflexivity|].
    intros m I. rewrite names_node in I. fold tn in I. rewrite L2 by (intros X; apply I; right; exact X). rewrite dget_dset.
    destruct (eqs m tn) eqn:Em; [|reflexivity]. apply eqs_true in Em. exfalso. apply I. left. congruence.
Qed.

(** ** The nodes of the top level *)

Definition in_sec (s : st) (i t : nat) : bool := match t_section (tget t s) with Some j => j =? i | None => false end.
Definition sec_of (y : ysrc) (n : ynode) : option nat := dget (yaml_section y (qual [key_of n])) (y_secs y).

Lemma cell_same : forall s p r q t, cell_names s p r -> cell_names s q t -> p = q /\ r = t.
Proof. intros s p r q t A B. apply split_term_lower_spec in A. apply split_term_lower_spec in B. rewrite A in B. injection B as -> ->. auto. Qed.

Lemma reg_appended : forall t sec R Rs s, s_reg (appended t sec R Rs s) = s_reg s.
Proof. reflexivity. Qed.

Lemma top_run : forall n y last s sec sk, usual_node [] n -> in_order s -> sec_of y n = Some sec -> In (sk, sec) (secs s) -> ~ odd sk ->
  plain_names s (names_in [] n) ->
  exists s1 last1, (forall rest, add_items y last (emitted [] n ++ rest) s = add_items y last1 rest s1)
    /\ in_order s1 /\ s_doc s1 = set_d_terms (listed s ++ [hlen s]) (s_doc s) /\ s_reg s1 = s_reg s /\ hlen s < hlen s1
    /\ (forall i, i < hlen s -> tget i s1 = if i =? sec then set_t_terms (t_terms (tget i s) ++ [hlen s]) (tget i s) else tget i s)
    /\ node_at s1 true n (hlen s) /\ t_parent (tget (hlen s) s1) = None /\ t_pt (tget (hlen s) s1) = "root" /\ t_section (tget (hlen s) s1) = Some sec.
Proof.
  intros [k v kids] y last s sec sk U O SE I OD PN.
  inversion U as [path0 k0 v0 kids0 Dk Tk Nk NRk _ Uk NDk]; subst. clear U. rename v0 into w. cbn [app] in *. unfold sec_of in SE. cbn [key_of] in SE.
  rewrite names_node in PN. cbn [app] in PN. set (tn := qual [k]) in *.
  assert (LQ : lower tn = tn) by (unfold tn; rewrite qual_top, !lower_app, !lower_idem; reflexivity).
  assert (CN : cell_names tn "root" (lower k)).
  { unfold tn. rewrite qual_top. change "root" with (lower "root"). apply (qualified_cell "root" k); [apply dot_free_iff; reflexivity|exact Dk|apply tidy_iff; split; reflexivity|exact Tk|discriminate]. }
  assert (C0 : is_section_cls (doc_term_class (lower tn) s) = false) by (rewrite LQ; apply PN; left; reflexivity).
  destruct (OpFacts.new_term_run s sk sec tn w (lower k) (io_ok _ O) I OD CN C0) as (s1 & E).
  assert (TN : top_name tn) by (exists (lower k); exact CN).
  assert (O1 : in_order s1). { eapply order_edits; [|exact O]. eapply edits_more; [apply edits_none|]. eapply (ed_new_term s s1 sk sec tn w []); [exact I|exact OD|exact TN|exact E]. }
  destruct (c20_effect s sk sec tn w [] s1 (hlen s) O I OD TN E) as (_ & ED & ES & EO & (EP & EN & EV & EX) & EC & EH).
  destruct (new_term_ok s sk sec tn w [] s1 (hlen s) (io_ok _ O) I OD (cell_names_root _ _ CN) E) as (_ & _ & c & m & R & Rs & C & CN2 & ER & F & E1).
  inversion F; subst Rs. clear F. pose proof (secs_lt s sk sec (io_ok _ O) I) as Ls.
  destruct (with_meta_fields (s_doc s) (t_dtvn (tget sec s)) (set_t_children (seq (S (hlen s)) (List.length (@nil (string * val)))) (fresh_plain c tn "root" m w [] None None None None true (Some sec)))) as (xa & xb & W).
  rewrite W in ER. clear W. cbn [List.length seq] in ER.
  assert (NEW : tget (hlen s) s1 = R) by (rewrite E1; apply appended_new; exact Ls).
  assert (Rm : m = lower k) by (destruct (cell_same _ _ _ _ _ CN2 CN); assumption). subst m.
  assert (G1 : s_reg s1 = s_reg s) by (rewrite E1; reflexivity).
  cbn [List.length] in EH.
  destruct (kids_run [k] k kids) with (y := y) (last := dset tn (hlen s) last) (j := hlen s) (s := s1) as (s2 & last2 & cs & R2 & O2 & D2 & G2 & H2 & T2 & N2 & _).
  - rewrite Forall_forall in Uk |- *. intros n J. exact (kid_run n [] k (Uk n J) Dk Tk Nk NRk).
  - exact O1.
  - split; [lia|]. rewrite NEW, ER. exact C.
  - rewrite NEW, ER. reflexivity.
  - rewrite NEW, ER. reflexivity.
  - rewrite dget_dset. fold tn. rewrite eqs_refl. reflexivity.
  - exact NDk.
  - intros x J. unfold doc_term_class. rewrite G1, ED. apply (PN x). right. exact J.
  - exists s2, last2. split.
    { intros rest. cbn [emitted app]. fold tn. change (parent_name []) with (@None string). cbn [add_items]. change (bind (lift (Ok w)) ?f s) with (f w s). cbv beta. rewrite SE. unfold bind at 1. rewrite E. rewrite R2. reflexivity. }
    split; [exact O2|]. split; [rewrite D2; exact ED|]. split; [rewrite G2; exact G1|]. split; [lia|].
    assert (NEW2 : tget (hlen s) s2 = set_t_children cs R). { rewrite T2, Nat.eqb_refl, NEW by lia. rewrite ER. reflexivity. }
    split.
    { intros i Li. rewrite T2 by lia. destruct (Nat.eqb_spec i (hlen s)); [lia|]. destruct (Nat.eqb_spec i sec) as [->|NE]; [exact ES|apply EO; assumption]. }
    split. { constructor; rewrite NEW2; [rewrite ER; reflexivity|rewrite NEW in EV; exact EV|]. eapply Forall2_imp; [|exact N2]. intros a b (A1 & A2 & A3). auto. }
    rewrite NEW2, ER. repeat split.
Qed.

Lemma set_terms_nil : forall r, set_t_terms (t_terms r ++ []) r = r.
Proof. intros r. rewrite app_nil_r. destruct r. reflexivity. Qed.

Lemma tops_run : forall ns y last s, Forall (usual_node []) ns -> in_order s ->
  Forall (fun n => exists sk sec, sec_of y n = Some sec /\ In (sk, sec) (secs s) /\ ~ odd sk) ns -> plain_names s (kids_names [] ns) ->
  exists s1 ids, add_items y last (concat (map (emitted []) ns)) s = (s1, Ok tt)
    /\ in_order s1 /\ s_doc s1 = set_d_terms (listed s ++ ids) (s_doc s) /\ s_reg s1 = s_reg s /\ hlen s <= hlen s1
    /\ (forall i, i < hlen s -> tget i s1 = set_t_terms (t_terms (tget i s) ++ filter (in_sec s1 i) ids) (tget i s))
    /\ Forall2 (fun n i => hlen s <= i < hlen s1 /\ node_at s1 true n i /\ t_parent (tget i s1) = None /\ t_pt (tget i s1) = "root" /\ t_section (tget i s1) = sec_of y n) ns ids.
Proof.
  intros ns. induction ns as [|n ns IH]; intros y last s U O SE PN.
  - exists s, []. split; [reflexivity|]. split; [exact O|]. split; [rewrite app_nil_r; unfold listed; destruct (s_doc s); reflexivity|]. split; [reflexivity|]. split; [lia|]. split; [|constructor].
    intros i _. rewrite set_terms_nil. reflexivity.
  - inversion U as [|? ? U1 U2]; subst. inversion SE as [|? ? (sk & sec & SE1 & I & OD) SE2]; subst.
    destruct (top_run n y last s sec sk U1 O SE1 I OD) as (s1 & last1 & R1 & O1 & D1 & G1 & H1 & T1 & N1 & Pa1 & Pt1 & S1).
    { intros m J. apply PN. unfold kids_names. cbn [map concat]. apply in_app_iff. left. exact J. }
    destruct (IH y last1 s1 U2 O1) as (s2 & ids & R2 & O2 & D2 & G2 & H2 & T2 & F2).
    { eapply Forall_impl; [|exact SE2]. intros a (sk' & sec' & A & B & C). exists sk', sec'. split; [exact A|]. split; [|exact C]. unfold secs. rewrite D1. exact B. }
    { intros m J. unfold doc_term_class. rewrite G1, D1. apply (PN m). unfold kids_names. cbn [map concat]. apply in_app_iff. right. exact J. }
    pose proof (secs_lt s sk sec (io_ok _ O) I) as Ls.
    assert (NS : forall j, j < hlen s1 -> is_section_cls (t_cls (tget j s1)) = false -> filter (in_sec s2 j) ids = []).
    { intros j Lj Cj. apply filter_none. intros x Ix. unfold in_sec. destruct (t_section (tget x s2)) as [q|] eqn:Ex; [|reflexivity]. destruct (Nat.eqb_spec q j) as [->|]; [|reflexivity]. exfalso.
      assert (P2 : In x (listed s2)). { unfold listed. rewrite D2. cbn. apply in_app_iff. right. exact Ix. }
      destruct (ok_listed s2 (io_ok _ O2) x P2) as (Px & _). destruct (ok_plain s2 (io_ok _ O2) x Px) as (i & Ei & (_ & Si)). rewrite Ex in Ei. injection Ei as <-.
      rewrite T2 in Si by exact Lj. cbn in Si. rewrite Cj in Si. discriminate. }
    assert (KN : tget (hlen s) s2 = tget (hlen s) s1).
    { rewrite T2 by lia. rewrite NS; [apply set_terms_nil|lia|].
      assert (P1 : In (hlen s) (listed s1)). { unfold listed. rewrite D1. cbn. apply in_app_iff. right. left. reflexivity. }
      apply (ok_listed s1 (io_ok _ O1) _ P1). }
    exists s2, (hlen s :: ids). split; [cbn [map concat]; rewrite R1; exact R2|]. split; [exact O2|]. split.
    { assert (L1 : listed s1 = listed s ++ [hlen s]) by (unfold listed; rewrite D1; reflexivity). rewrite D2, L1, D1, <- app_assoc. reflexivity. }
    split; [congruence|]. split; [lia|]. split.
    { intros i Li. rewrite T2 by lia. rewrite T1 by exact Li. cbn [filter]. unfold in_sec at 2. rewrite KN, S1. rewrite (Nat.eqb_sym sec i).
      destruct (Nat.eqb_spec i sec) as [->|NE]; [|reflexivity]. destruct (tget sec s). cbn. rewrite <- app_assoc. reflexivity. }
    constructor; [|].
    { rewrite KN. split; [lia|]. split; [|split; [exact Pa1|split; [exact Pt1|rewrite S1; symmetry; exact SE1]]].
      apply (node_keep s1 s2 0 (io_ok _ O1)); [|lia| |exact N1].
      - intros x _ [A B]. rewrite T2 by exact A. rewrite NS by assumption. apply set_terms_nil.
      - apply (ok_listed s1 (io_ok _ O1)). unfold listed. rewrite D1. cbn. apply in_app_iff. right. left. reflexivity. }
    eapply Forall2_imp; [|exact F2]. intros a b ((A1 & A2) & A3). split; [lia|exact A3].
Qed.

(** ** The sections *)

Definition extends (s s1 : st) : Prop :=
  s_doc s1 = set_d_sections (secs s1) (s_doc s) /\ s_reg s1 = s_reg s /\ hlen s <= hlen s1 /\ (forall j, j < hlen s -> tget j s1 = tget j s)
  /\ exists new, secs s1 = secs s ++ new /\ Forall (fun ki => hlen s <= snd ki < hlen s1 /\ t_terms (tget (snd ki) s1) = []) new.

Lemma extends_refl : forall s, extends s s.
Proof. intros s. split; [unfold secs; destruct (s_doc s); reflexivity|]. split; [reflexivity|]. split; [lia|]. split; [reflexivity|]. exists []. rewrite app_nil_r. split; [reflexivity|constructor]. Qed.

Lemma extends_trans : forall a b c, extends a b -> extends b c -> extends a c.
Proof.
  intros a b c (A1 & A2 & A3 & A4 & na & A5 & A6) (B1 & B2 & B3 & B4 & nb & B5 & B6). split; [rewrite B1, A1; reflexivity|]. split; [congruence|]. split; [lia|].
  split; [intros j J; rewrite B4 by lia; apply A4; exact J|]. exists (na ++ nb). rewrite B5, A5, app_assoc. split; [reflexivity|]. apply Forall_app. split.
  - eapply Forall_impl; [|exact A6]. intros x ((X1 & X2) & X3). rewrite B4 by exact X2. split; [lia|exact X3].
  - eapply Forall_impl; [|exact B6]. intros x ((X1 & X2) & X3). split; [lia|exact X3].
Qed.

Lemma section_step : forall s n sd, in_order s -> lower n = n -> proper_name n -> ~ odd n -> dget n (d_decl_sections (s_doc s)) = Some sd ->
  exists s1 i, get_or_new_section n (sd_args sd) s = (s1, Ok i) /\ in_order s1 /\ extends s s1 /\ dget n (secs s1) = Some i.
Proof.
  intros s n sd O L P OD D. assert (UC : usual_columns (map strip (sd_args sd))) by (destruct (ok_declared s (io_ok _ O) n sd (dget_in _ _ _ D)) as [X|X]; [contradiction|exact X]).
  destruct (dget n (secs s)) as [i|] eqn:G.
  - exists s, i. split; [apply get_or_new_section_old; assumption|]. split; [exact O|]. split; [apply extends_refl|exact G].
  - pose proof (get_or_new_section_new s n (sd_args sd) ltac:(rewrite L; exact G) G) as E. set (R := section_rec _ _) in E. exists (opened R n s), (hlen s). split; [exact E|].
    split. { eapply order_edits; [|exact O]. eapply edits_more; [apply edits_none|]. eapply (ed_get_or_new_section s _ n (sd_args sd)); [exact P|exact UC|left; exact L|exact E]. }
    assert (HL : hlen (opened R n s) = S (hlen s)). { unfold opened. change (hlen (dmod ?f ?x)) with (hlen x). apply hlen_push. }
    split; [|unfold secs, opened; cbn; change (d_sections (s_doc s)) with (secs s); rewrite dget_app, G; cbn; rewrite L, eqs_refl; reflexivity].
    split; [reflexivity|]. split; [reflexivity|]. split; [lia|]. split.
    + intros j J. change (tget j (opened R n s)) with (tget j (push R s)). apply push_old. exact J.
    + exists [(lower n, hlen s)]. split; [reflexivity|]. constructor; [|constructor]. cbn [snd]. split; [lia|].
      change (tget (hlen s) (opened R n s)) with (tget (hlen s) (push R s)). rewrite push_new. reflexivity.
Qed.

Lemma map_terms : forall (n : string) ts (m : dict string) tn, (In tn (map lower ts) -> dget tn (fold_left (fun m t => dset (lower t) n m) ts m) = Some n)
  /\ (~ In tn (map lower ts) -> dget tn (fold_left (fun m t => dset (lower t) n m) ts m) = dget tn m).
Proof.
  intros n ts. induction ts as [|t ts IH]; intros m tn; [split; [intros []|reflexivity]|]. cbn [map fold_left In]. destruct (IH (dset (lower t) n m) tn) as [A B].
  destruct (in_dec string_dec tn (map lower ts)) as [J|J]; [split; [intros _; apply A; exact J|intros X; exfalso; apply X; right; exact J]|].
  rewrite (B J), dget_dset. split; [intros [<-|X]; [rewrite eqs_refl; reflexivity|contradiction]|].
  intros X. destruct (eqs tn (lower t)) eqn:E; [apply eqs_true in E; exfalso; apply X; left; congruence|reflexivity].
Qed.

Definition tells (s : st) (names : list string) (y y1 : ysrc) : Prop :=
  (forall tn a n b, names = a ++ n :: b -> declares (d_decl_sections (s_doc s)) tn n -> (forall m, In m b -> ~ declares (d_decl_sections (s_doc s)) tn m) -> dget tn (y_map y1) = Some n)
  /\ (forall tn, (forall m, In m names -> ~ declares (d_decl_sections (s_doc s)) tn m) -> dget tn (y_map y1) = dget tn (y_map y)).

Lemma open_run : forall names y s, in_order s -> NoDup names ->
  (forall n, In n names -> lower n = n /\ proper_name n /\ ~ odd n /\ exists sd, dget n (d_decl_sections (s_doc s)) = Some sd) ->
  exists s1 y1, open_sections names y s = (s1, Ok y1) /\ in_order s1 /\ extends s s1
    /\ (forall n, In n names -> exists i, dget n (y_secs y1) = Some i /\ In (n, i) (secs s1))
    /\ (forall n, ~ In n names -> dget n (y_secs y1) = dget n (y_secs y))
    /\ tells s names y y1.
Proof.
  intros names. induction names as [|n ns IH]; intros y s O ND W.
  - exists s, y. split; [reflexivity|]. split; [exact O|]. split; [apply extends_refl|]. split; [intros n []|]. split; [reflexivity|]. split; [intros tn [|x a] n b E; discriminate E|reflexivity].
  - destruct (W n (or_introl eq_refl)) as (L & P & OD & sd & D). destruct (section_step s n sd O L P OD D) as (s1 & i & E & O1 & X1 & G1).
    inversion ND as [|? ? N1 N2]; subst. assert (DD : d_decl_sections (s_doc s1) = d_decl_sections (s_doc s)) by (rewrite (proj1 X1); reflexivity).
    set (y' := mk_ysrc (fold_left (fun m tn => dset (lower tn) n m) (sd_terms sd) (y_map y)) (dset n i (y_secs y))).
    destruct (IH y' s1 O1 N2) as (s2 & y2 & R2 & O2 & X2 & I2 & K2 & T2 & F2).
    { intros m I. rewrite DD. apply W. right. exact I. }
    exists s2, y2. split.
    { cbn [open_sections]. unfold bind at 1, getD at 1. unfold gets. cbn [fst snd]. rewrite D. unfold bind at 1. rewrite E. exact R2. }
    split; [exact O2|]. split; [eapply extends_trans; eassumption|]. split; [|split; [|split]].
    + intros m [<-|I]; [|apply I2; exact I]. exists i. rewrite K2 by exact N1. unfold y'. cbn [y_secs]. rewrite dget_dset, eqs_refl. split; [reflexivity|].
      destruct X2 as (_ & _ & _ & _ & new & -> & _). apply in_app_iff. left. apply dget_in. exact G1.
    + intros m I. rewrite K2 by (intros X; apply I; right; exact X). unfold y'. cbn [y_secs]. rewrite dget_dset. destruct (eqs m n) eqn:Em; [apply eqs_true in Em; exfalso; apply I; left; congruence|reflexivity].
    + intros tn [|x a] m b Eab Dm NB; cbn [app] in Eab; injection Eab as E1 E2; subst.
      * rewrite F2 by (rewrite DD; exact NB). unfold y'. cbn [y_map]. apply map_terms. destruct Dm as (sd' & t & D' & It & <-). rewrite D in D'. injection D' as <-. apply in_map. exact It.
      * apply (T2 tn a m b eq_refl); rewrite DD; assumption.
    + intros tn NB. rewrite F2 by (rewrite DD; intros m I; apply NB; right; exact I). unfold y'. cbn [y_map]. apply map_terms. intros I. apply in_map_iff in I. destruct I as (t & Et & It).
      apply (NB n (or_introl eq_refl)). exists sd, t. auto.
Qed.

(** ** The whole document *)

Lemma declares_dec : forall d tn n, declares d tn n \/ ~ declares d tn n.
Proof.
  intros d tn n. destruct (dget n d) as [sd|] eqn:D; [|right; intros (sd & t & E & _); rewrite D in E; discriminate].
  destruct (in_dec string_dec tn (map lower (sd_terms sd))) as [I|I]; [left|right].
  - apply in_map_iff in I. destruct I as (t & E & I). exists sd, t. auto.
  - intros (sd' & t & E & It & El). rewrite D in E. injection E as <-. apply I. subst tn. apply in_map. exact It.
Qed.

Lemma goes_somewhere : forall d tn, exists n, In n yaml_six /\ goes_to d tn n.
Proof.
  intros d tn. assert (G : forall l, (exists a n b, l = a ++ n :: b /\ declares d tn n /\ forall m, In m b -> ~ declares d tn m) \/ forall m, In m l -> ~ declares d tn m).
  { induction l as [|n l [(a & m & b & -> & A & B)|IH]]; [right; intros m []| |].
    - left. exists (n :: a), m, b. auto.
    - destruct (declares_dec d tn n) as [D|D]; [left; exists [], n, l; auto|]. right. intros m [<-|I]; auto. }
  destruct (G yaml_six) as [(a & n & b & E & A)|A].
  - exists n. split; [rewrite E; apply in_app_iff; right; left; reflexivity|]. left. exists a, b. split; [exact E|exact A].
  - exists "root". split; [left; reflexivity|]. right. auto.
Qed.

Lemma section_told : forall s y1 tn n, tells s yaml_sections (mk_ysrc [] []) y1 -> In n yaml_six -> goes_to (d_decl_sections (s_doc s)) tn n -> yaml_section y1 tn = n.
Proof.
  intros s y1 tn n [T F] I [(a & b & E & A & B)|[-> A]]; unfold yaml_section.
  - rewrite (T tn a n b E A B). repeat destruct I as [<-|I]; try reflexivity. contradiction.
  - rewrite (F tn A). reflexivity.
Qed.

Lemma usual_dotless : forall n path, usual_node path n -> SpecTree.dotless n.
Proof.
  intros n. induction n as [k v kids IH] using ynode_ind2. intros path U. inversion U as [path0 k0 v0 kids0 Dk Tk Nk NRk NSk Uk NDk]; subst. constructor; [exact Dk|].
  rewrite Forall_forall in IH, Uk |- *. intros n I. exact (IH n I _ (Uk n I)).
Qed.

Lemma six_names : forall n, In n yaml_sections -> lower n = n /\ proper_name n.
Proof. intros n I. repeat destruct I as [<-|I]; try (split; [reflexivity|split; [reflexivity|discriminate]]). contradiction. Qed.

Lemma yaml_run : forall e fuel items decl s0 s1 ns, yaml_declare items = Ok decl -> load_declarations e fuel decl s0 = (s1, Ok tt) -> in_order s1 ->
  (forall n, In n yaml_six -> ~ odd n /\ exists sd, dget n (d_decl_sections (s_doc s1)) = Some sd) ->
  as_nodes (value_name (d_decl_terms (s_doc s1))) [] items ns -> Forall (usual_node []) ns ->
  plain_names s1 (kids_names [] ns) ->
  exists s ids, yaml_doc e fuel (JDict items) s0 = (s, Ok tt) /\ in_order s
    /\ listed s = listed s1 ++ ids
    /\ Forall2 (fun n t => node_at s true n t /\ t_parent (tget t s) = None /\ t_pt (tget t s) = "root"
         /\ exists sn i, goes_to (d_decl_sections (s_doc s1)) (qual [key_of n]) sn /\ In (sn, i) (secs s) /\ t_section (tget t s) = Some i) ns ids
    /\ (forall k i, In (k, i) (secs s1) -> In (k, i) (secs s))
    /\ (forall k i, In (k, i) (secs s) -> exists old, t_terms (tget i s) = old ++ filter (in_sec s i) ids
         /\ (In (k, i) (secs s1) /\ old = t_terms (tget i s1) \/ (forall j, ~ In (k, j) (secs s1)) /\ old = []))
    /\ (forall j, is_plain s1 j -> tget j s = tget j s1).
Proof.
  intros e fuel items decl s0 s1 ns YD LD O SIX AN U PN.
  destruct (open_run yaml_sections (mk_ysrc [] []) s1 O) as (s2 & y & R2 & O2 & X2 & I2 & _ & T2).
  { repeat constructor; cbn; intuition discriminate. }
  { intros n I. destruct (six_names n I) as [A B]. destruct (SIX n I) as [C D]. auto. }
  pose proof X2 as (D2 & G2 & H2 & K2 & new & S2 & N2).
  assert (DT : d_decl_terms (s_doc s2) = d_decl_terms (s_doc s1)) by (rewrite D2; reflexivity).
  pose proof (yield_spec (d_decl_terms (s_doc s1)) items ns AN) as Y. specialize (Y ltac:(eapply Forall_impl; [|exact U]; intros n; apply usual_dotless)).
  assert (SO : Forall (fun n => exists sk sec, sec_of y n = Some sec /\ In (sk, sec) (secs s2) /\ ~ odd sk /\ goes_to (d_decl_sections (s_doc s1)) (qual [key_of n]) sk) ns).
  { rewrite Forall_forall. intros n _. destruct (goes_somewhere (d_decl_sections (s_doc s1)) (qual [key_of n])) as (sk & Isk & GT). destruct (I2 sk Isk) as (sec & E & I).
    exists sk, sec. unfold sec_of. rewrite (section_told s1 y _ sk T2 Isk GT). split; [exact E|]. split; [exact I|]. split; [apply SIX; exact Isk|exact GT]. }
  destruct (tops_run ns y [] s2 U O2) as (s & ids & R & O3 & D3 & G3 & H3 & T3 & F3).
  { eapply Forall_impl; [|exact SO]. intros n (sk & sec & A & B & C & _). exists sk, sec. auto. }
  { intros m I. unfold doc_term_class. rewrite G2, D2. apply (PN m I). }
  assert (SS : secs s = secs s2) by (unfold secs; rewrite D3; reflexivity).
  exists s, ids. split.
  { unfold yaml_doc. rewrite YD. change (bind (lift (Ok decl)) ?f s0) with (f decl s0). cbv beta. unfold bind at 1. rewrite LD. unfold bind at 1. rewrite R2. unfold bind at 1, getD at 1. unfold gets. cbn [fst snd].
    rewrite DT, Y. change (bind (lift (Ok ?l)) ?f s2) with (f l s2). cbv beta. exact R. }
  split; [exact O3|]. assert (LL : listed s2 = listed s1) by (unfold listed; rewrite D2; reflexivity). split; [rewrite <- LL; unfold listed at 1; rewrite D3; reflexivity|]. split; [|split; [|split]].
  - clear - SO F3 SS. revert SO. induction F3 as [|n t ns ids (_ & A & B & C & D) F IH]; intros SO; constructor.
    + split; [exact A|]. split; [exact B|]. split; [exact C|]. inversion SO as [|? ? (sk & sec & E & I & _ & GT) _]; subst. exists sk, sec. split; [exact GT|]. split; [rewrite SS; exact I|congruence].
    + apply IH. inversion SO; assumption.
  - intros k i I. rewrite SS, S2. apply in_app_iff. left. exact I.
  - intros k i I. rewrite SS in I. assert (Li : i < hlen s2) by (apply (secs_lt s2 k i (io_ok _ O2) I)). rewrite (T3 i Li). cbn [t_terms set_t_terms]. eexists. split; [reflexivity|].
    rewrite S2 in I. apply in_app_iff in I. destruct I as [I|I].
    + left. split; [exact I|]. rewrite K2; [reflexivity|]. apply (secs_lt s1 k i (io_ok _ O) I).
    + right. rewrite Forall_forall in N2. destruct (N2 _ I) as (_ & E). split; [|exact E]. intros j J.
      pose proof (ok_keys s2 (io_ok _ O2)) as ND. rewrite S2, map_app in ND. apply (proj2 (proj2 (NoDup_app_elim _ _ ND)) k); [apply (in_map fst) in J; exact J|apply (in_map fst) in I; exact I].
  - intros j [Lj Cj]. rewrite T3 by lia. rewrite K2 by exact Lj. rewrite filter_none; [apply set_terms_nil|]. intros x Ix. unfold in_sec.
    destruct (t_section (tget x s)) as [q|] eqn:Ex; [|reflexivity]. destruct (Nat.eqb_spec q j) as [->|]; [|reflexivity]. exfalso.
    assert (P2 : In x (listed s)). { unfold listed. rewrite D3. cbn. apply in_app_iff. right. exact Ix. }
    destruct (ok_listed s (io_ok _ O3) x P2) as (Px & _). destruct (ok_plain s (io_ok _ O3) x Px) as (i & Ei & (_ & Si)). rewrite Ex in Ei. injection Ei as <-.
    rewrite T3 in Si by lia. cbn in Si. rewrite K2, Cj in Si by exact Lj. discriminate.
Qed.

(** one of the six sections is not declared *)
Lemma yaml_undeclared : forall e fuel items decl s0 s1, yaml_declare items = Ok decl -> load_declarations e fuel decl s0 = (s1, Ok tt) -> in_order s1 ->
  (forall n, In n yaml_six -> ~ odd n) -> (exists n, In n yaml_six /\ dget n (d_decl_sections (s_doc s1)) = None) ->
  exists s, yaml_doc e fuel (JDict items) s0 = (s, Err EKey).
Proof.
  intros e fuel items decl s0 s1 YD LD O NO (n & In6 & NN).
  assert (G : forall names y s, in_order s -> d_decl_sections (s_doc s) = d_decl_sections (s_doc s1) -> (forall m, In m names -> In m yaml_six) -> In n names ->
     exists s', open_sections names y s = (s', Err EKey)).
  { induction names as [|m names IH]; intros y s Os Ds Sub I; [destruct I|]. cbn [open_sections]. unfold bind at 1, getD at 1. unfold gets. cbn [fst snd]. rewrite Ds.
    destruct (dget m (d_decl_sections (s_doc s1))) as [sd|] eqn:D; [|exists s; reflexivity]. destruct (six_names m (Sub m (or_introl eq_refl))) as [L P].
    destruct (section_step s m sd Os L P (NO m (Sub m (or_introl eq_refl)))) as (s' & i & E & O' & X & _); [rewrite Ds; exact D|]. unfold bind at 1. rewrite E.
    apply IH; [exact O'|rewrite (proj1 X); exact Ds|intros x Ix; apply Sub; right; exact Ix|]. destruct I as [->|I]; [rewrite D in NN; discriminate|exact I]. }
  destruct (G yaml_sections (mk_ysrc [] []) s1 O eq_refl (fun m H => H) In6) as (s & E). exists s.
  unfold yaml_doc. rewrite YD. change (bind (lift (Ok decl)) ?f s0) with (f decl s0). cbv beta. unfold bind at 1. rewrite LD. unfold bind at 1. rewrite E. reflexivity.
Qed.

Lemma yaml_document : forall e fuel items decl s0 s1 ns, yaml_declare items = Ok decl -> load_declarations e fuel decl s0 = (s1, Ok tt) -> in_order s1 ->
  (forall n, In n yaml_six -> ~ odd n /\ exists sd, dget n (d_decl_sections (s_doc s1)) = Some sd) ->
  as_nodes (value_name (d_decl_terms (s_doc s1))) [] items ns -> Forall (usual_node []) ns ->
  (forall n m, In n ns -> In m (names_in [] n) -> is_section_cls (doc_term_class m s1) = false) ->
  exists s ids, yaml_doc e fuel (JDict items) s0 = (s, Ok tt) /\ in_order s /\ yaml_made s1 s ns ids.
Proof.
  intros e fuel items decl s0 s1 ns YD LD O SIX AN U PN. destruct (yaml_run e fuel items decl s0 s1 ns YD LD O SIX AN U) as (s & ids & A & B & C & D & E & F & G).
  { intros m I. unfold kids_names in I. apply in_concat in I. destruct I as (l & Il & Im). apply in_map_iff in Il. destruct Il as (n & <- & In'). exact (PN n m In' Im). }
  exists s, ids. split; [exact A|]. split; [exact B|]. constructor; assumption.
Qed.

Lemma yaml_agree : forall e fuel items decl s0 s1 ns, yaml_declare items = Ok decl -> load_declarations e fuel decl s0 = (s1, Ok tt) -> in_order s1 ->
  (forall n, In n yaml_six -> ~ odd n /\ exists sd, dget n (d_decl_sections (s_doc s1)) = Some sd) ->
  as_nodes (value_name (d_decl_terms (s_doc s1))) [] items ns -> Forall (usual_node []) ns ->
  (forall n m, In n ns -> In m (names_in [] n) -> is_section_cls (doc_term_class m s1) = false) ->
  forall s r, yaml_doc e fuel (JDict items) s0 = (s, r) -> lists_agree s.
Proof.
  intros e fuel items decl s0 s1 ns YD LD O SIX AN U PN s r H. destruct (yaml_document e fuel items decl s0 s1 ns YD LD O SIX AN U PN) as (s' & ids & E & O' & _).
  rewrite E in H. injection H as <- _. apply ok_agree. apply io_ok. exact O'.
Qed.

End Doc.

Lemma rows_of_doc : forall e fuel d s, yaml_doc e fuel d (init_st default_classes) = (s, Ok tt) -> yaml_rows e fuel d = doc_rows s.
Proof. intros e fuel d s H. unfold yaml_rows. rewrite H. reflexivity. Qed.

Lemma yaml_asks : forall e fuel items d s0, asks_for items d -> yaml_declare items = Ok d
  /\ forall s1 x, load_declarations e fuel d s0 = (s1, Err x) -> yaml_doc e fuel (JDict items) s0 = (s1, Err x).
Proof.
  intros e fuel items d s0 H. assert (E : yaml_declare items = Ok d).
  { unfold yaml_declare. destruct H as [x H|l H|H|H].
    - rewrite H. reflexivity.
    - rewrite H. clear H. induction l as [|x l IH]; [reflexivity|]. cbn [map yaml_strs]. rewrite IH. reflexivity.
    - rewrite H. reflexivity.
    - rewrite (proj2 (dget_none "declare" items)); [reflexivity|exact H]. }
  split; [exact E|]. intros s1 x L. unfold yaml_doc. rewrite E. unfold bind at 1. cbn [lift]. unfold bind at 1. rewrite L. reflexivity.
Qed.

(** a file with a list item that is not a dict gives no document *)
Lemma yaml_stray : forall e fuel items s0 s, (forall decl, stray decl items) -> yaml_doc e fuel (JDict items) s0 <> (s, Ok tt).
Proof.
  intros e fuel items s0 s H R. unfold yaml_doc in R. destruct (yaml_declare items) as [decl|x]; [|discriminate R].
  unfold bind at 1 in R. cbn [lift] in R. unfold bind at 1 in R. destruct (load_declarations e fuel decl s0) as [s1 [[]|x]]; [|discriminate R].
  unfold bind at 1 in R. destruct (open_sections yaml_sections _ s1) as [s2 [y|x]]; [|discriminate R].
  unfold bind at 1, getD at 1 in R. unfold gets in R. cbn [fst snd] in R. rewrite (yield_stray _ _ None (H _)) in R. discriminate R.
Qed.

Lemma yaml_listed : forall e fuel items x l s0 s, dget "declare" items = Some (JList (JVal x :: l)) -> yaml_doc e fuel (JDict items) s0 <> (s, Ok tt).
Proof.
  intros e fuel items x l s0 s H. apply yaml_stray. intros decl. eapply stray_here; [apply dget_in; exact H|left; reflexivity|discriminate].
Qed.

(** no declarations *)
Lemma yaml_none : forall e fuel items s0, asks_for items [] -> d_decl_sections (s_doc s0) = [] ->
  yaml_doc e fuel (JDict items) s0 = (s0, Err EKey).
Proof.
  intros e fuel items s0 A D. destruct (yaml_asks e fuel items [] s0 A) as [E _]. unfold yaml_doc. rewrite E. unfold bind at 1. cbn [lift].
  unfold bind at 1. cbn [load_declarations ret]. unfold bind at 1. cbn [yaml_sections open_sections]. unfold bind at 1, getD at 1. unfold gets. cbn [fst snd].
  rewrite D. reflexivity.
Qed.
