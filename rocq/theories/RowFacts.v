(** * RowFacts: what one row of a file does to the state *)

From Verif Require Import ListFacts StrFacts SpecNames NameFacts HeapFacts ConstructFacts Parser RunFacts EmitFacts TreeFacts DigitFacts SpecDoc.

Definition push (r : trec) (s : st) : st := set_s_heap (s_heap s ++ [r]) s.

Lemma hlen_push : forall r s, hlen (push r s) = S (hlen s).
Proof. intros. apply hlen_app. Qed.
Lemma tget_push : forall i r s, i <= hlen s -> tget i (push r s) = if i =? hlen s then r else tget i s.
Proof. intros. apply tget_app. assumption. Qed.
Lemma doc_push : forall r s, s_doc (push r s) = s_doc s.
Proof. reflexivity. Qed.
Lemma prs_push : forall r s, s_prs (push r s) = s_prs s.
Proof. reflexivity. Qed.
Lemma reg_push : forall r s, s_reg (push r s) = s_reg s.
Proof. reflexivity. Qed.

(** ** The class registry *)

Lemma default_good_reg : good_reg default_classes.
Proof.
  split; try reflexivity. intros k c H Hc. unfold default_classes in H. cbn [dget] in H.
  eqs_cases k "root.section"; [auto|]. eqs_cases k "root.root"; [auto|discriminate].
Qed.

(** ** Construction *)

Definition section_rec (v : string) (args : list string) (line : nat) (ftype : option string) (name : string) : trec :=
  fresh_plain CSection name "root" "section" (VStr v) args (Some line) (Some line) ftype None true None.

Lemma construct_plain : forall c term value args row col ftype parent doc section s s' i,
  is_section_cls c = false ->
  construct c term value args row col ftype parent doc section s = (s', Ok i) ->
  exists p r, term_names (s_heap s) parent term = Ok (p, r)
    /\ (forall j, parent = Some j -> lower (t_rt (tget j s)) = lower p)
    /\ i = hlen s /\ s' = push (fresh_plain c term p r value args row col ftype parent doc section) s.
Proof.
  intros until i. intros Hc H.
  assert (E : construct c term value args row col ftype parent doc section = mk_plain c term value args row col ftype parent doc section)
    by (destruct c; try discriminate Hc; reflexivity).
  rewrite E in H. apply mk_plain_ok in H. exact H.
Qed.

(** the columns a section heading gets: its own cells, or the declared ones *)
Definition heading_args (d : docrec) (v : string) (args : list string) : list string :=
  match args with [] => section_args v d | _ => args end.

Lemma construct_section : forall term value args row col ftype s s' i p r v,
  split_term_lower term = Ok (p, r) -> value = VStr v ->
  construct CSection term value args row col ftype None true None s = (s', Ok i) ->
  i = hlen s /\ s' = push (fresh_plain CSection term p r value (heading_args (s_doc s) v args) row row ftype None true None) s.
Proof.
  intros until v. intros E -> H. cbn [construct] in H. unfold mk_section in H. rg H.
  rb H as s1 a H1.
  assert (Ha : s1 = s /\ a = heading_args (s_doc s) v args).
  { destruct args.
    - cbn [as_str] in H1. rg H1. apply ret_ok in H1. exact H1.
    - apply ret_ok in H1. exact H1. }
  destruct Ha as [-> ->]. rewrite E in H. rg H. cbn beta iota in H. rb H as s2 b1 H2. apply lift_ok in H2. destruct H2 as [-> H2].
  rb H as s3 b2 H3. assert (s3 = s) by (destruct b1; [apply ret_ok in H3|apply lift_ok in H3]; tauto). subst s3.
  rb H as s4 u H4. apply assert_ok in H4. destruct H4 as [_ ->].
  apply alloc_ok in H. destruct H as [-> ->]. split; reflexivity.
Qed.

(** ** The invariant *)

(** What was there before the rows in question: the terms below [b_base], among them perhaps sections that are not
    as a section heading makes them ([b_wild]), which are to be found only under the names [b_odd]; the terms of the
    document [b_tops] and of its sections [b_sterms], and the terms the parser knows by name ([b_known]). *)
Class background := {
  b_base : nat;
  b_wild : nat -> Prop;
  b_old : forall i, b_wild i -> i < b_base;
  b_odd : list string;
  b_known : string -> option nat;
  b_tops : list nat;
  b_sterms : nat -> list nat
}.

(** nothing before *)
Lemma no_old : forall i : nat, False -> i < 0.
Proof. intros i []. Qed.
Definition no_background : background :=
  {| b_base := 0; b_wild := fun _ => False; b_old := no_old; b_odd := []; b_known := fun _ => None; b_tops := []; b_sterms := fun _ => [] |}.

Section Background.
Context {Bk : background}.

Record pinv (s : st) : Prop := {
  pi_syn : synonyms (p_dterms (s_prs s)) = [];
  pi_reg : good_reg (s_reg s);
  pi_root : d_root (s_doc s) < hlen s;
  pi_rootc : is_section_cls (t_cls (tget (d_root (s_doc s)) s)) = true;
  pi_rootn : t_rt (tget (d_root (s_doc s)) s) = "root";
  pi_sec : forall i, i < hlen s -> is_section_cls (t_cls (tget i s)) = true -> ~ b_wild i ->
    plain_section (tget i s) /\ (i <> d_root (s_doc s) -> t_rt (tget i s) = "section");
  pi_last : p_lastsec (s_prs s) < hlen s;
  pi_lastc : is_section_cls (t_cls (tget (p_lastsec (s_prs s)) s)) = true;
  pi_tmap : forall k i, dget k (p_tmap (s_prs s)) = Some i -> i < hlen s;
  pi_lp : dot_free (p_lastparent (s_prs s)) /\ lower (p_lastparent (s_prs s)) = p_lastparent (s_prs s);
  pi_lpin : dget (p_lastparent (s_prs s)) (p_tmap (s_prs s)) <> None;
  pi_pmap : forall x, In x (p_pmap (s_prs s)) -> lower x = x;
  pi_dterms : forall i, In i (d_terms (s_doc s)) -> i < hlen s;
  pi_terms : forall i j, i < hlen s -> In j (t_terms (tget i s)) -> j < hlen s;
  pi_kids : forall i j, i < hlen s -> In j (t_children (tget i s)) -> j < hlen s;
  pi_dsecs : forall k i, dget k (d_sections (s_doc s)) = Some i ->
    i < hlen s /\ is_section_cls (t_cls (tget i s)) = true;
  pi_decl : forall n, ~ In (lower (strip n)) b_odd -> ~ In "section" (map lower (map strip (section_args n (s_doc s))));
  pi_rootargs : t_args (tget (d_root (s_doc s)) s) = [];
  pi_dname : forall k i, dget k (d_sections (s_doc s)) = Some i -> exists n, t_val (tget i s) = VStr n /\ lower n = k;
  pi_rootmap : dget "root" (p_tmap (s_prs s)) = Some (d_root (s_doc s));
  pi_base : b_base <= hlen s;
  pi_lastt : ~ b_wild (p_lastsec (s_prs s));
  pi_tame : forall k i, dget k (d_sections (s_doc s)) = Some i -> ~ In k b_odd -> ~ b_wild i
}.

Lemma not_wild : forall i, b_base <= i -> ~ b_wild i.
Proof. intros i H W. apply b_old in W. lia. Qed.

Lemma pi_lastdoc : forall s, pinv s -> plain_section (tget (p_lastsec (s_prs s)) s).
Proof. intros s P. exact (proj1 (pi_sec _ P _ (pi_last _ P) (pi_lastc _ P) (pi_lastt _ P))). Qed.

(** ** A new term *)

Definition lookup_parent (s : st) (r : trec) (q : nat) : Prop :=
  if registers r
  then dget (t_pt r) (dset (renamed (p_pmap (s_prs s)) (t_rt r)) (hlen s) (dset ELIDED_TERM (hlen s) (p_tmap (s_prs s)))) = Some q
  else dget (p_lastparent (s_prs s)) (p_tmap (s_prs s)) = Some q.

(** [s'] is [s] with the new term [r], attached to [q] *)
Record new_term (s : st) (r : trec) (q : nat) (s' : st) : Prop := {
  nt_q : q <= hlen s;
  nt_look : lookup_parent s r q;
  nt_len : hlen s' = S (hlen s);
  nt_reg : s_reg s' = s_reg s;
  nt_doc : s_doc s' = if eqs (final_pt s r) "root" then set_d_terms (d_terms (s_doc s) ++ [hlen s]) (s_doc s) else s_doc s;
  nt_prs : s_prs s' = if registers r then reg_prs (hlen s) (renamed (p_pmap (s_prs s)) (t_rt r)) (s_prs s) else s_prs s;
  nt_get : forall i, i <= hlen s -> tget i s' =
    (let x := if i =? hlen s then settled s q r else tget i s in
     let x := if i =? q then add_kid (hlen s) x else x in
     if eqs (final_pt s r) "root" && (i =? p_lastsec (s_prs s)) then add_top (hlen s) x else x)
}.

Record fresh_ok (s : st) (r : trec) : Prop := {
  fo_cls : is_section_cls (t_cls r) = false;
  fo_sec : t_section r = None;
  fo_tvn : t_tvn r = "@value";
  fo_ch : t_children r = [];
  fo_tm : t_terms r = [];
  fo_ft : t_ftype r <> Some "declare";
  fo_pt : dot_free (t_pt r) /\ lower (t_pt r) = t_pt r;
  fo_rt : lower (t_rt r) = t_rt r;
  fo_nm : final_pt s r = "root" -> ~ In (renamed (p_pmap (s_prs s)) (t_rt r)) ["header"; "section"; "root"];
  fo_reg : registers r = true -> t_rt r <> ELIDED_TERM /\ py_int (t_rt r) = None /\ dot_free (t_rt r) /\ t_rt r <> "root"
}.

Lemma renamed_lower : forall pm n, (forall x, In x pm -> lower x = x) -> lower n = n -> lower (renamed pm n) = renamed pm n.
Proof.
  intros pm n H Hn. unfold renamed. destruct (py_int n) as [z|]; [|exact Hn]. unfold pindex.
  assert (K : forall k c, nth_error pm k = Some c -> lower c = c) by (intros k c E; apply H; eapply nth_error_In; exact E).
  destruct (z <? 0)%Z.
  - destruct (0 <=? _)%Z; [|exact Hn]. destruct (nth_error pm _) eqn:E; [eapply K; exact E|exact Hn].
  - destruct (nth_error pm _) eqn:E; [eapply K; exact E|exact Hn].
Qed.

Lemma emit_new : forall s r s', pinv s -> fresh_ok s r -> emit true (hlen s) (push r s) = (s', Ok tt) ->
  exists q, new_term s r q s'.
Proof.
  intros s r s' P F H.
  assert (T : tget (hlen s) (push r s) = r) by (rewrite tget_push by lia; rewrite Nat.eqb_refl; reflexivity).
  assert (L : tget (p_lastsec (s_prs s)) (push r s) = tget (p_lastsec (s_prs s)) s).
  { pose proof (pi_last _ P). rewrite tget_push by lia. replace (_ =? _) with false by (symmetry; apply Nat.eqb_neq; lia). reflexivity. }
  pose proof (pi_last _ P) as PL.
  assert (R : ready (hlen s) (push r s)).
  { split; rewrite ?T, ?hlen_push, ?prs_push, ?doc_push, ?L; try apply F; try apply (pi_syn _ P); try apply (pi_lp _ P); try lia.
    - apply (pi_lastdoc _ P).
    - intros I. apply (pi_terms _ P) in I; lia.
    - intros I. apply (pi_dterms _ P) in I. lia.
    - intros k i I. apply (pi_tmap _ P) in I. lia.
    - apply renamed_lower; [apply P|apply F]. }
  apply emit_plain in H; [|exact R|rewrite T; apply F].
  rewrite T, prs_push, hlen_push in H. destruct H as (q & Hq & Lk & A & Pr). exists q.
  assert (FE : final_pt (push r s) r = final_pt s r) by reflexivity. rewrite FE in A.
  destruct A as [A1 A2 A3 A4]. rewrite hlen_push in A1. split.
  - lia.
  - exact Lk.
  - exact A1.
  - exact A2.
  - exact A3.
  - exact Pr.
  - intros i Hi. rewrite A4, T. rewrite tget_push by exact Hi.
    assert (SE : settled (push r s) q r = settled s q r) by (unfold settled; rewrite !prs_push, doc_push, FE, L; reflexivity).
    rewrite SE. destruct (i =? hlen s); reflexivity.
Qed.

Lemma settled_fields : forall s q r,
  let x := settled s q r in
  t_cls x = t_cls r /\ t_parent x = Some q /\ t_term x = t_term r /\ t_pt x = final_pt s r
  /\ t_rt x = renamed (p_pmap (s_prs s)) (t_rt r) /\ t_val x = t_val r /\ t_args x = t_args r
  /\ t_section x = Some (p_lastsec (s_prs s)) /\ t_doc x = true /\ t_ftype x = t_ftype r
  /\ t_row x = t_row r /\ t_col x = t_col r /\ t_children x = t_children r /\ t_terms x = t_terms r
  /\ t_hargs x = t_hargs r /\ t_dtvn x = t_dtvn r.
Proof.
  intros s q r x. unfold x, settled. destruct (eqs (final_pt s r) "root"); [unfold docmetaF; destruct (_ || _), (_ || _)|];
  cbn; repeat split.
Qed.

(** what stays of a term when children or section terms are added to it *)
Record same_term (a b : trec) : Prop := {
  sm_cls : t_cls b = t_cls a;
  sm_parent : t_parent b = t_parent a;
  sm_term : t_term b = t_term a;
  sm_pt : t_pt b = t_pt a;
  sm_rt : t_rt b = t_rt a;
  sm_val : t_val b = t_val a;
  sm_args : t_args b = t_args a;
  sm_section : t_section b = t_section a;
  sm_doc : t_doc b = t_doc a;
  sm_ftype : t_ftype b = t_ftype a;
  sm_row : t_row b = t_row a;
  sm_col : t_col b = t_col a;
  sm_tvn : t_tvn b = t_tvn a;
  sm_cpt : t_cpt b = t_cpt a;
  sm_valid : t_valid b = t_valid a;
  sm_options : t_options b = t_options a
}.

Lemma same_refl : forall a, same_term a a.
Proof. split; reflexivity. Qed.
Lemma same_trans : forall a b c, same_term a b -> same_term b c -> same_term a c.
Proof. intros a b c H1 H2. destruct H1, H2. split; congruence. Qed.
Lemma same_kid : forall t a, same_term a (add_kid t a).
Proof. split; reflexivity. Qed.
Lemma same_top : forall t a, same_term a (add_top t a).
Proof. split; reflexivity. Qed.

(** what is added to a term by a new term [r] with parent [q] *)
Definition with_new (s : st) (r : trec) (q i : nat) (x : trec) : trec :=
  let x := if i =? q then add_kid (hlen s) x else x in
  if eqs (final_pt s r) "root" && (i =? p_lastsec (s_prs s)) then add_top (hlen s) x else x.

Lemma with_new_same : forall s r q i x, same_term x (with_new s r q i x).
Proof.
  intros. unfold with_new. destruct (i =? q), (_ && _); auto using same_refl, same_kid, same_top.
  eapply same_trans; [apply same_kid|apply same_top].
Qed.
Lemma with_new_fields : forall s r q i x,
  t_children (with_new s r q i x) = (t_children x ++ (if i =? q then [hlen s] else []))%list
  /\ t_terms (with_new s r q i x) = (t_terms x ++ (if eqs (final_pt s r) "root" && (i =? p_lastsec (s_prs s)) then [hlen s] else []))%list
  /\ t_hargs (with_new s r q i x) = t_hargs x /\ t_dtvn (with_new s r q i x) = t_dtvn x.
Proof.
  intros. unfold with_new. destruct (i =? q), (_ && _); cbn; rewrite ?app_nil_r; repeat split.
Qed.

Lemma nt_old : forall s r q s' i, new_term s r q s' -> i < hlen s -> tget i s' = with_new s r q i (tget i s).
Proof.
  intros s r q s' i N H. rewrite (nt_get _ _ _ _ N) by lia. replace (i =? hlen s) with false by (symmetry; apply Nat.eqb_neq; lia). reflexivity.
Qed.
Lemma nt_new : forall s r q s', new_term s r q s' -> tget (hlen s) s' = with_new s r q (hlen s) (settled s q r).
Proof. intros s r q s' N. rewrite (nt_get _ _ _ _ N) by lia. rewrite Nat.eqb_refl. reflexivity. Qed.

Lemma plain_same : forall a b, same_term a b -> t_hargs b = t_hargs a -> plain_section a -> plain_section b.
Proof.
  intros a b H Hh P. destruct H. destruct P. split; congruence.
Qed.

Lemma new_term_inv : forall s r q s', pinv s -> fresh_ok s r -> new_term s r q s' -> pinv s'.
Proof.
  intros s r q s' P F N.
  assert (Old : forall i, i < hlen s -> same_term (tget i s) (tget i s')).
  { intros i Hi. rewrite (nt_old _ _ _ _ _ N Hi). apply with_new_same. }
  assert (OldH : forall i, i < hlen s -> t_hargs (tget i s') = t_hargs (tget i s)).
  { intros i Hi. rewrite (nt_old _ _ _ _ _ N Hi). apply with_new_fields. }
  assert (New : t_cls (tget (hlen s) s') = t_cls r).
  { rewrite (nt_new _ _ _ _ N). rewrite (sm_cls _ _ (with_new_same _ _ _ _ _)). apply settled_fields. }
  assert (Ds : d_root (s_doc s') = d_root (s_doc s) /\ d_sections (s_doc s') = d_sections (s_doc s) /\ d_decl_sections (s_doc s') = d_decl_sections (s_doc s)).
  { rewrite (nt_doc _ _ _ _ N). destruct (eqs _ _); repeat split. }
  destruct Ds as (D1 & D2 & D3).
  assert (Pm : p_pmap (s_prs s') = p_pmap (s_prs s) /\ p_lastsec (s_prs s') = p_lastsec (s_prs s) /\ p_dterms (s_prs s') = p_dterms (s_prs s)).
  { rewrite (nt_prs _ _ _ _ N). destruct (registers r); repeat split. }
  destruct Pm as (P1 & P2 & P3).
  assert (Rn : registers r = true -> renamed (p_pmap (s_prs s)) (t_rt r) = t_rt r).
  { intros E. unfold renamed. destruct (fo_reg _ _ F E) as (_ & -> & _). reflexivity. }
  pose proof (nt_len _ _ _ _ N) as Ln. pose proof (pi_root _ P) as PR. pose proof (pi_last _ P) as PL.
  split.
  - rewrite P3. apply (pi_syn _ P).
  - rewrite (nt_reg _ _ _ _ N). apply (pi_reg _ P).
  - lia.
  - rewrite D1, (sm_cls _ _ (Old _ PR)). apply (pi_rootc _ P).
  - rewrite D1, (sm_rt _ _ (Old _ PR)). apply (pi_rootn _ P).
  - intros i Hi Hc Wi. assert (Hi' : i < hlen s).
    { destruct (Nat.eq_dec i (hlen s)) as [->|]; [|lia]. rewrite New, (fo_cls _ _ F) in Hc. discriminate. }
    rewrite (sm_cls _ _ (Old _ Hi')) in Hc. rewrite D1, (sm_rt _ _ (Old _ Hi')).
    split; [eapply plain_same; [apply Old; exact Hi'|apply OldH; exact Hi'|]|]; apply (pi_sec _ P _ Hi' Hc Wi).
  - rewrite P2. lia.
  - rewrite P2, (sm_cls _ _ (Old _ PL)). apply (pi_lastc _ P).
  - intros k i H. rewrite (nt_prs _ _ _ _ N) in H. destruct (registers r) eqn:E.
    + cbn [p_tmap reg_prs set_p_tmap] in H. rewrite !dget_dset in H. destruct (eqs _ _) in H; [injection H as <-; lia|].
      destruct (eqs _ _) in H; [injection H as <-; lia|]. apply (pi_tmap _ P) in H. lia.
    + apply (pi_tmap _ P) in H. lia.
  - rewrite (nt_prs _ _ _ _ N). destruct (registers r) eqn:E; [|apply (pi_lp _ P)].
    cbn [p_lastparent reg_prs set_p_tmap set_p_lastparent]. rewrite Rn by reflexivity. split; [apply (fo_reg _ _ F E)|apply F].
  - rewrite (nt_prs _ _ _ _ N). destruct (registers r) eqn:E; [|apply (pi_lpin _ P)].
    cbn [p_lastparent p_tmap reg_prs set_p_tmap set_p_lastparent]. rewrite dget_dset_same. discriminate.
  - rewrite P1. apply (pi_pmap _ P).
  - intros i H. rewrite (nt_doc _ _ _ _ N) in H. rewrite Ln. destruct (eqs _ _) in H.
    + cbn [d_terms set_d_terms] in H. apply in_app_iff in H. destruct H as [H|[<-|[]]]; [apply (pi_dterms _ P) in H|]; lia.
    + apply (pi_dterms _ P) in H. lia.
  - intros i j Hi H. rewrite Ln. destruct (Nat.eq_dec i (hlen s)) as [->|Ne].
    + rewrite (nt_new _ _ _ _ N) in H. rewrite (proj1 (proj2 (with_new_fields _ _ _ _ _))) in H.
      apply in_app_iff in H. destruct H as [H|H].
      * pose proof (settled_fields s q r) as SF. cbn zeta in SF. destruct SF as (_&_&_&_&_&_&_&_&_&_&_&_&_&SF&_). rewrite SF, (fo_tm _ _ F) in H. destruct H.
      * destruct (_ && _) in H; [destruct H as [<-|[]]; lia|destruct H].
    + rewrite (nt_old _ _ _ _ _ N) in H by lia. rewrite (proj1 (proj2 (with_new_fields _ _ _ _ _))) in H.
      apply in_app_iff in H. destruct H as [H|H]; [apply (pi_terms _ P) in H; lia|].
      destruct (_ && _) in H; [destruct H as [<-|[]]; lia|destruct H].
  - intros i j Hi H. rewrite Ln. destruct (Nat.eq_dec i (hlen s)) as [->|Ne].
    + rewrite (nt_new _ _ _ _ N) in H. rewrite (proj1 (with_new_fields _ _ _ _ _)) in H.
      apply in_app_iff in H. destruct H as [H|H].
      * pose proof (settled_fields s q r) as SF. cbn zeta in SF. destruct SF as (_&_&_&_&_&_&_&_&_&_&_&_&SF&_). rewrite SF, (fo_ch _ _ F) in H. destruct H.
      * destruct (_ =? _) in H; [destruct H as [<-|[]]; lia|destruct H].
    + rewrite (nt_old _ _ _ _ _ N) in H by lia. rewrite (proj1 (with_new_fields _ _ _ _ _)) in H.
      apply in_app_iff in H. destruct H as [H|H]; [apply (pi_kids _ P) in H; lia|].
      destruct (_ =? _) in H; [destruct H as [<-|[]]; lia|destruct H].
  - intros k i H. rewrite D2 in H. apply (pi_dsecs _ P) in H. destruct H as [H1 H2]. split; [lia|].
    rewrite (sm_cls _ _ (Old _ H1)). exact H2.
  - intros n. unfold section_args. rewrite D3. apply (pi_decl _ P n).
  - rewrite D1, (sm_args _ _ (Old _ PR)). apply (pi_rootargs _ P).
  - intros k i H. rewrite D2 in H. destruct (pi_dsecs _ P _ _ H) as [H1 _].
    rewrite (sm_val _ _ (Old _ H1)). apply (pi_dname _ P _ _ H).
  - rewrite D1, (nt_prs _ _ _ _ N). destruct (registers r) eqn:E; [|apply (pi_rootmap _ P)].
    cbn [p_tmap reg_prs set_p_tmap]. rewrite Rn by reflexivity. rewrite !dget_dset.
    destruct (fo_reg _ _ F E) as (_ & _ & _ & Nr).
    replace (eqs "root" (t_rt r)) with false by (symmetry; apply eqs_false; congruence). apply (pi_rootmap _ P).
  - pose proof (pi_base _ P). lia.
  - rewrite P2. apply (pi_lastt _ P).
  - intros k i H. rewrite D2 in H. apply (pi_tame _ P _ _ H).
Qed.

(** ** The argument children of a row *)

Definition arg_rec (c : cls) (line : nat) (ftype : option string) (t : nat) (n : string) (col : nat) (a : string) : trec :=
  fresh_plain c (dotted n (str_of_nat col)) n (str_of_nat col) (VStr a) [] (Some line) (Some (col + 2)) ftype (Some t) false None.

Inductive kids (line : nat) (ftype : option string) (t : nat) (n : string) : nat -> list string -> st -> st -> Prop :=
| kids_nil : forall col s, kids line ftype t n col [] s s
| kids_blank : forall col a args s s', strip a = "" ->
    kids line ftype t n (S col) args s s' -> kids line ftype t n col (a :: args) s s'
| kids_cell : forall col a args s s1 s' c q, strip a <> "" ->
    fresh_ok s (arg_rec c line ftype t n col a) ->
    new_term s (arg_rec c line ftype t n col a) q s1 ->
    kids line ftype t n (S col) args s1 s' -> kids line ftype t n col (a :: args) s s'.

Definition good_name (n : string) : Prop :=
  tidy n /\ dot_free n /\ lower n = n /\ n <> "root" /\ n <> ELIDED_TERM.

Lemma construct_sec_parent : forall c term value args row col ftype parent doc section s s' i,
  parent <> None -> construct c term value args row col ftype parent doc section s = (s', Ok i) -> is_section_cls c = false.
Proof. intros until i. intros Hp H. destruct c; cbn in H |- *; try reflexivity; destruct parent; try congruence; destruct section, doc; discriminate. Qed.

Lemma when_ok : forall (b : bool) (m : MM unit) s s', when b m s = (s', Ok tt) -> if b then m s = (s', Ok tt) else s' = s.
Proof. intros b m s s' H. destruct b; [exact H|]. cbn in H. apply ret_ok in H. tauto. Qed.

Lemma args_eff : forall line ftype t n args col s s', ftype <> Some "declare" -> good_name n ->
  pinv s -> t < hlen s -> t_rt (tget t s) = n ->
  emit_args true ftype line t col args s = (s', Ok tt) ->
  kids line ftype t n col args s s' /\ pinv s'.
Proof.
  intros line ftype t n args. induction args as [|a args IH]; intros col s s' Ft G P Ht Rt H.
  - cbn in H. apply ret_ok in H. destruct H as [-> _]. split; [constructor|exact P].
  - cbn [emit_args] in H. rb H as s1 u H1. destruct u. apply when_ok in H1. unfold nonempty in H1.
    eqs_cases (strip a) ""; cbn [negb] in H1.
    + subst s1. apply IH in H; auto. destruct H as [H H']. split; [|exact H']. apply kids_blank; auto.
    + rg H1. rg H1. rb H1 as s2 k H2. unfold rt_lc in H2. rewrite Rt in H2.
      destruct G as (G1 & G2 & G3 & G4 & G5). rewrite G3 in H2.
      assert (Hc : is_section_cls (parser_term_class (dotted n (str_of_nat col)) s) = false)
        by (eapply construct_sec_parent with (parent := Some t); [discriminate|exact H2]).
      apply construct_plain in H2; [|exact Hc]. destruct H2 as (p & r & Tn & As & -> & ->).
      assert (Nn : n <> "").
      { intros ->. unfold term_names in Tn. change (split_term_lower (dotted "" (str_of_nat col))) with (split_term_lower ("." ++ str_of_nat col)) in Tn.
        assert (CN : cell_names ("." ++ str_of_nat col) ELIDED_TERM (str_of_nat col)).
        { destruct (str_of_nat_digits col) as [D _]. rewrite <- (digits_lower _ D) at 2.
          apply (cell_elided _ "" (str_of_nat col)); [reflexivity|constructor|apply digits_dot_free; exact D|].
          apply trimmed_iff, tidy_strip, digits_starts, D. }
        apply split_term_lower_spec in CN. rewrite CN in Tn. cbn in Tn. injection Tn as <- <-.
        specialize (As t eq_refl). rewrite Rt in As. discriminate. }
      assert (CN : cell_names (dotted n (str_of_nat col)) n (str_of_nat col)).
      { destruct (str_of_nat_digits col) as [D _]. rewrite <- G3 at 2. rewrite <- (digits_lower _ D) at 2.
        apply (cell_qualified _ n (str_of_nat col)); auto; [apply digits_dot_free, D|apply trimmed_iff, tidy_strip, G1|].
        apply trimmed_iff, tidy_strip, digits_starts, D. }
      apply split_term_lower_spec in CN. unfold term_names in Tn. rewrite CN in Tn. cbn [rbind] in Tn. injection Tn as Tp <-.
      assert (p = n) as -> by (destruct (eqs n ROOT_TERM); [unfold tget in Rt; congruence|congruence]). clear Tp.
      match type of H1 with emit true _ (push ?r _) = _ => set (R := r) in * end.
      assert (F : fresh_ok s R).
      { destruct (str_of_nat_digits col) as [D _]. split; [exact Hc|reflexivity|reflexivity|reflexivity|reflexivity|exact Ft|split; assumption|apply digits_lower, D|..].
        - unfold final_pt. change (t_pt R) with n. apply eqs_false in G5. rewrite G5. congruence.
        - unfold registers. change (t_pt R) with n. change (t_col R) with (Some (col + 2)). cbn iota. apply eqs_false in G5. rewrite G5. replace (1 <? col + 2) with true; [discriminate|].
          symmetry. apply Nat.ltb_lt. lia. }
      apply emit_new in H1; [|exact P|exact F]. destruct H1 as (q & N).
      pose proof (new_term_inv _ _ _ _ P F N) as P1.
      assert (Rt1 : t_rt (tget t s1) = n).
      { rewrite (nt_old _ _ _ _ _ N) by exact Ht. rewrite (sm_rt _ _ (with_new_same _ _ _ _ _)). exact Rt. }
      apply IH in H; auto.
      * destruct H as [H H']. split; [|exact H']. eapply kids_cell; eauto.
      * exact (conj G1 (conj G2 (conj G3 (conj G4 G5)))).
      * rewrite (nt_len _ _ _ _ N). lia.
Qed.

(** ** Rows *)

(** a row that is not an Include or Declare row, and whose name is none of the
    names the parser itself uses *)
Definition ordinary (row : list string) : Prop :=
  skip_row row = false -> forall p r, cell_names (hd "" row) p r ->
  py_int r = None /\ r <> current_parent /\ r <> "root"
  /\ (p = current_parent -> ~ In r ["section"; "header"])
  /\ (p = "root" -> ~ In r ["include"; "declare"])
  /\ (p = "root" -> In r ["section"; "header"] -> ~ In "section" (map lower (map strip (skipn 2 row)))).

Definition row_rec (c : cls) (line : nat) (ftype : option string) (p r : string) (row : list string) : trec :=
  fresh_plain c (dotted p r) p r (VStr (nth 1 row "")) (skipn 2 row) (Some line) (Some 1) ftype None true None.

Definition enter_section (i : nat) (s : st) : st :=
  if i =? d_root (s_doc s) then pmod (set_p_lastsec i) s
  else pmod (fun p => set_p_dtvn "@value" (set_p_lastsec i (set_p_lastparent "root"
              (set_p_pmap (munge_param_map (t_args (tget i s))) p)))) s.

(** the state after a Section row *)
Definition section_effect (v : string) (args : list string) (line : nat) (ftype : option string) (s : st) : st :=
  let s1 := push (section_rec v (heading_args (s_doc s) v args) line ftype "root.section") s in
  match dget (lower (strip v)) (d_sections (s_doc s)) with
  | Some i => enter_section i s1
  | None => dmod (fun d => set_d_sections (dset (lower (strip v)) (hlen s) (d_sections d)) d) (enter_section (hlen s) s1)
  end.

(** the state after a Header row *)
Definition header_effect (c : cls) (line : nat) (ftype : option string) (row : list string) (s : st) : st :=
  hmod (p_lastsec (s_prs s)) (fun r => set_t_dtvn (lower (strip (nth 1 row ""))) (set_t_hargs (map strip (skipn 2 row)) r))
    (pmod (fun p => set_p_dtvn (lower (strip (nth 1 row ""))) (set_p_pmap (munge_param_map (map strip (skipn 2 row))) p))
      (hmod (hlen s) (set_t_section (Some (p_lastsec (s_prs s)))) (push (row_rec c line ftype "root" "header" row) s))).

Inductive row_eff (ftype : option string) (line : nat) (row : list string) (s s' : st) : Prop :=
| re_skip : skip_row row = true -> s' = s -> row_eff ftype line row s s'
| re_section : skip_row row = false -> cell_names (hd "" row) "root" "section" -> nth 1 row "" <> "" ->
    s' = section_effect (nth 1 row "") (skipn 2 row) line ftype s -> row_eff ftype line row s s'
| re_header : forall c, skip_row row = false -> cell_names (hd "" row) "root" "header" -> nth 1 row "" <> "" ->
    is_section_cls c = false -> s' = header_effect c line ftype row s -> row_eff ftype line row s s'
| re_term : forall p r c q s1, skip_row row = false -> cell_names (hd "" row) p r ->
    (p = "root" -> ~ In r ["section"; "header"; "root"]) -> good_name r ->
    fresh_ok s (row_rec c line ftype p r row) ->
    new_term s (row_rec c line ftype p r row) q s1 ->
    kids line ftype (hlen s) r 0 (map strip (skipn 2 row)) s1 s' -> row_eff ftype line row s s'.

(** the section a Section row names *)
Definition row_section (s : st) (row : list string) : nat :=
  match dget (lower (strip (nth 1 row ""))) (d_sections (s_doc s)) with Some i => i | None => hlen s end.

Lemma section_rec_plain : forall v args line ftype, ftype <> Some "declare" ->
  ~ In "section" (map lower (map strip args)) -> plain_section (section_rec v args line ftype "root.section").
Proof. intros. split; try reflexivity; cbn; auto. Qed.

Lemma enter_fields : forall i s, s_heap (enter_section i s) = s_heap s /\ s_doc (enter_section i s) = s_doc s /\ s_reg (enter_section i s) = s_reg s.
Proof. intros. unfold enter_section. destruct (_ =? _); repeat split. Qed.
Lemma enter_prs : forall i s, p_lastsec (s_prs (enter_section i s)) = i
  /\ p_dterms (s_prs (enter_section i s)) = p_dterms (s_prs s) /\ p_tmap (s_prs (enter_section i s)) = p_tmap (s_prs s)
  /\ p_dsecs (s_prs (enter_section i s)) = p_dsecs (s_prs s)
  /\ (i = d_root (s_doc s) -> p_pmap (s_prs (enter_section i s)) = p_pmap (s_prs s)
        /\ p_lastparent (s_prs (enter_section i s)) = p_lastparent (s_prs s) /\ p_dtvn (s_prs (enter_section i s)) = p_dtvn (s_prs s))
  /\ (i <> d_root (s_doc s) -> p_pmap (s_prs (enter_section i s)) = munge_param_map (t_args (tget i s))
        /\ p_lastparent (s_prs (enter_section i s)) = "root" /\ p_dtvn (s_prs (enter_section i s)) = "@value").
Proof.
  intros. unfold enter_section. destruct (Nat.eqb_spec i (d_root (s_doc s))); cbn;
  repeat split; try (intros; congruence); try tauto; intros; repeat split; congruence.
Qed.

Lemma munge_lower : forall args i x, In x (munge_from i args) -> lower x = x.
Proof.
  induction args as [|a args IH]; intros i x; cbn [munge_from]; intros H; [destruct H|].
  destruct H as [<-|H]; [|eapply IH; exact H]. destruct (nonempty a); [apply lower_idem|apply digits_lower, str_of_nat_digits].
Qed.

(** nothing of the invariant speaks about a term that is not linked *)
Lemma pinv_push : forall r s, pinv s -> (is_section_cls (t_cls r) = true -> plain_section r /\ t_rt r = "section") ->
  t_terms r = [] -> t_children r = [] -> pinv (push r s).
Proof.
  intros r s P Hr Ht Hc.
  assert (Old : forall i, i < hlen s -> tget i (push r s) = tget i s).
  { intros i Hi. rewrite tget_push by lia. replace (i =? hlen s) with false by (symmetry; apply Nat.eqb_neq; lia). reflexivity. }
  assert (New : tget (hlen s) (push r s) = r) by (rewrite tget_push by lia; rewrite Nat.eqb_refl; reflexivity).
  pose proof (pi_root _ P) as PR. pose proof (pi_last _ P) as PL.
  split; rewrite ?hlen_push, ?prs_push, ?doc_push, ?reg_push; rewrite ?(Old _ PR), ?(Old _ PL).
  - apply (pi_syn _ P).
  - apply (pi_reg _ P).
  - lia.
  - apply (pi_rootc _ P).
  - apply (pi_rootn _ P).
  - intros i Hi. destruct (Nat.eq_dec i (hlen s)) as [->|Ne].
    + rewrite New. intros E _. destruct (Hr E). auto.
    + rewrite Old by lia. intros E Wi. apply (pi_sec _ P); [lia|exact E|exact Wi].
  - lia.
  - apply (pi_lastc _ P).
  - intros k i H. apply (pi_tmap _ P) in H. lia.
  - apply (pi_lp _ P).
  - apply (pi_lpin _ P).
  - apply (pi_pmap _ P).
  - intros i H. apply (pi_dterms _ P) in H. lia.
  - intros i j Hi. destruct (Nat.eq_dec i (hlen s)) as [->|Ne].
    + rewrite New, Ht. intros [].
    + rewrite Old by lia. intros H. apply (pi_terms _ P) in H; lia.
  - intros i j Hi. destruct (Nat.eq_dec i (hlen s)) as [->|Ne].
    + rewrite New, Hc. intros [].
    + rewrite Old by lia. intros H. apply (pi_kids _ P) in H; lia.
  - intros k i H. destruct (pi_dsecs _ P _ _ H) as [H1 H2]. rewrite Old by exact H1. split; [lia|exact H2].
  - apply (pi_decl _ P).
  - apply (pi_rootargs _ P).
  - intros k i H. destruct (pi_dsecs _ P _ _ H) as [H1 H2]. rewrite Old by exact H1. apply (pi_dname _ P _ _ H).
  - apply (pi_rootmap _ P).
  - pose proof (pi_base _ P). lia.
  - apply (pi_lastt _ P).
  - apply (pi_tame _ P).
Qed.

Lemma enter_inv : forall i s, pinv s -> i < hlen s -> is_section_cls (t_cls (tget i s)) = true -> ~ b_wild i -> pinv (enter_section i s).
Proof.
  intros i s P Hi Hc Wi.
  destruct (enter_fields i s) as (E1 & E2 & E3). destruct (enter_prs i s) as (Q1 & Q2 & Q3 & _ & Q4 & Q5).
  assert (G : forall j, tget j (enter_section i s) = tget j s) by (intros j; unfold tget; rewrite E1; reflexivity).
  assert (L : hlen (enter_section i s) = hlen s) by (unfold hlen; rewrite E1; reflexivity).
  assert (Pm : pinv s) by exact P. destruct Pm as [P1 P2 P3 P4 P5 P6 P7 P8 P9 P10 P11 P12 P13 P14 P15 P16 P17 P18 P19 P20 P21 P22 P23].
  split; rewrite ?E2, ?E3, ?Q1, ?Q2, ?Q3, ?L, ?G; try assumption.
  - intros j. rewrite G. apply P6.
  - destruct (Nat.eq_dec i (d_root (s_doc s))) as [Er|Er].
    + destruct (Q4 Er) as (_ & -> & _). exact P10.
    + destruct (Q5 Er) as (_ & -> & _). split; [apply dot_free_iff; reflexivity|reflexivity].
  - destruct (Nat.eq_dec i (d_root (s_doc s))) as [Er|Er].
    + destruct (Q4 Er) as (_ & -> & _). exact P11.
    + destruct (Q5 Er) as (_ & -> & _). rewrite P20. discriminate.
  - destruct (Nat.eq_dec i (d_root (s_doc s))) as [Er|Er].
    + destruct (Q4 Er) as (-> & _). exact P12.
    + destruct (Q5 Er) as (-> & _). intros x H. eapply munge_lower. exact H.
  - intros j k. rewrite G. apply P14.
  - intros j k. rewrite G. apply P15.
  - intros j k. rewrite G. apply P16.
  - intros j k. rewrite G. apply P19.
Qed.

Lemma push_old : forall r s i, i < hlen s -> tget i (push r s) = tget i s.
Proof. intros r s i Hi. rewrite tget_push by lia. replace (i =? hlen s) with false by (symmetry; apply Nat.eqb_neq; lia). reflexivity. Qed.
Lemma push_new : forall r s, tget (hlen s) (push r s) = r.
Proof. intros. rewrite tget_push by lia. rewrite Nat.eqb_refl. reflexivity. Qed.

Lemma pinv_dsec : forall k i n s, pinv s -> i < hlen s -> is_section_cls (t_cls (tget i s)) = true ->
  t_val (tget i s) = VStr n -> lower n = k -> ~ b_wild i ->
  pinv (dmod (fun d => set_d_sections (dset k i (d_sections d)) d) s).
Proof.
  intros k i n s P Hi Hc Hv Hn Wi. assert (Pm : pinv s) by exact P.
  destruct Pm as [P1 P2 P3 P4 P5 P6 P7 P8 P9 P10 P11 P12 P13 P14 P15 P16 P17 P18 P19 P20 P21 P22 P23].
  split; try assumption.
  - intros k' j H. cbn in H. rewrite dget_dset in H. eqs_cases k' k; [|apply P16 in H; exact H].
    injection H as <-. split; assumption.
  - intros k' j H. cbn in H. rewrite dget_dset in H. eqs_cases k' k; [|apply P19 in H; exact H].
    injection H as <-. subst k'. exists n. split; assumption.
  - intros k' j H. cbn in H. rewrite dget_dset in H. eqs_cases k' k; [|apply (P23 _ _ H)].
    injection H as <-. intros _. exact Wi.
Qed.

Lemma heading_no_section : forall s v args, pinv s -> ~ In (lower (strip v)) b_odd -> ~ In "section" (map lower (map strip args)) ->
  ~ In "section" (map lower (map strip (heading_args (s_doc s) v args))).
Proof. intros s v args P O H. unfold heading_args. destruct args; [apply (pi_decl _ P); exact O|exact H]. Qed.

Lemma init_val_str : forall v, v <> "" -> init_val (VStr v) = VStr (strip v).
Proof. intros v H. unfold init_val. cbn [truthy]. destruct v; [congruence|reflexivity]. Qed.

Lemma section_effect_inv : forall v args line ftype s, pinv s -> v <> "" -> ftype <> Some "declare" -> ~ In (lower (strip v)) b_odd ->
  ~ In "section" (map lower (map strip args)) -> pinv (section_effect v args line ftype s).
Proof.
  intros v args line ftype s P Hv Ft O Ha. unfold section_effect. set (r := section_rec _ _ _ _ _).
  assert (PS : plain_section r) by (apply section_rec_plain; [exact Ft|apply heading_no_section; assumption]).
  assert (P1 : pinv (push r s)) by (apply pinv_push; [exact P|split; [exact PS|reflexivity]|reflexivity|reflexivity]).
  destruct (dget _ _) as [i|] eqn:E.
  - destruct (pi_dsecs _ P _ _ E) as [H1 H2]. apply enter_inv; [exact P1|rewrite hlen_push; lia|rewrite push_old by exact H1; exact H2|apply (pi_tame _ P _ _ E O)].
  - assert (P2 : pinv (enter_section (hlen s) (push r s))).
    { apply enter_inv; [exact P1|rewrite hlen_push; lia| |apply not_wild, (pi_base _ P)]. rewrite push_new. reflexivity. }
    destruct (enter_fields (hlen s) (push r s)) as (E1 & _).
    assert (G : tget (hlen s) (enter_section (hlen s) (push r s)) = r) by (unfold tget; rewrite E1; apply push_new).
    apply (pinv_dsec _ _ (strip v)); [exact P2| | | |reflexivity|apply not_wild, (pi_base _ P)].
    + unfold hlen at 2. rewrite E1. change (List.length (s_heap (push r s))) with (hlen (push r s)). rewrite hlen_push. lia.
    + rewrite G. reflexivity.
    + rewrite G. apply (init_val_str v Hv).
Qed.

Lemma hmod_inv : forall i f s, pinv s -> i < hlen s ->
  (forall r, t_cls (f r) = t_cls r /\ t_rt (f r) = t_rt r /\ t_terms (f r) = t_terms r /\ t_children (f r) = t_children r
     /\ t_args (f r) = t_args r /\ t_val (f r) = t_val r) ->
  (is_section_cls (t_cls (tget i s)) = true -> plain_section (f (tget i s))) -> pinv (hmod i f s).
Proof.
  intros i f s P Hi Hf Hs. assert (Pm : pinv s) by exact P.
  destruct Pm as [P1 P2 P3 P4 P5 P6 P7 P8 P9 P10 P11 P12 P13 P14 P15 P16 P17 P18 P19 P20 P21 P22 P23].
  assert (G : forall j, t_cls (tget j (hmod i f s)) = t_cls (tget j s) /\ t_rt (tget j (hmod i f s)) = t_rt (tget j s)
     /\ t_terms (tget j (hmod i f s)) = t_terms (tget j s) /\ t_children (tget j (hmod i f s)) = t_children (tget j s)
     /\ t_args (tget j (hmod i f s)) = t_args (tget j s) /\ t_val (tget j (hmod i f s)) = t_val (tget j s)).
  { intros j. rewrite tget_hmod by exact Hi. destruct (Nat.eqb_spec j i) as [->|]; [apply Hf|repeat split]. }
  split; rewrite ?doc_hmod, ?prs_hmod, ?hlen_hmod; try assumption.
  - destruct (G (d_root (s_doc s))) as (-> & _). exact P4.
  - destruct (G (d_root (s_doc s))) as (_ & -> & _). exact P5.
  - intros j Hj. destruct (G j) as (-> & -> & _). intros Hc Wi. destruct (P6 _ Hj Hc Wi) as [Q1 Q2]. split; [|exact Q2].
    rewrite tget_hmod by exact Hi. destruct (Nat.eqb_spec j i) as [->|]; [apply Hs; exact Hc|exact Q1].
  - destruct (G (p_lastsec (s_prs s))) as (-> & _). exact P8.
  - intros j k Hj. destruct (G j) as (_ & _ & -> & _). apply P14. exact Hj.
  - intros j k Hj. destruct (G j) as (_ & _ & _ & -> & _). apply P15. exact Hj.
  - intros j k Hj. destruct (G k) as (-> & _). apply (P16 _ _ Hj).
  - destruct (G (d_root (s_doc s))) as (_ & _ & _ & _ & -> & _). exact P18.
  - intros j k Hj. destruct (G k) as (_ & _ & _ & _ & _ & ->). apply (P19 _ _ Hj).
Qed.

Lemma header_effect_inv : forall c line ftype row s, pinv s -> is_section_cls c = false ->
  ~ In "section" (map lower (map strip (skipn 2 row))) -> pinv (header_effect c line ftype row s).
Proof.
  intros c line ftype row s P Hc Ha. unfold header_effect. set (r := row_rec _ _ _ _ _ _).
  assert (P1 : pinv (push r s)).
  { apply pinv_push; [exact P| |reflexivity|reflexivity]. cbn. rewrite Hc. discriminate. }
  assert (P2 : pinv (hmod (hlen s) (set_t_section (Some (p_lastsec (s_prs s)))) (push r s))).
  { apply hmod_inv; [exact P1|rewrite hlen_push; lia|intros; repeat split|]. rewrite push_new. cbn. rewrite Hc. discriminate. }
  set (s2 := hmod (hlen s) _ _) in *.
  assert (P3 : pinv (pmod (fun p => set_p_dtvn (lower (strip (nth 1 row ""))) (set_p_pmap (munge_param_map (map strip (skipn 2 row))) p)) s2)).
  { destruct P2 as [P21 P22 P23 P24 P25 P26 P27 P28 P29 P210 P211 P212 P213 P214 P215 P216 P217 P218 P219 P220 P221 P222 P223].
    split; try assumption. intros x H. eapply munge_lower. exact H. }
  set (s3 := pmod _ s2) in *.
  pose proof (pi_last _ P) as PL.
  assert (L3 : hlen s3 = S (hlen s)) by (unfold s3, s2; rewrite hlen_pmod, hlen_hmod, hlen_push; reflexivity).
  apply hmod_inv; [exact P3|lia|intros; repeat split|].
  intros Hs. change (p_lastsec (s_prs s)) with (p_lastsec (s_prs s3)) in Hs |- *.
  pose proof (pi_lastdoc _ P3) as PS. destruct PS. split; assumption.
Qed.

Lemma construct_cls : forall c p r value args row col ftype s s' i,
  dot_free p -> dot_free r -> split_term_lower (dotted p r) = Ok (p, r) -> lower p = p -> lower r = r ->
  construct c (dotted p r) value args row col ftype None true None s = (s', Ok i) ->
  is_section_cls c = false \/ (c = CSection /\ p = "root" /\ (r = "section" \/ r = "root")).
Proof.
  intros until i. intros Dp Dr Sp Lp Lr H. destruct c; try (left; reflexivity); [|discriminate H].
  right. split; [reflexivity|]. cbn [construct] in H. unfold mk_section in H. rg H. rb H as s1 a H1. rewrite Sp in H. rg H. cbn iota beta in H.
  assert (T : forall n, In n ["Section"; "Root"] -> term_is_name p r (dotted "Root" n) = Ok (eqs "root" p && eqs (lower n) r)).
  { intros n Hn. unfold dotted. rewrite term_is_qualified; [|exact Dp|apply dot_free_iff; reflexivity|..].
    - rewrite Lp, Lr. destruct Hn as [<-|[<-|[]]]; reflexivity.
    - destruct Hn as [<-|[<-|[]]]; apply dot_free_iff; reflexivity.
    - discriminate.
    - apply tidy_iff; split; reflexivity.
    - destruct Hn as [<-|[<-|[]]]; apply tidy_iff; split; reflexivity. }
  change "Root.Section" with (dotted "Root" "Section") in H. change "Root.Root" with (dotted "Root" "Root") in H.
  rewrite !T in H by (cbn; auto). rg H.
  eqs_cases "root" p; cbn [andb] in H.
  - subst p. split; [reflexivity|]. change (lower "Section") with "section" in H. change (lower "Root") with "root" in H.
    eqs_cases "section" r; [left; congruence|]. cbn iota in H. rg H. eqs_cases "root" r; [right; congruence|]. cbn [orb] in H. discriminate H.
  - cbn iota in H. rg H. cbn [orb] in H. discriminate H.
Qed.

Lemma row_class_section : forall s, pinv s -> parser_term_class "root.section" s = CSection.
Proof. intros s P. unfold parser_term_class, class_for. change (lower "root.section") with "root.section". rewrite (gr_section _ (pi_reg _ P)). reflexivity. Qed.
Lemma row_class_header : forall s, pinv s -> is_section_cls (parser_term_class "root.root" s) = true.
Proof. intros s P. unfold parser_term_class, class_for. change (lower "root.root") with "root.root". rewrite (gr_root _ (pi_reg _ P)). reflexivity. Qed.

Lemma dmod_id : forall f s, f (s_doc s) = s_doc s -> dmod f s = s.
Proof. intros f s H. unfold dmod. rewrite H. destruct s. reflexivity. Qed.

(** the row does not open a section under a name that may stand for an unusual one *)
Definition welcome (row : list string) : Prop := skip_row row = false -> cell_names (hd "" row) "root" "section" ->
  ~ In (lower (strip (nth 1 row ""))) b_odd.

Lemma row_step_eff : forall e rec src ftype line row ls s s' ls',
  ftype <> Some "declare" -> pinv s -> ordinary row -> welcome row ->
  row_step e true rec src ftype line row ls s = (s', Ok ls') ->
  row_eff ftype line row s s' /\ pinv s'
  /\ ls' = (if skip_row row then ls
            else match split_term_lower (hd "" row) with Ok ("root", "section") => row_section s row | _ => ls end).
Proof.
  intros e rec src ftype line row ls s s' ls' Ft P O Wl H. unfold row_step in H.
  destruct (skip_row row) eqn:Sk.
  { apply ret_ok in H. destruct H as [-> ->]. split; [apply re_skip; auto|split; [exact P|reflexivity]]. }
  destruct (split_term_lower (hd "" row)) as [[p n]|er] eqn:Sp; [|discriminate H].
  rg H. cbn iota beta in H. rg H.
  assert (CN : cell_names (hd "" row) p n) by (apply split_term_lower_spec; exact Sp).
  destruct (O Sk _ _ CN) as (O1 & O2 & O3 & O4 & O5 & O6).
  pose proof (cell_names_tidy _ _ _ CN) as (T1 & T2 & T3 & T4 & T5 & T6 & T7).
  assert (Sp2 : split_term_lower (dotted p n) = Ok (p, n)).
  { apply split_term_lower_spec. apply (cell_names_dotted _ _ _ CN). }
  rb H as s1 t Hc.
  pose proof (construct_cls _ _ _ _ _ _ _ _ _ _ _ T3 T4 Sp2 T5 T6 Hc) as [Cc|(Cc & -> & Cn)].
  - (* an ordinary class *)
    assert (NS : ~ (p = "root" /\ n = "section")).
    { intros [-> ->]. change (dotted "root" "section") with "root.section" in Cc. rewrite row_class_section in Cc by exact P. discriminate Cc. }
    apply construct_plain in Hc; [|exact Cc]. destruct Hc as (p' & r' & Tn & _ & -> & ->).
    unfold term_names in Tn. rewrite Sp2 in Tn. cbn in Tn. injection Tn as <- <-.
    fold (row_rec (parser_term_class (dotted p n) s) line ftype p n row) in H.
    set (c := parser_term_class (dotted p n) s) in *. set (R := row_rec c line ftype p n row) in *.
    rg H. rewrite push_new in H.
    assert (LC : lc_name R) by (unfold lc_name; cbn; auto).
    assert (NM : forall k, named_root R k = eqs "root" p && eqs k n) by reflexivity.
    rewrite is_include_bare in H by exact LC. rg H. rewrite is_declare_bare in H by exact LC. rg H.
    assert (NI : named_root R "include" || named_root R "declare" = false).
    { rewrite !NM. eqs_cases "root" p; [|reflexivity]. cbn [andb]. specialize (O5 (eq_sym E)).
      eqs_cases "include" n; [exfalso; apply O5; left; exact E0|]. eqs_cases "declare" n; [exfalso; apply O5; right; left; exact E1|]. reflexivity. }
    rewrite NI in H. cbn iota in H. rewrite is_section_bare in H by exact LC. rg H.
    assert (NSc : named_root R "section" = false).
    { rewrite NM. eqs_cases "root" p; [|reflexivity]. cbn [andb]. apply eqs_false. intros <-. apply NS. auto. }
    rewrite NSc in H. rg H. rb H as s2 u He. destruct u.
    destruct (eqs "root" p && eqs "header" n) eqn:Hh.
    + (* header *)
      apply andb_prop in Hh. destruct Hh as [Hp Hn]. apply eqs_true in Hp, Hn. subst p n.
      pose proof (pi_last _ P) as PL.
      apply emit_header in He; rewrite ?hlen_push, ?prs_push, ?push_new; try (reflexivity || assumption || lia); [|apply (pi_syn _ P)].
      rewrite ?prs_push, ?push_new in He. destruct He as (v & Hv & Es2).
      assert (Vn : nth 1 row "" <> "").
      { intros E. cbn [R row_rec fresh_plain t_val] in Hv. rewrite E in Hv. discriminate Hv. }
      change (t_val R) with (init_val (VStr (nth 1 row ""))) in Hv. rewrite init_val_str in Hv by exact Vn. injection Hv as <-.
      assert (E2 : s2 = header_effect c line ftype row s) by exact Es2. clear Es2.
      rg H. assert (T : named_root (tget (hlen s) s2) "header" = true /\ lc_name (tget (hlen s) s2)).
      { rewrite E2. unfold header_effect. rewrite tget_hmod.
        2:{ rewrite hlen_pmod, hlen_hmod, hlen_push. lia. }
        replace (hlen s =? p_lastsec (s_prs s)) with false by (symmetry; apply Nat.eqb_neq; lia).
        rewrite tget_pmod, tget_hmod by (rewrite hlen_push; lia). rewrite Nat.eqb_refl, push_new. split; [reflexivity|exact LC]. }
      destruct T as [T LC2]. rewrite is_section_bare in H by exact LC2. rg H. rewrite is_header_bare in H by exact LC2. rg H.
      rewrite T, orb_true_r in H. rg H. apply ret_ok in H. destruct H as [-> ->].
      split; [|split; [|reflexivity]].
      * apply re_header with c; auto.
      * rewrite E2. apply header_effect_inv; auto. apply O6; cbn; auto.
    + (* a plain term *)
      assert (G : good_name n) by (exact (conj T2 (conj T4 (conj T6 (conj O3 O2))))).
      assert (Fo : fresh_ok s R).
      { split; [exact Cc|reflexivity|reflexivity|reflexivity|reflexivity|exact Ft|split; assumption|exact T6|..].
        - change (t_rt R) with n. intros E. unfold renamed. rewrite O1. unfold final_pt in E. change (t_pt R) with p in E.
          eqs_cases p ELIDED_TERM.
          + specialize (O4 E0). intros [<-|[<-|[<-|[]]]]; [apply O4; cbn; auto|apply O4; cbn; auto|congruence].
          + subst p. intros [<-|[<-|[<-|[]]]]; [discriminate Hh|apply NS; auto|congruence].
        - intros _. change (t_rt R) with n. auto. }
      apply emit_new in He; [|exact P|exact Fo]. destruct He as (q & N).
      pose proof (new_term_inv _ _ _ _ P Fo N) as P1.
      pose proof (settled_fields s q R) as SF. cbn zeta in SF. destruct SF as (_&_&_&SFp&SFr&_&SFa&_).
      assert (Rn : renamed (p_pmap (s_prs s)) (t_rt R) = n) by (unfold renamed; change (t_rt R) with n; rewrite O1; reflexivity).
      assert (Tt : t_rt (tget (hlen s) s2) = n /\ t_pt (tget (hlen s) s2) = final_pt s R /\ t_args (tget (hlen s) s2) = map strip (skipn 2 row)).
      { rewrite (nt_new _ _ _ _ N). rewrite (sm_rt _ _ (with_new_same _ _ _ _ _)), (sm_pt _ _ (with_new_same _ _ _ _ _)), (sm_args _ _ (with_new_same _ _ _ _ _)).
        rewrite SFr, SFp, SFa, Rn. repeat split. }
      destruct Tt as (Tr & Tp & Ta).
      assert (LC2 : lc_name (tget (hlen s) s2)).
      { unfold lc_name. rewrite Tr, Tp. unfold final_pt. change (t_pt R) with p. destruct (eqs p ELIDED_TERM); [|auto].
        destruct (pi_lp _ P). auto. }
      rg H. rewrite is_section_bare in H by exact LC2. rg H. rewrite is_header_bare in H by exact LC2. rg H.
      assert (NN : named_root (tget (hlen s) s2) "section" || named_root (tget (hlen s) s2) "header" = false).
      { unfold named_root. rewrite Tr, Tp. eqs_cases "root" (final_pt s R); [|reflexivity]. cbn [andb].
        pose proof (fo_nm _ _ Fo (eq_sym E)) as X. rewrite Rn in X. 
        eqs_cases "section" n; [exfalso; apply X; cbn; auto|]. eqs_cases "header" n; [exfalso; apply X; cbn; auto|]. reflexivity. }
      rewrite NN in H. rb H as s3 u He. destruct u. rewrite Ta in He.
      apply (args_eff _ _ _ n) in He; auto.
      2:{ rewrite (nt_len _ _ _ _ N). lia. }
      apply ret_ok in H. destruct H as [-> ->]. destruct He as [K P3].
      split; [|split; [exact P3|]].
      * eapply re_term with (p := p) (r := n); eauto.
        intros ->. intros [<-|[<-|[<-|[]]]]; [apply NS; auto|discriminate Hh|congruence].
      * destruct p as [|c1 p]; [reflexivity|].
        repeat match goal with |- _ = match ?x with _ => _ end => destruct x; try reflexivity end. exfalso. apply NS. auto.
  - (* a section *)
    destruct Cn as [->| ->]; [|congruence].
    change (dotted "root" "section") with "root.section" in *. rewrite Cc in Hc.
    apply (construct_section _ _ _ _ _ _ _ _ _ "root" "section" (nth 1 row "")) in Hc; [|exact Sp2|reflexivity].
    destruct Hc as [-> ->].
    set (v := nth 1 row "") in *.
    match type of H with context [push ?r0 s] => change r0 with (section_rec v (heading_args (s_doc s) v (skipn 2 row)) line ftype "root.section") in H end.
    set (R := section_rec _ _ _ _ _) in *.
    assert (Wv : ~ In (lower (strip v)) b_odd) by (apply Wl; [exact Sk|exact CN]).
    assert (PS : plain_section R).
    { apply section_rec_plain; [exact Ft|apply heading_no_section; [exact P|exact Wv|apply O6; cbn; auto]]. }
    rg H. rewrite push_new in H. assert (LC : lc_name R) by (split; [apply dot_free_iff; reflexivity|split; reflexivity]).
    rewrite is_include_bare in H by exact LC. rg H. rewrite is_declare_bare in H by exact LC. rg H.
    change (named_root R "include" || named_root R "declare") with false in H. cbn iota in H.
    rewrite is_section_bare in H by exact LC. rg H. change (named_root R "section") with true in H. cbn iota in H.
    rb H as s1 i Hi. unfold section_for in Hi. rg Hi. rg Hi. rewrite push_new in Hi. change (is_section_cls (t_cls R)) with true in Hi. cbn iota in Hi.
    assert (Vn : v <> "").
    { intros E. unfold get_section in Hi. cbn [R section_rec fresh_plain t_val] in Hi. rewrite E in Hi. discriminate Hi. }
    assert (Tv : t_val R = VStr (strip v)) by (apply init_val_str; exact Vn).
    unfold get_section in Hi. rewrite Tv in Hi. cbn [as_str rbind] in Hi. rewrite doc_push in Hi.
    assert (P1 : pinv (push R s)) by (apply pinv_push; [exact P|split; [exact PS|reflexivity]|reflexivity|reflexivity]).
    assert (Hi' : s1 = push R s /\ i = row_section s row).
    { unfold row_section. fold v. destruct (dget (lower (strip v)) (d_sections (s_doc s))); apply ret_ok in Hi; exact Hi. }
    destruct Hi' as [-> Ei]. clear Hi.
    rb H as s2 u He. destruct u.
    assert (Si : i < hlen (push R s) /\ is_section_cls (t_cls (tget i (push R s))) = true /\ ~ b_wild i).
    { subst i. unfold row_section. fold v. destruct (dget (lower (strip v)) (d_sections (s_doc s))) as [i|] eqn:E.
      - destruct (pi_dsecs _ P _ _ E) as [H1 H2]. rewrite hlen_push, push_old by exact H1. split; [lia|]. split; [exact H2|apply (pi_tame _ P _ _ E Wv)].
      - rewrite hlen_push, push_new. split; [lia|]. split; [reflexivity|apply not_wild, (pi_base _ P)]. }
    destruct Si as (Si & Sc & Sw). destruct (pi_sec _ P1 _ Si Sc Sw) as [PSi RTi].
    assert (E2 : s2 = section_effect v (skipn 2 row) line ftype s).
    { unfold section_effect. fold R. unfold row_section in Ei. fold v in Ei.
      destruct (dget (lower (strip v)) (d_sections (s_doc s))) as [j|] eqn:E.
      - subst i. unfold enter_section. destruct (Nat.eqb_spec j (d_root (s_doc (push R s)))) as [Er|Er].
        + apply emit_root in He; [exact He|exact Si|apply (pi_syn _ P1)|exact PSi|]. rewrite Er. apply (pi_rootn _ P1).
        + apply emit_section in He; [|exact Si|apply (pi_syn _ P1)|exact PSi|apply RTi; exact Er].
          destruct He as (w & Hw & ->).
          destruct (pi_dname _ P1 _ _ E) as (w' & Hw' & Lw). rewrite Hw in Hw'. injection Hw' as <-.
          rewrite (pi_rootn _ P1). apply dmod_id. rewrite doc_pmod, doc_push, Lw, E. reflexivity.
      - subst i. assert (Er : hlen s <> d_root (s_doc (push R s))) by (pose proof (pi_root _ P); rewrite doc_push; lia).
        apply emit_section in He; [|exact Si|apply (pi_syn _ P1)|exact PSi|apply RTi; exact Er].
        destruct He as (w & Hw & ->). rewrite push_new, Tv in Hw. injection Hw as <-.
        unfold enter_section. apply Nat.eqb_neq in Er. rewrite Er. rewrite (pi_rootn _ P1).
        unfold dmod. f_equal. rewrite !doc_pmod, !doc_push, E. reflexivity. }
    assert (P2 : pinv s2).
    { rewrite E2. apply section_effect_inv; auto. apply O6; cbn; auto. }
    rg H.
    assert (Ln : tget i s2 = tget i (push R s)).
    { rewrite E2. unfold section_effect. fold R. destruct (dget _ _); [|rewrite tget_dmod];
      unfold tget; rewrite (proj1 (enter_fields _ _)); reflexivity. }
    rewrite Ln in H.
    assert (LCi : lc_name (tget i (push R s))).
    { destruct (Nat.eq_dec i (d_root (s_doc (push R s)))) as [Er|Er].
      - apply (plain_section_lc _ "root"); [exact PSi|rewrite Er; apply (pi_rootn _ P1)|reflexivity].
      - apply (plain_section_lc _ "section"); [exact PSi|apply RTi; exact Er|reflexivity]. }
    rewrite is_section_bare in H by exact LCi. rg H. rewrite is_header_bare in H by exact LCi. rg H.
    rb H as s3 u Ha. destruct u.
    assert (E3 : s3 = s2).
    { destruct (Nat.eq_dec i (d_root (s_doc (push R s)))) as [Er|Er].
      - assert (Ta : t_args (tget i (push R s)) = []) by (rewrite Er; apply (pi_rootargs _ P1)). rewrite Ta in Ha.
        destruct (_ || _); apply ret_ok in Ha; tauto.
      - assert (Nm : named_root (tget i (push R s)) "section" = true).
        { unfold named_root. rewrite (ps_pt _ PSi), (RTi Er). reflexivity. }
        rewrite Nm in Ha. cbn [orb] in Ha. apply ret_ok in Ha. tauto. }
    subst s3. apply ret_ok in H. destruct H as [-> ->].
    split; [|split; [exact P2|exact Ei]]. apply re_section; auto.
Qed.

End Background.

Global Existing Instance no_background | 100.

Lemma welcome_all : forall row, welcome row.
Proof. intros row _ _ []. Qed.
