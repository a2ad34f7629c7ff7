(** * ConstructFacts: what the constructors of terms do *)

From Verif Require Import StrFacts SpecNames NameFacts HeapFacts Ops.

Definition fresh_plain (c : cls) (term p r : string) (value : val) (args : list string)
    (row col : option nat) (ftype : option string) (parent : option nat) (doc : bool)
    (section : option nat) : trec :=
  {| t_cls := c; t_parent := parent; t_term := term; t_pt := p; t_rt := r;
     t_val := init_val value; t_args := map strip args; t_section := section;
     t_doc := doc; t_ftype := ftype; t_row := row; t_col := col;
     t_tvn := "@value"; t_cpt := "any"; t_valid := None; t_options := [];
     t_children := []; t_terms := []; t_hargs := []; t_dtvn := "@value" |}.

Lemma mk_plain_ok : forall c term value args row col ftype parent doc section s s' i,
  mk_plain c term value args row col ftype parent doc section s = (s', Ok i) ->
  exists p r,
    term_names (s_heap s) parent term = Ok (p, r)
    /\ (forall j, parent = Some j -> lower (t_rt (tget j s)) = lower p)
    /\ i = List.length (s_heap s)
    /\ s' = set_s_heap (s_heap s ++ [fresh_plain c term p r value args row col ftype parent doc section]) s.
Proof.
  intros until i. intros H. unfold mk_plain in H.
  apply bind_ok in H. destruct H as (s1 & h & H1 & H). apply gets_ok in H1. destruct H1; subst.
  apply bind_ok in H. destruct H as (s1 & [p r] & H1 & H). apply lift_ok in H1. destruct H1 as [-> H1].
  apply bind_ok in H. destruct H as (s1 & [] & H2 & H). apply assert_ok in H2. destruct H2 as [H2 ->].
  apply alloc_ok in H. destruct H as [-> ->]. exists p, r. split; [exact H1|]. split; [|split; reflexivity].
  intros j ->. apply eqs_true in H2. exact H2.
Qed.

Lemma term_names_ok : forall h parent term p r, term_names h parent term = Ok (p, r) ->
  exists p0, cell_names term p0 r
    /\ p = match parent with
           | Some j => if eqs p0 "root" then t_rt (hget j h) else p0
           | None => p0
           end.
Proof.
  intros h parent term p r H. unfold term_names in H.
  destruct (split_term_lower term) as [[p0 r0]|e] eqn:E; [|discriminate]. cbn in H. injection H as <- <-.
  apply split_term_lower_spec in E. exists p0. split; [exact E|]. destruct parent; reflexivity.
Qed.

Lemma mk_section_ok : forall c term value args row ftype s s' i,
  mk_section c term value args row ftype s = (s', Ok i) ->
  exists p r a,
    split_term_lower term = Ok (p, r)
    /\ i = List.length (s_heap s)
    /\ s' = set_s_heap (s_heap s ++ [set_t_col row (set_t_val (init_val value)
              (fresh_plain c term p r value a row row ftype None true None))]) s
    /\ (args <> [] -> a = args).
Proof.
  intros until i. intros H. unfold mk_section in H.
  apply bind_ok in H. destruct H as (s1 & d & H1 & H). apply gets_ok in H1. destruct H1; subst.
  apply bind_ok in H. destruct H as (s1 & a & H1 & H).
  assert (Ha : s1 = s /\ (args <> [] -> a = args)).
  { destruct args.
    - apply bind_ok in H1. destruct H1 as (s2 & n & H1 & H2). apply lift_ok in H1. destruct H1; subst.
      apply ret_ok in H2. destruct H2; subst. split; [reflexivity|congruence].
    - apply ret_ok in H1. destruct H1; subst. auto. }
  destruct Ha as [-> Ha].
  apply bind_ok in H. destruct H as (s2 & [p r] & H2 & H). apply lift_ok in H2. destruct H2 as [-> H2].
  apply bind_ok in H. destruct H as (s2 & b1 & H3 & H). apply lift_ok in H3. destruct H3 as [-> H3].
  apply bind_ok in H. destruct H as (s2 & b2 & H4 & H).
  assert (s2 = s). { destruct b1; [apply ret_ok in H4; tauto|apply lift_ok in H4; tauto]. } subst.
  apply bind_ok in H. destruct H as (s2 & [] & H5 & H). apply assert_ok in H5. destruct H5 as [H5 ->].
  apply alloc_ok in H. destruct H as [-> ->]. exists p, r, a. auto.
Qed.

Lemma construct_names : forall c term value args row col ftype parent doc section s s' i,
  construct c term value args row col ftype parent doc section s = (s', Ok i) ->
  exists p, cell_names term p (t_rt (tget i s'))
    /\ t_pt (tget i s') = match parent with
                          | Some j => if eqs p "root" then t_rt (tget j s) else p
                          | None => p
                          end.
Proof.
  intros until i. intros H. unfold construct in H.
  assert (Plain : mk_plain c term value args row col ftype parent doc section s = (s', Ok i) ->
    exists p, cell_names term p (t_rt (tget i s'))
    /\ t_pt (tget i s') = match parent with
                          | Some j => if eqs p "root" then t_rt (tget j s) else p
                          | None => p
                          end).
  { intros P. apply mk_plain_ok in P. destruct P as (p & r & P1 & _ & -> & ->).
    apply term_names_ok in P1. destruct P1 as (p0 & P1 & P2). exists p0.
    unfold tget at 1 2. cbn [s_heap set_s_heap]. rewrite hget_app_new. cbn. auto. }
  destruct c; auto.
  - destruct parent, section, doc; try discriminate.
    apply mk_section_ok in H. destruct H as (p & r & a & H1 & -> & -> & _).
    apply split_term_lower_spec in H1. exists p.
    unfold tget at 1 2. cbn [s_heap set_s_heap]. rewrite hget_app_new. cbn. auto.
  - discriminate.
Qed.

Lemma construct_dot_free : forall c term value args row col ftype parent doc section s s' i,
  construct c term value args row col ftype parent doc section s = (s', Ok i) ->
  (forall j, parent = Some j -> dot_free (t_rt (tget j s))) ->
  dot_free (t_pt (tget i s')) /\ dot_free (t_rt (tget i s')).
Proof.
  intros until i. intros H Hp. apply construct_names in H. destruct H as (p & H & E).
  apply cell_names_tidy in H. destruct H as (_ & _ & D1 & D2 & _). split; [|exact D2]. rewrite E.
  destruct parent as [j|]; [|exact D1]. destruct (eqs p "root"); auto.
Qed.
