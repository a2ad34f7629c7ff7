(** * InheritFacts: the loop over inherited children *)

From Verif Require Import ListFacts StrFacts HeapFacts Parser RunFacts NameFacts SpecNames SpecInherit.

Definition dsec (sec : string) (s : st) : list string :=
  match dget sec (p_dsecs (s_prs s)) with Some sd => sd_terms sd | None => [] end.
Definition dterm (k : string) (s : st) : option tdecl := dget k (p_dterms (s_prs s)).

Definition rec_of (x : string) : string := match split_term x with Ok (_, r) => r | Err _ => "" end.

Lemma split_term_shape : forall x p r, split_term x = Ok (p, r) -> dot_free r /\ tidy r.
Proof.
  intros x p r H. destruct (dot_cases x) as [D|[(a & b & -> & Ha & Hb)|[D _]]].
  - rewrite split_term_plain in H by exact D. injection H as _ <-. split.
    + pose proof (strip_elim x) as (u & v & E & _). rewrite E in D. apply dot_free_app in D. destruct D as [_ D]. apply dot_free_app in D. apply D.
    + destruct (proj2 (trimmed_iff x (strip x)) eq_refl) as (u & v & _ & _ & _ & T). exact T.
  - rewrite split_term_qualified in H by assumption. injection H as _ <-. split.
    + pose proof (strip_elim b) as (u & v & E & _). rewrite E in Hb. apply dot_free_app in Hb. destruct Hb as [_ D]. apply dot_free_app in D. apply D.
    + destruct (proj2 (trimmed_iff b (strip b)) eq_refl) as (u & v & _ & _ & _ & T). exact T.
  - rewrite split_term_many in H by exact D. discriminate H.
Qed.

Lemma rec_of_dotted : forall T x, dot_free T -> rec_of (dotted T (rec_of x)) = rec_of x.
Proof.
  intros T x HT. unfold rec_of at 2 3. destruct (split_term x) as [[p r]|e] eqn:E.
  - apply split_term_shape in E. destruct E as [E1 E2]. unfold rec_of, dotted.
    rewrite split_term_qualified by assumption. apply tidy_strip. exact E2.
  - unfold rec_of, dotted. rewrite split_term_qualified; [reflexivity|exact HT|apply dot_free_iff; reflexivity].
Qed.

Lemma mem_str_in : forall x l, mem_str x l = true <-> In x l.
Proof.
  intros x l. unfold mem_str. rewrite existsb_exists. split.
  - intros (y & H & E). apply eqs_true in E. subst. exact H.
  - intros H. exists x. split; [exact H|apply eqs_refl].
Qed.

(** adding a name to its section *)
Lemma add_term_ok : forall x props name s s', dget "term" props = Some name ->
  add_term_to_section x props s = (s', Ok tt) ->
  exists sc sd, dget "section" props = Some sc /\ dget (lower sc) (p_dsecs (s_prs s)) = Some sd
    /\ s' = (if mem_str name (sd_terms sd) then s
            else pmod (fun p => set_p_dsecs (dset (lower sc) (set_sd_terms (sd_terms sd ++ [name]) sd) (p_dsecs p)) p) s).
Proof.
  intros x props name s s' Ht H. unfold add_term_to_section in H. rg H. cbv zeta in H.
  destruct (dget "section" props) as [sc|] eqn:Es.
  - destruct (dget (lower sc) (p_dsecs (s_prs s))) as [sd|] eqn:Ed; [|discriminate H]. rewrite Ht in H.
    exists sc, sd. split; [reflexivity|]. split; [exact Ed|].
    destruct (mem_str name (sd_terms sd)); [apply ret_ok in H; apply H|]. injection H as <-. reflexivity.
  - destruct (dget "" (p_dsecs (s_prs s))); discriminate H.
Qed.

Lemma add_term_norec : forall props s s', add_term_to_section EAttr props s <> (s', Err ERecursion).
Proof.
  intros props s s' H. unfold add_term_to_section in H. rg H. cbv zeta in H.
  destruct (dget _ (p_dsecs (s_prs s))); [|discriminate H].
  destruct (dget "section" props); [|discriminate H]. destruct (dget "term" props); [|discriminate H].
  destruct (mem_str _ _); discriminate H.
Qed.

(** ** One round *)
Record round (T I sec : string) (x : string) (s s1 : st) : Prop := mk_round {
  ro_child : startswith (lower I ++ ".") (lower x) = true;
  ro_split : exists p, split_term x = Ok (p, rec_of x);
  ro_effect : exists td sc sd k, dterm (lower x) s = Some td
    /\ normalize_term (dotted T (rec_of x)) = Ok k
    /\ dget "section" (td_props td) = Some sc /\ dget (lower sc) (p_dsecs (s_prs s)) = Some sd
    /\ let name := dotted T (rec_of x) in
       let props := dset "term" name (dset "inheritsfrom" "" (td_props td)) in
       let s0 := pmod (fun p => set_p_dterms (dset k (set_td_props props td) (p_dterms p)) p) s in
       s1 = (if mem_str name (sd_terms sd) then s0
             else pmod (fun p => set_p_dsecs (dset (lower sc) (set_sd_terms (sd_terms sd ++ [name]) sd) (p_dsecs p)) p) s0) }.

Definition inherit_body (T I x : string) (p : prec) : MM unit :=
  when (startswith (lower I ++ ".")%string (lower x))
    (' (_, st_r) <- lift (split_term x) ;;
     match dget (lower x) (p_dterms p) with
     | None => raise EKey
     | Some td =>
         let name := dotted T st_r in
         let props := dset "term" name (dset "inheritsfrom" "" (td_props td)) in
         k <- lift (normalize_term name) ;;
         modP (fun p => set_p_dterms (dset k (set_td_props props td) (p_dterms p)) p) ;;;
         add_term_to_section EAttr props
     end).

Lemma split_term_err : forall x e, split_term x = Err e -> e = EValue.
Proof.
  intros x e Sp. destruct (dot_cases x) as [D|[(a & b & -> & Ha & Hb)|[D _]]].
  - rewrite split_term_plain in Sp by exact D. discriminate Sp.
  - rewrite split_term_qualified in Sp by assumption. discriminate Sp.
  - rewrite split_term_many in Sp by exact D. congruence.
Qed.
Lemma normalize_err : forall x e, normalize_term x = Err e -> e = EValue.
Proof.
  intros x e H. unfold normalize_term, split_term_lower in H. destruct (split_term x) as [[a b]|er] eqn:E; [discriminate H|].
  injection H as <-. exact (split_term_err _ _ E).
Qed.

Lemma inherit_body_ok : forall T I sec x s s1, inherit_body T I x (s_prs s) s = (s1, Ok tt) ->
  (startswith (lower I ++ ".") (lower x) = false /\ s1 = s) \/ round T I sec x s s1.
Proof.
  intros T I sec x s s1 H1. unfold inherit_body in H1.
  destruct (startswith (lower I ++ ".") (lower x)) eqn:Sw; cbn [when] in H1; [|left; apply ret_ok in H1; split; [reflexivity|apply H1]]. right.
  destruct (split_term x) as [[p r]|er] eqn:Sp; [|discriminate H1]. rg H1. cbn iota beta in H1.
  assert (Er : r = rec_of x) by (unfold rec_of; rewrite Sp; reflexivity). subst r.
  destruct (dget (lower x) (p_dterms (s_prs s))) as [td|] eqn:Et; [|discriminate H1].
  cbv zeta in H1. destruct (normalize_term (dotted T (rec_of x))) as [k|er] eqn:Ek; [|discriminate H1]. rg H1.
  rb H1 as s2 u H2. apply add_term_ok with (name := dotted T (rec_of x)) in H1; [|apply dget_dset_same].
  destruct H1 as (sc & sd2 & E1 & E2 & E3). change (modP ?f0 s) with (pmod f0 s, Ok tt) in H2. injection H2 as <- <-.
  split; [exact Sw|exists p; exact Sp|]. exists td, sc, sd2, k.
  rewrite dget_dset_other in E1 by discriminate. rewrite dget_dset_other in E1 by discriminate.
  split; [exact Et|]. split; [exact Ek|]. split; [exact E1|]. split; [exact E2|exact E3].
Qed.

Lemma inherit_body_norec : forall T I x s s1, inherit_body T I x (s_prs s) s <> (s1, Err ERecursion).
Proof.
  intros T I x s s1 H1. unfold inherit_body in H1.
  destruct (startswith (lower I ++ ".") (lower x)) eqn:Sw; cbn [when] in H1; [|discriminate H1].
  destruct (split_term x) as [[p r]|er] eqn:Sp; [|apply split_term_err in Sp; subst er; discriminate H1]. rg H1. cbn iota beta in H1.
  destruct (dget (lower x) (p_dterms (s_prs s))) as [td|] eqn:Et; [|discriminate H1].
  cbv zeta in H1. destruct (normalize_term (dotted T r)) as [k|er] eqn:Ek; [|apply normalize_err in Ek; subst er; discriminate H1]. rg H1.
  revert H1. change (bind (modP ?f0) ?g0 s) with (g0 tt (pmod f0 s)). apply add_term_norec.
Qed.

Lemma inherit_eq : forall f T I sec n s, inherit_loop (S f) T I sec n s =
  match dget sec (p_dsecs (s_prs s)) with
  | None => (s, Err EKey)
  | Some sd => match nth_error (sd_terms sd) n with
               | None => (s, Ok tt)
               | Some x => (inherit_body T I x (s_prs s) ;;; inherit_loop f T I sec (S n)) s
               end
  end.
Proof.
  intros. cbn [inherit_loop]. unfold bind at 1, getP, gets. destruct (dget sec (p_dsecs (s_prs s))) as [sd|]; [|reflexivity].
  destruct (nth_error (sd_terms sd) n); reflexivity.
Qed.

Lemma inherit_step : forall f T I sec n s s', inherit_loop (S f) T I sec n s = (s', Ok tt) ->
  (nth_error (dsec sec s) n = None /\ s' = s)
  \/ exists x, nth_error (dsec sec s) n = Some x
     /\ ((startswith (lower I ++ ".") (lower x) = false /\ inherit_loop f T I sec (S n) s = (s', Ok tt))
         \/ exists s1, round T I sec x s s1 /\ inherit_loop f T I sec (S n) s1 = (s', Ok tt)).
Proof.
  intros f T I sec n s s' H. rewrite inherit_eq in H. unfold dsec.
  destruct (dget sec (p_dsecs (s_prs s))) as [sd|] eqn:Es; [|discriminate H].
  destruct (nth_error (sd_terms sd) n) as [x|] eqn:En; [|left; injection H as <-; auto].
  right. exists x. split; [reflexivity|]. rb H as s1 u H1. destruct u.
  apply inherit_body_ok with (sec := sec) in H1. destruct H1 as [[H1 ->]|H1]; [left; auto|right; eauto].
Qed.

Lemma round_dsec : forall T I sec x s s1 k, round T I sec x s s1 ->
  dsec k s1 = dsec k s \/ (dsec k s1 = (dsec k s ++ [dotted T (rec_of x)])%list /\ ~ In (dotted T (rec_of x)) (dsec k s)).
Proof.
  intros T I sec x s s1 k [_ _ (td & sc & sd & kk & E1 & E2 & E3 & E4 & E5)]. cbv zeta in E5.
  destruct (mem_str (dotted T (rec_of x)) (sd_terms sd)) eqn:Em.
  - left. subst s1. reflexivity.
  - unfold dsec. subst s1. cbn [s_prs pmod set_s_prs p_dsecs set_p_dsecs set_p_dterms].
    rewrite dget_dset. eqs_cases k (lower sc).
    + subst k. right. rewrite E4. cbn [sd_terms set_sd_terms]. split; [reflexivity|]. intros Hin. apply mem_str_in in Hin. congruence.
    + left. reflexivity.
Qed.

(** the loop ends *)
Lemma inherit_norec_gen : forall T I sec L0, dot_free T -> forall f n s s' A,
  dsec sec s = (L0 ++ A)%list -> NoDup A -> incl A (map (fun x => dotted T (rec_of x)) L0) ->
  n <= List.length (dsec sec s) -> S (2 * List.length L0) < n + f ->
  inherit_loop f T I sec n s <> (s', Err ERecursion).
Proof.
  intros T I sec L0 HT f. induction f as [|f IH]; intros n s s' A EL ND Inc Hn Hf H.
  - pose proof (NoDup_incl_length ND Inc) as Le. rewrite map_length in Le. rewrite EL, app_length in Hn. lia.
  - rewrite inherit_eq in H. destruct (dget sec (p_dsecs (s_prs s))) as [sd|] eqn:Es; [|discriminate H].
    assert (Ed : dsec sec s = sd_terms sd) by (unfold dsec; rewrite Es; reflexivity).
    destruct (nth_error (sd_terms sd) n) as [x|] eqn:En; [|discriminate H].
    assert (Hn' : n < List.length (sd_terms sd)) by (apply nth_error_Some; congruence).
    unfold bind in H. destruct (inherit_body T I x (s_prs s) s) as [s1 [u|er]] eqn:B.
    2:{ injection H as -> ->. exact (inherit_body_norec _ _ _ _ _ B). }
    destruct u. apply inherit_body_ok with (sec := sec) in B. destruct B as [[_ ->]|B].
    + apply (IH (S n) s s' A); auto; [rewrite Ed|]; lia.
    + destruct (round_dsec _ _ _ _ _ _ sec B) as [E|[E NI]].
      * apply (IH (S n) s1 s' A); auto; try rewrite E; auto; try rewrite Ed; lia.
      * assert (Inx : In (dotted T (rec_of x)) (map (fun x => dotted T (rec_of x)) L0)).
        { apply nth_error_In in En. rewrite <- Ed, EL in En. apply in_app_or in En. destruct En as [En|En].
          - apply in_map_iff. exists x. auto.
          - apply Inc in En. apply in_map_iff in En. destruct En as (y & <- & Hy). rewrite rec_of_dotted by exact HT.
            apply in_map_iff. exists y. auto. }
        apply (IH (S n) s1 s' (A ++ [dotted T (rec_of x)])%list); auto.
        -- rewrite E, EL, app_assoc. reflexivity.
        -- apply NoDup_app_intro; [exact ND|constructor; [auto|constructor]|]. intros y Hy [<-|[]]. apply NI. rewrite EL. apply in_or_app. auto.
        -- intros y Hy. apply in_app_or in Hy. destruct Hy as [Hy|[<-|[]]]; [apply Inc; exact Hy|exact Inx].
        -- rewrite E, Ed, app_length. lia.
        -- lia.
Qed.

Lemma inherit_norec : forall T I sec s s', dot_free T ->
  inherit_loop (inherit_fuel sec s) T I sec 0 s <> (s', Err ERecursion).
Proof.
  intros T I sec s s' HT. unfold inherit_fuel. destruct (dget sec (p_dsecs (s_prs s))) as [sd|] eqn:Es.
  - apply (inherit_norec_gen _ _ _ (sd_terms sd) HT _ _ _ _ []).
    + unfold dsec. rewrite Es, app_nil_r. reflexivity.
    + constructor.
    + intros y [].
    + lia.
    + lia.
  - rewrite inherit_eq, Es. discriminate.
Qed.

(** ** What the loop declares *)
Lemma child_start : forall I x r, child_name I x r ->
  startswith (lower I ++ ".") (lower x) = true /\ (exists p, split_term x = Ok (p, r)) /\ rec_of x = r.
Proof.
  intros I x r (a & b & -> & Da & Db & La & Tr). apply trimmed_iff in Tr.
  pose proof (split_term_qualified a b Da Db) as Sp. rewrite Tr in Sp. split; [|split; [eauto|unfold rec_of; rewrite Sp; reflexivity]].
  apply startswith_spec. exists (lower b). rewrite !lower_app, La. rewrite <- app_s_assoc. reflexivity.
Qed.

Lemma start_child : forall I x p, dot_free I -> startswith (lower I ++ ".") (lower x) = true -> split_term x = Ok (p, rec_of x) ->
  child_name I x (rec_of x).
Proof.
  intros I x p DI Sw Sp. apply startswith_spec in Sw. destruct Sw as (t & E). rewrite <- app_s_assoc in E.
  destruct (dot_cases x) as [D|[(a & b & -> & Ha & Hb)|[D _]]].
  - exfalso. apply dot_free_lower in D. rewrite E in D. exact (not_free_mid _ _ D).
  - rewrite !lower_app in E. change (lower ".") with "." in E. apply cut_unique in E; [|apply dot_free_lower; assumption..].
    destruct E as [E1 E2]. exists a, b. split; [reflexivity|]. split; [exact Ha|]. split; [exact Hb|]. split; [exact E1|].
    apply trimmed_iff. rewrite split_term_qualified in Sp by assumption. injection Sp as _ Sp. exact Sp.
  - rewrite split_term_many in Sp by exact D. discriminate Sp.
Qed.

Lemma child_lower : forall I x r, dot_free I -> child_name I x r -> exists b, lower x = (lower I ++ "." ++ lower b)%string /\ dot_free b /\ strip b = r.
Proof.
  intros I x r DI (a & b & -> & Da & Db & La & Tr). apply trimmed_iff in Tr. exists b. rewrite !lower_app, La. auto.
Qed.

Section Children.
  Variables (T I : string).
  Hypotheses (DT : dot_free T) (TT : tidy T) (NT : T <> "") (DI : dot_free I) (NE : lower T <> lower I).

  Lemma child_key : forall x r, child_name I x r -> normalize_term (dotted T r) = Ok (dotted (lower T) (lower r)).
  Proof.
    intros x r C. apply child_start in C. destruct C as (_ & (p & Sp) & _). apply split_term_shape in Sp. destruct Sp as [D1 D2].
    unfold normalize_term, split_term_lower, dotted. rewrite split_term_qualified by assumption.
    rewrite !tidy_strip by assumption. eqs_cases T ""; [contradiction|]. reflexivity.
  Qed.

  Definition good (s0 s : st) (x r : string) : Prop :=
    exists td n td', dterm (lower x) s0 = Some td /\ lower n = lower (dotted T r) /\ dterm (lower n) s = Some td'
      /\ copied n td td' /\ forall sc, dget "section" (td_props td) = Some sc -> In n (dsec (lower sc) s).
  Definition agree (s0 s : st) : Prop := forall x r, child_name I x r -> dterm (lower x) s = dterm (lower x) s0.

  Lemma lower_dotted : forall a b, lower (dotted a b) = dotted (lower a) (lower b).
  Proof. intros. unfold dotted. rewrite !lower_app. reflexivity. Qed.

  Lemma round_at : forall sec x s s1, round T I sec x s s1 -> 
    exists r td sc, child_name I x r /\ dterm (lower x) s = Some td /\ dget "section" (td_props td) = Some sc
      /\ (forall k, dterm k s1 = if eqs k (dotted (lower T) (lower r))
                     then Some (set_td_props (dset "term" (dotted T r) (dset "inheritsfrom" "" (td_props td))) td) else dterm k s)
      /\ (forall k y, In y (dsec k s) -> In y (dsec k s1)) /\ In (dotted T r) (dsec (lower sc) s1)
      /\ (exists A, dsec sec s1 = (dsec sec s ++ A)%list).
  Proof.
    intros sec x s s1 R. pose proof (round_dsec _ _ _ _ _ _ sec R) as Rs. destruct R as [Sw (p & Sp) (td & sc & sd & kk & E1 & E2 & E3 & E4 & E5)].
    pose proof (start_child _ _ _ DI Sw Sp) as C. rewrite (child_key _ _ C) in E2. injection E2 as <-.
    exists (rec_of x), td, sc. split; [exact C|]. split; [exact E1|]. split; [exact E3|]. cbv zeta in E5.
    set (name := dotted T (rec_of x)) in *. split; [|split; [|split]].
    - intros k. unfold dterm. destruct (mem_str name (sd_terms sd)); subst s1; cbn [s_prs pmod set_s_prs p_dterms p_dsecs set_p_dsecs set_p_dterms]; apply dget_dset.
    - intros k y Hy. destruct (mem_str name (sd_terms sd)); subst s1; [exact Hy|]. unfold dsec in *.
      cbn [s_prs pmod set_s_prs p_dterms p_dsecs set_p_dsecs set_p_dterms]. rewrite dget_dset. eqs_cases k (lower sc); [|exact Hy].
      subst k. rewrite E4 in Hy. cbn [sd_terms set_sd_terms]. apply in_or_app. auto.
    - destruct (mem_str name (sd_terms sd)) eqn:Em; subst s1; unfold dsec.
      + cbn [s_prs pmod set_s_prs p_dterms p_dsecs set_p_dsecs set_p_dterms]. rewrite E4. apply mem_str_in. exact Em.
      + cbn [s_prs pmod set_s_prs p_dterms p_dsecs set_p_dsecs set_p_dterms]. rewrite dget_dset_same. cbn [sd_terms set_sd_terms]. apply in_or_app. right. left. reflexivity.
    - destruct Rs as [-> |[-> _]]; [exists []; rewrite app_nil_r; reflexivity|eauto].
  Qed.

  Lemma round_good : forall s0 sec x s s1, full_keys s0 -> agree s0 s -> round T I sec x s s1 ->
    agree s0 s1 /\ (forall r, child_name I x r -> good s0 s1 x r)
    /\ forall y r, child_name I y r -> good s0 s y r -> good s0 s1 y r.
  Proof.
    intros s0 sec x s s1 FK Ag R. destruct (round_at _ _ _ _ R) as (r & td & sc & C & Et & Es & Kd & Ks & Kn & _).
    assert (New : forall td0, dterm (lower x) s0 = Some td0 -> td0 = td) by (intros td0 E; rewrite <- (Ag _ _ C), Et in E; congruence).
    assert (Cp : copied (dotted T r) td (set_td_props (dset "term" (dotted T r) (dset "inheritsfrom" "" (td_props td))) td)).
    { split; cbn [td_props set_td_props td_values].
      - apply dget_dset_same.
      - rewrite dget_dset_other by discriminate. apply dget_dset_same.
      - intros k N1 N2. rewrite dget_dset_other by exact N1. apply dget_dset_other. exact N2.
      - reflexivity. }
    assert (Gx : forall y ry, child_name I y ry -> lower y = lower x -> lower ry = lower r -> good s0 s1 y ry).
    { intros y ry Cy Ly Lr. exists td, (dotted T r). eexists. rewrite Ly, <- (Ag _ _ C). split; [exact Et|].
      split; [rewrite !lower_dotted, Lr; reflexivity|]. split; [rewrite Kd, lower_dotted, eqs_refl; reflexivity|]. split; [exact Cp|].
      intros sc' E. assert (sc' = sc) by congruence. subst sc'. exact Kn. }
    split; [|split].
    - intros y ry Cy. rewrite Kd. eqs_cases (lower y) (dotted (lower T) (lower r)); [|apply (Ag _ _ Cy)].
      exfalso. destruct (child_lower _ _ _ DI Cy) as (b & E1 & _). rewrite E1 in E. unfold dotted in E.
      apply cut_unique in E; [|apply dot_free_lower; assumption..]. destruct E as [E _]. congruence.
    - intros r' C'. assert (r' = r) by (apply child_start in C; apply child_start in C'; destruct C as (_ & _ & <-), C' as (_ & _ & <-); reflexivity).
      subst r'. apply Gx; auto.
    - intros y ry Cy Gy. pose proof Gy as (td0 & n & td' & G1 & G2 & G3 & G4 & G5).
      eqs_cases (lower n) (dotted (lower T) (lower r)).
      + assert (Lr : lower ry = lower r).
        { rewrite E, lower_dotted in G2. unfold dotted in G2. apply cut_unique in G2; [|apply dot_free_lower; assumption..]. symmetry. apply G2. }
        assert (Ly : lower y = lower x).
        { destruct (child_lower _ _ _ DI Cy) as (b1 & L1 & D1 & S1). destruct (child_lower _ _ _ DI C) as (b2 & L2 & D2 & S2).
          rewrite (Ag _ _ C) in Et.
          assert (Kt : forall z b q, lower z = (lower I ++ "." ++ lower b)%string -> dot_free b -> dterm (lower z) s0 = Some q -> strip b = b \/ lower (strip b) = lower b).
          { intros z b q Lz Db Dz. right. destruct (FK _ _ Dz) as (p & rr & CN & Ez).
            rewrite Lz in Ez. pose proof (cell_names_tidy _ _ _ CN) as (T1 & T2 & T3 & T4 & T5 & T6 & T7).
            apply cut_unique in Ez; [|apply dot_free_lower; assumption|assumption]. destruct Ez as [_ Ez].
            rewrite <- strip_lower, Ez. apply tidy_strip. exact T2. }
          assert (B1 : lower (strip b1) = lower b1) by (destruct (Kt y b1 td0 L1 D1 G1) as [Q|Q]; [rewrite Q; reflexivity|exact Q]).
          assert (B2 : lower (strip b2) = lower b2) by (destruct (Kt x b2 td L2 D2 Et) as [Q|Q]; [rewrite Q; reflexivity|exact Q]).
          rewrite L1, L2, <- B1, <- B2, S1, S2, Lr. reflexivity. }
        apply Gx; assumption.
      + exists td0, n, td'. split; [exact G1|]. split; [exact G2|]. split; [rewrite Kd; rewrite (proj2 (eqs_false _ _) E); exact G3|]. split; [exact G4|].
        intros sc' E'. apply Ks. apply G5. exact E'.
  Qed.

  Lemma inherit_good : forall s0 sec f n s s', full_keys s0 -> agree s0 s ->
    inherit_loop f T I sec n s = (s', Ok tt) ->
    (forall x r, In x (skipn n (dsec sec s)) -> child_name I x r -> good s0 s' x r)
    /\ (forall x r, child_name I x r -> good s0 s x r -> good s0 s' x r).
  Proof.
    intros s0 sec f. induction f as [|f IH]; intros n s s' FK Ag H; [discriminate H|].
    apply inherit_step in H. destruct H as [[En ->]|(x & En & H)].
    - split; [|auto]. intros x r Hin. apply nth_error_None in En. rewrite skipn_all2 in Hin by exact En. contradiction Hin.
    - assert (Sk : skipn n (dsec sec s) = x :: skipn (S n) (dsec sec s)).
      { clear -En. revert n En. induction (dsec sec s) as [|y l IH]; intros [|n] En; try discriminate En; [injection En as ->; reflexivity|].
        cbn [skipn]. rewrite (IH n En). reflexivity. }
      destruct H as [[Sw H]|(s1 & R & H)].
      + destruct (IH _ _ _ FK Ag H) as [H1 H2]. split; [|exact H2].
        intros y r Hin C. rewrite Sk in Hin. destruct Hin as [->|Hin]; [|apply H1; assumption].
        apply child_start in C. destruct C as (C & _). congruence.
      + destruct (round_good _ _ _ _ _ FK Ag R) as (Ag1 & Gx & Gk). destruct (IH _ _ _ FK Ag1 H) as [H1 H2].
        destruct (round_at _ _ _ _ R) as (_ & _ & _ & _ & _ & _ & _ & _ & _ & A & EA).
        split; [|intros y r C G; apply H2; [exact C|]; apply Gk; assumption].
        intros y r Hin C. rewrite Sk in Hin. destruct Hin as [->|Hin]; [apply H2; [exact C|apply Gx; exact C]|].
        apply H1; [|exact C]. rewrite EA. rewrite skipn_app. apply in_or_app. left. exact Hin.
  Qed.
End Children.

Lemma nonblank_get : forall ap np k x, nonblank_props ap = Ok np -> dget k ap = Some (VStr x) -> nonblank x = true -> dget k np = Some x.
Proof.
  intros ap np k x H G N. unfold nonblank_props in H. destruct (rmap _ ap) as [l|] eqn:E; [|discriminate H]. injection H as <-.
  revert l E. induction ap as [|[k0 v0] ap IH]; intros l E; [discriminate G|].
  cbn [rmap] in E. destruct (as_str (snd (k0, v0))) as [s0|] eqn:A; [|discriminate E]. cbn [rbind] in E.
  destruct (rmap _ ap) as [l'|] eqn:E2; [|discriminate E]. injection E as <-. cbn [concat].
  cbn [dget fst snd] in G, A |- *. eqs_cases k k0.
  - injection G as ->. injection A as <-. subst k0. rewrite N. cbn [app dget fst]. rewrite eqs_refl. reflexivity.
  - destruct (nonblank s0); cbn [app dget fst]; [rewrite (proj2 (eqs_false k k0) E)|]; apply IH; auto.
Qed.

Lemma split_of_cell : forall v p t, cell_names v p t -> exists P T, split_term v = Ok (P, T) /\ lower P = p /\ lower T = t.
Proof.
  intros v p t H. apply split_term_lower_spec in H. unfold split_term_lower in H. destruct (split_term v) as [[P T]|] eqn:E; [|discriminate H].
  injection H as <- <-. exists P, T. auto.
Qed.

Lemma declare_children : forall t s s' v ap sec ih p n q i, full_keys s ->
  add_declared_term t s = (s', Ok tt) -> t_val (tget t s) = VStr v ->
  arg_props (s_heap s) (tget t s) = Ok ap ->
  dget "section" ap = Some (VStr sec) -> nonblank sec = true ->
  dget "inheritsfrom" ap = Some (VStr ih) -> nonblank ih = true ->
  cell_names v p n -> cell_names ih q i -> n <> "" -> n <> i -> p <> i ->
  forall x r, listed s (lower sec) x -> child_name i x r ->
  exists td m td', declared s x td /\ lower m = (n ++ "." ++ lower r)%string /\ declared s' m td' /\ copied m td td'
    /\ forall sc, dget "section" (td_props td) = Some sc -> listed s' (lower sc) m.
Proof.
  intros t s s' v ap sec ih p n q i FK H Ev Ea Es Ns Ei Ni Cv Ci Nn Nni Npi x r (sd & Ls & Lx) C.
  destruct (split_of_cell _ _ _ Cv) as (P & T & Sv & EP & ET). destruct (split_of_cell _ _ _ Ci) as (Q & I & Si & EQ & EI).
  unfold add_declared_term in H. rg H. rewrite Ev in H. rg H.
  assert (Nv : normalize_term v = Ok (dotted p n)).
  { apply split_term_lower_spec in Cv. unfold normalize_term. rewrite Cv. reflexivity. }
  rewrite Nv in H. rg H. rg H. rewrite Ea in H. rg H.
  destruct (nonblank_props ap) as [np|] eqn:En; [|discriminate H]. rg H. cbv zeta in H. rg H.
  assert (Gs : dget "section" (dset "term" v np) = Some sec).
  { rewrite dget_dset_other by discriminate. apply (nonblank_get _ _ _ _ En Es Ns). }
  assert (Gi : dget "inheritsfrom" (dset "term" v np) = Some ih).
  { rewrite dget_dset_other by discriminate. apply (nonblank_get _ _ _ _ En Ei Ni). }
  assert (Nes : nonempty sec = true) by (destruct sec; [discriminate Ns|reflexivity]).
  assert (Nei : nonempty ih = true) by (destruct ih; [discriminate Ni|reflexivity]).
  rewrite Gs in H. rewrite Nes in H. cbn [when] in H. rb H as s1 u H1. destruct u.
  rewrite Gi, Nei in H. rewrite Sv in H. rg H. cbn iota beta in H. rewrite Si in H. rg H. cbn iota beta in H. rg H.
  apply add_term_ok with (name := v) in H1; [|apply dget_dset_same].
  destruct H1 as (sc & sd2 & G1 & G2 & E1). assert (sc = sec) by congruence. subst sc.
  set (D := mk_tdecl (dset "term" v np) []) in *.
  assert (Dt : forall k, dterm k s1 = if eqs k (dotted p n) then Some D else dterm k s).
  { intros k. unfold dterm. destruct (mem_str v (sd_terms sd2)); subst s1; cbn [s_prs pmod set_s_prs p_dterms p_dsecs set_p_dsecs set_p_dterms]; apply dget_dset. }
  assert (Ds : forall y, In y (sd_terms sd) -> In y (dsec (lower sec) s1)).
  { change (dget (lower sec) (p_dsecs (s_prs s)) = Some sd2) in G2. assert (sd2 = sd) by congruence. subst sd2. intros y Hy. unfold dsec.
    destruct (mem_str v (sd_terms sd)); subst s1; cbn [s_prs pmod set_s_prs p_dterms p_dsecs set_p_dsecs set_p_dterms].
    - rewrite G2. exact Hy.
    - rewrite dget_dset_same. cbn [sd_terms set_sd_terms]. apply in_or_app. auto. }
  pose proof (cell_names_tidy _ _ _ Cv) as (V1 & V2 & V3 & V4 & V5 & V6 & V7).
  pose proof (cell_names_tidy _ _ _ Ci) as (W1 & W2 & W3 & W4 & W5 & W6 & W7).
  assert (FK1 : full_keys s1).
  { intros k td E. change (dterm k s1 = Some td) in E. rewrite Dt in E. eqs_cases k (dotted p n); [|apply (FK _ _ E)].
    subst k. exists p, n. split; [apply (cell_names_dotted _ _ _ Cv)|reflexivity]. }
  pose proof (split_term_shape _ _ _ Sv) as [DT TT]. pose proof (split_term_shape _ _ _ Si) as [DI TI].
  assert (NT : T <> "") by (intros E; subst T; apply Nn; rewrite <- ET; reflexivity).
  assert (NE : lower T <> lower I) by congruence.
  assert (CI : child_name I x r).
  { destruct C as (a & b & C1 & C2 & C3 & C4 & C5). exists a, b. rewrite W6 in C4. rewrite EI. auto. }
  destruct (inherit_good _ _ DT TT NT DI NE s1 (lower sec) _ 0 s1 s' FK1 (fun _ _ _ => eq_refl) H) as [H1 _].
  destruct (H1 x r (Ds _ Lx) CI) as (td & m & td' & K1 & K2 & K3 & K4 & K5).
  exists td, m, td'.
  assert (Kx : eqs (lower x) (dotted p n) = false).
  { apply eqs_false. intros E. destruct (child_lower _ _ _ DI CI) as (b & L & _). rewrite L in E. unfold dotted in E.
    apply cut_unique in E; [|apply dot_free_lower; exact DI|exact V3]. destruct E as [E _]. congruence. }
  split; [unfold declared; rewrite Dt, Kx in K1; exact K1|].
  split; [rewrite K2, lower_dotted, ET; reflexivity|]. split; [exact K3|]. split; [exact K4|].
  intros sc E. specialize (K5 sc E). unfold dsec in K5. unfold listed. destruct (dget (lower sc) (p_dsecs (s_prs s'))) as [sd'|]; [|contradiction K5]. eauto.
Qed.
