(** * StreamRowFacts: the lines printed for one row *)

From Verif Require Import ListFacts StrFacts SpecNames NameFacts HeapFacts ConstructFacts Parser RunFacts EmitFacts TreeFacts DigitFacts RowFacts ParseFacts DocFacts TotalFacts OriginFacts TermStream SpecStream StreamFacts SpecDoc.

(** ** Text *)

Lemma line_text : forall h p r row col i sec, t_row r = Some row -> t_col r = Some col -> t_section r = Some i -> t_val (hget i h) = VStr sec ->
  t_pt r <> current_parent ->
  term_str h (file_name p) r = term_line (file_name p) row col sec (t_pt r) (t_rt r) (str_val (t_val r)).
Proof.
  intros h p r row col i sec R C S V E. unfold term_str, file_ref, term_line. rewrite R, C, S, V, (basename_free _ (proj2 (file_name_plain p))).
  cbv zeta. cbn [str_val str_opt]. apply eqs_false in E. change ELIDED_TERM with current_parent. rewrite E, <- !app_s_assoc. reflexivity.
Qed.
Lemma bare_text : forall h p r row col, t_row r = Some row -> t_col r = Some col -> t_section r = None ->
  t_pt r <> current_parent ->
  term_str h (file_name p) r = term_line (file_name p) row col "None" (t_pt r) (t_rt r) (str_val (t_val r)).
Proof.
  intros h p r row col R C S E. unfold term_str, file_ref, term_line. rewrite R, C, S, (basename_free _ (proj2 (file_name_plain p))).
  cbv zeta. cbn [str_val str_opt]. apply eqs_false in E. change ELIDED_TERM with current_parent. rewrite E, <- !app_s_assoc. reflexivity.
Qed.

Lemma shown : forall c, str_val (init_val (VStr c)) = shown_value c.
Proof. intros c. unfold shown_value. eqs_cases c ""; [subst; reflexivity|]. rewrite init_val_str by exact E. reflexivity. Qed.

(** ** Running with a printer *)

Lemma silently_run : forall {A} (m : MM A) s s' r out, m s = (s', r) -> silently m (s, out) = ((s', out), r).
Proof. intros A m s s' r out H. unfold silently. cbn [fst snd]. rewrite H. reflexivity. Qed.

Lemma tell_run : forall nm t s s0 out, consume t s = (s0, Ok true) ->
  tell nm t (s, out) = ((s0, out ++ [term_str (s_heap s0) (nm t) (tget t s0)])%list, Ok tt).
Proof. intros nm t s s0 out H. unfold tell. eapply bind_fw; [apply silently_run; exact H|]. reflexivity. Qed.
Lemma tell_quiet : forall nm t s s0 out, consume t s = (s0, Ok false) -> tell nm t (s, out) = ((s0, out), Ok tt).
Proof. intros nm t s s0 out H. unfold tell. eapply bind_fw; [apply silently_run; exact H|]. reflexivity. Qed.

(** ** The cells of a row *)

Lemma not_a_section : forall n pm, py_int n <> None -> digits n -> ~ In "section" pm -> renamed pm n <> "section".
Proof.
  intros n pm I D NS Q. assert (X : n <> "section") by (intros ->; inversion D as [|? ? D1 _]; discriminate D1). unfold renamed in Q.
  destruct (py_int n); [|congruence]. unfold pindex in Q. destruct (z <? 0)%Z.
  - destruct (0 <=? _)%Z; [|congruence]. destruct (nth_error _ _) eqn:En; [|congruence]. apply NS. subst. eapply nth_error_In; exact En.
  - destruct (nth_error _ _) eqn:En; [|congruence]. apply NS. subst. eapply nth_error_In; exact En.
Qed.

Definition from (f : string) (nm : nat -> string) : Prop := forall i, i <> 0 -> nm i = f.

Lemma keeps_cls : forall s s', keeps s s' -> plain_cls s -> plain_cls s'.
Proof. intros s s' K. apply plain_cls_same, (kp_cls _ _ K). Qed.
Lemma keeps_val : forall s s' i, keeps s s' -> i < hlen s -> t_val (tget i s') = t_val (tget i s).
Proof. intros s s' i K Hi. pose proof (kp_term _ _ K i Hi). congruence. Qed.
Lemma keeps_rt : forall s s' i, keeps s s' -> i < hlen s -> t_rt (tget i s') = t_rt (tget i s).
Proof. intros s s' i K Hi. pose proof (kp_term _ _ K i Hi). congruence. Qed.

Lemma tell_args_run : forall p nm line t n cols sec args col s out, from (file_name p) nm -> good_name n -> n <> "" -> Forall is_stripped args ->
  pinv s -> plain_cls s -> hlen s <> 0 -> t < hlen s -> t_rt (tget t s) = n ->
  p_pmap (s_prs s) = munge_param_map cols -> ~ In "section" (p_pmap (s_prs s)) -> t_val (tget (p_lastsec (s_prs s)) s) = VStr sec ->
  exists s', tell_args nm None line t col args (s, out) = ((s', out ++ cell_lines (file_name p) line sec n cols col args)%list, Ok tt)
    /\ pinv s' /\ keeps s s' /\ s_prs s' = s_prs s.
Proof.
  intros p nm line t n cols sec args. induction args as [|a args IH]; intros col s out Nm G Nn St P PC H0 Ht Rt Pm NS Sv.
  - exists s. cbn [tell_args cell_lines]. rewrite app_nil_r. split; [reflexivity|]. split; [exact P|]. split; [apply keeps_refl|reflexivity].
  - pose proof (Forall_inv St) as S1. pose proof (Forall_inv_tail St) as S2. unfold is_stripped in S1. cbn [tell_args cell_lines]. rewrite S1.
    unfold nonempty. eqs_cases a "".
    + destruct (IH (S col) s out) as (s' & E1 & E2); auto. exists s'. split; [|exact E2]. eapply bind_fw; [reflexivity|]. exact E1.
    + assert (CN : cell_names (dotted n (str_of_nat col)) n (str_of_nat col)).
      { destruct G as (G1 & G2 & G3 & G4 & G5). destruct (str_of_nat_digits col) as [D _]. rewrite <- G3 at 2. rewrite <- (digits_lower _ D) at 2.
        apply (cell_qualified _ n (str_of_nat col)); auto; [apply digits_dot_free, D|apply trimmed_iff, tidy_strip, G1|].
        apply trimmed_iff, tidy_strip, digits_starts, D. }
      set (c := parser_term_class (dotted n (str_of_nat col)) s).
      assert (Hc : is_section_cls c = false).
      { destruct G as (G1 & G2 & G3 & G4 & G5). destruct (is_section_cls c) eqn:Ec; [|reflexivity]. exfalso. apply PC in Ec.
        apply split_term_lower_spec in CN.
        assert (Ll : lower (dotted n (str_of_nat col)) = dotted n (str_of_nat col)).
        { unfold dotted. rewrite !lower_app. rewrite G3. destruct (str_of_nat_digits col) as [D _]. rewrite (digits_lower _ D). reflexivity. }
        rewrite Ll in Ec. destruct Ec as [Ec|Ec]; rewrite Ec in CN; vm_compute in CN; injection CN as C1 C2; congruence. }
      set (R := arg_rec c line None t n col a).
      assert (Mk : (r <- getT t ;;
                        let name := dotted (rt_lc r) (str_of_nat col) in
                        c <- gets (parser_term_class name) ;;
                        construct c name (VStr a) [] (Some line) (Some (col + 2)) None (Some t) false None) s = (push R s, Ok (hlen s))).
      { fw. unfold rt_lc. rewrite Rt, (proj1 (proj2 (proj2 G))). cbv zeta. fw. fold c.
        apply (construct_plain_fw _ _ _ _ _ _ _ _ _ _ _ n (str_of_nat col)); [exact Hc|..].
        - apply split_term_lower_spec in CN. unfold term_names. rewrite CN. cbn [rbind]. destruct (eqs n ROOT_TERM); [|reflexivity]. unfold tget in Rt. rewrite Rt. reflexivity.
        - intros j Ej. injection Ej as <-. rewrite Rt. reflexivity. }
      destruct (arg_fresh s c line None t n col a G ltac:(discriminate) Hc) as (F & Fr & Fp). fold R in F, Fr, Fp.
      destruct (str_of_nat_digits col) as [D D2].
      destruct (consume_new s R P F) as (s0 & C & P0 & K0 & L0 & E0 & T0); [discriminate| |rewrite Fr; discriminate|].
      { rewrite Fp. intros [_ Q]. revert Q. change (t_rt R) with (str_of_nat col). apply not_a_section; [rewrite py_int_str; discriminate|exact D|exact NS]. }
      rewrite Fr in E0. cbv zeta in T0. destruct T0 as (_ & T1 & T2 & T3 & _ & T5 & T6 & T7).
      destruct (IH (S col) s0 (out ++ [term_line (file_name p) line (col + 2) sec n (column_name cols col) a])%list) as (s' & E1 & E2 & E3 & E4); auto.
      * eapply keeps_cls; eassumption.
      * lia.
      * lia.
      * rewrite (keeps_rt _ _ _ K0) by exact Ht. exact Rt.
      * rewrite E0. exact Pm.
      * rewrite E0. exact NS.
      * rewrite E0. rewrite (keeps_val _ _ _ K0) by apply (pi_last _ P). exact Sv.
      * exists s'. split; [|split; [exact E2|split; [eapply keeps_trans; eassumption|congruence]]].
        eapply bind_fw.
        -- unfold when. cbn [negb]. eapply bind_fw; [apply silently_run; exact Mk|]. apply tell_run. exact C.
        -- rewrite <- app_assoc in E1. cbn [app] in E1. rewrite Nm by exact H0.
           assert (Tx : term_str (s_heap s0) (file_name p) (tget (hlen s) s0) = term_line (file_name p) line (col + 2) sec n (column_name cols col) a).
           { rewrite (line_text _ _ _ line (col + 2) (p_lastsec (s_prs s)) sec); auto.
             - rewrite T1, T2, T3, Fp. change (t_rt R) with (str_of_nat col). rewrite Pm, renamed_column.
               change (t_val R) with (init_val (VStr a)). rewrite shown. unfold shown_value. apply eqs_false in E. rewrite E, S1. reflexivity.
             - rewrite <- Sv. apply keeps_val; [exact K0|apply (pi_last _ P)].
             - rewrite T1, Fp. apply G. }
           rewrite Tx. exact E1.
Qed.

(** ** The sections of the first reading *)

Record known (all : list line) (secs : list (string * list string)) (s : st) : Prop := {
  kn_root : dget "root" (d_sections (s_doc s)) = Some (d_root (s_doc s));
  kn_zero : d_root (s_doc s) = 0;
  kn_rootrec : t_val (tget 0 s) = VStr "Root" /\ t_row (tget 0 s) = Some 0 /\ t_col (tget 0 s) = Some 0;
  kn_key : forall k c, k <> "root" -> assoc k secs = Some c -> exists i n m, dget k (d_sections (s_doc s)) = Some i /\ i <> 0
    /\ t_args (tget i s) = c /\ first_heading k 1 all = Some (n, m)
    /\ t_val (tget i s) = VStr m /\ t_row (tget i s) = Some n /\ t_col (tget i s) = Some n
}.

Lemma known_keeps : forall all secs s s', pinv s -> keeps s s' -> known all secs s -> known all secs s'.
Proof.
  intros all secs s s' P K [A B C D]. pose proof (kp_root _ _ K) as KR. pose proof (kp_secs _ _ K) as KS. pose proof (kp_term _ _ K) as KT.
  split; rewrite ?KR, ?KS; auto.
  - pose proof (pi_root _ P) as PR. rewrite B in PR. pose proof (KT 0 PR) as E. injection E as E1 E2 E3 E4 E5 E6. rewrite E2, E4, E5. exact C.
  - intros k c Nk Hc. destruct (D k c Nk Hc) as (i & n & m & H1 & H2 & H3 & H4 & H5 & H6 & H7). exists i, n, m.
    destruct (pi_dsecs _ P _ _ H1) as [Hi _]. pose proof (KT i Hi) as E. injection E as E1 E2 E3 E4 E5 E6.
    rewrite E2, E3, E4, E5. auto 10.
Qed.

Record follows (all : list line) (v : view) (s : st) : Prop := {
  fl_inv : pinv s;
  fl_cls : plain_cls s;
  fl_known : known all (v_secs v) s;
  fl_cur : dget (v_cur v) (d_sections (s_doc s)) = Some (p_lastsec (s_prs s));
  fl_curk : v_cur v = "root" \/ exists c, assoc (v_cur v) (v_secs v) = Some c;
  fl_pmap : p_pmap (s_prs s) = munge_param_map (v_cols v);
  fl_parent : p_lastparent (s_prs s) = v_parent v;
  fl_placed : v_parent v <> current_parent;
  fl_nos : no_sections v;
  fl_last : forall n k, assoc n (v_last v) = Some k -> dget n (p_tmap (s_prs s)) <> None
}.

Lemma follows_title : forall all v s, follows all v s -> t_val (tget (p_lastsec (s_prs s)) s) = VStr (section_title all (v_cur v)).
Proof.
  intros all v s F. pose proof (fl_cur _ _ _ F) as C. pose proof (fl_known _ _ _ F) as K. unfold section_title. eqs_cases (v_cur v) "root".
  - rewrite E, (kn_root _ _ _ K) in C. injection C as <-. rewrite (kn_zero _ _ _ K). apply K.
  - destruct (fl_curk _ _ _ F) as [X|[c X]]; [congruence|]. destruct (kn_key _ _ _ K _ _ E X) as (i & n & m & H1 & _ & _ & H4 & H5 & _).
    rewrite H1 in C. injection C as <-. rewrite H4. exact H5.
Qed.

Lemma enter_keeps : forall i r s, keeps s (enter_section i (push r s)).
Proof.
  intros i r s. destruct (enter_fields i (push r s)) as (E1 & E2 & E3). split.
  - rewrite enter_len, hlen_push. lia.
  - rewrite E2. reflexivity.
  - rewrite E2. reflexivity.
  - intros j Hj. rewrite enter_get, push_old by exact Hj. reflexivity.
  - apply same_cls_by; [rewrite E3; reflexivity|rewrite E2; reflexivity|]. destruct (enter_prs i (push r s)) as (_ & X & _). rewrite X. reflexivity.
Qed.

Lemma header_keeps : forall c line ftype row s, p_lastsec (s_prs s) < hlen s -> keeps s (header_effect c line ftype row s).
Proof.
  intros c line ftype row s L. split; [rewrite header_effect_len; lia|reflexivity|reflexivity| |apply same_cls_by; reflexivity].
  intros i Hi. rewrite header_effect_get by lia. replace (i =? hlen s) with false by (symmetry; apply Nat.eqb_neq; lia). destruct (i =? _); reflexivity.
Qed.

(** a heading seen before *)
Lemma tell_section : forall p nm e rec src all decl v s out row ls0, from (file_name p) nm -> nm 0 = "<none>" -> follows all v s ->
  (forall k, k = lower (strip (nth 1 row "")) -> k <> "root" -> exists c, assoc k (v_secs v) = Some c) -> usable_columns decl ->
  reads row (LSection (nth 1 row "") (map strip (skipn 2 row))) -> usual (LSection (nth 1 row "") (map strip (skipn 2 row))) -> nth 1 row "" <> "" ->
  skip_row row = false -> cell_names (hd "" row) "root" "section" ->
  exists s' ls', tell_row nm e rec src None (v_line v) row ls0 (s, out)
      = ((s', out ++ [section_line (file_name p) all (lower (strip (nth 1 row "")))])%list, Ok ls')
    /\ follows all (next decl v (LSection (nth 1 row "") (map strip (skipn 2 row)))) s'.
Proof.
  intros p nm e rec src all decl v s out row ls0 Nm N0 F Kn ND Rd U Vn Sk CN. set (w := nth 1 row "") in *.
  pose proof (fl_inv _ _ _ F) as P. pose proof (fl_known _ _ _ F) as K.
  set (R := section_rec w (heading_args (s_doc s) w (skipn 2 row)) (v_line v) None "root.section").
  set (k := lower (strip w)) in *.
  assert (PS : plain_section R).
  { apply section_rec_plain; [discriminate|]. apply heading_no_section; [exact P|intros []|exact U]. }
  assert (P1 : pinv (push R s)) by (apply pinv_push; [exact P|split; [exact PS|reflexivity]|reflexivity|reflexivity]).
  assert (Dk : exists i, dget k (d_sections (s_doc s)) = Some i /\ (i = d_root (s_doc s) <-> k = "root")).
  { eqs_cases k "root".
    - exists (d_root (s_doc s)). rewrite E. split; [apply K|]. tauto.
    - destruct (Kn k eq_refl E) as [c Hc]. destruct (kn_key _ _ _ K _ _ E Hc) as (i & n & m & H1 & H2 & _). exists i. split; [exact H1|].
      rewrite (kn_zero _ _ _ K). tauto. }
  destruct Dk as (i & Dk & Ir). destruct (pi_dsecs _ P _ _ Dk) as [Hi Hc].
  assert (Gi : tget i (push R s) = tget i s) by (apply push_old; exact Hi).
  destruct (pi_sec _ P _ Hi Hc (fun x => x)) as [PSi RTi].
  set (s' := enter_section i (push R s)).
  assert (Es : section_effect w (skipn 2 row) (v_line v) None s = s') by (unfold section_effect; fold k; rewrite Dk; reflexivity).
  assert (P' : pinv s') by (rewrite <- Es; apply section_effect_inv; auto; discriminate).
  assert (Co : consume i (push R s) = (s', Ok true)).
  { unfold s', enter_section. rewrite doc_push. destruct (Nat.eqb_spec i (d_root (s_doc s))) as [Er|Er].
    - apply consume_root; [rewrite hlen_push; lia|apply (pi_syn _ P1)|rewrite Gi; exact PSi|]. rewrite Gi, Er. apply (pi_rootn _ P).
    - rewrite consume_section; [|rewrite hlen_push; lia|apply (pi_syn _ P1)|rewrite Gi; exact PSi|rewrite Gi; apply RTi; exact Er].
      rewrite doc_push, (push_old _ _ _ (pi_root _ P)), (pi_rootn _ P). reflexivity. }
  assert (Gs : tget i s' = tget i s) by (unfold s'; rewrite enter_get; exact Gi).
  assert (LCi : lc_name (tget i s)).
  { destruct (Nat.eq_dec i (d_root (s_doc s))) as [Er|Er].
    - apply (plain_section_lc _ "root"); [exact PSi|rewrite Er; apply (pi_rootn _ P)|reflexivity].
    - apply (plain_section_lc _ "section"); [exact PSi|apply RTi; exact Er|reflexivity]. }
  assert (Tx : term_str (s_heap s') (nm i) (tget i s') = section_line (file_name p) all k).
  { rewrite Gs. unfold section_line. eqs_cases k "root".
    - apply Ir in E. rewrite (kn_zero _ _ _ K) in E. subst i. rewrite N0. destruct (kn_rootrec _ _ _ K) as (V & Rw & Cl).
      unfold term_str, file_ref. rewrite Rw, Cl, V, (ps_sec _ PSi), (ps_pt _ PSi).
      assert (Rn : t_rt (tget 0 s) = "root") by (rewrite <- (kn_zero _ _ _ K); apply (pi_rootn _ P)).
      rewrite Rn. reflexivity.
    - destruct (Kn k eq_refl E) as [c Hcc]. destruct (kn_key _ _ _ K _ _ E Hcc) as (j & n & m & H1 & H2 & _ & H4 & H5 & H6 & H7).
      rewrite Dk in H1. injection H1 as <-. rewrite Nm by exact H2. rewrite H4.
      rewrite (bare_text _ _ _ n n) by (auto; rewrite ?(ps_sec _ PSi), ?(ps_pt _ PSi); auto; discriminate).
      rewrite (ps_pt _ PSi), RTi by (rewrite Ir; exact E). rewrite H5. reflexivity. }
  exists s', i. split.
  - unfold tell_row. rewrite Sk. eapply bind_fw.
    { apply (silently_run _ _ (push R s) (Ok (hlen s))).
      apply split_term_lower_spec in CN. rewrite CN. fw. cbn iota beta. change (dotted "root" "section") with "root.section". cbv zeta. fw.
      rewrite row_class_section by exact P. rewrite construct_section_fw. reflexivity. }
    eapply bind_fw; [apply silently_run; reflexivity|]. rewrite push_new.
    assert (LC : lc_name R) by (split; [apply dot_free_iff; reflexivity|split; reflexivity]).
    rewrite is_include_bare by exact LC. fw. rewrite is_declare_bare by exact LC. fw.
    change (named_root R "include" || named_root R "declare") with false. cbn iota.
    rewrite is_section_bare by exact LC. fw. change (named_root R "section") with true. cbn iota.
    eapply bind_fw.
    { apply (silently_run _ _ (push R s) (Ok i)). unfold section_for. fw. fw. rewrite push_new.
      change (is_section_cls (t_cls R)) with true. cbn iota. unfold get_section. change (t_val R) with (init_val (VStr w)).
      rewrite init_val_str by exact Vn. cbn [as_str rbind]. rewrite doc_push. fold k. rewrite Dk. reflexivity. }
    eapply bind_fw; [apply tell_run; exact Co|]. rewrite Tx.
    eapply bind_fw; [apply silently_run; reflexivity|]. rewrite Gs.
    rewrite is_section_bare by exact LCi. fw. rewrite is_header_bare by exact LCi. fw.
    destruct (Nat.eq_dec i (d_root (s_doc s))) as [Er|Er].
    + assert (Ta : t_args (tget i s) = []) by (rewrite Er; apply (pi_rootargs _ P)). rewrite Ta.
      eapply bind_fw; [|reflexivity]. destruct (_ || _); reflexivity.
    + assert (Nmd : named_root (tget i s) "section" = true) by (unfold named_root; rewrite (ps_pt _ PSi), (RTi Er); reflexivity).
      rewrite Nmd. eapply bind_fw; reflexivity.
  - pose proof (enter_keeps i R s) as KE. fold s' in KE. destruct (enter_prs i (push R s)) as (E1 & E2 & E3 & E4 & E5 & E6).
    fold s' in E1, E2, E3, E4, E5, E6. rewrite prs_push in *. rewrite doc_push in *.
    pose proof (no_sections_next decl v (LSection w (map strip (skipn 2 row))) ND U (fun x => x) (fl_nos _ _ _ F)) as NSn.
    pose proof (fl_curk _ _ _ F) as _.
    cbn [next] in *. fold k in NSn |- *. eqs_cases k "root".
    + destruct (E5 (proj2 Ir E)) as (E51 & E52 & E53). split; cbn [v_secs v_cur v_cols v_parent v_last].
      * exact P'.
      * eapply keeps_cls; [exact KE|apply F].
      * eapply known_keeps; [exact P|exact KE|exact K].
      * rewrite (kp_secs _ _ KE), E1. rewrite <- E. exact Dk.
      * left. reflexivity.
      * rewrite E51. apply F.
      * rewrite E52. apply F.
      * apply F.
      * exact NSn.
      * rewrite E3. apply F.
    + destruct (Kn k eq_refl E) as [c Hcc]. rewrite Hcc in NSn |- *. assert (Er : i <> d_root (s_doc s)) by (rewrite Ir; exact E).
      destruct (E6 Er) as (E61 & E62 & E63). destruct (kn_key _ _ _ K _ _ E Hcc) as (j & n & m & H1 & H2 & H3 & _).
      rewrite Dk in H1. injection H1 as <-. split; cbn [v_secs v_cur v_cols v_parent v_last].
      * exact P'.
      * eapply keeps_cls; [exact KE|apply F].
      * eapply known_keeps; [exact P|exact KE|exact K].
      * rewrite (kp_secs _ _ KE), E1. exact Dk.
      * right. eauto.
      * rewrite E61, Gi, H3. reflexivity.
      * exact E62.
      * discriminate.
      * exact NSn.
      * rewrite E3. apply F.
Qed.

Lemma tell_header : forall nm e rec src all decl v s out row ls0, follows all v s ->
  usable_columns decl -> usual (LHeader (strip (nth 1 row "")) (map strip (skipn 2 row))) -> nth 1 row "" <> "" ->
  skip_row row = false -> cell_names (hd "" row) "root" "header" ->
  exists s', tell_row nm e rec src None (v_line v) row ls0 (s, out) = ((s', out), Ok ls0)
    /\ follows all (next decl v (LHeader (strip (nth 1 row "")) (map strip (skipn 2 row)))) s'.
Proof.
  intros nm e rec src all decl v s out row ls0 F ND U Vn Sk CN. pose proof (fl_inv _ _ _ F) as P. pose proof (pi_last _ P) as PL.
  set (c := parser_term_class (dotted "root" "header") s).
  assert (Hc : is_section_cls c = false).
  { destruct (is_section_cls c) eqn:E; [|reflexivity]. apply (fl_cls _ _ _ F) in E. destruct E; discriminate. }
  set (R := row_rec c (v_line v) None "root" "header" row). set (s' := header_effect c (v_line v) None row s).
  assert (Co : consume (hlen s) (push R s) = (s', Ok false)).
  { rewrite (consume_header _ _ (strip (nth 1 row ""))); rewrite ?prs_push, ?push_new; try (reflexivity || assumption).
    - rewrite hlen_push; lia.
    - apply (pi_syn _ P).
    - apply init_val_str. exact Vn. }
  assert (T : tget (hlen s) s' = set_t_section (Some (p_lastsec (s_prs s))) R).
  { unfold s'. rewrite header_effect_get by lia. rewrite Nat.eqb_refl. reflexivity. }
  assert (LC : lc_name R) by (split; [apply dot_free_iff; reflexivity|split; reflexivity]).
  exists s'. split.
  - unfold tell_row. rewrite Sk. eapply bind_fw.
    { apply (silently_run _ _ (push R s) (Ok (hlen s))).
      apply split_term_lower_spec in CN. rewrite CN. fw. cbn iota beta. cbv zeta. fw. fold c.
      rewrite (construct_plain_fw _ _ _ _ _ _ _ _ _ _ _ "root" "header"); [reflexivity|exact Hc|reflexivity|discriminate]. }
    eapply bind_fw; [apply silently_run; reflexivity|]. rewrite push_new.
    rewrite is_include_bare by exact LC. fw. rewrite is_declare_bare by exact LC. fw.
    change (named_root R "include" || named_root R "declare") with false. cbn iota.
    rewrite is_section_bare by exact LC. fw. change (named_root R "section") with false. cbn iota. fw.
    eapply bind_fw; [apply tell_quiet; exact Co|].
    eapply bind_fw; [apply silently_run; reflexivity|]. rewrite T.
    rewrite is_section_bare by exact LC. fw. rewrite is_header_bare by exact LC. fw.
    eapply bind_fw; reflexivity.
  - pose proof (header_keeps c (v_line v) None row s PL) as KE. fold s' in KE.
    split.
    + apply header_effect_inv; [exact P|exact Hc|exact U].
    + eapply keeps_cls; [exact KE|apply F].
    + cbn [next v_secs]. eapply known_keeps; [exact P|exact KE|apply F].
    + apply F.
    + apply F.
    + reflexivity.
    + apply F.
    + apply F.
    + apply no_sections_next; [exact ND|exact U|exact Logic.I|apply F].
    + apply F.
Qed.

Lemma tell_term : forall pth nm e rec src all decl v s out row ls0 p r, from (file_name pth) nm -> follows all v s ->
  usable_columns decl -> (p = "root" -> ~ In r ["section"; "header"]) ->
  usual (LTerm p r (strip (nth 1 row "")) (map strip (skipn 2 row))) -> sound (LTerm p r (strip (nth 1 row "")) (map strip (skipn 2 row))) ->
  (p = current_parent \/ p = "root" \/ p = r \/ exists k, assoc p (v_last v) = Some k) ->
  skip_row row = false -> cell_names (hd "" row) p r ->
  exists s', tell_row nm e rec src None (v_line v) row ls0 (s, out)
      = ((s', out ++ row_lines (file_name pth) all v row (LTerm p r (strip (nth 1 row "")) (map strip (skipn 2 row))))%list, Ok ls0)
    /\ follows all (next decl v (LTerm p r (strip (nth 1 row "")) (map strip (skipn 2 row)))) s'.
Proof.
  intros pth nm e rec src all decl v s out row ls0 p n Nm F ND NH U So Pl Sk CN.
  pose proof (fl_inv _ _ _ F) as P. pose proof (pi_last _ P) as PL. pose proof U as U'. destruct U as (O1 & O2 & O3 & O4 & O5). destruct So as [So1 So3].
  pose proof (cell_names_tidy _ _ _ CN) as (T1 & T2 & T3 & T4 & T5 & T6 & T7).
  assert (Sp2 : split_term_lower (dotted p n) = Ok (p, n)) by (apply split_term_lower_spec; apply (cell_names_dotted _ _ _ CN)).
  set (c := parser_term_class (dotted p n) s).
  assert (Cc : is_section_cls c = false).
  { destruct (is_section_cls c) eqn:Cc; [|reflexivity]. exfalso. apply (fl_cls _ _ _ F) in Cc. unfold dotted in Cc. rewrite !lower_app in Cc. rewrite T5, T6 in Cc.
    change (p ++ lower "." ++ n)%string with (dotted p n) in Cc.
    destruct Cc as [Cc|Cc]; rewrite Cc in Sp2; vm_compute in Sp2; injection Sp2 as C1 C2; subst; [apply NH; cbn; auto|congruence]. }
  assert (G : good_name n) by (exact (conj T2 (conj T4 (conj T6 (conj O3 O2))))).
  set (R := row_rec c (v_line v) None p n row).
  assert (LC : lc_name R) by (unfold lc_name; cbn; auto).
  assert (NM : forall k, named_root R k = eqs "root" p && eqs k n) by reflexivity.
  assert (NI : named_root R "include" || named_root R "declare" = false).
  { rewrite !NM. eqs_cases "root" p; [|reflexivity]. cbn [andb]. specialize (O5 (eq_sym E)).
    eqs_cases "include" n; [exfalso; apply O5; left; exact E0|]. eqs_cases "declare" n; [exfalso; apply O5; right; left; exact E1|]. reflexivity. }
  assert (NSc : named_root R "section" = false).
  { rewrite NM. eqs_cases "root" p; [|reflexivity]. cbn [andb]. apply eqs_false. intros <-. apply NH; cbn; auto. }
  assert (Rn : renamed (p_pmap (s_prs s)) (t_rt R) = n) by (unfold renamed; change (t_rt R) with n; rewrite O1; reflexivity).
  assert (Fp : final_pt s R = if eqs p current_parent then v_parent v else p).
  { unfold final_pt. change (t_pt R) with p. change ELIDED_TERM with current_parent. rewrite (fl_parent _ _ _ F). reflexivity. }
  assert (Fo : fresh_ok s R).
  { split; [exact Cc|reflexivity|reflexivity|reflexivity|reflexivity|discriminate|split; assumption|exact T6|..].
    - change (t_rt R) with n. intros E. unfold renamed. rewrite O1. rewrite Fp in E. eqs_cases p current_parent.
      + specialize (O4 E0). intros [<-|[<-|[<-|[]]]]; [apply O4; cbn; auto|apply O4; cbn; auto|congruence].
      + specialize (NH E). intros [I|[I|[I|[]]]]; [apply NH; cbn; auto|apply NH; cbn; auto|congruence].
    - intros _. change (t_rt R) with n. auto. }
  assert (ND' : ~ is_datafile_section (final_pt s R) (renamed (p_pmap (s_prs s)) (t_rt R))).
  { rewrite Rn, Fp. intros [D1 D2]. eqs_cases p current_parent; [|apply So3; auto]. apply (O4 E). left. auto. }
  assert (Rg : registers R = negb (eqs p ELIDED_TERM)).
  { unfold registers. change (t_pt R) with p. change (t_col R) with (Some 1). cbn iota. change (1 <? 1) with false. cbn. apply andb_true_r. }
  destruct (consume_new s R P Fo) as (s0 & Co & P0 & K0 & L0 & E0 & T0); [discriminate|exact ND'| |].
  { rewrite Rg, Rn. change (t_pt R) with p. rewrite !dget_dset. intros Ne. eqs_cases p n; [discriminate|].
    eqs_cases p ELIDED_TERM; [discriminate|]. destruct Pl as [X|[X|[X|[k X]]]].
    - exfalso. match goal with H : p <> ELIDED_TERM |- _ => apply H; exact X end.
    - rewrite X, (pi_rootmap _ P). discriminate.
    - congruence.
    - eapply (fl_last _ _ _ F). exact X. }
  rewrite Rg, Rn in E0. cbv zeta in T0. destruct T0 as (X1 & X2 & X3 & X4 & X5 & X6 & X7 & X8). rewrite Rn in X3. rewrite Fp in X2.
  set (sec := section_title all (v_cur v)). set (par := if eqs p current_parent then v_parent v else p) in *.
  pose proof (follows_title _ _ _ F) as FT. fold sec in FT.
  assert (Hp : par <> current_parent) by (unfold par; eqs_cases p current_parent; [apply F|exact E]).
  assert (Pm0 : p_pmap (s_prs s0) = munge_param_map (v_cols v)).
  { rewrite E0. destruct (negb _); [cbn [p_pmap reg_prs set_p_tmap set_p_lastparent]|]; apply (fl_pmap _ _ _ F). }
  assert (Ls0 : p_lastsec (s_prs s0) = p_lastsec (s_prs s)) by (rewrite E0; destruct (negb _); reflexivity).
  assert (Tx : term_str (s_heap s0) (nm (hlen s)) (tget (hlen s) s0) = term_line (file_name pth) (v_line v) 1 sec par n (shown_value (nth 1 row ""))).
  { rewrite Nm by lia. rewrite (line_text _ _ _ (v_line v) 1 (p_lastsec (s_prs s)) sec); auto.
    - rewrite X2, X3, X4. change (t_val R) with (init_val (VStr (nth 1 row ""))). rewrite shown. reflexivity.
    - rewrite <- FT. apply keeps_val; [exact K0|exact PL].
    - rewrite X2. exact Hp. }
  assert (LC0 : lc_name (tget (hlen s) s0)).
  { unfold lc_name. rewrite X2, X3. unfold par. eqs_cases p current_parent; [|auto]. rewrite <- (fl_parent _ _ _ F). destruct (pi_lp _ P). auto. }
  assert (NN : named_root (tget (hlen s) s0) "section" || named_root (tget (hlen s) s0) "header" = false).
  { unfold named_root. rewrite X2, X3. eqs_cases "root" par; [|reflexivity]. cbn [andb].
    assert (Z : final_pt s R = "root") by (rewrite Fp; auto). apply (fo_nm _ _ Fo) in Z. rewrite Rn in Z.
    eqs_cases "section" n; [exfalso; apply Z; cbn; auto|]. eqs_cases "header" n; [exfalso; apply Z; cbn; auto|]. reflexivity. }
  assert (St : Forall is_stripped (map strip (skipn 2 row))).
  { apply Forall_forall. intros x H. apply in_map_iff in H. destruct H as (y & <- & _). apply strip_idem. }
  assert (NoS : ~ In "section" (p_pmap (s_prs s0))) by (rewrite Pm0; apply munge_no_section, (fl_nos _ _ _ F)).
  destruct (tell_args_run pth nm (v_line v) (hlen s) n (v_cols v) sec (map strip (skipn 2 row)) 0 s0
    (out ++ [term_line (file_name pth) (v_line v) 1 sec par n (shown_value (nth 1 row ""))])%list) as (s' & A1 & A2 & A3 & A4); auto.
  { eapply keeps_cls; [exact K0|apply F]. }
  { lia. }
  { lia. }
  { rewrite Ls0. rewrite <- FT. apply keeps_val; [exact K0|exact PL]. }
  exists s'. split.
  - unfold tell_row. rewrite Sk. eapply bind_fw.
    { apply (silently_run _ _ (push R s) (Ok (hlen s))).
      apply split_term_lower_spec in CN. rewrite CN. fw. cbn iota beta. cbv zeta. fw. fold c.
      apply (construct_plain_fw _ _ _ _ _ _ _ _ _ _ _ p n); [exact Cc|unfold term_names; rewrite Sp2; reflexivity|discriminate]. }
    eapply bind_fw; [apply silently_run; reflexivity|]. rewrite push_new.
    rewrite is_include_bare by exact LC. fw. rewrite is_declare_bare by exact LC. fw. rewrite NI. cbn iota.
    rewrite is_section_bare by exact LC. fw. rewrite NSc. cbn iota. fw.
    eapply bind_fw; [apply tell_run; exact Co|]. rewrite Tx.
    eapply bind_fw; [apply silently_run; reflexivity|].
    rewrite is_section_bare by exact LC0. fw. rewrite is_header_bare by exact LC0. fw. rewrite NN.
    rewrite X5. change (t_args R) with (map strip (skipn 2 row)).
    eapply bind_fw; [exact A1|]. rewrite <- app_assoc. reflexivity.
  - pose proof (keeps_trans _ _ _ K0 A3) as KE.
    pose proof (no_sections_next decl v (LTerm p n (strip (nth 1 row "")) (map strip (skipn 2 row))) ND U' Logic.I (fl_nos _ _ _ F)) as NSn.
    cbn [next] in *. change current_parent with ELIDED_TERM in *. eqs_cases p ELIDED_TERM; cbn [negb] in E0.
    + split; cbn [v_secs v_cur v_cols v_parent v_last]; rewrite ?A4, ?E0, ?(kp_secs _ _ KE); try apply F.
      * exact A2.
      * eapply keeps_cls; [exact KE|apply F].
      * eapply known_keeps; [exact P|exact KE|apply F].
    + split; cbn [v_secs v_cur v_cols v_parent v_last]; rewrite ?A4, ?E0, ?(kp_secs _ _ KE); try apply F.
      * exact A2.
      * eapply keeps_cls; [exact KE|apply F].
      * eapply known_keeps; [exact P|exact KE|apply F].
      * reflexivity.
      * exact O2.
      * intros m k. rewrite assoc_cons. cbn [p_tmap reg_prs set_p_tmap]. rewrite !dget_dset. eqs_cases n m.
        -- intros _. rewrite E1, eqs_refl. discriminate.
        -- intros H. eqs_cases m n; [discriminate|]. eqs_cases m ELIDED_TERM; [discriminate|]. eapply (fl_last _ _ _ F). exact H.
Qed.

Definition sections_known (v : view) (ls : list line) : Prop :=
  forall n cells, In (LSection n cells) ls -> lower (strip n) <> "root" -> exists c, assoc (lower (strip n)) (v_secs v) = Some c.

Lemma known_secs : forall decl v l, sections_known v [l] -> v_secs (next decl v l) = v_secs v.
Proof.
  intros decl v l H. destruct l as [|n cells|n cells|p r x cells]; cbn [next]; try reflexivity.
  - eqs_cases (lower (strip n)) "root"; [reflexivity|]. destruct (H n cells (or_introl eq_refl) E) as [c ->]. reflexivity.
  - destruct (eqs p current_parent); reflexivity.
Qed.

Lemma tell_row_run : forall pth nm e rec src all decl v s out row l ls0, from (file_name pth) nm -> nm 0 = "<none>" -> follows all v s ->
  usable_columns decl -> sections_known v [l] -> reads row l -> usual l -> sound l -> settles v l ->
  exists s' ls', tell_row nm e rec src None (v_line v) row ls0 (s, out) = ((s', out ++ row_lines (file_name pth) all v row l)%list, Ok ls')
    /\ follows all (next decl v l) s'.
Proof.
  intros pth nm e rec src all decl v s out row l ls0 Nm N0 F ND SK Rd U So Pl. destruct Rd as [B|NB C|NB C|p r NB C Hx].
  - exists s, ls0. apply skip_blank in B. unfold tell_row. rewrite B. cbn [row_lines]. rewrite app_nil_r. split; [reflexivity|].
    destruct F. split; assumption.
  - apply not_blank in NB. cbn [sound] in So. cbn [row_lines].
    destruct (tell_section pth nm e rec src all decl v s out row ls0 Nm N0 F) as (s' & ls' & E1 & E2); auto.
    + intros k -> Nk. eapply SK; [left; reflexivity|exact Nk].
    + constructor; [apply not_blank; exact NB|exact C].
    + exists s', ls'. split; [exact E1|exact E2].
  - apply not_blank in NB. cbn [sound] in So. cbn [row_lines].
    destruct (tell_header nm e rec src all decl v s out row ls0 F) as (s' & E1 & E2); auto.
    + intros Z. rewrite Z in So. apply So. reflexivity.
    + exists s', ls0. rewrite app_nil_r. split; [exact E1|exact E2].
  - apply not_blank in NB.
    destruct (tell_term pth nm e rec src all decl v s out row ls0 p r) as (s' & E1 & E2); auto.
    + cbn [settles b_known no_background] in Pl. destruct Pl as [X|[X|[X|[X|X]]]]; auto. congruence.
    + exists s', ls0. split; [exact E1|exact E2].
Qed.

Lemma tell_rows_run : forall pth nm e rec src all decl rows ls, from (file_name pth) nm -> nm 0 = "<none>" -> usable_columns decl ->
  Forall2 reads rows ls -> forall v s out ls0, follows all v s -> sections_known v ls -> Forall usual ls -> Forall sound ls ->
  (forall a l b, ls = (a ++ l :: b)%list -> settles (fold_left (next decl) a v) l) ->
  exists s', tell_rows nm e rec src None (v_line v) rows ls0 (s, out) = ((s', out ++ file_lines (file_name pth) all decl v rows ls)%list, Ok tt).
Proof.
  intros pth nm e rec src all decl rows ls Nm N0 ND R. induction R as [|row l rows ls R1 R2 IH]; intros v s out ls0 F SK U So Pl.
  - exists s. cbn [tell_rows file_lines]. rewrite app_nil_r. reflexivity.
  - inversion U as [|? ? U1 U2]; subst. inversion So as [|? ? So1 So2]; subst.
    assert (SK1 : sections_known v [l]) by (intros n cells [->|[]]; apply (SK n cells); left; reflexivity).
    destruct (tell_row_run pth nm e rec src all decl v s out row l ls0) as (s1 & ls1 & E1 & F1); auto.
    { exact (Pl [] l ls eq_refl). }
    destruct (IH (next decl v l) s1 (out ++ row_lines (file_name pth) all v row l)%list ls1) as (s' & E'); auto.
    + intros n cells I Nk. rewrite known_secs by exact SK1. apply (SK n cells); [right; exact I|exact Nk].
    + intros a l' b Eb. apply (Pl (l :: a) l' b). subst ls. reflexivity.
    + exists s'. cbn [tell_rows file_lines]. eapply bind_fw; [exact E1|]. rewrite next_line in E'. rewrite E', <- app_assoc. reflexivity.
Qed.
