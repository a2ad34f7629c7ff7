(** * DocFacts: the terms of a parsed file *)

From Coq Require Import Sorted.
From Verif Require Import ListFacts StrFacts SpecNames NameFacts HeapFacts ConstructFacts Parser RunFacts EmitFacts TreeFacts DigitFacts RowFacts ParseFacts SpecDoc.

(** ** Which row a term is from *)

Definition plain_from (n : nat) (s s' : st) : Prop := forall i, hlen s <= i < hlen s' ->
  is_section_cls (t_cls (tget i s')) = false -> exists k, t_row (tget i s') = Some k /\ n <= k.

Lemma new_term_row : forall s r q s', new_term s r q s' -> t_row (tget (hlen s) s') = t_row r.
Proof.
  intros s r q s' N. rewrite (nt_new _ _ _ _ N), (sm_row _ _ (with_new_same _ _ _ _ _)). apply settled_fields.
Qed.

Lemma kids_rows : forall line ftype t n col args s s', kids line ftype t n col args s s' ->
  forall i, hlen s <= i < hlen s' -> t_row (tget i s') = Some line.
Proof.
  intros line ftype t n col args s s' K. induction K as [|col a args s s' Ha K IH|col a args s s1 s' c q Ha F N K IH]; intros i Hi; [lia|auto|].
  pose proof (nt_len _ _ _ _ N) as L. destruct (Nat.eq_dec i (hlen s)) as [->|Ne]; [|apply IH; lia].
  assert (H : hlen s < hlen s1) by lia. rewrite (sm_row _ _ (gw_same _ _ (kids_grow _ _ _ _ _ _ _ _ K) _ H)).
  apply (new_term_row _ _ _ _ N).
Qed.

Section Background.
Context {Bk : background}.

Lemma row_eff_rows : forall ftype line row s s', pinv s -> row_eff ftype line row s s' ->
  forall i, hlen s <= i < hlen s' -> is_section_cls (t_cls (tget i s')) = false -> t_row (tget i s') = Some line.
Proof.
  intros ftype line row s s' P H i Hi Hc. destruct H as [H1 ->|H1 H2 H3 ->|c H1 H2 H3 H4 ->|p r c q s1 H1 H2 H3 H4 H5 H6 H7].
  - lia.
  - rewrite section_effect_len in Hi. assert (i = hlen s) as -> by lia. rewrite section_effect_new in Hc. discriminate Hc.
  - rewrite header_effect_len in Hi. assert (i = hlen s) as -> by lia.
    rewrite header_effect_get by (try apply (pi_last _ P); lia). rewrite Nat.eqb_refl. reflexivity.
  - pose proof (nt_len _ _ _ _ H6) as L. destruct (Nat.eq_dec i (hlen s)) as [->|Ne].
    + assert (H : hlen s < hlen s1) by lia. rewrite (sm_row _ _ (gw_same _ _ (kids_grow _ _ _ _ _ _ _ _ H7) _ H)).
      apply (new_term_row _ _ _ _ H6).
    + eapply kids_rows; [exact H7|lia].
Qed.

Lemma rows_eff_rows : forall ftype n rows s s', pinv s -> rows_eff ftype n rows s s' -> plain_from n s s'.
Proof.
  intros ftype n rows s s' P H. induction H as [n s|n row rows s s1 s' H1 H2 H3 IH]; intros i Hi Hc; [lia|].
  destruct (Nat.lt_ge_cases i (hlen s1)) as [L|L].
  - destruct (rows_eff_inv _ _ _ _ _ H2 H3) as [_ G]. pose proof (gw_same _ _ G _ L) as M. rewrite (sm_cls _ _ M) in Hc. rewrite (sm_row _ _ M).
    exists n. split; [|lia]. apply (row_eff_rows _ _ _ _ _ P H1); [lia|exact Hc].
  - destruct (IH H2 i) as (k & K1 & K2); [lia|exact Hc|]. exists k. split; [exact K1|lia].
Qed.

(** ** One line of a parsed file *)

(** a term of a line read since *)
Definition from_new (s : st) (l u : nat) : Prop := b_base <= u /\ from_line s l u.

Record row_result (s : st) (v : view) (pd dt : dict tdecl) (p r : string) (raw : string) (cells : list string) (t q : nat) (own : list nat) : Prop := {
  rr_term : new_line s (v_line v) t;
  rr_rt : t_rt (tget t s) = r;
  rr_pt : t_pt (tget t s) = (if eqs p current_parent then v_parent v else p);
  rr_val : t_val (tget t s) = cell_value raw;
  rr_parent : t_parent (tget t s) = Some q;
  rr_q : q < hlen s;
  rr_sec : t_section (tget t s) = dget (v_cur v) (d_sections (s_doc s));
  rr_kid : exists before after, t_children (tget q s) = (before ++ t :: after)%list
     /\ (forall u, In u before -> u < t) /\ (forall u, In u after -> t < u);
  rr_from : forall u, from_new s (v_line v) u <-> u = t \/ In u own;
  rr_nodup : NoDup own;
  rr_tnot : ~ In t own;
  rr_own : map (fun u => (t_rt (tget u s), t_val (tget u s))) own
           = map (fun nc => (fst nc, VStr (snd nc))) (cells_from (v_cols v) 0 cells);
  rr_ownp : forall u, In u own -> t_parent (tget u s) = Some (if eqs p current_parent then q else t) /\ t_pt (tget u s) = r;
  rr_place : exists before after, t_children (tget (if eqs p current_parent then q else t) s) = (before ++ own ++ after)%list
     /\ (forall u, In u before -> u <= t) /\ (forall u, In u after -> t < u /\ ~ In u own)
     /\ (p <> current_parent -> p <> r -> before = []);
  rr_look : let pn := if eqs p current_parent then v_parent v else p in
    if eqs pn "root" then q = d_root (s_doc s)
    else if eqs p r then q = t
    else match assoc pn (v_last v) with
         | Some l => new_line s l q /\ t_rt (tget q s) = pn
         | None => b_known pn = Some q
         end;
  rr_meta : (p <> current_parent -> dget (dotted p r) pd = None) -> (p = current_parent -> dget (dotted p r) pd = None) ->
    (t_pt (tget t s) = "root" -> dget (dotted "root" r) dt = None) ->
    v_vname v <> "" ->
    t_valid (tget t s) = Some false /\ t_cpt (tget t s) = "any" /\ t_tvn (tget t s) = v_vname v;
  rr_valid : p <> current_parent -> t_valid (tget t s) = Some (dmem (dotted p r) pd);
  rr_elided : p = current_parent -> dget (dotted p r) pd = None -> t_valid (tget t s) = Some false;
  rr_later : forall u, from_new s (v_line v) u -> forall w k, from_new s k w -> k < v_line v -> w < u
}.

Lemma init_cell : forall c, init_val (VStr c) = cell_value c.
Proof.
  intros c. unfold cell_value. eqs_cases c "".
  - subst. reflexivity.
  - apply init_val_str. exact E.
Qed.

(** ** Declared meta data *)

Lemma settled_valid : forall s q r, t_valid (settled s q r) =
  Some (dmem (dotted (lower (t_pt r)) (lower (renamed (p_pmap (s_prs s)) (t_rt r)))) (p_dterms (s_prs s))).
Proof.
  intros s q r. unfold settled. destruct (eqs (final_pt s r) "root"); [|reflexivity].
  unfold docmetaF. destruct (_ || _), (_ || _); reflexivity.
Qed.

Lemma settled_undeclared : forall s q r vn,
  dget (dotted (t_pt r) (renamed (p_pmap (s_prs s)) (t_rt r))) (p_dterms (s_prs s)) = None ->
  dget (dotted (lower (t_pt r)) (lower (renamed (p_pmap (s_prs s)) (t_rt r)))) (p_dterms (s_prs s)) = None ->
  (final_pt s r = "root" -> dget (dotted (final_pt s r) (renamed (p_pmap (s_prs s)) (t_rt r))) (d_decl_terms (s_doc s)) = None) ->
  p_dtvn (s_prs s) = vn -> vn <> "" ->
  t_valid (settled s q r) = Some false /\ t_cpt (settled s q r) = "any" /\ t_tvn (settled s q r) = vn.
Proof.
  intros s q r vn A A' B <- C. split; [rewrite settled_valid; unfold dmem; rewrite A'; reflexivity|].
  unfold settled. cbv zeta. set (r1 := set_t_section _ _).
  assert (M : t_cpt (metaF (p_dterms (s_prs s)) (p_dtvn (s_prs s)) r1) = "any" /\ t_tvn (metaF (p_dterms (s_prs s)) (p_dtvn (s_prs s)) r1) = p_dtvn (s_prs s)).
  { unfold metaF, decl_prop. change (tjoin r1) with (dotted (t_pt r) (renamed (p_pmap (s_prs s)) (t_rt r))). rewrite A. split; reflexivity. }
  destruct M as [M1 M2]. set (r2 := metaF _ _ r1) in *.
  eqs_cases (final_pt s r) "root"; [|split; [exact M1|exact M2]].
  specialize (B E). set (r3 := set_t_parent (Some q) (set_t_pt (final_pt s r) r2)).
  unfold docmetaF, decl_prop. change (tjoin (set_t_doc true r3)) with (dotted (final_pt s r) (renamed (p_pmap (s_prs s)) (t_rt r))). rewrite B.
  change (t_cpt (set_t_doc true r3)) with (t_cpt r2). change (t_tvn (set_t_doc true r3)) with (t_tvn r2). rewrite M1, M2.
  change (eqs "any" "" || eqs "any" "any") with true. cbn iota.
  replace (eqs (p_dtvn (s_prs s)) "") with false by (symmetry; apply eqs_false; exact C). cbn [orb].
  eqs_cases (p_dtvn (s_prs s)) (t_dtvn (tget (p_lastsec (s_prs s)) s)).
  - split; [reflexivity|]. symmetry. exact E0.
  - split; [reflexivity|]. exact M2.
Qed.

Lemma elided_not_installed : forall n, dget (dotted ELIDED_TERM n) installed_terms = None.
Proof. reflexivity. Qed.

Lemma row_at : forall decl v pd dt m m' s p r x cells row c q, vinv decl v m -> pinv m' ->
  cells = map strip (skipn 2 row) -> x = nth 1 row "" ->
  r <> current_parent -> r <> "root" -> v_parent v <> current_parent -> py_int r = None ->
  d_root (s_doc s) = d_root (s_doc m) -> p_dterms (s_prs m) = pd -> d_decl_terms (s_doc m) = dt -> dot_free p -> dot_free r -> lower p = p -> lower r = r ->
  term_row None (v_line v) p r row (v_cols v) m m' c q ->
  grow m' s -> plain_from (S (v_line v)) m' s ->
  (forall k i, dget k (d_sections (s_doc m)) = Some i -> dget k (d_sections (s_doc s)) = Some i) ->
  row_result s v pd dt p r x cells (hlen m) q (seq (S (hlen m)) (hlen m' - S (hlen m))).
Proof.
  intros decl v pd dt m m' s p r x cells row c q V P' -> -> Nr1 Nr2 Nv Hi Dr Di Dd Fp Fr Lp Lr T G PF DS.
  set (own := seq (S (hlen m)) (hlen m' - S (hlen m))). set (line := v_line v) in *. pose proof (pi_base _ (vi_pinv _ _ _ V)) as Ba.
  set (R := row_rec c line None p r row) in *.
  pose proof (tr_len _ _ _ _ _ _ _ _ _ _ T) as Lm. pose proof (tr_q _ _ _ _ _ _ _ _ _ _ T) as Hq.
  assert (Own : forall u, In u own <-> S (hlen m) <= u < hlen m') by (intros u; unfold own; rewrite in_seq; lia).
  destruct (tr_get _ _ _ _ _ _ _ _ _ _ T (hlen m) (le_n _)) as (T1 & _ & _ & T2 & _). cbv zeta in T1, T2. rewrite Nat.eqb_refl in T1, T2.
  fold R in T1, T2. fold own in T2.
  destruct (tr_get _ _ _ _ _ _ _ _ _ _ T q Hq) as (Q1 & _ & _ & Q2 & _). cbv zeta in Q1, Q2. rewrite Nat.eqb_refl in Q2. fold R in Q2. fold own in Q2.
  pose proof (settled_fields m q R) as SF. cbv zeta in SF.
  destruct SF as (F1 & F2 & F3 & F4 & F5 & F6 & F7 & F8 & F9 & F10 & F11 & F12 & F13 & F14 & _).
  pose proof (gw_same _ _ G _ Lm) as TS. pose proof (same_trans _ _ _ T1 TS) as TS1.
  pose proof (gw_len _ _ G) as GL.
  assert (LT : line_term s line (hlen m)).
  { unfold line_term. rewrite (sm_cls _ _ TS1), (sm_row _ _ TS1), (sm_col _ _ TS1), F1, F11, F12.
    split; [lia|]. split; [exact (tr_cls _ _ _ _ _ _ _ _ _ _ T)|]. split; reflexivity. }
  assert (OwnS : forall u, In u own -> from_line s line u /\ t_parent (tget u s) = Some (if eqs p ELIDED_TERM then q else hlen m) /\ t_pt (tget u s) = r).
  { intros u Hu. apply Own in Hu. destruct (tr_new _ _ _ _ _ _ _ _ _ _ T u Hu) as (N1 & N2 & _ & N3 & _ & _ & _ & N4).
    assert (Hu' : u < hlen m') by lia. pose proof (gw_same _ _ G _ Hu') as M. unfold from_line.
    rewrite (sm_cls _ _ M), (sm_row _ _ M), (sm_parent _ _ M), (sm_pt _ _ M). repeat split; auto. lia. }
  assert (Late : forall u, hlen m' <= u < hlen s -> is_section_cls (t_cls (tget u s)) = false -> t_row (tget u s) <> Some line).
  { intros u Hu Hc E. destruct (PF u Hu Hc) as (k & K1 & K2). rewrite K1 in E. injection E as ->. lia. }
  assert (Gm : grow m s) by (eapply grow_trans; [eapply term_row_grow; exact T|exact G]).
  assert (Early : forall u k, b_base <= u -> u < hlen m -> is_section_cls (t_cls (tget u s)) = false -> t_row (tget u s) = Some k -> k < line).
  { intros u k Hb Hu Hc E. pose proof (gw_same _ _ Gm _ Hu) as M. rewrite (sm_cls _ _ M) in Hc. rewrite (sm_row _ _ M) in E.
    exact (vi_lines _ _ _ V u k Hb Hu Hc E). }
  split; try change current_parent with ELIDED_TERM.
  - split; [exact Ba|exact LT].
  - rewrite (sm_rt _ _ TS1), F5. change (t_rt R) with r. unfold renamed. rewrite Hi. reflexivity.
  - rewrite (sm_pt _ _ TS1), F4. unfold final_pt. change (t_pt R) with p. rewrite (vi_parent _ _ _ V). reflexivity.
  - rewrite (sm_val _ _ TS1), F6. apply init_cell.
  - rewrite (sm_parent _ _ TS1). exact F2.
  - lia.
  - rewrite (sm_section _ _ TS1), F8. symmetry. apply DS. apply (vi_cur _ _ _ V).
  - destruct (gw_kids _ _ G q) as (ext & X1 & X2); [lia|]. rewrite X1, Q2. 
    exists (t_children (if q =? hlen m then settled m q R else tget q m)), ((if q =? (if eqs p ELIDED_TERM then q else hlen m) then own else []) ++ ext)%list.
    split; [rewrite <- !app_assoc; reflexivity|]. split.
    + destruct (Nat.eqb_spec q (hlen m)) as [->|Nq]; [rewrite F13; intros u []|]. intros u Hu. apply (pi_kids _ (vi_pinv _ _ _ V)) in Hu; lia.
    + intros u Hu. apply in_app_iff in Hu. destruct Hu as [Hu|Hu].
      * destruct (q =? _) in Hu; [apply Own in Hu; lia|destruct Hu].
      * rewrite Forall_forall in X2. apply X2 in Hu. lia.
  - intros u. split.
    + intros (U0 & U1 & U2 & U3). destruct (Nat.lt_trichotomy u (hlen m)) as [L|[->|L]]; [|auto|].
      * pose proof (Early u line U0 L U2 U3). lia.
      * right. apply Own. destruct (Nat.lt_ge_cases u (hlen m')) as [L'|L']; [lia|].
        exfalso. apply (Late u); auto.
    + intros [->|Hu]; [|split; [apply Own in Hu; lia|apply OwnS; exact Hu]]. destruct LT as (A & B & C & _). repeat split; assumption.
  - apply seq_NoDup.
  - rewrite Own. lia.
  - rewrite <- (tr_cells _ _ _ _ _ _ _ _ _ _ T). fold own. apply map_ext_in. intros u Hu. apply Own in Hu.
    assert (Hu' : u < hlen m') by lia. pose proof (gw_same _ _ G _ Hu') as M. rewrite (sm_rt _ _ M), (sm_val _ _ M). reflexivity.
  - intros u Hu. split; [apply OwnS; exact Hu|]. apply (OwnS u Hu).
  - destruct (gw_kids _ _ G (if eqs p ELIDED_TERM then q else hlen m)) as (ext & X1 & X2); [destruct (eqs p ELIDED_TERM); lia|].
    rewrite X1. rewrite Forall_forall in X2.
    assert (XX : forall u, In u ext -> hlen m < u /\ ~ In u own).
    { intros u Hu. apply X2 in Hu. rewrite Own. split; lia. }
    eqs_cases p ELIDED_TERM.
    + rewrite Q2. rewrite Nat.eqb_refl. eexists _, ext. rewrite (app_assoc _ [hlen m]). rewrite <- app_assoc. split; [reflexivity|].
      split; [|split; [exact XX|congruence]].
      intros u Hu. apply in_app_iff in Hu. destruct Hu as [Hu|Hu]; [|destruct Hu as [<-|[]]; lia].
      destruct (Nat.eqb_spec q (hlen m)) as [->|Nq]; [rewrite F13 in Hu; destruct Hu|]. apply (pi_kids _ (vi_pinv _ _ _ V)) in Hu; lia.
    + rewrite T2. rewrite F13. change (t_children R) with (@nil nat). cbn [app]. rewrite Nat.eqb_refl.
      eexists _, ext. rewrite <- app_assoc. split; [reflexivity|]. split; [|split; [exact XX|]].
      * intros u Hu. destruct (hlen m =? q); [destruct Hu as [<-|[]]; lia|destruct Hu].
      * intros _ Np. destruct (Nat.eqb_spec (hlen m) q) as [<-|]; [|reflexivity].
        exfalso. pose proof (tr_look _ _ _ _ _ _ _ _ _ _ T) as Lk. apply eqs_false in E. rewrite E in Lk.
        apply eqs_false in Np. rewrite Np in Lk. apply (pi_tmap _ (vi_pinv _ _ _ V)) in Lk. lia.
  - assert (Old : forall n, n <> "root" -> n <> ELIDED_TERM -> dget n (p_tmap (s_prs m)) = Some q ->
      match assoc n (v_last v) with Some l => new_line s l q /\ t_rt (tget q s) = n | None => b_known n = Some q end).
    { intros n N1 N2 Dn. pose proof (vi_last _ _ _ V n N1 N2) as VL. destruct (assoc n (v_last _)) as [l|]; [|congruence].
      destruct VL as (q' & A & B & C). rewrite Dn in A. injection A as <-.
      split; [eapply new_line_grow; [exact Gm|exact B]|]. rewrite (sm_rt _ _ (gw_same _ _ Gm _ (proj1 (proj2 B)))). exact C. }
    assert (OldR : dget "root" (p_tmap (s_prs m)) = Some q -> q = d_root (s_doc s)).
    { intros H. rewrite (pi_rootmap _ (vi_pinv _ _ _ V)) in H. injection H as <-. symmetry. exact Dr. }
    pose proof (tr_look _ _ _ _ _ _ _ _ _ _ T) as Lk. rewrite (vi_parent _ _ _ V) in Lk. cbv zeta.
    eqs_cases p ELIDED_TERM.
    + eqs_cases (v_parent v) "root"; [apply OldR; rewrite <- E0; exact Lk|].
      eqs_cases p r; [exfalso; apply Nr1; rewrite <- E1; exact E|]. apply Old; assumption.
    + eqs_cases p "root".
      * replace (eqs p r) with false in Lk by (symmetry; apply eqs_false; congruence). apply OldR. rewrite <- E0. exact Lk.
      * eqs_cases p r; [exact Lk|]. apply Old; assumption.
  - intros A A' B C. rewrite (sm_valid _ _ TS1), (sm_cpt _ _ TS1), (sm_tvn _ _ TS1). rewrite (sm_pt _ _ TS1), F4 in B.
    apply settled_undeclared.
    + rewrite Di. change (t_pt R) with p. change (t_rt R) with r. unfold renamed. rewrite Hi.
      eqs_cases p ELIDED_TERM; [apply A'; exact E|]. apply A. exact E.
    + rewrite Di. change (t_pt R) with p. change (t_rt R) with r. unfold renamed. rewrite Hi, Lp, Lr.
      eqs_cases p ELIDED_TERM; [apply A'; exact E|]. apply A. exact E.
    + intros H. rewrite Dd. change (t_rt R) with r. unfold renamed. rewrite Hi. rewrite H. apply B. exact H.
    + apply (vi_vname _ _ _ V).
    + exact C.
  - intros A. rewrite (sm_valid _ _ TS1), settled_valid, Di. change (t_pt R) with p. change (t_rt R) with r. unfold renamed. rewrite Hi, Lp, Lr. reflexivity.
  - intros A A'. rewrite (sm_valid _ _ TS1), settled_valid, Di. change (t_pt R) with p. change (t_rt R) with r. unfold renamed. rewrite Hi, Lp, Lr.
    unfold dmem. rewrite A'. reflexivity.
  - intros u (U0 & U1 & U2 & U3) w k (W0 & W1 & W2 & W3) K.
    assert (U : hlen m <= u).
    { destruct (Nat.lt_ge_cases u (hlen m)) as [L|L]; [|exact L]. pose proof (Early u line U0 L U2 U3). lia. }
    assert (W : w < hlen m); [|lia]. destruct (Nat.lt_ge_cases w (hlen m)) as [L|L]; [exact L|exfalso].
    destruct (Nat.lt_ge_cases w (hlen m')) as [L'|L'].
    + assert (A : t_row (tget w s) = Some line); [|rewrite W3 in A; injection A as ->; lia].
      destruct (Nat.eq_dec w (hlen m)) as [->|]; [apply LT|apply OwnS; apply Own; lia].
    + destruct (PF w) as (k' & K1 & K2); [lia|exact W2|]. rewrite W3 in K1. injection K1 as <-. lia.
Qed.

(** sections are kept *)
Lemma row_eff_dsec : forall ftype line row s s' k i, row_eff ftype line row s s' ->
  dget k (d_sections (s_doc s)) = Some i -> dget k (d_sections (s_doc s')) = Some i.
Proof.
  intros ftype line row s s' k i H D. destruct H as [H1 ->|H1 H2 H3 ->|c H1 H2 H3 H4 ->|p r c q s1 H1 H2 H3 H4 H5 H6 H7].
  - exact D.
  - unfold section_effect. destruct (dget (lower (strip _)) _) as [j|] eqn:E.
    + rewrite enter_doc. exact D.
    + rewrite doc_dmod, enter_doc. cbn [d_sections set_d_sections]. rewrite dget_dset. eqs_cases k (lower (strip (nth 1 row ""))); [congruence|exact D].
  - exact D.
  - assert (K : forall line ftype t n col args a b, kids line ftype t n col args a b -> d_sections (s_doc b) = d_sections (s_doc a)).
    { intros ? ? ? ? ? ? a b K. induction K as [| |? ? ? a a1 a' ? ? ? F N K IH]; auto. rewrite IH, (nt_doc _ _ _ _ N). destruct (eqs _ _); reflexivity. }
    rewrite (K _ _ _ _ _ _ _ _ H7), (nt_doc _ _ _ _ H6). destruct (eqs _ _); exact D.
Qed.

Lemma rows_eff_dsec : forall ftype n rows s s' k i, rows_eff ftype n rows s s' ->
  dget k (d_sections (s_doc s)) = Some i -> dget k (d_sections (s_doc s')) = Some i.
Proof. intros ftype n rows s s' k i H. induction H; auto. intros D. apply IHrows_eff. eapply row_eff_dsec; eassumption. Qed.

Lemma row_eff_root : forall ftype line row s s', row_eff ftype line row s s' -> d_root (s_doc s') = d_root (s_doc s).
Proof.
  intros ftype line row s s' H. destruct H as [H1 ->|H1 H2 H3 ->|c H1 H2 H3 H4 ->|p r c q s1 H1 H2 H3 H4 H5 H6 H7].
  - reflexivity.
  - unfold section_effect. destruct (dget (lower (strip _)) _) as [j|] eqn:E; [|rewrite doc_dmod]; rewrite enter_doc; reflexivity.
  - reflexivity.
  - assert (K : forall line ftype t n col args a b, kids line ftype t n col args a b -> d_root (s_doc b) = d_root (s_doc a)).
    { intros ? ? ? ? ? ? a b K. induction K as [| |? ? ? a a1 a' ? ? ? F N K IH]; auto. rewrite IH, (nt_doc _ _ _ _ N). destruct (eqs _ _); reflexivity. }
    rewrite (K _ _ _ _ _ _ _ _ H7), (nt_doc _ _ _ _ H6). destruct (eqs _ _); reflexivity.
Qed.
Lemma rows_eff_root : forall ftype n rows s s', rows_eff ftype n rows s s' -> d_root (s_doc s') = d_root (s_doc s).
Proof. intros ftype n rows s s' H. induction H; auto. rewrite IHrows_eff. eapply row_eff_root; eassumption. Qed.

Lemma grow_finished : forall m s s', grow m s -> finished s s' -> grow m s'.
Proof.
  intros m s s' G F. assert (T : forall i, tget i s' = tget i s) by (intros i; unfold tget; rewrite (fi_heap _ _ F); reflexivity).
  assert (L : hlen s' = hlen s) by (unfold hlen; rewrite (fi_heap _ _ F); reflexivity).
  destruct G as [G1 G2 G3 G4]. split; [lia|..]; intros i Hi; rewrite T; auto.
Qed.
Lemma plain_from_finished : forall n m s s', plain_from n m s -> finished s s' -> plain_from n m s'.
Proof.
  intros n m s s' P F i Hi. assert (T : tget i s' = tget i s) by (unfold tget; rewrite (fi_heap _ _ F); reflexivity).
  assert (L : hlen s' = hlen s) by (unfold hlen; rewrite (fi_heap _ _ F); reflexivity). rewrite T. apply P. lia.
Qed.

Lemma view_line : forall decl ls, v_line (view_after decl ls) = S (List.length ls).
Proof.
  intros decl ls. assert (A : forall ls v, v_line (fold_left (next decl) ls v) = v_line v + List.length ls).
  { clear ls. induction ls as [|x ls IH]; intros v; cbn [fold_left List.length]; [lia|]. rewrite IH, next_line. lia. }
  unfold view_after. rewrite A. reflexivity.
Qed.

Lemma Forall2_len : forall {A B} (R : A -> B -> Prop) l l', Forall2 R l l' -> List.length l = List.length l'.
Proof. intros A B R l l' H. induction H; cbn; congruence. Qed.

Lemma means_split : forall rows lpre l lpost, means rows (lpre ++ l :: lpost) ->
  exists pre row post, rows = (pre ++ row :: post)%list /\ Forall2 reads pre lpre /\ reads row l /\ Forall2 reads post lpost
    /\ Forall usual (lpre ++ l :: lpost).
Proof.
  intros rows lpre l lpost [R U]. apply Forall2_app_inv_r in R. destruct R as (pre & rest & R1 & R2 & ->).
  inversion R2 as [|row ? post ? R3 R4]; subst. exists pre, row, post. repeat split; auto.
Qed.

(** ** Views *)

Lemma view_snoc : forall decl ls l, view_after decl (ls ++ [l]) = next decl (view_after decl ls) l.
Proof. intros. unfold view_after. rewrite fold_left_app. reflexivity. Qed.

Lemma fold_parent : forall decl ls v, Forall usual ls -> v_parent v <> current_parent -> v_parent (fold_left (next decl) ls v) <> current_parent.
Proof.
  intros decl ls. induction ls as [|l ls IH]; intros v U N; [exact N|]. inversion U as [|? ? U1 U2]; subst. cbn [fold_left]. apply IH; [exact U2|].
  destruct l as [|n cells|n cells|p r x cells]; cbn [next v_parent]; try exact N.
  - destruct (eqs _ _); cbn [v_parent]; [exact N|discriminate].
  - destruct (eqs p current_parent); cbn [v_parent]; [exact N|apply U1].
Qed.

Lemma view_parent : forall decl ls, Forall usual ls -> v_parent (view_after decl ls) <> current_parent
  /\ (v_parent (view_after decl ls) = "root" \/ exists l, assoc (v_parent (view_after decl ls)) (v_last (view_after decl ls)) = Some l).
Proof.
  intros decl ls. induction ls as [|l ls IH] using rev_ind; intros U.
  - split; [discriminate|left; reflexivity].
  - apply Forall_app in U. destruct U as [U Ul]. inversion Ul as [|? ? Ul1 _]; subst. specialize (IH U). rewrite view_snoc.
    set (v := view_after decl ls) in *. destruct l as [|n cells|n cells|p r x cells]; cbn [next v_parent v_last].
    + exact IH.
    + destruct (eqs _ _); cbn [v_parent v_last]; [exact IH|]. split; [discriminate|left; reflexivity].
    + exact IH.
    + destruct (eqs p current_parent); cbn [v_parent v_last]; [exact IH|]. split; [apply Ul1|]. right. rewrite assoc_cons.
      replace (eqs r r) with true by (symmetry; apply eqs_true; reflexivity). eauto.
Qed.

Lemma last_uses : forall decl p ls l, assoc p (v_last (view_after decl ls)) = Some l <-> most_recent p ls l.
Proof.
  intros decl p ls. induction ls as [|y ls IH] using rev_ind; intros l.
  - split; [discriminate|]. intros (pre & x & post & E & _). destruct pre; discriminate E.
  - assert (Other : ~ uses p y -> most_recent p (ls ++ [y]) l <-> most_recent p ls l).
    { intros N. split; intros (pre & x & post & E & A & B & C).
      - destruct post as [|z post _] using rev_ind.
        + apply app_inj_tail in E. destruct E as [-> ->]. contradiction.
        + exists pre, x, post. rewrite app_comm_cons, app_assoc in E. apply app_inj_tail in E. destruct E as [-> ->].
          apply Forall_app in C. repeat split; try assumption. apply C.
      - exists pre, x, (post ++ [y])%list. rewrite E, <- app_assoc. repeat split; try assumption.
        apply Forall_app. split; [exact C|constructor; auto]. }
    rewrite view_snoc. set (v := view_after decl ls) in *.
    destruct y as [|n cells|n cells|q r x cells]; cbn [next v_last].
    + rewrite Other; [apply IH|]. intros (? & ? & ? & ? & _). discriminate.
    + rewrite Other; [|intros (? & ? & ? & ? & _); discriminate]. destruct (eqs _ _); cbn [v_last]; apply IH.
    + rewrite Other; [apply IH|]. intros (? & ? & ? & ? & _). discriminate.
    + eqs_cases q current_parent; cbn [v_last].
      * rewrite Other; [apply IH|]. intros (? & ? & ? & H & N). injection H as <- _ _ _. contradiction.
      * rewrite assoc_cons. eqs_cases r p.
        -- subst r. unfold v. rewrite view_line. split.
           ++ intros H. injection H as <-. exists ls, (LTerm q p x cells), []. repeat split; auto. exists q, x, cells. auto.
           ++ intros (pre & x' & post & E1 & A & B & C). subst l. f_equal. f_equal.
              destruct post as [|z post _] using rev_ind.
              ** apply app_inj_tail in E1. destruct E1 as [-> _]. reflexivity.
              ** exfalso. rewrite app_comm_cons, app_assoc in E1. apply app_inj_tail in E1. destruct E1 as [_ <-].
                 apply Forall_app in C. destruct C as [_ C]. inversion C as [|? ? C1 _]; subst. apply C1. exists q, x, cells. auto.
        -- rewrite Other; [apply IH|]. intros (? & ? & ? & H & N). injection H as _ <- _ _. contradiction.
Qed.

(** ** Declarations stay as they are *)

Lemma row_eff_decl : forall ftype line row s s', row_eff ftype line row s s' ->
  p_dterms (s_prs s') = p_dterms (s_prs s) /\ d_decl_terms (s_doc s') = d_decl_terms (s_doc s).
Proof.
  intros ftype line row s s' H. destruct H as [H1 ->|H1 H2 H3 ->|c H1 H2 H3 H4 ->|p r c q s1 H1 H2 H3 H4 H5 H6 H7].
  - auto.
  - unfold section_effect. set (s1 := push _ s). assert (E : forall i, p_dterms (s_prs (enter_section i s1)) = p_dterms (s_prs s)).
    { intros i. unfold enter_section. destruct (i =? _); reflexivity. }
    destruct (dget _ _); [|rewrite doc_dmod, prs_dmod]; rewrite enter_doc, E; split; reflexivity.
  - auto.
  - assert (N : forall a r q b, new_term a r q b -> p_dterms (s_prs b) = p_dterms (s_prs a) /\ d_decl_terms (s_doc b) = d_decl_terms (s_doc a)).
    { intros a r0 q0 b N. rewrite (nt_doc _ _ _ _ N), (nt_prs _ _ _ _ N). destruct (eqs _ _), (registers _); split; reflexivity. }
    assert (K : forall line ftype t n col args a b, kids line ftype t n col args a b ->
       p_dterms (s_prs b) = p_dterms (s_prs a) /\ d_decl_terms (s_doc b) = d_decl_terms (s_doc a)).
    { intros ? ? ? ? ? ? a b K. induction K as [| |? ? ? a a1 a' ? ? ? F N0 K IH]; auto. apply N in N0. destruct IH, N0. split; congruence. }
    apply K in H7. apply N in H6. destruct H6, H7. split; congruence.
Qed.
Lemma rows_eff_decl : forall ftype n rows s s', rows_eff ftype n rows s s' ->
  p_dterms (s_prs s') = p_dterms (s_prs s) /\ d_decl_terms (s_doc s') = d_decl_terms (s_doc s).
Proof.
  intros ftype n rows s s' H. induction H as [|n row rows s s1 s' H1 H2 H3 IH]; auto. apply row_eff_decl in H1. destruct H1, IH. split; congruence.
Qed.

(** what a row read from a known state gives *)
Lemma row_spec : forall decl v0 pre row post lpre p r x cells lpost s0 s1 s, vinv decl v0 s0 -> v_parent v0 <> current_parent ->
  Forall2 reads pre lpre -> reads row (LTerm p r x cells) -> Forall2 reads post lpost ->
  Forall usual (lpre ++ LTerm p r x cells :: lpost) -> Forall greets (lpre ++ LTerm p r x cells :: lpost) ->
  rows_eff None (v_line v0) (pre ++ row :: post) s0 s1 -> finished s1 s ->
  exists t q own, row_result s (fold_left (next decl) lpre v0) (p_dterms (s_prs s0)) (d_decl_terms (s_doc s0)) p r (nth 1 row "") cells t q own.
Proof.
  intros decl v0 pre row post lpre p r x cells lpost s0 s1 s V0 Np R1 R2 R3 U Gr RE0 F.
  destruct (rows_at _ _ None _ _ _ _ _ _ _ _ ltac:(discriminate) V0 R1 R2 R3 U Gr RE0) as (m & m' & REa & V & RE & P' & V' & RE2 & G & V1).
  pose proof (Forall2_len _ _ _ R1) as Len.
  assert (Ul : usual (LTerm p r x cells)) by (apply Forall_app in U; destruct U as [_ U]; inversion U; assumption).
  assert (Ln : v_line (fold_left (next decl) lpre v0) = v_line v0 + List.length pre) by (rewrite fold_line, Len; reflexivity).
  rewrite <- Ln in RE, RE2.
  assert (Ft : @None string <> Some "declare") by discriminate.
  destruct (vinv_row _ _ _ _ _ _ _ Ft V P' R2 Ul Logic.I RE) as [_ T]. destruct (T p r x cells eq_refl) as (c & q & T'). clear T.
  exists (hlen m), q, (seq (S (hlen m)) (hlen m' - S (hlen m))).
  inversion R2 as [|? ?|? ?|? ? NB CN Hx]; subst.
  assert (CN' : dot_free p /\ dot_free r /\ lower p = p /\ lower r = r) by (pose proof (cell_names_tidy _ _ _ CN); tauto).
  eapply (row_at _ _ _ _ m m' s p r (nth 1 row "") _ row c q); try eassumption; try reflexivity.
  - apply Ul.
  - apply Ul.
  - apply Forall_app in U. apply fold_parent; [apply U|exact Np].
  - apply Ul.
  - rewrite (fi_root _ _ F), (rows_eff_root _ _ _ _ _ RE2). eapply row_eff_root. exact RE.
  - apply (proj1 (rows_eff_decl _ _ _ _ _ REa)).
  - apply (proj2 (rows_eff_decl _ _ _ _ _ REa)).
  - apply CN'.
  - apply CN'.
  - apply CN'.
  - apply CN'.
  - eapply grow_finished; eassumption.
  - eapply plain_from_finished; [|exact F]. eapply rows_eff_rows; eassumption.
  - intros k i D. rewrite (fi_sections _ _ F). eapply rows_eff_dsec; [exact RE2|]. eapply row_eff_dsec; eassumption.
Qed.

End Background.

(** *** In a new document *)

Record line_result (s : st) (decl : string -> list string) (dt : dict tdecl) (ls : list line) (p r : string) (raw : string) (cells : list string) (t q : nat) (own : list nat) : Prop := {
  lr_term : line_term s (S (List.length ls)) t;
  lr_rt : t_rt (tget t s) = r;
  lr_pt : t_pt (tget t s) = (if eqs p current_parent then v_parent (view_after decl ls) else p);
  lr_val : t_val (tget t s) = cell_value raw;
  lr_parent : t_parent (tget t s) = Some q;
  lr_q : q < hlen s;
  lr_sec : t_section (tget t s) = dget (v_cur (view_after decl ls)) (d_sections (s_doc s));
  lr_kid : exists before after, t_children (tget q s) = (before ++ t :: after)%list
     /\ (forall u, In u before -> u < t) /\ (forall u, In u after -> t < u);
  lr_from : forall u, from_line s (S (List.length ls)) u <-> u = t \/ In u own;
  lr_nodup : NoDup own;
  lr_tnot : ~ In t own;
  lr_own : map (fun u => (t_rt (tget u s), t_val (tget u s))) own
           = map (fun nc => (fst nc, VStr (snd nc))) (cells_from (v_cols (view_after decl ls)) 0 cells);
  lr_ownp : forall u, In u own -> t_parent (tget u s) = Some (if eqs p current_parent then q else t) /\ t_pt (tget u s) = r;
  lr_place : exists before after, t_children (tget (if eqs p current_parent then q else t) s) = (before ++ own ++ after)%list
     /\ (forall u, In u before -> u <= t) /\ (forall u, In u after -> t < u /\ ~ In u own)
     /\ (p <> current_parent -> p <> r -> before = []);
  lr_look : let pn := if eqs p current_parent then v_parent (view_after decl ls) else p in
    if eqs pn "root" then q = d_root (s_doc s)
    else if eqs p r then q = t
    else exists l, assoc pn (v_last (view_after decl ls)) = Some l /\ line_term s l q /\ t_rt (tget q s) = pn;
  lr_meta : (p <> current_parent -> dget (dotted p r) installed_terms = None) ->
    (t_pt (tget t s) = "root" -> dget (dotted "root" r) dt = None) ->
    v_vname (view_after decl ls) <> "" ->
    t_valid (tget t s) = Some false /\ t_cpt (tget t s) = "any" /\ t_tvn (tget t s) = v_vname (view_after decl ls);
  lr_valid : p <> current_parent -> t_valid (tget t s) = Some (dmem (dotted p r) installed_terms);
  lr_elided : p = current_parent -> t_valid (tget t s) = Some false;
  lr_later : forall u, from_line s (S (List.length ls)) u -> forall v k, from_line s k v -> k < S (List.length ls) -> v < u
}.

Lemma from_new_line : forall s l u, from_new s l u <-> from_line s l u.
Proof. intros s l u. unfold from_new. cbn [b_base no_background]. split; [intros H; apply H|intros H; split; [lia|exact H]]. Qed.

Lemma row_result_line : forall s decl dt ls p r raw cells t q own,
  row_result s (view_after decl ls) installed_terms dt p r raw cells t q own -> line_result s decl dt ls p r raw cells t q own.
Proof.
  intros s decl dt ls p r raw cells t q own R. pose proof (view_line decl ls) as Ln.
  split; try (rewrite <- Ln); try apply R.
  - intros u. rewrite <- from_new_line. apply R.
  - pose proof (rr_look _ _ _ _ _ _ _ _ _ _ _ R) as K. cbv zeta in *. destruct (eqs _ "root"); [exact K|]. destruct (eqs p r); [exact K|].
    destruct (assoc _ _) as [l|]; [|discriminate K]. destruct K as [K1 K2]. exists l. split; [reflexivity|]. split; [exact (proj1 (new_line_term _ _ _) K1)|exact K2].
  - intros A B C. apply (rr_meta _ _ _ _ _ _ _ _ _ _ _ R A); [|exact B|exact C]. intros ->. apply elided_not_installed.
  - intros A. apply (rr_elided _ _ _ _ _ _ _ _ _ _ _ R A). rewrite A. apply elided_not_installed.
  - intros u Hu w k Hw. apply from_new_line in Hu, Hw. apply (rr_later _ _ _ _ _ _ _ _ _ _ _ R u Hu w k Hw).
Qed.

(** what a line of a file gives *)
Lemma line_spec : forall g rows lpre p r x cells lpost s, proper g ->
  means rows (lpre ++ LTerm p r x cells :: lpost) -> loads g rows s ->
  exists row t q own, nth_error rows (List.length lpre) = Some row /\ line_result s (cols_of g) (in_terms g) lpre p r (nth 1 row "") cells t q own.
Proof.
  intros g rows lpre p r x cells lpost s [GR ND] M L. apply means_split in M.
  destruct M as (pre & row & post & -> & R1 & R2 & R3 & U). unfold loads, load_into in L.
  assert (RA : Forall2 reads (pre ++ row :: post) (lpre ++ LTerm p r x cells :: lpost)) by (apply Forall2_app; [exact R1|constructor; assumption]).
  destruct (parse_rows_eff _ _ _ _ _ _ _ _ _ _ _ GR ND RA U L) as (s1 & RE & F & _).
  pose proof (Forall2_len _ _ _ R1) as Len.
  destruct (row_spec _ first_view _ _ _ _ _ _ _ _ _ _ _ _ (first_vinv _ _ _ _ GR ND) ltac:(discriminate) R1 R2 R3 U (greets_each _) RE F) as (t & q & own & R).
  exists row, t, q, own. split.
  { rewrite <- Len. rewrite nth_error_app2 by lia. rewrite Nat.sub_diag. reflexivity. }
  apply row_result_line. exact R.
Qed.

(** ** Sections of the view *)

Lemma headings_snoc : forall ls l, headings (ls ++ [l]) = (headings ls ++ heading_name l)%list.
Proof. intros. unfold headings. rewrite map_app, concat_app. cbn. rewrite app_nil_r. reflexivity. Qed.

Lemma view_cur : forall decl ls, v_cur (view_after decl ls) = current_heading ls.
Proof.
  intros decl ls. induction ls as [|l ls IH] using rev_ind; [reflexivity|]. rewrite view_snoc. unfold current_heading. rewrite headings_snoc.
  destruct l as [|n cells|n cells|p r x cells]; cbn [next v_cur heading_name]; rewrite ?app_nil_r; try exact IH.
  - rewrite last_last. eqs_cases (lower (strip n)) "root"; [symmetry; exact E|reflexivity].
  - destruct (eqs p current_parent); exact IH.
Qed.

Lemma view_tops : forall decl ls l k, In (l, k) (v_tops (view_after decl ls)) <->
  exists pre x post, ls = (pre ++ x :: post)%list /\ l = S (List.length pre) /\ root_level decl pre x /\ k = current_heading pre.
Proof.
  intros decl ls. induction ls as [|y ls IH] using rev_ind; intros l k.
  - split; [intros []|]. intros (pre & x & post & E & _). destruct pre; discriminate E.
  - rewrite view_snoc. set (v := view_after decl ls) in *.
    assert (Step : (exists pre x post, (ls ++ [y])%list = (pre ++ x :: post)%list /\ l = S (List.length pre) /\ root_level decl pre x /\ k = current_heading pre)
      <-> (exists pre x post, ls = (pre ++ x :: post)%list /\ l = S (List.length pre) /\ root_level decl pre x /\ k = current_heading pre)
          \/ (l = S (List.length ls) /\ root_level decl ls y /\ k = current_heading ls)).
    { split.
      - intros (pre & x & post & E & A). destruct post as [|z post _] using rev_ind.
        + apply app_inj_tail in E. destruct E as [-> ->]. right. exact A.
        + rewrite app_comm_cons, app_assoc in E. apply app_inj_tail in E. destruct E as [-> ->]. left. exists pre, x, post. auto.
      - intros [(pre & x & post & E & A)|A].
        + exists pre, x, (post ++ [y])%list. rewrite E, <- app_assoc. split; [reflexivity|exact A].
        + exists ls, y, []. split; [reflexivity|exact A]. }
    rewrite Step, <- IH. clear Step.
    assert (Same : ~ root_level decl ls y -> In (l, k) (v_tops v) <-> In (l, k) (v_tops v) \/ (l = S (List.length ls) /\ root_level decl ls y /\ k = current_heading ls)) by tauto.
    assert (New : forall b, (b = true <-> root_level decl ls y) ->
       In (l, k) (v_tops v ++ (if b : bool then [(v_line v, v_cur v)] else [])) <-> In (l, k) (v_tops v) \/ (l = S (List.length ls) /\ root_level decl ls y /\ k = current_heading ls)).
    { intros b Hb. rewrite in_app_iff. apply or_iff_compat_l. unfold v. rewrite view_line, view_cur. rewrite <- Hb. destruct b.
      - cbn [In]. split; [intros [A|[]]; injection A as <- <-; auto|intros (-> & _ & ->); auto].
      - cbn [In]. split; [tauto|intros (_ & A & _); discriminate]. }
    destruct y as [|n cells|n cells|p r x cells]; cbn [next v_tops].
    + apply Same. intros (? & ? & ? & ? & H & _). discriminate.
    + destruct (eqs _ _); cbn [v_tops]; apply Same; intros (? & ? & ? & ? & H & _); discriminate.
    + apply Same. intros (? & ? & ? & ? & H & _). discriminate.
    + eqs_cases p current_parent; cbn [v_tops]; apply New.
      * rewrite eqs_true. split.
        -- intros H. exists p, r, x, cells. split; [reflexivity|]. right. split; [exact E|exact H].
        -- intros (p' & r' & x' & c' & H & [A|[_ A]]); [|exact A]. injection H as <- _ _ _. subst p. discriminate A.
      * rewrite eqs_true. split.
        -- intros H. exists p, r, x, cells. split; [reflexivity|]. left. exact H.
        -- intros (p' & r' & x' & c' & H & [A|[A _]]); injection H as <- _ _ _; [exact A|contradiction].
Qed.

(** the root-level lines are listed in order *)
Lemma view_tops_sorted : forall decl ls, StronglySorted lt (map fst (v_tops (view_after decl ls)))
  /\ Forall (fun x => fst x <= List.length ls) (v_tops (view_after decl ls)).
Proof.
  intros decl ls. induction ls as [|y ls [I1 I2]] using rev_ind.
  - split; constructor.
  - rewrite view_snoc, app_length. cbn [List.length]. set (v := view_after decl ls) in *.
    assert (I2' : Forall (fun x => fst x <= List.length ls + 1) (v_tops v)) by (eapply Forall_impl; [|exact I2]; cbn; intros; lia).
    assert (New : forall b, StronglySorted lt (map fst (v_tops v ++ (if b : bool then [(v_line v, v_cur v)] else [])))
       /\ Forall (fun x => fst x <= List.length ls + 1) (v_tops v ++ (if b : bool then [(v_line v, v_cur v)] else []))).
    { intros [|]; [|rewrite app_nil_r; auto]. unfold v at 2 5. rewrite view_line. split.
      - rewrite map_app. cbn [map fst]. clear I2'. revert I1 I2. induction (v_tops v) as [|a l IHl]; cbn [map app].
        + intros _ _. constructor; constructor.
        + intros S1 F1. inversion S1; subst. inversion F1; subst. constructor.
          * apply IHl; assumption.
          * apply Forall_app. split; [assumption|constructor; [lia|constructor]].
      - apply Forall_app. split; [exact I2'|constructor; [cbn; lia|constructor]]. }
    destruct y as [|n cells|n cells|p r x cells]; cbn [next v_tops]; auto.
    + destruct (eqs _ _); cbn [v_tops]; auto.
    + destruct (eqs p current_parent); cbn [v_tops]; apply New.
Qed.

Lemma mem_str_true : forall x l, In x l -> mem_str x l = true.
Proof. intros x l H. unfold mem_str. apply existsb_exists. exists x. split; [exact H|apply eqs_true; reflexivity]. Qed.

Lemma firsts_in : forall l x, In x (firsts l) <-> In x l.
Proof.
  induction l as [|a l IH]; intros x; cbn [firsts In]; [tauto|]. rewrite filter_In, IH, negb_true_iff, eqs_false.
  destruct (eqs a x) eqn:E; [apply eqs_true in E|apply eqs_false in E]; intuition congruence.
Qed.
Lemma firsts_nodup : forall l, NoDup (firsts l).
Proof.
  induction l as [|a l IH]; cbn [firsts]; constructor.
  - rewrite filter_In, negb_true_iff, eqs_false. tauto.
  - apply NoDup_filter. exact IH.
Qed.
Lemma firsts_snoc : forall l x, firsts (l ++ [x]) = if mem_str x l then firsts l else (firsts l ++ [x])%list.
Proof.
  induction l as [|a l IH]; intros x; [reflexivity|]. cbn [app firsts mem_str existsb]. rewrite IH.
  fold (mem_str x l). rewrite (eqs_sym x a). destruct (mem_str x l) eqn:M; [rewrite orb_true_r; reflexivity|]. rewrite orb_false_r, filter_app. cbn [filter].
  rewrite (eqs_sym x a). destruct (eqs a x); cbn [negb]; [rewrite app_nil_r|]; reflexivity.
Qed.

Lemma view_secs : forall decl ls, map fst (v_secs (view_after decl ls)) = firsts ("root" :: headings ls).
Proof.
  intros decl ls. induction ls as [|y ls IH] using rev_ind; [reflexivity|].
  rewrite view_snoc, headings_snoc, app_comm_cons. set (v := view_after decl ls) in *.
  destruct y as [|n cells|n cells|p r x cells]; cbn [next v_secs heading_name]; rewrite ?app_nil_r; try exact IH.
  - rewrite firsts_snoc. eqs_cases (lower (strip n)) "root"; cbn [v_secs].
    + rewrite E. cbn [mem_str existsb]. change (eqs "root" "root") with true. exact IH.
    + destruct (assoc (lower (strip n)) (v_secs v)) as [c|] eqn:A.
      * rewrite mem_str_true; [exact IH|]. rewrite <- firsts_in, <- IH. destruct (in_dec string_dec (lower (strip n)) (map fst (v_secs v))) as [I|I]; [exact I|].
        apply assoc_keys in I. congruence.
      * rewrite mem_str_false; [rewrite map_app, IH; reflexivity|]. rewrite <- firsts_in, <- IH. apply assoc_keys. exact A.
  - destruct (eqs p current_parent); exact IH.
Qed.

(** the columns of a section are those of its first heading *)
Lemma view_first_cols : forall decl ls k c, k <> "root" -> assoc k (v_secs (view_after decl ls)) = Some c ->
  exists pre n cells post, ls = (pre ++ LSection n cells :: post)%list /\ lower (strip n) = k /\ ~ In k (headings pre)
    /\ c = match cells with [] => map strip (decl n) | _ => cells end.
Proof.
  intros decl ls k c Nk. induction ls as [|y ls IH] using rev_ind.
  - change (v_secs (view_after decl [])) with [("root", @nil string)]. rewrite assoc_cons. replace (eqs "root" k) with false by (symmetry; apply eqs_false; congruence). intros H. discriminate H.
  - rewrite view_snoc. pose proof (view_secs decl ls) as VS. set (v := view_after decl ls) in *.
    assert (Ext : assoc k (v_secs v) = Some c -> exists pre n cells post, (ls ++ [y])%list = (pre ++ LSection n cells :: post)%list /\ lower (strip n) = k /\ ~ In k (headings pre)
      /\ c = match cells with [] => map strip (decl n) | _ => cells end).
    { intros H. destruct (IH H) as (pre & n & cells & post & E & A). exists pre, n, cells, (post ++ [y])%list. rewrite E, <- app_assoc. auto. }
    destruct y as [|n cells|n cells|p r x cells]; cbn [next v_secs]; auto.
    + eqs_cases (lower (strip n)) "root"; cbn [v_secs]; [exact Ext|].
      destruct (assoc (lower (strip n)) (v_secs v)) as [c'|] eqn:A; [exact Ext|].
      rewrite assoc_app. destruct (assoc k (v_secs v)) as [c'|] eqn:A2; [intros H; injection H as ->; apply Ext; reflexivity|].
      rewrite assoc_cons. eqs_cases (lower (strip n)) k; [|discriminate]. intros H. injection H as <-.
      exists ls, n, cells, []. split; [reflexivity|]. split; [exact E0|]. split; [|reflexivity].
      apply assoc_keys in A2. rewrite VS in A2. intros I. apply A2. apply firsts_in. right. exact I.
    + destruct (eqs p current_parent); exact Ext.
Qed.
