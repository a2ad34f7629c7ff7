(** * VersionFacts: update_version (C42) *)

From Verif Require Import ListFacts StrFacts HeapFacts SpecNames NameFacts ConstructFacts RunFacts EmitFacts RowFacts TotalFacts FrameFacts SpecInv InvFacts ChildFacts ListOps SpecFind SpecEdit OpFacts SecFacts FindFacts AddFacts EditFacts StepFacts DocProps SpecMaint Maint MaintFacts.

Section WithQuirks.
Context {QK : Quirks}.

(** ** Searches at the top level look only at the listed terms *)

Record same_tops (s s' : st) : Prop := {
  sp_listed : listed s' = listed s;
  sp_secs : secs s' = secs s;
  sp_derived : d_derived (s_doc s') = d_derived (s_doc s);
  sp_rec : forall t, In t (listed s) -> t_pt (tget t s') = t_pt (tget t s) /\ t_rt (tget t s') = t_rt (tget t s) /\ t_section (tget t s') = t_section (tget t s);
  sp_val : forall j, is_sec s j -> t_val (tget j s') = t_val (tget j s)
}.
Lemma st_find_test : forall s s' p sa i, same_tops s s' -> doc_ok s -> In i (listed s) -> find_test (s_heap s') p VFalse sa i = find_test (s_heap s) p VFalse sa i.
Proof.
  intros s s' p sa i [L SC D R V] K I. destruct (R i I) as (E1 & E2 & E3). unfold find_test. fold (tget i s') (tget i s).
  assert (J : join_lc (tget i s') = join_lc (tget i s)) by (unfold join_lc, pt_lc, rt_lc; rewrite E1, E2; reflexivity). rewrite J, E3.
  assert (TI : term_is (tget i s') p = term_is (tget i s) p) by (unfold term_is; rewrite E1, E2; reflexivity). rewrite TI.
  destruct (eqs (join_lc (tget i s)) "root.root"); [reflexivity|]. destruct (negb _); [reflexivity|]. destruct (term_is (tget i s) p) as [[|]|]; [|reflexivity|reflexivity]. cbn [rbind].
  destruct (ok_plain s K i) as (j & SE & J1); [apply (ok_listed s K i I)|]. specialize (V j J1).
  assert (E : in_section (s_heap s') (tget i s') sa = in_section (s_heap s) (tget i s) sa).
  { unfold in_section. rewrite E3, SE. fold (tget j s') (tget j s). rewrite V. destruct sa as [|n|l]; reflexivity. }
  rewrite E. reflexivity.
Qed.
Lemma st_find : forall s s' p sa, same_tops s s' -> doc_ok s -> top_name p -> tidy_pattern p -> dget (lower p) (d_derived (s_doc s)) = None ->
  doc_find_first s' p VFalse sa = doc_find_first s p VFalse sa.
Proof.
  intros s s' p sa T K (n & CN) TP DE. unfold doc_find_first, doc_find. rewrite (sp_derived s s' T), DE. unfold find1.
  set (q := if has_char "." (lower p) then lower p else ("root." ++ lower p)%string).
  assert (Q : startswith "root." q = true).
  { destruct (cell_denotes p n CN TP) as ((_ & X) & _). unfold q. destruct X as [X|(a & b & -> & Da & E)].
    - rewrite (proj1 (dot_free_iff _) (proj2 (dot_free_lower _) X)). reflexivity.
    - rewrite !lower_app, E. change (lower ".") with ".". rewrite has_dot_mid. reflexivity. }
  rewrite Q. cbn [rbind]. fold (listed s') (listed s). rewrite (sp_listed s s' T). rewrite (rfilter_ext_in (find_test (s_heap s') q VFalse sa) (find_test (s_heap s) q VFalse sa)); [reflexivity|].
  intros x I. apply st_find_test; assumption.
Qed.

(** ** Making a child *)

Lemma new_child_run : forall s i term p n value, i < hlen s -> t_doc (tget i s) = true -> split_term_lower term = Ok (p, n) -> p <> "root" -> dot_free p -> dot_free n ->
  lower (t_rt (tget i s)) = lower p -> lower n <> "section" -> is_section_cls (doc_term_class (lower term) s) = false ->
  exists tvn, new_child i term value [] s
    = (with_child s i (set_t_tvn tvn (fresh_plain (doc_term_class (lower term) s) term p n (text_of value) [] None None None (Some i) true (t_section (tget i s)))), Ok (hlen s)).
Proof.
  intros s i term p n value L D SP NR DP DN RT NS CL. set (R0 := fresh_plain (doc_term_class (lower term) s) term p n (text_of value) [] None None None (Some i) true (t_section (tget i s))).
  set (R := match dget (tjoin R0) (d_decl_terms (s_doc s)) with
            | Some td => match dget "termvaluename" (td_props td) with Some n0 => set_t_tvn n0 R0 | None => R0 end
            | None => R0 end).
  assert (RR : exists tvn, R = set_t_tvn tvn R0).
  { unfold R. destruct (dget _ _) as [td|]; [destruct (dget _ _) as [n0|]|]; [exists n0|exists "@value"|exists "@value"]; reflexivity. }
  destruct RR as (tvn & RR). exists tvn. fold R0. rewrite <- RR. unfold new_child. rewrite bind_getT. cbv beta. rewrite D. change (bind (ret tt) ?k s) with (k tt s). cbv beta.
  unfold bind at 1, gets at 1. cbv beta. fold (text_of value). unfold bind at 1.
  rewrite (construct_plain_fw _ _ _ _ _ _ _ _ _ _ _ p n); [|exact CL| |].
  2:{ unfold term_names. rewrite SP. cbn [rbind]. apply eqs_false in NR. unfold ROOT_TERM. rewrite NR. reflexivity. }
  2:{ intros j E. injection E as <-. exact RT. }
  fold R0. unfold new_children. cbn [mapM_]. change (bind (ret tt) ?k ?x) with (k tt x). cbv beta. unfold bind at 1, getD, gets at 1. cbv beta. rewrite bind_modT. cbv beta.
  rewrite doc_push. rewrite hmod_new. fold R. rewrite bind_getT, push_new. cbv beta.
  assert (TI : term_is R "*.Section" = Ok false).
  { rewrite RR. unfold term_is. cbn [t_pt t_rt set_t_tvn R0 fresh_plain]. change "*.Section" with ("*" ++ "." ++ "Section")%string. rewrite term_is_qualified; [|exact DP|apply dot_free_iff; reflexivity|apply dot_free_iff; reflexivity|discriminate|apply tidy_iff; split; reflexivity|apply tidy_iff; split; reflexivity].
    change (lower "Section") with "section". rewrite (proj2 (eqs_false "section" (lower n))) by congruence. reflexivity. }
  rewrite TI. change (bind (lift (Ok false)) ?k ?x) with (k false x). cbv beta. cbn [negb]. change (bind (assert_ true) ?k ?x) with (k tt x). cbv beta. rewrite bind_modT. reflexivity.
Qed.

(** ** The parts of a version *)

Lemma root_run : forall s r, dget "root" (secs s) = Some r -> root_section s = (s, Ok r).
Proof. intros s r H. unfold root_section, reads, get_section. cbn [as_str rbind]. change (lower "Root") with "root". unfold secs in H. rewrite H. reflexivity. Qed.
Lemma secarg_lower : forall s p n m, lower n = lower m -> doc_find_first s p VFalse (SOne n) = doc_find_first s p VFalse (SOne m).
Proof.
  intros s p n m E.
  assert (T : forall q i, find_test (s_heap s) q VFalse (SOne n) i = find_test (s_heap s) q VFalse (SOne m) i) by (intros q i; unfold find_test, in_section; rewrite E; reflexivity).
  assert (F : forall q, find1 s q VFalse (SOne n) = find1 s q VFalse (SOne m)).
  { intros q. unfold find1. destruct (if startswith _ _ then _ else _) as [g|]; [|reflexivity]. cbn [rbind]. apply rfilter_ext_in. intros. apply T. }
  unfold doc_find_first, doc_find. destruct (dget _ _); [|rewrite F; reflexivity]. unfold find_list. rewrite (rmap_ext_in (fun e => find1 s e VFalse (SOne n)) (fun e => find1 s e VFalse (SOne m))); [reflexivity|]. intros. apply F.
Qed.
Lemma root_term : forall s r p, doc_ok s -> dget "root" (secs s) = Some r -> section_get_term s r p VFalse = doc_find_first s p VFalse (SOne "Root").
Proof.
  intros s r p K H. apply dget_in in H. destruct (ok_section s K "root" r H) as (_ & _ & _ & n & V & L). unfold section_get_term, section_name. rewrite V. cbn [secarg_of]. apply secarg_lower. rewrite L. reflexivity.
Qed.

Lemma version_run : forall s r o, doc_ok s -> dget "root" (secs s) = Some r -> doc_find_first s "Root.Version" VFalse (SOne "Root") = Ok o -> find_version s = (s, Ok o).
Proof.
  intros s r o K H F. unfold find_version. unfold bind at 1. rewrite (root_run s r H). unfold reads. rewrite (root_term s r _ K H), F. reflexivity.
Qed.

(** [v] is a term called version *)
Definition is_version (s : st) (v : nat) : Prop := is_plain s v /\ t_doc (tget v s) = true /\ lower (t_rt (tget v s)) = "version".
Definition part_is (s : st) (v : nat) (n : string) (o : option nat) : Prop := match o with Some c => first_child s v n c | None => no_child s v n end.
Lemma part_some : forall s v n, exists o, part_is s v n o.
Proof. intros s v n. destruct (first_or_none s v n) as [(c & H)|H]; [exists (Some c)|exists None]; exact H. Qed.
Lemma part_run : forall s v n o, is_version s v -> dot_free n -> part_is s v n o -> version_part v ("Version." ++ n) s = (s, Ok o).
Proof.
  intros s v n o (P & _ & V) D H. unfold version_part, bind, gets, lift.
  assert (C : child_item s v n ("Version." ++ n)) by (change ("Version." ++ n)%string with ("Version" ++ "." ++ n)%string; constructor; [apply dot_free_iff; reflexivity|rewrite V; reflexivity]).
  destruct o as [c|]; [rewrite (find_first_one s v n _ c D C H)|rewrite (find_first_no s v n _ D C H)]; reflexivity.
Qed.

(** what the steps of update_version may do to a document: give [v] new last
    children, and values to the terms of [P] that have none *)
Record vstep (P : nat -> Prop) (v : nat) (s s' : st) : Prop := {
  vs_order : in_order s';
  vs_doc : s_doc s' = s_doc s;
  vs_reg : s_reg s' = s_reg s;
  vs_len : hlen s <= hlen s';
  vs_v : exists l, tget v s' = set_t_children (t_children (tget v s) ++ l) (tget v s) /\ forall x, In x l -> hlen s <= x;
  vs_old : forall x, x < hlen s -> x <> v -> exists w, tget x s' = set_t_val w (tget x s) /\ (t_val (tget x s) <> VNone \/ ~ P x -> w = t_val (tget x s))
}.
Lemma set_same_children : forall r, set_t_children (t_children r) r = r.
Proof. destruct r; reflexivity. Qed.
Lemma vstep_refl : forall P v s, in_order s -> vstep P v s s.
Proof.
  intros P v s O. constructor; [exact O|reflexivity|reflexivity|lia| |].
  - exists []. rewrite app_nil_r, set_same_children. split; [reflexivity|intros x []].
  - intros x _ _. exists (t_val (tget x s)). rewrite set_same_val. auto.
Qed.
Lemma vstep_trans : forall P v a b c, v < hlen a -> vstep P v a b -> vstep P v b c -> vstep P v a c.
Proof.
  intros P v a b c L [O1 D1 G1 L1 (l1 & V1 & N1) X1] [O2 D2 G2 L2 (l2 & V2 & N2) X2]. constructor; [exact O2|congruence|congruence|lia| |].
  - exists (l1 ++ l2). rewrite V2, V1. cbn. rewrite app_assoc. split; [reflexivity|]. intros x I. apply in_app_or in I. destruct I as [I|I]; [auto|apply N2 in I; lia].
  - intros x Lx Nx. destruct (X1 x Lx Nx) as (w & E & W), (X2 x ltac:(lia) Nx) as (w' & E' & W'). exists w'. rewrite E', E. split; [reflexivity|].
    intros H. assert (w = t_val (tget x a)) by auto. subst w. rewrite W'; [rewrite E; reflexivity|]. rewrite E. cbn. exact H.
Qed.
Lemma vstep_weaken : forall (P Q : nat -> Prop) v s s', (forall x, P x -> Q x) -> vstep P v s s' -> vstep Q v s s'.
Proof.
  intros P Q v s s' PQ [O D G L V X]. constructor; try assumption. intros x Lx Nx. destruct (X x Lx Nx) as (w & E & W). exists w. split; [exact E|]. intros [H|H]; apply W; [left; exact H|right; auto].
Qed.
Lemma vstep_usual : forall P v s s', vstep P v s s' -> parts_usual s -> parts_usual s'.
Proof. intros P v s s' V PU n I. specialize (PU n I). unfold doc_term_class in *. rewrite (vs_doc _ _ _ _ V), (vs_reg _ _ _ _ V). exact PU. Qed.
Lemma vstep_plain : forall P v s s' x, vstep P v s s' -> v < hlen s -> x < hlen s -> t_cls (tget x s') = t_cls (tget x s) /\ t_rt (tget x s') = t_rt (tget x s) /\ t_pt (tget x s') = t_pt (tget x s) /\ t_section (tget x s') = t_section (tget x s) /\ t_doc (tget x s') = t_doc (tget x s).
Proof.
  intros P v s s' x [_ _ _ _ (l & V & _) X] L Lx. destruct (Nat.eq_dec x v) as [->|N]; [rewrite V; repeat split; reflexivity|]. destruct (X x Lx N) as (w & E & _). rewrite E. repeat split; reflexivity.
Qed.
Lemma vstep_version : forall P v s s', vstep P v s s' -> is_version s v -> is_version s' v.
Proof.
  intros P v s s' V ((L & C) & D & R). destruct (vstep_plain P v s s' v V L L) as (E1 & E2 & _ & _ & E5). split; [|split; congruence]. split; [|congruence]. pose proof (vs_len P v s s' V). lia.
Qed.
Lemma vstep_child : forall P v s s' x, vstep P v s s' -> in_order s -> In x (t_children (tget v s)) -> x < hlen s /\ x <> v.
Proof. intros P v s s' x V O I. destruct (ok_child s (io_ok s O) v x I) as (A & (B & _) & _). split; [exact B|lia]. Qed.
Lemma vstep_called : forall P v s s' n x, vstep P v s s' -> v < hlen s -> x < hlen s -> called s' n x <-> called s n x.
Proof. intros P v s s' n x V L X. unfold called. destruct (vstep_plain P v s s' x V L X) as (_ & -> & _). reflexivity. Qed.
Lemma vstep_first : forall P v s s' n c, vstep P v s s' -> in_order s -> v < hlen s -> first_child s v n c -> first_child s' v n c.
Proof.
  intros P v s s' n c V O L (a & b & E & C & N). destruct (vs_v P v s s' V) as (l & EV & _). exists a, (b ++ l). split; [rewrite EV; cbn; rewrite E, <- app_assoc; reflexivity|].
  assert (I : forall x, In x (a ++ c :: b) -> x < hlen s) by (intros x I; rewrite <- E in I; apply (vstep_child P v s s' x V O I)).
  split; [apply (vstep_called P v s s' n c V L); [apply I; apply in_elt|exact C]|]. intros x Ix. rewrite (vstep_called P v s s' n x V L); [auto|]. apply I. apply in_or_app. left. exact Ix.
Qed.
Lemma vstep_tops : forall P v s s', vstep P v s s' -> in_order s -> is_plain s v -> (forall x, P x -> is_plain s x) -> same_tops s s'.
Proof.
  intros P v s s' V O Pv PP. pose proof (vs_doc P v s s' V) as D. constructor; [unfold listed; rewrite D; reflexivity|unfold secs; rewrite D; reflexivity|rewrite D; reflexivity| |].
  - intros t I. destruct (ok_listed s (io_ok s O) t I) as ((L & _) & _). destruct (vstep_plain P v s s' t V (proj1 Pv) L) as (_ & A & B & C & _). auto.
  - intros j (L & C). destruct (Nat.eq_dec j v) as [->|N]; [destruct Pv; congruence|]. destruct (vs_old P v s s' V j L N) as (w & E & W). rewrite E. cbn. apply W. right. intros X. destruct (PP j X). congruence.
Qed.

Lemma part_names : forall n, In n parts -> exists m, split_term_lower ("Version." ++ n) = Ok ("version", m) /\ m = lower n /\ dot_free n /\ dot_free m /\ lower m <> "section".
Proof.
  intros n I. exists (lower n). cbn in I. destruct I as [<-|[<-|[<-|[]]]]; (split; [reflexivity|split; [reflexivity|split; [apply dot_free_iff; reflexivity|split; [apply dot_free_iff; reflexivity|discriminate]]]]).
Qed.

Lemma fix_part_old : forall s v c term, t_val (tget c s) <> VNone -> fix_part v (Some c) term s = (s, Ok tt).
Proof. intros s v c term N. unfold fix_part. change (bind (ret c) ?k s) with (k c s). cbv beta. rewrite bind_getT. cbv beta. destruct (t_val (tget c s)); try reflexivity. contradiction. Qed.

Lemma fix_part_run : forall (P : nat -> Prop) s v n o, in_order s -> is_version s v -> parts_usual s -> In n parts -> part_is s v n o -> (forall c, o = Some c -> P c) ->
  exists s' c, fix_part v o ("Version." ++ n) s = (s', Ok tt) /\ vstep P v s s' /\ first_child s' v n c
    /\ t_val (tget c s') = filled (match o with Some c0 => t_val (tget c0 s) | None => VStr "1" end) /\ (o = Some c \/ o = None /\ hlen s <= c)
    /\ (forall m, lower m <> lower n -> no_child s v m -> no_child s' v m).
Proof.
  intros P s v n o O V PU I H PP. pose proof (proj1 (proj1 V)) as Lv. destruct o as [c|].
  - (* the part exists *)
    assert (CI : In c (t_children (tget v s))) by (destruct H as (a & b & -> & _); apply in_elt). destruct (ok_child s (io_ok s O) v c CI) as (LT & Pc & _).
    destruct (t_val (tget c s)) eqn:E.
    1: { exists (hmod c (set_t_val (VInt 0)) s), c. split.
      - unfold fix_part. change (bind (ret c) ?k s) with (k c s). cbv beta. rewrite bind_getT. cbv beta. rewrite E. apply modT_run.
      - assert (VS : vstep P v s (hmod c (set_t_val (VInt 0)) s)).
        { constructor; [apply set_val_order; assumption|apply doc_hmod|reflexivity|rewrite hlen_hmod; lia| |].
          - exists []. rewrite app_nil_r, set_same_children. split; [|intros x []]. rewrite tget_hmod_any. replace (v =? c) with false by (symmetry; apply Nat.eqb_neq; lia). reflexivity.
          - intros x Lx Nx. rewrite tget_hmod_any. destruct (Nat.eqb_spec x c) as [->|N]; cbn [andb].
            + rewrite (proj2 (Nat.ltb_lt c (hlen s)) Lx). exists (VInt 0). split; [reflexivity|]. intros [X|X]; [congruence|]. destruct X. apply PP. reflexivity.
            + exists (t_val (tget x s)). rewrite set_same_val. auto. }
        split; [exact VS|]. split; [eapply vstep_first; eassumption|]. split; [|split; [left; reflexivity|]].
        + rewrite tget_hmod by apply Pc. rewrite Nat.eqb_refl. reflexivity.
        + intros m _ N x X. rewrite called_set_val. apply N. rewrite tget_hmod_any in X. replace (v =? c) with false in X by (symmetry; apply Nat.eqb_neq; lia). exact X. }
    all: exists s, c; split; [apply fix_part_old; congruence|]; split; [apply vstep_refl; exact O|]; split; [exact H|]; split; [rewrite E; reflexivity|]; split; [left; reflexivity|auto].
  - (* it is made *)
    destruct (part_names n I) as (m & SP & -> & Dn & Dm & NS). destruct V as (Pv & DV & RV).
    destruct (new_child_run s v ("Version." ++ n) "version" (lower n) (VInt 1) Lv DV SP ltac:(discriminate) ltac:(apply dot_free_iff; reflexivity) Dm RV NS (PU n I)) as (tvn & RUN).
    set (R := set_t_tvn tvn _) in RUN. set (s' := with_child s v R) in RUN. exists s', (hlen s).
    assert (G : forall j, tget j s' = if j =? v then set_t_children (t_children (tget v s) ++ [hlen s]) (tget v s) else if j =? hlen s then R else tget j s) by (intros j; apply tget_with_child; exact Lv).
    assert (HL : hlen s' = S (hlen s)) by (unfold s', with_child; rewrite hlen_hmod, hlen_push; reflexivity).
    assert (O' : in_order s'). { eapply order_edits; [|exact O]. eapply edits_more; [apply edits_none|]. eapply (ed_new_child s s' v); [exact Pv|exact RUN]. }
    assert (VC : t_val (tget (hlen s) s') = VStr "1"). { rewrite G. replace (hlen s =? v) with false by (symmetry; apply Nat.eqb_neq; lia). rewrite Nat.eqb_refl. reflexivity. }
    assert (RC : t_rt (tget (hlen s) s') = lower n). { rewrite G. replace (hlen s =? v) with false by (symmetry; apply Nat.eqb_neq; lia). rewrite Nat.eqb_refl. reflexivity. }
    assert (VS : vstep P v s s').
    { constructor; [exact O'|unfold s', with_child; rewrite doc_hmod, doc_push; reflexivity|reflexivity|lia| |].
      - exists [hlen s]. rewrite G, Nat.eqb_refl. split; [reflexivity|]. intros x [<-|[]]. lia.
      - intros x Lx Nx. exists (t_val (tget x s)). rewrite set_same_val. split; [|reflexivity]. rewrite G. replace (x =? v) with false by (symmetry; apply Nat.eqb_neq; lia). replace (x =? hlen s) with false by (symmetry; apply Nat.eqb_neq; lia). reflexivity. }
    assert (OLD : forall k x, In x (t_children (tget v s)) -> called s' k x <-> called s k x).
    { intros k x X. apply (vstep_called P v s s' k x VS Lv). apply (vstep_child P v s s' x VS O X). }
    split.
    { unfold fix_part. unfold bind at 1. rewrite RUN. rewrite bind_getT, VC. reflexivity. }
    split; [exact VS|]. split.
    { exists (t_children (tget v s)), []. split; [rewrite G, Nat.eqb_refl; reflexivity|]. split; [unfold called; rewrite RC; apply lower_idem|]. intros x X. rewrite OLD by exact X. apply H. exact X. }
    split; [exact VC|]. split; [right; split; [reflexivity|lia]|].
    intros k Nk Hk x X. rewrite G, Nat.eqb_refl in X. cbn in X. apply in_app_or in X. destruct X as [X|[<-|[]]]; [rewrite OLD by exact X; auto|]. unfold called. rewrite RC, lower_idem. congruence.
Qed.

(** ** The version text *)

Lemma first_unique : forall s v n c c', first_child s v n c -> first_child s v n c' -> c = c'.
Proof.
  intros s v n c c' (a & b & E & C & N) (a' & b' & E' & C' & N'). rewrite E in E'. clear E. revert a' E' N'. induction a as [|x a IH]; intros [|y a'] E N'; cbn in E.
  - congruence.
  - injection E as <- E. destruct (N' c (or_introl eq_refl) C).
  - injection E as -> E. destruct (N c' (or_introl eq_refl) C').
  - injection E as <- E. eapply (IH (fun x I => N x (or_intror I))); [exact E|]. intros z I. apply N'. right. exact I.
Qed.

Definition finish (v : nat) : MM val :=
  a <- version_part v "Version.Major" ;;
  b <- version_part v "Version.Minor" ;;
  c <- version_part v "Version.Patch" ;;
  match a, b, c with
  | Some a, Some b, Some c =>
      h <- gets s_heap ;;
      let str i := str_val (t_val (hget i h)) in
      let sem := (str a ++ "." ++ str b ++ "." ++ str c)%string in
      modT v (set_t_val (VStr sem)) ;;;
      d <- version_part v "Version.Build" ;;
      let full := match d with
                  | Some d => (sem ++ "." ++ str d)%string
                  | None => sem
                  end in
      modT v (set_t_val (VStr full)) ;;;
      ret (VStr full)
  | _, _, _ => raise EAssert
  end.
Lemma bind_run : forall {A B} (m : MM A) (k : A -> MM B) s s' a, m s = (s', Ok a) -> bind m k s = k a s'.
Proof. intros A B m k s s' a E. unfold bind. rewrite E. reflexivity. Qed.
Lemma finish_run : forall s v a b c d, is_version s v -> first_child s v "Major" a -> first_child s v "Minor" b -> first_child s v "Patch" c -> build_of s v d ->
  finish v s = (hmod v (set_t_val (VStr (version_text s a b c d))) s, Ok (VStr (version_text s a b c d))).
Proof.
  intros s v a b c d V A B C D. unfold finish.
  rewrite (bind_run _ _ _ _ _ (part_run s v "Major" (Some a) V ltac:(apply dot_free_iff; reflexivity) A)). cbv beta.
  rewrite (bind_run _ _ _ _ _ (part_run s v "Minor" (Some b) V ltac:(apply dot_free_iff; reflexivity) B)). cbv beta.
  rewrite (bind_run _ _ _ _ _ (part_run s v "Patch" (Some c) V ltac:(apply dot_free_iff; reflexivity) C)). cbv beta iota.
  change (bind (gets s_heap) ?k s) with (k (s_heap s) s). cbv beta zeta. rewrite bind_modT. cbv beta.
  match goal with |- bind _ _ ?x = _ => set (s1 := x) end.
  assert (PB : version_part v "Version.Build" s1 = (s1, Ok d)).
  { pose proof (part_run s v "Build" d V ltac:(apply dot_free_iff; reflexivity) D) as X. change ("Version." ++ "Build")%string with "Version.Build" in X. unfold version_part, bind, gets, lift in *.
    rewrite (rv_term_find_first s s1 (revalued_set s v _ (proj2 (proj1 V)))). destruct (term_find_first (s_heap s) v "Version.Build" VFalse); [|discriminate X]. injection X as ->. reflexivity. }
  rewrite (bind_run _ _ _ _ _ PB). cbv beta. rewrite bind_modT. unfold s1. rewrite hmod_hmod. unfold ret.
  assert (E : match d with
     | Some d0 => (str_val (t_val (hget a (s_heap s))) ++ "." ++ str_val (t_val (hget b (s_heap s))) ++ "." ++ str_val (t_val (hget c (s_heap s)))) ++ "." ++ str_val (t_val (hget d0 (s_heap s)))
     | None => str_val (t_val (hget a (s_heap s))) ++ "." ++ str_val (t_val (hget b (s_heap s))) ++ "." ++ str_val (t_val (hget c (s_heap s)))
     end%string = version_text s a b c d).
  { unfold version_text. destruct d as [d|]; unfold tget; rewrite ?app_s_assoc; [reflexivity|]. rewrite app_s_nil. reflexivity. }
  cbv beta. rewrite E. f_equal.
Qed.

(** ** update_version *)

Lemma ver_top : top_name "Root.Version".
Proof. eapply top_of. vm_compute. reflexivity. Qed.
Lemma ver_tidy : tidy_pattern "Root.Version".
Proof. patq "Root" "Version". Qed.
Lemma found_called : forall s p sa i a b, in_order s -> tidy_pattern p -> dget (lower p) (d_derived (s_doc s)) = None -> doc_find_first s p VFalse sa = Ok (Some i) ->
  p = (a ++ "." ++ b)%string -> dot_free a -> dot_free b -> b <> "*" -> lower (t_rt (tget i s)) = lower b.
Proof.
  intros s p sa i a b O T D F E Da Db NS. destruct (c27_find s p VFalse sa O T D) as (l & r & R & _ & PK & _). rewrite (find_first_spec s p VFalse sa r R) in F.
  destruct r as [|x r]; [discriminate F|]. injection F as ->. assert (IR : In i (i :: r)) by (left; reflexivity). eapply picked_in in IR; [|exact PK]. destruct IR as (_ & (DN & _)). subst p.
  inversion DN as [DP _ _|a' b' E' Da' Db' _ S2]; [destruct (not_free_mid _ _ DP)|]. apply cut_unique in E'; [|assumption..]. destruct E' as [<- <-]. destruct S2 as [S2|S2]; [contradiction|congruence].
Qed.
Lemma version_is : forall s v, in_order s -> underived s "Root.Version" -> version_term s v -> is_plain s v /\ In v (listed s) /\ lower (t_rt (tget v s)) = "version".
Proof.
  intros s v O DE F. destruct (found_plain s "Root.Version" (SOne "Root") v O ver_top ver_tidy DE F) as (P & I). split; [exact P|]. split; [exact I|].
  apply (found_called s "Root.Version" (SOne "Root") v "Root" "Version" O ver_tidy DE F eq_refl); [apply dot_free_iff; reflexivity|apply dot_free_iff; reflexivity|discriminate].
Qed.

Lemma update_none : forall s r, in_order s -> dget "root" (secs s) = Some r -> no_version s -> update_version s = (s, Ok VNone).
Proof. intros s r O H F. unfold update_version. rewrite (bind_run _ _ _ _ _ (version_run s r None (io_ok s O) H F)). reflexivity. Qed.

Lemma dotless_part : forall n, In n parts -> dot_free n.
Proof. intros n I. destruct (part_names n I) as (m & _ & _ & D & _). exact D. Qed.
Lemma in_major : In "Major" parts. Proof. left. reflexivity. Qed.
Lemma in_minor : In "Minor" parts. Proof. right. left. reflexivity. Qed.
Lemma in_patch : In "Patch" parts. Proof. right. right. left. reflexivity. Qed.
Definition fix_all (v : nat) (a b c : option nat) : MM val :=
  fix_part v a "Version.Major" ;;; fix_part v b "Version.Minor" ;;; fix_part v c "Version.Patch" ;;; finish v.
Lemma update_some : forall s r v a b c, in_order s -> dget "root" (secs s) = Some r -> version_term s v -> is_version s v -> part_is s v "Major" a -> part_is s v "Minor" b -> part_is s v "Patch" c ->
  update_version s = match a, b, c with None, None, None => (s, Ok (t_val (tget v s))) | _, _, _ => fix_all v a b c s end.
Proof.
  intros s r v a b c O H F V A B C. unfold update_version. rewrite (bind_run _ _ _ _ _ (version_run s r _ (io_ok s O) H F)). cbv beta iota.
  rewrite (bind_run _ _ _ _ _ (part_run s v "Major" a V (dotless_part _ in_major) A)). cbv beta.
  rewrite (bind_run _ _ _ _ _ (part_run s v "Minor" b V (dotless_part _ in_minor) B)). cbv beta.
  rewrite (bind_run _ _ _ _ _ (part_run s v "Patch" c V (dotless_part _ in_patch) C)). cbv beta.
  destruct a, b, c; try reflexivity.
Qed.

(** with all parts in place *)
Lemma update_done : forall s r v a b c d, in_order s -> dget "root" (secs s) = Some r -> version_term s v -> is_version s v -> first_child s v "Major" a -> first_child s v "Minor" b -> first_child s v "Patch" c ->
  t_val (tget a s) <> VNone -> t_val (tget b s) <> VNone -> t_val (tget c s) <> VNone -> build_of s v d ->
  update_version s = (hmod v (set_t_val (VStr (version_text s a b c d))) s, Ok (VStr (version_text s a b c d))).
Proof.
  intros s r v a b c d O H F V A B C NA NB NC D. rewrite (update_some s r v (Some a) (Some b) (Some c) O H F V A B C). unfold fix_all.
  rewrite (bind_run _ _ _ _ _ (fix_part_old s v a _ NA)). cbv beta. rewrite (bind_run _ _ _ _ _ (fix_part_old s v b _ NB)). cbv beta. rewrite (bind_run _ _ _ _ _ (fix_part_old s v c _ NC)). cbv beta.
  apply finish_run; assumption.
Qed.

(** setting the value of [v] *)
Lemma first_set : forall s v w i n c, first_child s i n c <-> first_child (hmod v (set_t_val w) s) i n c.
Proof.
  intros s v w i n c. assert (CH : t_children (tget i (hmod v (set_t_val w) s)) = t_children (tget i s)) by (rewrite tget_hmod_any; destruct (Nat.eqb_spec i v) as [->|]; cbn [andb]; [destruct (v <? hlen s)|]; reflexivity).
  unfold first_child. rewrite CH. split; intros (a & b & E & C & N); exists a, b; (split; [exact E|]); (split; [apply called_set_val in C || apply called_set_val; exact C|]); intros x X; specialize (N x X); rewrite called_set_val in *; exact N.
Qed.
Lemma no_set : forall s v w i n, no_child s i n <-> no_child (hmod v (set_t_val w) s) i n.
Proof.
  intros s v w i n. assert (CH : t_children (tget i (hmod v (set_t_val w) s)) = t_children (tget i s)) by (rewrite tget_hmod_any; destruct (Nat.eqb_spec i v) as [->|]; cbn [andb]; [destruct (v <? hlen s)|]; reflexivity).
  unfold no_child. rewrite CH. split; intros N x X; specialize (N x X); rewrite called_set_val in *; exact N.
Qed.

Lemma filled_some : forall w, filled w <> VNone.
Proof. destruct w; discriminate. Qed.

Lemma c42 : forall s r v, in_order s -> dget "root" (secs s) = Some r -> underived s "Root.Version" -> version_term s v -> t_doc (tget v s) = true -> parts_usual s -> (exists x, part_of s v x) ->
  exists s' a b c d, update_version s = (s', Ok (VStr (version_text s' a b c d)))
    /\ in_order s' /\ version_term s' v /\ first_child s' v "Major" a /\ first_child s' v "Minor" b /\ first_child s' v "Patch" c /\ build_of s' v d
    /\ t_val (tget v s') = VStr (version_text s' a b c d)
    (* parts that were there are kept, with 0 for a missing value; new ones are 1 *)
    /\ (forall n x, In n parts -> first_child s v n x -> first_child s' v n x /\ t_val (tget x s') = filled (t_val (tget x s)))
    /\ (forall n x, In n parts -> no_child s v n -> first_child s' v n x -> hlen s <= x /\ t_val (tget x s') = VStr "1")
    /\ (forall x, build_of s v (Some x) -> d = Some x) /\ (build_of s v None -> d = None)
    (* nothing else changes *)
    /\ s_doc s' = s_doc s /\ s_reg s' = s_reg s /\ (forall x, x < hlen s -> x <> v -> ~ part_of s v x -> tget x s' = tget x s)
    /\ (forall x, x < hlen s -> t_cls (tget x s') = t_cls (tget x s) /\ t_rt (tget x s') = t_rt (tget x s) /\ t_pt (tget x s') = t_pt (tget x s) /\ t_section (tget x s') = t_section (tget x s) /\ t_doc (tget x s') = t_doc (tget x s))
    (* and a second call changes nothing at all *)
    /\ update_version s' = (s', Ok (VStr (version_text s' a b c d))).
Proof.
  intros s r v O H FD F DV PU EX. destruct (version_is s v O FD F) as (Pv & Lv & RV). assert (V : is_version s v) by (split; [exact Pv|split; assumption]).
  destruct (part_some s v "Major") as (oa & A), (part_some s v "Minor") as (ob & B), (part_some s v "Patch") as (oc & C).
  set (P := part_of s v).
  assert (PP : forall x, P x -> is_plain s x) by (intros x (n & _ & (p & q & E & _)); apply (ok_child s (io_ok s O) v x); rewrite E; apply in_elt).
  assert (HL : v < hlen s) by apply Pv.
  assert (APART : forall x n m y z, first_child x v n y -> first_child x v m z -> lower n <> lower m -> y <> z).
  { intros x n m y z (_ & _ & _ & Cy & _) (_ & _ & _ & Cz & _) N E. subst z. unfold called in *. congruence. }
  assert (KEEP : forall Q x y z n, vstep Q v x y -> in_order x -> first_child x v n z -> t_val (tget z x) <> VNone \/ ~ Q z -> t_val (tget z y) = t_val (tget z x)).
  { intros Q x y z n VS OX (p & q & E & _) NN. destruct (vstep_child Q v x y z VS OX) as (L & N); [rewrite E; apply in_elt|]. destruct (vs_old _ _ _ _ VS z L N) as (w & -> & W). cbn. apply W. exact NN. }
  (* Major *)
  destruct (fix_part_run (fun x => oa = Some x) s v "Major" oa O V PU in_major A) as (s1 & a & R1 & S1 & F1 & V1 & W1 & N1); [auto|].
  pose proof (vs_order _ _ _ _ S1) as O1. pose proof (vstep_version _ _ _ _ S1 V) as VV1. pose proof (vstep_usual _ _ _ _ S1 PU) as PU1.
  assert (HL1 : v < hlen s1) by apply VV1.
  assert (B1 : part_is s1 v "Minor" ob) by (destruct ob as [x|]; [eapply vstep_first; eassumption|apply N1; [discriminate|exact B]]).
  assert (C1 : part_is s1 v "Patch" oc) by (destruct oc as [x|]; [eapply vstep_first; eassumption|apply N1; [discriminate|exact C]]).
  (* Minor *)
  destruct (fix_part_run (fun x => ob = Some x) s1 v "Minor" ob O1 VV1 PU1 in_minor B1) as (s2 & b & R2 & S2 & F2 & V2 & W2 & N2); [auto|].
  pose proof (vs_order _ _ _ _ S2) as O2. pose proof (vstep_version _ _ _ _ S2 VV1) as VV2. pose proof (vstep_usual _ _ _ _ S2 PU1) as PU2.
  assert (HL2 : v < hlen s2) by apply VV2.
  assert (C2 : part_is s2 v "Patch" oc) by (destruct oc as [x|]; [eapply vstep_first; eassumption|apply N2; [discriminate|exact C1]]).
  pose proof (vstep_first _ _ _ _ _ _ S2 O1 HL1 F1) as F12.
  (* Patch *)
  destruct (fix_part_run (fun x => oc = Some x) s2 v "Patch" oc O2 VV2 PU2 in_patch C2) as (s3 & c & R3 & S3 & F3 & V3 & W3 & N3); [auto|].
  pose proof (vs_order _ _ _ _ S3) as O3. pose proof (vstep_version _ _ _ _ S3 VV2) as VV3.
  pose proof (vstep_first _ _ _ _ _ _ S3 O2 HL2 F12) as F13. pose proof (vstep_first _ _ _ _ _ _ S3 O2 HL2 F2) as F23.
  assert (T1 : vstep P v s s1) by (eapply vstep_weaken; [|exact S1]; intros x X; cbn in X; subst oa; exists "Major"; split; [exact in_major|exact A]).
  assert (T2 : vstep P v s1 s2) by (eapply vstep_weaken; [|exact S2]; intros x X; cbn in X; subst ob; exists "Minor"; split; [exact in_minor|exact B]).
  assert (T3 : vstep P v s2 s3) by (eapply vstep_weaken; [|exact S3]; intros x X; cbn in X; subst oc; exists "Patch"; split; [exact in_patch|exact C]).
  assert (S03 : vstep P v s s3) by (eapply vstep_trans; [exact HL| |exact T3]; eapply vstep_trans; [exact HL|exact T1|exact T2]).
  destruct (part_some s3 v "Build") as (d & D).
  (* values *)
  assert (NA1 : t_val (tget a s1) <> VNone) by (rewrite V1; apply filled_some).
  assert (VA2 : t_val (tget a s2) = t_val (tget a s1)) by (eapply (KEEP _ s1 s2 a "Major" S2 O1 F1); auto).
  assert (VA : t_val (tget a s3) = filled (match oa with Some x => t_val (tget x s) | None => VStr "1" end)) by (rewrite (KEEP _ s2 s3 a "Major" S3 O2 F12) by (left; congruence); congruence).
  assert (NB2 : t_val (tget b s2) <> VNone) by (rewrite V2; apply filled_some).
  assert (VB : t_val (tget b s3) = filled (match ob with Some x => t_val (tget x s) | None => VStr "1" end)).
  { rewrite (KEEP _ s2 s3 b "Minor" S3 O2 F2) by (left; exact NB2). rewrite V2. destruct ob as [x|]; [|reflexivity]. rewrite (KEEP _ s s1 x "Minor" S1 O B); [reflexivity|]. right. intros X. subst oa. eapply (APART s "Minor" "Major" x x); eauto; discriminate. }
  assert (VC : t_val (tget c s3) = filled (match oc with Some x => t_val (tget x s) | None => VStr "1" end)).
  { rewrite V3. destruct oc as [x|]; [|reflexivity]. rewrite (KEEP _ s1 s2 x "Patch" S2 O1 C1); [|right; intros X; subst ob; eapply (APART s "Patch" "Minor" x x); eauto; discriminate].
    rewrite (KEEP _ s s1 x "Patch" S1 O C); [reflexivity|]. right. intros X. subst oa. eapply (APART s "Patch" "Major" x x); eauto; discriminate. }
  set (T := version_text s3 a b c d). set (s' := hmod v (set_t_val (VStr T)) s3).
  assert (HL3 : v < hlen s3) by apply VV3.
  assert (GV : forall x, tget x s' = if x =? v then set_t_val (VStr T) (tget v s3) else tget x s3) by (intros x; unfold s'; rewrite tget_hmod by exact HL3; destruct (Nat.eqb_spec x v) as [->|]; reflexivity).
  assert (CV : forall x n, first_child s3 v n x -> tget x s' = tget x s3).
  { intros x n (p & q & E & _). destruct (ok_child s3 (io_ok s3 O3) v x) as (LT & _); [rewrite E; apply in_elt|]. rewrite GV. replace (x =? v) with false by (symmetry; apply Nat.eqb_neq; lia). reflexivity. }
  assert (TX : version_text s' a b c d = T).
  { unfold T, version_text. rewrite (CV a _ F13), (CV b _ F23), (CV c _ F3). destruct d as [d|]; [rewrite (CV d _ D); reflexivity|reflexivity]. }
  assert (R : revalued s3 s') by (apply revalued_set; apply VV3).
  assert (O' : in_order s') by (apply set_val_order; [exact O3|apply VV3]).
  assert (TOPS : same_tops s s3) by (eapply vstep_tops; eassumption).
  assert (F' : version_term s' v). { unfold version_term. rewrite (rv_find_first s3 s' R O3). rewrite (st_find s s3 _ _ TOPS (io_ok s O) ver_top ver_tidy FD). exact F. }
  assert (H' : dget "root" (secs s') = Some r). { unfold secs, s'. rewrite doc_hmod. fold (secs s3). rewrite (sp_secs s s3 TOPS). exact H. }
  assert (VV' : is_version s' v). { destruct VV3 as ((A1 & A2) & A3 & A4). split; [split; [unfold s'; rewrite hlen_hmod; exact A1|]|split]; rewrite GV, Nat.eqb_refl; assumption. }
  assert (G1 : first_child s' v "Major" a) by (apply first_set; exact F13). assert (G2 : first_child s' v "Minor" b) by (apply first_set; exact F23). assert (G3 : first_child s' v "Patch" c) by (apply first_set; exact F3).
  assert (GD : build_of s' v d) by (destruct d; [apply first_set|apply no_set]; exact D).
  exists s', a, b, c, d. rewrite TX.
  split.
  { rewrite (update_some s r v oa ob oc O H F V A B C).
    assert (FA : fix_all v oa ob oc s = (s', Ok (VStr T))).
    { unfold fix_all. rewrite (bind_run _ _ _ _ _ R1). cbv beta. rewrite (bind_run _ _ _ _ _ R2). cbv beta. rewrite (bind_run _ _ _ _ _ R3). cbv beta. apply finish_run; assumption. }
    destruct oa; [exact FA|]. destruct ob; [exact FA|]. destruct oc; [exact FA|]. destruct EX as (x & n & I & p & q & E & CX & _). assert (IX : In x (t_children (tget v s))) by (rewrite E; apply in_elt).
    cbn in I. destruct I as [<-|[<-|[<-|[]]]]; [destruct (A x IX CX)|destruct (B x IX CX)|destruct (C x IX CX)]. }
  split; [exact O'|]. split; [exact F'|]. split; [exact G1|]. split; [exact G2|]. split; [exact G3|]. split; [exact GD|]. split; [rewrite GV, Nat.eqb_refl; reflexivity|].
  assert (WHO : forall n o x y, part_is s v n o -> first_child s' v n y -> o = Some y \/ o = None /\ hlen s <= y -> first_child s v n x -> o = Some x /\ y = x).
  { intros n o x y PI FY W FX. destruct o as [z|]; [|destruct FX as (p & q & E & CX & _); destruct (PI x); [rewrite E; apply in_elt|exact CX]]. rewrite (first_unique s v n x z FX PI). destruct W as [W|[W _]]; [|discriminate W]. injection W as ->. auto. }
  assert (NEW : forall n o y x, part_is s v n o -> first_child s' v n y -> o = Some y \/ o = None /\ hlen s <= y -> no_child s v n -> first_child s' v n x -> o = None /\ x = y /\ hlen s <= x).
  { intros n o y x PI FY W NX FX. destruct o as [z|]; [destruct PI as (p & q & E & CZ & _); destruct (NX z); [rewrite E; apply in_elt|exact CZ]|]. destruct W as [W|[_ W]]; [discriminate W|]. rewrite (first_unique s' v n x y FX FY). auto. }
  assert (W2' : ob = Some b \/ ob = None /\ hlen s <= b) by (destruct W2 as [W2|[W2 W2']]; [left; exact W2|right; split; [exact W2|pose proof (vs_len _ _ _ _ S1); lia]]).
  assert (W3' : oc = Some c \/ oc = None /\ hlen s <= c) by (destruct W3 as [W3|[W3 W3']]; [left; exact W3|right; split; [exact W3|pose proof (vs_len _ _ _ _ S1); pose proof (vs_len _ _ _ _ S2); lia]]).
  split.
  { intros n x I FX. cbn in I. destruct I as [<-|[<-|[<-|[]]]].
    - destruct (WHO _ oa x a A G1 W1 FX) as (-> & <-). split; [exact G1|]. rewrite (CV a _ F13). exact VA.
    - destruct (WHO _ ob x b B G2 W2' FX) as (-> & <-). split; [exact G2|]. rewrite (CV b _ F23). exact VB.
    - destruct (WHO _ oc x c C G3 W3' FX) as (-> & <-). split; [exact G3|]. rewrite (CV c _ F3). exact VC. }
  split.
  { intros n x I NX FX. cbn in I. destruct I as [<-|[<-|[<-|[]]]].
    - destruct (NEW _ oa a x A G1 W1 NX FX) as (-> & -> & LE). split; [exact LE|]. rewrite (CV a _ F13). exact VA.
    - destruct (NEW _ ob b x B G2 W2' NX FX) as (-> & -> & LE). split; [exact LE|]. rewrite (CV b _ F23). exact VB.
    - destruct (NEW _ oc c x C G3 W3' NX FX) as (-> & -> & LE). split; [exact LE|]. rewrite (CV c _ F3). exact VC. }
  split. { intros x X. pose proof (vstep_first _ _ _ _ _ _ S03 O HL X) as X3. destruct d as [y|]; [f_equal; eapply first_unique; [exact D|exact X3]|]. destruct X3 as (p & q & E & CX & _). destruct (D x); [rewrite E; apply in_elt|exact CX]. }
  split. { intros X. assert (NB : no_child s3 v "Build") by (apply N3; [discriminate|]; apply N2; [discriminate|]; apply N1; [discriminate|]; exact X). destruct d as [y|]; [|reflexivity]. destruct D as (p & q & E & CX & _). destruct (NB y); [rewrite E; apply in_elt|exact CX]. }
  split; [unfold s'; rewrite doc_hmod; apply (vs_doc _ _ _ _ S03)|]. split; [apply (vs_reg _ _ _ _ S03)|].
  split. { intros x LX NX NP. rewrite GV. apply Nat.eqb_neq in NX. rewrite NX. apply Nat.eqb_neq in NX. destruct (vs_old _ _ _ _ S03 x LX NX) as (w & -> & W). rewrite W by (right; exact NP). apply set_same_val. }
  split. { intros x LX. rewrite GV. destruct (vstep_plain _ _ _ _ x S03 HL LX) as (A1 & A2 & A3 & A4 & A5). destruct (Nat.eqb_spec x v) as [->|]; auto 10. }
  rewrite (update_done s' r v a b c d O' H' F' VV' G1 G2 G3); [|rewrite (CV a _ F13), VA; apply filled_some|rewrite (CV b _ F23), VB; apply filled_some|rewrite (CV c _ F3), VC; apply filled_some|exact GD].
  rewrite TX. f_equal. transitivity (hmod v (set_t_val (t_val (tget v s'))) s'); [|apply hmod_set_same]. rewrite GV, Nat.eqb_refl. reflexivity.
Qed.

(** a version without parts *)
Lemma c42_plain : forall s r v, in_order s -> dget "root" (secs s) = Some r -> underived s "Root.Version" -> version_term s v -> t_doc (tget v s) = true -> (forall n, In n parts -> no_child s v n) ->
  update_version s = (s, Ok (t_val (tget v s))).
Proof.
  intros s r v O H FD F DV NP. destruct (version_is s v O FD F) as (Pv & Lv & RV). rewrite (update_some s r v None None None O H F); [reflexivity|split; [exact Pv|split; assumption]|apply NP; exact in_major|apply NP; exact in_minor|apply NP; exact in_patch].
Qed.

End WithQuirks.
