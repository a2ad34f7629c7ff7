(** * ReadFacts: reading the rows of a tree makes the tree *)

From Verif Require Import ListFacts StrFacts HeapFacts SpecNames NameFacts ConstructFacts Parser RunFacts EmitFacts DigitFacts RowFacts ParseFacts TotalFacts SpecDoc SpecRound OrderFacts PrintFacts.

(** ** Names in cells *)

Lemma replace_id : forall n, dot_free n -> replace_aux "root." "" 0 n = n.
Proof.
  induction n as [|c n IH]; intros D; [reflexivity|]. cbn [replace_aux].
  destruct (startswith "root." (String c n)) eqn:E.
  - exfalso. apply startswith_spec in E. destruct E as (w & E). rewrite E in D. apply D. cbn. auto 10.
  - f_equal. apply IH. intros I. apply D. right. exact I.
Qed.

Lemma replace_root : forall n, dot_free n -> replace "root." "" ("root" ++ "." ++ n) = n.
Proof. intros n D. unfold replace. cbn. apply replace_id. exact D. Qed.

Lemma startswith_dot : forall p n, dot_free p -> startswith "root." (p ++ "." ++ n) = true -> p = "root".
Proof.
  intros p n D H.
  assert (K : forall x p, dot_free x -> dot_free p -> startswith (x ++ ".") (p ++ "." ++ n) = true -> p = x).
  { clear. induction x as [|a x IH]; intros p Dx D H; destruct p as [|b p]; try reflexivity.
    - cbn [append startswith] in H. apply andb_true_iff in H. destruct H as [H _]. apply Ascii.eqb_eq in H. subst b. exfalso. apply D. left. reflexivity.
    - cbn [append startswith] in H. apply andb_true_iff in H. destruct H as [H _]. apply Ascii.eqb_eq in H. subst a. exfalso. apply Dx. left. reflexivity.
    - cbn [append startswith] in H. apply andb_true_iff in H. destruct H as [H1 H2]. apply Ascii.eqb_eq in H1. subst b. f_equal. apply IH; [..|exact H2]; intros I; [apply Dx|apply D]; right; exact I. }
  apply (K "root" p); [|exact D|exact H]. apply dot_free_iff. reflexivity.
Qed.

Lemma replace_other : forall p n, dot_free p -> (forall w, p <> (w ++ "root")%string) -> dot_free n ->
  replace "root." "" (p ++ "." ++ n) = (p ++ "." ++ n)%string.
Proof.
  intros p n Dp R Dn. unfold replace. induction p as [|c p IH].
  - cbn [append replace_aux]. cbn [startswith]. change (Ascii.eqb "r" ".") with false. cbn [andb]. f_equal. apply replace_id. exact Dn.
  - change (replace_aux "root." "" 0 (String c p ++ "." ++ n)) with
      (if startswith "root." (String c p ++ "." ++ n) then ("" ++ replace_aux "root." "" 4 (p ++ "." ++ n))%string else String c (replace_aux "root." "" 0 (p ++ "." ++ n))).
    destruct (startswith "root." (String c p ++ "." ++ n)) eqn:E.
    + exfalso. apply startswith_dot in E; [|exact Dp]. apply (R ""). exact E.
    + rewrite IH; [reflexivity|intros I; apply Dp; right; exact I|]. intros w X. apply (R (String c w)). rewrite X. reflexivity.
Qed.

Lemma append_assoc' : forall a b c : string, (a ++ b ++ c)%string = ((a ++ b) ++ c)%string.
Proof. induction a as [|x a IH]; intros b c; [reflexivity|]. cbn [append]. rewrite IH. reflexivity. Qed.

Lemma title_dot : forall p n b, title_aux b (p ++ String "." n) = (title_aux b p ++ String "." (title n))%string.
Proof.
  induction p as [|c p IH]; intros n b.
  - destruct b; reflexivity.
  - cbn [append title_aux]. destruct b; rewrite IH; [reflexivity|]. apply append_assoc'.
Qed.

Lemma dot_free_via_lower : forall a b, lower a = lower b -> dot_free b -> dot_free a.
Proof.
  intros a b E D. apply dot_free_iff. apply dot_free_iff in D. rewrite <- (has_dot_lower a), E, (has_dot_lower b). exact D.
Qed.

Lemma title_cell : forall n, cell_name n -> tidy (title n) /\ dot_free (title n) /\ lower (title n) = n /\ title n <> "" /\ forall w, title n <> String "#" w.
Proof.
  intros n C. pose proof (title_lower n (cn_sharp _ C)) as L.
  split; [eapply tidy_via_lower; [symmetry; exact L|apply C]|]. split; [eapply dot_free_via_lower; [exact L|apply C]|].
  split; [rewrite L; apply C|]. split.
  - intros E. apply (cn_some _ C). rewrite <- (cn_lower _ C), <- L, E. reflexivity.
  - intros w E. apply (cn_hash _ C (lower w)). rewrite <- (cn_lower _ C), <- L, E. reflexivity.
Qed.

Definition parent_ok (p : string) : Prop := p = "root" \/ cell_name p.

Lemma name_text_reads : forall p n, parent_ok p -> cell_name n -> cell_names (name_text p n) p n
  /\ strip (name_text p n) <> "" /\ (forall w, strip (name_text p n) <> String "#" w).
Proof.
  intros p n P C. destruct (title_cell n C) as (T1 & T2 & T3 & T4 & T5). unfold name_text.
  destruct P as [->|P].
  - rewrite replace_root by apply C. rewrite (tidy_strip _ T1). split; [|split; assumption].
    rewrite <- T3 at 2. apply cell_plain; [exact T2|]. apply trimmed_iff. apply tidy_strip. exact T1.
  - destruct (title_cell p P) as (S1 & S2 & S3 & S4 & S5).
    rewrite replace_other by (apply P || apply C). unfold title at 1 2 3. change (p ++ "." ++ n)%string with (p ++ String "." n)%string. rewrite title_dot. fold (title p).
    split.
    + rewrite <- S3 at 2. rewrite <- T3 at 2. eapply cell_qualified; [reflexivity|exact S2|exact T2|apply trimmed_iff, tidy_strip, S1|apply trimmed_iff, tidy_strip, T1|exact S4].
    + destruct (title p) as [|c w] eqn:E; [congruence|].
      assert (Sp : isspace c = false) by (destruct S1 as [S1 _]; exact (S1 c w eq_refl)).
      assert (L : exists z, strip (String c w ++ String "." (title n)) = String c z).
      { unfold strip. cbn [append lstrip]. rewrite Sp. cbn [rstrip]. destruct (rstrip (w ++ String "." (title n))) eqn:Er; eauto. rewrite Sp. eauto. }
      destruct L as (z & ->). split; [discriminate|]. intros w' X. injection X as -> _. apply (S5 w). reflexivity.
Qed.

(** ** Trees in the heap *)

(** the tree [t] at [x], with its terms between [a] and [b], below [q] *)
Inductive built (s : st) (a b q : nat) : tree -> nat -> Prop :=
| built_term : forall n v kids x i, a <= x < b -> t_rt (tget x s) = n -> text_of (t_val (tget x s)) v ->
    t_parent (tget x s) = Some q -> t_section (tget x s) = Some i -> i < hlen s -> t_doc (tget i s) = true ->
    Forall2 (built s (S x) b x) kids (t_children (tget x s)) -> built s a b q (Tree n v kids) x.

Lemma built_inv : forall s a b q n v kids x, built s a b q (Tree n v kids) x ->
  a <= x < b /\ t_rt (tget x s) = n /\ text_of (t_val (tget x s)) v /\ t_parent (tget x s) = Some q
  /\ (exists i, t_section (tget x s) = Some i /\ i < hlen s /\ t_doc (tget i s) = true) /\ Forall2 (built s (S x) b x) kids (t_children (tget x s)).
Proof. intros s a b q n v kids x H. inversion H; subst. split; [assumption|]. split; [reflexivity|]. split; [assumption|]. split; [assumption|]. split; [|assumption]. eauto. Qed.

(** from [s] to [s'] terms have been added: [xs] below [q], and to the current
    section if [top]; [names] are the names used *)
Record grown_by (s s' : st) (q : nat) (xs : list nat) (top : bool) (names : list string) : Prop := {
  gb_len : hlen s <= hlen s';
  gb_same : forall i, i < hlen s -> same_term (tget i s) (tget i s');
  gb_hargs : forall i, i < hlen s -> t_hargs (tget i s') = t_hargs (tget i s);
  gb_kids : forall i, i < hlen s -> t_children (tget i s') = (t_children (tget i s) ++ if i =? q then xs else [])%list;
  gb_tops : forall i, i < hlen s -> t_terms (tget i s') = (t_terms (tget i s) ++ if top && (i =? p_lastsec (s_prs s)) then xs else [])%list;
  gb_secs : d_sections (s_doc s') = d_sections (s_doc s);
  gb_root : d_root (s_doc s') = d_root (s_doc s);
  gb_last : p_lastsec (s_prs s') = p_lastsec (s_prs s);
  gb_dterms : p_dterms (s_prs s') = p_dterms (s_prs s);
  gb_decl : d_decl_terms (s_doc s') = d_decl_terms (s_doc s);
  gb_tmap : forall k, ~ In k names -> k <> ELIDED_TERM -> dget k (p_tmap (s_prs s')) = dget k (p_tmap (s_prs s))
}.

Lemma gb_refl : forall s q top, grown_by s s q [] top [].
Proof.
  intros. split; auto; intros; try apply same_refl; [destruct (_ =? _)|destruct (_ && _)]; rewrite app_nil_r; reflexivity.
Qed.
Lemma gb_trans : forall s s1 s' q xs ys top N1 N2, grown_by s s1 q xs top N1 -> grown_by s1 s' q ys top N2 -> grown_by s s' q (xs ++ ys) top (N1 ++ N2).
Proof.
  intros s s1 s' q xs ys top N1 N2 A B. pose proof (gb_len _ _ _ _ _ _ A). pose proof (gb_len _ _ _ _ _ _ B). split.
  - lia.
  - intros i Hi. eapply same_trans; [apply A; exact Hi|apply B; lia].
  - intros i Hi. rewrite (gb_hargs _ _ _ _ _ _ B) by lia. apply A. exact Hi.
  - intros i Hi. rewrite (gb_kids _ _ _ _ _ _ B), (gb_kids _ _ _ _ _ _ A) by lia. rewrite <- app_assoc. destruct (i =? q); reflexivity.
  - intros i Hi. rewrite (gb_tops _ _ _ _ _ _ B), (gb_tops _ _ _ _ _ _ A) by lia. rewrite (gb_last _ _ _ _ _ _ A), <- app_assoc. destruct (top && _); reflexivity.
  - rewrite (gb_secs _ _ _ _ _ _ B). apply A.
  - rewrite (gb_root _ _ _ _ _ _ B). apply A.
  - rewrite (gb_last _ _ _ _ _ _ B). apply A.
  - rewrite (gb_dterms _ _ _ _ _ _ B). apply A.
  - rewrite (gb_decl _ _ _ _ _ _ B). apply A.
  - intros k K1 K2. rewrite in_app_iff in K1. rewrite (gb_tmap _ _ _ _ _ _ B) by tauto. apply A; tauto.
Qed.

(** what is elsewhere stays *)
Lemma built_frame : forall s s' q0 xs top N, grown_by s s' q0 xs top N -> forall t a b q x b', built s a b q t x -> b <= hlen s -> b <= b' -> (q0 < a \/ b <= q0) -> built s' a b' q t x.
Proof.
  intros s s' q0 xs top N G t. induction t as [n v kids IH] using tree_ind'. intros a b q x b' H Hb Hb' Hq.
  apply built_inv in H. destruct H as (Hx & R & V & P & (i & Si & Hi & Di) & K).
  pose proof (gb_same _ _ _ _ _ _ G x ltac:(lia)) as M. pose proof (gb_same _ _ _ _ _ _ G i Hi) as Mi. pose proof (gb_len _ _ _ _ _ _ G).
  apply built_term with (i := i); [lia|rewrite (sm_rt _ _ M); exact R|rewrite (sm_val _ _ M); exact V|rewrite (sm_parent _ _ M); exact P|rewrite (sm_section _ _ M); exact Si|lia|rewrite (sm_doc _ _ Mi); exact Di|].
  rewrite (gb_kids _ _ _ _ _ _ G) by lia. replace (x =? q0) with false by (symmetry; apply Nat.eqb_neq; lia). rewrite app_nil_r.
  revert IH. induction K as [|k c ks cs K1 K2 IHk]; intros IH; [constructor|]. inversion IH as [|? ? IH1 IH2]; subst. constructor; [|apply IHk; assumption].
  eapply IH1; [exact K1|lia|lia|lia].
Qed.

Lemma built_wider : forall s t a b a' b' q x, built s a b q t x -> a' <= a -> b <= b' -> built s a' b' q t x.
Proof.
  intros s t. induction t as [n v kids IH] using tree_ind'. intros a b a' b' q x H Ha Hb. apply built_inv in H. destruct H as (Hx & R & V & P & (i & Si & Hi & Di) & K).
  apply built_term with (i := i); auto; [lia|]. revert IH. induction K as [|k c ks cs K1 K2 IHk]; intros IH; [constructor|]. inversion IH as [|? ? IH1 IH2]; subst. constructor; [|apply IHk; assumption].
  eapply IH1; [exact K1|lia|lia].
Qed.

Lemma map_eq_Forall2 : forall {A B C} (f : A -> C) (g : B -> C) l m, map f l = map g m -> Forall2 (fun b a => f a = g b) m l.
Proof.
  intros A B C f g l. induction l as [|a l IH]; intros [|b m] H; try discriminate H; [constructor|]. injection H as H1 H2. constructor; auto.
Qed.

Definition leaf_tree (nc : string * string) : tree := Tree (fst nc) (snd nc) [].

Fixpoint all_names (t : tree) : list string := match t with Tree n _ kids => n :: flat_map all_names kids end.

Lemma names_fresh : forall dt cols t above p, writable dt cols above p t -> forall m, In m (all_names t) -> ~ In m above.
Proof.
  intros dt cols t. induction t as [n v kids IH] using tree_ind'. intros above p W m I. apply writable_inv in W. destruct W as (_ & Na & _ & _ & _ & _ & _ & _ & Wk).
  cbn [all_names] in I. destruct I as [<-|I]; [exact Na|]. apply in_flat_map in I. destruct I as (k & Ik & I). rewrite Forall_forall in *. intros J. apply (IH k Ik _ _ (Wk k Ik) m I). right. exact J.
Qed.
Lemma names_cell : forall dt cols t above p, writable dt cols above p t -> ~ In "root" (all_names t).
Proof.
  intros dt cols t. induction t as [n v kids IH] using tree_ind'. intros above p W I. apply writable_inv in W. destruct W as (C & _ & _ & _ & _ & _ & _ & _ & Wk).
  cbn [all_names] in I. destruct I as [->|I]; [exact (cn_root _ C "" eq_refl)|]. apply in_flat_map in I. destruct I as (k & Ik & I). rewrite Forall_forall in *. exact (IH k Ik _ _ (Wk k Ik) I).
Qed.

Lemma nth_error_here : forall {A} (pre : list A) c cs, nth_error (pre ++ c :: cs) (List.length pre) = Some c.
Proof. intros A pre c cs. rewrite nth_error_app2 by lia. rewrite Nat.sub_diag. reflexivity. Qed.

Lemma find_in : forall n L t, NoDup (map name_of L) -> In t L -> name_of t = n -> find (called n) L = Some t /\ filter (called n) L = [t].
Proof.
  intros n L. induction L as [|u L IH]; intros t ND I E; [destruct I|]. cbn [map] in ND. apply NoDup_cons_iff in ND. destruct ND as [Nu ND]. cbn [find filter]. destruct (called n u) eqn:Cu.
  - apply called_name in Cu. destruct I as [->|I]; [|exfalso; apply Nu; rewrite Cu, <- E; apply in_map; exact I]. split; [reflexivity|]. f_equal. apply filter_none. intros x Ix. destruct (called n x) eqn:Cx; [|reflexivity].
    apply called_name in Cx. exfalso. apply Nu. rewrite Cu, <- Cx. apply in_map. exact Ix.
  - destruct I as [->|I]; [rewrite (proj2 (called_name n t) E) in Cu; discriminate Cu|]. apply IH; assumption.
Qed.
Lemma nodup_names_filter : forall f L, NoDup (map name_of L) -> NoDup (map name_of (filter f L)).
Proof.
  intros f L. induction L as [|t L IH]; intros ND; [constructor|]. cbn [map] in ND. apply NoDup_cons_iff in ND. destruct ND as [N1 N2]. cbn [filter]. destruct (f t); [|apply IH; exact N2].
  cbn [map]. constructor; [|apply IH; exact N2]. intros I. apply N1. apply in_map_iff in I. destruct I as (u & E & I). apply filter_In in I. rewrite <- E. apply in_map, I.
Qed.

Lemma cells_columns : forall cs pre L, NoDup (map name_of L) -> (forall k, In k L -> name_of k <> "" /\ (has_column cs k = true -> value_of k <> "")) ->
  cells_from (pre ++ cs) (List.length pre) (cell_texts cs L) = map (fun t => (name_of t, value_of t)) (in_columns cs L).
Proof.
  induction cs as [|c cs IH]; intros pre L ND HL; [reflexivity|]. cbn [cell_texts cells_from in_columns].
  assert (R : cells_from (pre ++ c :: cs) (S (List.length pre)) (cell_texts cs (filter (fun t => negb (called (lower c) t)) L))
              = map (fun t => (name_of t, value_of t)) (in_columns cs (filter (fun t => negb (called (lower c) t)) L))).
  { replace (pre ++ c :: cs)%list with ((pre ++ [c]) ++ cs)%list by (rewrite <- app_assoc; reflexivity). replace (S (List.length pre)) with (List.length (pre ++ [c])) by (rewrite app_length; cbn; lia).
    apply IH; [apply nodup_names_filter; exact ND|]. intros k I. apply filter_In in I. destruct I as [I _]. destruct (HL k I) as [H1 H2]. split; [exact H1|]. intros H. apply H2. unfold has_column in *. cbn [existsb]. rewrite H. apply orb_true_r. }
  rewrite R. clear R. destruct (find (called (lower c)) L) as [t|] eqn:F.
  - apply find_some in F. destruct F as [I Ct]. apply called_name in Ct. destruct (find_in _ _ _ ND I Ct) as [_ ->]. destruct (HL t I) as [H1 H2].
    assert (Vt : value_of t <> "") by (apply H2; unfold has_column; cbn [existsb]; rewrite Ct, String.eqb_refl; reflexivity).
    apply eqs_false in Vt. rewrite Vt. cbn [app map]. f_equal. f_equal. unfold column_name. rewrite nth_error_here.
    eqs_cases c ""; [exfalso; apply H1; rewrite Ct; subst c; reflexivity|]. symmetry. exact Ct.
  - rewrite (filter_none (called (lower c)) L); [reflexivity|]. intros x Ix. exact (find_none _ _ F x Ix).
Qed.

Lemma map_leaf : forall l, (forall k, In k l -> childless k = true) -> map (fun t => leaf_tree (name_of t, value_of t)) l = l.
Proof.
  intros l. induction l as [|[n v kids] l IH]; intros H; [reflexivity|]. cbn [map]. rewrite IH by (intros k I; apply H; right; exact I).
  pose proof (H _ (or_introl eq_refl)) as C. destruct kids; [reflexivity|discriminate C].
Qed.

Lemma tidy_texts : forall cols L, (forall k, In k L -> tidy (value_of k)) -> Forall tidy (cell_texts cols L).
Proof.
  intros cols. induction cols as [|c cs IH]; intros L H; [constructor|]. cbn [cell_texts]. constructor.
  - destruct (find _ L) as [t|] eqn:F; [apply find_some in F; apply H, F|]. split; intros a w E; [discriminate E|destruct w; discriminate E].
  - apply IH. intros k I. apply filter_In in I. apply H, I.
Qed.

(** ** Rows one after the other *)

Section Read.
Variables (e : env) (rec : source -> option string -> MM unit) (src : source).
Variable decl : string -> list string.

Definition steps (rows : list (list string)) (n k : nat) (s : st) (k' : nat) (s' : st) : Prop :=
  forall post, rows_loop e true rec src None n (rows ++ post) k s = rows_loop e true rec src None (n + List.length rows) post k' s'.

Lemma steps_nil : forall n k s, steps [] n k s k s.
Proof. intros n k s post. cbn [app List.length]. rewrite Nat.add_0_r. reflexivity. Qed.
Lemma steps_app : forall a b n k s k1 s1 k' s', steps a n k s k1 s1 -> steps b (n + List.length a) k1 s1 k' s' -> steps (a ++ b) n k s k' s'.
Proof.
  intros a b n k s k1 s1 k' s' H1 H2 post. rewrite <- app_assoc, H1, H2, app_length, Nat.add_assoc. reflexivity.
Qed.

Record okv (cols : list string) (v : view) (s : st) : Prop := {
  ov_vinv : vinv decl v s;
  ov_cls : plain_cls s;
  ov_cols : v_cols v = cols;
  ov_sec : ~ In "section" (map lower cols)
}.

Lemma step_row : forall cols v s row l k, okv cols v s -> reads row l -> usual l -> sound l -> ~ missing_parent s row ->
  exists k' s', steps [row] (v_line v) k s k' s' /\ row_eff None (v_line v) row s s' /\ vinv decl (next decl v l) s' /\ plain_cls s'
    /\ (forall p r x cells, l = LTerm p r x cells -> exists c q, term_row None (v_line v) p r row cols s s' c q).
Proof.
  intros cols v s row l k [V PC Vc Ns] R U So NM.
  assert (NoS : ~ In "section" (p_pmap (s_prs s))).
  { rewrite (vi_pmap _ _ _ V). apply munge_no_section. rewrite Vc. exact Ns. }
  assert (Ft : @None string <> Some "declare") by discriminate.
  destruct (row_step e true rec src None (v_line v) row k s) as [s1 [k1|err]] eqn:E.
  - exists k1, s1. pose proof E as E'. apply row_step_eff in E'; [|exact Ft|apply V|eapply usual_ordinary; eassumption|apply welcome_all].
    destruct E' as (RE & P1 & _). destruct (vinv_row _ _ _ _ _ _ _ Ft V P1 R U (greets_all _) RE) as [V1 T1]. rewrite Vc in T1.
    split; [|split; [exact RE|split; [exact V1|split; [eapply plain_cls_same; [eapply row_eff_cls; exact RE|exact PC]|exact T1]]]].
    intros post. cbn [app rows_loop List.length]. unfold bind at 1. rewrite E. rewrite Nat.add_1_r. reflexivity.
  - exfalso. apply row_step_err in E; auto; [apply NM; apply E|apply V|eapply usual_ordinary; eassumption|apply welcome_all|eapply sound_line_row; eassumption].
Qed.

(** the rows put the trees below the term last called [p] *)
Definition runs (cols : list string) (p : string) (rows : list (list string)) (ts : list tree) (names : list string) : Prop :=
  forall v s q k, okv cols v s -> dget p (p_tmap (s_prs s)) = Some q ->
  exists v' s' k' xs, steps rows (v_line v) k s k' s' /\ okv cols v' s' /\ v_line v' = v_line v + List.length rows
    /\ grown_by s s' q xs (eqs p "root") names /\ Forall2 (built s' (hlen s) (hlen s') q) ts xs.

Lemma runs_nil : forall cols p, runs cols p [] [] [].
Proof.
  intros cols p v s q k O Q. exists v, s, k, []. split; [apply steps_nil|]. split; [exact O|]. split; [cbn; lia|]. split; [apply gb_refl|constructor].
Qed.

Lemma runs_app : forall cols p r1 r2 t1 t2 N1 N2, p <> ELIDED_TERM -> ~ In p N1 -> runs cols p r1 t1 N1 -> runs cols p r2 t2 N2 ->
  runs cols p (r1 ++ r2) (t1 ++ t2) (N1 ++ N2).
Proof.
  intros cols p r1 r2 t1 t2 N1 N2 Pe Pn R1 R2 v s q k O Q.
  destruct (R1 v s q k O Q) as (v1 & s1 & k1 & xs & S1 & O1 & L1 & G1 & B1).
  assert (Q1 : dget p (p_tmap (s_prs s1)) = Some q) by (rewrite (gb_tmap _ _ _ _ _ _ G1) by assumption; exact Q).
  destruct (R2 v1 s1 q k1 O1 Q1) as (v2 & s2 & k2 & ys & S2 & O2 & L2 & G2 & B2).
  assert (Hq : q < hlen s) by (eapply pi_tmap; [apply (ov_vinv _ _ _ O)|exact Q]).
  pose proof (gb_len _ _ _ _ _ _ G1). pose proof (gb_len _ _ _ _ _ _ G2).
  exists v2, s2, k2, (xs ++ ys)%list. split; [eapply steps_app; [exact S1|rewrite <- L1; exact S2]|]. split; [exact O2|].
  split; [rewrite L2, L1, app_length; lia|]. split; [eapply gb_trans; eassumption|]. apply Forall2_app.
  - clear - B1 G2 Hq H H0. induction B1 as [|t x ts xs B1 _ IH]; constructor; [|exact IH]. eapply built_frame; [exact G2|exact B1|lia|lia|lia].
  - clear - B2 H. induction B2 as [|t x ts ys B2 _ IH]; constructor; [|exact IH]. eapply built_wider; [exact B2|lia|lia].
Qed.

Lemma init_text : forall v, strip v = v -> text_of (init_val (VStr v)) v.
Proof.
  intros v T. unfold init_val. cbn [truthy]. unfold nonempty. eqs_cases v ""; cbn [negb]; [subst; constructor|]. cbn [strip_val]. rewrite T. constructor.
Qed.

(** one row *)
Lemma runs_row : forall cols p n x cells rows ks N, parent_ok p -> cell_name n -> p <> n -> ~ In n N ->
  (p = "root" -> ~ In n ["section"; "header"; "include"; "declare"]) -> ~ (p = "datafile" /\ n = "section") ->
  tidy x -> Forall tidy cells ->
  runs cols n rows ks N ->
  runs cols p ((name_text p n :: x :: cells) :: rows) [Tree n x (map leaf_tree (cells_from cols 0 cells) ++ ks)] (n :: N).
Proof.
  intros cols p n x cells rows ks N P C Npn Nn Top Df Tx Tc RK v s q k O Q.
  set (row := name_text p n :: x :: cells).
  pose proof (name_text_reads p n P C) as (CN & NT1 & NT2).
  assert (Sc : map strip cells = cells).
  { clear - Tc. induction Tc as [|c cs T _ IH]; [reflexivity|]. cbn. rewrite (tidy_strip _ T), IH. reflexivity. }
  assert (Pe : p <> ELIDED_TERM).
  { destruct P as [->|P]; [discriminate|apply P]. }
  assert (Rd : reads row (LTerm p n x cells)).
  { replace (LTerm p n x cells) with (LTerm p n (strip (nth 1 row "")) (map strip (skipn 2 row))) by (change (nth 1 row "") with x; change (skipn 2 row) with cells; rewrite (tidy_strip _ Tx), Sc; reflexivity).
    apply reads_term; [|exact CN|].
    - intros [B|(c & cs & B & H)]; [discriminate B|]. injection B as <- <-. destruct H as [H|[w H]].
      + apply white_strip in H. contradiction.
      + apply trimmed_iff in H. exact (NT2 _ H).
    - intros E I. apply (Top E). destruct I as [<-|[<-|[]]]; cbn; auto. }
  assert (U : usual (LTerm p n x cells)).
  { cbn. split; [apply C|]. split; [apply C|]. split; [exact (cn_root _ C "")|]. split; [intros E; contradiction|].
    intros E I. apply (Top E). destruct I as [<-|[<-|[]]]; cbn; auto. }
  assert (So : sound (LTerm p n x cells)) by (split; [apply C|exact Df]).
  destruct (step_row cols v s row _ k O Rd U So) as (k1 & s1 & S1 & _ & V1 & PC1 & T1).
  { intros (_ & p' & r' & CN' & _ & _ & X). change (hd "" row) with (name_text p n) in CN'. destruct (cell_names_fun _ _ _ _ _ CN CN') as [<- <-]. congruence. }
  destruct (T1 _ _ _ _ eq_refl) as (c & q' & T). clear T1.
  assert (Q' : q' = q).
  { pose proof (tr_look _ _ _ _ _ _ _ _ _ _ T) as L. apply eqs_false in Pe. rewrite Pe in L. apply eqs_false in Npn. rewrite Npn in L. congruence. }
  subst q'.
  pose proof (ov_vinv _ _ _ O) as V. pose proof (vi_pinv _ _ _ V) as PI.
  assert (Hq : q < hlen s) by (eapply pi_tmap; [exact PI|exact Q]).
  assert (PeB : eqs p ELIDED_TERM = false) by (apply eqs_false; exact Pe).
  assert (Fp : final_pt s (row_rec c (v_line v) None p n row) = p) by (unfold final_pt; change (t_pt (row_rec c (v_line v) None p n row)) with p; rewrite PeB; reflexivity).
  pose proof (tr_len _ _ _ _ _ _ _ _ _ _ T) as Len.
  pose proof (tr_prs _ _ _ _ _ _ _ _ _ _ T) as Prs. rewrite PeB in Prs.
  assert (O1 : okv cols (next decl v (LTerm p n x cells)) s1).
  { split; [exact V1|exact PC1| |apply O]. cbn [next]. change current_parent with ELIDED_TERM. rewrite PeB. apply O. }
  assert (Tm : dget n (p_tmap (s_prs s1)) = Some (hlen s)) by (rewrite Prs; cbn [p_tmap reg_prs set_p_tmap]; apply dget_dset_same).
  assert (G1 : grown_by s s1 q [hlen s] (eqs p "root") [n]).
  { split.
    - lia.
    - intros i Hi. pose proof (tr_get _ _ _ _ _ _ _ _ _ _ T i ltac:(lia)) as H. cbn zeta in H. replace (i =? hlen s) with false in H by (symmetry; apply Nat.eqb_neq; lia). apply H.
    - intros i Hi. pose proof (tr_get _ _ _ _ _ _ _ _ _ _ T i ltac:(lia)) as H. cbn zeta in H. replace (i =? hlen s) with false in H by (symmetry; apply Nat.eqb_neq; lia). apply H.
    - intros i Hi. pose proof (tr_get _ _ _ _ _ _ _ _ _ _ T i ltac:(lia)) as H. cbn zeta in H. rewrite PeB in H. replace (i =? hlen s) with false in H by (symmetry; apply Nat.eqb_neq; lia).
      destruct H as (_ & _ & _ & H & _). rewrite H, app_nil_r. reflexivity.
    - intros i Hi. pose proof (tr_get _ _ _ _ _ _ _ _ _ _ T i ltac:(lia)) as H. cbn zeta in H. rewrite PeB, Fp in H. replace (i =? hlen s) with false in H by (symmetry; apply Nat.eqb_neq; lia).
      destruct H as (_ & _ & _ & _ & H). exact H.
    - rewrite (tr_doc _ _ _ _ _ _ _ _ _ _ T), Fp. destruct (eqs p "root"); reflexivity.
    - rewrite (tr_doc _ _ _ _ _ _ _ _ _ _ T), Fp. destruct (eqs p "root"); reflexivity.
    - rewrite Prs. reflexivity.
    - rewrite Prs. reflexivity.
    - rewrite (tr_doc _ _ _ _ _ _ _ _ _ _ T), Fp. destruct (eqs p "root"); reflexivity.
    - intros m K1 K2. rewrite Prs. cbn [p_tmap reg_prs set_p_tmap]. rewrite !dget_dset_other; [reflexivity|exact K2|intros ->; apply K1; left; reflexivity]. }
  assert (B1 : built s1 (hlen s) (hlen s1) q (Tree n x (map leaf_tree (cells_from cols 0 cells))) (hlen s)).
  { pose proof (tr_get _ _ _ _ _ _ _ _ _ _ T (hlen s) ltac:(lia)) as H. cbn zeta in H. rewrite PeB, Nat.eqb_refl in H.
    destruct H as (M & _ & _ & Hk & _). pose proof (settled_fields s q (row_rec c (v_line v) None p n row)) as SF. cbn zeta in SF.
    destruct SF as (_&F2&_&_&F5&F6&_&F8&_&_&_&_&F13&_).
    assert (Sd : t_doc (tget (p_lastsec (s_prs s)) s1) = true).
    { rewrite (sm_doc _ _ (gb_same _ _ _ _ _ _ G1 _ (pi_last _ PI))). apply (ps_doc _ (pi_lastdoc _ PI)). }
    pose proof (pi_last _ PI) as Hl.
    apply built_term with (i := p_lastsec (s_prs s)).
    - lia.
    - rewrite (sm_rt _ _ M), F5. change (t_rt (row_rec c (v_line v) None p n row)) with n. unfold renamed. rewrite (cn_int _ C). reflexivity.
    - rewrite (sm_val _ _ M), F6. change (t_val (row_rec c (v_line v) None p n row)) with (init_val (VStr x)). apply init_text. apply tidy_strip. exact Tx.
    - rewrite (sm_parent _ _ M), F2. reflexivity.
    - rewrite (sm_section _ _ M), F8. reflexivity.
    - lia.
    - exact Sd.
    - rewrite Hk, F13. change (t_children (row_rec c (v_line v) None p n row)) with (@nil nat). replace (hlen s =? q) with false by (symmetry; apply Nat.eqb_neq; lia). cbn [app].
      pose proof (tr_cells _ _ _ _ _ _ _ _ _ _ T) as Ce. change (skipn 2 row) with cells in Ce. rewrite Sc in Ce. apply map_eq_Forall2 in Ce.
      assert (I : Forall (fun i => S (hlen s) <= i < hlen s1) (seq (S (hlen s)) (hlen s1 - S (hlen s)))) by (apply Forall_forall; intros i I; apply in_seq in I; lia).
      clear Hk. revert I. induction Ce as [|nc i ncs is_ E Ce IH]; intros I; cbn [map]; [constructor|]. inversion I as [|? ? I1 I2]; subst. constructor; [|apply IH; exact I2].
      injection E as E1 E2. destruct (tr_new _ _ _ _ _ _ _ _ _ _ T i I1) as (_ & _ & _ & Np & Nc & _ & Ns & _). rewrite PeB in Np.
      apply built_term with (i := p_lastsec (s_prs s)); [lia|exact E1|rewrite E2; constructor|exact Np|exact Ns|lia|exact Sd|rewrite Nc; constructor]. }
  destruct (RK _ s1 (hlen s) k1 O1 Tm) as (v2 & s2 & k2 & ys & S2 & O2 & L2 & G2 & B2).
  assert (Rf : eqs n "root" = false) by (apply eqs_false; exact (cn_root _ C "")). rewrite Rf in G2.
  pose proof (gb_len _ _ _ _ _ _ G2) as Len2.
  assert (Ln : v_line (next decl v (LTerm p n x cells)) = S (v_line v)) by apply next_line.
  exists v2, s2, k2, [hlen s].
  split; [change (row :: rows) with ([row] ++ rows)%list; eapply steps_app; [exact S1|]; replace (v_line v + List.length [row]) with (v_line (next decl v (LTerm p n x cells))) by (rewrite Ln; cbn; lia); exact S2|].
  split; [exact O2|]. split; [rewrite L2, Ln; cbn [List.length]; lia|]. split.
  - pose proof (gb_len _ _ _ _ _ _ G1) as Len1. split.
    + lia.
    + intros i Hi. eapply same_trans; [apply G1; exact Hi|apply G2; lia].
    + intros i Hi. rewrite (gb_hargs _ _ _ _ _ _ G2) by lia. apply G1. exact Hi.
    + intros i Hi. rewrite (gb_kids _ _ _ _ _ _ G2) by lia. replace (i =? hlen s) with false by (symmetry; apply Nat.eqb_neq; lia). rewrite app_nil_r. apply G1. exact Hi.
    + intros i Hi. rewrite (gb_tops _ _ _ _ _ _ G2) by lia. cbn [andb]. rewrite app_nil_r. apply G1. exact Hi.
    + rewrite (gb_secs _ _ _ _ _ _ G2). apply G1.
    + rewrite (gb_root _ _ _ _ _ _ G2). apply G1.
    + rewrite (gb_last _ _ _ _ _ _ G2). apply G1.
    + rewrite (gb_dterms _ _ _ _ _ _ G2). apply G1.
    + rewrite (gb_decl _ _ _ _ _ _ G2). apply G1.
    + intros m K1 K2. rewrite (gb_tmap _ _ _ _ _ _ G2); [apply G1; [intros [->|[]]; apply K1; left; reflexivity|exact K2]|intros I; apply K1; right; exact I|exact K2].
  - constructor; [|constructor]. apply built_inv in B1. destruct B1 as (Hx & R & Vx & Px & (i & Si & Hi & Di) & K).
    pose proof (gb_same _ _ _ _ _ _ G2 (hlen s) ltac:(lia)) as M. pose proof (gb_same _ _ _ _ _ _ G2 i Hi) as Mi.
    apply built_term with (i := i); [lia|rewrite (sm_rt _ _ M); exact R|rewrite (sm_val _ _ M); exact Vx|rewrite (sm_parent _ _ M); exact Px|rewrite (sm_section _ _ M); exact Si|lia|rewrite (sm_doc _ _ Mi); exact Di|].
    rewrite (gb_kids _ _ _ _ _ _ G2) by lia. rewrite Nat.eqb_refl. apply Forall2_app.
    + clear - K G2 Len2. induction K as [|t y ts zs K1 K2 IH]; constructor; [|exact IH]. eapply built_frame; [exact G2|exact K1|lia|lia|left; lia].
    + clear - B2 Len. induction B2 as [|t y ts zs K1 K2 IH]; constructor; [|exact IH]. eapply built_wider; [exact K1|lia|lia].
Qed.

Lemma runs_weaken : forall cols p rows ts N N', incl N N' -> runs cols p rows ts N -> runs cols p rows ts N'.
Proof.
  intros cols p rows ts N N' I R v s q k O Q. destruct (R v s q k O Q) as (v' & s' & k' & xs & S1 & O1 & L1 & G & B).
  exists v', s', k', xs. split; [exact S1|]. split; [exact O1|]. split; [exact L1|]. split; [|exact B]. destruct G. split; auto.
Qed.

Lemma runs_flat : forall cols p (f : tree -> list (list string)) (g : tree -> list tree) l, p <> ELIDED_TERM ->
  Forall (fun t => ~ In p (all_names t) /\ runs cols p (f t) (g t) (all_names t)) l ->
  runs cols p (flat_map f l) (flat_map g l) (flat_map all_names l).
Proof.
  intros cols p f g l Pe H. induction H as [|t l [Hn Hr] _ IH]; [apply runs_nil|]. cbn [flat_map]. apply runs_app; assumption.
Qed.

Lemma flat_map_single : forall {A B} (f : A -> B) l, flat_map (fun a => [f a]) l = map f l.
Proof. intros A B f l. induction l as [|a l IH]; [reflexivity|]. cbn. rewrite IH. reflexivity. Qed.

Lemma runs_tree : forall dt cols, Forall tidy cols -> forall t above p, writable dt cols above p t -> p = "root" \/ (In p above /\ cell_name p) ->
  (p = "root" -> ~ In (name_of t) ["section"; "header"; "include"; "declare"]) -> ~ (p = "datafile" /\ name_of t = "section") ->
  runs cols p (tree_rows cols p t) [arrange cols t] (all_names t).
Proof.
  intros dt cols Tcol t. induction t as [n v kids IH] using tree_ind'. intros above p W P Top Df.
  pose proof (writable_inv _ _ _ _ _ _ _ W) as (C & Na & Tv & Vn1 & Vn2 & ND & Vc & Dk & Wk).
  assert (Po : parent_ok p) by (destruct P as [P|[_ P]]; [left|right]; exact P).
  assert (Pn : p <> n) by (destruct P as [->|[P _]]; [intros <-; exact (cn_root _ C "" eq_refl)|intros ->; contradiction]).
  assert (Ne : n <> ELIDED_TERM) by apply C.
  assert (Nk : forall k, In k kids -> ~ In n (all_names k)).
  { intros k I J. rewrite Forall_forall in Wk. apply (names_fresh _ _ _ _ _ (Wk k I) n J). left. reflexivity. }
  assert (Nr : n <> "root") by exact (cn_root _ C "").
  assert (Dk' : forall k, In k kids -> ~ (n = "datafile" /\ name_of k = "section")).
  { intros k I [E1 E2]. apply Dk. split; [exact E1|]. rewrite <- E2. apply in_map. exact I. }
  cbn [tree_rows arrange all_names name_of] in *.
  set (L := filter childless kids) in *.
  assert (HL : forall k, In k L -> In k kids /\ childless k = true) by (intros k I; apply filter_In in I; exact I).
  assert (WL : forall k, In k L -> cell_name (name_of k) /\ tidy (value_of k)).
  { intros k I. rewrite Forall_forall in Wk. destruct (HL k I) as [I' _]. destruct k as [m x ks]. pose proof (writable_inv _ _ _ _ _ _ _ (Wk _ I')) as (H1 & _ & H2 & _). split; assumption. }
  replace (in_columns cols L) with (map leaf_tree (cells_from cols 0 (cell_texts cols L))).
  2: { change (cells_from cols 0 (cell_texts cols L)) with (cells_from ([] ++ cols) (List.length (@nil string)) (cell_texts cols L)). rewrite cells_columns.
    - rewrite map_map. apply map_leaf. intros k I. apply in_columns_has in I. apply HL, I.
    - exact ND.
    - intros k I. split; [apply (cn_some _ (proj1 (WL k I)))|]. intros H. destruct (HL k I) as [I' Ck]. apply Vc; assumption. }
  apply runs_row; auto.
  - intros I. apply in_flat_map in I. destruct I as (k & Ik & I). exact (Nk k Ik I).
  - apply tidy_texts. intros k I. apply WL. exact I.
  - set (lo := leftover cols L). change (filter (fun k => negb (has_column cols k)) L) with lo.
    apply runs_weaken with (N := (flat_map all_names lo ++ flat_map all_names kids)%list).
    + intros m I. apply in_app_iff in I. destruct I as [I|I]; [|exact I]. apply in_flat_map in I. destruct I as (k & Ik & I). apply in_flat_map. exists k. split; [|exact I].
      unfold lo, leftover in Ik. apply filter_In in Ik. apply HL. apply Ik.
    + apply runs_app; auto.
      * intros I. apply in_flat_map in I. destruct I as (k & Ik & I). unfold lo, leftover in Ik. apply filter_In in Ik. apply (Nk k); [apply HL, Ik|exact I].
      * rewrite <- flat_map_single. assert (E : lo = flat_map (fun k => [k]) lo) by (rewrite flat_map_single, map_id; reflexivity). rewrite E at 2. apply runs_flat; [exact Ne|]. apply Forall_forall. intros k Ik. unfold lo, leftover in Ik. apply filter_In in Ik. destruct Ik as [Ik _].
        destruct (HL k Ik) as [I' Ck]. split; [apply Nk; exact I'|]. destruct (WL k Ik) as [Ck1 Ck2]. pose proof (Nk k I') as Nm. pose proof (Dk' k I') as Dm.
        destruct k as [m x [|]]; [|discriminate Ck]. cbn [name_of value_of all_names flat_map] in *. apply (runs_row cols n m x [] [] [] []); [right; exact C|exact Ck1|intros ->; apply Nm; left; reflexivity|intros []|intros E'; contradiction|exact Dm|exact Ck2|constructor|apply runs_nil].
      * apply runs_flat; [exact Ne|]. rewrite Forall_forall in *. intros k Ik. split; [apply Nk; exact Ik|]. destruct (childless k) eqn:Ck.
        { apply runs_weaken with (N := []); [intros m []|apply runs_nil]. }
        { eapply IH; [exact Ik|apply Wk; exact Ik|right; split; [left; reflexivity|exact C]|intros E'; contradiction|apply Dk'; exact Ik]. }
Qed.

Lemma runs_terms : forall dt cols terms, Forall tidy cols -> Forall (writable_top dt cols) terms ->
  runs cols "root" (flat_map (tree_rows cols "root") terms) (map (arrange cols) terms) (flat_map all_names terms).
Proof.
  intros dt cols terms Tc H. rewrite <- flat_map_single. apply runs_flat; [discriminate|]. apply Forall_forall. intros t I. rewrite Forall_forall in H. destruct (H t I) as [W Sp]. split.
  - intros J. exact (names_cell _ _ _ _ _ W J).
  - eapply runs_tree; [exact Tc|exact W|left; reflexivity|intros _; exact Sp|intros [E _]; discriminate E].
Qed.
End Read.
