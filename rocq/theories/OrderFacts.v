(** * OrderFacts: proofs for C29 - C32 *)

From Verif Require Import StrFacts SpecNames NameFacts HeapFacts SpecOrder Ops.

(** ** sort_sections *)

Lemma mem_str_in : forall k l, mem_str k l = true <-> In k l.
Proof.
  intros. unfold mem_str. rewrite existsb_exists. split.
  - intros (x & H & E). apply eqs_true in E. subst. exact H.
  - intros H. exists k. split; [exact H|apply eqs_refl].
Qed.

(** dict built from a list of pairs in which equal keys carry equal values *)
Definition picks {A} (secs : dict A) (order : list string) : list (string * A) :=
  concat (map (fun k => match dget k secs with Some i => [(k, i)] | None => [] end) order).

Lemma dget_in_nodup : forall {A} (d : dict A) k v, In (k, v) d -> NoDup (dkeys d) -> dget k d = Some v.
Proof. intros A d k v H1 H2. apply dget_some; assumption. Qed.

Lemma dset_same : forall {A} (d : dict A) k v, dget k d = Some v -> dset k v d = d.
Proof.
  induction d as [|[k' v'] d IH]; simpl; intros k v H; [discriminate|].
  destruct (eqs k k'); [injection H as ->; reflexivity|]. rewrite IH by exact H. reflexivity.
Qed.

(** the fold that builds [first], started from the entries for a prefix *)
Lemma first_fold : forall {A} (secs : dict A) order pre d,
  NoDup (dkeys d) ->
  (forall kv, In kv d <-> dget (fst kv) secs = Some (snd kv) /\ In (fst kv) pre) ->
  StronglySorted (fun a b => position (fst a) pre < position (fst b) pre) d ->
  let d' := dupdate d (picks secs order) in
  NoDup (dkeys d')
  /\ (forall kv, In kv d' <-> dget (fst kv) secs = Some (snd kv) /\ In (fst kv) (pre ++ order))
  /\ StronglySorted (fun a b => position (fst a) (pre ++ order) < position (fst b) (pre ++ order)) d'.
Proof.
  intros A secs. 
  assert (posapp : forall k l l', In k l -> position k (l ++ l') = position k l).
  { induction l; simpl; intros l' H; [tauto|]. destruct (String.eqb k a) eqn:E; [reflexivity|].
    rewrite IHl; [reflexivity|]. destruct H as [->|H]; [rewrite String.eqb_refl in E; discriminate|exact H]. }
  assert (posnew : forall k l, ~ In k l -> position k (l ++ [k]) = List.length l).
  { induction l; simpl; intros H; [rewrite String.eqb_refl; reflexivity|].
    destruct (String.eqb k a) eqn:E; [apply String.eqb_eq in E; subst; tauto|]. rewrite IHl by tauto. reflexivity. }
  assert (poslt : forall k l, In k l -> position k l < List.length l).
  { induction l; simpl; intros H; [tauto|]. destruct (String.eqb k a) eqn:E; [lia|].
    destruct H as [->|H]; [rewrite String.eqb_refl in E; discriminate|]. apply IHl in H. lia. }
  induction order as [|k order IH]; intros pre d Hn Hin Hs d'.
  - subst d'. cbn. rewrite app_nil_r. auto.
  - subst d'. unfold picks. cbn [map concat]. fold (picks secs order).
    unfold dupdate. rewrite fold_left_app. fold (dupdate (A:=A)).
    replace (pre ++ k :: order) with ((pre ++ [k]) ++ order) by (rewrite <- app_assoc; reflexivity).
    destruct (dget k secs) as [i|] eqn:E; cbn [fold_left fst snd].
    + destruct (in_dec string_dec k pre) as [Hk|Hk].
      * (* already there *)
        assert (Hd : dget k d = Some i). { apply dget_in_nodup; [|exact Hn]. apply Hin. auto. }
        rewrite dset_same by exact Hd. apply IH; [exact Hn| |].
        -- intros kv. rewrite Hin, in_app_iff. simpl. split; [tauto|]. intros [H1 [H2|[H2|[]]]]; [tauto|].
           subst. tauto.
        -- assert (Hall : forall x, In x d -> position (fst x) (pre ++ [k]) = position (fst x) pre).
           { intros x Hx. apply posapp. apply Hin in Hx. tauto. }
           clear - Hs Hall. induction Hs; constructor.
           ++ apply IHHs. intros x Hx. apply Hall. right. exact Hx.
           ++ rewrite Forall_forall in *. intros x Hx. rewrite !Hall by (simpl; auto). apply H. exact Hx.
      * assert (Hd : dget k d = None).
        { destruct (dget k d) eqn:E2; [|reflexivity]. apply dget_in in E2. apply Hin in E2. simpl in E2. tauto. }
        rewrite dset_absent by exact Hd. apply IH.
        -- rewrite <- (dset_absent k i d Hd). apply nodup_dset. exact Hn.
        -- intros [k' v']. rewrite in_app_iff, Hin, in_app_iff. cbn [fst snd In]. split.
           ++ intros [H|[H|[]]]; [tauto|]. inversion H; subst. auto.
           ++ intros [H1 [H2|[H2|[]]]]; [tauto|]. subst. right. left. congruence.
        -- assert (Hall : forall x, In x d -> position (fst x) (pre ++ [k]) = position (fst x) pre).
           { intros x Hx. apply posapp. apply Hin in Hx. tauto. }
           assert (Hlt : forall x, In x d -> position (fst x) (pre ++ [k]) < position k (pre ++ [k])).
           { intros x Hx. rewrite Hall by exact Hx. rewrite posnew by exact Hk. apply poslt. apply Hin in Hx. tauto. }
           clear - Hs Hall Hlt. induction Hs; simpl.
           ++ repeat constructor.
           ++ constructor.
              ** apply IHHs; intros x Hx; [apply Hall|apply Hlt]; right; exact Hx.
              ** apply Forall_app. split.
                 --- rewrite Forall_forall in *. intros x Hx. rewrite !Hall by (simpl; auto). apply H. exact Hx.
                 --- constructor; [|constructor]. apply Hlt. left. reflexivity.
    + apply IH; [exact Hn| |].
      * intros kv. rewrite Hin, in_app_iff. simpl. split; [tauto|]. intros [H1 [H2|[H2|[]]]]; [tauto|].
        subst. congruence.
      * assert (Hall : forall x, In x d -> position (fst x) (pre ++ [k]) = position (fst x) pre).
        { intros x Hx. apply posapp. apply Hin in Hx. tauto. }
        clear - Hs Hall. induction Hs; constructor.
        -- apply IHHs. intros x Hx. apply Hall. right. exact Hx.
        -- rewrite Forall_forall in *. intros x Hx. rewrite !Hall by (simpl; auto). apply H. exact Hx.
Qed.

Lemma dupdate_disjoint : forall {A} (e d : dict A),
  NoDup (dkeys e) -> (forall k, In k (dkeys e) -> ~ In k (dkeys d)) -> dupdate d e = d ++ e.
Proof.
  unfold dupdate. induction e as [|[k v] e IH]; intros d Hn Hd; simpl; [rewrite app_nil_r; reflexivity|].
  rewrite dset_absent.
  - simpl in Hn. inversion Hn; subst. rewrite IH; [rewrite <- app_assoc; reflexivity|assumption|].
    intros k' Hk' Hin. unfold dkeys in Hin. rewrite map_app, in_app_iff in Hin. simpl in Hin.
    destruct Hin as [Hin|[<-|[]]]; [|auto]. apply (Hd k'); [right; exact Hk'|exact Hin].
  - apply dget_none. apply Hd. left. reflexivity.
Qed.

Lemma filter_keys_nodup : forall {A} (f : string * A -> bool) d, NoDup (dkeys d) -> NoDup (dkeys (filter f d)).
Proof.
  unfold dkeys. induction d as [|kv d IH]; simpl; intros H; [constructor|]. inversion H; subst.
  destruct (f kv); simpl; auto. constructor; auto. intros Hin. apply H2. apply in_map_iff in Hin.
  destruct Hin as (x & E & Hx). apply filter_In in Hx. apply in_map_iff. exists x. tauto.
Qed.

Lemma nodup_keys_list : forall {A} (d : dict A), NoDup (dkeys d) -> NoDup d.
Proof. intros A d H. apply (NoDup_map_inv fst). exact H. Qed.

Lemma reorder_spec : forall {A} (secs : dict A) order, NoDup (dkeys secs) ->
  reordered order secs
    (dupdate (dict_of (picks secs order)) (filter (fun kv => negb (mem_str (fst kv) order)) secs)).
Proof.
  intros A secs order Hn.
  destruct (first_fold secs order [] []) as (N1 & I1 & S1);
    [constructor|simpl; tauto|constructor|]. cbn [app] in *. fold (dict_of (picks secs order)) in *.
  set (first := dict_of (picks secs order)) in *.
  set (rest := filter (fun kv => negb (mem_str (fst kv) order)) secs).
  assert (Hdisj : forall k, In k (dkeys rest) -> ~ In k (dkeys first)).
  { intros k H1 H2. unfold dkeys in *. apply in_map_iff in H1, H2.
    destruct H1 as (x & <- & H1), H2 as (y & E & H2). apply filter_In in H1. apply I1 in H2.
    destruct H1 as [_ H1], H2 as [_ H2]. apply negb_true_iff in H1. rewrite E in H2.
    apply mem_str_in in H2. congruence. }
  rewrite dupdate_disjoint; [|apply filter_keys_nodup; exact Hn|exact Hdisj].
  exists first, rest.
  assert (HI : forall kv, In kv first <-> In kv secs /\ In (fst kv) order).
  { intros [k v]. rewrite I1. cbn [fst snd]. rewrite (dget_some k v) by exact Hn. reflexivity. }
  split; [reflexivity|]. split; [|split; [exact HI|split; [exact S1|reflexivity]]].
  apply NoDup_Permutation.
  - apply (NoDup_map_inv fst). rewrite map_app. 
    rewrite <- (rev_involutive (map fst first ++ map fst rest)).
    clear -N1 Hdisj Hn. apply NoDup_rev. rewrite rev_app_distr.
    assert (N2 : NoDup (map fst rest)) by (apply filter_keys_nodup; exact Hn).
    assert (G : forall (a b : list string), NoDup a -> NoDup b -> (forall x, In x a -> ~ In x b) -> NoDup (a ++ b)).
    { induction a; simpl; intros b Ha Hb Hd; [exact Hb|]. inversion Ha; subst. constructor.
      - rewrite in_app_iff. intros [H|H]; [auto|]. apply (Hd a); auto.
      - apply IHa; auto. }
    apply G; [apply NoDup_rev; exact N2|apply NoDup_rev; exact N1|].
    intros x Hx. rewrite <- in_rev in *. apply Hdisj. exact Hx.
  - apply nodup_keys_list. exact Hn.
  - intros kv. rewrite in_app_iff, HI. unfold rest. rewrite filter_In, negb_true_iff.
    split; [tauto|]. intros H. destruct (mem_str (fst kv) order) eqn:E; [apply mem_str_in in E; auto|auto].
Qed.

Lemma sort_sections_spec : forall order s, NoDup (dkeys (d_sections (s_doc s))) ->
  exists new, sort_sections order s = (set_s_doc (set_d_sections new (s_doc s)) s, Ok tt)
    /\ reordered (map lower order) (d_sections (s_doc s)) new.
Proof.
  intros order s Hn. pose proof (reorder_spec _ (map lower order) Hn) as R.
  eexists. split; [|exact R].
  unfold sort_sections, bind, getD, gets, modD, modify, assert_.
  fold (picks (d_sections (s_doc s)) (map lower order)).
  destruct R as (f & r & E & P & _). apply Permutation_length in P. rewrite P, Nat.eqb_refl. reflexivity.
Qed.

(** ** sort_by_term *)

Lemma str_le_compare : forall a b, str_le a b = true <-> String.compare a b <> Gt.
Proof.
  induction a; destruct b; simpl; split; intros H; try congruence; try discriminate.
  - destruct (Ascii.eqb a a1) eqn:E.
    + apply Ascii.eqb_eq in E. subst. unfold Ascii.compare. rewrite N.compare_refl. apply IHa. exact H.
    + apply Nat.ltb_lt in H. unfold Ascii.compare, nat_of_ascii in *.
      destruct (N.compare (N_of_ascii a) (N_of_ascii a1)) eqn:C; try discriminate.
      * apply N.compare_eq_iff in C. rewrite C in H. lia.
      * apply N.compare_gt_iff in C. exfalso. lia.
  - destruct (Ascii.eqb a a1) eqn:E.
    + apply Ascii.eqb_eq in E. subst. unfold Ascii.compare in H. rewrite N.compare_refl in H. apply IHa. exact H.
    + apply Nat.ltb_lt. unfold Ascii.compare, nat_of_ascii in *.
      destruct (N.compare (N_of_ascii a) (N_of_ascii a1)) eqn:C.
      * apply N.compare_eq_iff in C. apply Ascii.eqb_neq in E. exfalso. apply E.
        rewrite <- (ascii_N_embedding a), <- (ascii_N_embedding a1). congruence.
      * rewrite N.compare_lt_iff in C. lia.
      * congruence.
Qed.

Lemma str_le_total : forall a b, str_le a b = false -> str_le b a = true.
Proof.
  induction a; destruct b; simpl; intros H; try discriminate; auto.
  rewrite (Ascii.eqb_sym a1 a). destruct (Ascii.eqb a a1) eqn:E; [auto|].
  apply Nat.ltb_ge in H. apply Nat.ltb_lt.
  assert (nat_of_ascii a <> nat_of_ascii a1).
  { intros C. apply Ascii.eqb_neq in E. apply E. rewrite <- (ascii_nat_embedding a), <- (ascii_nat_embedding a1). congruence. }
  lia.
Qed.
Lemma str_le_refl : forall a, str_le a a = true.
Proof. induction a; simpl; [reflexivity|]. rewrite Ascii.eqb_refl. exact IHa. Qed.
Lemma str_le_trans : forall a b c, str_le a b = true -> str_le b c = true -> str_le a c = true.
Proof.
  induction a as [|x a IH]; intros [|y b] [|z c]; simpl; intros H1 H2; try discriminate; auto.
  destruct (Ascii.eqb x y) eqn:E1.
  - apply Ascii.eqb_eq in E1. subst. destruct (Ascii.eqb y z); [eauto|exact H2].
  - destruct (Ascii.eqb y z) eqn:E2.
    + apply Ascii.eqb_eq in E2. subst. rewrite E1. exact H1.
    + apply Nat.ltb_lt in H1, H2. destruct (Ascii.eqb x z) eqn:E3.
      * apply Ascii.eqb_eq in E3. subst. lia.
      * apply Nat.ltb_lt. lia.
Qed.
Lemma str_le_antisym : forall a b, str_le a b = true -> str_le b a = true -> a = b.
Proof.
  induction a; destruct b; simpl; intros H1 H2; try discriminate; auto.
  rewrite (Ascii.eqb_sym a1 a) in H2. destruct (Ascii.eqb a a1) eqn:E.
  - apply Ascii.eqb_eq in E. subst. f_equal. auto.
  - apply Nat.ltb_lt in H1, H2. lia.
Qed.

Section SortBy.
  Context {A : Type} (name : A -> string).
  Let le (a b : A) : bool := str_le (name a) (name b).

  Lemma insert_perm : forall x l, Permutation (insert_by le x l) (x :: l).
  Proof.
    induction l as [|y l IH]; simpl; [reflexivity|]. destruct (le x y); [reflexivity|].
    rewrite IH. apply perm_swap.
  Qed.
  Lemma sort_perm : forall l, Permutation (sort_by le l) l.
  Proof. induction l; simpl; [reflexivity|]. rewrite insert_perm. apply perm_skip. exact IHl. Qed.

  Lemma insert_sorted : forall x l,
    StronglySorted (fun a b => le a b = true) l -> StronglySorted (fun a b => le a b = true) (insert_by le x l).
  Proof.
    induction 1 as [|y l Hs IH Hall]; simpl; [repeat constructor|].
    destruct (le x y) eqn:E.
    - constructor; [constructor; assumption|]. constructor; [exact E|].
      rewrite Forall_forall in *. intros z Hz. eapply str_le_trans; [exact E|]. apply Hall. exact Hz.
    - constructor; [exact IH|]. rewrite Forall_forall in *. intros z Hz.
      apply (Permutation_in _ (insert_perm x l)) in Hz. destruct Hz as [<-|Hz]; [|auto].
      apply str_le_total. exact E.
  Qed.
  Lemma sort_sorted : forall l, StronglySorted (fun a b => le a b = true) (sort_by le l).
  Proof. induction l; simpl; [constructor|]. apply insert_sorted. exact IHl. Qed.

  Lemma insert_filter : forall n x l,
    filter (fun y => String.eqb (name y) n) (insert_by le x l)
    = filter (fun y => String.eqb (name y) n) (x :: l).
  Proof.
    induction l as [|y l IH]; [reflexivity|]. cbn [insert_by]. destruct (le x y) eqn:E; [reflexivity|].
    cbn [filter] in *. rewrite IH.
    destruct (String.eqb (name x) n) eqn:Ex, (String.eqb (name y) n) eqn:Ey; try reflexivity.
    apply String.eqb_eq in Ex, Ey. unfold le in E. rewrite Ex, Ey, str_le_refl in E. discriminate.
  Qed.
  Lemma sort_filter : forall n l,
    filter (fun y => String.eqb (name y) n) (sort_by le l) = filter (fun y => String.eqb (name y) n) l.
  Proof. induction l; [reflexivity|]. cbn [sort_by]. rewrite insert_filter. cbn [filter]. rewrite IHl. reflexivity. Qed.

  Lemma sort_by_alphabetical : forall l, alphabetical name l (sort_by le l).
  Proof.
    intros l. split; [apply sort_perm|]. split; [|intros n; apply sort_filter].
    pose proof (sort_sorted l) as H. induction H; constructor; [assumption|].
    rewrite Forall_forall in *. intros x Hx. apply str_le_compare. apply H0. exact Hx.
  Qed.
End SortBy.

Lemma sort_terms_spec : forall h l, alphabetical (fun t => join_lc (hget t h)) l (sort_terms h l).
Proof. intros h l. exact (sort_by_alphabetical (fun t => join_lc (hget t h)) l). Qed.

Definition names_of_pattern (h : list trec) (p : string) (t : nat) : Prop :=
  denotes p (t_pt (hget t h)) (t_rt (hget t h)).

Lemma take_matching_spec : forall h p l, tidy_pattern p -> (forall t, In t l -> dot_free (t_pt (hget t h))) ->
  exists f, (forall t, In t l -> (f t = true <-> names_of_pattern h p t))
    /\ take_matching h p l = Ok (filter f l, filter (fun x => negb (f x)) l).
Proof.
  intros h p l Ht Hd.
  exists (fun t => match term_is (hget t h) p with Ok b => b | Err _ => false end). split.
  - intros t Hin. destruct (term_is_decides (t_pt (hget t h)) (t_rt (hget t h)) p (Hd t Hin) Ht) as (b & E & Hb).
    unfold term_is. rewrite E. exact Hb.
  - induction l as [|t l IH]; [reflexivity|].
    destruct (term_is_decides (t_pt (hget t h)) (t_rt (hget t h)) p (Hd t (or_introl eq_refl)) Ht) as (b & E & _).
    cbn [take_matching filter]. unfold term_is in *. rewrite E. cbn [rbind].
    rewrite IH by (intros; apply Hd; right; assumption). cbn [rbind]. destruct b; reflexivity.
Qed.

Lemma take_order_spec : forall h order l, Forall tidy_pattern order ->
  (forall t, In t l -> dot_free (t_pt (hget t h))) ->
  exists groups rest, take_order h order l = Ok (concat groups, rest)
    /\ grouped (names_of_pattern h) order l groups rest.
Proof.
  intros h. induction order as [|p order IH]; intros l Ho Hd; simpl.
  - exists [], l. split; [reflexivity|constructor].
  - inversion Ho; subst. destruct (take_matching_spec h p l H1 Hd) as (f & Hf & E). rewrite E. cbn [rbind].
    destruct (IH (filter (fun x => negb (f x)) l) H2) as (gs & rest & E2 & G).
    { intros t Hin. apply filter_In in Hin. apply Hd. tauto. }
    rewrite E2. cbn [rbind]. exists (filter f l :: gs), rest. split; [reflexivity|].
    econstructor; eauto.
Qed.

Lemma sort_by_term_spec : forall sec o s,
  (forall t, In t (t_terms (tget sec s)) -> dot_free (t_pt (tget t s))) ->
  Forall tidy_pattern (match o with Some o => o | None => [] end) ->
  exists groups rest srt,
    sort_by_term sec o s
      = (set_s_heap (upd sec (set_t_terms (concat groups ++ srt) (tget sec s)) (s_heap s)) s, Ok tt)
    /\ grouped (names_of_pattern (s_heap s)) (match o with Some o => o | None => [] end)
               (t_terms (tget sec s)) groups rest
    /\ alphabetical (fun t => join_lc (tget t s)) rest srt.
Proof.
  intros sec o s Hd Ho. destruct o as [o|].
  - destruct (take_order_spec (s_heap s) o (t_terms (tget sec s)) Ho Hd) as (gs & rest & E & G).
    exists gs, rest, (sort_terms (s_heap s) rest). split; [|split; [exact G|apply sort_terms_spec]].
    unfold sort_by_term, bind, getT, gets, lift. rewrite E. reflexivity.
  - exists [], (t_terms (tget sec s)), (sort_terms (s_heap s) (t_terms (tget sec s))).
    split; [reflexivity|]. split; [constructor|apply sort_terms_spec].
Qed.

Lemma grouped_perm : forall {A} (P : string -> A -> Prop) order l gs rest,
  grouped P order l gs rest -> Permutation (concat gs ++ rest) l.
Proof.
  induction 1 as [|p ps l m r gs rest f Hf -> -> G IH]; [reflexivity|].
  cbn [concat]. rewrite <- app_assoc, IH.
  clear. induction l; simpl; [reflexivity|]. destruct (f a); simpl.
  - apply perm_skip. exact IHl.
  - rewrite <- Permutation_middle. apply perm_skip. exact IHl.
Qed.

(** ** add_arg, remove_arg *)

Lemma cleaned_spec : forall l l', cleaned l l' <-> clean_args l = l'.
Proof.
  unfold clean_args. intros l l'. split.
  - induction 1 as [|a l l' W C IH|a t l l' T N C IH]; [reflexivity| |]; cbn [map filter].
    + apply white_strip in W. rewrite W. exact IH.
    + apply trimmed_iff in T. rewrite T. apply nonempty_true in N. rewrite N, IH. reflexivity.
  - revert l'. induction l as [|a l IH]; cbn [map filter]; intros l' E.
    + subst. constructor.
    + destruct (nonempty (strip a)) eqn:N.
      * subst. apply nonempty_true in N. apply cleaned_keep; auto. apply trimmed_iff. reflexivity.
      * apply nonempty_false in N. apply cleaned_skip; auto. apply white_strip. exact N.
Qed.

Lemma has_column_iff : forall n l, has_column n l <-> mem_str (lower n) (map lower l) = true.
Proof.
  intros. rewrite mem_str_in, in_map_iff. unfold has_column. split; intros (c & H1 & H2); exists c; auto.
Qed.

Definition no_sharp_s (s : string) : Prop := ~ In (ascii_of_nat 223) (list_ascii_of_string s).

Lemma title_char_lower : forall c, c <> ascii_of_nat 223 -> lower (title_char c) = String (lower_char c) "".
Proof.
  intros c H. apply String.eqb_eq.
  assert (E : String.eqb (lower (title_char c)) (String (lower_char c) "") || Ascii.eqb c (ascii_of_nat 223) = true).
  { apply (all256_spec (fun c => String.eqb (lower (title_char c)) (String (lower_char c) "") || Ascii.eqb c (ascii_of_nat 223))).
    vm_compute. reflexivity. }
  apply orb_true_iff in E. destruct E as [E|E]; [exact E|]. apply Ascii.eqb_eq in E. congruence.
Qed.

Lemma title_aux_lower : forall s b, no_sharp_s s -> lower (title_aux b s) = lower s.
Proof.
  unfold no_sharp_s. induction s; intros b H; [reflexivity|]. cbn [title_aux lower list_ascii_of_string In] in *.
  destruct b.
  - cbn [lower]. rewrite lower_char_idem, IHs by tauto. reflexivity.
  - rewrite lower_app, IHs by tauto. rewrite title_char_lower by (intros ->; tauto). reflexivity.
Qed.
Lemma title_lower : forall s, no_sharp_s s -> lower (title s) = lower s.
Proof. intros. apply title_aux_lower. assumption. Qed.

Lemma add_arg_new : forall arg prepend args cols, cleaned args cols -> ~ has_column arg cols ->
  add_arg arg prepend args = if prepend then title arg :: cols else cols ++ [title arg].
Proof.
  intros arg prepend args cols C H. apply cleaned_spec in C. unfold add_arg. rewrite C.
  rewrite has_column_iff in H. destruct (mem_str (lower arg) (map lower cols)); [tauto|reflexivity].
Qed.
Lemma add_arg_old : forall arg prepend args cols, cleaned args cols -> has_column arg cols ->
  add_arg arg prepend args = cols.
Proof.
  intros arg prepend args cols C H. apply cleaned_spec in C. unfold add_arg. rewrite C.
  rewrite has_column_iff in H. rewrite H. reflexivity.
Qed.
Lemma remove_arg_spec : forall arg args cols, cleaned args cols ->
  remove_arg arg args = filter (fun c => negb (String.eqb (lower c) (lower arg))) cols.
Proof. intros arg args cols C. apply cleaned_spec in C. unfold remove_arg. rewrite C. reflexivity. Qed.

Lemma isspace_cased : forall c, isspace c = true -> is_cased c = false /\ lower_char c = c /\ title_char c = String c "".
Proof.
  intros c H.
  assert (E : negb (isspace c) || (negb (is_cased c) && Ascii.eqb (lower_char c) c && String.eqb (title_char c) (String c "")) = true).
  { apply (all256_spec (fun c => negb (isspace c) || (negb (is_cased c) && Ascii.eqb (lower_char c) c && String.eqb (title_char c) (String c "")))).
    vm_compute. reflexivity. }
  rewrite H in E. simpl in E. apply andb_true_iff in E. destruct E as [E E3]. apply andb_true_iff in E. destruct E as [E1 E2].
  apply negb_true_iff in E1. apply Ascii.eqb_eq in E2. apply String.eqb_eq in E3. auto.
Qed.

Lemma title_char_space : forall c d, isspace c = false -> In d (list_ascii_of_string (title_char c)) -> isspace d = false.
Proof.
  intros c d H.
  assert (E : isspace c || forallb (fun d => negb (isspace d)) (list_ascii_of_string (title_char c)) = true).
  { apply (all256_spec (fun c => isspace c || forallb (fun d => negb (isspace d)) (list_ascii_of_string (title_char c)))).
    vm_compute. reflexivity. }
  rewrite H in E. simpl in E. rewrite forallb_forall in E. intros Hd. apply E in Hd. apply negb_true_iff in Hd. exact Hd.
Qed.

Lemma tidy_via_lower : forall s t, lower s = lower t -> tidy s -> tidy t.
Proof.
  intros s t E H. apply tidy_iff in H. apply tidy_iff.
  rewrite <- starts_blank_lower, <- ends_blank_lower, E, starts_blank_lower, ends_blank_lower in H. exact H.
Qed.

Inductive col_event := AddCol (name : string) (prepend : bool) | DelCol (name : string).
Definition run_cols (evs : list col_event) (cols : list string) : list string :=
  fold_left (fun cols e => match e with AddCol n p => add_arg n p cols | DelCol n => remove_arg n cols end) evs cols.

Definition col_inv (cols : list string) : Prop :=
  NoDup (map lower cols) /\ Forall (fun c => tidy c /\ c <> "") cols.

Lemma clean_id : forall cols, Forall (fun c => tidy c /\ c <> "") cols -> clean_args cols = cols.
Proof.
  induction 1 as [|c cols [T N] _ IH]; [reflexivity|]. unfold clean_args in *. cbn [map filter].
  rewrite tidy_strip by exact T. apply nonempty_true in N. rewrite N, IH. reflexivity.
Qed.

Lemma nodup_app_one : forall {A} (x : A) l, NoDup l -> ~ In x l -> NoDup (l ++ [x]).
Proof.
  intros A x l H1 H2. rewrite <- (rev_involutive (l ++ [x])). apply NoDup_rev. rewrite rev_app_distr.
  constructor; [rewrite <- in_rev; exact H2|apply NoDup_rev; exact H1].
Qed.

Lemma nodup_map_filter : forall {A B} (f : A -> B) g l, NoDup (map f l) -> NoDup (map f (filter g l)).
Proof.
  induction l; simpl; intros H; [constructor|]. inversion H; subst. destruct (g a); simpl; auto.
  constructor; auto. intros C. apply H2. apply in_map_iff in C. destruct C as (x & E & Hx).
  apply filter_In in Hx. apply in_map_iff. exists x. tauto.
Qed.

Lemma run_cols_inv : forall evs cols,
  Forall (fun e => match e with AddCol n _ => tidy n /\ n <> "" /\ no_sharp_s n | DelCol _ => True end) evs ->
  col_inv cols -> col_inv (run_cols evs cols).
Proof.
  unfold run_cols. induction evs as [|e evs IH]; intros cols He Hc; [exact Hc|]. inversion He; subst.
  cbn [fold_left]. apply IH; [assumption|]. destruct Hc as [Hn Ht]. pose proof (clean_id _ Ht) as C.
  destruct e as [n p|n].
  - destruct H1 as (Tn & Nn & Sn). pose proof (title_lower _ Sn) as L. unfold add_arg. rewrite C.
    destruct (mem_str (lower n) (map lower cols)) eqn:E; [split; assumption|].
    assert (Hnot : ~ In (lower (title n)) (map lower cols)).
    { rewrite L. intros H. apply mem_str_in in H. congruence. }
    assert (Hgood : tidy (title n) /\ title n <> "").
    { split; [eapply tidy_via_lower; [symmetry; exact L|exact Tn]|].
      intros Z. apply Nn. apply lower_nil. rewrite <- L, Z. reflexivity. }
    destruct p; split.
    + cbn [map]. constructor; assumption.
    + constructor; assumption.
    + rewrite map_app. apply nodup_app_one; assumption.
    + apply Forall_app. auto.
  - unfold remove_arg. rewrite C. split; [apply nodup_map_filter; exact Hn|].
    rewrite Forall_forall in *. intros x Hx. apply filter_In in Hx. apply Ht. tauto.
Qed.

(** ** class registry *)

Definition run_reg (hist : list reg_event) (reg : dict cls) : dict cls :=
  fold_left (fun reg e => match e with Register n c => register_class n c reg | Unregister n => unregister_class n reg end) hist reg.

Lemma dget_ddel : forall {A} k k' (d : dict A), NoDup (dkeys d) ->
  dget k (ddel k' d) = if eqs k' k then None else dget k d.
Proof.
  intros A k k' d H. rewrite ddel_filter by exact H. unfold dkeys in H. induction d as [|[k2 v2] d IH]; simpl.
  - destruct (eqs k' k); reflexivity.
  - simpl in H. inversion H; subst. destruct (eqs k' k2) eqn:E; simpl.
    + rewrite IH by assumption. apply eqs_true in E. subst. destruct (eqs k2 k) eqn:E2; [reflexivity|].
      rewrite eqs_sym, E2. reflexivity.
    + rewrite IH by assumption. eqs_cases k k2; [|reflexivity]. subst. rewrite E. reflexivity.
Qed.

Lemma nodup_ddel : forall {A} k (d : dict A), NoDup (dkeys d) -> NoDup (dkeys (ddel k d)).
Proof. intros. rewrite dkeys_ddel by assumption. apply NoDup_filter. assumption. Qed.

Lemma run_reg_spec : forall hist reg name, NoDup (dkeys reg) ->
  dget (lower name) (run_reg hist reg) = registered hist name (dget (lower name) reg).
Proof.
  unfold run_reg. induction hist as [|e hist IH]; intros reg name Hn; [reflexivity|]. cbn [fold_left registered].
  destruct e as [n c|n].
  - rewrite IH by (apply nodup_dset; exact Hn). f_equal. unfold register_class. rewrite dget_dset.
    rewrite eqs_sym. reflexivity.
  - rewrite IH by (apply nodup_ddel; exact Hn). f_equal. unfold unregister_class. rewrite dget_ddel by exact Hn.
    reflexivity.
Qed.

Lemma class_for_run : forall hist reg super name, NoDup (dkeys reg) -> 
  (forall k sup, dget k super = Some sup -> lower sup = sup) ->
  class_for (run_reg hist reg) super name
  = match registered hist name (dget (lower name) reg) with
    | Some c => c
    | None =>
        match dget (lower name) super with
        | Some sup => match registered hist sup (dget sup reg) with Some c => c | None => CTerm end
        | None => CTerm
        end
    end.
Proof.
  intros hist reg super name Hn Hl. unfold class_for. rewrite run_reg_spec by exact Hn.
  destruct (registered hist name (dget (lower name) reg)); [reflexivity|].
  destruct (dget (lower name) super) as [sup|] eqn:E; [|reflexivity].
  pose proof (run_reg_spec hist reg sup Hn) as R. rewrite (Hl _ _ E) in R. rewrite R. reflexivity.
Qed.

Lemma run_cols_set : forall evs,
  Forall (fun e => match e with AddCol n _ => tidy n /\ n <> "" /\ no_sharp_s n | DelCol _ => True end) evs ->
  NoDup (map lower (run_cols evs [])) /\ Forall (fun c => tidy c /\ c <> "") (run_cols evs []).
Proof. intros evs H. apply run_cols_inv; [exact H|]. split; constructor. Qed.

Lemma class_registered : forall reg super name name' c, lower name' = lower name ->
  class_for (register_class name c reg) super name' = c.
Proof. intros. unfold class_for, register_class. rewrite H, dget_dset_same. reflexivity. Qed.

Lemma class_derived : forall reg super name name' c,
  dget (lower name') super = Some (lower name) -> dget (lower name') reg = None ->
  class_for (register_class name c reg) super name' = c.
Proof.
  intros reg super name name' c H1 H2. unfold class_for, register_class. rewrite dget_dset, H1, dget_dset_same, H2.
  destruct (eqs (lower name') (lower name)); reflexivity.
Qed.

Lemma class_other : forall reg super name name' c, lower name' <> lower name ->
  (dget (lower name') super = Some (lower name) -> dget (lower name') reg <> None) ->
  class_for (register_class name c reg) super name' = class_for reg super name'.
Proof.
  intros reg super name name' c H1 H2. unfold class_for, register_class. rewrite dget_dset_other by exact H1.
  destruct (dget (lower name') reg) eqn:E; [reflexivity|].
  destruct (dget (lower name') super) as [sup|] eqn:E2; [|reflexivity].
  rewrite dget_dset. eqs_cases sup (lower name); [|reflexivity]. subst. destruct (H2 eq_refl). reflexivity.
Qed.

Lemma class_unregister : forall reg super name name' c,
  NoDup (dkeys reg) -> dget (lower name) reg = None ->
  class_for (unregister_class name (register_class name c reg)) super name' = class_for reg super name'.
Proof.
  intros reg super name name' c Hn H.
  assert (G : forall k, dget k (unregister_class name (register_class name c reg)) = dget k reg).
  { intros k. unfold unregister_class, register_class. rewrite dget_ddel by (apply nodup_dset; exact Hn).
    eqs_cases (lower name) k; [subst; congruence|]. apply dget_dset_other. auto. }
  unfold class_for. rewrite G. destruct (dget (lower name') reg); [reflexivity|].
  destruct (dget (lower name') super); [|reflexivity]. rewrite G. reflexivity.
Qed.

Lemma sort_by_term_perm : forall sec o s,
  (forall t, In t (t_terms (tget sec s)) -> dot_free (t_pt (tget t s))) ->
  Forall tidy_pattern (match o with Some o => o | None => [] end) ->
  sec < List.length (s_heap s) ->
  Permutation (t_terms (tget sec (fst (sort_by_term sec o s)))) (t_terms (tget sec s)).
Proof.
  intros sec o s H1 H2 H3. destruct (sort_by_term_spec sec o s H1 H2) as (gs & rest & srt & E & G & (P & _)).
  rewrite E. cbn [fst]. unfold tget at 1. cbn [s_heap set_s_heap]. rewrite hget_upd_same by exact H3. cbn [t_terms set_t_terms].
  rewrite P. eapply grouped_perm. exact G.
Qed.
