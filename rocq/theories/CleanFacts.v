(** * CleanFacts: clean_unused_schema_terms (C50) *)

From Coq Require Import Lia.
From Verif Require Import ListFacts StrFacts HeapFacts SpecNames NameFacts SpecOrder OrderFacts ConstructFacts RunFacts EmitFacts RowFacts TotalFacts FrameFacts SpecInv InvFacts ChildFacts ListOps SpecFind SpecEdit OpFacts SecFacts FindFacts AddFacts EditFacts StepFacts DocProps SpecMaint Maint MaintFacts VersionFacts SpecRows RowsFacts SpecPack PackFacts GenFacts.

Section WithQuirks.
Context {QK : Quirks}.

(** ** Removing blank properties *)

Definition bl (s : st) (k : nat) : bool := match val_nonblank (t_val (tget k s)) with Ok true => false | _ => true end.
Lemma nonblank_white : forall x, nonblank x = true <-> ~ white x.
Proof.
  intros x. pose proof (blank_val_iff (VStr x)) as H. unfold blank_val in H. cbn [truthy str_val] in H. destruct x as [|c x]; [split; [discriminate|intros N; exfalso; apply N; constructor]|]. cbn [nonempty andb] in H.
  change (nonempty (String c x)) with true in H. cbn [andb] in H. destruct (nonblank (String c x)); split; intros X; try discriminate X; try reflexivity; [|exfalso; apply X; destruct (proj1 H eq_refl) as [Y|Y]; [discriminate Y|exact Y]]. intros W. pose proof (proj2 H (or_intror W)). discriminate.
Qed.
Lemma nonblank_run : forall v, is_text v -> exists b, val_nonblank v = Ok b /\ (b = true <-> has_text v).
Proof.
  intros v H. unfold val_nonblank, has_text. destruct H as [H|(x & ->)].
  - rewrite H. exists false. split; [reflexivity|]. split; [discriminate|]. intros (x & -> & W). destruct x; [exfalso; apply W; constructor|discriminate H].
  - destruct x as [|c x]; [exists false; split; [reflexivity|]; split; [discriminate|intros (x & [= <-] & W); exfalso; apply W; constructor]|]. change (truthy (VStr (String c x))) with true. cbn [as_str rbind]. eexists. split; [reflexivity|]. rewrite nonblank_white. split; [intros W; eauto|intros (y & [= <-] & W); exact W].
Qed.
Lemma bl_spec : forall s k, is_text (t_val (tget k s)) -> (bl s k = false <-> has_text (t_val (tget k s))).
Proof. intros s k T. unfold bl. destruct (nonblank_run _ T) as (b & -> & H). rewrite <- H. destruct b; split; congruence. Qed.

Lemma forallb_filter_id : forall {A} (f : A -> bool) l, forallb f l = true -> filter f l = l.
Proof. intros A f l. induction l as [|x l IH]; [reflexivity|]. cbn. destruct (f x); [|discriminate]. cbn. intros H. rewrite IH by exact H. reflexivity. Qed.
Lemma remove_first_filter : forall k l, NoDup l -> remove_first k l = filter (fun x => negb (x =? k)) l.
Proof.
  intros k l N. induction N as [|x l NI N IH]; [reflexivity|]. cbn. destruct (Nat.eqb_spec k x) as [->|NE].
  - rewrite Nat.eqb_refl. cbn. symmetry. apply forallb_filter_id. apply forallb_forall. intros y Y. apply negb_true_iff. apply Nat.eqb_neq. intros ->. contradiction.
  - assert (E : x =? k = false) by (apply Nat.eqb_neq; congruence). rewrite E. cbn. rewrite IH. reflexivity.
Qed.
Definition pruned (c : nat) (f : nat -> bool) (s : st) : st := hmod c (fun r => set_t_children (filter f (t_children r)) r) s.
Lemma pruned_field : forall {A} (g : trec -> A) c f s j, (forall r x, g (set_t_children x r) = g r) -> g (tget j (pruned c f s)) = g (tget j s).
Proof. intros A g c f s j G. unfold pruned. rewrite tget_hmod_any. destruct (Nat.eqb_spec j c) as [->|]; cbn [andb]; [destruct (c <? hlen s); [apply G|reflexivity]|reflexivity]. Qed.
Lemma filter_filter : forall {A} (f g : A -> bool) l, filter f (filter g l) = filter (fun x => g x && f x) l.
Proof. intros A f g l. induction l as [|x l IH]; [reflexivity|]. cbn. destruct (g x); cbn; rewrite IH; reflexivity. Qed.
Lemma pruned_pruned : forall c f g s, pruned c f (pruned c g s) = pruned c (fun x => g x && f x) s.
Proof. intros. unfold pruned. rewrite hmod_hmod. apply hmod_ext. cbn. rewrite filter_filter. reflexivity. Qed.
Lemma pruned_ext : forall c f g s, (forall x, In x (t_children (tget c s)) -> f x = g x) -> pruned c f s = pruned c g s.
Proof. intros c f g s H. apply hmod_ext. f_equal. apply filter_ext_in. exact H. Qed.
Lemma doc_pruned : forall c f s, s_doc (pruned c f s) = s_doc s. Proof. intros. apply doc_hmod. Qed.
Lemma hlen_pruned : forall c f s, hlen (pruned c f s) = hlen s. Proof. intros. apply hlen_hmod. Qed.
Lemma pruned_children : forall c f s i, incl (t_children (tget i (pruned c f s))) (t_children (tget i s)).
Proof. intros c f s i. unfold pruned. rewrite tget_hmod_any. destruct (Nat.eqb_spec i c) as [->|]; cbn [andb]; [destruct (c <? hlen s)|]; try apply incl_refl. cbn. intros x I. apply filter_In in I. apply I. Qed.

Lemma orphaned_pruned : forall s c k, doc_ok s -> In k (t_children (tget c s)) -> orphaned k s = pruned c (fun x => negb (x =? k)) s.
Proof.
  intros s c k K I. destruct (ok_child s K c k I) as (_ & _ & PA). unfold orphaned, pruned. rewrite PA. apply hmod_ext. f_equal. apply remove_first_filter. apply (ok_children s K).
Qed.

Lemma ok_pruned : forall s c f, doc_ok s -> doc_ok (pruned c f s).
Proof.
  intros s c f K.
  assert (FD : forall {A} (g : trec -> A) j, (forall r x, g (set_t_children x r) = g r) -> g (tget j (pruned c f s)) = g (tget j s)) by (intros; apply pruned_field; assumption).
  assert (PL : forall j, is_plain (pruned c f s) j <-> is_plain s j) by (intros j; unfold is_plain; rewrite hlen_pruned, (FD _ t_cls) by reflexivity; reflexivity).
  assert (SE : forall j, is_sec (pruned c f s) j <-> is_sec s j) by (intros j; unfold is_sec; rewrite hlen_pruned, (FD _ t_cls) by reflexivity; reflexivity).
  constructor; unfold secs, listed; rewrite ?doc_pruned; fold (secs s) (listed s).
  - apply (ok_keys s K).
  - intros k i I. rewrite SE, (FD _ t_doc), (FD _ columns_of), (FD _ t_val) by reflexivity. apply (ok_section s K k i I).
  - apply (ok_list s K).
  - intros k i I. rewrite (FD _ t_terms) by reflexivity. apply (ok_lists s K k i I).
  - intros t I. rewrite PL, (FD _ t_pt), (FD _ t_section) by reflexivity. destruct (ok_listed s K t I) as (A & B & [(k & i & X & Y & Z)|X]); (split; [exact A|]; split; [exact B|]); [left|right; exact X]. exists k, i. rewrite (FD _ t_terms) by reflexivity. auto.
  - intros k i t I. rewrite (FD _ t_terms), (FD _ t_section) by reflexivity. apply (ok_in s K k i t I).
  - intros t I. rewrite (FD _ t_parent) by reflexivity. pose proof (ok_top s K t I) as T. destruct (t_parent (tget t s)); [apply SE; exact T|exact Logic.I].
  - intros t P. rewrite PL in P. rewrite (FD _ t_section) by reflexivity. destruct (ok_plain s K t P) as (i & A & B). exists i. split; [exact A|apply SE; exact B].
  - intros i S. rewrite SE in S. rewrite (FD _ t_val) by reflexivity. apply (ok_named s K i S).
  - intros i x I. apply pruned_children in I. rewrite PL, (FD _ t_parent) by reflexivity. apply (ok_child s K i x I).
  - intros i. unfold pruned. rewrite tget_hmod_any. destruct (Nat.eqb_spec i c) as [->|]; cbn [andb]; [destruct (c <? hlen s)|]; try apply (ok_children s K). cbn. apply NoDup_filter. apply (ok_children s K).
  - apply (ok_declared s K).
Qed.
Lemma order_pruned : forall s c f, in_order s -> in_order (pruned c f s).
Proof.
  intros s c f [K N D]. constructor; [apply ok_pruned; exact K| |].
  - constructor; [intros i L; rewrite hlen_pruned in L; rewrite (pruned_field t_pt) by reflexivity; apply (nm_dots s N i L)|]. intros k i I. unfold secs in I. rewrite doc_pruned in I. rewrite (pruned_field t_pt), (pruned_field t_rt), (pruned_field t_section) by reflexivity. destruct (nm_sections s N k i I) as (A & B & C). split; [exact A|]. split; [exact B|].
    destruct (t_section (tget i s)) as [j|]; [|exact Logic.I]. destruct C as (C1 & C2). split; [rewrite hlen_pruned; exact C1|rewrite (pruned_field t_cls) by reflexivity; exact C2].
  - intros i L. rewrite hlen_pruned in L. rewrite (pruned_field t_pt), (pruned_field t_rt) by reflexivity. apply (D i L).
Qed.
Lemma removable_pruned : forall s c f x, removable s x -> removable (pruned c f s) x.
Proof.
  intros s c f x ((L & P) & TV & RT). split; [split; [rewrite hlen_pruned; exact L|rewrite (pruned_field t_cls) by reflexivity; exact P]|]. rewrite (pruned_field t_tvn), (pruned_field t_pt), (pruned_field t_section) by reflexivity. split; [exact TV|]. intros X. unfold secs. rewrite doc_pruned. apply RT. exact X.
Qed.

Definition prune_one (c k : nat) : MM unit := kq <- getT k ;; b <- lift (val_nonblank (t_val kq)) ;; if b then ret tt else remove_child c k.
Definition prune_loop (c : nat) (l : list nat) : MM unit := mapM_ (prune_one c) l.
Lemma prune_one_run : forall c k s, doc_ok s -> is_plain s c -> t_doc (tget c s) = true -> In k (t_children (tget c s)) -> is_text (t_val (tget k s)) -> removable s k ->
  prune_one c k s = (if bl s k then pruned c (fun x => negb (x =? k)) s else s, Ok tt).
Proof.
  intros c k s K P D IK TX RM. unfold prune_one. rewrite bind_getT. cbv beta. destruct (nonblank_run _ TX) as (b & B & _). unfold bl. rewrite B. change (bind (lift (Ok b)) ?k s) with (k b s). cbv beta. destruct b; [reflexivity|].
  rewrite (remove_child_run s c k K P D IK RM), (orphaned_pruned s c k K IK). reflexivity.
Qed.
Lemma prune_run : forall c l s, doc_ok s -> is_plain s c -> t_doc (tget c s) = true -> NoDup l -> incl l (t_children (tget c s)) ->
  (forall k, In k l -> is_text (t_val (tget k s)) /\ removable s k) ->
  prune_loop c l s = (pruned c (fun x => negb (mem_id x l && bl s x)) s, Ok tt).
Proof.
  intros c. unfold prune_loop. induction l as [|k l IH]; intros s K P D N I T.
  - cbn [mapM_]. unfold ret. f_equal. symmetry. unfold pruned. apply hmod_id. rewrite forallb_filter_id by (apply forallb_forall; reflexivity). destruct (tget c s). reflexivity.
  - inversion N as [|? ? NK NL]; subst. destruct (T k (or_introl eq_refl)) as (TX & RM). assert (IK : In k (t_children (tget c s))) by (apply I; left; reflexivity).
    cbn [mapM_]. rewrite (bind_run _ _ _ _ _ (prune_one_run c k s K P D IK TX RM)). cbv beta. destruct (bl s k) eqn:B.
    + rewrite IH.
      * f_equal. rewrite pruned_pruned. apply pruned_ext. intros x X. unfold mem_id. cbn [existsb]. assert (BX : bl (pruned c (fun x => negb (x =? k)) s) x = bl s x) by (unfold bl; rewrite (pruned_field t_val) by reflexivity; reflexivity). rewrite BX.
        destruct (Nat.eqb_spec x k) as [->|NE]; cbn; [rewrite B|]; reflexivity.
      * apply ok_pruned. exact K.
      * split; [rewrite hlen_pruned; apply P|rewrite (pruned_field t_cls) by reflexivity; apply P].
      * rewrite (pruned_field t_doc) by reflexivity. exact D.
      * exact NL.
      * intros x X. unfold pruned. rewrite tget_hmod by apply P. rewrite Nat.eqb_refl. cbn. apply filter_In. split; [apply I; right; exact X|]. apply negb_true_iff. apply Nat.eqb_neq. intros ->. contradiction.
      * intros x X. rewrite (pruned_field t_val) by reflexivity. split; [apply T; right; exact X|apply removable_pruned; apply T; right; exact X].
    + rewrite IH; [|assumption|assumption|assumption|assumption|intros x X; apply I; right; exact X|intros x X; apply T; right; exact X].
      f_equal. apply pruned_ext. intros x X. unfold mem_id. cbn [existsb]. destruct (Nat.eqb_spec x k) as [->|NE]; [|reflexivity]. rewrite B, !andb_false_r. reflexivity.
Qed.

Definition prune_col (c : nat) : MM unit := q <- getT c ;; prune_loop c (t_children q).
Lemma prune_col_run : forall c s, doc_ok s -> is_plain s c -> t_doc (tget c s) = true -> (forall k, In k (t_children (tget c s)) -> is_text (t_val (tget k s)) /\ removable s k) ->
  prune_col c s = (pruned c (fun x => negb (bl s x)) s, Ok tt).
Proof.
  intros c s K P D T. unfold prune_col. rewrite bind_getT. cbv beta. rewrite prune_run; [|assumption..|apply (ok_children s K)|apply incl_refl|exact T]. f_equal. apply pruned_ext. intros x X.
  apply mem_id_in in X. rewrite X. reflexivity.
Qed.

(** the state after the loop over the columns *)
Fixpoint pruned_all (cols : list nat) (s : st) : st := match cols with [] => s | c :: cols => pruned_all cols (pruned c (fun x => negb (bl s x)) s) end.
Lemma bl_pruned : forall c f s x, bl (pruned c f s) x = bl s x.
Proof. intros. unfold bl. rewrite (pruned_field t_val) by reflexivity. reflexivity. Qed.
Lemma pruned_all_run : forall cols s, doc_ok s -> (forall c, In c cols -> is_plain s c /\ t_doc (tget c s) = true /\ forall k, In k (t_children (tget c s)) -> is_text (t_val (tget k s)) /\ removable s k) ->
  mapM_ prune_col cols s = (pruned_all cols s, Ok tt).
Proof.
  induction cols as [|c cols IH]; intros s K T; [reflexivity|]. cbn [mapM_ pruned_all]. destruct (T c (or_introl eq_refl)) as (P & D & TX). rewrite (bind_run _ _ _ _ _ (prune_col_run c s K P D TX)). cbv beta. apply IH; [apply ok_pruned; exact K|].
  intros d I. destruct (T d (or_intror I)) as (P' & D' & TX'). split; [split; [rewrite hlen_pruned; apply P'|rewrite (pruned_field t_cls) by reflexivity; apply P']|]. rewrite (pruned_field t_doc) by reflexivity. split; [exact D'|].
  intros k X. apply pruned_children in X. rewrite (pruned_field t_val) by reflexivity. split; [apply TX'; exact X|apply removable_pruned; apply TX'; exact X].
Qed.
Lemma pruned_all_order : forall cols s, in_order s -> in_order (pruned_all cols s).
Proof. induction cols as [|c cols IH]; intros s O; [exact O|]. apply IH. apply order_pruned. exact O. Qed.
Lemma pruned_all_doc : forall cols s, s_doc (pruned_all cols s) = s_doc s /\ hlen (pruned_all cols s) = hlen s /\ s_prs (pruned_all cols s) = s_prs s.
Proof. induction cols as [|c cols IH]; intros s; [auto|]. cbn [pruned_all]. destruct (IH (pruned c (fun x => negb (bl s x)) s)) as (A & B & C). rewrite A, B, C, hlen_pruned. auto. Qed.
Lemma pruned_all_get : forall cols s j, (forall c, In c cols -> c < hlen s) ->
  tget j (pruned_all cols s) = if mem_id j cols then set_t_children (filter (fun x => negb (bl s x)) (t_children (tget j s))) (tget j s) else tget j s.
Proof.
  induction cols as [|c cols IH]; intros s j L; [reflexivity|]. cbn [pruned_all]. rewrite IH by (intros d I; rewrite hlen_pruned; apply L; right; exact I). unfold mem_id. cbn [existsb]. fold (mem_id j cols).
  assert (E : tget j (pruned c (fun x => negb (bl s x)) s) = if j =? c then set_t_children (filter (fun x => negb (bl s x)) (t_children (tget j s))) (tget j s) else tget j s).
  { unfold pruned. rewrite tget_hmod_any. destruct (Nat.eqb_spec j c) as [->|]; cbn [andb]; [|reflexivity]. assert (X : c <? hlen s = true) by (apply Nat.ltb_lt; apply L; left; reflexivity). rewrite X. reflexivity. }
  rewrite E. rewrite (filter_ext _ (fun x => negb (bl s x))) by (intros x; rewrite bl_pruned; reflexivity). destruct (j =? c); cbn [orb]; [|reflexivity]. destruct (mem_id j cols); [|reflexivity].
  cbn. rewrite filter_filter. assert (F : filter (fun x => negb (bl s x) && negb (bl s x)) (t_children (tget j s)) = filter (fun x => negb (bl s x)) (t_children (tget j s))) by (apply filter_ext; intros x; apply andb_diag). rewrite F. reflexivity.
Qed.

(** ** The columns of the schema *)

Lemma table_tidy : tidy_pattern "Root.Table". Proof. patq "Root" "Table". Qed.
Lemma table_denotes : forall p r, dot_free p -> lower p = "root" -> (denotes "Root.Table" p r <-> lower r = "table").
Proof.
  intros p r D E. destruct (term_is_decides p r "Root.Table" D table_tidy) as (b & B & <-). change "Root.Table" with ("Root" ++ "." ++ "Table")%string in B.
  rewrite term_is_qualified in B; [|exact D|apply dot_free_iff; reflexivity|apply dot_free_iff; reflexivity|discriminate|apply tidy_iff; split; reflexivity|apply tidy_iff; split; reflexivity].
  rewrite E in B. change (lower "Table") with "table" in B. assert (X : eqs "table" (lower r) = b) by (injection B as <-; reflexivity). rewrite <- X, eqs_true. split; congruence.
Qed.

Lemma schema_section : forall s sec k, doc_ok s -> dget k (secs s) = Some sec -> In (k, sec) (secs s).
Proof. intros. apply dget_in. assumption. Qed.
Lemma tables_run : forall s sec, in_order s -> dget "schema" (secs s) = Some sec -> underived s "Root.Table" -> none_lost s "schema" ->
  exists r, section_find s sec "Root.Table" VFalse = Ok r /\ forall t, In t r <-> In t (t_terms (tget sec s)) /\ lower (t_rt (tget t s)) = "table".
Proof.
  intros s sec [K N D] H U NL. pose proof (schema_section s sec _ K H) as I. destruct (ok_section s K _ _ I) as (S & _ & _ & n & V & L).
  unfold section_find, section_name. rewrite V. cbn [secarg_of]. destruct (find_spec s "Root.Table" VFalse (SOne n) K N table_tidy U) as (l & r & F & C & P & _). exists r. split; [exact F|].
  assert (CL : l = listed s).
  { destruct C as [_|l (a & b & E & Da & Na) _]; [reflexivity|]. exfalso. change "Root.Table" with ("Root" ++ "." ++ "Table")%string in E. apply cut_unique in E; [|apply dot_free_iff; reflexivity|exact Da]. destruct E as [<- _]. apply Na. reflexivity. }
  subst l. intros t. rewrite (picked_in _ _ _ t P). unfold found. split.
  - intros (T & DE & _ & (j & m & SE & SV & SL) & _). destruct (ok_listed s K t T) as (PL & PT & [(k & i & Ik & Si & Ti)|(LO & _)]); [|exfalso; apply (NL t j m LO SE SV); congruence]. rewrite SE in Si. injection Si as <-.
    apply table_denotes in DE; [|apply (nm_dots s N); apply PL|exact PT]. split; [|exact DE]. destruct (ok_section s K _ _ Ik) as (_ & _ & _ & m' & V' & L'). rewrite SV in V'. injection V' as <-.
    assert (H0 : lower m = "schema") by congruence. subst k. assert (j = sec) by (rewrite H0 in Ik; apply dget_in_nodup in Ik; [congruence|exact (ok_keys s K)]). subst j. exact Ti.
  - intros (T & R). destruct (ok_in s K _ _ t I T) as (TL & SE). split; [exact TL|]. destruct (ok_listed s K t TL) as (PL & PT & _). split; [apply table_denotes; [apply (nm_dots s N); apply PL|exact PT|exact R]|].
    split; [rewrite R; intros (_ & X); discriminate X|]. split; [|left; reflexivity]. exists sec, n. auto.
Qed.

Lemma column_find : forall s t, lower (t_rt (tget t s)) = "table" -> term_find (s_heap s) t "Table.Column" VFalse = Ok (filter (child_matches (s_heap s) "Column" VFalse) (t_children (tget t s))).
Proof.
  intros s t E. unfold term_find. fold (tget t s). change "Table.Column" with ("Table" ++ "." ++ "Column")%string. rewrite (item_name s t "Column"); [reflexivity|apply dot_free_iff; reflexivity|].
  constructor; [apply dot_free_iff; reflexivity|rewrite E; reflexivity].
Qed.
Lemma columns_found : forall s sec, in_order s -> dget "schema" (secs s) = Some sec -> underived s "Root.Table" -> none_lost s "schema" ->
  exists cols, schema_columns s sec = Ok cols /\ forall c, In c cols <-> schema_column s sec c.
Proof.
  intros s sec O H U NL. destruct (tables_run s sec O H U NL) as (r & F & T). unfold schema_columns. rewrite F. cbn [rbind].
  assert (R : rmap (fun t => term_find (s_heap s) t "Table.Column" VFalse) r = Ok (map (fun t => filter (child_matches (s_heap s) "Column" VFalse) (t_children (tget t s))) r)).
  { assert (TT : forall t, In t r -> lower (t_rt (tget t s)) = "table") by (intros t I; apply T; exact I). clear -TT. induction r as [|t r IH]; [reflexivity|]. cbn [rmap map]. rewrite column_find by (apply TT; left; reflexivity). cbn [rbind]. rewrite IH by (intros x X; apply TT; right; exact X). reflexivity. }
  rewrite R. cbn [rbind]. eexists. split; [reflexivity|]. intros c. rewrite in_concat. unfold schema_column. split.
  - intros (l & IL & IC). apply in_map_iff in IL. destruct IL as (t & <- & It). apply filter_In in IC. destruct IC as (IC & M). apply matches_called in M. apply T in It. exists t. destruct It as (I1 & I2). auto.
  - intros (t & I1 & I2 & I3 & I4). eexists. split; [apply in_map_iff; exists t; split; [reflexivity|apply T; auto]|]. apply filter_In. split; [exact I3|]. apply matches_called. exact I4.
Qed.

(** ** The properties in use *)

Lemma nodup_dict_of : forall {A} (l : list (string * A)), NoDup (dkeys (dict_of l)).
Proof. intros A l. unfold dict_of, dupdate. assert (H : forall d : dict A, NoDup (dkeys d) -> NoDup (dkeys (fold_left (fun acc kv => dset (fst kv) (snd kv) acc) l d))) by (induction l as [|x l IH]; intros d N; [exact N|]; cbn [fold_left]; apply IH; apply nodup_dset; exact N). apply H. constructor. Qed.

Lemma concat_if : forall {A B} (f : A -> res bool) (g : A -> B) l, (forall x, In x l -> exists b, f x = Ok b) ->
  exists r, rmap (fun x => do? b <- f x ;; Ok (if b then [g x] else [])) l = Ok r /\ forall y, In y (concat r) <-> exists x, In x l /\ f x = Ok true /\ g x = y.
Proof.
  intros A B f g l. induction l as [|x l IH]; intros T; [exists []; split; [reflexivity|]; intros y; split; [intros []|intros (x & [] & _)]|].
  destruct (T x (or_introl eq_refl)) as (b & E). destruct IH as (r & R & H); [intros z Z; apply T; right; exact Z|]. cbn [rmap]. rewrite E. cbn [rbind]. rewrite R. cbn [rbind]. eexists. split; [reflexivity|]. intros y. cbn [concat]. rewrite in_app_iff, H. split.
  - intros [I|(z & Z & W)]; [|exists z; split; [right; exact Z|exact W]]. destruct b; [|destruct I]. destruct I as [<-|[]]. exists x. split; [left; reflexivity|auto].
  - intros (z & [<-|Z] & W & G); [left; rewrite W in E; injection E as <-; left; exact G|right; exists z; auto].
Qed.
Lemma used_run : forall s c, (forall x, In x (t_children (tget c s)) -> is_text (t_val (tget x s))) ->
  exists l, used_of (s_heap s) c = Ok l /\ forall k, In k l <-> exists x a b, t_children (tget c s) = (a ++ x :: b)%list /\ lower (t_rt (tget x s)) = k /\ (forall y, In y b -> lower (t_rt (tget y s)) <> k) /\ has_text (t_val (tget x s)).
Proof.
  intros s c T. unfold used_of.
  assert (IN : forall k v, In (k, v) (props (s_heap s) c) <-> exists x a b, t_children (tget c s) = (a ++ x :: b)%list /\ lower (t_rt (tget x s)) = k /\ (forall y, In y b -> lower (t_rt (tget y s)) <> k) /\ v = t_val (tget x s)).
  { intros k v. unfold props. fold (tget c s). assert (ND : NoDup (map fst (dict_of (map (fun x => (rt_lc (hget x (s_heap s)), t_val (hget x (s_heap s)))) (t_children (tget c s)))))) by apply nodup_dict_of.
    split.
    - intros I. apply dget_in_nodup in I; [|exact ND]. apply dict_of_last in I. destruct I as (n & E & M). rewrite nth_error_map in E. destruct (nth_error (t_children (tget c s)) n) as [x|] eqn:X; [|discriminate E]. cbn in E. injection E as <- <-.
      destruct (nth_error_split _ _ X) as (a & b & EQ & LA). exists x, a, b. split; [exact EQ|]. split; [reflexivity|]. split; [|reflexivity]. intros y Y YE. apply In_nth_error in Y. destruct Y as (m & Y).
      assert (Z : nth_error (map (fun x => (rt_lc (hget x (s_heap s)), t_val (hget x (s_heap s)))) (t_children (tget c s))) (n + S m) = Some (lower (t_rt (tget x s)), t_val (tget y s))).
      { rewrite nth_error_map, EQ, nth_error_app2 by lia. replace (n + S m - length a) with (S m) by lia. cbn [nth_error]. rewrite Y. cbn. unfold rt_lc. fold (tget y s). rewrite YE. reflexivity. }
      apply M in Z. lia.
    - intros (x & a & b & EQ & R & NB & ->). apply dget_in. apply dict_of_last. exists (length a). rewrite EQ. split.
      + rewrite nth_error_map, nth_error_app2, Nat.sub_diag by lia. cbn. unfold rt_lc. fold (tget x s). rewrite R. reflexivity.
      + intros n' v' E. rewrite nth_error_map in E. destruct (Nat.le_gt_cases n' (length a)) as [L|L]; [exact L|]. exfalso. rewrite nth_error_app2 in E by lia. destruct (n' - length a) as [|m] eqn:Z; [lia|]. cbn in E.
        destruct (nth_error b m) as [y|] eqn:Y; [|discriminate E]. cbn in E. injection E as E _. apply nth_error_In in Y. exact (NB y Y E). }
  destruct (concat_if (fun kv : string * val => val_nonblank (snd kv)) fst (props (s_heap s) c)) as (r & R & H).
  { intros (k & v) I. apply IN in I. destruct I as (x & a & b & EQ & _ & _ & ->). cbn [snd]. destruct (nonblank_run (t_val (tget x s))) as (q & Q & _); [apply T; rewrite EQ; apply in_or_app; right; left; reflexivity|]. exists q. exact Q. }
  rewrite R. cbn [rbind]. eexists. split; [reflexivity|]. intros k. rewrite H. split.
  - intros ((k', v) & I & B & <-). cbn [fst snd] in *. apply IN in I. destruct I as (x & a & b & EQ & E1 & E2 & ->). exists x, a, b. split; [exact EQ|]. split; [exact E1|]. split; [exact E2|].
    destruct (nonblank_run (t_val (tget x s))) as (q & Q & W); [apply T; rewrite EQ; apply in_or_app; right; left; reflexivity|]. rewrite Q in B. injection B as ->. apply W. reflexivity.
  - intros (x & a & b & EQ & E1 & E2 & HT). exists (k, t_val (tget x s)). split; [apply IN; exists x, a, b; auto|]. split; [|reflexivity]. cbn [snd].
    destruct (nonblank_run (t_val (tget x s))) as (q & Q & W); [apply T; rewrite EQ; apply in_or_app; right; left; reflexivity|]. rewrite Q. f_equal. apply W. exact HT.
Qed.
Lemma used_found : forall s sec cols, (forall c, In c cols <-> schema_column s sec c) -> (forall c, schema_column s sec c -> forall x, In x (t_children (tget c s)) -> is_text (t_val (tget x s))) ->
  exists used, (do? l <- rmap (used_of (s_heap s)) cols ;; Ok (nodup string_dec (concat l))) = Ok used /\ NoDup used /\ forall k, In k used <-> used_property s sec k.
Proof.
  intros s sec cols C T. destruct (rmap_ok (used_of (s_heap s)) cols) as (m & M); [intros c I; apply C in I; destruct (used_run s c (T c I)) as (l & L & _); eauto|].
  rewrite M. cbn [rbind]. eexists. split; [reflexivity|]. split; [apply NoDup_nodup|]. intros k. rewrite nodup_In, in_concat. unfold used_property. split.
  - intros (l & IL & IK). destruct (rmap_back _ _ _ M _ IL) as (c & IC & E). apply C in IC. destruct (used_run s c (T c IC)) as (l' & L & H). rewrite L in E. injection E as ->. apply H in IK. destruct IK as (x & a & b & W). exists c, x, a, b. tauto.
  - intros (c & x & a & b & IC & W). destruct (used_run s c (T c IC)) as (l & L & H). apply C in IC. destruct (rmap_in _ _ _ M _ IC) as (l' & L' & IL). rewrite L in L'. injection L' as <-. exists l. split; [exact IL|]. apply H. exists x, a, b. exact W.
Qed.

(** ** The arguments *)

Lemma sharp_lower : forall n, no_sharp_s n -> no_sharp_s (lower n).
Proof.
  unfold no_sharp_s. induction n as [|c n IH]; [auto|]. cbn [lower list_ascii_of_string In]. intros H [E|E]; [|apply IH; tauto].
  apply H. left. assert (Q : (negb (Ascii.eqb (lower_char c) (ascii_of_nat 223)) || Ascii.eqb c (ascii_of_nat 223)) = true) by (apply (all256_spec (fun c => negb (Ascii.eqb (lower_char c) (ascii_of_nat 223)) || Ascii.eqb c (ascii_of_nat 223))); vm_compute; reflexivity).
  rewrite E in Q. rewrite Ascii.eqb_refl in Q. cbn in Q. apply Ascii.eqb_eq in Q. exact Q.
Qed.
Lemma column_lower : forall n, column_name n -> column_name (lower n).
Proof.
  intros n (T & N & S & X). split; [apply (tidy_via_lower n); [symmetry; apply lower_idem|exact T]|]. split; [intros E; apply N; apply lower_nil; exact E|]. split; [apply sharp_lower; exact S|]. rewrite lower_idem. exact X.
Qed.
Definition plainc (c : string) : Prop := tidy c /\ c <> "".
Lemma drop_fold : forall drop l, Forall plainc l -> Forall no_sharp_s drop -> (forall a, In a drop -> lower a = a) ->
  fold_left (fun l a => remove_arg (title a) l) drop l = filter (fun a => negb (mem_str (lower a) drop)) l.
Proof.
  induction drop as [|a drop IH]; intros l P S L; [symmetry; apply forallb_filter_id; apply forallb_forall; reflexivity|]. inversion S as [|? ? SA SD]; subst. cbn [fold_left]. unfold remove_arg at 2. rewrite clean_id by exact P.
  rewrite IH; [|apply Forall_forall; intros x X; apply filter_In in X; rewrite Forall_forall in P; apply P; apply X|exact SD|intros x X; apply L; right; exact X].
  rewrite filter_filter. apply filter_ext. intros x. rewrite title_lower by exact SA. rewrite (L a (or_introl eq_refl)). cbn [mem_str existsb]. unfold mem_str. cbn [existsb]. rewrite <- negb_orb. reflexivity.
Qed.
Lemma add_fold : forall add l, Forall plainc l -> Forall column_name add -> (forall a, In a add -> lower a = a) -> NoDup add -> (forall a, In a add -> ~ In a (map lower l)) ->
  fold_left (fun l a => add_arg a false l) add l = (l ++ map title add)%list.
Proof.
  induction add as [|a add IH]; intros l P C L N F; [rewrite app_nil_r; reflexivity|]. inversion C as [|? ? CA CD]; subst. inversion N as [|? ? NA ND]; subst. cbn [fold_left].
  assert (E : add_arg a false l = (l ++ [title a])%list).
  { unfold add_arg. rewrite clean_id by exact P. rewrite (L a (or_introl eq_refl)). destruct (mem_str a (map lower l)) eqn:M; [|reflexivity]. apply mem_str_in in M. destruct (F a (or_introl eq_refl) M). }
  destruct CA as (T & NE & SH & _). pose proof (title_lower a SH) as TL.
  rewrite E, IH; [rewrite <- app_assoc; reflexivity| |exact CD|intros x X; apply L; right; exact X|exact ND|].
  - apply Forall_app. split; [exact P|]. constructor; [|constructor]. split; [apply (tidy_via_lower a); [symmetry; exact TL|exact T]|]. intros Z. apply NE. apply lower_nil. rewrite <- TL, Z. reflexivity.
  - intros x X. rewrite map_app, in_app_iff. intros [I|[I|[]]]; [exact (F x (or_intror X) I)|]. rewrite TL, (L a (or_introl eq_refl)) in I. subst x. contradiction.
Qed.

Definition reargued (sec : nat) (args : list string) (s : st) : st := hmod sec (set_t_args args) s.
Lemma reargued_field : forall {A} (g : trec -> A) c a s j, (forall r x, g (set_t_args x r) = g r) -> g (tget j (reargued c a s)) = g (tget j s).
Proof. intros A g c f s j G. unfold reargued. rewrite tget_hmod_any. destruct (Nat.eqb_spec j c) as [->|]; cbn [andb]; [destruct (c <? hlen s); [apply G|reflexivity]|reflexivity]. Qed.
Lemma ok_reargued : forall s sec a, doc_ok s -> usual_columns a -> doc_ok (reargued sec a s).
Proof.
  intros s c a K UA. set (s' := reargued c a s).
  assert (FD : forall {A} (g : trec -> A) j, (forall r x, g (set_t_args x r) = g r) -> g (tget j s') = g (tget j s)) by (intros; apply reargued_field; assumption).
  assert (HL : hlen s' = hlen s) by apply hlen_hmod. assert (HD : s_doc s' = s_doc s) by apply doc_hmod.
  assert (PL : forall j, is_plain s' j <-> is_plain s j) by (intros j; unfold is_plain; rewrite HL, (FD _ t_cls) by reflexivity; reflexivity).
  assert (SE : forall j, is_sec s' j <-> is_sec s j) by (intros j; unfold is_sec; rewrite HL, (FD _ t_cls) by reflexivity; reflexivity).
  constructor; unfold secs, listed; rewrite ?HD; fold (secs s) (listed s).
  - apply (ok_keys s K).
  - intros k i I. rewrite SE, (FD _ t_doc), (FD _ t_val) by reflexivity. destruct (ok_section s K k i I) as (A & B & C & D). split; [exact A|]. split; [exact B|]. split; [|exact D].
    unfold columns_of in *. rewrite (FD _ t_hargs) by reflexivity. destruct (t_hargs (tget i s)); [|exact C]. destruct C as [C|C]; [left; exact C|right]. unfold s', reargued. rewrite tget_hmod_any. destruct (Nat.eqb_spec i c); cbn [andb]; [destruct (c <? hlen s)|]; [exact UA|exact C|exact C].
  - apply (ok_list s K).
  - intros k i I. rewrite (FD _ t_terms) by reflexivity. apply (ok_lists s K k i I).
  - intros t I. rewrite PL, (FD _ t_pt), (FD _ t_section) by reflexivity. destruct (ok_listed s K t I) as (A & B & [(k & i & X & Y & Z)|X]); (split; [exact A|]; split; [exact B|]); [left|right; exact X]. exists k, i. rewrite (FD _ t_terms) by reflexivity. auto.
  - intros k i t I. rewrite (FD _ t_terms), (FD _ t_section) by reflexivity. apply (ok_in s K k i t I).
  - intros t I. rewrite (FD _ t_parent) by reflexivity. pose proof (ok_top s K t I) as T. destruct (t_parent (tget t s)); [apply SE; exact T|exact Logic.I].
  - intros t P. rewrite PL in P. rewrite (FD _ t_section) by reflexivity. destruct (ok_plain s K t P) as (i & A & B). exists i. split; [exact A|apply SE; exact B].
  - intros i S. rewrite SE in S. rewrite (FD _ t_val) by reflexivity. apply (ok_named s K i S).
  - intros i x I. rewrite (FD _ t_children) in I by reflexivity. rewrite PL, (FD _ t_parent) by reflexivity. apply (ok_child s K i x I).
  - intros i. rewrite (FD _ t_children) by reflexivity. apply (ok_children s K).
  - apply (ok_declared s K).
Qed.
Lemma order_reargued : forall s sec a, in_order s -> usual_columns a -> in_order (reargued sec a s).
Proof.
  intros s c a [K N D] U. constructor; [apply ok_reargued; assumption| |].
  - constructor; [intros i L; unfold reargued in L; rewrite hlen_hmod in L; rewrite (reargued_field t_pt) by reflexivity; apply (nm_dots s N i L)|]. intros k i I. unfold secs, reargued in I. rewrite doc_hmod in I. rewrite (reargued_field t_pt), (reargued_field t_rt), (reargued_field t_section) by reflexivity. destruct (nm_sections s N k i I) as (A & B & C). split; [exact A|]. split; [exact B|].
    destruct (t_section (tget i s)) as [j|]; [|exact Logic.I]. destruct C as (C1 & C2). split; [unfold reargued; rewrite hlen_hmod; exact C1|rewrite (reargued_field t_cls) by reflexivity; exact C2].
  - intros i L. unfold reargued in L. rewrite hlen_hmod in L. rewrite (reargued_field t_pt), (reargued_field t_rt) by reflexivity. apply (D i L).
Qed.
Lemma column_reargued : forall s sec a c, schema_column (reargued sec a s) sec c <-> schema_column s sec c.
Proof.
  intros s sec a c. unfold schema_column. rewrite (reargued_field t_terms) by reflexivity.
  split; intros (t & A & B & C & D); exists t; [rewrite (reargued_field t_rt) in B by reflexivity; rewrite (reargued_field t_children) in C by reflexivity; rewrite (reargued_field t_rt) in D by reflexivity|rewrite !(reargued_field t_rt), (reargued_field t_children) by reflexivity]; auto.
Qed.

Lemma mapM_ext : forall {A} (f g : A -> MM unit) l s, (forall x t, f x t = g x t) -> mapM_ f l s = mapM_ g l s.
Proof. intros A f g l. induction l as [|x l IH]; intros s H; [reflexivity|]. cbn [mapM_]. unfold bind. rewrite H. destruct (g x s) as (s' & [u|e]); [apply IH; exact H|reflexivity]. Qed.

Theorem c50 : forall s sec, in_order s -> dget "schema" (secs s) = Some sec -> underived s "Root.Table" -> usual_schema s sec ->
  exists s' added,
    clean_unused_schema_terms s = (s', Ok tt) /\ in_order s'
    /\ (exists kept, t_args (tget sec s') = (kept ++ map title added)%list /\ picked (fun a => used_property s sec (lower a)) (t_args (tget sec s)) kept)
    /\ NoDup added /\ (forall k, In k added <-> used_property s sec k /\ ~ In k (map lower (t_args (tget sec s))))
    /\ (forall c, schema_column s sec c -> picked (fun x => has_text (t_val (tget x s))) (t_children (tget c s)) (t_children (tget c s')))
    /\ hlen s' = hlen s /\ s_doc s' = s_doc s /\ s_prs s' = s_prs s
    /\ (forall j, (j <> sec -> t_args (tget j s') = t_args (tget j s)) /\ (~ schema_column s sec j -> t_children (tget j s') = t_children (tget j s))
         /\ set_t_args [] (set_t_children [] (tget j s')) = set_t_args [] (set_t_children [] (tget j s))).
Proof.
  intros s sec O H U (NL & UA & UC). pose proof (io_ok s O) as K. destruct (columns_found s sec O H U NL) as (cols & C & CI).
  destruct (used_found s sec cols CI (fun c I x X => proj1 (proj2 (UC c I) x X))) as (used & E & ND & UI).
  set (args := map lower (t_args (tget sec s))). set (drop := filter (fun a => negb (mem_str a used)) (nodup string_dec args)). set (add := filter (fun a => negb (mem_str a args)) used).
  assert (LS : sec < hlen s) by (apply (ok_section s K _ _ (schema_section s sec _ K H))).
  assert (UCN : forall k, In k used -> column_name k /\ lower k = k).
  { intros k I. apply UI in I. destruct I as (c & x & a & b & SC & EQ & <- & _). destruct (proj2 (UC c SC) x) as (_ & CN & _); [rewrite EQ; apply in_or_app; right; left; reflexivity|]. split; [apply column_lower; exact CN|apply lower_idem]. }
  assert (PLA : Forall plainc (t_args (tget sec s))) by (eapply Forall_impl; [|exact UA]; intros a (X & Y & _); split; assumption).
  assert (AC : Forall column_name add) by (apply Forall_forall; intros k I; apply filter_In in I; apply UCN; apply I).
  assert (AL : forall a, In a add -> lower a = a) by (intros k I; apply filter_In in I; apply UCN; apply I).
  assert (AN : NoDup add) by (apply NoDup_filter; exact ND).
  set (kept := filter (fun a => negb (mem_str (lower a) drop)) (t_args (tget sec s))).
  assert (F1 : fold_left (fun l a => remove_arg (title a) l) drop (t_args (tget sec s)) = kept).
  { apply drop_fold; [exact PLA| |].
    - apply Forall_forall. intros a I. apply filter_In in I. destruct I as (I & _). apply nodup_In in I. apply in_map_iff in I. destruct I as (n & <- & I). rewrite Forall_forall in UA. apply sharp_lower. apply (UA n I).
    - intros a I. apply filter_In in I. destruct I as (I & _). apply nodup_In in I. apply in_map_iff in I. destruct I as (n & <- & _). apply lower_idem. }
  assert (F2 : fold_left (fun l a => add_arg a false l) add kept = (kept ++ map title add)%list).
  { apply add_fold; [|exact AC|exact AL|exact AN|].
    - apply Forall_forall. intros a I. apply filter_In in I. rewrite Forall_forall in PLA. apply PLA. apply I.
    - intros a I X. apply filter_In in I. destruct I as (_ & I). apply negb_true_iff in I. assert (Y : mem_str a args = true); [|congruence]. apply mem_str_in. unfold args. apply in_map_iff in X. destruct X as (n & <- & X). apply filter_In in X. apply in_map. apply X. }
  assert (KP : picked (fun a => used_property s sec (lower a)) (t_args (tget sec s)) kept).
  { exists (fun a => negb (mem_str (lower a) drop)). split; [|reflexivity]. intros a I. rewrite <- UI. rewrite negb_true_iff. destruct (mem_str (lower a) drop) eqn:M.
    - split; [discriminate|]. intros X. apply mem_str_in in M. apply filter_In in M. destruct M as (_ & M). apply negb_true_iff in M. apply mem_str_in in X. congruence.
    - split; [intros _|reflexivity]. destruct (mem_str (lower a) used) eqn:Z; [apply mem_str_in; exact Z|]. exfalso. assert (Y : mem_str (lower a) drop = true); [|congruence]. apply mem_str_in. apply filter_In. split; [apply nodup_In; apply in_map; exact I|rewrite Z; reflexivity]. }
  set (nargs := (kept ++ map title add)%list). set (s1 := reargued sec nargs s).
  assert (UN : usual_columns nargs).
  { unfold usual_columns, nargs. rewrite map_app, in_app_iff. intros [X|X]; apply in_map_iff in X; destruct X as (n & EN & X).
    - apply filter_In in X. rewrite Forall_forall in UA. destruct (UA n (proj1 X)) as (_ & _ & _ & Q). contradiction.
    - apply in_map_iff in X. destruct X as (m & <- & X). rewrite Forall_forall in AC. destruct (AC m X) as (_ & _ & SH & Q). rewrite title_lower in EN by exact SH. contradiction. }
  pose proof (order_reargued s sec nargs O UN) as O1. fold s1 in O1.
  assert (D1 : s_doc s1 = s_doc s) by apply doc_hmod.
  destruct (columns_found s1 sec O1) as (cols1 & C1 & CI1); [unfold secs; rewrite D1; exact H|unfold underived; rewrite D1; exact U|intros t i n LO; unfold s1; rewrite (reargued_field t_section), (reargued_field t_val) by reflexivity; apply (NL t i n LO)|].
  assert (CI2 : forall c, In c cols1 <-> schema_column s sec c) by (intros c; rewrite CI1; apply column_reargued).
  assert (VA : forall j, t_val (tget j s1) = t_val (tget j s)) by (intros j; apply (reargued_field t_val); reflexivity).
  assert (CH : forall j, t_children (tget j s1) = t_children (tget j s)) by (intros j; apply (reargued_field t_children); reflexivity).
  assert (RM : forall j, removable s j -> removable s1 j).
  { intros j ((L & P) & TV & RT). split; [split; [unfold s1, reargued; rewrite hlen_hmod; exact L|unfold s1; rewrite (reargued_field t_cls) by reflexivity; exact P]|]. unfold s1. rewrite (reargued_field t_tvn), (reargued_field t_pt), (reargued_field t_section) by reflexivity. split; [exact TV|]. intros X. unfold secs. fold s1. rewrite D1. apply RT. exact X. }
  assert (LC : forall c, In c cols1 -> c < hlen s1).
  { intros c I. apply CI2 in I. destruct I as (t & _ & _ & I & _). unfold s1, reargued. rewrite hlen_hmod. apply (ok_child s K t c I). }
  exists (pruned_all cols1 s1), add. destruct (pruned_all_doc cols1 s1) as (PD & PH & PP).
  assert (G : forall j, tget j (pruned_all cols1 s1) = if mem_id j cols1 then set_t_children (filter (fun x => negb (bl s1 x)) (t_children (tget j s1))) (tget j s1) else tget j s1) by (intros j; apply pruned_all_get; exact LC).
  split.
  { unfold clean_unused_schema_terms. unfold bind at 1, reads at 1, get_section. cbn [as_str rbind]. change (lower "Schema") with "schema". fold (secs s). rewrite H. change (bind (gets (fun s => s)) ?k s) with (k s s). cbv beta zeta. fold args.
    rewrite C. change (bind (lift (Ok cols)) ?k s) with (k cols s). cbv beta. rewrite E. change (bind (lift (Ok used)) ?k s) with (k used s). cbv beta. fold drop add.
    rewrite bind_modT. cbv beta. rewrite bind_modT. cbv beta. rewrite hmod_hmod. rewrite (hmod_ext sec _ (set_t_args nargs)) by (cbn; rewrite F1, F2; destruct (tget sec s); reflexivity). fold (reargued sec nargs s). fold s1.
    change (bind (gets (fun s => s)) ?k s1) with (k s1 s1). cbv beta. rewrite C1. change (bind (lift (Ok cols1)) ?k s1) with (k cols1 s1). cbv beta.
    apply (pruned_all_run cols1 s1 (io_ok s1 O1)). intros c I. apply CI2 in I. destruct (UC c I) as (TD & TX). split; [|split].
    - destruct I as (t & _ & _ & I & _). unfold is_plain. unfold s1 at 2. rewrite (reargued_field t_cls) by reflexivity. unfold s1, reargued. rewrite hlen_hmod. apply (ok_child s K t c I).
    - unfold s1. rewrite (reargued_field t_doc) by reflexivity. exact TD.
    - intros k X. rewrite CH in X. rewrite VA. destruct (TX k X) as (T1 & _ & T3). split; [exact T1|apply RM; exact T3]. }
  split; [apply pruned_all_order; exact O1|].
  split.
  { exists kept. split; [|exact KP]. rewrite G. assert (X : t_args (tget sec s1) = nargs) by (unfold s1, reargued; rewrite tget_hmod by exact LS; rewrite Nat.eqb_refl; reflexivity). destruct (mem_id sec cols1); [cbn|]; exact X. }
  split; [exact AN|]. split.
  { intros k. unfold add. rewrite filter_In, UI, negb_true_iff. fold args. split; intros (A & B); (split; [exact A|]).
    - intros X. apply mem_str_in in X. congruence.
    - destruct (mem_str k args) eqn:M; [apply mem_str_in in M; contradiction|reflexivity]. }
  split.
  { intros c I. rewrite G. assert (M : mem_id c cols1 = true) by (apply mem_id_in; apply CI2; exact I). rewrite M. change (t_children (set_t_children ?a ?b)) with a. rewrite CH. exists (fun x => negb (bl s1 x)). split; [|reflexivity]. intros x X. rewrite negb_true_iff. rewrite bl_spec by (rewrite VA; apply (proj2 (UC c I) x X)). rewrite VA. reflexivity. }
  split; [rewrite PH; apply hlen_hmod|]. split; [rewrite PD; exact D1|]. split; [rewrite PP; reflexivity|].
  intros j. rewrite G. split; [|split].
  - intros NE. assert (X : t_args (tget j s1) = t_args (tget j s)) by (unfold s1, reargued; rewrite tget_hmod_any; destruct (Nat.eqb_spec j sec); [contradiction|reflexivity]). destruct (mem_id j cols1); [cbn|]; exact X.
  - intros NC. destruct (mem_id j cols1) eqn:M; [|apply CH]. apply mem_id_in in M. apply CI2 in M. contradiction.
  - assert (X : set_t_args [] (set_t_children [] (tget j s1)) = set_t_args [] (set_t_children [] (tget j s))) by (apply (reargued_field (fun r => set_t_args [] (set_t_children [] r))); reflexivity). destruct (mem_id j cols1); [cbn|]; exact X.
Qed.

End WithQuirks.
