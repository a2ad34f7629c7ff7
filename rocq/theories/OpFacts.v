(** * OpFacts: what the operations on a document do *)

From Verif Require Import ListFacts StrFacts HeapFacts SpecNames NameFacts Ops ConstructFacts RunFacts EmitFacts RowFacts TotalFacts FrameFacts SpecInv InvFacts ChildFacts ListOps SpecEdit.

Section WithQuirks.
Context {QK : Quirks}.

(** ** new_term *)

Lemma new_term_ok : forall s k sec term value kw s' t, doc_ok s -> In (k, sec) (secs s) -> ~ odd k ->
  (forall p n, cell_names term p n -> p = "root") ->
  Ops.new_term sec term value kw s = (s', Ok t) ->
  doc_ok s' /\ t = hlen s
  /\ exists c n R Rs, is_section_cls c = false /\ cell_names term "root" n
       /\ R = with_meta (s_doc s) (t_dtvn (tget sec s)) (set_t_children (seq (S t) (List.length kw)) (fresh_plain c term "root" n value [] None None None None true (Some sec)))
       /\ Forall2 (fun kv Q => child_rec t R (fst kv) (text_of (snd kv)) Q) kw Rs
       /\ s' = appended t sec R Rs s.
Proof.
  intros s k sec term value kw s' t K I OD NM H. destruct (new_term_any s k sec term value kw s' (Ok t) K I OD NM H) as [K' [[[e E] _]|(t' & E & H')]]; [discriminate E|].
  injection E as <-. auto.
Qed.

Lemma new_term_keeps : forall s k sec term value kw s' r, doc_ok s -> In (k, sec) (secs s) -> ~ odd k ->
  (forall p n, cell_names term p n -> p = "root") ->
  Ops.new_term sec term value kw s = (s', r) -> doc_ok s'.
Proof. intros s k sec term value kw s' r K I OD NM H. destruct (new_term_any s k sec term value kw s' r K I OD NM H) as [K' _]. exact K'. Qed.

(** a name without dot or with the parent root *)
Lemma cell_names_root : forall term n, cell_names term "root" n -> forall p m, cell_names term p m -> p = "root".
Proof.
  intros term n H p m H'. apply split_term_lower_spec in H. apply split_term_lower_spec in H'. rewrite H in H'. injection H' as <- _. reflexivity.
Qed.

Lemma new_term_run : forall s k sec term value n, doc_ok s -> In (k, sec) (secs s) -> ~ odd k -> cell_names term "root" n ->
  is_section_cls (doc_term_class (lower term) s) = false ->
  exists s', Ops.new_term sec term value [] s = (s', Ok (hlen s)).
Proof.
  intros s k sec term value n K I OD NM C. destruct (Ops.new_term sec term value [] s) as [s' r] eqn:H. 
  destruct (ok_section s K _ _ I) as (Si & Di & _). pose proof (proj1 Si) as Li.
  destruct (new_term_any s k sec term value [] s' r K I OD (cell_names_root _ _ NM) H) as [K' [[[e E] _]|(t & E & T & _)]]; [|subst; exists s'; reflexivity].
  exfalso. subst r. unfold Ops.new_term in H. rg H. rewrite Di in H. rg H. rg H. apply bind_err in H.
  assert (CO : construct (doc_term_class (lower term) s) term value [] None None None None true (Some sec) s = (push (fresh_plain (doc_term_class (lower term) s) term "root" n value [] None None None None true (Some sec)) s, Ok (hlen s))).
  { apply construct_plain_fw; [exact C| |discriminate]. unfold term_names. apply split_term_lower_spec in NM. rewrite NM. reflexivity. }
  destruct H as [H|(s1 & t & H1 & H)]; rewrite CO in *; [discriminate|]. injection H1 as <- <-.
  set (R := fresh_plain _ _ _ _ _ _ _ _ _ _ _ _) in *. unfold new_children in H. cbn [mapM_] in H. rg H.
  apply bind_err in H. destruct H as [H|(s2 & u & _ & H)]; [|discriminate H].
  assert (TR : tget (hlen s) (push R s) = R) by apply push_new.
  rewrite (doc_add_term_run (push R s) k sec (hlen s)) in H; try discriminate H.
  - apply ok_push; [exact K|reflexivity|]. change (is_section_cls (t_cls R)) with (is_section_cls (doc_term_class (lower term) s)). rewrite C. exists sec. auto.
  - exact I.
  - exact OD.
  - split; [rewrite hlen_push; lia|rewrite TR; exact C].
  - intros X. apply (ok_listed s K) in X. destruct X as ([X _] & _). lia.
  - rewrite TR. reflexivity.
  - rewrite TR. reflexivity.
  - rewrite TR. intros X. vm_compute in X. discriminate X.
  - rewrite TR. exact Logic.I.
  - assert (LEAF : forall j, under (push R s) (hlen s) j -> False).
    { intros j U. induction U as [c X|c d _ IH X]; [rewrite TR in X; destruct X|exact IH]. }
    intros j U. destruct (LEAF j U).
Qed.

(** ** remove_term *)

Definition home (t : nat) (s : st) : option nat := if eqs (lower (t_pt (tget t s))) "root" then t_section (tget t s) else None.
Definition unlisted (t : nat) (s : st) : st :=
  let s1 := dmod (fun d => set_d_terms (remove_first t (d_terms d)) d) s in
  match home t s with
  | Some i => hmod i (fun q => set_t_terms (remove_first t (t_terms q)) q) s1
  | None => s1
  end.
Definition orphaned (t : nat) (s : st) : st :=
  match t_parent (tget t s) with
  | Some p => hmod p (fun q => set_t_children (remove_first t (t_children q)) q) s
  | None => s
  end.
Definition removed (t : nat) (s : st) : st := orphaned t (unlisted t s).

Lemma hlen_unlisted : forall t s, hlen (unlisted t s) = hlen s.
Proof. intros t s. unfold unlisted. destruct (home _ _); rewrite ?hlen_hmod, hlen_dmod; reflexivity. Qed.
Lemma doc_unlisted : forall t s, s_doc (unlisted t s) = set_d_terms (remove_first t (listed s)) (s_doc s).
Proof. intros t s. unfold unlisted. destruct (home _ _); rewrite ?doc_hmod, doc_dmod; reflexivity. Qed.
Lemma tget_unlisted : forall t s j, tget j (unlisted t s) =
  if (match home t s with Some i => (j =? i) && (i <? hlen s) | None => false end)
  then set_t_terms (remove_first t (t_terms (tget j s))) (tget j s) else tget j s.
Proof.
  intros t s j. unfold unlisted. destruct (home t s) as [i|]; [|reflexivity].
  rewrite tget_hmod_any, hlen_dmod, !tget_dmod. destruct (Nat.eqb_spec j i) as [->|]; reflexivity.
Qed.
Lemma unlisted_field : forall {A} (f : trec -> A) t s j, (forall r x, f (set_t_terms x r) = f r) -> f (tget j (unlisted t s)) = f (tget j s).
Proof. intros A f t s j F. rewrite tget_unlisted. destruct (match home _ _ with Some _ => _ | None => _ end); [apply F|reflexivity]. Qed.

Lemma ok_unlisted : forall s t, doc_ok s -> is_plain s t -> (lower (t_pt (tget t s)) = "root" -> exists k i, In (k, i) (secs s) /\ ~ odd k /\ t_section (tget t s) = Some i) ->
  doc_ok (unlisted t s).
Proof.
  intros s t K P RT.
  assert (SEC : forall j, is_sec (unlisted t s) j <-> is_sec s j).
  { intros j. unfold is_sec. rewrite hlen_unlisted, (unlisted_field t_cls) by reflexivity. reflexivity. }
  assert (PLA : forall j, is_plain (unlisted t s) j <-> is_plain s j).
  { intros j. unfold is_plain. rewrite hlen_unlisted, (unlisted_field t_cls) by reflexivity. reflexivity. }
  assert (TT : forall k i, In (k, i) (secs s) -> t_terms (tget i (unlisted t s)) = remove_first t (t_terms (tget i s))).
  { intros k i I. rewrite tget_unlisted. destruct (ok_section s K _ _ I) as ((Li & _) & _).
    assert (X : home t s <> Some i -> remove_first t (t_terms (tget i s)) = t_terms (tget i s)).
    { intros N. apply remove_first_none. intros J. apply (ok_in s K _ _ _ I) in J. destruct J as [J1 J2]. apply N. unfold home.
      destruct (ok_listed s K t J1) as (_ & -> & _). exact J2. }
    destruct (home t s) as [i'|]; [|symmetry; apply X; discriminate].
    destruct (Nat.eqb_spec i i') as [<-|N].
    - apply Nat.ltb_lt in Li. rewrite Li. reflexivity.
    - symmetry. apply X. congruence. }
  constructor; unfold secs, listed; rewrite ?doc_unlisted; cbn [d_sections set_d_terms d_terms d_decl_sections]; fold (secs s) (listed s).
  - apply (ok_keys s K).
  - intros k' j J. rewrite SEC, (unlisted_field t_doc), (unlisted_field columns_of), (unlisted_field t_val) by reflexivity. apply (ok_section s K _ _ J).
  - apply remove_first_nodup. apply (ok_list s K).
  - intros k i I. rewrite (TT k i I). apply remove_first_nodup. apply (ok_lists s K _ _ I).
  - intros x X. apply remove_first_iff in X; [|apply (ok_list s K)]. destruct X as [X N]. destruct (ok_listed s K x X) as (A & B & Y).
    rewrite PLA, (unlisted_field t_pt), (unlisted_field t_section) by reflexivity. split; [exact A|]. split; [exact B|].
    destruct Y as [(k & i & C & D & E)|Y]; [left|right; exact Y]. exists k, i. split; [exact C|]. split; [exact D|].
    rewrite (TT k i C). apply remove_first_iff; [apply (ok_lists s K _ _ C)|]. auto.
  - intros k i x I X. rewrite (TT k i I) in X. apply remove_first_iff in X; [|apply (ok_lists s K _ _ I)]. destruct X as [X N].
    destruct (ok_in s K _ _ _ I X) as [A B]. rewrite (unlisted_field t_section) by reflexivity. split; [|exact B]. apply remove_first_iff; [apply (ok_list s K)|]. auto.
  - intros x X. apply remove_first_in in X. pose proof (ok_top s K x X) as Y. rewrite (unlisted_field t_parent) by reflexivity.
    destruct (t_parent (tget x s)); [apply SEC|]; exact Y.
  - intros x X. apply PLA in X. destruct (ok_plain s K x X) as (i & A & B). exists i. rewrite (unlisted_field t_section) by reflexivity. split; [exact A|apply SEC; exact B].
  - intros i X. apply SEC in X. rewrite (unlisted_field t_val) by reflexivity. apply (ok_named s K i X).
  - intros i c X. rewrite (unlisted_field t_children) in X by reflexivity. rewrite (unlisted_field t_parent), PLA by reflexivity. apply (ok_child s K i c X).
  - intros i. rewrite (unlisted_field t_children) by reflexivity. apply (ok_children s K).
  - apply (ok_declared s K).
Qed.

(** a child of another term is not in the section's list *)
Lemma remove_lists_run : forall s t, doc_ok s -> removable s t -> remove_from_lists t s = (unlisted t s, Ok tt).
Proof.
  intros s t K (P & TV & RT). pose proof (proj1 P) as Lt. destruct (ok_plain s K t P) as (i & SE & Si). pose proof (proj1 Si) as Li.
  unfold remove_from_lists. fw. fw. set (s1 := dmod (fun d => set_d_terms (remove_first t (d_terms d)) d) s).
  change (tget t s1) with (tget t s). rewrite SE. unfold pt_lc.
  eqs_cases (lower (t_pt (tget t s))) "root".
  - destruct (RT E) as (k & i' & I & OD & SE'). rewrite SE in SE'. injection SE' as <-.
    destruct (ok_section s K _ _ I) as (_ & D & _ & n & V & En). pose proof (usual_section s k i K I OD) as U.
    assert (ADD : add_section i s1 = (s1, Ok i)).
    { unfold add_section. fw. rewrite hmod_id by (change (tget i s1) with (tget i s); destruct (tget i s); cbn in *; subst; reflexivity). fw.
      change (tget i s1) with (tget i s). rewrite (proj2 Si). fx. rewrite V. cbn [as_str]. fw. fw. rewrite En.
      change (d_sections (s_doc s1)) with (secs s). rewrite (proj2 (dget_some k i _ (ok_keys s K)) I). reflexivity. }
    eapply bind_fw; [exact ADD|].
    assert (SET : set_section_plain t i s1 = (s1, Ok tt)).
    { unfold set_section_plain. fw. fw. change (tget t s1) with (tget t s). apply eqs_false in TV. rewrite TV.
      unfold property_names. rewrite (proj2 P), SE. change (hget i (s_heap s1)) with (tget i s).
      rewrite (mem_str_false "section" (map lower (sec_property_names (tget i s)))) by exact U. rewrite modT_run.
      rewrite hmod_id by (change (tget t s1) with (tget t s); destruct (tget t s); cbn in *; subst; reflexivity). reflexivity. }
    eapply bind_fw; [exact SET|]. fw. change (tget t s1) with (tget t s). rewrite SE.
    unfold section_remove_only. rewrite modT_run. unfold unlisted, home. rewrite E. cbn [eqs]. rewrite eqs_refl, SE. fold s1. reflexivity.
  - unfold unlisted, home. apply eqs_false in E. rewrite E. fold s1. reflexivity.
Qed.

Lemma hmod_dmod : forall i f g s, hmod i f (dmod g s) = dmod g (hmod i f s).
Proof. reflexivity. Qed.

Lemma unlisted_removable : forall s t, removable s t -> removable (unlisted t s) t.
Proof.
  intros s t ((L & P) & TV & RT). split; [|split].
  - split; [rewrite hlen_unlisted; exact L|]. rewrite (unlisted_field t_cls) by reflexivity. exact P.
  - rewrite (unlisted_field t_tvn) by reflexivity. exact TV.
  - rewrite (unlisted_field t_pt), (unlisted_field t_section) by reflexivity. intros X. destruct (RT X) as (k & i & I & E). exists k, i.
    split; [|exact E]. unfold secs. rewrite doc_unlisted. exact I.
Qed.

Lemma ok_orphaned : forall s t, doc_ok s -> doc_ok (orphaned t s).
Proof.
  intros s t K. unfold orphaned. destruct (t_parent (tget t s)) as [p|]; [|exact K].
  pose proof (ok_del_child s p t K) as X.
  assert (E : hmod p (fun q => set_t_children (remove_first t (t_children q)) q) s = hmod p (set_t_children (remove_first t (t_children (tget p s)))) s).
  { apply hmod_ext. reflexivity. }
  rewrite E. exact X.
Qed.

Lemma doc_orphaned : forall s t, s_doc (orphaned t s) = s_doc s.
Proof. intros s t. unfold orphaned. destruct (t_parent _); [apply doc_hmod|reflexivity]. Qed.
Lemma hlen_orphaned : forall s t, hlen (orphaned t s) = hlen s.
Proof. intros s t. unfold orphaned. destruct (t_parent _); [apply hlen_hmod|reflexivity]. Qed.
Lemma orphaned_field : forall {A} (f : trec -> A) t s j, (forall r x, f (set_t_children x r) = f r) -> f (tget j (orphaned t s)) = f (tget j s).
Proof.
  intros A f t s j F. unfold orphaned. destruct (t_parent (tget t s)) as [p|]; [|reflexivity]. rewrite tget_hmod_any.
  destruct (Nat.eqb_spec j p) as [->|]; [|reflexivity]. destruct (p <? hlen s); cbn [andb]; [apply F|reflexivity].
Qed.
Lemma orphaned_removable : forall s t, removable s t -> removable (orphaned t s) t.
Proof.
  intros s t ((L & P) & TV & RT). split; [|split].
  - split; [rewrite hlen_orphaned; exact L|]. rewrite (orphaned_field t_cls) by reflexivity. exact P.
  - rewrite (orphaned_field t_tvn) by reflexivity. exact TV.
  - rewrite (orphaned_field t_pt), (orphaned_field t_section) by reflexivity. intros X. destruct (RT X) as (k & i & I & E). exists k, i.
    split; [|exact E]. unfold secs. rewrite doc_orphaned. exact I.
Qed.

Lemma home_unlisted : forall t s, home t (unlisted t s) = home t s.
Proof. intros t s. unfold home. rewrite (unlisted_field t_pt), (unlisted_field t_section) by reflexivity. reflexivity. Qed.
Lemma home_orphaned : forall t s, home t (orphaned t s) = home t s.
Proof. intros t s. unfold home. rewrite (orphaned_field t_pt), (orphaned_field t_section) by reflexivity. reflexivity. Qed.

(** taking out what is not in *)
Lemma unlisted_again : forall s t, doc_ok s -> ~ In t (listed s) -> removable s t -> unlisted t s = s.
Proof.
  intros s t K N (P & _ & RT). apply st_ext.
  - apply hlen_unlisted.
  - intros j Hj. rewrite tget_unlisted. destruct (home t s) as [i|] eqn:H; [|reflexivity]. destruct (Nat.eqb_spec j i) as [->|]; [|reflexivity].
    destruct (i <? hlen s); [|reflexivity]. cbn [andb]. unfold home in H. eqs_cases (lower (t_pt (tget t s))) "root"; [|discriminate H].
    destruct (RT E) as (k & i' & I & _ & SE). rewrite SE in H. injection H as ->.
    rewrite remove_first_none; [destruct (tget i s); reflexivity|]. intros J. apply N. apply (ok_in s K _ _ _ I J).
  - rewrite doc_unlisted, remove_first_none by exact N. unfold listed. destruct (s_doc s); reflexivity.
  - unfold unlisted. destruct (home t s); reflexivity.
  - unfold unlisted. destruct (home t s); reflexivity.
Qed.
Lemma unlisted_not_in : forall s t, doc_ok s -> ~ In t (listed (unlisted t s)).
Proof. intros s t K X. unfold listed in X. rewrite doc_unlisted in X. cbn in X. apply remove_first_iff in X; [tauto|apply (ok_list s K)]. Qed.
Lemma orphaned_again : forall s t p, t_parent (tget t s) = Some p -> ~ In t (t_children (tget p s)) -> orphaned t s = s.
Proof.
  intros s t p E N. unfold orphaned. rewrite E. apply hmod_id. rewrite remove_first_none by exact N. destruct (tget p s); reflexivity.
Qed.

Lemma bind_getT : forall {A} i (f : trec -> MM A) s, bind (getT i) f s = f (tget i s) s.
Proof. reflexivity. Qed.
Lemma bind_modT : forall {A} i g (f : unit -> MM A) s, bind (modT i g) f s = f tt (hmod i g s).
Proof. reflexivity. Qed.

Lemma mem_id_in : forall x l, mem_id x l = true <-> In x l.
Proof.
  intros x l. unfold mem_id. rewrite existsb_exists. split.
  - intros (y & I & E). apply Nat.eqb_eq in E. subst. exact I.
  - intros I. exists x. split; [exact I|apply Nat.eqb_refl].
Qed.

Lemma remove_fuel_S : forall f t, remove_term_fuel (S f) t =
  (remove_from_lists t ;;;
   r <- getT t ;;
   match t_parent r with
   | None => ret tt
   | Some p =>
       catch_value
         (q <- getT p ;;
          if mem_id t (t_children q) then
            modT p (set_t_children (remove_first t (t_children q))) ;;;
            (if t_doc q then ret tt else raise EAttr) ;;;
            remove_term_fuel f t
          else raise EValue)
   end).
Proof. reflexivity. Qed.

Lemma remove_term_run : forall s t, doc_ok s -> removable s t ->
  (forall p, t_parent (tget t s) = Some p -> t_doc (tget p s) = true) ->
  doc_remove_term t s = (removed t s, Ok tt).
Proof.
  intros s t K RM PD. unfold doc_remove_term. fw. unfold remove_fuel, removed.
  pose proof (ok_unlisted s t K (proj1 RM) (proj2 (proj2 RM))) as K1. pose proof (unlisted_removable s t RM) as RM1.
  assert (PU : t_parent (tget t (unlisted t s)) = t_parent (tget t s)) by (rewrite (unlisted_field t_parent) by reflexivity; reflexivity).
  destruct (t_parent (tget t s)) as [p|] eqn:PA.
  - change (remove_term_fuel (S (S (List.length (t_children (tget p s))))) t s = (orphaned t (unlisted t s), Ok tt)).
    rewrite remove_fuel_S. eapply bind_fw; [exact (remove_lists_run s t K RM)|]. fw. rewrite PU. unfold catch_value. rewrite bind_getT.
    destruct (mem_id t (t_children (tget p (unlisted t s)))) eqn:M.
    + assert (DP : t_doc (tget p (unlisted t s)) = true) by (rewrite (unlisted_field t_doc) by reflexivity; apply PD; reflexivity).
      assert (LP : p < hlen s). { apply mem_id_in in M. apply (ok_child _ K1) in M. destruct M as (A & B & _). destruct RM as ((L & _) & _). lia. }
      assert (EO : hmod p (set_t_children (remove_first t (t_children (tget p (unlisted t s))))) (unlisted t s) = orphaned t (unlisted t s)).
      { unfold orphaned. rewrite PU. apply hmod_ext. reflexivity. }
      rewrite bind_modT, EO, DP.
      pose proof (ok_orphaned _ t K1) as K2. pose proof (orphaned_removable _ t RM1) as RM2. set (s2 := orphaned t (unlisted t s)) in *.
      assert (U2 : unlisted t s2 = s2). { apply unlisted_again; [exact K2| |exact RM2]. unfold s2, listed. rewrite doc_orphaned. apply unlisted_not_in. exact K. }
      assert (P2 : t_parent (tget t s2) = Some p) by (unfold s2; rewrite (orphaned_field t_parent) by reflexivity; exact PU).
      assert (M2 : mem_id t (t_children (tget p s2)) = false).
      { destruct (mem_id t (t_children (tget p s2))) eqn:M2; [|reflexivity]. apply mem_id_in in M2. unfold s2, orphaned in M2. rewrite PU in M2.
        rewrite tget_hmod, Nat.eqb_refl in M2 by (rewrite hlen_unlisted; exact LP). cbn in M2. apply remove_first_iff in M2; [tauto|apply (ok_children _ K1)]. }
      assert (INNER : remove_term_fuel (S (List.length (t_children (tget p s)))) t s2 = (s2, Ok tt)).
      { rewrite remove_fuel_S. eapply bind_fw; [rewrite (remove_lists_run s2 t K2 RM2), U2; reflexivity|]. fw. rewrite P2. unfold catch_value. rewrite bind_getT, M2. reflexivity. }
      match goal with |- match ?x with _ => _ end = _ => assert (X : x = (s2, Ok tt)) by exact INNER end. rewrite X. reflexivity.
    + assert (N : ~ In t (t_children (tget p (unlisted t s)))) by (rewrite <- mem_id_in, M; discriminate).
      rewrite (orphaned_again _ t p PU N). reflexivity.
  - change (remove_term_fuel 1 t s = (orphaned t (unlisted t s), Ok tt)).
    rewrite remove_fuel_S. eapply bind_fw; [exact (remove_lists_run s t K RM)|]. fw. rewrite PU. unfold orphaned. rewrite PU. reflexivity.
Qed.

Lemma ok_removed : forall s t, doc_ok s -> removable s t -> doc_ok (removed t s).
Proof. intros s t K (P & _ & RT). apply ok_orphaned. apply ok_unlisted; assumption. Qed.

Lemma remove_child_run : forall s p c, doc_ok s -> is_plain s p -> t_doc (tget p s) = true -> In c (t_children (tget p s)) -> removable s c ->
  remove_child p c s = (orphaned c s, Ok tt).
Proof.
  intros s p c K P D I RM. destruct (ok_child s K _ _ I) as (L & Pc & PA).
  unfold remove_child. rewrite bind_getT. pose proof (proj2 (mem_id_in _ _) I) as M. rewrite M, bind_modT, D.
  assert (E : hmod p (set_t_children (remove_first c (t_children (tget p s)))) s = orphaned c s) by (unfold orphaned; rewrite PA; apply hmod_ext; reflexivity).
  rewrite E. fw. pose proof (ok_orphaned s c K) as K1. pose proof (orphaned_removable s c RM) as RM1.
  assert (PA1 : t_parent (tget c (orphaned c s)) = Some p) by (rewrite (orphaned_field t_parent) by reflexivity; exact PA).
  rewrite remove_term_run; [|exact K1|exact RM1|].
  - assert (N : ~ In c (listed (orphaned c s))).
    { unfold listed. rewrite doc_orphaned. intros X. apply (ok_top s K) in X. rewrite PA in X. exact (sec_plain _ _ X P). }
    unfold removed. rewrite (unlisted_again _ c K1 N RM1). rewrite (orphaned_again _ c p PA1); [reflexivity|].
    unfold orphaned at 1. rewrite PA. rewrite tget_hmod, Nat.eqb_refl by (apply P). cbn. intros X. apply remove_first_iff in X; [tauto|apply (ok_children s K)].
  - intros p' X. rewrite PA1 in X. injection X as <-. rewrite (orphaned_field t_doc) by reflexivity. exact D.
Qed.

Lemma remove_child_absent : forall s p c, ~ In c (t_children (tget p s)) -> remove_child p c s = (s, Err EValue).
Proof.
  intros s p c N. unfold remove_child. rewrite bind_getT. destruct (mem_id c (t_children (tget p s))) eqn:M; [|reflexivity].
  apply mem_id_in in M. contradiction.
Qed.

(** ** Sections *)

Definition opened (R : trec) (n : string) (s : st) : st :=
  dmod (fun d => set_d_sections (d_sections d ++ [(lower n, hlen s)]) d) (push R s).

Lemma secs_lt : forall s k i, doc_ok s -> In (k, i) (secs s) -> i < hlen s.
Proof. intros s k i K I. apply (ok_section s K _ _ I). Qed.

Lemma ok_opened : forall s R n, doc_ok s -> ~ In (lower n) (map fst (secs s)) -> is_section_cls (t_cls R) = true ->
  t_val R = VStr n -> t_doc R = true -> t_terms R = [] -> t_children R = [] -> odd (lower n) \/ usual_columns (columns_of R) -> doc_ok (opened R n s).
Proof.
  intros s R n K N C V D TT CH U.
  assert (K1 : doc_ok (push R s)) by (apply ok_push; [exact K|exact CH|rewrite C; exists n; exact V]).
  assert (ENT : forall k i, In (k, i) (secs (opened R n s)) -> In (k, i) (secs (push R s)) \/ k = lower n /\ i = hlen s).
  { intros k i I. unfold secs, opened in I. rewrite doc_dmod in I. cbn in I. apply in_app_or in I. destruct I as [I|[I|[]]]; [left; exact I|]. injection I as <- <-. auto. }
  assert (ENT' : forall k i, In (k, i) (secs (push R s)) -> In (k, i) (secs (opened R n s))).
  { intros k i I. unfold secs, opened. rewrite doc_dmod. cbn. apply in_or_app. left. exact I. }
  constructor.
  - unfold secs, opened. rewrite doc_dmod. cbn. rewrite map_app. apply NoDup_app_intro; [apply (ok_keys s K)|repeat constructor; intros []|].
    intros x A [<-|[]]. contradiction.
  - intros k i I. apply ENT in I. destruct I as [I|[-> ->]]; [apply (ok_section _ K1 _ _ I)|].
    change (tget (hlen s) (opened R n s)) with (tget (hlen s) (push R s)). rewrite push_new. split.
    + split; [unfold opened; rewrite hlen_dmod, hlen_push; lia|]. change (tget (hlen s) (opened R n s)) with (tget (hlen s) (push R s)). rewrite push_new. exact C.
    + split; [exact D|]. split; [exact U|]. exists n. auto.
  - exact (ok_list _ K1).
  - intros k i I. apply ENT in I. change (tget i (opened R n s)) with (tget i (push R s)). destruct I as [I|[-> ->]]; [apply (ok_lists _ K1 _ _ I)|].
    rewrite push_new, TT. constructor.
  - intros t X. destruct (ok_listed _ K1 t X) as (A & B & Y). split; [exact A|]. split; [exact B|]. destruct Y as [(k & i & I & E & J)|(Y & Z)]; [left|right].
    + exists k, i. split; [apply ENT'; exact I|]. auto.
    + split; [exact Y|]. intros k i I. apply ENT in I. destruct I as [I|[-> ->]]; [apply (Z _ _ I)|]. intros E.
      change (tget t (opened R n s)) with (tget t (push R s)) in E. destruct (ok_listed s K t X) as (A' & _). destruct (ok_plain s K t A') as (j & F & (G & _)).
      rewrite push_old in E by apply A'. rewrite F in E. injection E as E. lia.
  - intros k i t I X. apply ENT in I. change (tget i (opened R n s)) with (tget i (push R s)) in X. destruct I as [I|[-> ->]]; [apply (ok_in _ K1 _ _ _ I X)|].
    rewrite push_new, TT in X. destruct X.
  - exact (ok_top _ K1).
  - exact (ok_plain _ K1).
  - exact (ok_named _ K1).
  - exact (ok_child _ K1).
  - exact (ok_children _ K1).
  - exact (ok_declared _ K1).
Qed.

(** the record made for a new section *)
Definition section_rec (n : string) (cols : list string) : trec :=
  {| t_cls := CSection; t_parent := None; t_term := "Root.Section"; t_pt := "root"; t_rt := "section";
     t_val := init_val (VStr n); t_args := cols; t_section := None; t_doc := true; t_ftype := None;
     t_row := None; t_col := None; t_tvn := "@value"; t_cpt := "any"; t_valid := None; t_options := [];
     t_children := []; t_terms := []; t_hargs := []; t_dtvn := "@value" |}.

Lemma mk_section_run : forall n params s,
  mk_section CSection "Root.Section" (VStr n) params None None s
  = (push (section_rec n (map strip (match params with [] => section_args n (s_doc s) | _ => params end))) s, Ok (hlen s)).
Proof.
  intros. unfold mk_section. fw. eapply bind_fw with (s1 := s) (a := match params with [] => section_args n (s_doc s) | _ => params end).
  { destruct params; [|reflexivity]. cbn [as_str]. fw. reflexivity. }
  change (split_term_lower "Root.Section") with (@Ok (string * string) ("root", "section")). fw. cbn iota beta.
  change (term_is_name "root" "section" "Root.Section") with (@Ok bool true). fw. cbn iota. fw. cbn [orb assert_]. fw. reflexivity.
Qed.

(** the columns of a new section: the declared ones, else the given ones *)
Definition new_columns (d : docrec) (n : string) (params : list string) : list string :=
  match dget (lower n) (d_decl_sections d) with Some sd => sd_args sd | None => map strip params end.

Lemma new_section_run : forall s n params, dget (lower n) (secs s) = None ->
  new_section n params s = (opened (section_rec n (new_columns (s_doc s) n params)) n s, Ok (hlen s)).
Proof.
  intros s n params A. unfold new_section. eapply bind_fw; [apply mk_section_run|].
  unfold new_columns. set (R := section_rec n (map strip (match params with [] => section_args n (s_doc s) | _ => params end))).
  assert (E : dmod (fun d => set_d_sections (dset (lower n) (hlen s) (d_sections d)) d) (push R s) = opened R n s).
  { unfold opened, dmod. f_equal. rewrite doc_push. change (d_sections (s_doc s)) with (secs s). rewrite dset_absent by exact A. reflexivity. }
  fw. rewrite E. fw. unfold opened at 1. rewrite doc_dmod. cbn [d_decl_sections set_d_sections]. rewrite doc_push.
  destruct (dget (lower n) (d_decl_sections (s_doc s))) as [sd|] eqn:DS.
  - fw. unfold opened. rewrite hmod_dmod, hmod_new. reflexivity.
  - fw. unfold R. destruct params; [|reflexivity]. unfold section_args. rewrite DS. reflexivity.
Qed.

Definition old_columns (d : docrec) (n : string) (params : list string) : list string :=
  map strip (match params with [] => section_args n d | _ => params end).

Lemma get_or_new_section_new : forall s n params, dget (lower n) (secs s) = None -> dget n (secs s) = None ->
  get_or_new_section n params s = (opened (section_rec n (old_columns (s_doc s) n params)) n s, Ok (hlen s)).
Proof.
  intros s n params A B. unfold get_or_new_section. fw. unfold dmem. change (d_sections (s_doc s)) with (secs s). rewrite B. cbn [negb when].
  set (R := section_rec n (old_columns (s_doc s) n params)).
  assert (E : dmod (fun d => set_d_sections (dset (lower n) (hlen s) (d_sections d)) d) (push R s) = opened R n s).
  { unfold opened, dmod. f_equal. rewrite doc_push. change (d_sections (s_doc s)) with (secs s). rewrite dset_absent by exact A. reflexivity. }
  eapply bind_fw; [eapply bind_fw; [apply mk_section_run|]; fold (old_columns (s_doc s) n params); fold R; rewrite modD_run; rewrite E; reflexivity|].
  fw. unfold opened at 1. rewrite doc_dmod, doc_push. cbn [d_sections set_d_sections]. change (d_sections (s_doc s)) with (secs s). rewrite dget_app, A. cbn. rewrite eqs_refl. reflexivity.
Qed.

Lemma get_or_new_section_old : forall s n params i, dget n (secs s) = Some i -> lower n = n ->
  get_or_new_section n params s = (s, Ok i).
Proof.
  intros s n params i B L. unfold get_or_new_section. fw. unfold dmem. change (d_sections (s_doc s)) with (secs s). rewrite B. cbn [negb when]. fw. fw.
  rewrite L. change (d_sections (s_doc s)) with (secs s). rewrite B. reflexivity.
Qed.

End WithQuirks.
