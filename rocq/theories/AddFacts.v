(** * AddFacts: what searches see after adding, removing and deleting *)

From Verif Require Import ListFacts StrFacts HeapFacts SpecNames NameFacts SpecOrder OrderFacts Ops ConstructFacts RunFacts EmitFacts RowFacts TotalFacts FrameFacts SpecInv InvFacts ChildFacts ListOps OpFacts SecFacts SpecFind FindFacts SpecEdit.

Section WithQuirks.
Context {QK : Quirks}.

(** ** After new_term *)

Lemma appended_old : forall t sec R Rs s j, j < hlen s -> sec < hlen s -> j <> sec -> tget j (appended t sec R Rs s) = tget j s.
Proof.
  intros t sec R Rs s j L Ls N. unfold appended. rewrite tget_add_last by (rewrite hlen_push_all; lia). destruct (Nat.eqb_spec j sec); [contradiction|].
  apply push_all_old. exact L.
Qed.
Lemma appended_sec : forall t sec R Rs s, sec < hlen s -> tget sec (appended t sec R Rs s) = set_t_terms (t_terms (tget sec s) ++ [t]) (tget sec s).
Proof.
  intros t sec R Rs s L. unfold appended. rewrite tget_add_last, Nat.eqb_refl by (rewrite hlen_push_all; lia). rewrite push_all_old by exact L. reflexivity.
Qed.
Lemma appended_new : forall sec R Rs s, sec < hlen s -> tget (hlen s) (appended (hlen s) sec R Rs s) = R.
Proof.
  intros sec R Rs s L. unfold appended. rewrite tget_add_last by (rewrite hlen_push_all; lia). destruct (Nat.eqb_spec (hlen s) sec); [lia|].
  pose proof (push_all_new (R :: Rs) s 0 ltac:(cbn; lia)) as X. rewrite Nat.add_0_r in X. exact X.
Qed.
Lemma appended_child : forall sec R Rs s n, sec < hlen s -> n < List.length Rs -> tget (S (hlen s) + n) (appended (hlen s) sec R Rs s) = nth n Rs dummy_t.
Proof.
  intros sec R Rs s n L Ln. unfold appended. rewrite tget_add_last by (rewrite hlen_push_all; lia). destruct (Nat.eqb_spec (S (hlen s) + n) sec); [lia|].
  pose proof (push_all_new (R :: Rs) s (S n) ltac:(cbn; lia)) as X. replace (S (hlen s) + n) with (hlen s + S n) by lia. exact X.
Qed.
Lemma appended_hlen : forall t sec R Rs s, hlen (appended t sec R Rs s) = S (hlen s + List.length Rs).
Proof. intros. unfold appended. rewrite hlen_add_last, hlen_push_all. cbn. lia. Qed.
Lemma appended_doc : forall t sec R Rs s, s_doc (appended t sec R Rs s) = set_d_terms (listed s ++ [t]) (s_doc s).
Proof. intros. unfold appended. rewrite doc_add_last. reflexivity. Qed.

Lemma names_appended : forall s k sec R Rs, doc_ok s -> names_ok s -> In (k, sec) (secs s) -> dot_free (t_pt R) ->
  (forall n, n < List.length Rs -> dot_free (t_pt (nth n Rs dummy_t))) -> names_ok (appended (hlen s) sec R Rs s).
Proof.
  intros s k sec R Rs K N I D DC. pose proof (secs_lt s k sec K I) as L. constructor.
  - intros j Hj. rewrite appended_hlen in Hj. destruct (Nat.eq_dec j sec) as [->|NE]; [rewrite appended_sec by exact L; apply (nm_dots s N sec L)|].
    destruct (Nat.lt_ge_cases j (hlen s)) as [A|A]; [rewrite appended_old by assumption; apply (nm_dots s N j A)|].
    destruct (Nat.eq_dec j (hlen s)) as [->|NE']; [rewrite appended_new by exact L; exact D|].
    replace j with (S (hlen s) + (j - S (hlen s))) by lia. rewrite appended_child by lia. apply DC. lia.
  - intros k' i I'. unfold secs in I'. rewrite appended_doc in I'. change (In (k', i) (secs s)) in I'. destruct (nm_sections s N _ _ I') as (A & B & C).
    pose proof (secs_lt s k' i K I') as Li.
    assert (F : t_pt (tget i (appended (hlen s) sec R Rs s)) = t_pt (tget i s) /\ t_rt (tget i (appended (hlen s) sec R Rs s)) = t_rt (tget i s)
      /\ t_section (tget i (appended (hlen s) sec R Rs s)) = t_section (tget i s)).
    { destruct (Nat.eq_dec i sec) as [->|NE]; [rewrite appended_sec by exact L; auto|rewrite appended_old by assumption; auto]. }
    destruct F as (F1 & F2 & F3). rewrite F1, F2, F3. split; [exact A|]. split; [exact B|]. destruct (t_section (tget i s)) as [j|]; [|exact C].
    destruct C as [C1 C2]. split; [rewrite appended_hlen; lia|]. destruct (Nat.eq_dec j sec) as [->|NE]; [rewrite appended_sec by exact L; exact C2|rewrite appended_old by assumption; exact C2].
Qed.

(** what a term of the old document is does not change *)
Lemma found_appended : forall s k sec R Rs p v sa x, doc_ok s -> In (k, sec) (secs s) -> is_plain s x ->
  (found (appended (hlen s) sec R Rs s) p v sa x <-> found s p v sa x).
Proof.
  intros s k sec R Rs p v sa x K I P. pose proof (secs_lt s k sec K I) as L. destruct (ok_section s K _ _ I) as (Ss & _).
  assert (NE : x <> sec) by (intros ->; exact (sec_plain _ _ Ss P)).
  unfold found. rewrite (appended_old _ sec R Rs s x (proj1 P) L NE).
  assert (LI : forall n, lies_in (appended (hlen s) sec R Rs s) x n <-> lies_in s x n).
  { intros n. unfold lies_in. rewrite (appended_old _ sec R Rs s x (proj1 P) L NE). destruct (ok_plain s K x P) as (j & E & Sj).
    assert (V : t_val (tget j (appended (hlen s) sec R Rs s)) = t_val (tget j s)).
    { destruct (Nat.eq_dec j sec) as [->|NE']; [rewrite appended_sec by exact L; reflexivity|rewrite appended_old; [reflexivity|apply Sj|exact L|exact NE']]. }
    split; intros (j' & m & A & B & C); rewrite E in A; injection A as <-; exists j, m; (split; [exact E|]); (split; [|exact C]); congruence. }
  assert (SE : section_is (appended (hlen s) sec R Rs s) sa x <-> section_is s sa x).
  { destruct sa; cbn; [reflexivity|apply LI|]. split; intros (n & A & B); exists n; (split; [exact A|]); apply LI; exact B. }
  rewrite SE. reflexivity.
Qed.

(** a name of the top level *)
Definition top_pattern (p : string) : Prop :=
  tidy_pattern p /\ (dot_free p \/ exists a b, p = (a ++ "." ++ b)%string /\ dot_free a /\ lower a = "root").

Lemma cand_top_only : forall s p l, top_pattern p -> candidates s p l -> l = listed s.
Proof.
  intros s p l [_ T] [A|l' (a & b & E & D & N) _]; [reflexivity|]. subst p. destruct T as [T|(a' & b' & E & D' & T)]; [destruct (not_free_mid _ _ T)|].
  apply cut_unique in E; [|assumption..]. destruct E as [-> _]. contradiction.
Qed.

Lemma filter_ext_in' : forall {A} (f g : A -> bool) l, (forall x, In x l -> f x = g x) -> filter f l = filter g l.
Proof. intros. apply filter_ext_in. assumption. Qed.
Lemma bool_iff : forall a b : bool, (a = true <-> b = true) -> a = b.
Proof. intros [] [] H; try reflexivity; [symmetry; apply H; reflexivity|apply H; reflexivity]. Qed.
Lemma picked_unique : forall {A} (P : A -> Prop) l r r', picked P l r -> picked P l r' -> r = r'.
Proof.
  intros A P l r r' (f & F & ->) (g & G & ->). apply filter_ext_in'. intros x X. apply bool_iff. rewrite (F x X), (G x X). reflexivity.
Qed.
Lemma picked_app : forall {A} (P : A -> Prop) l m r r', picked P l r -> picked P m r' -> (forall x, In x l -> ~ In x m) ->
  (forall x y : A, {x = y} + {x <> y}) -> picked P (l ++ m) (r ++ r').
Proof.
  intros A P l m r r' (f & F & ->) (g & G & ->) D DEC.
  exists (fun x => if in_dec DEC x l then f x else g x). split.
  - intros x X. destruct (in_dec DEC x l) as [I|I]; [apply F; exact I|]. apply G. apply in_app_or in X. tauto.
  - rewrite filter_app. f_equal; apply filter_ext_in'; intros x X; destruct (in_dec DEC x l) as [I|I]; auto; [contradiction|]. destruct (D x I X).
Qed.

Lemma find1_top : forall s p v sa r, doc_ok s -> names_ok s -> top_pattern p -> (find1 s p v sa = Ok r <-> picked (found s p v sa) (listed s) r).
Proof.
  intros s p v sa r K N T. destruct (find1_spec s p v sa K N (proj1 T)) as (l & r0 & E & C & P & _). apply (cand_top_only s p l T) in C. subst l. rewrite E. split.
  - intros H. injection H as <-. exact P.
  - intros H. f_equal. eapply picked_unique; eassumption.
Qed.

Lemma find1_appended : forall s k sec R Rs p v sa r, doc_ok s -> names_ok s -> In (k, sec) (secs s) ->
  doc_ok (appended (hlen s) sec R Rs s) -> names_ok (appended (hlen s) sec R Rs s) -> top_pattern p -> find1 s p v sa = Ok r ->
  (found (appended (hlen s) sec R Rs s) p v sa (hlen s) -> find1 (appended (hlen s) sec R Rs s) p v sa = Ok (r ++ [hlen s]))
  /\ (~ found (appended (hlen s) sec R Rs s) p v sa (hlen s) -> find1 (appended (hlen s) sec R Rs s) p v sa = Ok r).
Proof.
  intros s k sec R Rs p v sa r K N I K' N' T E. set (s' := appended (hlen s) sec R Rs s) in *.
  apply (find1_top s p v sa r K N T) in E.
  assert (LS : listed s' = listed s ++ [hlen s]) by (unfold listed, s'; rewrite appended_doc; reflexivity).
  assert (P : picked (found s' p v sa) (listed s) r).
  { eapply picked_ext; [|exact E]. intros x X. symmetry. apply (found_appended s k); try assumption. apply (ok_listed s K x X). }
  assert (D : forall x, In x (listed s) -> ~ In x [hlen s]). { intros x X [<-|[]]. apply (ok_listed s K) in X. destruct X as ((X & _) & _). lia. }
  split; intros F; apply (find1_top s' p v sa _ K' N' T); rewrite LS.
  - apply picked_app; [exact P| |exact D|apply Nat.eq_dec]. exists (fun _ => true). split; [|reflexivity]. intros x [<-|[]]. tauto.
  - rewrite <- (app_nil_r r). apply picked_app; [exact P| |exact D|apply Nat.eq_dec]. exists (fun _ => false). split; [|reflexivity]. intros x [<-|[]]. split; [discriminate|]. intros X. contradiction.
Qed.

(** the last of the names looked for is the given one *)
Lemma doc_find_ends : forall s p v sa r, doc_ok s -> names_ok s -> (forall ds, dget (lower p) (d_derived (s_doc s)) = Some ds -> Forall tidy_pattern ds) ->
  find1 s p v sa = Ok r -> exists r0, doc_find s p v sa = Ok (r0 ++ r).
Proof.
  intros s p v sa r K N DE E. unfold doc_find. destruct (dget (lower p) (d_derived (s_doc s))) as [ds|]; [|exists []; exact E].
  unfold find_list. specialize (DE ds eq_refl). 
  assert (G : forall ds, Forall tidy_pattern ds -> exists rs, rmap (fun e => find1 s e v sa) (ds ++ [p]) = Ok (rs ++ [r])).
  { clear DE ds. induction 1 as [|d ds T _ (rs & IH)]; cbn [rmap app].
    - rewrite E. exists []. reflexivity.
    - destruct (find1_spec s d v sa K N T) as (l & r1 & E1 & _). rewrite E1. cbn [rbind]. rewrite IH. cbn [rbind]. exists (r1 :: rs). reflexivity. }
  destruct (G ds DE) as (rs & E'). rewrite E'. cbn [rbind]. exists (concat rs). rewrite concat_app. cbn [concat]. rewrite app_nil_r. reflexivity.
Qed.

Lemma cell_denotes : forall term n, cell_names term "root" n -> tidy_pattern term -> top_pattern term /\ denotes term "root" n.
Proof.
  intros term n C T. split; [split; [exact T|]|].
  - inversion C as [r D TR E|a b p r E Da Db Tp Tr Np E1 E2|a b r E W Db Tr E1 E2]; subst; [left; exact D|].
    right. exists a, b. split; [reflexivity|]. split; [exact Da|]. destruct T as [T _|a' b' E Da' Db' Na Ta Tb]; [destruct (not_free_mid _ _ T)|].
    apply cut_unique in E; [|assumption..]. destruct E as [<- <-]. apply trimmed_iff in Tp. rewrite (tidy_strip a Ta) in Tp. subst p. first [exact E1|reflexivity].
  - inversion C as [r D TR E|a b p r E Da Db Tp Tr Np E1 E2|a b r E W Db Tr E1 E2]; subst.
    + destruct T as [_ T|a' b' -> _ _ _ _ _]; [|destruct (not_free_mid _ _ D)]. apply denotes_plain; [exact D|reflexivity|]. apply trimmed_iff in TR. rewrite (tidy_strip term T) in TR. subst r.
      right. rewrite lower_idem. reflexivity.
    + destruct T as [T _|a' b' E Da' Db' Na Ta Tb]; [destruct (not_free_mid _ _ T)|]. apply cut_unique in E; [|assumption..]. destruct E as [<- <-].
      apply trimmed_iff in Tp, Tr. rewrite (tidy_strip a Ta) in Tp. rewrite (tidy_strip b Tb) in Tr. subst p r.
      eapply denotes_qualified; [reflexivity|exact Da|exact Db| |]; right; [rewrite E1; reflexivity|rewrite lower_idem; reflexivity].
Qed.

Lemma child_rec_dots : forall i q term value R, dot_free (t_rt q) -> child_rec i q term value R -> dot_free (t_pt R).
Proof.
  intros i q term value R D (c & p0 & p & n & tvn & _ & CN & E & _ & ->). cbn. subst p. apply cell_names_tidy in CN. destruct CN as (_ & _ & Dp & _).
  destruct (eqs p0 "root"); assumption.
Qed.

(** [found_last]: the term is the last one found *)
Definition found_last (s : st) (p : string) (v : val) (sa : secarg) (t : nat) : Prop :=
  exists r, doc_find s p v sa = Ok (r ++ [t]).

Lemma new_term_found : forall s k sec term value kw s' t, doc_ok s -> names_ok s -> In (k, sec) (secs s) -> ~ odd k ->
  (forall p n, cell_names term p n -> p = "root") -> Ops.new_term sec term value kw s = (s', Ok t) ->
  doc_ok s' /\ names_ok s' /\ (forall n, cell_names term "root" n -> n <> "root" ->
  (forall ds, dget (lower term) (d_derived (s_doc s)) = Some ds -> Forall tidy_pattern ds) -> tidy_pattern term ->
  forall v sa, value_is v (t_val (tget t s')) -> section_is s' sa t -> found_last s' term v sa t)
  /\ (forall p v sa r, top_pattern p -> find1 s p v sa = Ok r -> find1 s' p v sa = Ok r \/ find1 s' p v sa = Ok (r ++ [t])).
Proof.
  intros s k sec term value kw s' t K N I OD NM H. destruct (new_term_ok s k sec term value kw s' t K I OD NM H) as (K' & -> & c & n & R & Rs & C & CN & ER & F & ->).
  pose proof (secs_lt s k sec K I) as L.
  destruct (with_meta_fields (s_doc s) (t_dtvn (tget sec s)) (set_t_children (seq (S (hlen s)) (List.length kw)) (fresh_plain c term "root" n value [] None None None None true (Some sec)))) as (a & b & W).
  rewrite W in ER. pose proof (cell_names_tidy _ _ _ CN) as (_ & _ & Dp & Dn & _).
  assert (N' : names_ok (appended (hlen s) sec R Rs s)).
  { apply (names_appended s k); try assumption; [rewrite ER; exact Dp|]. intros m Hm. destruct (Forall2_nth_r _ _ _ dummy_t F m Hm) as (kv & _ & CR).
    eapply child_rec_dots; [|exact CR]. rewrite ER. exact Dn. }
  split; [exact K'|]. split; [exact N'|]. split.
  - intros n' CN' NR DE T v sa V SA. assert (n' = n). { apply split_term_lower_spec in CN, CN'. rewrite CN in CN'. injection CN' as ->. reflexivity. } subst n'.
    destruct (cell_denotes term n CN T) as [TP DN].
    assert (FO : found (appended (hlen s) sec R Rs s) term v sa (hlen s)).
    { unfold found. rewrite appended_new by exact L. rewrite appended_new in V by exact L. split; [rewrite ER; exact DN|]. split; [|auto]. rewrite ER. cbn. intros [_ X]. apply NR. rewrite <- X. symmetry. apply cell_names_tidy in CN. tauto. }
    destruct (find1_spec s term v sa K N T) as (l & r & E & _). 
    destruct (find1_appended s k sec R Rs term v sa r K N I K' N' TP E) as [X _]. specialize (X FO).
    apply doc_find_ends in X; [|exact K'|exact N'|rewrite appended_doc; exact DE]. destruct X as (r0 & X). exists (r0 ++ r). rewrite <- app_assoc. exact X.
  - intros p v sa r TP E. destruct (find1_appended s k sec R Rs p v sa r K N I K' N' TP E) as [X Y].
    destruct (find1_spec (appended (hlen s) sec R Rs s) p v sa K' N' (proj1 TP)) as (l & r' & E' & CA & PK & _). apply (cand_top_only _ _ _ TP) in CA. subst l.
    destruct (in_dec Nat.eq_dec (hlen s) r') as [J|J].
    + right. apply X. apply (picked_in _ _ _ _ PK) in J. tauto.
    + left. apply Y. intros FO. apply J. apply (picked_in _ _ _ _ PK). split; [|exact FO]. unfold listed. rewrite appended_doc. cbn. apply in_or_app. right. left. reflexivity.
Qed.

(** ** After remove_term *)

Lemma without_first : forall t l, NoDup l -> remove_first t l = without t l.
Proof.
  intros t l N. unfold without. induction N as [|x l A _ IH]; cbn; [reflexivity|]. rewrite (Nat.eqb_sym t x). destruct (Nat.eqb_spec x t) as [->|NE].
  - cbn [negb]. rewrite <- IH. rewrite remove_first_none by exact A. reflexivity.
  - cbn [negb]. rewrite IH. reflexivity.
Qed.

Lemma removed_doc : forall t s, s_doc (removed t s) = set_d_terms (remove_first t (listed s)) (s_doc s).
Proof. intros. unfold removed. rewrite doc_orphaned, doc_unlisted. reflexivity. Qed.
Lemma removed_hlen : forall t s, hlen (removed t s) = hlen s.
Proof. intros. unfold removed. rewrite hlen_orphaned, hlen_unlisted. reflexivity. Qed.
Lemma removed_field : forall {A} (f : trec -> A) t s j, (forall r x, f (set_t_children x r) = f r) -> (forall r x, f (set_t_terms x r) = f r) ->
  f (tget j (removed t s)) = f (tget j s).
Proof. intros A f t s j F G. unfold removed. rewrite (orphaned_field f) by exact F. apply unlisted_field. exact G. Qed.

Lemma removed_children : forall s t j, doc_ok s -> is_plain s t -> t_children (tget j (removed t s)) = without t (t_children (tget j s)).
Proof.
  intros s t j K P. unfold removed, orphaned. rewrite (unlisted_field t_parent) by reflexivity.
  assert (X : t_parent (tget t s) <> Some j -> without t (t_children (tget j s)) = t_children (tget j s)).
  { intros N. rewrite <- without_first by apply (ok_children s K). apply remove_first_none. intros I. apply (ok_child s K) in I. tauto. }
  destruct (t_parent (tget t s)) as [p|].
  - rewrite tget_hmod_any, hlen_unlisted. destruct (Nat.eqb_spec j p) as [->|NE]; cbn [andb].
    + destruct (Nat.ltb_spec p (hlen s)) as [L|L].
      * cbn. rewrite (unlisted_field t_children) by reflexivity. apply without_first. apply (ok_children s K).
      * rewrite (unlisted_field t_children) by reflexivity. rewrite (tget_out p s L). reflexivity.
    + rewrite (unlisted_field t_children) by reflexivity. symmetry. apply X. congruence.
  - rewrite (unlisted_field t_children) by reflexivity. symmetry. apply X. discriminate.
Qed.

Lemma removed_terms : forall s t k i, doc_ok s -> In (k, i) (secs s) -> t_terms (tget i (removed t s)) = without t (t_terms (tget i s)).
Proof.
  intros s t k i K I. unfold removed. rewrite (orphaned_field t_terms) by reflexivity. rewrite tget_unlisted.
  rewrite <- without_first by apply (ok_lists s K _ _ I). pose proof (secs_lt s k i K I) as Li.
  assert (X : home t s <> Some i -> remove_first t (t_terms (tget i s)) = t_terms (tget i s)).
  { intros N. apply remove_first_none. intros J. apply (ok_in s K _ _ _ I) in J. destruct J as [J1 J2]. apply N. unfold home.
    destruct (ok_listed s K t J1) as (_ & -> & _). exact J2. }
  destruct (home t s) as [i'|]; [|symmetry; apply X; discriminate].
  destruct (Nat.eqb_spec i i') as [<-|N]; [apply Nat.ltb_lt in Li; rewrite Li; reflexivity|symmetry; apply X; congruence].
Qed.

Lemma removed_nothing_else : forall s t j, removable s t ->
  tget j (removed t s) = set_t_terms (t_terms (tget j (removed t s))) (set_t_children (t_children (tget j (removed t s))) (tget j s))
  /\ ((forall k, ~ In (k, j) (secs s)) -> t_terms (tget j (removed t s)) = t_terms (tget j s)).
Proof.
  intros s t j (P & _ & RT). split.
  - unfold removed, orphaned. rewrite (unlisted_field t_parent) by reflexivity. destruct (t_parent (tget t s)) as [p|].
    + rewrite tget_hmod_any, tget_unlisted, hlen_unlisted. destruct (Nat.eqb_spec j p) as [->|NE]; cbn [andb].
      * rewrite tget_unlisted. destruct (p <? hlen s); (destruct (home t s) as [h|]; [destruct ((p =? h) && (h <? hlen s))|]); destruct (tget p s); reflexivity.
      * rewrite !tget_unlisted. (destruct (home t s) as [h|]; [destruct ((j =? h) && (h <? hlen s))|]); destruct (tget j s); reflexivity.
    + rewrite tget_unlisted. (destruct (home t s) as [h|]; [destruct ((j =? h) && (h <? hlen s))|]); destruct (tget j s); reflexivity.
  - intros N. unfold removed. rewrite (orphaned_field t_terms) by reflexivity. rewrite tget_unlisted. unfold home. eqs_cases (lower (t_pt (tget t s))) "root"; [|reflexivity].
    destruct (RT E) as (k & i & I & _ & ->). destruct (Nat.eqb_spec j i) as [->|NE]; [|reflexivity]. destruct (N k I).
Qed.

(** whatever find returns is somewhere in the document *)
Lemma rfilter_in : forall {A} (f : A -> res bool) l r x, rfilter f l = Ok r -> In x r -> In x l.
Proof.
  intros A f. induction l as [|y l IH]; intros r x H I; cbn in H; [injection H as <-; destruct I|].
  destruct (f y) as [b|]; [|discriminate]. cbn in H. destruct (rfilter f l) as [r0|]; [|discriminate]. cbn in H. injection H as <-.
  destruct b; [destruct I as [<-|I]; [left; reflexivity|]|]; right; eapply IH; eauto.
Qed.

Lemma find1_present : forall s p v sa r x, doc_ok s -> find1 s p v sa = Ok r -> In x r -> present s x.
Proof.
  intros s p v sa r x K H I. unfold find1 in H. fold (full_name p) in H. destruct (all_terms_walk s K) as (l & E & ls & F & ->). rewrite E in H.
  destruct (startswith "root." (full_name p)); cbn [rbind] in H; pose proof (rfilter_in _ _ _ _ H I) as X.
  - right. exists x. auto.
  - apply in_concat in X. destruct X as (m & M & X).
    assert (G : exists k i, In (k, i) (secs s) /\ section_walk s i m).
    { clear - F M. induction F as [|[k i] b0 tab ls0 W' _ IHF]; [destruct M|]. destruct M as [->|M]; [exists k, i; split; [left; reflexivity|exact W']|].
      destruct (IHF M) as (k2 & i2 & A & B). exists k2, i2. split; [right; exact A|exact B]. }
    destruct G as (k & i & J & W). destruct (section_walk_in s K _ _ _ J W _ X) as [[-> _]|[_ (t & T & U)]]; [left; exists k; exact J|].
    right. exists t. split; [|exact U]. apply (ok_in s K _ _ _ J T).
Qed.
Lemma find_present : forall s p v sa r x, doc_ok s -> doc_find s p v sa = Ok r -> In x r -> present s x.
Proof.
  intros s p v sa r x K H I. unfold doc_find in H. destruct (dget _ _) as [ds|]; [|eapply find1_present; eassumption].
  unfold find_list in H. destruct (rmap _ _) as [ls|] eqn:E; [|discriminate]. cbn [rbind] in H. injection H as <-. apply in_concat in I. destruct I as (m & M & I).
  revert ls E M. induction (ds ++ [p]) as [|e es IH]; intros ls E M; cbn [rmap] in E; [injection E as <-; destruct M|].
  destruct (find1 s e v sa) as [r1|] eqn:E1; [|discriminate]. cbn [rbind] in E. destruct (rmap _ es) as [rs|]; [|discriminate]. cbn [rbind] in E. injection E as <-.
  destruct M as [->|M]; [eapply find1_present; eassumption|eapply IH; [reflexivity|exact M]].
Qed.

Lemma removed_absent : forall s t x, doc_ok s -> removable s t -> (x = t \/ under s t x) -> ~ present (removed t s) x.
Proof.
  intros s t x K RM X H. pose proof (ok_removed s t K RM) as K'. pose proof (proj1 RM) as P.
  assert (UN : forall a b, under (removed t s) a b -> under s a b /\ b <> t).
  { intros a b U. induction U as [c C|c d _ [IH _] D]; rewrite removed_children in * by assumption.
    - unfold without in C. apply filter_In in C. destruct C as [C1 C2]. split; [apply under_child; exact C1|]. intros ->. rewrite Nat.eqb_refl in C2. discriminate C2.
    - unfold without in D. apply filter_In in D. destruct D as [D1 D2]. split; [eapply under_deep; eassumption|]. intros ->. rewrite Nat.eqb_refl in D2. discriminate D2. }
  assert (PX : is_plain s x). { destruct X as [->|X]; [exact P|]. apply (under_plain s K) in X. tauto. }
  destruct H as [(k & I)|(t' & L & U)].
  - unfold secs in I. rewrite removed_doc in I. destruct (ok_section s K _ _ I) as (Sx & _). exact (sec_plain _ _ Sx PX).
  - unfold listed in L. rewrite removed_doc in L. cbn in L. apply remove_first_iff in L; [|apply (ok_list s K)]. destruct L as [L NE].
    (* going up from x we meet t before or after t' *)
    revert X U. clear PX. induction x as [x IH] using lt_wf_ind. intros X U. destruct U as [->|U].
    + destruct X as [->|X]; [contradiction|]. destruct (under_parent s K _ _ X) as (p & PA & _ & C). pose proof (ok_top s K t' L) as T. rewrite PA in T.
      assert (PP : is_plain s p) by (destruct C as [->|C]; [exact P|apply (under_plain s K) in C; tauto]). exact (sec_plain _ _ T PP).
    + destruct (UN _ _ U) as [U1 NT]. destruct X as [->|X]; [contradiction|].
      destruct (under_parent s K _ _ X) as (p & PA & LP & C). destruct (under_parent _ K' _ _ U) as (q & QA & _ & C').
      rewrite (removed_field t_parent) in QA by reflexivity. rewrite PA in QA. injection QA as <-. apply (IH p LP C C').
Qed.

Lemma removed_not_found : forall s t p v sa r x, doc_ok s -> removable s t -> doc_find (removed t s) p v sa = Ok r -> (x = t \/ under s t x) -> ~ In x r.
Proof.
  intros s t p v sa r x K RM H X I. apply (find_present _ _ _ _ _ _ (ok_removed s t K RM) H) in I. exact (removed_absent s t x K RM X I).
Qed.

Lemma removed_other : forall s t x, doc_ok s -> removable s t -> present s x -> x <> t -> ~ under s t x -> present (removed t s) x.
Proof.
  intros s t x K RM H NE NU. pose proof (proj1 RM) as P. destruct H as [(k & I)|(t' & L & U)].
  - left. exists k. unfold secs. rewrite removed_doc. exact I.
  - right. exists t'. assert (NT : t' <> t) by (intros ->; destruct U; contradiction). split.
    + unfold listed. rewrite removed_doc. cbn. apply remove_first_iff; [apply (ok_list s K)|]. auto.
    + destruct U as [->|U]; [left; reflexivity|]. right. revert NE NU. induction U as [c C|c d U IH D]; intros NE NU.
      * apply under_child. rewrite removed_children by assumption. unfold without. apply filter_In. split; [exact C|]. apply Nat.eqb_neq in NE. rewrite NE. reflexivity.
      * eapply under_deep; [apply IH|].
        -- intros ->. apply NU. apply under_child. exact D.
        -- intros X. apply NU. eapply under_deep; eassumption.
        -- rewrite removed_children by assumption. unfold without. apply filter_In. split; [exact D|]. apply Nat.eqb_neq in NE. rewrite NE. reflexivity.
Qed.

Lemma names_removed : forall s t, names_ok s -> names_ok (removed t s).
Proof.
  intros s t N. constructor.
  - intros i L. rewrite removed_hlen in L. rewrite (removed_field t_pt) by reflexivity. apply (nm_dots s N i L).
  - intros k i I. unfold secs in I. rewrite removed_doc in I. destruct (nm_sections s N _ _ I) as (A & B & C). rewrite (removed_field t_pt), (removed_field t_rt), (removed_field t_section) by reflexivity.
    split; [exact A|]. split; [exact B|]. destruct (t_section (tget i s)) as [j|]; [|exact C]. destruct C as [C1 C2]. split; [rewrite removed_hlen; exact C1|rewrite (removed_field t_cls) by reflexivity; exact C2].
Qed.

(** ** After deleting a section *)
Lemma closed_absent : forall s k i t x, doc_ok s -> In (k, i) (secs s) -> In t (t_terms (tget i s)) -> (x = t \/ under s t x) -> ~ present (closed k i s) x.
Proof.
  intros s k i t x K I T X H. destruct (ok_in s K _ _ _ I T) as [LT _].
  assert (PX : is_plain s x). { destruct X as [->|X]; [apply (ok_listed s K t LT)|]. apply (under_plain s K) in X. tauto. }
  destruct H as [(k' & J)|(t' & L & U)].
  - unfold secs, closed in J. rewrite doc_dmod in J. cbn in J. rewrite ddel_filter in J by (apply (ok_keys s K)). apply filter_In in J. destruct J as [J _].
    destruct (ok_section s K _ _ J) as (Sx & _). exact (sec_plain _ _ Sx PX).
  - unfold listed, closed in L. rewrite doc_dmod in L. cbn in L. apply filter_In in L. destruct L as [L O].
    assert (NT : ~ In t' (t_terms (tget i s))). { unfold outside in O. intros Y. apply mem_id_in in Y. rewrite Y in O. discriminate O. }
    assert (UU : x = t' \/ under s t' x).
    { destruct U as [->|U]; [auto|]. right. clear - U. induction U as [c C|c d _ IH D]; [apply under_child; exact C|eapply under_deep; [exact IH|exact D]]. }
    destruct (under_chain s K x t t' X UU) as [->|[Z|Z]]; [contradiction|exact (listed_apart s K _ _ LT L Z)|exact (listed_apart s K _ _ L LT Z)].
Qed.

End WithQuirks.
