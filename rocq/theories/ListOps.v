(** * ListOps: adding terms to and removing terms from the lists of a document *)

From Coq Require Import Permutation.
From Verif Require Import ListFacts StrFacts HeapFacts SpecNames NameFacts Ops ConstructFacts RunFacts EmitFacts RowFacts TotalFacts FrameFacts SpecInv InvFacts ChildFacts.

Ltac fx := first [fw | match goal with |- bind (assert_ true) ?k ?s = ?rr => change (k tt s = rr); cbv beta end].

Section WithQuirks.
Context {QK : Quirks}.

(** states with equal contents *)
Lemma st_ext : forall s s', hlen s' = hlen s -> (forall j, j < hlen s -> tget j s' = tget j s) -> s_doc s' = s_doc s -> s_prs s' = s_prs s -> s_reg s' = s_reg s -> s' = s.
Proof.
  intros [h d p r] [h' d' p' r'] L T D P R. cbn in *. subst. f_equal.
  apply (nth_ext h' h dummy_t dummy_t); [exact L|]. intros n Hn. apply T. unfold hlen in *. cbn in *. lia.
Qed.

(** ** Ownership *)

Lemma under_first : forall s t c j, In c (t_children (tget t s)) -> under s c j -> under s t j.
Proof.
  intros s t c j I U. induction U as [d H|d e _ IH H]; [|eapply under_deep; eassumption].
  eapply under_deep; [apply under_child; exact I|exact H].
Qed.

Definition settled (s : st) (i t : nat) : Prop := forall j, under s t j -> t_doc (tget j s) = true /\ t_section (tget j s) = Some i.

Lemma set_self : forall r d a b, t_doc r = d -> t_section r = a -> t_parent r = b -> set_t_doc d (set_t_section a (set_t_parent b r)) = r.
Proof. intros r d a b <- <- <-. destruct r. reflexivity. Qed.

Lemma mapM_id : forall {S A} (f : A -> M S unit) l s, (forall x, In x l -> f x s = (s, Ok tt)) -> mapM_ f l s = (s, Ok tt).
Proof.
  induction l as [|x l IH]; intros s H; [reflexivity|]. cbn [mapM_]. unfold bind. rewrite H by (left; reflexivity).
  apply IH. intros y I. apply H. right. exact I.
Qed.

Lemma set_ownership_id : forall f s i t,
  (forall p c, In c (t_children (tget p s)) -> p < c /\ c < hlen s /\ t_parent (tget c s) = Some p) ->
  t < hlen s -> hlen s < f + t -> t_section (tget t s) = Some i -> t_doc (tget t s) = true -> settled s i t ->
  set_ownership f t s = (s, Ok tt).
Proof.
  induction f as [|f IH]; intros s i t CH Ht F SE DO ST; [lia|]. cbn [set_ownership]. fw. rewrite SE. cbv iota.
  change (mapM_ (fun c => modT c (fun q => set_t_doc (t_doc (tget t s)) (set_t_section (Some i) (set_t_parent (Some t) q))) ;;; set_ownership f c)
            (t_children (tget t s)) s = (s, Ok tt)).
  apply mapM_id. intros c I. destruct (CH _ _ I) as (C1 & C2 & C3). destruct (ST c (under_child _ _ _ I)) as [S1 S2]. fw.
  rewrite hmod_id by (apply set_self; congruence).
  apply (IH s i); auto; [lia|]. intros j U. apply ST. eapply under_first; eassumption.
Qed.

(** ** add_section for a section of the document *)

Lemma add_section_known : forall s k i, doc_ok s -> In (k, i) (secs s) -> add_section i s = (s, Ok i).
Proof.
  intros s k i K I. destruct (ok_section s K _ _ I) as ([L C] & D & _ & n & V & E). unfold add_section. fw.
  rewrite hmod_id by (destruct (tget i s); cbn in *; subst; reflexivity). fw. rewrite C. fx. rewrite V. cbn [as_str]. fw. fw.
  rewrite E. change (d_sections (s_doc s)) with (secs s). rewrite (proj2 (dget_some k i _ (ok_keys s K)) I). reflexivity.
Qed.

Lemma listed_plain : forall s t, doc_ok s -> In t (listed s) -> is_plain s t.
Proof. intros s t K I. apply (ok_listed s K t I). Qed.

Lemma mem_str_false : forall x l, ~ In x l -> mem_str x l = false.
Proof.
  intros x l H. destruct (mem_str x l) eqn:E; [|reflexivity]. apply existsb_exists in E. destruct E as (y & I & E). apply eqs_true in E. subst. contradiction.
Qed.

(** [t.section = sec] when nothing is called "section" *)
Lemma usual_section : forall s k i, doc_ok s -> In (k, i) (secs s) -> ~ odd k -> usual_columns (columns_of (tget i s)).
Proof. intros s k i K I OD. destruct (ok_section s K _ _ I) as (_ & _ & [U|U] & _); [contradiction|exact U]. Qed.

Lemma set_section_known : forall s k i t, doc_ok s -> In (k, i) (secs s) -> ~ odd k -> is_plain s t -> lower (t_tvn (tget t s)) <> "section" ->
  t_section (tget t s) = Some i -> set_section_plain t i s = (s, Ok tt).
Proof.
  intros s k i t K I OD [L P] N E. unfold set_section_plain. fw. fw. apply eqs_false in N. rewrite N.
  unfold property_names. rewrite P, E. fold (tget i s).
  assert (U : mem_str "section" (map lower (sec_property_names (tget i s))) = false).
  { apply mem_str_false. apply (usual_section s k i K I OD). }
  rewrite U. rewrite modT_run. rewrite hmod_id by (destruct (tget t s); cbn in *; subst; reflexivity). reflexivity.
Qed.

(** ** The document with [t] added at the end *)

Definition add_last (t i : nat) (s : st) : st :=
  hmod i (fun q => set_t_terms (t_terms q ++ [t]) q) (dmod (fun d => set_d_terms (d_terms d ++ [t]) d) s).

Lemma tget_add_last : forall t i s j, i < hlen s -> tget j (add_last t i s) = if j =? i then set_t_terms (t_terms (tget i s) ++ [t]) (tget i s) else tget j s.
Proof. intros t i s j L. unfold add_last. rewrite tget_hmod by (rewrite hlen_dmod; exact L). rewrite !tget_dmod. reflexivity. Qed.
Lemma hlen_add_last : forall t i s, hlen (add_last t i s) = hlen s.
Proof. intros. unfold add_last. rewrite hlen_hmod, hlen_dmod. reflexivity. Qed.
Lemma doc_add_last : forall t i s, s_doc (add_last t i s) = set_d_terms (listed s ++ [t]) (s_doc s).
Proof. intros. unfold add_last. rewrite doc_hmod, doc_dmod. reflexivity. Qed.

Lemma secs_inj : forall s k k' i, doc_ok s -> In (k, i) (secs s) -> In (k', i) (secs s) -> k = k'.
Proof.
  intros s k k' i K A B. destruct (ok_section s K _ _ A) as (_ & _ & _ & n & V & E). destruct (ok_section s K _ _ B) as (_ & _ & _ & n' & V' & E').
  congruence.
Qed.

Lemma ok_add_last : forall s k i t, doc_ok s -> In (k, i) (secs s) -> is_plain s t -> ~ In t (listed s) ->
  lower (t_pt (tget t s)) = "root" -> t_section (tget t s) = Some i ->
  match t_parent (tget t s) with None => True | Some p => is_sec s p end ->
  doc_ok (add_last t i s).
Proof.
  intros s k i t K I P N R SE PA. destruct (ok_section s K _ _ I) as (Si & _). pose proof (proj1 Si) as Li.
  assert (Ni : t <> i) by (intros ->; exact (sec_plain _ _ Si P)).
  assert (FLD : forall A (f : trec -> A) j, (forall r x, f (set_t_terms x r) = f r) -> f (tget j (add_last t i s)) = f (tget j s)).
  { intros A f j F. rewrite tget_add_last by exact Li. destruct (Nat.eqb_spec j i) as [->|]; [apply F|reflexivity]. }
  assert (SEC : forall j, is_sec (add_last t i s) j <-> is_sec s j).
  { intros j. unfold is_sec. rewrite hlen_add_last, (FLD _ t_cls) by reflexivity. reflexivity. }
  assert (PLA : forall j, is_plain (add_last t i s) j <-> is_plain s j).
  { intros j. unfold is_plain. rewrite hlen_add_last, (FLD _ t_cls) by reflexivity. reflexivity. }
  assert (TT : forall j, t_terms (tget j (add_last t i s)) = if j =? i then t_terms (tget i s) ++ [t] else t_terms (tget j s)).
  { intros j. rewrite tget_add_last by exact Li. destruct (j =? i); reflexivity. }
  assert (NT : forall k' i', In (k', i') (secs s) -> ~ In t (t_terms (tget i' s))).
  { intros k' i' I' J. apply N. apply (ok_in s K _ _ _ I' J). }
  constructor; unfold secs, listed; rewrite ?doc_add_last; cbn [d_sections set_d_terms d_terms d_decl_sections]; fold (secs s) (listed s).
  - apply (ok_keys s K).
  - intros k' j J. rewrite SEC, (FLD _ t_doc), (FLD _ columns_of), (FLD _ t_val) by reflexivity. apply (ok_section s K _ _ J).
  - apply NoDup_app_intro; [apply (ok_list s K)|repeat constructor; intros []|]. intros x A [<-|[]]. contradiction.
  - intros k' j J. rewrite TT. destruct (Nat.eqb_spec j i) as [->|NE]; [|eapply ok_lists; eassumption].
    apply NoDup_app_intro; [eapply ok_lists; eassumption|repeat constructor; intros []|]. intros x A [<-|[]]. exact (NT _ _ I A).
  - intros u J. rewrite PLA, (FLD _ t_pt), (FLD _ t_section) by reflexivity. apply in_app_or in J. destruct J as [J|[<-|[]]].
    + destruct (ok_listed s K u J) as (A & B & X). split; [exact A|]. split; [exact B|]. destruct X as [(k' & i' & C & D & E)|X]; [left|right; exact X]. exists k', i'.
      rewrite TT. split; [exact C|]. split; [exact D|]. destruct (Nat.eqb_spec i' i) as [->|]; [apply in_or_app; left; exact E|exact E].
    + split; [exact P|]. split; [exact R|]. left. exists k, i. rewrite TT, Nat.eqb_refl. split; [exact I|]. split; [exact SE|]. apply in_or_app. right. left. reflexivity.
  - intros k' j u J U. rewrite TT in U. rewrite (FLD _ t_section) by reflexivity. destruct (Nat.eqb_spec j i) as [->|NE].
    + apply in_app_or in U. destruct U as [U|[<-|[]]].
      * destruct (ok_in s K _ _ _ J U) as [A B]. split; [apply in_or_app; left; exact A|exact B].
      * split; [apply in_or_app; right; left; reflexivity|exact SE].
    + destruct (ok_in s K _ _ _ J U) as [A B]. split; [apply in_or_app; left; exact A|exact B].
  - intros u J. rewrite (FLD _ t_parent) by reflexivity. apply in_app_or in J. destruct J as [J|[<-|[]]].
    + pose proof (ok_top s K u J) as T. destruct (t_parent (tget u s)); [apply SEC; exact T|exact T].
    + destruct (t_parent (tget t s)); [apply SEC; exact PA|exact PA].
  - intros u J. apply PLA in J. destruct (ok_plain s K u J) as (j & A & B). exists j. rewrite (FLD _ t_section) by reflexivity. split; [exact A|apply SEC; exact B].
  - intros j J. apply SEC in J. rewrite (FLD _ t_val) by reflexivity. apply (ok_named s K j J).
  - intros j c J. rewrite (FLD _ t_children) in J by reflexivity. rewrite PLA, (FLD _ t_parent) by reflexivity. apply (ok_child s K _ _ J).
  - intros j. rewrite (FLD _ t_children) by reflexivity. apply (ok_children s K).
  - apply (ok_declared s K).
Qed.

(** ** add_term *)

(** the declared meta data given to a term of the root level *)
Definition with_meta (d : docrec) (dflt : string) (r : trec) : trec :=
  let prop k := match dget (tjoin r) (d_decl_terms d) with Some td => dget k (td_props td) | None => None end in
  let r1 := if eqs (t_cpt r) "" || eqs (t_cpt r) "any" then set_t_cpt (match prop "childpropertytype" with Some x => x | None => "any" end) r else r in
  if eqs (t_tvn r) "" || eqs (t_tvn r) dflt then set_t_tvn (match prop "termvaluename" with Some x => x | None => dflt end) r1 else r1.

Lemma with_meta_fields : forall d dflt r, exists a b, with_meta d dflt r = set_t_tvn a (set_t_cpt b r).
Proof.
  intros d dflt r. unfold with_meta. cbv zeta.
  set (x := match _ with Some y => dget "childpropertytype" _ | None => None end). set (y := match _ with Some y => dget "termvaluename" _ | None => None end).
  destruct (eqs (t_cpt r) "" || eqs (t_cpt r) "any"), (eqs (t_tvn r) "" || eqs (t_tvn r) dflt).
  - eexists _, _. reflexivity.
  - exists (t_tvn r), (match x with Some z => z | None => "any" end). destruct r. reflexivity.
  - exists (match y with Some z => z | None => dflt end), (t_cpt r). destruct r. reflexivity.
  - exists (t_tvn r), (t_cpt r). destruct r. reflexivity.
Qed.

Lemma hmod_hmod : forall i f g s, hmod i f (hmod i g s) = hmod i (fun r => f (g r)) s.
Proof.
  intros i f g s. destruct (Nat.ltb_spec i (hlen s)) as [L|L]; [|rewrite !hmod_out; rewrite ?hlen_hmod; auto].
  apply st_ext; rewrite ?hlen_hmod; auto. intros j Hj. rewrite !tget_hmod by (rewrite ?hlen_hmod; exact L). destruct (j =? i); [rewrite Nat.eqb_refl|]; reflexivity.
Qed.
Lemma hmod_ext : forall i f g s, f (tget i s) = g (tget i s) -> hmod i f s = hmod i g s.
Proof. intros i f g s H. unfold hmod. rewrite H. reflexivity. Qed.

Lemma if_same : forall {A} (b : bool) (x : A), (if b then x else x) = x.
Proof. intros A []; reflexivity. Qed.

Lemma add_term_meta_run : forall t s i, t < hlen s -> t_section (tget t s) = Some i ->
  add_term_meta t s = (hmod t (with_meta (s_doc s) (t_dtvn (tget i s))) s, Ok tt).
Proof.
  intros t s i L E. unfold add_term_meta. fw. fw. rewrite E. cbv zeta.
  set (td := dget (tjoin (tget t s)) _). unfold when.
  destruct (eqs (t_cpt (tget t s)) "" || eqs (t_cpt (tget t s)) "any") eqn:C.
  - fw. rewrite if_same. fw. fw.
    assert (TV : forall s2, hget i (s_heap (hmod t s2 s)) = tget i (hmod t s2 s)) by reflexivity. rewrite TV.
    assert (DV : t_dtvn (tget i (hmod t (set_t_cpt (match match td with Some td0 => dget "childpropertytype" (td_props td0) | None => None end with Some x => x | None => "any" end)) s)) = t_dtvn (tget i s))
      by (apply (field_hmod t_dtvn); reflexivity).
    rewrite DV. destruct (eqs (t_tvn (tget t s)) "" || eqs (t_tvn (tget t s)) (t_dtvn (tget i s))) eqn:T.
    + fw. change (assert_ true) with (@ret st unit tt). unfold ret. f_equal. rewrite hmod_hmod. apply hmod_ext. unfold with_meta. fold td. rewrite C, T. reflexivity.
    + fw. unfold assert_, ret. f_equal. apply hmod_ext. unfold with_meta. fold td. rewrite C, T. reflexivity.
  - fw. rewrite if_same. fw. fw.
    change (hget i (s_heap s)) with (tget i s).
    destruct (eqs (t_tvn (tget t s)) "" || eqs (t_tvn (tget t s)) (t_dtvn (tget i s))) eqn:T.
    + fw. unfold assert_, ret. f_equal. apply hmod_ext. unfold with_meta. fold td. rewrite C, T. reflexivity.
    + fw. unfold assert_, ret. f_equal. symmetry. apply hmod_id. unfold with_meta. fold td. rewrite C, T. reflexivity.
Qed.

(** doc.add_term for a new root-level term of a section of the document *)
Definition added (t i : nat) (s : st) : st :=
  hmod t (with_meta (s_doc s) (t_dtvn (tget i s))) (add_last t i (hmod t (set_t_doc true) s)).

Lemma doc_add_term_run : forall s k i t, doc_ok s -> In (k, i) (secs s) -> ~ odd k -> is_plain s t -> ~ In t (listed s) ->
  lower (t_pt (tget t s)) = "root" -> t_section (tget t s) = Some i -> lower (t_tvn (tget t s)) <> "section" ->
  match t_parent (tget t s) with None => True | Some p => is_sec s p end -> settled s i t ->
  doc_add_term t s = (added t i s, Ok tt).
Proof.
  intros s k i t K I OD P N R SE TV PA ST. destruct (ok_section s K _ _ I) as (Si & Di & _). pose proof (proj1 Si) as Li. pose proof (proj1 P) as Lt.
  assert (Ni : t <> i) by (intros ->; exact (sec_plain _ _ Si P)).
  set (s0 := hmod t (set_t_doc true) s).
  assert (T0 : tget t s0 = set_t_doc true (tget t s)) by (unfold s0; rewrite tget_hmod, Nat.eqb_refl by exact Lt; reflexivity).
  assert (I0 : tget i s0 = tget i s). { unfold s0. rewrite tget_hmod by exact Lt. destruct (Nat.eqb_spec i t); [congruence|reflexivity]. }
  assert (K0 : doc_ok s0). { apply ok_hmod; [auto 10|reflexivity| |exact K]. intros X. destruct P. congruence. }
  set (s1 := dmod (fun d => set_d_terms (d_terms d ++ [t]) d) s0).
  unfold doc_add_term. apply (bind_fw _ _ _ s1 true).
  { unfold add_term_list. fw. fold s0. fw. rewrite mem_id_false by exact N. fw. rewrite T0. change (t_section (set_t_doc true (tget t s))) with (t_section (tget t s)).
    rewrite SE. fx. change (t_cls (set_t_doc true (tget t s))) with (t_cls (tget t s)). rewrite (proj2 P). fw. reflexivity. }
  unfold when. fw. change (tget t s1) with (tget t s0). rewrite T0. change (t_section (set_t_doc true (tget t s))) with (t_section (tget t s)). rewrite SE.
  change (pt_lc (set_t_doc true (tget t s))) with (lower (t_pt (tget t s))). rewrite R, eqs_refl.
  (* the rest runs in the state with [t] at the end of the section *)
  set (s2 := add_last t i s0).
  assert (T2 : tget t s2 = set_t_doc true (tget t s)).
  { unfold s2. rewrite tget_add_last by (unfold s0; rewrite hlen_hmod; exact Li). destruct (Nat.eqb_spec t i); [congruence|exact T0]. }
  apply (bind_fw _ _ _ s2 tt).
  2: { assert (E2 : t_section (tget t s2) = Some i) by (rewrite T2; exact SE).
       rewrite (add_term_meta_run t s2 i); [|unfold s2, s0; rewrite hlen_add_last, hlen_hmod; exact Lt|exact E2].
       unfold added. fold s0. fold s2. f_equal. unfold s2 at 1 2. rewrite doc_add_last. apply hmod_ext.
       rewrite tget_add_last, Nat.eqb_refl, I0 by (unfold s0; rewrite hlen_hmod; exact Li). reflexivity. }
  assert (ADD : add_section i s1 = (s1, Ok i)).
  { pose proof (add_section_known s0 k i K0 I) as A. destruct (ok_section s K _ _ I) as (_ & _ & _ & n & V & En). unfold add_section in *. fw.
    rewrite hmod_id. 2: { change (tget i s1) with (tget i s0). rewrite I0. destruct (tget i s); cbn in *; subst; reflexivity. }
    fw. change (tget i s1) with (tget i s0). rewrite I0. rewrite (proj2 Si). fx. rewrite V. cbn [as_str]. fw. fw. rewrite En.
    change (d_sections (s_doc s1)) with (secs s). rewrite (proj2 (dget_some k i _ (ok_keys s K)) I). reflexivity. }
  eapply bind_fw; [exact ADD|].
  assert (SEC : set_section_plain t i s1 = (s1, Ok tt)).
  { unfold set_section_plain. fw. fw. change (tget t s1) with (tget t s0). rewrite T0. change (t_tvn (set_t_doc true (tget t s))) with (t_tvn (tget t s)).
    apply eqs_false in TV. rewrite TV. unfold property_names. change (t_cls (set_t_doc true (tget t s))) with (t_cls (tget t s)). rewrite (proj2 P).
    change (t_section (set_t_doc true (tget t s))) with (t_section (tget t s)). rewrite SE. change (hget i (s_heap s1)) with (tget i s0). rewrite I0.
    rewrite (mem_str_false "section") by apply (usual_section s k i K I OD). rewrite modT_run.
    rewrite hmod_id; [reflexivity|]. change (tget t s1) with (tget t s0). rewrite T0. destruct (tget t s); cbn in *; subst; reflexivity. }
  eapply bind_fw; [exact SEC|]. fw. change (tget t s1) with (tget t s0). rewrite T0.
  change (t_section (set_t_doc true (tget t s))) with (t_section (tget t s)). rewrite SE. unfold section_add_term. fw. fw.
  change (tget i s1) with (tget i s0). change (tget t s1) with (tget t s0). rewrite I0, T0.
  rewrite mem_id_false by (intros X; apply N; apply (ok_in s K _ _ _ I X)).
  change (pt_lc (set_t_doc true (tget t s))) with (lower (t_pt (tget t s))). rewrite R, eqs_refl.
  apply (bind_fw _ _ _ s2 tt); [|fw; rewrite T2; change (t_section (set_t_doc true (tget t s))) with (t_section (tget t s)); rewrite SE; reflexivity].
  fw. change (hmod i (fun s3 => set_t_terms (t_terms s3 ++ [t]) s3) s1) with s2. rewrite Di. fw.
  apply (bind_fw _ _ _ s2 tt).
  { unfold doc_add_term_nosec. apply (bind_fw _ _ _ s2 false); [|reflexivity]. unfold add_term_list. fw.
    rewrite hmod_id by (rewrite T2; reflexivity). fw. rewrite mem_id_true; [reflexivity|].
    unfold s2. rewrite doc_add_last. apply in_or_app. right. left. reflexivity. }
  fw. assert (K2 : doc_ok s2).
  { apply (ok_add_last s0 k i t K0 I); [apply is_plain_hmod; [reflexivity|exact P]|exact N| | |]; rewrite T0; try assumption.
    cbn. destruct (t_parent (tget t s)); [apply is_sec_hmod; [reflexivity|exact PA]|exact PA]. }
  assert (CH2 : forall j, t_children (tget j s2) = t_children (tget j s)).
  { intros j. unfold s2. rewrite tget_add_last by (unfold s0; rewrite hlen_hmod; exact Li). rewrite I0. unfold s0. rewrite tget_hmod by exact Lt.
    destruct (Nat.eqb_spec j i) as [->|]; [reflexivity|]. destruct (Nat.eqb_spec j t) as [->|]; reflexivity. }
  apply (set_ownership_id _ s2 i).
  - intros p c X. destruct (ok_child s2 K2 _ _ X) as (A & [B _] & C). auto.
  - unfold s2, s0. rewrite hlen_add_last, hlen_hmod. exact Lt.
  - unfold heap_fuel. fold (hlen s2). lia.
  - rewrite T2. exact SE.
  - rewrite T2. reflexivity.
  - intros j U. assert (U0 : under s t j). { induction U as [c X|c d _ IH X]; [apply under_child|eapply under_deep; [exact IH|]]; rewrite <- CH2; exact X. }
    destruct (ST j U0) as [A B]. unfold s2. rewrite tget_add_last by (unfold s0; rewrite hlen_hmod; exact Li). rewrite I0. unfold s0. rewrite tget_hmod by exact Lt.
    destruct (Nat.eqb_spec j i) as [->|]; [auto|]. destruct (Nat.eqb_spec j t) as [->|]; auto.
Qed.

Lemma ok_added : forall s k i t, doc_ok s -> In (k, i) (secs s) -> is_plain s t -> ~ In t (listed s) ->
  lower (t_pt (tget t s)) = "root" -> t_section (tget t s) = Some i ->
  match t_parent (tget t s) with None => True | Some p => is_sec s p end -> doc_ok (added t i s).
Proof.
  intros s k i t K I P N R SE PA. destruct (ok_section s K _ _ I) as (Si & _). pose proof (proj1 Si) as Li. pose proof (proj1 P) as Lt.
  assert (Ni : t <> i) by (intros ->; exact (sec_plain _ _ Si P)).
  set (s0 := hmod t (set_t_doc true) s).
  assert (T0 : tget t s0 = set_t_doc true (tget t s)) by (unfold s0; rewrite tget_hmod, Nat.eqb_refl by exact Lt; reflexivity).
  assert (K0 : doc_ok s0). { apply ok_hmod; [auto 10|reflexivity| |exact K]. intros X. destruct P. congruence. }
  assert (K2 : doc_ok (add_last t i s0)).
  { apply (ok_add_last s0 k i t K0 I); [apply is_plain_hmod; [reflexivity|exact P]|exact N| | |]; rewrite T0; try assumption.
    cbn. destruct (t_parent (tget t s)); [apply is_sec_hmod; [reflexivity|exact PA]|exact PA]. }
  unfold added. fold s0.
  assert (W : forall r, exists a b, with_meta (s_doc s) (t_dtvn (tget i s)) r = set_t_tvn a (set_t_cpt b r)) by (intros; apply with_meta_fields).
  apply ok_hmod; [| | |exact K2].
  - intros r. destruct (W r) as (a & b & ->). auto.
  - destruct (W (tget t (add_last t i s0))) as (a & b & ->). reflexivity.
  - intros X. exfalso. rewrite tget_add_last in X by (unfold s0; rewrite hlen_hmod; exact Li). destruct (Nat.eqb_spec t i); [congruence|]. rewrite T0 in X. destruct P. cbn in X. congruence.
Qed.

(** ** new_term *)

Definition push_all (rs : list trec) (s : st) : st := set_s_heap (s_heap s ++ rs) s.
Lemma push_all_nil : forall s, push_all [] s = s.
Proof. intros [h d p r]. unfold push_all. cbn. rewrite app_nil_r. reflexivity. Qed.
Lemma push_all_cons : forall r rs s, push_all (r :: rs) s = push_all rs (push r s).
Proof. intros r rs [h d p q]. unfold push_all, push. cbn. rewrite <- app_assoc. reflexivity. Qed.
Lemma hlen_push_all : forall rs s, hlen (push_all rs s) = hlen s + List.length rs.
Proof. intros. unfold push_all, hlen. cbn. apply app_length. Qed.
Lemma push_all_old : forall rs s j, j < hlen s -> tget j (push_all rs s) = tget j s.
Proof. intros rs s j H. unfold tget, push_all. cbn. apply hget_app_old. exact H. Qed.
Lemma push_all_new : forall rs s n, n < List.length rs -> tget (hlen s + n) (push_all rs s) = nth n rs dummy_t.
Proof. intros rs s n H. unfold tget, push_all, hget. cbn. rewrite app_nth2; unfold hlen; [|lia]. f_equal. lia. Qed.
Lemma push_all_hmod : forall rs i f s, i < hlen s -> push_all rs (hmod i f s) = hmod i f (push_all rs s).
Proof.
  intros rs i f s H. apply st_ext; try reflexivity.
  - rewrite hlen_push_all, !hlen_hmod, hlen_push_all. reflexivity.
  - intros j Hj. rewrite hlen_hmod, hlen_push_all in Hj. rewrite tget_hmod by (rewrite hlen_push_all; lia). rewrite (push_all_old rs s i H).
    destruct (Nat.ltb_spec j (hlen s)) as [L|L].
    + rewrite !push_all_old by (rewrite ?hlen_hmod; exact L). rewrite tget_hmod by exact H. reflexivity.
    + destruct (Nat.eqb_spec j i); [lia|]. replace j with (hlen s + (j - hlen s)) by lia. rewrite push_all_new by lia.
      rewrite <- (hlen_hmod i f s) at 1. rewrite push_all_new by lia. reflexivity.
Qed.

(** a child made under the term [i] with the record [q] *)
Definition child_rec (i : nat) (q : trec) (term : string) (value : val) (R : trec) : Prop :=
  exists c p0 p n tvn, is_section_cls c = false /\ cell_names term p0 n /\ p = (if eqs p0 "root" then t_rt q else p0) /\ lower p = lower (t_rt q)
    /\ R = set_t_tvn tvn (fresh_plain c term p n value [] None None None (Some i) true (t_section q)).
Lemma child_of_rec : forall s i term value R, child_of s i term value R -> child_rec i (tget i s) term value R.
Proof.
  intros s i term value R (c & p & n & tvn & C & T & L & E). apply term_names_ok in T. destruct T as (p0 & T & ->).
  exists c, p0, (if eqs p0 "root" then t_rt (tget i s) else p0), n, tvn. auto.
Qed.
Lemma child_rec_same : forall i q q' term value R, t_rt q = t_rt q' -> t_section q = t_section q' -> child_rec i q term value R -> child_rec i q' term value R.
Proof. intros i q q' term value R A B (c & p0 & p & n & tvn & H). exists c, p0, p, n, tvn. rewrite <- A, <- B. exact H. Qed.

Lemma new_children_ok : forall i kw s s', i < hlen s -> new_children i kw s = (s', Ok tt) ->
  exists Rs, Forall2 (fun kv R => child_rec i (tget i s) (fst kv) (text_of (snd kv)) R) kw Rs
    /\ s' = hmod i (fun q => set_t_children (t_children q ++ seq (hlen s) (List.length kw)) q) (push_all Rs s).
Proof.
  intros i kw. induction kw as [|kv kw IH]; intros s s' L H; unfold new_children in H; cbn [mapM_] in H.
  - injection H as <-. exists []. split; [constructor|]. rewrite push_all_nil. symmetry. apply hmod_id. cbn. rewrite app_nil_r. destruct (tget i s). reflexivity.
  - rb H as s1 u H1. rb H1 as s2 k H2. injection H1 as <- _. apply new_child0_any in H2.
    destruct H2 as [[_ [e E]]|(R & CH & [[_ [e E]]|[-> _]])]; [discriminate E|discriminate E|].
    apply child_of_rec in CH.
    change (new_children i kw (hmod i (fun q => set_t_children (t_children q ++ [hlen s]) q) (push R s)) = (s', Ok tt)) in H.
    apply IH in H; [|rewrite hlen_hmod, hlen_push; lia]. destruct H as (Rs & F & ->).
    assert (TI : tget i (hmod i (fun q => set_t_children (t_children q ++ [hlen s]) q) (push R s)) = set_t_children (t_children (tget i s) ++ [hlen s]) (tget i s)).
    { rewrite tget_hmod, Nat.eqb_refl by (rewrite hlen_push; lia). rewrite push_old by exact L. reflexivity. }
    exists (R :: Rs). split.
    + constructor; [exact CH|]. clear - F TI. induction F as [|kv0 R0 kw0 Rs0 H _ IHF]; constructor; [|exact IHF].
      eapply child_rec_same; [| |exact H]; rewrite TI; reflexivity.
    + rewrite push_all_hmod by (rewrite hlen_push; lia). rewrite <- push_all_cons, hmod_hmod. apply hmod_ext.
      rewrite hlen_hmod, hlen_push. cbn [List.length seq set_t_children t_children]. rewrite <- app_assoc. reflexivity.
Qed.

Lemma new_children_leaf : forall i kw s s' R, i = hlen s -> t_children R = [] -> new_children i kw (push R s) = (s', Ok tt) ->
  exists Rs, Forall2 (fun kv Q => child_rec i R (fst kv) (text_of (snd kv)) Q) kw Rs
    /\ s' = push_all (set_t_children (seq (S i) (List.length kw)) R :: Rs) s.
Proof.
  intros i kw s s' R -> CH H. apply new_children_ok in H; [|rewrite hlen_push; lia]. destruct H as (Rs & F & ->).
  rewrite push_new in F. exists Rs. split; [exact F|]. rewrite <- push_all_cons. rewrite push_all_cons.
  rewrite <- push_all_hmod by (rewrite hlen_push; lia). rewrite hmod_new, CH, hlen_push, push_all_cons. reflexivity.
Qed.

(** the document after new_term: the new term and its children at the end of
    the heap, the term last in both lists *)
Definition appended (t sec : nat) (R : trec) (Rs : list trec) (s : st) : st :=
  add_last t sec (push_all (R :: Rs) s).

Definition root_name (term n : string) : Prop := cell_names term "root" n.

Lemma child_rec_fields : forall i q term value R, child_rec i q term value R ->
  is_section_cls (t_cls R) = false /\ t_children R = [] /\ t_parent R = Some i /\ t_section R = t_section q /\ t_doc R = true /\ t_val R = init_val value.
Proof. intros i q term value R (c & p0 & p & n & tvn & C & _ & _ & _ & ->). cbn. auto 10. Qed.

Lemma Forall2_nth_r : forall {A B} (P : A -> B -> Prop) l l' d, Forall2 P l l' -> forall n, n < List.length l' -> exists a, In a l /\ P a (nth n l' d).
Proof.
  intros A B P l l' d F. induction F as [|a b l l' H _ IH]; intros n Hn; [cbn in Hn; lia|]. destruct n.
  - exists a. split; [left; reflexivity|exact H].
  - cbn in Hn. destruct (IH n ltac:(lia)) as (x & I & X). exists x. split; [right; exact I|exact X].
Qed.
Lemma Forall2_len : forall {A B} (P : A -> B -> Prop) l l', Forall2 P l l' -> List.length l = List.length l'.
Proof. intros A B P l l' F. induction F; cbn; congruence. Qed.

Lemma new_term_any : forall s k sec term value kw s' r, doc_ok s -> In (k, sec) (secs s) -> ~ odd k ->
  (forall p n, cell_names term p n -> p = "root") ->
  Ops.new_term sec term value kw s = (s', r) ->
  doc_ok s' /\ (failed r /\ grows s s' \/ exists t, r = Ok t /\ t = hlen s
  /\ exists c n R Rs, is_section_cls c = false /\ cell_names term "root" n
       /\ R = with_meta (s_doc s) (t_dtvn (tget sec s)) (set_t_children (seq (S t) (List.length kw)) (fresh_plain c term "root" n value [] None None None None true (Some sec)))
       /\ Forall2 (fun kv Q => child_rec t R (fst kv) (text_of (snd kv)) Q) kw Rs
       /\ s' = appended t sec R Rs s).
Proof.
  intros s k sec term value kw s' r K I OD NM H. destruct (ok_section s K _ _ I) as (Si & Di & _). pose proof (proj1 Si) as Li.
  unfold Ops.new_term in H. rg H. rewrite Di in H. rg H. rg H. ra H as s1 t1 H1.
  { apply construct_in_section in H1. destruct H1 as [[-> F]|(p & n & _ & _ & E & _)]; [|discriminate E]. split; [exact K|]. left. split; [eexists; exact H|apply grows_refl]. }
  apply construct_in_section in H1.
  destruct H1 as [[_ [e E]]|(p & n & C & CN & E & ->)]; [discriminate E|]. injection E as ->. assert (p = "root") by (eapply NM; exact CN). subst p.
  set (R0 := fresh_plain _ _ _ _ _ _ _ _ _ _ _ _) in *. assert (K1 : doc_ok (push R0 s)). { apply ok_push; [exact K|reflexivity|]. change (is_section_cls (t_cls R0)) with (is_section_cls (doc_term_class (lower term) s)). rewrite C. exists sec. auto. }
  assert (P1 : is_plain (push R0 s) (hlen s)) by (split; [rewrite hlen_push; lia|rewrite push_new; exact C]).
  ra H as s2 u H2.
  { destruct (new_children_tends _ _ _ _ _ H2 K1 P1) as [K2 G2]. split; [exact K2|]. left. split; [eexists; exact H|]. eapply grows_trans; [|exact G2]. apply grows_push. reflexivity. }
  destruct (new_children_tends _ _ _ _ _ H2 K1 P1) as [K2 G2]. destruct u.
  apply (new_children_leaf (hlen s)) in H2; [|reflexivity|reflexivity]. destruct H2 as (Rs & F & ->).
  set (R1 := set_t_children (seq (S (hlen s)) (List.length kw)) R0) in *. set (s2 := push_all (R1 :: Rs) s) in *.
  assert (Lt : hlen s < hlen s2) by (unfold s2; rewrite hlen_push_all; cbn; lia).
  assert (T2 : tget (hlen s) s2 = R1).
  { unfold s2. pose proof (push_all_new (R1 :: Rs) s 0 ltac:(cbn; lia)) as X. rewrite Nat.add_0_r in X. exact X. }
  assert (OLD : forall j, j < hlen s -> tget j s2 = tget j s) by (intros j Hj; unfold s2; apply push_all_old; exact Hj).
  assert (P2 : is_plain s2 (hlen s)) by (split; [exact Lt|rewrite T2; exact C]).
  assert (N2 : ~ In (hlen s) (listed s2)). { intros X. apply (ok_listed s K) in X. destruct X as ([X _] & _). lia. }
  assert (I2 : In (k, sec) (secs s2)) by exact I.
  assert (CHILD : forall c, In c (seq (S (hlen s)) (List.length kw)) -> exists kv, In kv kw /\ child_rec (hlen s) R0 (fst kv) (text_of (snd kv)) (tget c s2)).
  { intros c Ic. apply in_seq in Ic. pose proof (Forall2_len _ _ _ F) as LF. unfold s2. rewrite push_all_cons.
    replace c with (hlen (push R1 s) + (c - S (hlen s))) by (rewrite hlen_push; lia). rewrite push_all_new by lia.
    apply (Forall2_nth_r _ _ _ dummy_t F). lia. }
  assert (ST : settled s2 sec (hlen s)).
  { assert (LEAF : forall j, under s2 (hlen s) j -> In j (seq (S (hlen s)) (List.length kw))).
    { intros j U. induction U as [c X|c d _ IH X]; [rewrite T2 in X; exact X|]. destruct (CHILD c IH) as (kv & _ & CR).
      apply child_rec_fields in CR. destruct CR as (_ & E & _). rewrite E in X. destruct X. }
    intros j U. apply LEAF in U. destruct (CHILD j U) as (kv & _ & CR). apply child_rec_fields in CR. destruct CR as (_ & _ & _ & A & B & _). split; [exact B|rewrite A; reflexivity]. }
  assert (RUN : doc_add_term (hlen s) s2 = (added (hlen s) sec s2, Ok tt)).
  { apply (doc_add_term_run s2 k sec (hlen s) K2 I2 OD P2 N2).
    - rewrite T2. reflexivity.
    - rewrite T2. reflexivity.
    - rewrite T2. intros X. vm_compute in X. discriminate X.
    - rewrite T2. exact Logic.I.
    - exact ST. }
  unfold bind in H. rewrite RUN in H. injection H as <- <-. split.
  { apply (ok_added s2 k); auto; rewrite T2; first [reflexivity | exact Logic.I]. }
  right. exists (hlen s). split; [reflexivity|]. split; [reflexivity|].
  exists (doc_term_class (lower term) s), n, (with_meta (s_doc s) (t_dtvn (tget sec s)) R1), Rs. split; [exact C|]. split; [exact CN|]. split; [reflexivity|].
  destruct (with_meta_fields (s_doc s) (t_dtvn (tget sec s)) R1) as (a & b & W). split.
  { rewrite W. clear - F. induction F as [|kv Q kw' Rs' H _ IHF]; constructor; [|exact IHF]. eapply child_rec_same; [| |exact H]; reflexivity. }
  unfold added, appended. rewrite OLD by exact Li.
  assert (A0 : hmod (hlen s) (set_t_doc true) s2 = s2) by (apply hmod_id; rewrite T2; reflexivity). rewrite A0.
  assert (PA : push_all (with_meta (s_doc s) (t_dtvn (tget sec s)) R1 :: Rs) s = hmod (hlen s) (with_meta (s_doc s) (t_dtvn (tget sec s))) s2).
  { unfold s2. rewrite !push_all_cons. rewrite <- push_all_hmod by (rewrite hlen_push; lia). rewrite hmod_new. reflexivity. }
  rewrite PA. apply st_ext.
  - rewrite hlen_hmod, !hlen_add_last, hlen_hmod. reflexivity.
  - intros j Hj. rewrite hlen_add_last, hlen_hmod in Hj.
    rewrite tget_hmod by (rewrite hlen_add_last; exact Lt). rewrite !tget_add_last by (rewrite ?hlen_hmod; lia). rewrite !tget_hmod by exact Lt.
    destruct (Nat.eqb_spec j (hlen s)) as [->|]; destruct (Nat.eqb_spec sec (hlen s)); try lia.
    + destruct (Nat.eqb_spec (hlen s) sec); [lia|reflexivity].
    + reflexivity.
  - rewrite doc_hmod, !doc_add_last. reflexivity.
  - reflexivity.
  - reflexivity.
Qed.

End WithQuirks.
