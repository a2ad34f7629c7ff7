(** * FindFacts: what find returns *)

From Coq Require Import ZArith.
From Verif Require Import ListFacts StrFacts HeapFacts SpecNames NameFacts Ops SpecInv InvFacts ListOps OpFacts SecFacts SpecFind.

Section WithQuirks.
Context {QK : Quirks}.

Scheme walk_mind := Induction for walk Sort Prop with walks_mind := Induction for walks Sort Prop.
Combined Scheme walk_walks_ind from walk_mind, walks_mind.

(** ** The walk *)

Lemma under_head : forall s i x, under s i x <-> exists c, In c (t_children (tget i s)) /\ (x = c \/ under s c x).
Proof.
  intros s i x. split.
  - induction 1 as [c C|c d _ (c' & I & [->|U]) D].
    + exists c. auto.
    + exists c'. split; [exact I|]. right. apply under_child. exact D.
    + exists c'. split; [exact I|]. right. eapply under_deep; eassumption.
  - intros (c & I & [->|U]); [apply under_child; exact I|eapply under_first; eassumption].
Qed.

Lemma walk_in : forall s,
  (forall i l, walk (kids_of s) i l -> forall x, In x l <-> x = i \/ under s i x)
  /\ (forall cs l, walks (kids_of s) cs l -> forall x, In x l <-> exists c, In c cs /\ (x = c \/ under s c x)).
Proof.
  intros s. apply walk_walks_ind.
  - intros i l _ IH x. cbn. rewrite IH. unfold kids_of. rewrite <- under_head. split; intros [E|E]; auto.
  - intros x. split; [intros []|intros (c & [] & _)].
  - intros c cs l m _ IH1 _ IH2 x. rewrite in_app_iff, IH1, IH2. split.
    + intros [H|(d & I & H)]; [exists c; cbn; auto|exists d; cbn; auto].
    + intros (d & [<-|I] & H); [left; exact H|right; exists d; auto].
Qed.

Section Walks.
  Variable s : st.
  Hypothesis K : doc_ok s.

  Lemma under_plain : forall i x, under s i x -> is_plain s x /\ i < x.
  Proof.
    induction 1 as [c C|c d _ [P L] D].
    - destruct (ok_child s K _ _ C) as (A & B & _). auto.
    - destruct (ok_child s K _ _ D) as (A & B & _). split; [exact B|lia].
  Qed.
  Lemma under_parent : forall i x, under s i x -> exists p, t_parent (tget x s) = Some p /\ p < x /\ (p = i \/ under s i p).
  Proof.
    intros i x H. destruct H as [c C|c d U D].
    - destruct (ok_child s K _ _ C) as (A & _ & B). exists i. auto.
    - destruct (ok_child s K _ _ D) as (A & _ & B). exists c. auto.
  Qed.
  (** the ancestors of a term form a chain *)
  Lemma under_chain : forall x a b, (x = a \/ under s a x) -> (x = b \/ under s b x) -> a = b \/ under s a b \/ under s b a.
  Proof.
    induction x as [x IH] using lt_wf_ind. intros a b [->|A] [->|B]; auto.
    apply under_parent in A. apply under_parent in B. destruct A as (p & P1 & L & A). destruct B as (q & P2 & _ & B).
    rewrite P1 in P2. injection P2 as <-. eapply IH; eassumption.
  Qed.

  Lemma siblings_apart : forall i a b, In a (t_children (tget i s)) -> In b (t_children (tget i s)) -> ~ under s a b.
  Proof.
    intros i a b A B U. destruct (under_parent _ _ U) as (p & P & _ & C). destruct (ok_child s K _ _ A) as (L & _ & _). destruct (ok_child s K _ _ B) as (_ & _ & P').
    rewrite P' in P. injection P as <-. destruct C as [->|C]; [lia|]. apply under_plain in C. lia.
  Qed.
  Lemma listed_apart : forall a b, In a (listed s) -> In b (listed s) -> ~ under s a b.
  Proof.
    intros a b A B U. destruct (under_parent _ _ U) as (p & P & _ & C). pose proof (ok_top s K b B) as T. rewrite P in T.
    assert (is_plain s p). { destruct C as [->|C]; [apply (ok_listed s K a A)|apply under_plain in C; tauto]. }
    exact (sec_plain _ _ T H).
  Qed.

  Lemma walk_nodup : (forall i l, walk (kids_of s) i l -> NoDup l)
    /\ (forall cs l, walks (kids_of s) cs l -> NoDup cs -> (forall a b, In a cs -> In b cs -> ~ under s a b) -> NoDup l).
  Proof.
    apply walk_walks_ind.
    - intros i l W IH. constructor.
      + intros I. apply (proj2 (walk_in s) _ _ W) in I. unfold kids_of in I. apply under_head in I. apply under_plain in I. lia.
      + apply IH; [apply (ok_children s K)|]. intros a b. apply siblings_apart.
    - constructor.
    - intros c cs l m W1 IH1 W2 IH2 N AP. inversion N as [|? ? N1 N2]; subst. apply NoDup_app_intro.
      + exact IH1.
      + apply IH2; [exact N2|]. intros a b A B. apply AP; right; assumption.
      + intros x X Y. apply (proj1 (walk_in s) _ _ W1) in X. apply (proj2 (walk_in s) _ _ W2) in Y. destruct Y as (d & I & Y).
        destruct (under_chain x c d X Y) as [->|[U|U]]; [contradiction| |].
        * eapply AP; [left; reflexivity|right; exact I|exact U].
        * eapply AP; [right; exact I|left; reflexivity|exact U].
  Qed.


  (** [descendents] computes the walk *)
  Lemma descendents_walk : forall f i, i < hlen s -> hlen s < i + f ->
    exists l, descendents f (s_heap s) i = Ok l /\ walks (kids_of s) (t_children (tget i s)) l.
  Proof.
    induction f as [|f IH]; intros i L F; [lia|]. cbn [descendents]. fold (tget i s).
    assert (C : forall c, In c (t_children (tget i s)) -> c < hlen s /\ hlen s < c + f).
    { intros c I. destruct (ok_child s K _ _ I) as (A & [B _] & _). split; [exact B|lia]. }
    induction (t_children (tget i s)) as [|c cs IHc].
    - exists []. split; [reflexivity|constructor].
    - destruct (C c (or_introl eq_refl)) as [C1 C2]. destruct (IH c C1 C2) as (l & E & W). destruct IHc as (m & E' & W'); [intros d D; apply C; right; exact D|].
      rewrite E. cbn [rbind]. rewrite E'. cbn [rbind]. exists ((c :: l) ++ m). split; [reflexivity|]. constructor; [constructor; exact W|exact W'].
  Qed.

  Lemma section_all_walk : forall k i, In (k, i) (secs s) -> exists l, section_all_terms (s_heap s) i = Ok l /\ section_walk s i l.
  Proof.
    intros k i I. unfold section_all_terms. fold (tget i s).
    assert (T : forall t, In t (t_terms (tget i s)) -> t < hlen s).
    { intros t J. apply (ok_in s K _ _ _ I) in J. destruct J as [J _]. apply (ok_listed s K) in J. apply J. }
    assert (W : exists ls, rmap (fun t => do? ds <- descendents (heap_fuel (s_heap s)) (s_heap s) t;; Ok (t :: ds)) (t_terms (tget i s)) = Ok ls
      /\ walks (kids_of s) (t_terms (tget i s)) (concat ls)).
    { induction (t_terms (tget i s)) as [|t ts IH].
      - exists []. split; [reflexivity|constructor].
      - destruct IH as (ls & E & W); [intros x X; apply T; right; exact X|].
        destruct (descendents_walk (heap_fuel (s_heap s)) t) as (l & E1 & W1); [apply T; left; reflexivity|unfold heap_fuel; fold (hlen s); lia|].
        cbn [rmap]. rewrite E1. cbn [rbind]. rewrite E. cbn [rbind]. exists ((t :: l) :: ls). split; [reflexivity|]. cbn [concat]. constructor; [constructor; exact W1|exact W]. }
    destruct W as (ls & E & W). rewrite E. cbn [rbind]. eexists. split; [reflexivity|]. exists (concat ls). split; [exact W|].
    destruct (ok_section s K _ _ I) as (_ & _ & _ & n & V & _). rewrite V. cbn [veq]. eqs_cases n "Root".
    - subst. left. auto.
    - right. split; [congruence|reflexivity].
  Qed.

  Lemma all_terms_walk : exists l, all_terms s = Ok l /\ doc_walk s l.
  Proof.
    unfold all_terms, doc_walk. fold (secs s).
    assert (G : forall tab, incl tab (secs s) -> exists ls, rmap (fun kv => section_all_terms (s_heap s) (snd kv)) tab = Ok ls
      /\ Forall2 (fun kv l => section_walk s (snd kv) l) tab ls).
    { induction tab as [|[k i] tab IH]; intros I.
      - exists []. split; [reflexivity|constructor].
      - destruct IH as (ls & E & W); [intros x X; apply I; right; exact X|]. destruct (section_all_walk k i) as (l & E1 & W1); [apply I; left; reflexivity|].
        cbn [rmap snd]. rewrite E1. cbn [rbind]. rewrite E. cbn [rbind]. exists (l :: ls). split; [reflexivity|constructor; assumption]. }
    destruct (G (secs s)) as (ls & E & W); [apply incl_refl|]. rewrite E. cbn [rbind]. eexists. split; [reflexivity|]. exists ls. auto.
  Qed.

  Lemma section_walk_in : forall k i l, In (k, i) (secs s) -> section_walk s i l -> forall x, In x l ->
    (x = i /\ is_sec s x) \/ (is_plain s x /\ exists t, In t (t_terms (tget i s)) /\ (x = t \/ under s t x)).
  Proof.
    intros k i l I (l0 & W & C) x X.
    assert (Y : In x l0 -> is_plain s x /\ exists t, In t (t_terms (tget i s)) /\ (x = t \/ under s t x)).
    { intros Y. apply (proj2 (walk_in s) _ _ W) in Y. split; [|exact Y]. destruct Y as (t & T & [->|U]); [|apply under_plain in U; tauto].
      apply (ok_in s K _ _ _ I) in T. apply (ok_listed s K). tauto. }
    destruct C as [[_ ->]|[_ ->]]; [right; auto|]. destruct X as [<-|X]; [left; split; [reflexivity|apply (ok_section s K _ _ I)]|right; auto].
  Qed.

  Lemma doc_walk_nodup : forall l, doc_walk s l -> NoDup l.
  Proof.
    intros l (ls & F & ->).
    assert (G : forall tab, incl tab (secs s) -> NoDup (map fst tab) -> forall ls, Forall2 (fun kv l => section_walk s (snd kv) l) tab ls -> NoDup (concat ls)).
    { induction tab as [|[k i] tab IH]; intros I N ls' F'; inversion F' as [|? l ? ls0 W F0]; subst; [constructor|]. cbn [concat snd] in *.
      inversion N as [|? ? N1 N2]; subst. assert (Ik : In (k, i) (secs s)) by (apply I; left; reflexivity).
      assert (It : incl tab (secs s)) by (intros x X; apply I; right; exact X).
      apply NoDup_app_intro.
      - destruct W as (l0 & W & C). assert (N0 : NoDup l0).
        { apply (proj2 walk_nodup _ _ W); [apply (ok_lists s K _ _ Ik)|]. intros a b A B. apply listed_apart; eapply ok_in; eauto. }
        destruct C as [[_ ->]|[_ ->]]; [exact N0|]. constructor; [|exact N0]. intros X. apply (proj2 (walk_in s) _ _ W) in X. destruct X as (t & T & X).
        assert (P : is_plain s i). { destruct X as [->|X]; [|apply under_plain in X; tauto]. apply (ok_in s K _ _ _ Ik) in T. apply (ok_listed s K). tauto. }
        destruct (ok_section s K _ _ Ik) as (S0 & _). exact (sec_plain _ _ S0 P).
      - apply IH; assumption.
      - intros x X Y. apply in_concat in Y. destruct Y as (m & M & Y).
        assert (E : exists k' i', In (k', i') tab /\ section_walk s i' m).
        { clear - F0 M. induction F0 as [|[k' i'] b tab ls0 W' _ IHF]; [destruct M|]. destruct M as [->|M]; [exists k', i'; split; [left; reflexivity|exact W']|].
          destruct (IHF M) as (k2 & i2 & A & B). exists k2, i2. split; [right; exact A|exact B]. }
        destruct E as (k' & i' & I' & W'). assert (Ik' : In (k', i') (secs s)) by (apply It; exact I').
        assert (NE : i <> i'). { intros <-. apply N1. apply in_map_iff. exists (k', i). split; [|exact I']. cbn. symmetry. eapply secs_inj; eauto. }
        destruct (section_walk_in _ _ _ Ik W _ X) as [[-> S1]|[P1 (t & T & U)]]; destruct (section_walk_in _ _ _ Ik' W' _ Y) as [[E2 S2]|[P2 (t' & T' & U')]].
        + contradiction.
        + exact (sec_plain _ _ S1 P2).
        + exact (sec_plain _ _ S2 P1).
        + destruct (ok_in s K _ _ _ Ik T) as [L1 A1]. destruct (ok_in s K _ _ _ Ik' T') as [L2 A2].
          destruct (under_chain x t t' U U') as [->|[Z|Z]]; [congruence|exact (listed_apart _ _ L1 L2 Z)|exact (listed_apart _ _ L2 L1 Z)]. }
    apply (G (secs s)); [apply incl_refl|apply (ok_keys s K)|exact F].
  Qed.
End Walks.

(** ** One candidate *)

Lemma veq_spec : forall v x, v <> VFalse -> (veq v x = true <-> v = x \/ v = VInt 0 /\ x = VFalse).
Proof.
  intros v x N. destruct v as [|a|a| |a]; destruct x as [|b|b| |b]; cbn; try (split; [discriminate|intros [E|[E1 E2]]; discriminate]); try congruence.
  - split; auto.
  - rewrite eqs_true. split; [intros ->; auto|intros [E|[E _]]; [injection E; auto|discriminate]].
  - rewrite Z.eqb_eq. split; [intros ->; auto|intros [E|[_ E]]; [injection E; auto|discriminate]].
  - rewrite Z.eqb_eq. split; [intros ->; auto|intros [E|[E _]]; [discriminate|injection E; auto]].
  - rewrite Nat.eqb_eq. split; [intros ->; auto|intros [E|[E _]]; [injection E; auto|discriminate]].
Qed.

Lemma value_is_spec : forall v x, (match v with VFalse => true | _ => veq v x end) = true <-> value_is v x.
Proof.
  intros v x. unfold value_is. destruct v; try (rewrite veq_spec by discriminate; split; [auto|intros [E|E]; [discriminate|exact E]]). split; auto.
Qed.

Lemma lies_in_iff : forall s i j n m, t_section (tget i s) = Some j -> t_val (tget j s) = VStr m -> (eqs (lower n) (lower m) = true <-> lies_in s i n).
Proof.
  intros s i j n m E V. rewrite eqs_true. split.
  - intros L. exists j, m. auto.
  - intros (j' & m' & E' & V' & L). rewrite E in E'. injection E' as <-. rewrite V in V'. injection V' as <-. exact L.
Qed.

Lemma in_section_spec : forall s i sa, (match t_section (tget i s) with None => True | Some j => exists n, t_val (tget j s) = VStr n end) ->
  exists b, in_section (s_heap s) (tget i s) sa = Ok b /\ (b = true <-> section_is s sa i).
Proof.
  intros s i sa H. destruct sa as [|n|ns]; cbn [in_section section_is].
  - exists true. tauto.
  - destruct (t_section (tget i s)) as [j|] eqn:E.
    + destruct H as (m & V). fold (tget j s). rewrite V. cbn [as_str rbind]. eexists. split; [reflexivity|]. eapply lies_in_iff; eassumption.
    + exists false. split; [reflexivity|]. split; [discriminate|]. intros (j & m & E' & _). congruence.
  - destruct (t_section (tget i s)) as [j|] eqn:E.
    + destruct H as (m & V). fold (tget j s). rewrite V. cbn [as_str rbind]. induction ns as [|n ns IH].
      * exists false. split; [reflexivity|]. split; [discriminate|intros (n & [] & _)].
      * pose proof (lies_in_iff s i j n m E V) as L. destruct (eqs (lower n) (lower m)).
        -- exists true. split; [reflexivity|]. split; [|reflexivity]. intros _. exists n. split; [left; reflexivity|]. apply L. reflexivity.
        -- destruct IH as (b & E1 & Hb). exists b. split; [exact E1|]. rewrite Hb. split.
           ++ intros (x & X & Y). exists x. split; [right; exact X|exact Y].
           ++ intros (x & [<-|X] & Y); [apply L in Y; discriminate Y|exists x; auto].
    + exists false. split; [reflexivity|]. split; [discriminate|]. intros (n & _ & j & m & E' & _). congruence.
Qed.

Lemma join_root : forall r, dot_free (t_pt r) -> forall a b, dot_free a -> (eqs (join_lc r) (a ++ "." ++ b) = true <-> lower (t_pt r) = a /\ lower (t_rt r) = b).
Proof.
  intros r D a b Da. rewrite eqs_true. unfold join_lc, dotted, pt_lc, rt_lc. split.
  - intros E. apply cut_unique in E; [exact E|apply dot_free_lower; exact D|exact Da].
  - intros [-> ->]. reflexivity.
Qed.

(** a node that can be tested *)
Definition testable (s : st) (i : nat) : Prop :=
  dot_free (t_pt (tget i s))
  /\ (match t_section (tget i s) with
      | Some j => exists n, t_val (tget j s) = VStr n
      | None => t_pt (tget i s) = "root" /\ (t_rt (tget i s) = "section" \/ t_rt (tget i s) = "root")
      end).

Lemma find_test_spec : forall s p v sa i, tidy_pattern p -> testable s i ->
  exists b, find_test (s_heap s) p v sa i = Ok b /\ (b = true <-> found s p v sa i).
Proof.
  intros s p v sa i T [D S0]. unfold find_test, found. fold (tget i s).
  pose proof (join_root (tget i s) D "root" "root" ltac:(apply dot_free_iff; reflexivity)) as JR.
  pose proof (join_root (tget i s) D "root" "section" ltac:(apply dot_free_iff; reflexivity)) as JS.
  change ("root" ++ "." ++ "root")%string with "root.root" in JR. change ("root" ++ "." ++ "section")%string with "root.section" in JS.
  destruct (eqs (join_lc (tget i s)) "root.root").
  { exists false. split; [reflexivity|]. split; [discriminate|]. intros (_ & N & _). exfalso. apply N. apply JR. reflexivity. }
  assert (A : negb (match t_section (tget i s) with Some _ => true | None => false end || eqs (join_lc (tget i s)) "root.section") = false).
  { destruct (t_section (tget i s)); [reflexivity|]. cbn [orb]. destruct S0 as [P [R|R]].
    - rewrite (proj2 JS); [reflexivity|]. rewrite P, R. auto.
    - exfalso. assert (X : false = true) by (apply JR; rewrite P, R; auto). discriminate X. }
  rewrite A. clear A.
  destruct (term_is_decides (t_pt (tget i s)) (t_rt (tget i s)) p D T) as (b & E & Hb). unfold term_is. rewrite E. cbn [rbind].
  destruct b.
  - destruct (in_section_spec s i sa) as (b2 & E2 & Hb2). { destruct (t_section (tget i s)); [exact S0|exact Logic.I]. }
    rewrite E2. cbn [rbind]. eexists. split; [reflexivity|]. rewrite andb_true_iff, Hb2, value_is_spec. split.
    + intros [X Y]. split; [apply Hb; reflexivity|]. split; [|auto]. intros Z. apply JR in Z. discriminate Z.
    + tauto.
  - exists false. split; [reflexivity|]. split; [discriminate|]. intros (X & _). apply Hb in X. discriminate X.
Qed.

Lemma rfilter_spec : forall {A} (f : A -> res bool) (P : A -> Prop) l,
  (forall x, In x l -> exists b, f x = Ok b /\ (b = true <-> P x)) -> exists r, rfilter f l = Ok r /\ picked P l r.
Proof.
  intros A f P l H. exists (filter (fun x => match f x with Ok b => b | Err _ => false end) l). split.
  - induction l as [|x l IH]; [reflexivity|]. cbn [rfilter filter]. destruct (H x (or_introl eq_refl)) as (b & E & _). rewrite E. cbn [rbind].
    rewrite IH by (intros y Y; apply H; right; exact Y). cbn [rbind]. destruct b; reflexivity.
  - exists (fun x => match f x with Ok b => b | Err _ => false end). split; [|reflexivity]. intros x X. destruct (H x X) as (b & E & Hb). rewrite E. exact Hb.
Qed.

Lemma plain_testable : forall s i, doc_ok s -> names_ok s -> is_plain s i -> testable s i.
Proof.
  intros s i K N P. split; [apply (nm_dots s N); apply P|]. destruct (ok_plain s K i P) as (j & E & Sj). rewrite E. apply (ok_named s K j Sj).
Qed.
Lemma sec_testable : forall s k i, doc_ok s -> names_ok s -> In (k, i) (secs s) -> testable s i.
Proof.
  intros s k i K N I. destruct (nm_sections s N _ _ I) as (A & B & C). destruct (ok_section s K _ _ I) as ((L & _) & _). split; [apply (nm_dots s N); exact L|].
  destruct (t_section (tget i s)) as [j|]; [apply (ok_named s K j C)|auto].
Qed.

(** ** Patterns *)

Lemma tidy_lower : forall t, tidy t -> tidy (lower t).
Proof. intros t H. rewrite tidy_iff in *. rewrite starts_blank_lower, ends_blank_lower. exact H. Qed.

(** the name as find compares it *)
Definition full_name (p : string) : string :=
  if has_char "." (lower p) then lower p else ("root." ++ lower p)%string.

Lemma side_lower : forall a n, side (lower a) n <-> side a n.
Proof. intros a n. rewrite !side_iff, eqs_star_lower, lower_idem. reflexivity. Qed.

Lemma full_name_plain : forall p, dot_free p -> full_name p = ("root" ++ "." ++ lower p)%string.
Proof. intros p D. unfold full_name. apply dot_free_lower in D. apply dot_free_iff in D. rewrite D. reflexivity. Qed.
Lemma full_name_qualified : forall a b, full_name (a ++ "." ++ b) = (lower a ++ "." ++ lower b)%string.
Proof. intros a b. unfold full_name. rewrite !lower_app. change (lower ".") with ".". rewrite has_dot_mid. reflexivity. Qed.

Lemma full_name_spec : forall p, tidy_pattern p -> tidy_pattern (full_name p)
  /\ forall pt rt, denotes (full_name p) pt rt <-> denotes p pt rt.
Proof.
  intros p [D T|a b -> Da Db Na Ta Tb].
  - rewrite full_name_plain by exact D. assert (Dr : dot_free "root") by (apply dot_free_iff; reflexivity). pose proof (proj2 (dot_free_lower p) D) as Dl. split.
    + eapply tidy_qualified; [reflexivity|exact Dr|exact Dl|discriminate|apply tidy_iff; split; reflexivity|apply tidy_lower; exact T].
    + intros pt rt. split.
      * intros [X|a b E Ha Hb H1 H2]; [destruct (not_free_mid _ _ X)|]. apply cut_unique in E; [|assumption..]. destruct E as [<- <-].
        apply denotes_plain; [exact D| |apply side_lower; exact H2]. destruct H1 as [H1|H1]; [discriminate H1|]. symmetry. exact H1.
      * intros [_ H1 H2|a b -> _ _ _ _]; [|destruct (not_free_mid _ _ D)]. eapply denotes_qualified; [reflexivity|exact Dr|exact Dl| |apply side_lower; exact H2].
        right. rewrite H1. reflexivity.
  - rewrite full_name_qualified. pose proof (proj2 (dot_free_lower a) Da) as Dla. pose proof (proj2 (dot_free_lower b) Db) as Dlb. split.
    + eapply tidy_qualified; [reflexivity|exact Dla|exact Dlb| |apply tidy_lower; exact Ta|apply tidy_lower; exact Tb]. destruct a; [congruence|discriminate].
    + intros pt rt. split.
      * intros [X|a' b' E Ha Hb H1 H2]; [destruct (not_free_mid _ _ X)|]. apply cut_unique in E; [|assumption..]. destruct E as [<- <-].
        eapply denotes_qualified; [reflexivity|exact Da|exact Db|apply side_lower; exact H1|apply side_lower; exact H2].
      * intros [X|a' b' E Ha Hb H1 H2]; [destruct (not_free_mid _ _ X)|]. apply cut_unique in E; [|assumption..]. destruct E as [<- <-].
        eapply denotes_qualified; [reflexivity|exact Dla|exact Dlb|apply side_lower; exact H1|apply side_lower; exact H2].
Qed.

Lemma starts_root : forall a b, dot_free a -> (startswith "root." (a ++ "." ++ b) = true <-> a = "root").
Proof.
  intros a b D. rewrite startswith_spec. split.
  - intros (t & E). change ("root." ++ t)%string with ("root" ++ "." ++ t)%string in E. apply cut_unique in E; [tauto|exact D|apply dot_free_iff; reflexivity].
  - intros ->. exists b. reflexivity.
Qed.

Lemma generator_spec : forall s p, doc_ok s -> tidy_pattern p -> exists l,
  (if startswith "root." (full_name p) then Ok (d_terms (s_doc s)) else all_terms s) = Ok l /\ candidates s p l /\ NoDup l
  /\ (forall x, In x l -> is_plain s x \/ exists k, In (k, x) (secs s)).
Proof.
  intros s p K T.
  assert (TOP : forall x, In x (listed s) -> is_plain s x \/ exists k, In (k, x) (secs s)) by (intros x X; left; apply (ok_listed s K x X)).
  destruct T as [D T|a b -> Da Db Na Ta Tb].
  - rewrite full_name_plain by exact D. assert (R : startswith "root." ("root" ++ "." ++ lower p) = true) by (apply starts_root; [apply dot_free_iff; reflexivity|reflexivity]).
    rewrite R. exists (listed s). split; [reflexivity|]. split; [apply cand_top; auto|]. split; [apply (ok_list s K)|exact TOP].
  - rewrite full_name_qualified. pose proof (starts_root (lower a) (lower b) (proj2 (dot_free_lower a) Da)) as R. destruct (startswith "root." (lower a ++ "." ++ lower b)).
    + exists (listed s). split; [reflexivity|]. split; [|split; [apply (ok_list s K)|exact TOP]]. apply cand_top. right. exists a, b. split; [reflexivity|]. split; [exact Da|]. apply R. reflexivity.
    + destruct (all_terms_walk s K) as (l & E & W). exists l. split; [exact E|]. split.
      * apply cand_all; [|exact W]. exists a, b. split; [reflexivity|]. split; [exact Da|]. intros X. apply R in X. discriminate X.
      * split; [apply (doc_walk_nodup s K l W)|]. intros x X. destruct W as (ls & F & ->). apply in_concat in X. destruct X as (m & M & X).
        assert (G : exists k i, In (k, i) (secs s) /\ section_walk s i m).
        { clear - F M. induction F as [|[k i] b0 tab ls0 W' _ IHF]; [destruct M|]. destruct M as [->|M]; [exists k, i; split; [left; reflexivity|exact W']|].
          destruct (IHF M) as (k2 & i2 & A & B). exists k2, i2. split; [right; exact A|exact B]. }
        destruct G as (k & i & I & W'). destruct (section_walk_in s K _ _ _ I W' _ X) as [[-> _]|[P _]]; [right; exists k; exact I|left; exact P].
Qed.

Lemma picked_ext : forall {A} (P Q : A -> Prop) l r, (forall x, In x l -> (P x <-> Q x)) -> picked P l r -> picked Q l r.
Proof. intros A P Q l r H (f & F & E). exists f. split; [|exact E]. intros x X. rewrite (F x X). apply H. exact X. Qed.
Lemma picked_nodup : forall {A} (P : A -> Prop) l r, NoDup l -> picked P l r -> NoDup r.
Proof. intros A P l r N (f & _ & ->). apply NoDup_filter. exact N. Qed.
Lemma picked_in : forall {A} (P : A -> Prop) l r x, picked P l r -> (In x r <-> In x l /\ P x).
Proof. intros A P l r x (f & F & ->). rewrite filter_In. split; intros [A1 A2]; (split; [exact A1|]); apply (F x A1); exact A2. Qed.

Lemma find1_spec : forall s p v sa, doc_ok s -> names_ok s -> tidy_pattern p ->
  exists l r, find1 s p v sa = Ok r /\ candidates s p l /\ picked (found s p v sa) l r /\ NoDup r.
Proof.
  intros s p v sa K N T. destruct (full_name_spec p T) as [T' D]. destruct (generator_spec s p K T) as (l & E & C & ND & L).
  unfold find1. fold (full_name p). rewrite E. cbn [rbind].
  destruct (rfilter_spec (find_test (s_heap s) (full_name p) v sa) (found s (full_name p) v sa) l) as (r & E' & P).
  { intros x X. apply find_test_spec; [exact T'|]. destruct (L x X) as [A|(k & A)]; [apply plain_testable; assumption|eapply sec_testable; eassumption]. }
  exists l, r. split; [exact E'|]. split; [exact C|]. split; [|eapply picked_nodup; eassumption].
  eapply picked_ext; [|exact P]. intros x X. unfold found. rewrite D. reflexivity.
Qed.

Lemma find_spec : forall s p v sa, doc_ok s -> names_ok s -> tidy_pattern p -> dget (lower p) (d_derived (s_doc s)) = None ->
  exists l r, doc_find s p v sa = Ok r /\ candidates s p l /\ picked (found s p v sa) l r /\ NoDup r.
Proof. intros s p v sa K N T DE. unfold doc_find. rewrite DE. apply find1_spec; assumption. Qed.

Lemma find_first_spec : forall s p v sa r, doc_find s p v sa = Ok r -> doc_find_first s p v sa = Ok (hd_error r).
Proof. intros s p v sa r H. unfold doc_find_first. rewrite H. reflexivity. Qed.

(** ** Several names *)
Lemma find_list_spec : forall s ps v sa, doc_ok s -> names_ok s -> Forall tidy_pattern ps ->
  exists rs, find_list s ps v sa = Ok (concat rs)
    /\ Forall2 (fun p r => exists l, candidates s p l /\ picked (found s p v sa) l r /\ NoDup r) ps rs.
Proof.
  intros s ps v sa K N F. unfold find_list.
  assert (G : exists rs, rmap (fun e => find1 s e v sa) ps = Ok rs /\ Forall2 (fun p r => exists l, candidates s p l /\ picked (found s p v sa) l r /\ NoDup r) ps rs).
  { induction F as [|p ps T _ IH]; [exists []; split; [reflexivity|constructor]|]. destruct IH as (rs & E & H). destruct (find1_spec s p v sa K N T) as (l & r & E1 & H1).
    cbn [rmap]. rewrite E1. cbn [rbind]. rewrite E. cbn [rbind]. exists (r :: rs). split; [reflexivity|]. constructor; [exists l; exact H1|exact H]. }
  destruct G as (rs & E & H). rewrite E. cbn [rbind]. exists rs. auto.
Qed.

End WithQuirks.
