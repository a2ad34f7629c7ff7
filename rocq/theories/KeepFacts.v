(** * KeepFacts: reading rows keeps a document in good order *)

From Verif Require Import ListFacts StrFacts SpecNames NameFacts HeapFacts ConstructFacts Parser RunFacts EmitFacts TreeFacts DigitFacts RowFacts ParseFacts DocFacts ForestFacts SpecInv SpecFind SpecEdit SpecDoc SpecInclude SpecHead SpecOrderly SpecKeep InvFacts OpFacts StepFacts ParseProps OrderlyFacts IncFacts HeadFacts.

Section Keep.
Context {Bk : background} {QK : Quirks}.

Lemma is_plain_lt : forall s i, is_plain s i -> i < hlen s.
Proof. intros s i H. apply H. Qed.

Lemma order_term : forall ftype line p r row cols k0 s s' c q, in_order s -> pinv s -> In (k0, p_lastsec (s_prs s)) (secs s) ->
  p <> r -> dot_free p -> dot_free r -> Forall dot_free cols ->
  py_int r = None -> r <> "root" -> term_row ftype line p r row cols s s' c q -> in_order s'.
Proof.
  intros ftype line p r row cols k0 s s' c0 q0 O P Cu Npr Dp Dr Dc Ri Nr T.
  set (R := row_rec c0 line ftype p r row) in *. set (own := seq (S (hlen s)) (hlen s' - S (hlen s))).
  set (host := if eqs p ELIDED_TERM then q0 else hlen s).
  pose proof (tr_len _ _ _ _ _ _ _ _ _ _ T) as Ln.
  pose proof (tr_doc _ _ _ _ _ _ _ _ _ _ T) as Dd. fold R in Dd.
  assert (Hq : q0 < hlen s).
  { pose proof (tr_look _ _ _ _ _ _ _ _ _ _ T) as Lk. destruct (eqs p ELIDED_TERM); [apply (pi_tmap _ P) in Lk; exact Lk|].
    replace (eqs p r) with false in Lk by (symmetry; apply eqs_false; exact Npr). apply (pi_tmap _ P) in Lk. exact Lk. }
  assert (Hh : host <= hlen s) by (unfold host; destruct (eqs p ELIDED_TERM); lia).
  assert (Own : forall u, In u own <-> S (hlen s) <= u < hlen s') by (intros u; unfold own; rewrite in_seq; lia).
  pose proof (settled_fields s q0 R) as SF. cbv zeta in SF.
  destruct SF as (F1 & F2 & F3 & F4 & F5 & F6 & F7 & F8 & F9 & F10 & F11 & F12 & F13 & F14 & _).
  assert (Rn : renamed (p_pmap (s_prs s)) (t_rt R) = r) by (unfold renamed; change (t_rt R) with r; rewrite Ri; reflexivity).
  set (top := eqs (final_pt s R) "root") in *.
  assert (Get : forall i, i < hlen s -> same_term (tget i s) (tget i s')).
  { intros i Hi. destruct (tr_get _ _ _ _ _ _ _ _ _ _ T i) as (A & _); [lia|]. cbv zeta in A.
    replace (i =? hlen s) with false in A by (symmetry; apply Nat.eqb_neq; lia). exact A. }
  assert (GetN : same_term (settled s q0 R) (tget (hlen s) s')).
  { destruct (tr_get _ _ _ _ _ _ _ _ _ _ T (hlen s)) as (A & _); [lia|]. cbv zeta in A. rewrite Nat.eqb_refl in A. exact A. }
  assert (Har : forall i, i < hlen s -> t_hargs (tget i s') = t_hargs (tget i s)).
  { intros i Hi. destruct (tr_get _ _ _ _ _ _ _ _ _ _ T i) as (_ & A & _); [lia|]. cbv zeta in A.
    replace (i =? hlen s) with false in A by (symmetry; apply Nat.eqb_neq; lia). exact A. }
  assert (Trm : forall i, i < hlen s -> t_terms (tget i s') = (t_terms (tget i s) ++ (if top && (i =? p_lastsec (s_prs s)) then [hlen s] else []))%list).
  { intros i Hi. destruct (tr_get _ _ _ _ _ _ _ _ _ _ T i) as (_ & _ & _ & _ & A); [lia|]. cbv zeta in A.
    replace (i =? hlen s) with false in A by (symmetry; apply Nat.eqb_neq; lia). exact A. }
  assert (Chl : forall i, i < hlen s -> t_children (tget i s') = (t_children (tget i s) ++ (if i =? q0 then [hlen s] else []) ++ (if i =? host then own else []))%list).
  { intros i Hi. destruct (tr_get _ _ _ _ _ _ _ _ _ _ T i) as (_ & _ & _ & A & _); [lia|]. cbv zeta in A.
    replace (i =? hlen s) with false in A by (symmetry; apply Nat.eqb_neq; lia). exact A. }
  assert (ChlN : t_children (tget (hlen s) s') = if hlen s =? host then own else []).
  { destruct (tr_get _ _ _ _ _ _ _ _ _ _ T (hlen s)) as (_ & _ & _ & A & _); [lia|]. cbv zeta in A. fold R in A. rewrite Nat.eqb_refl, F13 in A.
    replace (hlen s =? q0) with false in A by (symmetry; apply Nat.eqb_neq; lia). exact A. }
  assert (Kid : forall u, S (hlen s) <= u < hlen s' -> is_section_cls (t_cls (tget u s')) = false /\ t_parent (tget u s') = Some host
     /\ t_section (tget u s') = Some (p_lastsec (s_prs s)) /\ t_pt (tget u s') = r /\ t_children (tget u s') = []).
  { intros u Hu. destruct (tr_new _ _ _ _ _ _ _ _ _ _ T u Hu) as (A & _ & _ & B & C & D & E & G). auto. }
  assert (NewC : is_section_cls (t_cls (tget (hlen s) s')) = false).
  { rewrite (sm_cls _ _ GetN), F1. apply (tr_cls _ _ _ _ _ _ _ _ _ _ T). }
  assert (NewS : t_section (tget (hlen s) s') = Some (p_lastsec (s_prs s))) by (rewrite (sm_section _ _ GetN); exact F8).
  assert (NewP : t_parent (tget (hlen s) s') = Some q0) by (rewrite (sm_parent _ _ GetN); exact F2).
  assert (Sx : secs s' = secs s) by (unfold secs; rewrite Dd; destruct top; reflexivity).
  assert (Dt : listed s' = (listed s ++ (if top then [hlen s] else []))%list).
  { unfold listed. rewrite Dd. destruct top; [reflexivity|rewrite app_nil_r; reflexivity]. }
  assert (Dl : d_decl_sections (s_doc s') = d_decl_sections (s_doc s)) by (rewrite Dd; destruct top; reflexivity).
  assert (Qr : top = true -> q0 = d_root (s_doc s)).
  { unfold top, final_pt. change (t_pt R) with p. intros E. pose proof (tr_look _ _ _ _ _ _ _ _ _ _ T) as Lk.
    destruct (eqs p ELIDED_TERM); apply eqs_true in E; [rewrite E, (pi_rootmap _ P) in Lk; congruence|].
    replace (eqs p r) with false in Lk by (symmetry; apply eqs_false; congruence). rewrite E, (pi_rootmap _ P) in Lk. congruence. }
  destruct O as [K N D].
  assert (PL : forall i, is_plain s i -> is_plain s' i).
  { intros i [A B]. split; [lia|]. rewrite (sm_cls _ _ (Get i A)). exact B. }
  assert (SE : forall i, is_sec s i -> is_sec s' i).
  { intros i [A B]. split; [lia|]. rewrite (sm_cls _ _ (Get i A)). exact B. }
  assert (SE' : forall i, is_sec s' i -> is_sec s i).
  { intros i [A B]. destruct (Nat.lt_trichotomy i (hlen s)) as [L|[->|L]]; [|congruence|destruct (Kid i) as (X & _); [lia|congruence]].
    rewrite (sm_cls _ _ (Get i L)) in B. split; assumption. }
  assert (SL : forall k i, In (k, i) (secs s) -> i < hlen s) by (intros k i I; apply (ok_section s K k i I)).
  assert (LL : forall t, In t (listed s) -> t < hlen s) by (intros t I; apply (ok_listed s K t I)).
  split; [split|split|].
  - rewrite Sx. apply (ok_keys s K).
  - intros k i I. rewrite Sx in I. pose proof (SL k i I) as L. destruct (ok_section s K k i I) as (A & B & C & X). split; [apply SE; exact A|].
    unfold columns_of. rewrite (sm_doc _ _ (Get i L)), (sm_val _ _ (Get i L)), (sm_args _ _ (Get i L)), Har by exact L. auto.
  - rewrite Dt. destruct top; [|rewrite app_nil_r; apply (ok_list s K)]. apply NoDup_app_one; [apply (ok_list s K)|]. intros H. apply LL in H. lia.
  - intros k i I. rewrite Sx in I. rewrite Trm by (apply (SL k i I)). destruct (top && _); [|rewrite app_nil_r; apply (ok_lists s K k i I)].
    apply NoDup_app_one; [apply (ok_lists s K k i I)|]. intros H. apply (ok_in s K k i _ I) in H. destruct H as [H _]. apply LL in H. lia.
  - intros t Ht. rewrite Sx. rewrite Dt in Ht. apply in_app_iff in Ht. destruct Ht as [Ht|Ht].
    + pose proof (LL t Ht) as L. destruct (ok_listed s K t Ht) as (A & B & C). rewrite (sm_pt _ _ (Get t L)), (sm_section _ _ (Get t L)). split; [apply PL; exact A|]. split; [exact B|].
      destruct C as [(k & i & I & X & Y)|C]; [left|right; exact C]. exists k, i. split; [exact I|]. split; [exact X|]. rewrite Trm by (apply (SL k i I)). apply in_app_iff. auto.
    + destruct top eqn:Et; [|destruct Ht]. destruct Ht as [<-|[]]. split; [split; [lia|exact NewC]|]. split.
      * rewrite (sm_pt _ _ GetN), F4. unfold top in Et. apply eqs_true in Et. rewrite Et. reflexivity.
      * left. exists k0, (p_lastsec (s_prs s)). split; [exact Cu|]. split; [exact NewS|]. rewrite Trm by (apply pi_last; exact P). apply in_app_iff. right. rewrite Nat.eqb_refl. cbn. auto.
  - intros k i t I Ht. rewrite Sx in I. rewrite Trm in Ht by (apply (SL k i I)). rewrite Dt. apply in_app_iff in Ht. destruct Ht as [Ht|Ht].
    + destruct (ok_in s K k i t I Ht) as [A B]. rewrite (sm_section _ _ (Get t (LL t A))). split; [apply in_app_iff; auto|exact B].
    + destruct top eqn:Et; cbn [andb] in Ht; [|destruct Ht]. destruct (Nat.eqb_spec i (p_lastsec (s_prs s))) as [->|]; [|destruct Ht].
      destruct Ht as [<-|[]]. split; [apply in_app_iff; right; cbn; auto|exact NewS].
  - intros t Ht. rewrite Dt in Ht. apply in_app_iff in Ht. destruct Ht as [Ht|Ht].
    + rewrite (sm_parent _ _ (Get t (LL t Ht))). pose proof (ok_top s K t Ht) as X. destruct (t_parent (tget t s)); [apply SE; exact X|exact Logic.I].
    + destruct top eqn:Et; [|destruct Ht]. destruct Ht as [<-|[]]. rewrite NewP, (Qr eq_refl). apply SE. split; [apply (pi_root _ P)|apply (pi_rootc _ P)].
  - intros t [A B]. assert (LS : is_sec s' (p_lastsec (s_prs s))) by (apply SE; split; [apply (pi_last _ P)|apply (pi_lastc _ P)]).
    destruct (Nat.lt_trichotomy t (hlen s)) as [L|[->|L]].
    + rewrite (sm_cls _ _ (Get t L)) in B. destruct (ok_plain s K t (conj L B)) as (i & X & Y). exists i. rewrite (sm_section _ _ (Get t L)). split; [exact X|apply SE; exact Y].
    + exists (p_lastsec (s_prs s)). auto.
    + destruct (Kid t) as (_ & _ & X & _); [lia|]. exists (p_lastsec (s_prs s)). auto.
  - intros i H. apply SE' in H. rewrite (sm_val _ _ (Get i (proj1 H))). apply (ok_named s K i H).
  - intros i c Hc. destruct (Nat.lt_trichotomy i (hlen s)) as [L|[->|L]].
    + rewrite Chl in Hc by exact L. apply in_app_iff in Hc. destruct Hc as [Hc|Hc].
      * destruct (ok_child s K i c Hc) as (A & B & C). rewrite (sm_parent _ _ (Get c (proj1 B))). auto.
      * apply in_app_iff in Hc. destruct Hc as [Hc|Hc].
        -- destruct (Nat.eqb_spec i q0) as [->|]; [|destruct Hc]. destruct Hc as [<-|[]]. split; [exact Hq|]. split; [split; [lia|exact NewC]|exact NewP].
        -- destruct (Nat.eqb_spec i host) as [->|]; [|destruct Hc]. apply Own in Hc. destruct (Kid c Hc) as (X & Y & _). split; [lia|]. split; [split; [lia|exact X]|exact Y].
    + rewrite ChlN in Hc. destruct (Nat.eqb_spec (hlen s) host) as [->|]; [|destruct Hc]. apply Own in Hc. destruct (Kid c Hc) as (X & Y & _). split; [lia|]. split; [split; [lia|exact X]|exact Y].
    + destruct (Nat.lt_ge_cases i (hlen s')) as [L'|L']; [|rewrite tget_out in Hc by exact L'; destruct Hc]. destruct (Kid i) as (_ & _ & _ & _ & E); [lia|]. rewrite E in Hc. destruct Hc.
  - assert (NO : NoDup own) by apply seq_NoDup. intros i. destruct (Nat.lt_trichotomy i (hlen s)) as [L|[->|L]].
    + rewrite Chl by exact L. apply NoDup_app_intro; [apply (ok_children s K)| |].
      * destruct (i =? q0); [|destruct (i =? host); [exact NO|constructor]]. cbn [app]. constructor; [|destruct (i =? host); [exact NO|constructor]].
        destruct (i =? host); [rewrite Own; lia|intros []].
      * intros x Hx Hy. apply (ok_child s K) in Hx. destruct Hx as (_ & [Hx _] & _). apply in_app_iff in Hy. destruct Hy as [Hy|Hy].
        -- destruct (i =? q0); [destruct Hy as [<-|[]]; lia|destruct Hy].
        -- destruct (i =? host); [apply Own in Hy; lia|destruct Hy].
    + rewrite ChlN. destruct (_ =? _); [exact NO|constructor].
    + destruct (Nat.lt_ge_cases i (hlen s')) as [L'|L']; [|rewrite tget_out by exact L'; constructor]. destruct (Kid i) as (_ & _ & _ & _ & E); [lia|]. rewrite E. constructor.
  - rewrite Dl. apply (ok_declared s K).
  - assert (G : dotless s'); [|intros i Hi; apply G; exact Hi].
    intros i Hi. destruct (Nat.lt_trichotomy i (hlen s)) as [L|[->|L]].
    + rewrite (sm_pt _ _ (Get i L)), (sm_rt _ _ (Get i L)). apply D. exact L.
    + rewrite (sm_pt _ _ GetN), (sm_rt _ _ GetN), F4, F5, Rn. split; [|exact Dr]. unfold final_pt. change (t_pt R) with p.
      destruct (eqs p ELIDED_TERM); [apply (pi_lp _ P)|exact Dp].
    + destruct (Kid i) as (_ & _ & _ & A & _); [lia|]. rewrite A. split; [exact Dr|].
      pose proof (tr_cells _ _ _ _ _ _ _ _ _ _ T) as C. fold own in C.
      assert (I : In (t_rt (tget i s'), t_val (tget i s')) (map (fun nc => (fst nc, VStr (snd nc))) (cells_from cols 0 (map strip (skipn 2 row))))).
      { rewrite <- C. apply in_map_iff. exists i. split; [reflexivity|]. unfold own. apply in_seq. lia. }
      apply in_map_iff in I. destruct I as ([n v] & E & I). injection E as E _. rewrite <- E. cbn [fst].
      pose proof (cells_dots cols (map strip (skipn 2 row)) 0 Dc) as X. rewrite Forall_forall in X. apply (X _ I).
  - intros k i I. rewrite Sx in I. pose proof (SL k i I) as L. destruct (nm_sections s N k i I) as (A & B & C). rewrite (sm_pt _ _ (Get i L)), (sm_rt _ _ (Get i L)), (sm_section _ _ (Get i L)).
    split; [exact A|]. split; [exact B|]. destruct (t_section (tget i s)); [apply SE; exact C|exact Logic.I].
  - intros i Hi. destruct (Nat.lt_trichotomy i (hlen s)) as [L|[->|L]].
    + rewrite (sm_pt _ _ (Get i L)), (sm_rt _ _ (Get i L)). apply D. exact L.
    + rewrite (sm_pt _ _ GetN), (sm_rt _ _ GetN), F4, F5, Rn. split; [|exact Dr]. unfold final_pt. change (t_pt R) with p.
      destruct (eqs p ELIDED_TERM); [apply (pi_lp _ P)|exact Dp].
    + destruct (Kid i) as (_ & _ & _ & A & _); [lia|]. rewrite A. split; [exact Dr|].
      pose proof (tr_cells _ _ _ _ _ _ _ _ _ _ T) as C. fold own in C.
      assert (I : In (t_rt (tget i s'), t_val (tget i s')) (map (fun nc => (fst nc, VStr (snd nc))) (cells_from cols 0 (map strip (skipn 2 row))))).
      { rewrite <- C. apply in_map_iff. exists i. split; [reflexivity|]. unfold own. apply in_seq. lia. }
      apply in_map_iff in I. destruct I as ([n v] & E & I). injection E as E _. rewrite <- E. cbn [fst].
      pose proof (cells_dots cols (map strip (skipn 2 row)) 0 Dc) as X. rewrite Forall_forall in X. apply (X _ I).
Qed.

(** a new object that is no term of the document yet, the rest unchanged *)
Lemma order_more : forall s s', in_order s -> pinv s -> hlen s' = S (hlen s) ->
  (forall i, i < hlen s -> t_parent (tget i s') = t_parent (tget i s) /\ t_cls (tget i s') = t_cls (tget i s)
     /\ t_children (tget i s') = t_children (tget i s) /\ t_terms (tget i s') = t_terms (tget i s)
     /\ t_section (tget i s') = t_section (tget i s) /\ t_val (tget i s') = t_val (tget i s)
     /\ t_pt (tget i s') = t_pt (tget i s) /\ t_rt (tget i s') = t_rt (tget i s) /\ t_doc (tget i s') = t_doc (tget i s)) ->
  t_children (tget (hlen s) s') = [] -> t_terms (tget (hlen s) s') = [] ->
  (if is_section_cls (t_cls (tget (hlen s) s')) then exists n, t_val (tget (hlen s) s') = VStr n
   else t_section (tget (hlen s) s') = Some (p_lastsec (s_prs s))) ->
  dot_free (t_pt (tget (hlen s) s')) -> dot_free (t_rt (tget (hlen s) s')) ->
  listed s' = listed s -> d_decl_sections (s_doc s') = d_decl_sections (s_doc s) ->
  NoDup (map fst (secs s')) -> (forall k i, In (k, i) (secs s) -> In (k, i) (secs s')) ->
  (forall k i, In (k, i) (secs s') -> In (k, i) (secs s) \/ i = hlen s /\ is_section_cls (t_cls (tget i s')) = true /\ t_doc (tget i s') = true
     /\ (exists n, t_val (tget i s') = VStr n /\ lower n = k) /\ t_pt (tget i s') = "root" /\ t_rt (tget i s') = "section" /\ t_section (tget i s') = None) ->
  (forall k i, In (k, i) (secs s') -> odd k \/ usual_columns (columns_of (tget i s'))) ->
  in_order s'.
Proof.
  intros s s' [K N D] P L Old N1 N2 N3 N4 N5 Li De Nk T1 T2 T3.
  assert (C : forall i, i < hlen s' -> i < hlen s \/ i = hlen s) by lia.
  assert (LS : is_sec s (p_lastsec (s_prs s))) by (split; [apply (pi_last _ P)|apply (pi_lastc _ P)]).
  assert (PL : forall i, is_plain s i -> is_plain s' i).
  { intros i [A B]. destruct (Old i A) as (_ & E & _). split; [lia|]. rewrite E. exact B. }
  assert (SE : forall i, is_sec s i -> is_sec s' i).
  { intros i [A B]. destruct (Old i A) as (_ & E & _). split; [lia|]. rewrite E. exact B. }
  assert (SL : forall k i, In (k, i) (secs s) -> i < hlen s) by (intros k i I; apply (ok_section s K k i I)).
  assert (LL : forall t, In t (listed s) -> t < hlen s) by (intros t I; apply (ok_listed s K t I)).
  split; [split|split|].
  - exact Nk.
  - intros k i I. pose proof (T3 k i I) as U. destruct (T2 k i I) as [I'|(-> & A & B & X & _)].
    + destruct (ok_section s K k i I') as (A & B & _ & X). destruct (Old i (SL k i I')) as (_ & _ & _ & _ & _ & E1 & _ & _ & E2). rewrite E1, E2. split; [apply SE; exact A|auto].
    + split; [split; [lia|exact A]|auto].
  - rewrite Li. apply (ok_list s K).
  - intros k i I. destruct (T2 k i I) as [I'|(-> & _)]; [|rewrite N2; constructor]. destruct (Old i (SL k i I')) as (_ & _ & _ & E & _). rewrite E. apply (ok_lists s K k i I').
  - intros t I. rewrite Li in I. destruct (Old t (LL t I)) as (_ & _ & _ & _ & E1 & _ & E2 & _). rewrite E1, E2. destruct (ok_listed s K t I) as (A & B & X). split; [apply PL; exact A|]. split; [exact B|].
    destruct X as [(k & i & X & Y & Z)|(X & Y)].
    + left. exists k, i. split; [apply T1; exact X|]. split; [exact Y|]. destruct (Old i (SL k i X)) as (_ & _ & _ & E & _). rewrite E. exact Z.
    + right. split; [exact X|]. intros k i I'. destruct (T2 k i I') as [I''|(-> & _)]; [apply (Y k i I'')|]. intros E. destruct (ok_plain s K t A) as (j & J & (J1 & _)). rewrite E in J. injection J as <-. lia.
  - intros k i t I Ht. rewrite Li. destruct (T2 k i I) as [I'|(-> & _)]; [|rewrite N2 in Ht; destruct Ht]. destruct (Old i (SL k i I')) as (_ & _ & _ & E & _). rewrite E in Ht.
    destruct (ok_in s K k i t I' Ht) as [A B]. split; [exact A|]. destruct (Old t (LL t A)) as (_ & _ & _ & _ & E' & _). rewrite E'. exact B.
  - intros t I. rewrite Li in I. destruct (Old t (LL t I)) as (E & _). rewrite E. pose proof (ok_top s K t I) as X. destruct (t_parent (tget t s)); [apply SE; exact X|exact Logic.I].
  - intros t [A B]. destruct (C t A) as [L'| ->].
    + destruct (Old t L') as (_ & E1 & _ & _ & E2 & _). rewrite E1 in B. rewrite E2. destruct (ok_plain s K t (conj L' B)) as (i & X & Y). exists i. split; [exact X|apply SE; exact Y].
    + rewrite B in N3. exists (p_lastsec (s_prs s)). split; [exact N3|apply SE; exact LS].
  - intros i [A B]. destruct (C i A) as [L'| ->].
    + destruct (Old i L') as (_ & E1 & _ & _ & _ & E2 & _). rewrite E1 in B. rewrite E2. apply (ok_named s K i (conj L' B)).
    + rewrite B in N3. exact N3.
  - intros i c I. destruct (Nat.lt_ge_cases i (hlen s')) as [Hi|Hi]; [|rewrite tget_out in I by exact Hi; destruct I]. destruct (C i Hi) as [L'| ->]; [|rewrite N1 in I; destruct I].
    destruct (Old i L') as (_ & _ & E & _). rewrite E in I. destruct (ok_child s K i c I) as (A & B & X). split; [exact A|]. split; [apply PL; exact B|]. destruct (Old c (proj1 B)) as (E' & _). rewrite E'. exact X.
  - intros i. destruct (Nat.lt_ge_cases i (hlen s')) as [Hi|Hi]; [|rewrite tget_out by exact Hi; constructor]. destruct (C i Hi) as [L'| ->]; [|rewrite N1; constructor].
    destruct (Old i L') as (_ & _ & E & _). rewrite E. apply (ok_children s K).
  - rewrite De. apply (ok_declared s K).
  - intros i Hi. destruct (C i Hi) as [L'| ->]; [|exact N4]. destruct (Old i L') as (_ & _ & _ & _ & _ & _ & E & _). rewrite E. apply (nm_dots s N i L').
  - intros k i I. destruct (T2 k i I) as [I'|(-> & _ & _ & _ & A & B & X)].
    + destruct (Old i (SL k i I')) as (_ & _ & _ & _ & E1 & _ & E2 & E3 & _). rewrite E1, E2, E3. destruct (nm_sections s N k i I') as (A & B & X). split; [exact A|]. split; [exact B|]. destruct (t_section (tget i s)); [apply SE; exact X|exact Logic.I].
    + rewrite X. auto.
  - intros i Hi. destruct (C i Hi) as [L'| ->]; [|auto]. destruct (Old i L') as (_ & _ & _ & _ & _ & _ & E1 & E2 & _). rewrite E1, E2. apply (D i L').
Qed.

Lemma order_row : forall decl v ftype row l s s', ftype <> Some "declare" -> vinv decl v s -> pinv s' -> reads row l -> usual l -> greets l -> ~ own_parent l ->
  Forall dot_free (v_cols v) -> row_eff ftype (v_line v) row s s' -> in_order s -> in_order s'.
Proof.
  intros decl v ftype row l s s' Ft V PI Rd U Gr NS Dc H O. pose proof (vi_pinv _ _ _ V) as P.
  destruct (vinv_row _ _ _ _ _ _ _ Ft V PI Rd U Gr H) as [V' TR].
  pose proof (io_ok s O) as K.
  assert (Nk : NoDup (map fst (secs s'))).
  { unfold secs. change (map fst (d_sections (s_doc s'))) with (dkeys (d_sections (s_doc s'))). rewrite (vi_keys _ _ _ V'). apply (vi_nodup _ _ _ V'). }
  assert (D1 : forall x, In x ["root"; "section"; "header"] -> dot_free x).
  { intros x Hx. apply dot_free_iff. destruct Hx as [<-|[<-|[<-|[]]]]; reflexivity. }
  assert (PC : forall i, i < hlen s' -> is_section_cls (t_cls (tget i s')) = true -> ~ b_wild i -> usual_columns (columns_of (tget i s'))).
  { intros i A B W. destruct (pi_sec _ PI i A B W) as [PS _]. unfold usual_columns, columns_of. destruct (t_hargs (tget i s')) eqn:E; [apply (ps_args _ PS)|rewrite <- E; apply (ps_hargs _ PS)]. }
  destruct H as [H1 ->|H1 H2 H3 ->|c H1 H2 H3 H4 ->|p r c q s1 H1 H2 H3 H4 H5 H6 H7].
  - exact O.
  - set (n := nth 1 row "") in *. set (args := skipn 2 row) in *. set (s' := section_effect n args (v_line v) ftype s) in *.
    assert (Sec : d_sections (s_doc s') =
      match dget (lower (strip n)) (d_sections (s_doc s)) with Some _ => d_sections (s_doc s) | None => dset (lower (strip n)) (hlen s) (d_sections (s_doc s)) end).
    { unfold s', section_effect. destruct (dget _ _); [|rewrite doc_dmod]; rewrite enter_doc; reflexivity. }
    assert (New : tget (hlen s) s' = RowFacts.section_rec n (heading_args (s_doc s) n args) (v_line v) ftype "root.section") by apply section_effect_new.
    assert (Vn : t_val (tget (hlen s) s') = VStr (strip n)).
    { rewrite New. unfold RowFacts.section_rec, fresh_plain. cbn [t_val]. destruct n as [|x y]; [congruence|]. reflexivity. }
    assert (Ts : forall k i, In (k, i) (secs s') <-> In (k, i) (secs s) \/ dget (lower (strip n)) (secs s) = None /\ k = lower (strip n) /\ i = hlen s).
    { intros k i. unfold secs at 1. rewrite <- (dget_some _ _ _ Nk). fold (secs s). unfold secs at 1. rewrite Sec. fold (secs s). destruct (dget (lower (strip n)) (secs s)) as [j|] eqn:E.
      - rewrite (dget_some _ _ _ (ok_keys s K)). split; [auto|]. intros [X|(X & _)]; [exact X|discriminate].
      - rewrite dget_dset. destruct (eqs k (lower (strip n))) eqn:Ek.
        + apply eqs_true in Ek. subst k. split; [intros X; injection X as <-; auto|]. intros [X|(_ & _ & ->)]; [|reflexivity]. apply (dget_some _ _ _ (ok_keys s K)) in X. congruence.
        + rewrite (dget_some _ _ _ (ok_keys s K)). split; [auto|]. intros [X|(_ & -> & _)]; [exact X|]. rewrite eqs_refl in Ek. discriminate. }
    apply (order_more s); auto.
    + apply section_effect_len.
    + intros i Hi. unfold s'. rewrite section_effect_old by exact Hi. auto 10.
    + rewrite New. reflexivity.
    + rewrite New. reflexivity.
    + rewrite Vn. rewrite New. cbn. eauto.
    + rewrite New. apply D1. cbn. auto.
    + rewrite New. apply D1. cbn. auto.
    + unfold listed, s', section_effect. destruct (dget _ _); [|rewrite doc_dmod]; rewrite enter_doc; reflexivity.
    + unfold s', section_effect. destruct (dget _ _); [|rewrite doc_dmod]; rewrite enter_doc; reflexivity.
    + intros k i I. apply Ts. auto.
    + intros k i I. apply Ts in I. destruct I as [I|(_ & -> & ->)]; [auto|right]. split; [reflexivity|]. rewrite Vn, New. repeat split. eauto.
    + intros k i I. apply Ts in I. destruct I as [I|(_ & -> & ->)].
      * destruct (ok_section s K k i I) as ((A & _) & _ & B & _). unfold s'. rewrite section_effect_old by exact A. exact B.
      * right. apply PC; [unfold s'; rewrite section_effect_len; lia|rewrite New; reflexivity|apply not_wild, (pi_base _ P)].
  - set (s' := header_effect c (v_line v) ftype row s) in *.
    assert (Get : forall i, i < hlen s -> tget i s' = if i =? p_lastsec (s_prs s) then set_t_dtvn (lower (strip (nth 1 row ""))) (set_t_hargs (map strip (skipn 2 row)) (tget i s)) else tget i s).
    { intros i Hi. unfold s'. rewrite header_effect_get by (try apply (pi_last _ P); lia). replace (i =? hlen s) with false by (symmetry; apply Nat.eqb_neq; lia). reflexivity. }
    assert (New : tget (hlen s) s' = set_t_section (Some (p_lastsec (s_prs s))) (row_rec c (v_line v) ftype "root" "header" row)).
    { unfold s'. rewrite header_effect_get by (try apply (pi_last _ P); lia). rewrite Nat.eqb_refl. reflexivity. }
    apply (order_more s); auto.
    + apply header_effect_len.
    + intros i Hi. rewrite Get by exact Hi. destruct (i =? _); auto 10.
    + rewrite New. reflexivity.
    + rewrite New. reflexivity.
    + rewrite New. change (t_cls (set_t_section (Some (p_lastsec (s_prs s))) (row_rec c (v_line v) ftype "root" "header" row))) with c. rewrite H4. reflexivity.
    + rewrite New. apply D1. cbn. auto.
    + rewrite New. apply D1. cbn. auto.
    + intros k i I. change (secs s') with (secs s) in I. destruct (ok_section s K k i I) as ((A & A') & _ & B & _). destruct (Nat.eqb_spec i (p_lastsec (s_prs s))) as [->|Ne].
      * right. apply PC; [unfold s'; rewrite header_effect_len; lia| |apply (pi_lastt _ P)]. rewrite Get by exact A. rewrite Nat.eqb_refl. exact A'.
      * rewrite Get by exact A. replace (i =? p_lastsec (s_prs s)) with false by (symmetry; apply Nat.eqb_neq; exact Ne). exact B.
  - apply not_blank in H1. destruct Rd as [B|NB C|NB C|p' r' NB C Hx]; try tauto.
    + destruct (cell_names_fun _ _ _ _ _ H2 C) as [-> ->]. exfalso. apply H3; cbn; auto.
    + destruct (cell_names_fun _ _ _ _ _ H2 C) as [-> ->]. exfalso. apply H3; cbn; auto.
    + destruct (TR _ _ _ _ eq_refl) as (c' & q' & T). destruct (cell_names_dots _ _ _ C). destruct U as (U1 & U2 & U3 & _).
      eapply (order_term _ _ _ _ _ _ (v_cur v)); [exact O|exact P| | |..|exact T]; try assumption.
      * apply (dget_some _ _ _ (ok_keys s K)). exact (vi_cur _ _ _ V).
      * intros ->. apply NS. exists r', (strip (nth 1 row "")), (map strip (skipn 2 row)). reflexivity.
Qed.

Lemma order_rows : forall decl ftype rows ls v s s', (forall n, Forall dot_free (decl n)) -> ftype <> Some "declare" -> vinv decl v s -> Forall2 reads rows ls -> Forall usual ls -> Forall greets ls ->
  Forall (fun l => ~ own_parent l) ls -> Forall dotless_columns ls -> cols_dots v -> rows_eff ftype (v_line v) rows s s' -> in_order s -> in_order s'.
Proof.
  intros decl ftype rows ls v s s' Hd Ft V Rd. revert v s V. induction Rd as [|row l rows ls R1 R2 IH]; intros v s V U G NS Co CD H F.
  - inversion H; subst. exact F.
  - inversion U as [|? ? U1 U2]; subst. inversion G as [|? ? G1 G2]; subst. inversion NS as [|? ? N1 N2]; subst. inversion Co as [|? ? C1 C2]; subst. inversion H as [|? ? ? ? s1 ? H1 H2 H3]; subst.
    destruct (vinv_row _ _ _ _ _ _ _ Ft V H2 R1 U1 G1 H1) as [V1 _].
    apply (IH (next decl v l) s1); auto.
    + apply cols_dots_next; assumption.
    + rewrite next_line. exact H3.
    + apply (order_row decl v ftype row l s s1); try assumption. apply CD.
Qed.

Lemma order_same_heap : forall s s', s_heap s' = s_heap s -> secs s' = secs s -> listed s' = listed s ->
  (forall k sd, In (k, sd) (d_decl_sections (s_doc s')) -> odd k \/ usual_columns (map strip (sd_args sd))) -> in_order s -> in_order s'.
Proof.
  intros s s' H S L De [K N D]. assert (T : forall i, tget i s' = tget i s) by (intros i; unfold tget; rewrite H; reflexivity).
  assert (Ln : hlen s' = hlen s) by (unfold hlen; rewrite H; reflexivity).
  assert (SE : forall i, is_sec s' i <-> is_sec s i) by (intros i; unfold is_sec; rewrite T, Ln; reflexivity).
  assert (PL : forall i, is_plain s' i <-> is_plain s i) by (intros i; unfold is_plain; rewrite T, Ln; reflexivity).
  split; [split|split|].
  - rewrite S. apply (ok_keys s K).
  - intros k i. rewrite S, SE, T. apply (ok_section s K).
  - rewrite L. apply (ok_list s K).
  - intros k i. rewrite S, T. apply (ok_lists s K).
  - intros t. rewrite L, S, PL, T. setoid_rewrite T. apply (ok_listed s K).
  - intros k i t. rewrite S, L, !T. apply (ok_in s K).
  - intros t. rewrite L, T. intros I. pose proof (ok_top s K t I) as X. destruct (t_parent _); [apply SE; exact X|exact X].
  - intros t. rewrite PL, T. setoid_rewrite SE. apply (ok_plain s K).
  - intros i. rewrite SE, T. apply (ok_named s K).
  - intros i c. rewrite PL, !T. apply (ok_child s K).
  - intros i. rewrite T. apply (ok_children s K).
  - exact De.
  - intros i. rewrite Ln, T. apply (nm_dots s N).
  - intros k i. rewrite S, T. intros I. destruct (nm_sections s N k i I) as (A & B & C). split; [exact A|]. split; [exact B|]. destruct (t_section _); [apply SE; exact C|exact C].
  - intros i. rewrite Ln, T. apply D.
Qed.

Lemma order_finished : forall s s', finish_load s = (s', Ok tt) -> (forall k sd, In (k, sd) (p_dsecs (s_prs s)) -> odd k \/ usual_columns (map strip (sd_args sd))) ->
  in_order s -> in_order s'.
Proof.
  intros s s' H X O. pose proof (finished_secs _ _ H) as E. destruct (finish_load_ok s) as (s2 & H2 & F). rewrite H in H2. injection H2 as <-.
  apply (order_same_heap s s'); [exact (fi_heap _ _ F)|unfold secs; exact (fi_sections _ _ F)|unfold listed; exact (fi_terms _ _ F)| |exact O].
  intros k sd I. rewrite E in I. apply in_dupdate in I. destruct I as [I|I]; [apply (X k sd I)|apply (ok_declared s (io_ok s O) k sd I)].
Qed.

End Keep.

(** ** After the first rows of a file *)

Lemma after_ends : forall g head rows odd s0 ls s, loads_after g head rows odd s0 ls s ->
  exists s1, @rows_eff (past odd s0) None (S (List.length head)) rows s0 s1 /\ finish_load s1 = (s, Ok tt).
Proof.
  intros g head rows odd s0 ls s [L St C [Rd U] Od]. unfold loads, load_into, load_source in L.
  rb L as s1 u H1. unfold start_parser in H1. apply modify_ok in H1. subst s1. fold (started (new_doc (in_reg g) (in_terms g) (in_secs g) (in_super g))) in L. rg L.
  rb L as s2 u2 H2. assert (s2 = started (new_doc (in_reg g) (in_terms g) (in_secs g) (in_super g))) as -> by (vm_compute in H2; injection H2 as <- _; reflexivity).
  rb L as s1 u3 H3. destruct u3. exists s1. split; [|exact L]. destruct St as (lsec & St).
  destruct (in_fuel g) as [|f]; [discriminate H3|]. cbn [generate_terms pred] in H3, St. rg H3. cbn [src_rows] in H3. rewrite rows_to_app in H3.
  rb H3 as s2 l2 L2. fold (started (new_doc (in_reg g) (in_terms g) (in_secs g) (in_super g))) in St.
  assert (E2 : s2 = s0) by (pose proof (eq_trans (eq_sym L2) St) as X; congruence). subst s2.
  eapply rows_loop_eff; [discriminate|apply calm_pinv; exact C|eapply reads_ordinary; eassumption|eapply reads_welcome; [exact Rd|apply greets_odd; exact Od]|exact H3].
Qed.

Lemma row_eff_secs_any : forall {Bk : background} ftype n rows s s', rows_eff ftype n rows s s' -> p_dsecs (s_prs s') = p_dsecs (s_prs s).
Proof. intros Bk ftype n rows s s' H. induction H as [|n row rows s s1 s' H1 H2 H3 IH]; [reflexivity|]. apply row_eff_secs in H1. destruct H1. congruence. Qed.

Lemma after_order : forall {QK : Quirks} g head rows od s0 ls s, loads_after g head rows od s0 ls s -> ready s0 ->
  Forall (fun l => ~ own_parent l) ls -> Forall dotless_columns ls -> in_order s.
Proof.
  intros QK g head rows od s0 ls s LA RD NS Co. destruct (after_ends _ _ _ _ _ _ _ LA) as (s1 & RE & F). destruct LA as [L St C [Rd U] Od]. destruct RD as [O De Dd [Dp Da]].
  apply (order_finished s1 s F).
  - intros k sd I. rewrite (row_eff_secs_any _ _ _ _ _ RE) in I. apply (De k sd I).
  - eapply (order_rows (Bk := past od s0) (cols_in s0) None rows ls (view_of (S (List.length head)) s0) s0 s1); try assumption.
    + discriminate.
    + apply calm_vinv. exact C.
    + apply greets_odd. exact Od.
    + split; [exact Dp|]. cbn [v_secs view_of]. apply Forall_map. apply Forall_forall. intros [k i] I. cbn [snd fst]. apply (Da k i I).
Qed.

(** ** Checking that a state is ready *)

Definition dotsb (l : list string) : bool := forallb (fun x => negb (has_char "." x)) l.
Lemma dotsb_ok : forall l, dotsb l = true -> Forall dot_free l.
Proof. intros l H. apply Forall_forall. intros x I. unfold dotsb in H. rewrite forallb_forall in H. apply dot_free_iff. apply negb_true_iff. apply H. exact I. Qed.
Fixpoint nodupn (l : list nat) : bool := match l with [] => true | x :: l' => negb (mem_id x l') && nodupn l' end.
Lemma nodupn_ok : forall l, nodupn l = true -> NoDup l.
Proof.
  induction l as [|x l IH]; intros H; [constructor|]. cbn [nodupn] in H. apply andb_true_iff in H. destruct H as [A B]. apply negb_true_iff in A.
  constructor; [|apply IH; exact B]. intros I. apply mem_id_in in I. congruence.
Qed.
Definition usualb (l : list string) : bool := negb (mem_str "section" (map lower l)).
Lemma usualb_ok : forall l, usualb l = true -> usual_columns l.
Proof. intros l H. apply negb_true_iff in H. apply mem_str_not. exact H. Qed.
Definition secb (s : st) (i : nat) : bool := (i <? hlen s) && is_section_cls (t_cls (tget i s)).
Lemma secb_ok : forall s i, secb s i = true -> is_sec s i.
Proof. intros s i H. apply andb_true_iff in H. destruct H as [A B]. split; [apply Nat.ltb_lt; exact A|exact B]. Qed.
Definition plainb (s : st) (i : nat) : bool := (i <? hlen s) && negb (is_section_cls (t_cls (tget i s))).
Lemma plainb_ok : forall s i, plainb s i = true -> is_plain s i.
Proof. intros s i H. apply andb_true_iff in H. destruct H as [A B]. split; [apply Nat.ltb_lt; exact A|apply negb_true_iff; exact B]. Qed.
Definition idb (a : option nat) (i : nat) : bool := match a with Some j => j =? i | None => false end.
Lemma idb_ok : forall a i, idb a i = true <-> a = Some i.
Proof. intros [j|] i; cbn; [rewrite Nat.eqb_eq; split; [intros ->; reflexivity|congruence]|split; discriminate]. Qed.
Definition oddb (o : list string) (k : string) : bool := mem_str k o && negb (eqs k "root").
Lemma oddb_ok : forall l o k, oddb o k = true -> @odd (known_quirks l o) k.
Proof. intros l o k H. apply andb_true_iff in H. destruct H as [A B]. apply negb_true_iff in B. apply eqs_false in B. split; [|exact B]. unfold mem_str in A. apply existsb_exists in A. destruct A as (y & A1 & A2). apply eqs_true in A2. subst y. exact A1. Qed.

Definition each (s : st) (f : nat -> bool) : bool := forallb f (seq 0 (hlen s)).
Lemma each_ok : forall s f, each s f = true -> forall i, i < hlen s -> f i = true.
Proof. intros s f H i L. unfold each in H. rewrite forallb_forall in H. apply H. apply in_seq. lia. Qed.

Definition readyb (l : list nat) (o : list string) (s : st) : bool :=
  nodupb (map fst (secs s))
  && forallb (fun ki => let r := tget (snd ki) s in secb s (snd ki) && t_doc r && (oddb o (fst ki) || usualb (columns_of r))
       && match t_val r with VStr n => eqs (lower n) (fst ki) | _ => false end
       && nodupn (t_terms r) && forallb (fun t => mem_id t (listed s) && idb (t_section (tget t s)) (snd ki)) (t_terms r)
       && eqs (t_pt r) "root" && (eqs (t_rt r) "section" || eqs (t_rt r) "root") && match t_section r with None => true | Some j => secb s j end
       && dotsb (t_args r)) (secs s)
  && nodupn (listed s)
  && forallb (fun t => plainb s t && eqs (lower (t_pt (tget t s))) "root"
       && (existsb (fun ki => idb (t_section (tget t s)) (snd ki) && mem_id t (t_terms (tget (snd ki) s))) (secs s)
           || mem_id t l && forallb (fun ki => negb (idb (t_section (tget t s)) (snd ki))) (secs s))
       && match t_parent (tget t s) with None => true | Some p => secb s p end) (listed s)
  && each s (fun i => if is_section_cls (t_cls (tget i s)) then match t_val (tget i s) with VStr _ => true | _ => false end
       else match t_section (tget i s) with Some j => secb s j | None => false end)
  && each s (fun i => forallb (fun c => (i <? c) && plainb s c && idb (t_parent (tget c s)) i) (t_children (tget i s)) && nodupn (t_children (tget i s)))
  && each s (fun i => dotsb [t_pt (tget i s); t_rt (tget i s)])
  && forallb (fun kd => (oddb o (fst kd) || usualb (map strip (sd_args (snd kd)))) && dotsb (sd_args (snd kd))) (d_decl_sections (s_doc s))
  && forallb (fun kd => oddb o (fst kd) || usualb (map strip (sd_args (snd kd)))) (p_dsecs (s_prs s))
  && dotsb (p_pmap (s_prs s)).

Lemma ready_by : forall l o s, readyb l o s = true -> @ready (known_quirks l o) s.
Proof.
  intros l o s. unfold readyb. rewrite !andb_true_iff. intros (((((((((H1 & H2) & H3) & H4) & H5) & H6) & H7) & H8) & H9) & H10).
  rewrite forallb_forall in H2, H4, H8, H9. pose proof (each_ok _ _ H5) as G5. pose proof (each_ok _ _ H6) as G6. pose proof (each_ok _ _ H7) as G7. clear H5 H6 H7. cbv beta in G5, G6, G7.
  assert (OU : forall k x, oddb o k || usualb x = true -> @odd (known_quirks l o) k \/ usual_columns x).
  { intros k x H. apply orb_true_iff in H. destruct H as [H|H]; [left; eapply oddb_ok; exact H|right; apply usualb_ok; exact H]. }
  assert (ND : nodupb (map fst (secs s)) = true -> NoDup (map fst (secs s))) by apply nodupb_ok.
  assert (DD : forall i, i < hlen s -> dot_free (t_pt (tget i s)) /\ dot_free (t_rt (tget i s))).
  { intros i L. pose proof (dotsb_ok _ (G7 i L)) as X. inversion X as [|? ? A Y]; subst. inversion Y; subst. auto. }
  assert (SC : forall k i, In (k, i) (secs s) -> is_sec s i /\ t_doc (tget i s) = true /\ (@odd (known_quirks l o) k \/ usual_columns (columns_of (tget i s)))
    /\ (exists n, t_val (tget i s) = VStr n /\ lower n = k) /\ NoDup (t_terms (tget i s)) /\ (forall t, In t (t_terms (tget i s)) -> In t (listed s) /\ t_section (tget t s) = Some i)
    /\ t_pt (tget i s) = "root" /\ (t_rt (tget i s) = "section" \/ t_rt (tget i s) = "root") /\ match t_section (tget i s) with None => True | Some j => is_sec s j end
    /\ Forall dot_free (t_args (tget i s))).
  { intros k i I. specialize (H2 _ I). cbv zeta in H2. cbn [fst snd] in H2. rewrite !andb_true_iff in H2. destruct H2 as (((((((((A1 & A2) & A3) & A4) & A5) & A6) & A7) & A8) & A9) & A10).
    split; [apply secb_ok; exact A1|]. split; [exact A2|]. split; [apply OU; exact A3|]. split; [destruct (t_val (tget i s)); try discriminate A4; eexists; split; [reflexivity|apply eqs_true; exact A4]|].
    split; [apply nodupn_ok; exact A5|]. split; [|split; [apply eqs_true; exact A7|split; [apply orb_true_iff in A8; rewrite !eqs_true in A8; exact A8|split; [destruct (t_section (tget i s)); [apply secb_ok; exact A9|exact Logic.I]|apply dotsb_ok; exact A10]]]].
    intros t T. rewrite forallb_forall in A6. specialize (A6 t T). apply andb_true_iff in A6. destruct A6 as [X Y]. split; [apply mem_id_in; exact X|apply idb_ok; exact Y]. }
  assert (LI : forall t, In t (listed s) -> is_plain s t /\ lower (t_pt (tget t s)) = "root"
    /\ ((exists k i, In (k, i) (secs s) /\ t_section (tget t s) = Some i /\ In t (t_terms (tget i s))) \/ (In t l /\ forall k i, In (k, i) (secs s) -> t_section (tget t s) <> Some i))
    /\ match t_parent (tget t s) with None => True | Some p => is_sec s p end).
  { intros t I. specialize (H4 _ I). cbv beta in H4. rewrite !andb_true_iff, orb_true_iff in H4. destruct H4 as (((A1 & A2) & A3) & A4).
    split; [apply plainb_ok; exact A1|]. split; [apply eqs_true; exact A2|]. split; [|destruct (t_parent (tget t s)); [apply secb_ok; exact A4|exact Logic.I]].
    destruct A3 as [A3|A3]; [left|right].
    - apply existsb_exists in A3. destruct A3 as ([k i] & X & Y). cbn [snd] in Y. apply andb_true_iff in Y. destruct Y as [Y Z]. exists k, i. split; [exact X|]. split; [apply idb_ok; exact Y|apply mem_id_in; exact Z].
    - apply andb_true_iff in A3. destruct A3 as [A3 B]. split; [apply mem_id_in; exact A3|]. rewrite forallb_forall in B. intros k i X Y. specialize (B _ X). cbn [snd] in B. apply idb_ok in Y. rewrite Y in B. discriminate B. }
  split; [split; [split|split|exact DD]| | |].
  - apply ND. exact H1.
  - intros k i I. destruct (SC k i I) as (A & B & C & D & _). auto.
  - apply nodupn_ok. exact H3.
  - intros k i I. apply (SC k i I).
  - intros t I. destruct (LI t I) as (A & B & C & _). auto.
  - intros k i t I T. apply (SC k i I). exact T.
  - intros t I. apply (LI t I).
  - intros t [A B]. specialize (G5 t A). rewrite B in G5. destruct (t_section (tget t s)) as [j|]; [|discriminate G5]. exists j. split; [reflexivity|apply secb_ok; exact G5].
  - intros i [A B]. specialize (G5 i A). rewrite B in G5. destruct (t_val (tget i s)); try discriminate G5. eauto.
  - intros i c I. destruct (Nat.lt_ge_cases i (hlen s)) as [L|L]; [|rewrite tget_out in I by exact L; destruct I]. specialize (G6 i L). apply andb_true_iff in G6. destruct G6 as [A _]. rewrite forallb_forall in A. specialize (A c I).
    rewrite !andb_true_iff in A. destruct A as ((A & B) & C). split; [apply Nat.ltb_lt; exact A|]. split; [apply plainb_ok; exact B|apply idb_ok; exact C].
  - intros i. destruct (Nat.lt_ge_cases i (hlen s)) as [L|L]; [|rewrite tget_out by exact L; constructor]. specialize (G6 i L). apply andb_true_iff in G6. destruct G6 as [_ A]. apply nodupn_ok. exact A.
  - intros k sd I. specialize (H8 _ I). cbn [fst snd] in H8. apply andb_true_iff in H8. destruct H8 as [A _]. apply OU. exact A.
  - intros i L. apply (DD i L).
  - intros k i I. destruct (SC k i I) as (_ & _ & _ & _ & _ & _ & A & B & C & _). auto.
  - intros k sd I. specialize (H9 _ I). apply OU. exact H9.
  - intros n. unfold cols_in, declared_columns. destruct (dget (lower n) (d_decl_sections (s_doc s))) as [sd|] eqn:E; [|constructor]. apply dget_in in E. specialize (H8 _ E). cbn [snd] in H8. apply andb_true_iff in H8. apply dotsb_ok. apply H8.
  - split; [apply dotsb_ok; exact H10|]. intros k i I. apply (SC k i I).
Qed.

Lemma after_edits : forall {QK : Quirks} g head rows od s0 ls s s', loads_after g head rows od s0 ls s -> ready s0 ->
  Forall (fun l => ~ own_parent l) ls -> Forall dotless_columns ls -> edits s s' -> lists_agree s'.
Proof. intros QK g head rows od s0 ls s s' L R NP ND E. exact (ok_agree s' (io_ok s' (order_edits _ _ E (after_order _ _ _ _ _ _ _ L R NP ND)))). Qed.

Lemma after_plain : forall g head rows od s0 ls s s', loads_after g head rows od s0 ls s -> @ready plain_doc s0 ->
  Forall (fun l => ~ own_parent l) ls -> Forall dotless_columns ls -> @edits plain_doc s s' ->
  forall t, In t (listed s') -> exists k i, In (k, i) (secs s') /\ In t (t_terms (tget i s')).
Proof.
  intros g head rows od s0 ls s s' L R NP ND E t T.
  destruct (@after_edits plain_doc g head rows od s0 ls s s' L R NP ND E) as (_ & _ & _ & H).
  destruct (H t T (fun X => X)) as (k & i & Ik & It & _). exists k, i. split; [exact Ik|exact It].
Qed.
