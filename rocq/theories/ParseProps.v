(** * ParseProps: the parser properties, from DocFacts and ForestFacts *)

From Coq Require Import Sorted.
From Verif Require Import ListFacts StrFacts SpecNames NameFacts HeapFacts ConstructFacts Parser RunFacts EmitFacts TreeFacts DigitFacts RowFacts ParseFacts DocFacts ForestFacts SpecDoc.

(** ** Reading rows by computation *)

Definition read_row (row : list string) : option line :=
  if skip_row row then Some LBlank
  else match split_term_lower (hd "" row) with
       | Ok (p, r) =>
           if eqs p "root" && eqs r "section" then Some (LSection (nth 1 row "") (map strip (skipn 2 row)))
           else if eqs p "root" && eqs r "header" then Some (LHeader (strip (nth 1 row "")) (map strip (skipn 2 row)))
           else Some (LTerm p r (strip (nth 1 row "")) (map strip (skipn 2 row)))
       | Err _ => None
       end.

Lemma read_row_reads : forall row l, read_row row = Some l <-> reads row l.
Proof.
  intros row l. unfold read_row. destruct (skip_row row) eqn:Sk.
  - apply skip_blank in Sk. split.
    + intros H. injection H as <-. constructor. exact Sk.
    + intros H. inversion H; subst; try contradiction. reflexivity.
  - apply not_blank in Sk. destruct (split_term_lower (hd "" row)) as [[p r]|er] eqn:E.
    2:{ split; [discriminate|]. intros H. inversion H; subst; try contradiction;
        match goal with C : cell_names _ _ _ |- _ => apply split_term_lower_spec in C; congruence end. }
    apply split_term_lower_spec in E.
    assert (X : forall l', reads row l' ->
      l' = LSection (nth 1 row "") (map strip (skipn 2 row)) /\ p = "root" /\ r = "section"
      \/ l' = LHeader (strip (nth 1 row "")) (map strip (skipn 2 row)) /\ p = "root" /\ r = "header"
      \/ l' = LTerm p r (strip (nth 1 row "")) (map strip (skipn 2 row)) /\ (p = "root" -> ~ In r ["section"; "header"])).
    { intros l' H. inversion H; subst; try contradiction;
        match goal with C : cell_names _ _ _ |- _ => destruct (cell_names_fun _ _ _ _ _ E C) as [? ?]; subst end; auto. }
    eqs_cases p "root"; cbn [andb].
    + subst p. eqs_cases r "section".
      * subst r. split; [intros H; injection H as <-; constructor; assumption|]. intros H. destruct (X _ H) as [(-> & _)|[(_ & _ & Y)|(_ & Y)]]; [reflexivity|discriminate|].
        exfalso. apply Y; cbn; auto.
      * eqs_cases r "header".
        -- subst r. split; [intros H; injection H as <-; constructor; assumption|]. intros H. destruct (X _ H) as [(_ & _ & Y)|[(-> & _)|(_ & Y)]]; [discriminate|reflexivity|].
           exfalso. apply Y; cbn; auto.
        -- split.
           ++ intros H. injection H as <-. apply reads_term; auto. intros _ [H|[H|[]]]; congruence.
           ++ intros H. destruct (X _ H) as [(_ & _ & Y)|[(_ & _ & Y)|(-> & _)]]; congruence.
    + split.
      * intros H. injection H as <-. apply reads_term; auto; intros; contradiction.
      * intros H. destruct (X _ H) as [(_ & Y & _)|[(_ & Y & _)|(-> & _)]]; congruence.
Qed.

Definition usualb (l : line) : bool :=
  match l with
  | LBlank => true
  | LSection _ cells | LHeader _ cells => negb (mem_str "section" (map lower cells))
  | LTerm p r _ _ =>
      match py_int r with None => true | _ => false end
      && negb (eqs r current_parent) && negb (eqs r "root")
      && (negb (eqs p current_parent) || negb (mem_str r ["section"; "header"]))
      && (negb (eqs p "root") || negb (mem_str r ["include"; "declare"]))
  end.

Lemma mem_str_not : forall x l, mem_str x l = false -> ~ In x l.
Proof. intros x l H I. apply mem_str_true in I. congruence. Qed.

Lemma usualb_usual : forall l, usualb l = true -> usual l.
Proof.
  intros [|n cells|n cells|p r x cells]; cbn [usualb usual].
  - auto.
  - rewrite negb_true_iff. apply mem_str_not.
  - rewrite negb_true_iff. apply mem_str_not.
  - rewrite !andb_true_iff, !orb_true_iff, !negb_true_iff, !eqs_false. intros ((((A & B) & C) & D) & E).
    split; [destruct (py_int r); [discriminate|reflexivity]|]. split; [exact B|]. split; [exact C|]. split.
    + intros ->. destruct D as [D|D]; [congruence|apply mem_str_not; exact D].
    + intros ->. destruct E as [E|E]; [congruence|apply mem_str_not; exact E].
Qed.

Fixpoint read_rows (rows : list (list string)) : option (list line) :=
  match rows with
  | [] => Some []
  | row :: rows' => match read_row row, read_rows rows' with Some l, Some ls => Some (l :: ls) | _, _ => None end
  end.

Lemma means_by : forall rows ls, read_rows rows = Some ls -> forallb usualb ls = true -> means rows ls.
Proof.
  induction rows as [|row rows IH]; intros ls H U; cbn [read_rows] in H.
  - injection H as <-. split; constructor.
  - destruct (read_row row) as [l|] eqn:E; [|discriminate]. destruct (read_rows rows) as [ls'|] eqn:E'; [|discriminate]. injection H as <-.
    cbn [forallb] in U. apply andb_prop in U. destruct U as [U1 U2]. destruct (IH ls' eq_refl U2) as [A B]. split.
    + constructor; [apply read_row_reads; exact E|exact A].
    + constructor; [apply usualb_usual; exact U1|exact B].
Qed.

(** ** C04, C07 *)

Lemma c04 : forall g rows lpre p r x cells lpost s, proper g ->
  means rows (lpre ++ LTerm p r x cells :: lpost) -> loads g rows s ->
  exists t own q before after, line_term s (S (List.length lpre)) t
    /\ (forall u, from_line s (S (List.length lpre)) u <-> u = t \/ In u own)
    /\ NoDup (t :: own)
    /\ map (fun u => (t_rt (tget u s), t_val (tget u s))) own
       = map (fun nc => (fst nc, VStr (snd nc))) (cells_from (v_cols (view_after (cols_of g) lpre)) 0 cells)
    /\ t_children (tget q s) = (before ++ own ++ after)%list
    /\ (forall u, In u own -> t_parent (tget u s) = Some q).
Proof.
  intros g rows lpre p r x cells lpost s G M L. destruct (line_spec _ _ _ _ _ _ _ _ _ G M L) as (row & t & q & own & _ & R).
  destruct (lr_place _ _ _ _ _ _ _ _ _ _ _ R) as (before & after & B & _).
  exists t, own, (if eqs p current_parent then q else t), before, after. split; [apply R|]. split; [apply R|].
  split; [constructor; apply R|]. split; [apply R|]. split; [exact B|]. intros u Hu. apply (lr_ownp _ _ _ _ _ _ _ _ _ _ _ R u Hu).
Qed.

Lemma c07 : forall g rows lpre p r x cells lpost s, proper g ->
  means rows (lpre ++ LTerm p r x cells :: lpost) -> loads g rows s -> p <> current_parent ->
  exists t, line_term s (S (List.length lpre)) t
    /\ forall u, from_line s (S (List.length lpre)) u -> u <> t -> t_parent (tget u s) = Some t /\ In u (t_children (tget t s)).
Proof.
  intros g rows lpre p r x cells lpost s G M L N. destruct (line_spec _ _ _ _ _ _ _ _ _ G M L) as (row & t & q & own & _ & R).
  destruct (lr_place _ _ _ _ _ _ _ _ _ _ _ R) as (before & after & B & _). apply eqs_false in N.
  exists t. split; [apply R|]. intros u Hu Nu. apply (lr_from _ _ _ _ _ _ _ _ _ _ _ R) in Hu. destruct Hu as [->|Hu]; [contradiction|].
  pose proof (lr_ownp _ _ _ _ _ _ _ _ _ _ _ R u Hu) as [A _]. rewrite N in A, B. split; [exact A|]. rewrite B.
  apply in_app_iff. right. apply in_app_iff. left. exact Hu.
Qed.

(** ** C05 *)

Lemma c05 : forall g rows lpre p r x cells lpost s, proper g ->
  means rows (lpre ++ LTerm p r x cells :: lpost) -> loads g rows s ->
  p <> current_parent -> p <> "root" -> p <> r ->
  exists l t q before after, most_recent p lpre l /\ line_term s (S (List.length lpre)) t /\ line_term s l q
    /\ t_rt (tget q s) = p /\ t_rt (tget t s) = r /\ t_parent (tget t s) = Some q
    /\ t_children (tget q s) = (before ++ t :: after)%list
    /\ (forall u, In u before -> u < t) /\ (forall u, In u after -> t < u)
    /\ (forall u k, from_line s k u -> k < S (List.length lpre) -> u < t).
Proof.
  intros g rows lpre p r x cells lpost s G M L N1 N2 N3. destruct (line_spec _ _ _ _ _ _ _ _ _ G M L) as (row & t & q & own & _ & R).
  pose proof (lr_look _ _ _ _ _ _ _ _ _ _ _ R) as Lk. cbv zeta in Lk. apply eqs_false in N1, N2, N3. rewrite N1, N2, N3 in Lk.
  destruct Lk as (l & A & B & C). destruct (lr_kid _ _ _ _ _ _ _ _ _ _ _ R) as (before & after & K1 & K2 & K3).
  exists l, t, q, before, after. split; [eapply last_uses; exact A|]. split; [apply R|]. split; [exact B|]. split; [exact C|].
  split; [apply R|]. split; [apply R|]. split; [exact K1|]. split; [exact K2|]. split; [exact K3|].
  intros u k Hu Hk. eapply (lr_later _ _ _ _ _ _ _ _ _ _ _ R); [|exact Hu|exact Hk].
  apply (lr_from _ _ _ _ _ _ _ _ _ _ _ R). left. reflexivity.
Qed.

Lemma c05_root : forall g rows lpre r x cells lpost s, proper g ->
  means rows (lpre ++ LTerm "root" r x cells :: lpost) -> loads g rows s ->
  exists t before after, line_term s (S (List.length lpre)) t /\ t_parent (tget t s) = Some (d_root (s_doc s))
    /\ t_children (tget (d_root (s_doc s)) s) = (before ++ t :: after)%list
    /\ (forall u, In u before -> u < t) /\ (forall u, In u after -> t < u).
Proof.
  intros g rows lpre r x cells lpost s G M L. destruct (line_spec _ _ _ _ _ _ _ _ _ G M L) as (row & t & q & own & _ & R).
  pose proof (lr_look _ _ _ _ _ _ _ _ _ _ _ R) as Lk. cbn in Lk. subst q.
  destruct (lr_kid _ _ _ _ _ _ _ _ _ _ _ R) as (before & after & K1 & K2 & K3).
  exists t, before, after. split; [apply R|]. split; [apply R|]. auto.
Qed.

(** ** C06 *)

Definition same_shape (s1 s2 : st) (t1 t2 : nat) : Prop :=
  t_rt (tget t1 s1) = t_rt (tget t2 s2) /\ t_pt (tget t1 s1) = t_pt (tget t2 s2) /\ t_val (tget t1 s1) = t_val (tget t2 s2).

Lemma c06 : forall g rows1 rows2 lpre p r x cells lpost1 lpost2 s1 s2, proper g ->
  means rows1 (lpre ++ LTerm current_parent r x cells :: lpost1) -> loads g rows1 s1 ->
  means rows2 (lpre ++ LTerm p r x cells :: lpost2) -> loads g rows2 s2 ->
  nth_error rows1 (List.length lpre) <> None ->
  option_map (@tl string) (nth_error rows1 (List.length lpre)) = option_map (@tl string) (nth_error rows2 (List.length lpre)) ->
  p = v_parent (view_after (cols_of g) lpre) -> p <> r ->
  exists t1 t2 q1 q2, line_term s1 (S (List.length lpre)) t1 /\ line_term s2 (S (List.length lpre)) t2
    /\ same_shape s1 s2 t1 t2 /\ t_parent (tget t1 s1) = Some q1 /\ t_parent (tget t2 s2) = Some q2
    /\ (p = "root" -> q1 = d_root (s_doc s1) /\ q2 = d_root (s_doc s2))
    /\ (p <> "root" -> exists l, most_recent p lpre l /\ line_term s1 l q1 /\ line_term s2 l q2)
    /\ (dget (dotted p r) installed_terms = None -> dget (dotted p r) (in_terms g) = None ->
        v_vname (view_after (cols_of g) lpre) <> "" ->
        t_valid (tget t1 s1) = t_valid (tget t2 s2) /\ t_cpt (tget t1 s1) = t_cpt (tget t2 s2) /\ t_tvn (tget t1 s1) = t_tvn (tget t2 s2)).
Proof.
  intros g rows1 rows2 lpre p r x cells lpost1 lpost2 s1 s2 G M1 L1 M2 L2 Nn Tl Ep Npr.
  assert (U : Forall usual lpre /\ r <> current_parent).
  { destruct M1 as [_ U]. apply Forall_app in U. destruct U as [U1 U2]. split; [exact U1|]. inversion U2 as [|? ? U3 _]; subst. apply U3. }
  destruct U as [U Nr].
  destruct (line_spec _ _ _ _ _ _ _ _ _ G M1 L1) as (row1 & t1 & q1 & own1 & E1 & R1).
  destruct (line_spec _ _ _ _ _ _ _ _ _ G M2 L2) as (row2 & t2 & q2 & own2 & E2 & R2).
  destruct (view_parent (cols_of g) lpre U) as [Np _]. rewrite <- Ep in Np.
  exists t1, t2, q1, q2. split; [apply R1|]. split; [apply R2|].
  assert (Np' := Np). apply eqs_false in Np'.
  assert (Ec : eqs current_parent current_parent = true) by (apply eqs_true; reflexivity).
  pose proof (lr_pt _ _ _ _ _ _ _ _ _ _ _ R1) as P1. pose proof (lr_pt _ _ _ _ _ _ _ _ _ _ _ R2) as P2. rewrite Ec, <- Ep in P1. rewrite Np' in P2.
  assert (Nth : nth 1 row1 "" = nth 1 row2 "").
  { rewrite E1, E2 in Tl. cbn [option_map] in Tl. injection Tl as Tl. destruct row1, row2; cbn [tl] in Tl; try reflexivity.
    - subst row2. reflexivity.
    - subst row1. reflexivity.
    - subst row2. reflexivity. }
  split.
  { split; [rewrite (lr_rt _ _ _ _ _ _ _ _ _ _ _ R1), (lr_rt _ _ _ _ _ _ _ _ _ _ _ R2); reflexivity|]. split; [congruence|].
    rewrite (lr_val _ _ _ _ _ _ _ _ _ _ _ R1), (lr_val _ _ _ _ _ _ _ _ _ _ _ R2), Nth. reflexivity. }
  split; [apply R1|]. split; [apply R2|].
  pose proof (lr_look _ _ _ _ _ _ _ _ _ _ _ R1) as K1. pose proof (lr_look _ _ _ _ _ _ _ _ _ _ _ R2) as K2.
  cbv zeta in K1, K2. rewrite Ec, <- Ep in K1. rewrite Np' in K2.
  replace (eqs current_parent r) with false in K1 by (symmetry; apply eqs_false; congruence). apply eqs_false in Npr. rewrite Npr in K2.
  split; [intros H; apply eqs_true in H; rewrite H in K1, K2; auto|]. split.
  { intros H. apply eqs_false in H. rewrite H in K1, K2. destruct K1 as (l1 & A1 & B1 & _). destruct K2 as (l2 & A2 & B2 & _).
    exists l1. rewrite A1 in A2. injection A2 as <-. split; [eapply last_uses; exact A1|]. auto. }
  intros D1 D2 Vn.
  destruct (lr_meta _ _ _ _ _ _ _ _ _ _ _ R1) as (A1 & A2 & A3); [congruence| |exact Vn|].
  { intros H. rewrite P1 in H. rewrite <- H. exact D2. }
  destruct (lr_meta _ _ _ _ _ _ _ _ _ _ _ R2) as (B1 & B2 & B3); [auto| |exact Vn|].
  { intros H. rewrite P2 in H. rewrite <- H. exact D2. }
  repeat split; congruence.
Qed.

(** ** C09 *)

Lemma c09 : forall g rows ls s, proper g -> means rows ls -> loads g rows s ->
  exists tops, (forall l k, In (l, k) tops <->
      exists pre x post, ls = (pre ++ x :: post)%list /\ l = S (List.length pre) /\ root_level (cols_of g) pre x /\ k = current_heading pre)
    /\ StronglySorted lt (map fst tops)
    /\ Forall2 (fun t x => line_term s (fst x) t) (d_terms (s_doc s)) tops
    /\ (forall k i, dget k (d_sections (s_doc s)) = Some i ->
         Forall2 (fun t x => line_term s (fst x) t) (t_terms (tget i s)) (filter (fun x => eqs (snd x) k) tops))
    /\ (forall l k, In (l, k) tops -> In k (dkeys (d_sections (s_doc s))))
    /\ (forall l t t', line_term s l t -> line_term s l t' -> t = t').
Proof.
  intros g rows ls s [GR ND] [Rd U] L.
  destruct (parse_rows_eff _ _ _ _ _ _ _ _ _ _ _ GR ND Rd U L) as (s1 & RE & F & V).
  exists (v_tops (view_after (cols_of g) ls)). split; [apply view_tops|]. split; [apply view_tops_sorted|].
  assert (T : forall i, tget i s = tget i s1) by (intros i; unfold tget; rewrite (fi_heap _ _ F); reflexivity).
  assert (Hl : hlen s = hlen s1) by (unfold hlen; rewrite (fi_heap _ _ F); reflexivity).
  assert (LT : forall l t, line_term s l t <-> line_term s1 l t) by (intros l t; unfold line_term; rewrite T, Hl; tauto).
  assert (F2 : forall a b, Forall2 (fun t (x : nat * string) => line_term s1 (fst x) t) a b -> Forall2 (fun t x => line_term s (fst x) t) a b).
  { intros a b H. induction H; constructor; auto. apply LT. assumption. }
  split; [apply F2; rewrite (fi_terms _ _ F); apply (vi_tops0 _ _ _ V)|]. split.
  { intros k i H. rewrite (fi_sections _ _ F) in H. rewrite T. apply F2. apply (vi_sterms0 _ _ _ _ _ V). exact H. }
  split.
  { intros l k H. rewrite (fi_sections _ _ F), (vi_keys _ _ _ V). apply (vi_topsec _ _ _ V (l, k)). exact H. }
  intros l t t' A B. apply (vi_uniq _ _ _ V l); apply new_line_term; apply LT; assumption.
Qed.

(** ** C10 *)

Lemma c10 : forall g rows ls s, proper g -> means rows ls -> loads g rows s ->
  dkeys (d_sections (s_doc s)) = firsts ("root" :: headings ls)
  /\ NoDup (dkeys (d_sections (s_doc s)))
  /\ (forall k i, dget k (d_sections (s_doc s)) = Some i -> exists n, t_val (tget i s) = VStr n /\ lower n = k)
  /\ (forall k k' i, dget k (d_sections (s_doc s)) = Some i -> dget k' (d_sections (s_doc s)) = Some i -> k = k')
  /\ (forall k i, k <> "root" -> dget k (d_sections (s_doc s)) = Some i ->
       exists pre n cells post, ls = (pre ++ LSection n cells :: post)%list /\ lower (strip n) = k /\ ~ In k (headings pre)
         /\ t_args (tget i s) = match cells with [] => map strip (cols_of g n) | _ => cells end).
Proof.
  intros g rows ls s [GR ND] [Rd U] L.
  destruct (parse_rows_eff _ _ _ _ _ _ _ _ _ _ _ GR ND Rd U L) as (s1 & RE & F & V).
  assert (T : forall i, tget i s = tget i s1) by (intros i; unfold tget; rewrite (fi_heap _ _ F); reflexivity).
  rewrite (fi_sections _ _ F), (vi_keys _ _ _ V). split; [apply view_secs|]. split; [apply (vi_nodup _ _ _ V)|]. split.
  { intros k i H. rewrite T. apply (pi_dname _ (vi_pinv _ _ _ V) _ _ H). }
  split; [intros k k' i; apply sec_key_inj; apply V|].
  intros k i Nk H. assert (I : In k (map fst (v_secs (view_after (cols_of g) ls)))).
  { unfold cols_of. rewrite <- (vi_keys _ _ _ V). destruct (in_dec string_dec k (dkeys (d_sections (s_doc s1)))) as [I|I]; [exact I|]. apply dget_none in I. congruence. }
  apply assoc_some_keys in I. destruct I as (c & A). destruct (view_first_cols _ _ _ _ Nk A) as (pre & n & cells & post & E1 & E2 & E3 & E4).
  exists pre, n, cells, post. split; [exact E1|]. split; [exact E2|]. split; [exact E3|]. rewrite T, (vi_cols _ _ _ V k i c Nk H A). exact E4.
Qed.

(** ** C14 *)

Definition heading_line (l : line) : Prop := match l with LSection _ _ | LHeader _ _ => True | _ => False end.

Lemma view_header : forall decl a n cols b, Forall (fun l => ~ heading_line l) b ->
  v_cols (view_after decl (a ++ LHeader n cols :: b)) = cols /\ v_vname (view_after decl (a ++ LHeader n cols :: b)) = lower n.
Proof.
  intros decl a n cols b. induction b as [|l b IH] using rev_ind; intros H.
  - rewrite view_snoc. split; reflexivity.
  - apply Forall_app in H. destruct H as [H1 H2]. rewrite app_comm_cons, app_assoc, view_snoc. specialize (IH H1).
    inversion H2 as [|? ? H3 _]; subst. destruct l as [|m cells|m cells|p r x cells]; cbn [next heading_line] in *; try tauto.
    destruct (eqs p current_parent); exact IH.
Qed.

Lemma c14 : forall g rows a n cols b p r x cells lpost s, proper g ->
  means rows (a ++ LHeader n cols :: b ++ LTerm p r x cells :: lpost) -> loads g rows s ->
  Forall (fun l => ~ heading_line l) b ->
  exists t own, line_term s (S (List.length (a ++ LHeader n cols :: b))) t
    /\ (forall u, from_line s (S (List.length (a ++ LHeader n cols :: b))) u <-> u = t \/ In u own)
    /\ map (fun u => (t_rt (tget u s), t_val (tget u s))) own = map (fun nc => (fst nc, VStr (snd nc))) (cells_from cols 0 cells)
    /\ ((p <> current_parent -> dget (dotted p r) installed_terms = None) -> dget (dotted "root" r) (in_terms g) = None -> n <> "" -> t_tvn (tget t s) = lower n).
Proof.
  intros g rows a n cols b p r x cells lpost s G M L H.
  assert (M' : means rows ((a ++ LHeader n cols :: b) ++ LTerm p r x cells :: lpost)) by (rewrite <- app_assoc; exact M).
  destruct (line_spec _ _ _ _ _ _ _ _ _ G M' L) as (row & t & q & own & _ & R).
  destruct (view_header (cols_of g) a n cols b H) as [V1 V2].
  exists t, own. split; [apply R|]. split; [apply R|]. split; [rewrite <- V1; apply R|].
  intros D1 D2 Nn. rewrite <- V2. apply (lr_meta _ _ _ _ _ _ _ _ _ _ _ R); auto.
  rewrite V2. destruct n; [congruence|discriminate].
Qed.

(** the Header itself is no term of the document *)
Lemma c14_no_term : forall g rows lpre n cols lpost s, proper g ->
  means rows (lpre ++ LHeader n cols :: lpost) -> loads g rows s ->
  forall u, from_line s (S (List.length lpre)) u ->
    ~ in_document s u /\ (forall i, i < hlen s -> ~ In u (t_terms (tget i s))).
Proof.
  intros g rows lpre n cols lpost s G M L u (Hu & Hc & Hr). pose proof (loads_linked _ _ _ _ G M L) as Lk. destruct G as [GR ND]. apply means_split in M.
  destruct M as (pre & row & post & -> & R1 & R2 & R3 & U). unfold loads, load_into in L.
  destruct (parse_at _ _ _ _ _ _ _ _ _ _ _ _ _ _ _ GR ND R1 R2 R3 U L) as (m & m' & s1 & RE0 & V & RE & P' & V' & RE2 & G & F & V1).
  pose proof (Forall2_len _ _ _ R1) as Len. pose proof (grow_finished _ _ _ G F) as G'. pose proof (vi_pinv _ _ _ V) as P.
  inversion R2 as [|? ?|NB CN|]; subst.
  assert (Par : t_parent (tget u s) = None).
  { destruct (Nat.lt_ge_cases u (hlen m)) as [L1|L1].
    { exfalso. assert (Hm : u < hlen m') by (pose proof (gw_len _ _ (row_eff_grow _ _ _ _ _ P RE)); lia).
      pose proof (gw_same _ _ (grow_trans _ _ _ (row_eff_grow _ _ _ _ _ P RE) G') _ L1) as SM.
      rewrite (sm_cls _ _ SM) in Hc. rewrite (sm_row _ _ SM) in Hr. pose proof (vi_lines _ _ _ V u _ (Nat.le_0_l _) L1 Hc Hr) as X. rewrite view_line in X. lia. }
    destruct (Nat.lt_ge_cases u (hlen m')) as [L2|L2].
    - rewrite (sm_parent _ _ (gw_same _ _ G' _ L2)). apply not_blank in NB. destruct RE as [H1 ->|H1 H2 H3 ->|c H1 H2 H3 H4 ->|p r c q s2 H1 H2 H3 H4 H5 H6 H7].
      + lia.
      + destruct (cell_names_fun _ _ _ _ _ CN H2) as [_ X]. discriminate X.
      + rewrite header_effect_len in L2. assert (u = hlen m) as -> by lia.
        rewrite header_effect_get by (try apply (pi_last _ P); lia). rewrite Nat.eqb_refl. reflexivity.
      + destruct (cell_names_fun _ _ _ _ _ CN H2) as [<- <-]. exfalso. apply H3; cbn; auto.
    - exfalso. pose proof (plain_from_finished _ _ _ _ (rows_eff_rows _ _ _ _ _ P' RE2) F u (conj L2 Hu) Hc) as (k & K1 & K2). rewrite Hr in K1. injection K1 as <-. lia. }
  split.
  - intros [D|(q & Hq & D)].
    + apply (lk_dt _ Lk) in D. tauto.
    + apply (lk_child _ Lk) in D; [|exact Hq]. destruct D. congruence.
  - intros i Hi D. apply (lk_tt _ Lk) in D; [|exact Hi]. tauto.
Qed.

(** ** C08 *)

Lemma c08 : forall g rows ls s, proper g -> means rows ls -> Forall (fun l => ~ own_parent l) ls -> loads g rows s ->
  (forall c, in_document s c ->
     exists q, q < c /\ c < hlen s /\ t_parent (tget c s) = Some q /\ count_occ Nat.eq_dec (t_children (tget q s)) c = 1
       /\ forall q', q' < hlen s -> In c (t_children (tget q' s)) -> q' = q)
  /\ (forall c, c < hlen s -> ancestor s (S c) c = None).
Proof.
  intros g rows ls s G M N L. pose proof (loads_forest _ _ _ _ G M N L) as F. split.
  - intros c D. apply forest_one_parent; assumption.
  - intros c H. apply forest_ancestors_end; assumption.
Qed.
