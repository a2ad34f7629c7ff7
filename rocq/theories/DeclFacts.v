(** * DeclFacts: what holds of all declarations a parse collects *)

From Verif Require Import ListFacts StrFacts DictFacts HeapFacts Parser RunFacts FrameFacts GrowFacts NameFacts SpecNames SpecInherit InheritFacts SpecDoc ParseFacts.

Lemma pres_lift_eq : forall R, preorder R -> forall {A B} (x : res A) (f : A -> MM B), (forall a, x = Ok a -> pres R (f a)) -> pres R (bind (lift x) f).
Proof.
  intros R PO A B x f H s s' r E. destruct x as [a|er]; [exact (H a eq_refl _ _ _ E)|]. injection E as <- _. apply PO.
Qed.

Lemma dget_map_vals : forall {A} (f : string * A -> string * A) (d : dict A) k, (forall kv, fst (f kv) = fst kv) ->
  dget k (map f d) = match dget k d with Some v => Some (snd (f (k, v))) | None => None end.
Proof.
  intros A f d k H. induction d as [|[k' v] d IH]; [reflexivity|]. cbn [map dget]. pose proof (H (k', v)) as E.
  destruct (f (k', v)) as [k2 v2] eqn:F. cbn [fst] in E. subst k2. eqs_cases k k'; [subst k'; rewrite F; reflexivity|exact IH].
Qed.

Section All.
  Variable Q : string -> tdecl -> Prop.
  Hypothesis Qnew : forall v k props, normalize_term v = Ok k -> Q k (mk_tdecl props []).
  Hypothesis Qinh : forall k0 td v k, Q k0 td -> normalize_term v = Ok k ->
    Q k (set_td_props (dset "term" v (dset "inheritsfrom" "" (td_props td))) td).
  Hypothesis Qval : forall k td n a b key x, Q k td -> dget "valuesetname" (td_props td) = Some n -> lower n = dotted a b ->
    Q k (set_td_values (dset key x (td_values td)) td).

  Definition all_decl (s : st) : Prop := forall k td, dget k (p_dterms (s_prs s)) = Some td -> Q k td.
  Definition keeps (s s' : st) : Prop := all_decl s -> all_decl s'.

  Lemma keeps_po : preorder keeps.
  Proof. split; unfold keeps; auto. Qed.
  Lemma keeps_pmod : forall f s, (forall p, p_dterms (f p) = p_dterms p) -> keeps s (pmod f s).
  Proof. intros f s H A k td E. cbn in E. rewrite H in E. apply (A _ _ E). Qed.
  Lemma keeps_new : forall s k td, Q k td -> keeps s (pmod (fun p => set_p_dterms (dset k td (p_dterms p)) p) s).
  Proof. intros s k td H A k' td' E. cbn in E. rewrite dget_dset in E. eqs_cases k' k; [subst k'; injection E as <-; exact H|apply (A _ _ E)]. Qed.

  Lemma keeps_section : forall x props, pres keeps (add_term_to_section x props).
  Proof.
    pose proof keeps_po as PO. intros. unfold add_term_to_section. apply pres_bind; [exact PO|apply pres_gets; exact PO|]. intros q. cbv zeta.
    repeat match goal with |- pres _ (match ?x with _ => _ end) => destruct x end; try (apply pres_raise; exact PO); try (apply pres_ret; exact PO).
    apply pres_modP. intros; apply keeps_pmod. reflexivity.
  Qed.

  Lemma keeps_inherit : forall f t_r ih_r sec n, pres keeps (inherit_loop f t_r ih_r sec n).
  Proof.
    pose proof keeps_po as PO. intros f. induction f as [|f IH]; intros; cbn [inherit_loop]; [apply pres_raise; exact PO|].
    intros s s' x H A. unfold getP, bind at 1, gets in H. cbv beta iota in H.
    destruct (dget sec (p_dsecs (s_prs s))) as [sd|]; [|injection H as <- _; exact A].
    destruct (nth_error _ n) as [nm|]; [|injection H as <- _; exact A].
    match type of H with (?m ;;; _) s = _ => set (body := m) in H; assert (K : forall sb y, body s = (sb, y) -> all_decl sb) end.
    { intros sb y Hb. unfold body in Hb. destruct (startswith _ _); [|injection Hb as <- _; exact A]. cbn [when] in Hb.
      destruct (split_term nm) as [[st_p st_r]|er]; [|injection Hb as <- _; exact A].
      unfold bind at 1, lift in Hb. cbv beta iota in Hb.
      destruct (dget (lower nm) (p_dterms (s_prs s))) as [td|] eqn:Ed; [|injection Hb as <- _; exact A].
      cbv zeta in Hb. destruct (normalize_term (dotted t_r st_r)) as [k|] eqn:En; [|injection Hb as <- _; exact A].
      unfold bind at 1 in Hb. cbv beta iota in Hb. unfold bind in Hb. rewrite modP_run in Hb.
      apply keeps_section in Hb. apply Hb. apply keeps_new; [|exact A]. eapply Qinh; [exact (A _ _ Ed)|exact En]. }
    unfold bind in H. destruct (body s) as [s1 [u|er]] eqn:Eb.
    - apply IH in H. apply H. eapply K. reflexivity.
    - injection H as <- _. eapply K. reflexivity.
  Qed.

  Lemma keeps_declare : forall t, pres keeps (manage_declare_terms t).
  Proof.
    pose proof keeps_po as PO. intros t. unfold manage_declare_terms.
    apply pres_bind; [exact PO|apply pres_gets; exact PO|]. intros r.
    apply pres_bind; [exact PO|apply pres_lift; exact PO|]. intros [|].
    { unfold add_declared_section. apply pres_bind; [exact PO|apply pres_gets; exact PO|]. intros r'.
      apply pres_bind; [exact PO|apply pres_lift; exact PO|]. intros n. apply pres_modP. intros; apply keeps_pmod. reflexivity. }
    apply pres_bind; [exact PO|apply pres_lift; exact PO|]. intros [|].
    { unfold add_declared_term. apply pres_bind; [exact PO|apply pres_gets; exact PO|]. intros r'.
      apply pres_bind; [exact PO|destruct (t_val r'); first [apply pres_ret; exact PO|apply pres_raise; exact PO]|]. intros v.
      apply pres_lift_eq; [exact PO|]. intros k En.
      apply pres_bind; [exact PO|apply pres_gets; exact PO|]. intros h.
      apply pres_bind; [exact PO|apply pres_lift; exact PO|]. intros ap.
      apply pres_bind; [exact PO|apply pres_lift; exact PO|]. intros np. cbv zeta.
      apply pres_bind; [exact PO|apply pres_modP; intros; apply keeps_new; eapply Qnew; exact En|]. intros _.
      apply pres_bind; [exact PO| |intros _].
      - destruct (dget _ _); [apply pres_when; [exact PO|apply keeps_section]|apply pres_ret; exact PO].
      - destruct (dget _ _) as [ih|]; [|apply pres_ret; exact PO]. destruct (nonempty ih); [|apply pres_ret; exact PO].
        destruct (dget _ _); [|apply pres_raise; exact PO].
        apply pres_bind; [exact PO|apply pres_lift; exact PO|]. intros [? ?].
        apply pres_bind; [exact PO|apply pres_lift; exact PO|]. intros [? ?].
        apply pres_bind; [exact PO|apply pres_gets; exact PO|]. intros f. apply keeps_inherit. }
    apply pres_bind; [exact PO|apply pres_lift; exact PO|]. intros [|]; [|apply pres_ret; exact PO].
    unfold add_value_set_value. apply pres_bind; [exact PO|apply pres_gets; exact PO|]. intros r'.
    apply pres_bind; [exact PO|apply pres_gets; exact PO|]. intros h.
    destruct (t_parent r') as [q|]; [|intros s s' x H; injection H as <- _; intros A; exact A].
    match goal with |- pres _ (bind (ret ?v) ?f) => change (pres keeps (f v)) end. cbv beta.
    apply pres_bind; [exact PO|apply pres_lift; exact PO|]. intros ap. cbv zeta. apply pres_modP. intros s A k td E. cbn in E.
    rewrite dget_map_vals in E.
    2:{ clear E. intros [k' td']. cbn [fst snd]. destruct (dget "valuesetname" (td_props td')); [|reflexivity].
        match goal with |- context [if ?b then _ else _] => destruct b end; reflexivity. }
    destruct (dget k (p_dterms (s_prs s))) as [td0|] eqn:Ed; [|discriminate E]. injection E as <-. cbn [fst snd]. apply A in Ed.
    destruct (dget "valuesetname" (td_props td0)) as [n|] eqn:Ev; [|exact Ed].
    destruct (eqs _ (lower n)) eqn:En; cbn [andb]; [|exact Ed]. destruct (negb _); [|exact Ed]. cbn [snd].
    apply eqs_true in En. unfold join_lc in En. eapply Qval; [exact Ed|exact Ev|symmetry; exact En].
  Qed.

  Lemma keeps_generate : forall e load n src ft, pres keeps (generate_terms e load n src ft).
  Proof.
    intros. apply w_generate; try exact keeps_po; try exact keeps_declare; try (intros; intros A; exact A).
    intros f s H. apply keeps_pmod. intros p. apply H.
  Qed.
End All.

(** ** Declarations are kept under full names *)
Definition full_name (k : string) (td : tdecl) : Prop := exists p r, cell_names k p r /\ k = (p ++ "." ++ r)%string.

Lemma normal_full : forall v k, normalize_term v = Ok k -> exists p r, cell_names k p r /\ k = (p ++ "." ++ r)%string.
Proof.
  intros v k H. unfold normalize_term in H. destruct (split_term_lower v) as [[p r]|] eqn:E; [|discriminate H]. injection H as <-.
  apply split_term_lower_spec in E. exists p, r. split; [apply (cell_names_dotted _ _ _ E)|reflexivity].
Qed.

Lemma full_generate : forall e load n src ft s s' r, full_keys s -> generate_terms e load n src ft s = (s', r) -> full_keys s'.
Proof.
  intros e load n src ft s s' r F H. apply (keeps_generate full_name) in H; [exact (H F)|..].
  - intros v k props E. exact (normal_full _ _ E).
  - intros k0 td v k _ E. exact (normal_full _ _ E).
  - intros k td m a b key x E _ _. exact E.
Qed.

Lemma full_installed : forall k td, dget k installed_terms = Some td -> exists p r, cell_names k p r /\ k = (p ++ "." ++ r)%string.
Proof.
  intros k td E. unfold installed_terms in E. cbn [dget] in E.
  repeat match type of E with context [if eqs k ?x then _ else _] =>
    let B := fresh in destruct (eqs k x) eqn:B; [apply eqs_true in B; subst k; apply (normal_full x); vm_compute; reflexivity|] end.
  discriminate E.
Qed.
Lemma full_started : forall s, full_keys (started s).
Proof. intros s k td E. exact (full_installed _ _ E). Qed.

(** ** Values of value sets *)

(** no value is recorded for a value set whose name has no dot *)
Definition no_values (k : string) (td : tdecl) : Prop :=
  forall n, dget "valuesetname" (td_props td) = Some n -> dot_free n -> td_values td = [].

Lemma dotted_dots : forall a b n, lower n = dotted a b -> ~ dot_free n.
Proof.
  intros a b n E D. apply dot_free_lower in D. rewrite E in D. unfold dotted in D. apply dot_free_app in D. destruct D as [_ D].
  apply dot_free_iff in D. discriminate D.
Qed.

Lemma no_values_generate : forall e load n src ft s s' r, all_decl no_values s -> generate_terms e load n src ft s = (s', r) -> all_decl no_values s'.
Proof.
  intros e load n src ft s s' r F H. apply (keeps_generate no_values) in H; [exact (H F)|..].
  - intros v k props _ m _ _. reflexivity.
  - intros k0 td v k Hq _ m Em D. cbn [td_props set_td_props td_values] in *. rewrite !dget_dset_other in Em by discriminate. exact (Hq m Em D).
  - intros k td m a b key x Hq Em El m' Em' D. cbn [td_props set_td_values] in Em'. assert (m' = m) by congruence. subst m'.
    exfalso. exact (dotted_dots _ _ _ El D).
Qed.
Lemma no_values_started : forall s, all_decl no_values (started s).
Proof.
  intros s k td E n En. cbn [started s_prs set_s_prs fresh_parser p_dterms] in E. unfold installed_terms in E. cbn [dget] in E.
  repeat match type of E with context [if eqs k ?x then _ else _] => destruct (eqs k x); [injection E as <-; discriminate En|] end.
  discriminate E.
Qed.

Lemma no_values_load : forall e n src s s' r, load_source e n src s = (s', r) -> all_decl no_values s'.
Proof.
  intros e n src s s' r H. unfold load_source in H. unfold bind at 1 in H. change (start_parser s) with (started s, Ok tt) in H. cbv beta iota in H.
  pose proof (no_values_started s) as A. set (s1 := started s) in *. clearbody s1. revert A.
  match goal with |- all_decl ?Q _ -> _ => change (keeps Q s1 s') end. revert H. generalize r. revert s1 s'. clear r.
  match goal with |- forall s1 s' r, ?m s1 = (s', r) -> _ => change (pres (keeps no_values) m) end.
  pose proof (keeps_po no_values) as PO.
  apply pres_bind; [exact PO|apply pres_gets; exact PO|]. intros d.
  apply pres_bind; [exact PO|apply w_load1; try exact PO; try (intros; intros A; exact A); intros f s1 Hf; apply keeps_pmod; intros p; apply Hf|]. intros _.
  apply pres_bind; [exact PO|intros s1 s2 r H A; eapply no_values_generate; eassumption|]. intros _.
  unfold finish_load. apply pres_bind; [exact PO|apply pres_gets; exact PO|]. intros p.
  apply pres_bind; [exact PO|apply pres_modD; intros; intros A; exact A|]. intros _.
  apply pres_bind; [exact PO|apply pres_gets; exact PO|]. intros sup.
  apply pres_bind; [exact PO|apply pres_modD; intros; intros A; exact A|]. intros _. apply pres_modD; intros; intros A; exact A.
Qed.

Lemma never_values : forall e n src s s' r k td name, load_source e n src s = (s', r) ->
  dget k (p_dterms (s_prs s')) = Some td -> dget "valuesetname" (td_props td) = Some name -> dot_free name -> td_values td = [].
Proof. intros e n src s s' r k td name H E En D. exact (no_values_load _ _ _ _ _ _ H _ _ E _ En D). Qed.

(** what recording a value does *)
Lemma record_value : forall t p s s' ap, add_value_set_value t s = (s', Ok tt) -> t_parent (tget t s) = Some p ->
  arg_props (s_heap s) (tget t s) = Ok ap ->
  let shown := match dget "displayvalue" ap with Some v => v | None => VNone end in
  s_heap s' = s_heap s /\ s_doc s' = s_doc s /\
  forall k, dget k (p_dterms (s_prs s')) = match dget k (p_dterms (s_prs s)) with
    | None => None
    | Some td => match dget "valuesetname" (td_props td) with
        | Some n => if eqs (lower n) (join_lc (tget p s)) && negb (dmem (str_val (t_val (tget t s))) (td_values td))
                    then Some (set_td_values (dset (str_val (t_val (tget t s))) shown (td_values td)) td) else Some td
        | None => Some td
        end
    end.
Proof.
  intros t p s s' ap H Hp Ea shown. unfold add_value_set_value in H. rg H. rewrite Hp in H. rg H. rg H. rewrite Ea in H. rg H. cbv zeta in H.
  rewrite modP_run in H. injection H as <-. split; [reflexivity|]. split; [reflexivity|]. intros k.
  cbn [s_prs pmod set_s_prs p_dterms set_p_dterms]. rewrite dget_map_vals.
  2:{ intros [k' td']. cbn [fst snd]. destruct (dget "valuesetname" (td_props td')); [|reflexivity].
      match goal with |- context [if ?b then _ else _] => destruct b end; reflexivity. }
  destruct (dget k (p_dterms (s_prs s))) as [td|]; [|reflexivity]. cbn [fst snd]. destruct (dget "valuesetname" (td_props td)) as [n|]; [|reflexivity].
  rewrite (eqs_sym (lower n)). fold (tget p s). match goal with |- context [if ?b then (k, _) else _] => destruct b end; reflexivity.
Qed.
