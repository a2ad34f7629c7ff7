(** * GenFacts: the name of a document (C41, C44) and writing it (C40) *)

From Verif Require Import ListFacts StrFacts HeapFacts SpecNames NameFacts ConstructFacts SpecText TextFacts SlugFacts RunFacts EmitFacts RowFacts TotalFacts FrameFacts SpecInv InvFacts ChildFacts ListOps SpecFind SpecEdit OpFacts SecFacts FindFacts AddFacts EditFacts StepFacts DocProps SpecMaint Maint MaintFacts MFrame VersionFacts.

Ltac used := cbn; tauto.
Ltac rootpat n := patq "Root" n.
Lemma tidy_root : forall b, dot_free b -> tidy b -> tidy_pattern ("Root." ++ b).
Proof.
  intros b D T. change ("Root." ++ b)%string with ("Root" ++ "." ++ b)%string. apply (tidy_qualified _ "Root" b eq_refl); [apply dot_free_iff; reflexivity|exact D|discriminate|apply tidy_iff; split; reflexivity|exact T].
Qed.
Ltac root_item b := first [ used | apply (tidy_root b); [apply dot_free_iff; reflexivity|apply tidy_iff; split; reflexivity] | eapply top_of; vm_compute; reflexivity | apply dot_free_iff; reflexivity | discriminate ].

Section WithQuirks.
Context {QK : Quirks}.

(** ** The text of a name *)

Lemma replace_undash : forall x, replace "-" "_" x = undash x.
Proof.
  unfold replace. induction x as [|c x IH]; [reflexivity|].
  assert (S : startswith "-" (String c x) = Ascii.eqb c "-") by (unfold startswith; rewrite andb_true_r; apply Ascii.eqb_sym).
  change (replace_aux "-" "_" 0 (String c x)) with (if startswith "-" (String c x) then ("_" ++ replace_aux "-" "_" 0 x)%string else String c (replace_aux "-" "_" 0 x)).
  rewrite S, IH. change (undash (String c x)) with (String (if Ascii.eqb c "-" then "_" else c)%char (undash x)). destruct (Ascii.eqb c "-"); reflexivity.
Qed.
Lemma blank_val_iff : forall e, truthy e && nonblank (str_val e) = false <-> blank_val e.
Proof.
  intros e. unfold blank_val. rewrite andb_false_iff. split; (intros [H|H]; [left; exact H|right]).
  - destruct (nonblank (str_val e)) eqn:E; [discriminate|]. apply white_iff. destruct (nonblank_true (str_val e)) as [_ X]. unfold nonblank in E. apply negb_false_iff, eqs_true in E. apply strip_nil_blank. exact E.
  - apply white_iff in H. destruct (nonblank (str_val e)) eqn:E; [|reflexivity]. apply nonblank_true in E. contradiction.
Qed.
Lemma name_parts_run : forall l, name_parts l (concat (map name_part l)).
Proof.
  induction l as [|e l IH]; [constructor|]. cbn [map concat]. unfold name_part at 1. destruct (truthy e && nonblank (str_val e)) eqn:E.
  - cbn. rewrite replace_undash. apply np_take; [|exact IH]. intros B. apply blank_val_iff in B. congruence.
  - apply np_skip; [|exact IH]. apply blank_val_iff. exact E.
Qed.
Lemma name_parts_unique : forall l m m', name_parts l m -> name_parts l m' -> m = m'.
Proof. intros l m m' H. revert m'. induction H as [|e l m B H IH|e l m B H IH]; intros m' H'; inversion H'; subst; try contradiction; auto. f_equal. auto. Qed.

(** a slug without white space has no dash *)
Lemma undash_chars : forall x c, In c (list_ascii_of_string (undash x)) -> c <> "-"%char /\ (In c (list_ascii_of_string x) \/ c = "_"%char).
Proof.
  induction x as [|d x IH]; intros c H; cbn in H; [destruct H|]. destruct H as [H|H]; [|apply IH in H; cbn; intuition].
  destruct (Ascii.eqb_spec d "-") as [->|N]; subst c; [split; [discriminate|right; reflexivity]|]. split; [exact N|left; left; reflexivity].
Qed.
Definition plain_char (c : ascii) : bool := negb (isspace c) && negb (existsb (Nat.eqb (nat_of_ascii c)) [160; 168; 175; 180; 184]) && negb (Ascii.eqb c "-").
Lemma fold_undashed : forall c d, plain_char c = true -> In d (list_ascii_of_string (lower (ascii_fold c))) -> slug_dash d = false.
Proof.
  intros c d H I.
  assert (X : negb (plain_char c) || forallb (fun d => negb (slug_dash d)) (list_ascii_of_string (lower (ascii_fold c))) = true).
  { apply (all256_spec (fun c => negb (plain_char c) || forallb (fun d => negb (slug_dash d)) (list_ascii_of_string (lower (ascii_fold c))))). vm_compute. reflexivity. }
  rewrite H in X. cbn in X. rewrite forallb_forall in X. specialize (X d I). apply negb_true_iff in X. exact X.
Qed.
Lemma fold_all_undashed : forall x d, (forall c, In c (list_ascii_of_string x) -> plain_char c = true) -> In d (list_ascii_of_string (lower (fold_ascii x))) -> slug_dash d = false.
Proof.
  induction x as [|c x IH]; intros d H I; [destruct I|]. cbn [fold_ascii] in I. rewrite lower_app, chars_app in I. apply in_app_or in I. destruct I as [I|I].
  - eapply fold_undashed; [|exact I]. apply H. left. reflexivity.
  - apply IH; [|exact I]. intros e E. apply H. right. exact E.
Qed.
Lemma squeeze_undashed : forall x p, (forall d, In d (list_ascii_of_string x) -> slug_dash d = false) -> squeeze p x = x.
Proof. induction x as [|c x IH]; intros p H; [reflexivity|]. cbn. rewrite (H c (or_introl eq_refl)). rewrite IH; [reflexivity|]. intros d D. apply H. right. exact D. Qed.
Lemma slug_undashed : forall x, unspaced x -> has_char "-" (slugify (undash x)) = false.
Proof.
  intros x U. unfold slugify. set (y := filter_str _ _).
  assert (Y : forall d, In d (list_ascii_of_string y) -> slug_dash d = false).
  { intros d D. unfold y in D. apply filter_chars in D. destruct D as [D _]. rewrite <- strip_lower in D. apply strip_chars in D. eapply fold_all_undashed; [|exact D]. intros c C. apply undash_chars in C. destruct C as [ND [C| ->]]; [|reflexivity].
    destruct (U c C) as [S A]. unfold plain_char. rewrite S. cbn [negb andb]. apply andb_true_iff. split.
    - apply negb_true_iff. destruct (existsb _ _) eqn:E; [|reflexivity]. apply existsb_exists in E. destruct E as (n & N & E). apply Nat.eqb_eq in E. subst n. contradiction.
    - apply negb_true_iff. apply Ascii.eqb_neq. exact ND. }
  rewrite squeeze_undashed by exact Y. destruct (has_char "-" y) eqn:E; [|reflexivity]. exfalso.
  assert (I : In "-"%char (list_ascii_of_string y)). { clear Y. revert E. generalize y. generalize "-"%char. clear. intros d. induction y as [|c y IH]; intros E; [discriminate E|]. cbn in E |- *. destruct (Ascii.eqb_spec d c) as [<-|]; [left; reflexivity|right; apply IH; exact E]. }
  specialize (Y _ I). discriminate Y.
Qed.
Lemma c44_split : forall l m, name_parts l m -> m <> [] -> (forall e, In e l -> ~ blank_val e -> unspaced (str_val e)) -> split_on "-" (join "-" m) = m.
Proof.
  intros l m H NE U. apply split_join; [exact NE|]. induction H as [|e l m B H IH|e l m B H IH]; intros x X; [destruct X| |].
  - apply IH; try assumption. intros e' I. apply U. right. exact I.
  - destruct X as [<-|X]; [apply slug_undashed; apply U; [left; reflexivity|exact B]|]. destruct m as [|y m]; [destruct X|]. apply IH; [discriminate| |exact X]. intros e' I. apply U. right. exact I.
Qed.

(** ** Versions that are up to date *)

Lemma used_version : In "Root.Version" used_names. Proof. cbn. tauto. Qed.
Lemma ordinary_version : forall s v, ordinary s -> version_term s v -> is_version s v /\ In v (listed s).
Proof.
  intros s v O F. destruct (version_is s v (or_order s O) (or_derived s O _ used_version) F) as (P & I & R). split; [|exact I]. split; [exact P|]. split; [apply (or_doc s O v F)|exact R].
Qed.
Lemma settled_run : forall s w, ordinary s -> settled s w -> update_version s = (s, Ok w).
Proof.
  intros s w O S. destruct (or_root s O) as (r & H). destruct S as [N|v V NP|v a b c d V A B C D NA NB NC T].
  - apply (update_none s r (or_order s O) H N).
  - apply (c42_plain s r v (or_order s O) H (or_derived s O _ used_version) V (or_doc s O v V) NP).
  - destruct (ordinary_version s v O V) as (IV & _). rewrite (update_done s r v a b c d (or_order s O) H V IV A B C NA NB NC D). f_equal. rewrite <- T. apply hmod_set_same.
Qed.

Lemma version_cases : forall s, ordinary s -> no_version s \/ exists v, version_term s v.
Proof.
  intros s O. destruct (find_ok s "Root.Version" (SOne "Root") (or_order s O) ver_tidy (or_derived s O _ used_version)) as (l & L). pose proof (find_first_spec _ _ _ _ _ L) as F. destruct l as [|v l]; [left; exact F|right; exists v; exact F].
Qed.
Lemma parts_cases : forall s v, (exists x, part_of s v x) \/ forall n, In n parts -> no_child s v n.
Proof.
  intros s v. destruct (first_or_none s v "Major") as [(a & A)|A]; [left; exists a, "Major"; split; [exact in_major|exact A]|]. destruct (first_or_none s v "Minor") as [(b & B)|B]; [left; exists b, "Minor"; split; [exact in_minor|exact B]|].
  destruct (first_or_none s v "Patch") as [(c & C)|C]; [left; exists c, "Patch"; split; [exact in_patch|exact C]|]. right. intros n I. cbn in I. destruct I as [<-|[<-|[<-|[]]]]; assumption.
Qed.
Lemma part_not_listed : forall s v n x, in_order s -> is_plain s v -> first_child s v n x -> ~ In x (listed s).
Proof.
  intros s v n x O P (a & b & E & _) I. destruct (ok_child s (io_ok s O) v x) as (_ & _ & PA); [rewrite E; apply in_elt|]. pose proof (ok_top s (io_ok s O) x I) as T. rewrite PA in T. destruct P, T. congruence.
Qed.

Lemma ordinary_same : forall s s', ordinary s -> in_order s' -> s_doc s' = s_doc s -> s_reg s' = s_reg s -> (forall v, version_term s' v -> version_term s v /\ t_doc (tget v s') = t_doc (tget v s)) -> ordinary s'.
Proof.
  intros s s' [O R D I N P T] O' E G V. constructor; [exact O'|unfold secs in *; rewrite E; exact R| | | | |].
  - intros item X. unfold underived. rewrite E. apply D. exact X.
  - unfold doc_term_class in *. rewrite E, G. exact I.
  - unfold doc_term_class in *. rewrite E, G. exact N.
  - intros n X. specialize (P n X). unfold doc_term_class in *. rewrite E, G. exact P.
  - intros v X. destruct (V v X) as (Y & ->). apply T. exact Y.
Qed.

Record settling (s s1 : st) (w : val) : Prop := {
  sl_run : update_version s = (s1, Ok w);
  sl_settled : settled s1 w;
  sl_ordinary : ordinary s1;
  sl_tops : same_tops s s1;
  sl_doc : s_doc s1 = s_doc s;
  sl_len : hlen s <= hlen s1;
  sl_keep : forall x, In x (listed s) -> ~ version_term s x -> tget x s1 = tget x s
}.
Lemma same_tops_refl : forall s, same_tops s s.
Proof. intros s. constructor; auto. Qed.
Lemma settling_refl : forall s w, ordinary s -> settled s w -> settling s s w.
Proof. intros s w O S. constructor; [apply settled_run; assumption|exact S|exact O|apply same_tops_refl|reflexivity|lia|reflexivity]. Qed.
Lemma update_settles : forall s, ordinary s -> exists s1 w, settling s s1 w.
Proof.
  intros s O. destruct (or_root s O) as (r & H). pose proof (or_order s O) as OO. pose proof (or_derived s O _ used_version) as UD. destruct (version_cases s O) as [N|(v & V)].
  - exists s, VNone. apply settling_refl; [exact O|]. apply settled_none. exact N.
  - destruct (parts_cases s v) as [EX|NP].
    + destruct (c42 s r v OO H UD V (or_doc s O v V) (or_parts s O) EX) as (s' & a & b & c & d & RUN & O' & V' & A & B & C & D & T & OLD & NEW & _ & _ & DOC & REG & KEEP & FIELDS & _).
      destruct (ordinary_version s v O V) as ((Pv & _) & Lv).
      assert (LE : hlen s <= hlen s'). { destruct (Nat.le_gt_cases (hlen s) (hlen s')) as [L|L]; [exact L|]. exfalso. assert (X : v < hlen s') by (destruct A as (p & q & E & _); destruct (ok_child s' (io_ok s' O') v a) as (X & Y & _); [rewrite E; apply in_elt|]; destruct Y; lia).
        pose proof (FIELDS (hlen s') L) as (F1 & F2 & F3 & F4 & F5). destruct (is_section_cls (t_cls (tget (hlen s') s))) eqn:CL.
        - rewrite tget_out in F1 by lia. rewrite <- F1 in CL. discriminate CL.
        - destruct (ok_plain s (io_ok s OO) (hlen s') (conj L CL)) as (j & SE & _). rewrite tget_out in F4 by lia. rewrite SE in F4. discriminate F4. }
      assert (NVN : forall n x, In n parts -> first_child s' v n x -> t_val (tget x s') <> VNone).
      { intros n x I F. destruct (first_or_none s v n) as [(y & Y)|Y]; [destruct (OLD n y I Y) as (F' & E); rewrite (first_unique s' v n x y F F'), E; apply filled_some|destruct (NEW n x I Y F) as (_ & ->); discriminate]. }
      assert (TOPS : same_tops s s').
      { constructor; [unfold listed; rewrite DOC; reflexivity|unfold secs; rewrite DOC; reflexivity|rewrite DOC; reflexivity| |].
        - intros t I. destruct (ok_listed s (io_ok s OO) t I) as ((L & _) & _). destruct (FIELDS t L) as (_ & X1 & X2 & X3 & _). auto.
        - intros j (L & CL). rewrite KEEP; [reflexivity|exact L|intros ->; destruct Pv; congruence|]. intros (n & _ & (p & q & E & _)). destruct (ok_child s (io_ok s OO) v j) as (_ & (_ & X) & _); [rewrite E; apply in_elt|congruence]. }
      exists s', (VStr (version_text s' a b c d)). constructor; [exact RUN| | |exact TOPS|exact DOC|exact LE|].
      * apply (settled_parts s' v a b c d V' A B C D); [exact (NVN _ _ in_major A)|exact (NVN _ _ in_minor B)|exact (NVN _ _ in_patch C)|exact T].
      * eapply ordinary_same; [exact O|exact O'|exact DOC|exact REG|]. intros x X. unfold version_term in X. rewrite (st_find s s' _ _ TOPS (io_ok s OO) ver_top ver_tidy UD) in X. split; [exact X|].
        assert (x = v) by (unfold version_term in V; congruence). subst x. apply (FIELDS v (proj1 Pv)).
      * intros x I NV. apply KEEP; [apply (ok_listed s (io_ok s OO) x I)|intros ->; contradiction|]. intros (n & _ & F). exact (part_not_listed s v n x OO Pv F I).
    + exists s, (t_val (tget v s)). apply settling_refl; [exact O|]. apply settled_plain; assumption.
Qed.

(** setting the value of another term of the list *)
Lemma set_ordinary : forall s x u, ordinary s -> is_plain s x -> ordinary (hmod x (set_t_val u) s).
Proof.
  intros s x u O P. eapply ordinary_same; [exact O|apply set_val_order; [apply (or_order s O)|exact P]|apply doc_hmod|reflexivity|]. intros v V. pose proof (revalued_set s x u (proj2 P)) as R.
  split; [unfold version_term in *; rewrite (rv_find_first s _ R (or_order s O)) in V; exact V|]. apply (rv_field s _ R t_doc v). reflexivity.
Qed.
Lemma set_settled : forall s x u w, ordinary s -> In x (listed s) -> ~ version_term s x -> settled s w -> settled (hmod x (set_t_val u) s) w.
Proof.
  intros s x u w O I NV S. pose proof (or_order s O) as OO. destruct (ok_listed s (io_ok s OO) x I) as (P & _). pose proof (revalued_set s x u (proj2 P)) as R. set (s' := hmod x (set_t_val u) s) in *.
  assert (VT : forall v, version_term s v -> version_term s' v) by (intros v V; unfold version_term; rewrite (rv_find_first s s' R OO); exact V).
  assert (G : forall y, y <> x -> tget y s' = tget y s) by (intros y N; unfold s'; rewrite tget_hmod_any; apply Nat.eqb_neq in N; rewrite N; reflexivity).
  destruct S as [N|v V NP|v a b c d V A B C D NA NB NC T].
  - apply settled_none. unfold no_version. rewrite (rv_find_first s s' R OO). exact N.
  - rewrite <- (G v) by (intros ->; contradiction). apply settled_plain; [apply VT; exact V|]. intros n X. apply no_set. apply NP. exact X.
  - destruct (ordinary_version s v O V) as ((Pv & _) & _).
    assert (GC : forall n y, first_child s v n y -> tget y s' = tget y s) by (intros n y Y; apply G; intros ->; exact (part_not_listed s v n x OO Pv Y I)).
    assert (E : version_text s a b c d = version_text s' a b c d). { unfold version_text. rewrite (GC _ _ A), (GC _ _ B), (GC _ _ C). destruct d as [d|]; [rewrite (GC _ _ D)|]; reflexivity. }
    rewrite E. apply (settled_parts s' v a b c d); [apply VT; exact V|apply first_set; exact A|apply first_set; exact B|apply first_set; exact C|destruct d; [apply first_set|apply no_set]; exact D| | | |].
    + rewrite (GC _ _ A). exact NA.
    + rewrite (GC _ _ B). exact NB.
    + rewrite (GC _ _ C). exact NC.
    + rewrite (G v) by (intros ->; contradiction). rewrite T, E. reflexivity.
Qed.

(** ** Values by name *)

Lemma value_run : forall s item sa, ordinary s -> In item used_names -> tidy_pattern item -> exists v, doc_find_first_value s item VFalse sa = Ok v /\ value_at s item sa v.
Proof.
  intros s item sa O I T. destruct (find_ok s item sa (or_order s O) T (or_derived s O item I)) as (l & L). pose proof (find_first_spec _ _ _ _ _ L) as F. unfold doc_find_first_value, value_at. rewrite F. cbn [rbind].
  destruct l as [|i l]; cbn [hd_error]; eexists; (split; [reflexivity|]); [right; split; reflexivity|left; exists i; split; reflexivity].
Qed.
Lemma value_unique : forall s item sa v v', value_at s item sa v -> value_at s item sa v' -> v = v'.
Proof. intros s item sa v v' [(i & F & ->)|(F & ->)] [(j & G & ->)|(G & ->)]; rewrite F in G; congruence. Qed.
Lemma value_first : forall s item sa v, value_at s item sa v -> doc_find_first_value s item VFalse sa = Ok v.
Proof. intros s item sa v [(i & F & ->)|(F & ->)]; unfold doc_find_first_value; rewrite F; reflexivity. Qed.

(** the names of the root section used for the name, in the order of the code *)
Lemma find_run : forall {A B} (f : st -> res A) (k : A -> MM B) s a, f s = Ok a -> bind (reads f) k s = k a s.
Proof. intros A B f k s a E. unfold bind, reads. rewrite E. reflexivity. Qed.

Definition name_tail (m : modver) (l : list val) : MM string :=
  sem <- has_semver ;;
  let key := if sem then "Version.Patch" else "Version" in
  r <- root_section ;;
  mv <- reads (fun s => section_get_value s r key) ;;
  mv' <- lift (new_mv mv m) ;;
  version <- (match mv' with
              | VNone => ret VNone
              | _ =>
                  r <- root_section ;;
                  o <- reads (fun s => section_get_term s r key VFalse) ;;
                  (match o with
                   | Some i => modT i (set_t_val mv')
                   | None => raise EAttr
                   end) ;;;
                  update_version
              end) ;;
  ret (join "-" (concat (map name_part (l ++ [version])))).

Lemma name_values_some : forall s, ordinary s -> exists l, name_values s l.
Proof.
  intros s O.
  destruct (value_run s "Root.Origin" (SOne "Root") O ltac:(used) ltac:(rootpat "Origin")) as (a & _ & A). destruct (value_run s "Root.Dataset" (SOne "Root") O ltac:(used) ltac:(rootpat "Dataset")) as (b & _ & B).
  destruct (value_run s "Root.Time" (SOne "Root") O ltac:(used) ltac:(rootpat "Time")) as (c & _ & C). destruct (value_run s "Root.Space" (SOne "Root") O ltac:(used) ltac:(rootpat "Space")) as (d & _ & D).
  destruct (value_run s "Root.Grain" (SOne "Root") O ltac:(used) ltac:(rootpat "Grain")) as (e & _ & E). destruct (value_run s "Root.Variant" (SOne "Root") O ltac:(used) ltac:(rootpat "Variant")) as (f & _ & F).
  exists [a; b; c; d; e; f]. constructor; assumption.
Qed.
Lemma generate_run : forall s m l s1 w, name_values s l -> update_version s = (s1, Ok w) -> generate_identity_name m s = name_tail m l s1.
Proof.
  intros s m l s1 w H U. destruct H as [a b c d e f A B C D E F]. unfold generate_identity_name. cbv zeta.
  rewrite (find_run _ _ s _ (value_first _ _ _ _ B)). cbv beta. rewrite (find_run _ _ s _ (value_first _ _ _ _ A)). cbv beta. rewrite (find_run _ _ s _ (value_first _ _ _ _ C)). cbv beta.
  rewrite (find_run _ _ s _ (value_first _ _ _ _ D)). cbv beta. rewrite (find_run _ _ s _ (value_first _ _ _ _ E)). cbv beta. rewrite (find_run _ _ s _ (value_first _ _ _ _ F)). cbv beta.
  unfold bind at 1. rewrite U. reflexivity.
Qed.

(** has_semver *)
Lemma semver_none : forall s, ordinary s -> no_version s -> has_semver s = (s, Ok false).
Proof. intros s O N. destruct (or_root s O) as (r & H). unfold has_semver. rewrite (bind_run _ _ _ _ _ (version_run s r None (io_ok s (or_order s O)) H N)). reflexivity. Qed.
Lemma semver_parts : forall s v a b c, ordinary s -> version_term s v -> part_is s v "Major" a -> part_is s v "Minor" b -> part_is s v "Patch" c ->
  has_semver s = (s, Ok (match a, b, c with None, None, None => false | _, _, _ => true end)).
Proof.
  intros s v a b c O V A B C. destruct (or_root s O) as (r & H). destruct (ordinary_version s v O V) as (IV & _). unfold has_semver. rewrite (bind_run _ _ _ _ _ (version_run s r (Some v) (io_ok s (or_order s O)) H V)). cbv beta iota.
  rewrite (bind_run _ _ _ _ _ (part_run s v "Major" a IV (dotless_part _ in_major) A)). cbv beta.
  rewrite (bind_run _ _ _ _ _ (part_run s v "Minor" b IV (dotless_part _ in_minor) B)). cbv beta.
  rewrite (bind_run _ _ _ _ _ (part_run s v "Patch" c IV (dotless_part _ in_patch) C)). reflexivity.
Qed.
Lemma semver_plain : forall s v, ordinary s -> version_term s v -> (forall n, In n parts -> no_child s v n) -> has_semver s = (s, Ok false).
Proof. intros s v O V NP. rewrite (semver_parts s v None None None O V); [reflexivity|apply NP; exact in_major|apply NP; exact in_minor|apply NP; exact in_patch]. Qed.
Lemma semver_some : forall s v x, ordinary s -> version_term s v -> part_of s v x -> has_semver s = (s, Ok true).
Proof.
  intros s v x O V (n & I & F). destruct (part_some s v "Major") as (a & A), (part_some s v "Minor") as (b & B), (part_some s v "Patch") as (c & C). rewrite (semver_parts s v a b c O V A B C).
  destruct a; [reflexivity|]. destruct b; [reflexivity|]. destruct c; [reflexivity|]. exfalso. destruct F as (p & q & E & CX & _). assert (IX : In x (t_children (tget v s))) by (rewrite E; apply in_elt).
  cbn in I. destruct I as [<-|[<-|[<-|[]]]]; [exact (A x IX CX)|exact (B x IX CX)|exact (C x IX CX)].
Qed.

(** the search for the version under its short name *)
Lemma short_version : forall s sa, ordinary s -> doc_find_first s "Version" VFalse sa = doc_find_first s "Root.Version" VFalse sa.
Proof.
  intros s sa O. unfold doc_find_first, doc_find. pose proof (or_derived s O "Version" ltac:(used)) as A. pose proof (or_derived s O "Root.Version" ltac:(used)) as B. unfold underived in *. rewrite A, B. reflexivity.
Qed.
Lemma get_value_run : forall s r key o, ordinary s -> dget "root" (secs s) = Some r -> doc_find_first s key VFalse (SOne "Root") = Ok o ->
  section_get_value s r key = Ok (match o with Some i => t_val (tget i s) | None => VNone end).
Proof. intros s r key o O H F. unfold section_get_value. rewrite (root_term s r key (io_ok s (or_order s O)) H), F. destruct o; reflexivity. Qed.

(** the tail for a document whose version is up to date; [key] is where the
    changeable part of the version is *)
Lemma tail_run : forall s w m l b o mv, ordinary s -> settled s w -> has_semver s = (s, Ok b) ->
  doc_find_first s (if b then "Version.Patch" else "Version") VFalse (SOne "Root") = Ok o -> mv = match o with Some i => t_val (tget i s) | None => VNone end ->
  name_tail m l s = match new_mv mv m with
    | Err e => (s, Err e)
    | Ok VNone => (s, Ok (join "-" (concat (map name_part (l ++ [VNone])))))
    | Ok x => match o with
              | None => (s, Err EAttr)
              | Some i => match update_version (hmod i (set_t_val x) s) with
                          | (s', Ok v) => (s', Ok (join "-" (concat (map name_part (l ++ [v])))))
                          | (s', Err e) => (s', Err e)
                          end
              end
    end.
Proof.
  intros s w m l b o mv O S B F ->. destruct (or_root s O) as (r & H). unfold name_tail. rewrite (bind_run _ _ _ _ _ B). cbv beta zeta. rewrite (bind_run _ _ _ _ _ (root_run s r H)). cbv beta.
  rewrite (find_run _ _ s _ (get_value_run s r _ o O H F)). cbv beta.
  assert (SET : forall x, x <> VNone -> (r0 <- root_section ;; o0 <- reads (fun s0 => section_get_term s0 r0 (if b then "Version.Patch" else "Version") VFalse) ;;
                  (match o0 with Some i => modT i (set_t_val x) | None => raise EAttr end) ;;; update_version) s
                = match o with Some i => update_version (hmod i (set_t_val x) s) | None => (s, Err EAttr) end).
  { intros x _. rewrite (bind_run _ _ _ _ _ (root_run s r H)). cbv beta. rewrite (find_run _ _ s o) by (rewrite (root_term s r _ (io_ok s (or_order s O)) H); exact F). cbv beta. destruct o as [i|]; [rewrite bind_modT; reflexivity|reflexivity]. }
  destruct (new_mv _ m) as [x|e]; [|reflexivity]. unfold lift at 1. unfold bind at 1.
  destruct x; [reflexivity| | | |]; (unfold bind at 1; rewrite SET by discriminate; destruct o as [j|]; [|reflexivity]; destruct (update_version _) as [s' [v|e]]; reflexivity).
Qed.

Lemma tail_keep : forall s w l, ordinary s -> settled s w -> exists ver, shown s w ver /\ name_tail MvKeep l s = (s, Ok (join "-" (concat (map name_part (l ++ [ver]))))).
Proof.
  intros s w l O S. pose proof (settled_run s w O S) as U.
  assert (X : forall b o, has_semver s = (s, Ok b) -> doc_find_first s (if b then "Version.Patch" else "Version") VFalse (SOne "Root") = Ok o ->
    name_tail MvKeep l s = (s, Ok (join "-" (concat (map name_part (l ++ [match o with Some i => match t_val (tget i s) with VNone => VNone | _ => w end | None => VNone end])))))).
  { intros b o B F. rewrite (tail_run s w MvKeep l b o _ O S B F eq_refl). cbn [new_mv]. destruct o as [i|]; [|reflexivity]. pose proof (hmod_set_same i s) as SAME. destruct (t_val (tget i s)); [reflexivity| | | |]; rewrite SAME, U; reflexivity. }
  destruct (version_cases s O) as [N|(v & V)].
  - exists w. split; [apply shown_none; exact N|]. pose proof N as F. unfold no_version in F. rewrite <- (short_version s _ O) in F. rewrite (X false None (semver_none s O N) F). destruct S as [_|v V _|v ? ? ? ? V]; [reflexivity| |]; unfold no_version, version_term in *; congruence.
  - destruct (parts_cases s v) as [(x & EX)|NP].
    + pose proof (semver_some s v x O V EX) as B. destruct (find_ok s "Version.Patch" (SOne "Root") (or_order s O) ltac:(patq "Version" "Patch") (or_derived s O "Version.Patch" ltac:(used))) as (k & L). pose proof (find_first_spec _ _ _ _ _ L) as F. specialize (X true _ B F).
      destruct k as [|p k]; cbn [hd_error] in *.
      * exists VNone. split; [|exact X]. apply (shown_nothing s w v x V EX). right. split; [exact F|reflexivity].
      * destruct (t_val (tget p s)) eqn:E; [exists VNone; split; [apply (shown_nothing s w v x V EX); left; exists p; split; [exact F|congruence]|exact X]| | | |]; (exists w; split; [apply (shown_patch s w v x p _ V EX F E); discriminate|exact X]).
    + exists w. split; [apply (shown_plain s w v V NP)|]. pose proof V as F. unfold version_term in F. rewrite <- (short_version s _ O) in F. rewrite (X false _ (semver_plain s v O V NP) F).
      assert (W : w = t_val (tget v s)).
      { destruct S as [N|v' V' _|v' a b c d V' A _ _ _ _ _ _ T]; [unfold no_version, version_term in *; congruence|unfold version_term in *; congruence|]. assert (v' = v) by (unfold version_term in *; congruence). subst v'. exfalso. destruct A as (p & q & E & CX & _). apply (NP "Major" in_major a); [rewrite E; apply in_elt|exact CX]. }
      rewrite W. destruct (t_val (tget v s)); reflexivity.
Qed.

Lemma c44_name : forall s l, ordinary s -> name_values s l -> exists s1 w ver m, update_version s = (s1, Ok w) /\ shown s1 w ver /\ name_parts (l ++ [ver]) m
  /\ generate_identity_name MvKeep s = (s1, Ok (join "-" m)).
Proof.
  intros s l O NV. destruct (update_settles s O) as (s1 & w & [U S O1 _ _ _ _]). destruct (tail_keep s1 w l O1 S) as (ver & SH & T). exists s1, w, ver, (concat (map name_part (l ++ [ver]))).
  split; [exact U|]. split; [exact SH|]. split; [apply name_parts_run|]. rewrite (generate_run s MvKeep l s1 w NV U). exact T.
Qed.

(** ** update_name *)

Lemma made_ordinary : forall sa s r item n v s', sa = SAny \/ sa = SOne "Root" -> ordinary s -> dget "root" (secs s) = Some r -> split_term_lower item = Ok ("root", n) -> n <> "root" -> lower n <> "version" -> tidy_pattern item -> findable s item ->
  doc_find_first s item VFalse sa = Ok None -> Ops.new_term r item v [] s = (s', Ok (hlen s)) -> ordinary s'.
Proof.
  intros sa s r item n v s' SA O RS SP NR NV TP FD F H. pose proof (or_order s O) as OO. destruct (make_root_term sa s r item n v SA OO RS SP NR TP FD F) as (s1 & H1 & F1 & O1 & V1 & P1 & D1 & TR & TO & L1 & S1).
  rewrite H in H1. injection H1 as <-. pose proof (reg_new_term _ _ _ _ _ _ _ H) as RG. unfold samereg in RG. pose proof (dget_in _ _ _ RS) as I.
  constructor; [exact O1|exists r; unfold secs in *; rewrite D1; exact RS| | | | |].
  - intros it X. unfold underived. rewrite D1. apply (or_derived s O it X).
  - unfold doc_term_class. rewrite D1, RG. apply (or_identifier s O).
  - unfold doc_term_class. rewrite D1, RG. apply (or_name s O).
  - intros k X. unfold doc_term_class. rewrite D1, RG. apply (or_parts s O k X).
  - intros w W. unfold version_term in W. pose proof (or_derived s O _ used_version) as UD. destruct (find_ok s "Root.Version" (SOne "Root") OO ver_tidy UD) as (l & L).
    assert (UD' : underived s' "Root.Version") by (unfold underived; rewrite D1; exact UD).
    destruct (version_is s' w O1 UD' W) as (Pw & _ & Rw).
    assert (RN : t_rt (tget (hlen s) s') = n).
    { destruct (c20_effect s "root" r item v [] s' (hlen s) OO I plain_root (top_of item n SP) H) as (_ & _ & _ & _ & (_ & E5 & _) & _). apply split_term_lower_spec in E5. rewrite SP in E5. congruence. }
    assert (NW : w <> hlen s) by (intros ->; rewrite RN in Rw; contradiction). 
    assert (LW : w < hlen s) by (destruct Pw; lia).
    assert (X : doc_find_first s "Root.Version" VFalse (SOne "Root") = Ok (Some w)).
    { rewrite (find_first_spec _ _ _ _ _ L). destruct (c20_others s "root" r item v [] s' (hlen s) "Root.Version" VFalse (SOne "Root") l OO I plain_root (top_of item n SP) ver_top ver_tidy UD H L) as [Y|Y]; rewrite (find_first_spec _ _ _ _ _ Y) in W; [exact W|].
      destruct l as [|z l]; cbn in W; [congruence|exact W]. }
    rewrite TO; [apply (or_doc s O w X)|exact LW|]. intros ->. destruct (version_is s r OO UD X) as ((_ & C) & _). destruct (ok_section s (io_ok s OO) "root" r I) as ((_ & C') & _). congruence.
Qed.

Lemma ensure_ordinary : forall s uuid, ordinary s -> uuid <> "" ->
  exists s' i, ensure_identifier uuid s = (s', Ok tt) /\ ordinary s' /\ identifier s' i /\ truthy (t_val (tget i s')) = true.
Proof.
  intros s uuid O NU. destruct (or_root s O) as (r & RS). pose proof (or_order s O) as OO. assert (FD : findable s "Root.Identifier") by (split; [exact (or_derived s O "Root.Identifier" ltac:(used))|exact (or_identifier s O)]).
  destruct (find_ok s "Root.Identifier" (SOne "Root") OO ident_tidy (proj1 FD)) as (l & L). pose proof (find_first_spec _ _ _ _ _ L) as F. destruct l as [|i l]; cbn [hd_error] in F.
  - destruct (identifier_made s uuid r OO FD NU RS F) as (s1 & s' & H & E & RUN & O' & F' & V). exists s', (hlen s). split; [exact RUN|]. split.
    + pose proof (made_ordinary (SOne "Root") s r "Root.Identifier" "identifier" VNone s1 (or_intror eq_refl) O RS eq_refl ltac:(discriminate) ltac:(discriminate) ident_tidy FD F H) as O1.
      destruct (make_root_term (SOne "Root") s r "Root.Identifier" "identifier" VNone (or_intror eq_refl) OO RS eq_refl ltac:(discriminate) ident_tidy FD F) as (s1' & H' & _ & _ & _ & P1 & _). rewrite H in H'. injection H' as <-. rewrite E. apply set_ordinary; assumption.
    + split; [exact F'|]. rewrite V. destruct uuid; [contradiction|reflexivity].
  - destruct (truthy (t_val (tget i s))) eqn:T.
    + exists s, i. split; [eapply identifier_kept; eassumption|]. auto.
    + destruct (identifier_filled s uuid i OO FD NU F T) as (RUN & O' & F' & P). exists (hmod i (set_t_val (VStr uuid)) s), i. split; [exact RUN|]. split; [apply set_ordinary; assumption|]. split; [exact F'|]. rewrite tget_hmod by apply P. rewrite Nat.eqb_refl. cbn. destruct uuid; [contradiction|reflexivity].
Qed.

Definition name_body (nt : nat) (force report : bool) (m : modver) : MM (list update_msg) :=
  q <- getT nt ;;
  let orig := t_val q in
  identifier <- reads (fun s => doc_find_first_value s "Root.Identifier" VFalse SAny) ;;
  ds <- reads (fun s => doc_find_first_value s "Root.Dataset" VFalse SAny) ;;
  if truthy ds then
    name <- generate_identity_name m ;;
    if negb (veq (VStr name) orig) || force then
      modT nt (set_t_val (VStr name)) ;;; ret [ChangedName]
    else ret (if report then [NameUnchanged] else [])
  else if negb (truthy orig) then
    if negb (truthy identifier) then ret [GivingUp]
    else modT nt (set_t_val identifier) ;;; ret [SetToIdentifier]
  else if veq orig identifier then ret (if report then [NameUnchanged] else [])
  else ret [NoDataset].

Lemma name_top : top_name "Root.Name". Proof. eapply top_of. vm_compute. reflexivity. Qed.
Lemma name_tidy : tidy_pattern "Root.Name". Proof. patq "Root" "Name". Qed.
Lemma update_name_found : forall s uuid force create report m i nt, identifier s i -> truthy (t_val (tget i s)) = true -> name_term s nt ->
  update_name uuid force create report m s = name_body nt force report m s.
Proof.
  intros s uuid force create report m i nt I T N. unfold update_name. rewrite (bind_run _ _ _ _ _ (identifier_kept s uuid i I T)). cbv beta. rewrite (find_run _ _ s _ N). reflexivity.
Qed.

(** what is known about the terms found at the top level *)
Lemma found_top : forall s b sa i, ordinary s -> In ("Root." ++ b)%string used_names -> tidy_pattern ("Root." ++ b) -> top_name ("Root." ++ b) -> dot_free b -> b <> "*" ->
  doc_find_first s ("Root." ++ b) VFalse sa = Ok (Some i) -> is_plain s i /\ In i (listed s) /\ lower (t_rt (tget i s)) = lower b.
Proof.
  intros s b sa i O U T TN D NS F. destruct (found_plain s _ sa i (or_order s O) TN T (or_derived s O _ U) F) as (P & I). split; [exact P|]. split; [exact I|].
  apply (found_called s _ sa i "Root" b (or_order s O) T (or_derived s O _ U) F eq_refl); [apply dot_free_iff; reflexivity|exact D|exact NS].
Qed.

(** values found are not touched by changes elsewhere *)
Lemma value_keep : forall s s2 b sa v, ordinary s -> In ("Root." ++ b)%string used_names -> tidy_pattern ("Root." ++ b) -> top_name ("Root." ++ b) -> dot_free b -> b <> "*" ->
  doc_find_first s2 ("Root." ++ b) VFalse sa = doc_find_first s ("Root." ++ b) VFalse sa ->
  (forall i, In i (listed s) -> lower (t_rt (tget i s)) = lower b -> tget i s2 = tget i s) ->
  value_at s ("Root." ++ b) sa v -> value_at s2 ("Root." ++ b) sa v.
Proof.
  intros s s2 b sa v O U T TN D NS E K [(i & F & ->)|(F & ->)]; [left; exists i|right]; rewrite E; (split; [exact F|]); [|reflexivity].
  destruct (found_top s b sa i O U T TN D NS F) as (_ & I & R). rewrite K by assumption. reflexivity.
Qed.

Lemma part_set : forall s x u v y, part_of s v y <-> part_of (hmod x (set_t_val u) s) v y.
Proof. intros s x u v y. unfold part_of. split; intros (n & I & F); exists n; (split; [exact I|]); [apply (proj1 (first_set s x u v n y) F)|apply (proj2 (first_set s x u v n y) F)]. Qed.
Lemma patch_tidy : tidy_pattern "Version.Patch". Proof. patq "Version" "Patch". Qed.
Lemma patch_called : forall s p, ordinary s -> doc_find_first s "Version.Patch" VFalse (SOne "Root") = Ok (Some p) -> lower (t_rt (tget p s)) = "patch".
Proof.
  intros s p O F. apply (found_called s "Version.Patch" (SOne "Root") p "Version" "Patch" (or_order s O) patch_tidy (or_derived s O "Version.Patch" ltac:(used)) F eq_refl); [apply dot_free_iff; reflexivity|apply dot_free_iff; reflexivity|discriminate].
Qed.
Lemma shown_keep : forall s x u w ver, ordinary s -> is_plain s x -> lower (t_rt (tget x s)) <> "patch" -> shown s w ver -> shown (hmod x (set_t_val u) s) w ver.
Proof.
  intros s x u w ver O P NP S. pose proof (revalued_set s x u (proj2 P)) as R. pose proof (or_order s O) as OO. set (s' := hmod x (set_t_val u) s) in *.
  assert (F : forall p sa, doc_find_first s' p VFalse sa = doc_find_first s p VFalse sa) by (intros; apply (rv_find_first s s' R OO)).
  assert (G : forall y, y <> x -> tget y s' = tget y s) by (intros y N; unfold s'; rewrite tget_hmod_any; apply Nat.eqb_neq in N; rewrite N; reflexivity).
  destruct S as [N|v V N|v y p z V PO FP E NN|v y V PO VA].
  - apply shown_none. unfold no_version. rewrite F. exact N.
  - apply (shown_plain s' w v); [unfold version_term; rewrite F; exact V|]. intros n I. apply no_set. apply N. exact I.
  - apply (shown_patch s' w v y p z); [unfold version_term; rewrite F; exact V|apply part_set; exact PO|rewrite F; exact FP| |exact NN]. rewrite G; [exact E|]. intros ->. apply NP. apply (patch_called s x O FP).
  - apply (shown_nothing s' w v y); [unfold version_term; rewrite F; exact V|apply part_set; exact PO|]. destruct VA as [(i & FP & E)|(FP & _)]; [left; exists i; rewrite F; split; [exact FP|]|right; rewrite F; auto].
    rewrite G; [exact E|]. intros ->. apply NP. apply (patch_called s x O FP).
Qed.
Lemma part_no : forall s v x, part_of s v x -> (forall n, In n parts -> no_child s v n) -> False.
Proof. intros s v x (n & I & (a & b & E & C & _)) N. apply (N n I x); [rewrite E; apply in_elt|exact C]. Qed.
Lemma shown_unique : forall s w a b, shown s w a -> shown s w b -> a = b.
Proof.
  intros s w a b A B. unfold no_version, version_term in *.
  destruct A as [N|v V N|v y p z V PO FP E NN|v y V PO VA], B as [N'|v' V' N'|v' y' p' z' V' PO' FP' E' NN'|v' y' V' PO' VA']; try reflexivity; unfold no_version, version_term in *; try congruence;
  assert (v' = v) by congruence; subst v'; exfalso; try (eapply part_no; eassumption).
  - destruct VA' as [(i & F & X)|(F & _)]; rewrite F in FP; [|discriminate FP]. injection FP as ->. congruence.
  - destruct VA as [(i & F & X)|(F & _)]; rewrite F in FP'; [|discriminate FP']. injection FP' as ->. congruence.
Qed.

Lemma name_called : forall s nt, ordinary s -> name_term s nt -> is_plain s nt /\ In nt (listed s) /\ lower (t_rt (tget nt s)) = "name".
Proof. intros s nt O F. apply (found_top s "Name" SAny nt O); [used|exact name_tidy|exact name_top|apply dot_free_iff; reflexivity|discriminate|exact F]. Qed.
Lemma ident_called : forall s i sa, ordinary s -> doc_find_first s "Root.Identifier" VFalse sa = Ok (Some i) -> is_plain s i /\ In i (listed s) /\ lower (t_rt (tget i s)) = "identifier".
Proof. intros s i sa O F. apply (found_top s "Identifier" sa i O); [used|exact ident_tidy|exact ident_top|apply dot_free_iff; reflexivity|discriminate|exact F]. Qed.

(** a change of the name term only *)
Lemma named_keep : forall s nt u i, ordinary s -> name_term s nt -> identifier s i -> truthy (t_val (tget i s)) = true ->
  let s' := hmod nt (set_t_val u) s in ordinary s' /\ identifier s' i /\ truthy (t_val (tget i s')) = true /\ name_term s' nt /\ t_val (tget nt s') = u
    /\ (forall p sa, doc_find_first s' p VFalse sa = doc_find_first s p VFalse sa) /\ (forall y, y <> nt -> tget y s' = tget y s).
Proof.
  intros s nt u i O N I T s'. destruct (name_called s nt O N) as (P & L & R). pose proof (revalued_set s nt u (proj2 P)) as RV. fold s' in RV.
  assert (F : forall p sa, doc_find_first s' p VFalse sa = doc_find_first s p VFalse sa) by (intros; apply (rv_find_first s s' RV (or_order s O))).
  assert (G : forall y, y <> nt -> tget y s' = tget y s) by (intros y NE; unfold s'; rewrite tget_hmod_any; apply Nat.eqb_neq in NE; rewrite NE; reflexivity).
  split; [apply set_ordinary; assumption|]. split; [unfold identifier; rewrite F; exact I|]. split; [|split; [unfold name_term; rewrite F; exact N|split; [|split; assumption]]].
  - rewrite G; [exact T|]. intros ->. destruct (ident_called s nt _ O I) as (_ & _ & X). rewrite R in X. discriminate X.
  - unfold s'. rewrite tget_hmod by apply P. rewrite Nat.eqb_refl. reflexivity.
Qed.

Lemma values_keep : forall s s2 l, ordinary s -> (forall p, top_name p -> tidy_pattern p -> underived s p -> forall sa, doc_find_first s2 p VFalse sa = doc_find_first s p VFalse sa) ->
  (forall i, In i (listed s) -> lower (t_rt (tget i s)) <> "version" -> lower (t_rt (tget i s)) <> "name" -> tget i s2 = tget i s) -> name_values s l -> name_values s2 l.
Proof.
  intros s s2 l O F K NV. destruct NV as [a b c d e f A B C D E G]. 
  assert (X : forall n v, In ("Root." ++ n)%string used_names -> tidy_pattern ("Root." ++ n) -> top_name ("Root." ++ n) -> dot_free n -> n <> "*" -> lower n <> "version" -> lower n <> "name" ->
    value_at s ("Root." ++ n) (SOne "Root") v -> value_at s2 ("Root." ++ n) (SOne "Root") v).
  { intros n v U T TN DN NS N1 N2 H. apply (value_keep s s2 n (SOne "Root") v O U T TN DN NS); [apply F; [exact TN|exact T|apply (or_derived s O _ U)]| |exact H]. intros i I R. apply K; [exact I|congruence|congruence]. }
  constructor.
  - apply (X "Origin" a); try root_item "Origin"; exact A.
  - apply (X "Dataset" b); try root_item "Dataset"; exact B.
  - apply (X "Time" c); try root_item "Time"; exact C.
  - apply (X "Space" d); try root_item "Space"; exact D.
  - apply (X "Grain" e); try root_item "Grain"; exact E.
  - apply (X "Variant" f); try root_item "Variant"; exact G.
Qed.

Lemma name_not_version : forall s nt, ordinary s -> name_term s nt -> ~ version_term s nt.
Proof. intros s nt O N V. destruct (name_called s nt O N) as (_ & _ & R). destruct (version_is s nt (or_order s O) (or_derived s O _ used_version) V) as (_ & _ & R'). congruence. Qed.
Definition told (force report : bool) (same : bool) : list update_msg := if negb same || force then [ChangedName] else if report then [NameUnchanged] else [].

Lemma body_name : forall s nt l ds force report, ordinary s -> name_term s nt -> name_values s l -> value_at s "Root.Dataset" SAny ds -> truthy ds = true ->
  exists s1 w ver m, settling s s1 w /\ shown s1 w ver /\ name_parts (l ++ [ver]) m /\ tget nt s1 = tget nt s
    /\ name_body nt force report MvKeep s = (hmod nt (set_t_val (VStr (join "-" m))) s1, Ok (told force report (veq (VStr (join "-" m)) (t_val (tget nt s))))).
Proof.
  intros s nt l ds force report O N NV D T. destruct (update_settles s O) as (s1 & w & SL). pose proof SL as [U S O1 TO DO LE KE]. destruct (tail_keep s1 w l O1 S) as (ver & SH & TL).
  exists s1, w, ver, (concat (map name_part (l ++ [ver]))). split; [exact SL|]. split; [exact SH|]. split; [apply name_parts_run|].
  destruct (name_called s nt O N) as (P & L & R). assert (G : tget nt s1 = tget nt s) by (apply KE; [exact L|apply name_not_version; assumption]). split; [exact G|].
  destruct (value_run s "Root.Identifier" SAny O ltac:(used) ident_tidy) as (idv & IR & IV). unfold name_body. rewrite bind_getT. cbv beta zeta. rewrite (find_run _ _ s _ IR). cbv beta. rewrite (find_run _ _ s _ (value_first _ _ _ _ D)). cbv beta. rewrite T.
  rewrite (bind_run _ _ s s1 (join "-" (concat (map name_part (l ++ [ver]))))) by (rewrite (generate_run s MvKeep l s1 w NV U); exact TL). cbv beta. unfold told.
  destruct (veq (VStr _) (t_val (tget nt s))) eqn:E; cbn [negb orb].
  - assert (X : t_val (tget nt s) = VStr (join "-" (concat (map name_part (l ++ [ver]))))) by (destruct (t_val (tget nt s)); try discriminate E; cbn in E; apply eqs_true in E; congruence).
    destruct force; [rewrite bind_modT; reflexivity|]. rewrite <- X, <- G, hmod_set_same. destruct report; reflexivity.
  - rewrite bind_modT. reflexivity.
Qed.

Lemma veq_refl : forall v, veq v v = true.
Proof. intros [| |z| |i]; cbn; [reflexivity|apply eqs_refl|apply Z.eqb_refl|reflexivity|apply Nat.eqb_refl]. Qed.

Lemma body_again : forall s nt i force report, ordinary s -> name_term s nt -> identifier s i -> truthy (t_val (tget i s)) = true ->
  exists s' msgs, name_body nt force report MvKeep s = (s', Ok msgs) /\ ordinary s' /\ name_term s' nt /\ identifier s' i /\ truthy (t_val (tget i s')) = true
    /\ (forall report', exists m', name_body nt false report' MvKeep s' = (s', Ok m') /\ quiet m')
    /\ (forall ds, value_at s "Root.Dataset" SAny ds -> truthy ds = true -> exists l s1 w ver m, name_values s l /\ update_version s = (s1, Ok w) /\ shown s1 w ver /\ name_parts (l ++ [ver]) m /\ t_val (tget nt s') = VStr (join "-" m)).
Proof.
  intros s nt i force report O N I T. destruct (name_called s nt O N) as (P & L & R). destruct (value_run s "Root.Dataset" SAny O ltac:(used) ltac:(rootpat "Dataset")) as (ds & DR & D). destruct (truthy ds) eqn:TD.
  - destruct (name_values_some s O) as (l & NV). destruct (body_name s nt l ds force report O N NV D TD) as (s1 & w & ver & m & SL & SH & NP & G & RUN). pose proof SL as [U S O1 TO DO LE KE].
    assert (F1 : forall p, top_name p -> tidy_pattern p -> underived s p -> forall sa, doc_find_first s1 p VFalse sa = doc_find_first s p VFalse sa) by (intros p A B C sa; exact (st_find s s1 p sa TO (io_ok s (or_order s O)) A B C)).
    assert (N1 : name_term s1 nt) by (unfold name_term; rewrite F1; [exact N|exact name_top|exact name_tidy|apply (or_derived s O "Root.Name"); used]).
    assert (I1 : identifier s1 i) by (unfold identifier; rewrite F1; [exact I|exact ident_top|exact ident_tidy|apply (or_derived s O "Root.Identifier"); used]).
    destruct (ident_called s i _ O I) as (Pi & Li & Ri).
    assert (T1 : truthy (t_val (tget i s1)) = true). { rewrite KE; [exact T|exact Li|]. intros V. destruct (version_is s i (or_order s O) (or_derived s O _ used_version) V) as (_ & _ & R'). congruence. }
    destruct (named_keep s1 nt (VStr (join "-" m)) i O1 N1 I1 T1) as (O2 & I2 & T2 & N2 & V2 & F2 & G2). set (s2 := hmod nt (set_t_val (VStr (join "-" m))) s1) in *.
    exists s2. eexists. split; [exact RUN|]. split; [exact O2|]. split; [exact N2|]. split; [exact I2|]. split; [exact T2|]. split.
    + intros report'. 
      assert (LS : listed s1 = listed s) by (apply (sp_listed s s1 TO)).
      assert (K2 : forall x, In x (listed s) -> lower (t_rt (tget x s)) <> "version" -> lower (t_rt (tget x s)) <> "name" -> tget x s2 = tget x s).
      { intros x X A B. rewrite G2 by congruence. apply KE; [exact X|]. intros V. destruct (version_is s x (or_order s O) (or_derived s O _ used_version) V) as (_ & _ & R'). contradiction. }
      assert (FF : forall p, top_name p -> tidy_pattern p -> underived s p -> forall sa, doc_find_first s2 p VFalse sa = doc_find_first s p VFalse sa) by (intros p A B C sa; rewrite F2; apply F1; assumption).
      assert (NV2 : name_values s2 l) by (apply (values_keep s s2 l O FF K2 NV)).
      assert (D2 : value_at s2 "Root.Dataset" SAny ds).
      { apply (value_keep s s2 "Dataset" SAny ds O); try (root_item "Dataset"); [|].
        - apply FF; try (root_item "Dataset"). apply (or_derived s O "Root.Dataset"); used.
        - intros x X E. cbn in E. apply K2; [exact X| |]; rewrite E; discriminate. }
      destruct (body_name s2 nt l ds false report' O2 N2 NV2 D2 TD) as (s3 & w3 & ver3 & m3 & SL3 & SH3 & NP3 & G3 & RUN3).
      assert (S2 : settled s2 w) by (apply set_settled; [exact O1|rewrite LS; exact L|apply name_not_version; assumption|exact S]).
      pose proof (settled_run s2 w O2 S2) as U2. rewrite (sl_run _ _ _ SL3) in U2. injection U2 as -> ->.
      assert (SH2 : shown s2 w ver) by (apply shown_keep; [exact O1|apply (name_called s1 nt O1 N1)|destruct (name_called s1 nt O1 N1) as (_ & _ & ->); discriminate|exact SH]).
      pose proof (shown_unique s2 w _ _ SH3 SH2) as ->. pose proof (name_parts_unique _ _ _ NP3 NP) as ->.
      eexists. split; [rewrite RUN3; f_equal; rewrite <- V2; apply hmod_set_same|]. rewrite V2, veq_refl. unfold told. cbn [negb orb]. destruct report'; split; cbn; intuition discriminate.
    + intros ds' D' _. exists l, s1, w, ver, m. rewrite V2. auto.
  - destruct (value_run s "Root.Identifier" SAny O ltac:(used) ident_tidy) as (idv & IR & IV).
    assert (B : forall force report, name_body nt force report MvKeep s =
       (if negb (truthy (t_val (tget nt s))) then if negb (truthy idv) then ret [GivingUp] else modT nt (set_t_val idv) ;;; ret [SetToIdentifier]
        else if veq (t_val (tget nt s)) idv then ret (if report then [NameUnchanged] else []) else ret [NoDataset]) s).
    { intros f r. unfold name_body. rewrite bind_getT. cbv beta zeta. rewrite (find_run _ _ s _ IR). cbv beta. rewrite (find_run _ _ s _ DR). cbv beta. rewrite TD. reflexivity. }
    assert (ND : forall ds', value_at s "Root.Dataset" SAny ds' -> truthy ds' = true -> False) by (intros ds' D' T'; rewrite (value_unique _ _ _ _ _ D' D) in T'; congruence).
    destruct (truthy (t_val (tget nt s))) eqn:TN; cbn [negb] in B.
    + exists s, (if veq (t_val (tget nt s)) idv then if report then [NameUnchanged] else [] else [NoDataset]). split; [rewrite B; destruct (veq _ idv); reflexivity|]. split; [exact O|]. split; [exact N|]. split; [exact I|]. split; [exact T|]. split; [|intros ds' D' T'; destruct (ND ds' D' T')].
      intros r'. rewrite B. destruct (veq _ idv); eexists; (split; [reflexivity|]); [destruct r'|]; split; cbn; intuition discriminate.
    + destruct (truthy idv) eqn:TI; cbn [negb] in B.
      * destruct (named_keep s nt idv i O N I T) as (O2 & I2 & T2 & N2 & V2 & F2 & G2). set (s2 := hmod nt (set_t_val idv) s) in *.
        exists s2. eexists. split; [rewrite B, bind_modT; reflexivity|]. split; [exact O2|]. split; [exact N2|]. split; [exact I2|]. split; [exact T2|]. split; [|intros ds' D' T'; destruct (ND ds' D' T')].
        intros r'. 
        assert (D2 : value_at s2 "Root.Dataset" SAny ds).
        { apply (value_keep s s2 "Dataset" SAny ds O); try (root_item "Dataset"); [apply F2|]. intros x X E. cbn in E. apply G2. intros ->. rewrite R in E. discriminate E. }
        assert (IV2 : value_at s2 "Root.Identifier" SAny idv).
        { apply (value_keep s s2 "Identifier" SAny idv O); try (root_item "Identifier"); [apply F2|]. intros x X E. cbn in E. apply G2. intros ->. rewrite R in E. discriminate E. }
        unfold name_body. rewrite bind_getT. cbv beta zeta. rewrite (find_run _ _ s2 _ (value_first _ _ _ _ IV2)). cbv beta. rewrite (find_run _ _ s2 _ (value_first _ _ _ _ D2)). cbv beta. rewrite TD, V2, TI. cbn [negb]. rewrite veq_refl.
        eexists. split; [reflexivity|]. destruct r'; split; cbn; intuition discriminate.
      * exists s. eexists. split; [rewrite B; reflexivity|]. split; [exact O|]. split; [exact N|]. split; [exact I|]. split; [exact T|]. split; [|intros ds' D' T'; destruct (ND ds' D' T')].
        intros r'. rewrite B. eexists. split; [reflexivity|]. split; cbn; intuition discriminate.
Qed.

Lemma agree_run : forall s nt report ds m', ordinary s -> name_term s nt -> value_at s "Root.Dataset" SAny ds -> truthy ds = true -> name_body nt false report MvKeep s = (s, Ok m') -> agrees s nt.
Proof.
  intros s nt report ds m' O N D T RUN. destruct (name_values_some s O) as (l & NV). destruct (body_name s nt l ds false report O N NV D T) as (s1 & w & ver & m & SL & SH & NP & G & RUN').
  rewrite RUN in RUN'. injection RUN' as E _. pose proof SL as [U S O1 TO DO LE KE]. destruct (name_called s nt O N) as (P & L & R).
  assert (N1 : name_term s1 nt) by (unfold name_term; rewrite (st_find s s1 "Root.Name" SAny TO (io_ok s (or_order s O)) name_top name_tidy (or_derived s O "Root.Name" ltac:(used))); exact N).
  assert (S' : settled s w). { rewrite E. apply set_settled; [exact O1|rewrite (sp_listed s s1 TO); exact L|apply name_not_version; assumption|exact S]. }
  pose proof (settled_run s w O S') as U'. rewrite U in U'. injection U' as U'. rewrite U' in *. exists l, w, ver, m. split; [exact NV|]. split; [exact S'|]. split; [exact SH|]. split; [exact NP|]. rewrite E. rewrite tget_hmod by apply P. rewrite Nat.eqb_refl. reflexivity.
Qed.

Lemma ident_after : forall s r i v s', ordinary s -> dget "root" (secs s) = Some r -> identifier s i -> truthy (t_val (tget i s)) = true -> Ops.new_term r "Root.Name" v [] s = (s', Ok (hlen s)) ->
  doc_find_first s "Root.Name" VFalse SAny = Ok None -> identifier s' i /\ truthy (t_val (tget i s')) = true.
Proof.
  intros s r i v s' O RS I T H F. pose proof (or_order s O) as OO. destruct (ident_called s i _ O I) as (Pi & Li & Ri). pose proof (dget_in _ _ _ RS) as IN.
  destruct (find_ok s "Root.Identifier" (SOne "Root") OO ident_tidy (or_derived s O "Root.Identifier" ltac:(used))) as (l & L). pose proof (find_first_spec _ _ _ _ _ L) as FI. unfold identifier in *. rewrite I in FI. destruct l as [|z l]; [discriminate FI|]. injection FI as <-.
  split.
  - destruct (c20_others s "root" r "Root.Name" v [] s' (hlen s) "Root.Identifier" VFalse (SOne "Root") (i :: l) OO IN plain_root name_top ident_top ident_tidy (or_derived s O "Root.Identifier" ltac:(used)) H L) as [Y|Y]; rewrite (find_first_spec _ _ _ _ _ Y); reflexivity.
  - destruct (make_root_term SAny s r "Root.Name" "name" v (or_introl eq_refl) OO RS eq_refl ltac:(discriminate) name_tidy (conj (or_derived s O "Root.Name" ltac:(used)) (or_name s O)) F) as (s1 & H1 & _ & _ & _ & _ & _ & _ & TO & _).
    rewrite H in H1. injection H1 as <-. rewrite TO; [exact T|apply Pi|]. intros ->. destruct Pi as (_ & C). destruct (ok_section s (io_ok s OO) "root" r IN) as ((_ & C') & _). congruence.
Qed.

Lemma c44_again : forall s uuid force create report, ordinary s -> uuid <> "" ->
  exists s' msgs, update_name uuid force create report MvKeep s = (s', Ok msgs) /\ ordinary s'
    /\ (exists i, identifier s' i /\ truthy (t_val (tget i s')) = true)
    /\ (forall uuid' report', exists m', update_name uuid' false create report' MvKeep s' = (s', Ok m') /\ quiet m')
    /\ (forall nt ds, name_term s' nt -> value_at s' "Root.Dataset" SAny ds -> truthy ds = true -> agrees s' nt)
    /\ (create = true -> exists nt, name_term s' nt).
Proof.
  intros s uuid force create report O NU. destruct (ensure_ordinary s uuid O NU) as (s0 & i & E & O0 & I0 & T0). 
  assert (BODY : forall s1 nt, ordinary s1 -> identifier s1 i -> truthy (t_val (tget i s1)) = true -> name_term s1 nt -> update_name uuid force create report MvKeep s = name_body nt force report MvKeep s1 ->
    exists s' msgs, update_name uuid force create report MvKeep s = (s', Ok msgs) /\ ordinary s'
    /\ (exists i, identifier s' i /\ truthy (t_val (tget i s')) = true)
    /\ (forall uuid' report', exists m', update_name uuid' false create report' MvKeep s' = (s', Ok m') /\ quiet m')
    /\ (forall nt ds, name_term s' nt -> value_at s' "Root.Dataset" SAny ds -> truthy ds = true -> agrees s' nt)
    /\ (create = true -> exists nt, name_term s' nt)).
  { intros s1 nt O1 I1 T1 N1 EQ. rewrite EQ. destruct (body_again s1 nt i force report O1 N1 I1 T1) as (s' & msgs & RUN & O' & N' & I' & T' & AG & _). exists s', msgs. split; [exact RUN|]. split; [exact O'|]. split; [eauto|]. split; [|split].
    - intros uuid' report'. destruct (AG report') as (m' & R' & Q). exists m'. split; [|exact Q]. rewrite (update_name_found s' uuid' false create report' MvKeep i nt I' T' N'). exact R'.
    - intros nt' ds NT D T. assert (nt' = nt) by (unfold name_term in *; congruence). subst nt'. destruct (AG true) as (m' & R' & _). apply (agree_run s' nt true ds m' O' N' D T R').
    - intros _. exists nt. exact N'. }
  destruct (find_ok s0 "Root.Name" SAny (or_order s0 O0) name_tidy (or_derived s0 O0 "Root.Name" ltac:(used))) as (l & L). pose proof (find_first_spec _ _ _ _ _ L) as F. destruct l as [|nt l]; cbn [hd_error] in F.
  - destruct (or_root s0 O0) as (r & RS). assert (FD : findable s0 "Root.Name") by (split; [exact (or_derived s0 O0 "Root.Name" ltac:(used))|exact (or_name s0 O0)]). destruct create.
    + destruct (make_root_term SAny s0 r "Root.Name" "name" (VStr "") (or_introl eq_refl) (or_order s0 O0) RS eq_refl ltac:(discriminate) name_tidy FD F) as (s1 & H1 & F1 & _).
      pose proof (made_ordinary SAny s0 r "Root.Name" "name" (VStr "") s1 (or_introl eq_refl) O0 RS eq_refl ltac:(discriminate) ltac:(discriminate) name_tidy FD F H1) as O1.
      destruct (ident_after s0 r i (VStr "") s1 O0 RS I0 T0 H1 F) as (I1 & T1). apply (BODY s1 (hlen s0) O1 I1 T1 F1).
      unfold update_name. rewrite (bind_run _ _ _ _ _ E). cbv beta. rewrite (find_run _ _ s0 _ F). cbv beta iota. unfold bind at 1. rewrite (bind_run _ _ _ _ _ (root_run s0 r RS)). cbv beta. rewrite (bind_run _ _ _ _ _ H1). reflexivity.
    + exists s0, [NoNameTerm]. 
      assert (X : forall u report s, ensure_identifier u s = (s0, Ok tt) -> update_name u force false report MvKeep s = (s0, Ok [NoNameTerm])).
      { intros u rp s9 E9. unfold update_name. rewrite (bind_run _ _ _ _ _ E9). cbv beta. rewrite (find_run _ _ s0 _ F). reflexivity. }
      split; [apply X; exact E|]. split; [exact O0|]. split; [eauto|]. split; [|split; [intros nt ds N; unfold name_term in N; congruence|discriminate]].
      intros uuid' report'. exists [NoNameTerm]. split; [|split; cbn; intuition discriminate]. unfold update_name. rewrite (bind_run _ _ _ _ _ (identifier_kept s0 uuid' i I0 T0)). cbv beta. rewrite (find_run _ _ s0 _ F). reflexivity.
  - apply (BODY s0 nt O0 I0 T0 F). unfold update_name. rewrite (bind_run _ _ _ _ _ E). cbv beta. rewrite (find_run _ _ s0 _ F). reflexivity.
Qed.

End WithQuirks.
