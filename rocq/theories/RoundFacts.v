(** * RoundFacts: writing a document and reading it again (C35) *)

From Coq Require Import Lia.
From Verif Require Import ListFacts StrFacts HeapFacts SpecNames NameFacts ConstructFacts Parser RunFacts EmitFacts DigitFacts RowFacts ParseFacts TotalFacts SpecDoc SpecInv SpecParse Render RowsFacts SpecRound OrderFacts PrintFacts ReadFacts Csv CsvFacts.

(** ** The sections of a document *)

Definition holds_section (s : st) (kv : string * nat) (c : sect) : Prop :=
  fst kv = lower (sc_name c) /\ snd kv < hlen s /\ t_val (tget (snd kv) s) = VStr (sc_name c) /\ columns_of (tget (snd kv) s) = sc_cols c
  /\ Forall2 (built s (S (d_root (s_doc s))) (hlen s) (d_root (s_doc s))) (sc_terms c) (t_terms (tget (snd kv) s)).
Record holds (s : st) (o : list sect) : Prop := {
  ho_secs : Forall2 (holds_section s) (d_sections (s_doc s)) o;
  ho_ids : NoDup (map snd (d_sections (s_doc s)));
  ho_dterms : p_dterms (s_prs s) = installed_terms
}.

Lemma built_ext : forall s s', hlen s <= hlen s' -> (forall i, i < hlen s -> tget i s' = tget i s) ->
  forall t a b q x b', built s a b q t x -> b <= hlen s -> b <= b' -> built s' a b' q t x.
Proof.
  intros s s' Hl He t. induction t as [n v kids IH] using tree_ind'. intros a b q x b' H Hb Hb'.
  apply built_inv in H. destruct H as (Hx & R & V & P & (i & Si & Hi & Di) & K).
  apply built_term with (i := i); [lia|rewrite He by lia; exact R|rewrite He by lia; exact V|rewrite He by lia; exact P|rewrite He by lia; exact Si|lia|rewrite He by lia; exact Di|].
  rewrite He by lia. revert IH. induction K as [|k c ks cs K1 K2 IHk]; intros IH; [constructor|]. inversion IH as [|? ? IH1 IH2]; subst. constructor; [|apply IHk; assumption].
  eapply IH1; [exact K1|lia|lia].
Qed.

Section Reading.
Variables (e : env) (rec : source -> option string -> MM unit) (src : source) (decl : string -> list string).


(** the terms of the section read last *)
Lemma read_terms : forall dt cols terms o nm v s k, okv decl cols v s -> Forall tidy cols -> Forall (writable_top dt cols) terms ->
  holds s (o ++ [mk_sect nm cols []]) -> (exists pre key, d_sections (s_doc s) = (pre ++ [(key, p_lastsec (s_prs s))])%list) ->
  exists v' s' k', steps e rec src (flat_map (tree_rows cols "root") terms) (v_line v) k s k' s' /\ okv decl cols v' s'
    /\ v_line v' = v_line v + List.length (flat_map (tree_rows cols "root") terms) /\ holds s' (o ++ [mk_sect nm cols (map (arrange cols) terms)])
    /\ d_decl_terms (s_doc s') = d_decl_terms (s_doc s).
Proof.
  intros dt cols terms o nm v s k O Tc W H (pre & key & Es). pose proof (vi_pinv _ _ _ (ov_vinv _ _ _ _ O)) as P.
  destruct (runs_terms e rec src decl dt cols terms Tc W v s (d_root (s_doc s)) k O (pi_rootmap _ P)) as (v' & s' & k' & xs & S1 & O1 & L1 & G & B).
  exists v', s', k'. split; [exact S1|]. split; [exact O1|]. split; [exact L1|]. split; [|apply G].
  change (eqs "root" "root") with true in G. pose proof (gb_len _ _ _ _ _ _ G) as Len. destruct H as [H1 H2 H3].
  assert (OS : forall kv c, snd kv < hlen s -> holds_section s kv c -> snd kv <> p_lastsec (s_prs s) -> holds_section s' kv c).
  { intros kv c Hk (A1 & A2 & A3 & A4 & A5) Ne. pose proof (gb_same _ _ _ _ _ _ G _ Hk) as M. split; [exact A1|]. split; [lia|]. split; [rewrite (sm_val _ _ M); exact A3|].
    split; [unfold columns_of; rewrite (gb_hargs _ _ _ _ _ _ G) by exact Hk; rewrite (sm_args _ _ M); exact A4|].
    rewrite (gb_tops _ _ _ _ _ _ G) by exact Hk. apply Nat.eqb_neq in Ne. rewrite Ne. cbn [andb]. rewrite app_nil_r, (gb_root _ _ _ _ _ _ G).
    clear - A5 G Len. induction A5 as [|t x ts ys A _ IH]; constructor; [|exact IH]. eapply built_frame; [exact G|exact A|lia|lia|left; lia]. }
  split.
  - rewrite (gb_secs _ _ _ _ _ _ G). rewrite Es in *. apply Forall2_app_inv_r in H1. destruct H1 as (l1 & l2 & F1 & F2 & E).
    assert (E2 : l1 = pre /\ l2 = [(key, p_lastsec (s_prs s))]).
    { inversion F2 as [|a b la lb Fa Fb]; subst. inversion Fb; subst. apply app_inj_tail in E. destruct E as [-> <-]. auto. }
    destruct E2 as [-> ->]. apply Forall2_app.
    + rewrite map_app in H2. cbn [map snd] in H2. apply NoDup_remove_2 in H2. rewrite app_nil_r in H2. clear - F1 H2 OS.
      induction F1 as [|kv c kvs cs F1 F2 IH]; [constructor|]. cbn [map In] in H2. constructor; [|apply IH; tauto]. apply OS; [apply F1|exact F1|]. intros E. apply H2. left. exact E.
    + inversion F2 as [|? ? ? ? (A1 & A2 & A3 & A4 & A5) _]; subst. cbn [fst snd sc_name sc_cols sc_terms] in *. constructor; [|constructor]. pose proof (gb_same _ _ _ _ _ _ G _ A2) as M.
      split; [exact A1|]. cbn [fst snd sc_name sc_cols sc_terms]. split; [lia|]. split; [rewrite (sm_val _ _ M); exact A3|].
      split; [unfold columns_of; rewrite (gb_hargs _ _ _ _ _ _ G) by exact A2; rewrite (sm_args _ _ M); exact A4|].
      rewrite (gb_tops _ _ _ _ _ _ G) by exact A2. rewrite Nat.eqb_refl. cbn [andb]. inversion A5 as [E0|]; subst. cbn [app]. rewrite (gb_root _ _ _ _ _ _ G).
      pose proof (pi_root _ P) as Hr. clear - B Hr Len. induction B as [|t x ts ys A _ IH]; constructor; [|exact IH]. eapply built_wider; [exact A|lia|lia].
  - rewrite (gb_secs _ _ _ _ _ _ G). exact H2.
  - rewrite (gb_dterms _ _ _ _ _ _ G). exact H3.
Qed.

(** the heading of a section *)
Lemma read_heading : forall dt cols0 c o v s k, okv decl cols0 v s -> holds s o -> writable_section dt decl c ->
  ~ In (lower (sc_name c)) ("root" :: map (fun c => lower (sc_name c)) o) ->
  exists v' s' k', steps e rec src [[""]; "Section" :: sc_name c :: sc_cols c] (v_line v) k s k' s' /\ okv decl (sc_cols c) v' s'
    /\ v_line v' = v_line v + 2 /\ holds s' (o ++ [mk_sect (sc_name c) (sc_cols c) []])
    /\ (exists pre key, d_sections (s_doc s') = (pre ++ [(key, p_lastsec (s_prs s'))])%list)
    /\ d_decl_terms (s_doc s') = d_decl_terms (s_doc s).
Proof.
  intros dt cols0 [nm cols terms] o v s k O H [[Tn Nn] Tc Us Dc _] Nk. cbn [sc_name sc_cols sc_terms] in *.
  assert (Sc : map strip cols = cols).
  { clear - Tc. induction Tc as [|c cs T _ IH]; [reflexivity|]. cbn. rewrite (tidy_strip _ T), IH. reflexivity. }
  assert (B0 : blank_row [""]) by (right; exists "", []; split; [reflexivity|]; left; apply white_strip; reflexivity).
  destruct (step_row e rec src decl cols0 v s [""] LBlank k O (reads_blank _ B0) Logic.I Logic.I) as (k1 & s1 & S1 & R1 & V1 & P1 & _).
  { intros (X & _). discriminate X. }
  assert (s1 = s).
  { inversion R1; subst; [reflexivity|discriminate|discriminate|discriminate]. }
  subst s1. set (v1 := next decl v LBlank) in *.
  assert (O1 : okv decl cols0 v1 s) by (split; [exact V1|exact P1|apply O|apply O]).
  set (row := "Section" :: nm :: cols) in *.
  assert (CN : cell_names "Section" "root" "section").
  { change "section" with (lower "Section"). apply cell_plain; [intros I; repeat (destruct I as [I|I]; [discriminate I|]); exact I|]. apply trimmed_iff. reflexivity. }
  assert (Rd : SpecParse.reads row (LSection nm cols)).
  { replace (LSection nm cols) with (LSection (nth 1 row "") (map strip (skipn 2 row))) by (change (skipn 2 row) with cols; rewrite Sc; reflexivity). apply reads_section; [|exact CN].
    intros [B|(c & cs & B & X)]; [discriminate B|]. injection B as <- <-. destruct X as [X|[w X]].
    - apply white_strip in X. discriminate X.
    - apply trimmed_iff in X. discriminate X. }
  pose proof (vi_pinv _ _ _ V1) as PI.
  destruct (step_row e rec src decl cols0 v1 s row _ k1 O1 Rd Us Nn) as (k2 & s2 & S2 & R2 & V2 & P2 & _).
  { intros (_ & p' & r' & CN' & _ & _ & X). change (hd "" row) with "Section" in CN'. destruct (cell_names_fun _ _ _ _ _ CN CN') as [<- <-]. rewrite (pi_rootmap _ PI) in X. discriminate X. }
  assert (E : s2 = section_effect nm cols (v_line v1) None s).
  { destruct R2 as [X|_ _ _ X|c _ CN' _ _ _|p r c q sx _ CN' Nr _ _ _ _].
    - discriminate X.
    - exact X.
    - destruct (cell_names_fun _ _ _ _ _ CN CN') as [_ X]. discriminate X.
    - destruct (cell_names_fun _ _ _ _ _ CN CN') as [<- <-]. exfalso. apply (Nr eq_refl). left. reflexivity. }
  clear R2.
  assert (Nm : dget (lower nm) (d_sections (s_doc s)) = None).
  { apply dget_none. intros I. apply Nk. right. destruct H as [H _ _]. clear - H I. unfold dkeys in I. induction H as [|kv c kvs cs (X & _) H IH]; [destruct I|].
    cbn [map] in *. destruct I as [I|I]; [left; rewrite <- X; exact I|right; apply IH; exact I]. }
  assert (Old : forall i, i < hlen s -> tget i s2 = tget i s) by (intros; subst s2; apply section_effect_old; assumption).
  assert (Len : hlen s2 = S (hlen s)) by (subst s2; apply section_effect_len).
  assert (New : tget (hlen s) s2 = section_rec nm (heading_args (s_doc s) nm cols) (v_line v1) None "root.section") by (subst s2; apply section_effect_new).
  assert (Es : d_sections (s_doc s2) = (d_sections (s_doc s) ++ [(lower nm, hlen s)])%list
               /\ d_root (s_doc s2) = d_root (s_doc s) /\ d_decl_terms (s_doc s2) = d_decl_terms (s_doc s) /\ p_dterms (s_prs s2) = p_dterms (s_prs s) /\ p_lastsec (s_prs s2) = hlen s).
  { subst s2. unfold section_effect. rewrite (tidy_strip _ Tn), Nm. set (r := section_rec _ _ _ _ _). destruct (enter_fields (hlen s) (push r s)) as (_ & E2 & _).
    destruct (enter_prs (hlen s) (push r s)) as (E3 & E4 & _). unfold dmod. cbn [s_doc s_prs set_s_doc set_d_sections d_sections d_root d_decl_terms]. rewrite E2, E3, E4. cbn [push s_doc s_prs set_s_heap].
    rewrite dset_absent by exact Nm. auto. }
  destruct Es as (Es & Er & Ed & Ep & El).
  assert (Nv : next decl v1 (LSection nm cols) = mk_view (S (v_line v1)) (v_secs v1 ++ [(lower nm, cols)]) (lower nm) cols "@value" "root" (v_last v1) (v_tops v1)).
  { cbn [next]. rewrite (tidy_strip _ Tn). assert (X : eqs (lower nm) "root" = false) by (apply eqs_false; intros X; apply Nk; left; symmetry; exact X). rewrite X.
    assert (A : assoc (lower nm) (v_secs v1) = None).
    { apply assoc_keys. rewrite <- (vi_keys _ _ _ V1). apply dget_none. exact Nm. }
    rewrite A. assert (Ow : match cols with [] => map strip (decl nm) | _ :: _ => cols end = cols) by (destruct cols; [rewrite (Dc eq_refl)|]; reflexivity). rewrite Ow. reflexivity. }
  rewrite Nv in V2. eexists _, s2, k2. split.
  { change [[""]; row] with ([[""]] ++ [row])%list. eapply steps_app; [exact S1|]. replace (v_line v + List.length [[""]]) with (v_line v1) by (cbn; lia). exact S2. }
  split; [split; [exact V2|exact P2|reflexivity|exact Us]|]. split; [cbn; lia|]. split; [|split; [|exact Ed]].
  - split.
    + rewrite Es. apply Forall2_app.
      * destruct H as [H _ _]. clear - H Old Len Er. induction H as [|kv c kvs cs (A1 & A2 & A3 & A4 & A5) _ IH]; constructor; [|exact IH]. split; [exact A1|]. split; [lia|]. rewrite (Old _ A2), Er. split; [exact A3|]. split; [exact A4|].
        clear - A5 Old Len. induction A5 as [|t x ts ys A _ IH]; constructor; [|exact IH]. eapply built_ext; [|exact Old|exact A|lia|lia]. lia.
      * constructor; [|constructor]. split; [reflexivity|]. cbn [snd sc_name sc_cols sc_terms]. split; [lia|].
        assert (Ar : t_args (tget (hlen s) s2) = cols).
        { apply (vi_cols _ _ _ V2 (lower nm)); [intros X; apply Nk; left; symmetry; exact X| |].
          - rewrite Es. clear - Nm. induction (d_sections (s_doc s)) as [|[a b] l IH]; cbn [dget app] in *; [rewrite eqs_refl; reflexivity|]. destruct (eqs (lower nm) a); [discriminate Nm|auto].
          - cbn [v_secs]. assert (A : ~ In (lower nm) (map fst (v_secs v1))) by (rewrite <- (vi_keys _ _ _ V1); apply dget_none; exact Nm). clear - A. unfold assoc. induction (v_secs v1) as [|[a b] l IH]; cbn [find app map In fst] in *.
            + rewrite eqs_refl. reflexivity.
            + eqs_cases a (lower nm); [exfalso; apply A; left; assumption|]. apply IH. tauto. }
        split; [rewrite New; change (t_val (section_rec nm (heading_args (s_doc s) nm cols) (v_line v1) None "root.section")) with (init_val (VStr nm)); rewrite init_val_str by exact Nn; rewrite (tidy_strip _ Tn); reflexivity|].
        split; [unfold columns_of; rewrite Ar, New; reflexivity|]. rewrite New. constructor.
    + rewrite Es, map_app. destruct H as [H1 H2 _]. cbn [map snd]. eapply Permutation.Permutation_NoDup; [apply Permutation.Permutation_cons_append|]. constructor; [|exact H2]. intros I. apply in_map_iff in I. destruct I as (kv & E1 & I). clear - H1 E1 I.
      induction H1 as [|kv' c kvs cs (A1 & A2 & _) _ IH]; [destruct I|]. destruct I as [->|I]; [lia|apply IH; exact I].
    + rewrite Ep. apply H.
  - rewrite Es, El. eexists _, _. reflexivity.
Qed.

Lemma read_sections : forall dt rest o cols v s k, okv decl cols v s -> holds s o -> Forall (writable_section dt decl) rest ->
  NoDup ("root" :: map (fun c => lower (sc_name c)) rest) -> (forall c, In c rest -> ~ In (lower (sc_name c)) (map (fun c => lower (sc_name c)) o)) ->
  exists s' k', steps e rec src (flat_map sect_rows rest) (v_line v) k s k' s' /\ holds s' (o ++ map arrange_sect rest)
    /\ pinv s' /\ d_decl_terms (s_doc s') = d_decl_terms (s_doc s).
Proof.
  intros dt rest. induction rest as [|c rest IH]; intros o cols v s k O H W ND Nx.
  - exists s, k. split; [apply steps_nil|]. rewrite app_nil_r. split; [exact H|]. split; [apply (ov_vinv _ _ _ _ O)|reflexivity].
  - apply Forall_cons_iff in W. destruct W as [Wc W]. cbn [map] in ND. apply NoDup_cons_iff in ND. destruct ND as [Nr ND]. apply NoDup_cons_iff in ND. destruct ND as [Nc ND].
    destruct (read_heading dt cols c o v s k O H Wc) as (v1 & s1 & k1 & S1 & O1 & L1 & H1 & E1 & D1).
    { intros [X|X]; [apply Nr; left; symmetry; exact X|exact (Nx c (or_introl eq_refl) X)]. }
    destruct (read_terms dt (sc_cols c) (sc_terms c) o (sc_name c) v1 s1 k1 O1 (wsc_cols _ _ _ Wc) (wsc_terms _ _ _ Wc) H1 E1) as (v2 & s2 & k2 & S2 & O2 & L2 & H2 & D2).
    destruct (IH (o ++ [arrange_sect c])%list (sc_cols c) v2 s2 k2 O2 H2 W) as (s3 & k3 & S3 & H3 & P3 & D3).
    + constructor; [intros I; apply Nr; right; exact I|exact ND].
    + intros c' I. rewrite map_app, in_app_iff. intros [X|[X|[]]]; [exact (Nx c' (or_intror I) X)|]. apply Nc. cbn [arrange_sect sc_name] in X. rewrite X. apply in_map_iff. exists c'. auto.
    + exists s3, k3. split; [|split; [|split; [exact P3|congruence]]].
      * cbn [flat_map]. unfold sect_rows at 1. replace (eqs (sc_name c) "Root") with false by (symmetry; apply eqs_false; intros X; apply Nr; left; rewrite X; reflexivity).
        eapply steps_app; [eapply steps_app; [exact S1|]|].
        { replace (v_line v + List.length [[""]; "Section" :: sc_name c :: sc_cols c]) with (v_line v1) by (rewrite L1; reflexivity). exact S2. }
        { rewrite app_length. replace (v_line v + _) with (v_line v2) by (rewrite L2, L1; cbn [List.length]; lia). exact S3. }
      * cbn [map]. rewrite <- app_assoc in H3. exact H3.
Qed.

End Reading.

(** ** Reading the rows of a document *)

Lemma built_shows : forall s, forall t a b q x p, built s a b q t x -> t_rt (tget q s) = p -> shows s p t x.
Proof.
  intros s t. induction t as [n v kids IH] using tree_ind'. intros a b q x p H Hp. apply built_inv in H. destruct H as (Hx & R & V & P & (i & Si & Hi & Di) & K).
  apply shows_term with (i := i); [exact R|exact V|unfold parent_named; rewrite P; exact Hp|exact Si|exact Di|].
  revert IH. induction K as [|k c ks cs K1 K2 IHk]; intros IH; [constructor|]. inversion IH as [|? ? IH1 IH2]; subst. constructor; [|apply IHk; assumption].
  eapply IH1; [exact K1|reflexivity].
Qed.

Lemma Forall2_imp : forall {A B} (P Q : A -> B -> Prop) l m, (forall a b, P a b -> Q a b) -> Forall2 P l m -> Forall2 Q l m.
Proof. intros A B P Q l m H F. induction F; constructor; auto. Qed.

Lemma holds_shows : forall s o, holds s o -> t_rt (tget (d_root (s_doc s)) s) = "root" -> shows_doc s o.
Proof.
  intros s o [H _ _] R. unfold shows_doc. eapply Forall2_imp; [|exact H]. intros kv c (A1 & A2 & A3 & A4 & A5). split; [exact A1|]. split; [exact A3|]. split; [exact A4|].
  eapply Forall2_imp; [|exact A5]. intros t x B. eapply built_shows; [exact B|exact R].
Qed.

Lemma round_doc : forall g dt o, proper g -> plain_classes g -> in_fuel g <> 0 -> writable_doc dt (declared_columns (in_secs g)) o ->
  exists s', loads g (doc_texts o) s' /\ holds s' (map arrange_sect o) /\ t_rt (tget (d_root (s_doc s')) s') = "root"
    /\ d_decl_terms (s_doc s') = dupdate (in_terms g) installed_terms.
Proof.
  intros g dt o [GR ND] PC Fu W. destruct W as [terms rest W1 W2 W3].
  unfold loads, load_into. destruct (in_fuel g) as [|f]; [congruence|]. rewrite load_source_fw.
  set (dl := declared_columns (in_secs g)) in *. set (s0 := started (new_doc (in_reg g) (in_terms g) (in_secs g) (in_super g))).
  set (rec := generate_terms (in_env g) true f).
  pose proof (first_vinv (in_reg g) (in_terms g) (in_secs g) (in_super g) GR ND) as V0. fold s0 dl in V0.
  assert (O0 : okv dl [] first_view s0) by (split; [exact V0|apply plain_start; exact PC|reflexivity|intros []]).
  assert (H0 : holds s0 ([] ++ [mk_sect "Root" [] []])).
  { split; [|constructor; [intros []|constructor]|reflexivity]. constructor; [|constructor]. split; [reflexivity|]. split; [apply (pi_root _ (vi_pinv _ _ _ V0))|]. split; [reflexivity|]. split; [reflexivity|]. constructor. }
  destruct (read_terms (in_env g) rec (mk_source (in_ref g) (in_dir g) (doc_texts (mk_sect "Root" [] terms :: rest))) dl dt [] terms [] "Root" first_view s0 0 O0 (Forall_nil _) W1 H0) as (v1 & s1 & k1 & S1 & O1 & L1 & H1 & D1).
  { exists [], "root". reflexivity. }
  destruct (read_sections (in_env g) rec (mk_source (in_ref g) (in_dir g) (doc_texts (mk_sect "Root" [] terms :: rest))) dl dt rest _ [] v1 s1 k1 O1 H1 W2 W3) as (s2 & k2 & S2 & H2 & P2 & D2).
  { intros c I [X|[]]. apply NoDup_cons_iff in W3. apply (proj1 W3). change "root" with (lower "Root"). cbn [sc_name] in X. rewrite X. apply in_map_iff. exists c. auto. }
  pose proof (steps_app _ _ _ _ _ _ _ _ _ _ _ _ S1 ltac:(rewrite <- L1; exact S2)) as St.
  destruct (finish_load_ok s2) as (s3 & F & Fi). exists s3.
  assert (E : flat_map (tree_rows [] "root") terms ++ flat_map sect_rows rest = doc_texts (mk_sect "Root" [] terms :: rest)) by reflexivity.
  split.
  { pose proof (St []) as R. rewrite app_nil_r, E in R. eapply bind_fw; [|exact F]. cbn [first_view v_line] in R. rewrite R. reflexivity. }
  assert (Eh : forall i, tget i s3 = tget i s2) by (intros i; unfold tget; rewrite (fi_heap _ _ Fi); reflexivity).
  assert (El : hlen s3 = hlen s2) by (unfold hlen; rewrite (fi_heap _ _ Fi); reflexivity).
  split; [|split].
  - destruct H2 as [A B C]. split; [|rewrite (fi_sections _ _ Fi); exact B|rewrite (fi_prs _ _ Fi); exact C]. rewrite (fi_sections _ _ Fi). cbn [map]. 
    eapply Forall2_imp; [|exact A]. intros kv c (A1 & A2 & A3 & A4 & A5). split; [exact A1|]. rewrite Eh, El, (fi_root _ _ Fi). split; [exact A2|]. split; [exact A3|]. split; [exact A4|].
    eapply Forall2_imp; [|exact A5]. intros t x Bt. eapply built_ext; [|intros i _; apply Eh|exact Bt|lia|lia]. lia.
  - rewrite Eh, (fi_root _ _ Fi). apply (pi_rootn _ P2).
  - unfold finish_load, getP, bind, gets in F. rewrite !modD_run in F. injection F as <-. cbn [dmod s_doc set_s_doc d_decl_terms set_d_decl_terms set_d_decl_sections set_d_super set_d_derived].
    rewrite (ho_dterms _ _ H2), D2, D1. reflexivity.
Qed.

(** ** Writing what was read *)

Lemma built_rows : forall s dt cols, (forall q, value_name (s_doc s) q = value_name_in dt q) -> forall t above p a b q x f, writable dt cols above p t -> built s a b q t x ->
  b <= hlen s -> hlen s - x < f -> t_rt (tget q s) = p -> lower p = p -> exists l, term_rows f (s_heap s) (s_doc s) x = Ok l.
Proof.
  intros s dt cols VN t. induction t as [n v kids IH] using tree_ind'. intros above p a b q x f W H Hb Hf Hp Lp.
  pose proof (writable_inv _ _ _ _ _ _ _ W) as (C & Na & Tv & Vn1 & Vn2 & ND & Vc & Df & Wk).
  apply built_inv in H. destruct H as (Hx & R & V & P & (i & Si & Hi & Di) & K). destruct f as [|f]; [lia|]. cbn [term_rows]. fold (tget x s). rewrite Si. fold (tget i s). rewrite Di. cbn [negb].
  unfold qualified_term. rewrite P. cbn [rbind]. fold (tget q s). unfold rt_lc. rewrite Hp, R, Lp, (cn_lower _ C), VN. apply eqs_false in Vn1. unfold dotted. rewrite Vn1.
  destruct (@rmap_ok _ _ (term_rows f (s_heap s) (s_doc s)) (filter (fun c => negb (is_terminal (hget c (s_heap s)))) (t_children (tget x s)))) as (m & Em); [|rewrite Em; eexists; reflexivity].
  intros c I. apply filter_In in I. destruct I as [I _]. clear - IH Wk K I C R Hx Hb Hf. revert IH Wk. induction K as [|k y ks ys K1 K2 IHk]; intros IH Wk; [destruct I|].
  inversion IH as [|? ? IH1 IH2]; subst. inversion Wk as [|? ? W1 W2]; subst. destruct I as [->|I]; [|apply IHk; assumption].
  eapply IH1; [exact W1|exact K1|exact Hb| |reflexivity|apply C]. destruct k. apply built_inv in K1. lia.
Qed.

Lemma holds_rows : forall s dt decl o, (forall q, value_name (s_doc s) q = value_name_in dt q) -> writable_doc dt decl o -> holds s o ->
  t_rt (tget (d_root (s_doc s)) s) = "root" -> exists rows, doc_rows s = Ok rows.
Proof.
  intros s dt decl o VN W [H _ _] R. apply writable_all in W. unfold doc_rows. edestruct (@rmap_ok (string * nat) (list (list val))) as (m & E); [|rewrite E; eexists; reflexivity].
  intros kv I. cut (exists rows, section_rows (s_heap s) (s_doc s) (snd kv) = Ok rows).
  { intros (rows & E). rewrite E. eexists. reflexivity. }
  revert W. induction H as [|kv' c kvs cs (A1 & A2 & A3 & A4 & A5) _ IH]; intros W; [destruct I|]. apply Forall_cons_iff in W. destruct W as [W1 W2]. destruct I as [->|I]; [|apply IH; assumption].
  unfold section_rows. fold (tget (snd kv) s). edestruct (@rmap_ok nat (list (string * dict val))) as (m & E); [|rewrite E; eexists; reflexivity].
  intros x I. clear - A5 W1 I VN R. revert W1. induction A5 as [|t y ts ys B _ IH]; intros W1; [destruct I|]. apply Forall_cons_iff in W1. destruct W1 as [[W1 _] W2]. destruct I as [->|I]; [|apply IH; assumption].
  eapply built_rows; [exact VN|exact W1|exact B|lia| |exact R|reflexivity]. unfold heap_fuel, hlen. lia.
Qed.

Lemma c35_document : forall g s o rows, proper g -> plain_classes g -> in_fuel g <> 0 ->
  shows_doc s o -> writable_doc (d_decl_terms (s_doc s)) (declared_columns (in_secs g)) o -> doc_rows s = Ok rows ->
  exists texts s', written rows texts /\ loads g texts s' /\ shows_doc s' (map arrange_sect o).
Proof.
  intros g s o rows Pr PC Fu Sh W H. destruct (round_doc g _ o Pr PC Fu W) as (s' & L & Ho & R & _). exists (doc_texts o), s'.
  split; [eapply doc_rows_texts; [apply value_name_same|exact Sh|exact W|exact H]|]. split; [exact L|]. apply holds_shows; assumption.
Qed.

Lemma c35_again : forall g s o rows texts s', proper g -> plain_classes g -> in_fuel g <> 0 ->
  shows_doc s o -> writable_doc (d_decl_terms (s_doc s)) (declared_columns (in_secs g)) o -> doc_rows s = Ok rows ->
  (forall q, value_name_in (dupdate (in_terms g) installed_terms) q = value_name_in (d_decl_terms (s_doc s)) q) ->
  written rows texts -> loads g texts s' -> exists rows', doc_rows s' = Ok rows' /\ written rows' texts.
Proof.
  intros g s o rows texts s' Pr PC Fu Sh W H Vn Wr L. destruct (round_doc g _ o Pr PC Fu W) as (s2 & L2 & Ho & R & D).
  assert (T : texts = doc_texts o) by (eapply written_fun; [exact Wr|]; eapply doc_rows_texts; [apply value_name_same|exact Sh|exact W|exact H]). subst texts.
  unfold loads in *. rewrite L in L2. injection L2 as <-.
  assert (VN : forall q, value_name (s_doc s') q = value_name_in (d_decl_terms (s_doc s)) q) by (intros q; rewrite value_name_same, D; apply Vn).
  destruct (arrange_doc _ _ _ W) as [W' T]. destruct (holds_rows s' _ _ _ VN W' Ho R) as (rows' & E). exists rows'. split; [exact E|]. rewrite <- T. eapply doc_rows_texts; [exact VN|apply holds_shows; assumption|exact W'|exact E].
Qed.

(** ** Through a text *)

Lemma written_cells : forall rows texts, written rows texts -> map (map cell_text) rows = texts.
Proof.
  intros rows texts H. induction H as [|r t rs ts H1 _ IH]; [reflexivity|]. cbn [map]. rewrite IH. f_equal. clear - H1. induction H1 as [|v x vs xs H _ IH]; [reflexivity|]. cbn [map]. rewrite IH. f_equal. destruct H; reflexivity.
Qed.

Lemma c35_csv : forall g s o text, proper g -> plain_classes g -> in_fuel g <> 0 ->
  shows_doc s o -> writable_doc (d_decl_terms (s_doc s)) (declared_columns (in_secs g)) o -> doc_as_csv s = Ok text ->
  exists s', loads g (csv_read text) s' /\ shows_doc s' (map arrange_sect o)
    /\ ((forall q, value_name_in (dupdate (in_terms g) installed_terms) q = value_name_in (d_decl_terms (s_doc s)) q) -> doc_as_csv s' = Ok text).
Proof.
  intros g s o text Pr PC Fu Sh W H. destruct (as_csv_read _ _ H) as (rows & R & T). destruct (c35_document g s o rows Pr PC Fu Sh W R) as (texts & s' & Wr & L & S').
  exists s'. pose proof (written_cells _ _ Wr) as E. rewrite T, E. split; [exact L|]. split; [exact S'|]. intros Vn.
  destruct (c35_again g s o rows texts s' Pr PC Fu Sh W R Vn Wr L) as (rows' & R' & Wr'). unfold doc_as_csv in *. rewrite R in H. rewrite R'. cbn [rbind] in *. injection H as <-.
  rewrite (written_cells _ _ Wr'), E. reflexivity.
Qed.

(** ** Checking the conditions *)

Fixpoint has_suffix (t s : string) : bool := eqs s t || match s with String _ s' => has_suffix t s' | EmptyString => false end.
Lemma has_suffix_app : forall t w, has_suffix t (w ++ t) = true.
Proof. intros t w. induction w as [|c w IH]; cbn [append]; [destruct t; cbn [has_suffix]; rewrite eqs_refl; reflexivity|]. cbn [has_suffix]. rewrite IH. apply orb_true_r. Qed.

Lemma has_char_none : forall c s, has_char c s = false -> ~ In c (list_ascii_of_string s).
Proof.
  intros c s. induction s as [|a s IH]; cbn [has_char list_ascii_of_string]; intros H I; [destruct I|]. apply orb_false_iff in H. destruct H as [H1 H2]. destruct I as [->|I]; [rewrite Ascii.eqb_refl in H1; discriminate H1|exact (IH H2 I)].
Qed.

Definition cell_nameb (n : string) : bool :=
  negb (eqs n "") && negb (starts_blank n) && negb (ends_blank n) && negb (has_char "." n) && eqs (lower n) n && negb (has_char (ascii_of_nat 223) n)
  && match py_int n with None => true | Some _ => false end && negb (eqs n current_parent) && negb (startswith "#" n) && negb (has_suffix "root" n).
Lemma cell_nameb_ok : forall n, cell_nameb n = true -> cell_name n.
Proof.
  intros n H. unfold cell_nameb in H. repeat (apply andb_true_iff in H; destruct H as [H ?]). repeat match goal with E : negb _ = true |- _ => apply negb_true_iff in E end. split.
  - apply eqs_false. assumption.
  - apply tidy_iff. auto.
  - apply dot_free_iff. assumption.
  - apply eqs_true. assumption.
  - apply has_char_none. assumption.
  - destruct (py_int n); [discriminate|reflexivity].
  - apply eqs_false. assumption.
  - intros w ->. discriminate.
  - intros w ->. rewrite has_suffix_app in *. discriminate.
Qed.
