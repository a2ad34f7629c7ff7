(** * WriteFacts: cleaning, writing and names with another version *)

From Coq Require Import Lia.
From Verif Require Import ListFacts StrFacts HeapFacts SpecNames NameFacts RunFacts TotalFacts SpecInv InvFacts ListOps SpecFind SpecEdit OpFacts FindFacts EditFacts DocProps SpecMaint Maint MaintFacts VersionFacts GenFacts IntFacts.

Section WithQuirks.
Context {QK : Quirks}.

(** ** cleanse *)

Lemma cleanse_run : forall s uuid, ordinary s -> uuid <> "" ->
  exists s', cleanse uuid s = (s', Ok tt) /\ ordinary s' /\ (forall uuid', cleanse uuid' s' = (s', Ok tt))
    /\ (exists i, identifier s' i /\ truthy (t_val (tget i s')) = true)
    /\ (forall nt ds, name_term s' nt -> value_at s' "Root.Dataset" SAny ds -> truthy ds = true -> agrees s' nt).
Proof.
  intros s uuid O NU. destruct (ensure_ordinary s uuid O NU) as (s0 & i & E & O0 & I0 & T0). destruct (c44_again s0 uuid false false true O0 NU) as (s' & msgs & RUN & O' & (j & IJ & TJ) & AG & AGR & _).
  exists s'. split; [|split; [exact O'|split; [|split; [eauto|exact AGR]]]].
  - unfold cleanse. rewrite (bind_run _ _ _ _ _ E). cbv beta. unfold catch_metatab, bind. rewrite RUN. reflexivity.
  - intros uuid'. unfold cleanse. rewrite (bind_run _ _ _ _ _ (identifier_kept s' uuid' j IJ TJ)). cbv beta. destruct (AG uuid' true) as (m' & R' & _). unfold catch_metatab, bind. rewrite R'. reflexivity.
Qed.

(** ** write *)

Lemma write_run : forall s uuid path, suffix path = ".csv" \/ suffix path = ".txt" ->
  write uuid path s = match content_of path s with
    | Err e => (s, Err e)
    | Ok t => match cleanse uuid s with (s', Ok _) => (s', Ok (Some (path, t))) | (s', Err e) => (s', Err e) end
    end.
Proof.
  intros s uuid path H. unfold write, content_of, write_csv, write_lines. destruct H as [E|E]; rewrite E; cbn [eqs]; unfold bind, reads.
  - change (eqs ".csv" ".txt") with false. change (eqs ".csv" ".csv") with true. cbn [negb]. destruct (doc_as_csv s); [|reflexivity]. destruct (cleanse uuid s) as [s' [u|e]]; reflexivity.
  - change (eqs ".txt" ".txt") with true. cbn [negb]. destruct (doc_as_lines s); [|reflexivity]. destruct (cleanse uuid s) as [s' [u|e]]; reflexivity.
Qed.
Lemma write_wrong : forall s uuid path, suffix path <> ".csv" -> suffix path <> ".txt" -> write uuid path s = (s, Err EFormat).
Proof. intros s uuid path A B. unfold write. rewrite (proj2 (eqs_false _ _) B), (proj2 (eqs_false _ _) A). reflexivity. Qed.
Lemma c40_again : forall s uuid path t, ordinary s -> uuid <> "" -> suffix path = ".csv" \/ suffix path = ".txt" -> content_of path s = Ok t ->
  exists s', write uuid path s = (s', Ok (Some (path, t))) /\ ordinary s' /\ forall uuid' path' t', suffix path' = ".csv" \/ suffix path' = ".txt" -> content_of path' s' = Ok t' -> write uuid' path' s' = (s', Ok (Some (path', t'))).
Proof.
  intros s uuid path t O NU SF C. destruct (cleanse_run s uuid O NU) as (s' & CL & O' & AG & _). exists s'. split; [|split; [exact O'|]].
  - rewrite write_run by exact SF. rewrite C, CL. reflexivity.
  - intros uuid' path' t' SF' C'. rewrite write_run by exact SF'. rewrite C', AG. reflexivity.
Qed.

(** ** as_version *)

Lemma named_by : forall l m, concat (map name_part l) = m -> name_parts l m.
Proof. intros l m <-. apply name_parts_run. Qed.

Lemma as_version_plain : forall s v m l, ordinary s -> version_term s v -> (forall n, In n parts -> no_child s v n) -> name_values s l ->
  as_version m s = match new_mv (t_val (tget v s)) m with
    | Err e => (s, Err e)
    | Ok VNone => (s, Ok (join "-" (concat (map name_part (l ++ [VNone])))))
    | Ok x => (hmod v (set_t_val x) s, Ok (join "-" (concat (map name_part (l ++ [x])))))
    end.
Proof.
  intros s v m l O V NP NV. pose proof (settled_plain s v V NP) as S. unfold as_version. rewrite (generate_run s m l s _ NV (settled_run s _ O S)).
  rewrite (tail_run s _ m l false (Some v) (t_val (tget v s)) O S (semver_plain s v O V NP)); [|cbv iota; rewrite (short_version s _ O); exact V|reflexivity].
  destruct (ordinary_version s v O V) as ((P & _) & _).
  assert (U : forall x, update_version (hmod v (set_t_val x) s) = (hmod v (set_t_val x) s, Ok x)).
  { intros x. pose proof (set_ordinary s v x O P) as O2. pose proof (revalued_set s v x (proj2 P)) as R.
    assert (V2 : version_term (hmod v (set_t_val x) s) v) by (unfold version_term; rewrite (rv_find_first s _ R (or_order s O)); exact V).
    assert (S2 : settled (hmod v (set_t_val x) s) (t_val (tget v (hmod v (set_t_val x) s)))) by (apply settled_plain; [exact V2|intros n I; apply no_set; apply NP; exact I]).
    rewrite (settled_run _ _ O2 S2). rewrite tget_hmod by apply P. rewrite Nat.eqb_refl. reflexivity. }
  destruct (new_mv _ m) as [x|e]; [|reflexivity]. destruct x; [reflexivity|..]; rewrite U; reflexivity.
Qed.

Lemma as_version_text : forall s v c y l, ordinary s -> version_term s v -> (forall n, In n parts -> no_child s v n) -> name_values s l -> c <> "+"%char -> c <> "-"%char ->
  exists m, name_parts (l ++ [VStr (String c y)]) m /\ as_version (MvStr (String c y)) s = (hmod v (set_t_val (VStr (String c y))) s, Ok (join "-" m)).
Proof.
  intros s v c y l O V NP NV A B. rewrite (as_version_plain s v _ l O V NP NV). apply Ascii.eqb_neq in A, B. cbn [new_mv]. rewrite A, B. cbn [orb]. eexists. split; [apply name_parts_run|reflexivity].
Qed.
(** '+k' and '-k' *)
Lemma as_version_step : forall s v (up : bool) text z k l, ordinary s -> version_term s v -> (forall n, In n parts -> no_child s v n) -> name_values s l -> int_of (t_val (tget v s)) = Ok z -> step_of text = Ok k ->
  let x := VStr (str_of_Z (if up then (z + k)%Z else (z - k)%Z)) in
  exists m, name_parts (l ++ [x]) m /\ as_version (MvStr (String (if up then "+" else "-")%char text)) s = (hmod v (set_t_val x) s, Ok (join "-" m)).
Proof.
  intros s v up text z k l O V NP NV Z K x. rewrite (as_version_plain s v _ l O V NP NV). cbn [new_mv]. unfold x. destruct up; cbn [Ascii.eqb orb]; rewrite Z, K; cbn [rbind]; (eexists; split; [apply name_parts_run|reflexivity]).
Qed.

Lemma c41_accumulates : forall n s v text z k, ordinary s -> version_term s v -> (forall p, In p parts -> no_child s v p) -> int_of (t_val (tget v s)) = Ok z -> step_of text = Ok k ->
  int_of (t_val (tget v (calls n (MvStr (String "+" text)) s))) = Ok (z + Z.of_nat n * k)%Z.
Proof.
  induction n as [|n IH]; intros s v text z k O V NP Z K; [cbn [calls]; rewrite Z; f_equal; lia|]. cbn [calls]. destruct (name_values_some s O) as (l & NV).
  destruct (as_version_step s v true text z k l O V NP NV Z K) as (m & _ & RUN). cbv iota in RUN. rewrite RUN. cbn [fst]. destruct (ordinary_version s v O V) as ((P & _) & _). pose proof (revalued_set s v (VStr (str_of_Z (z + k))) (proj2 P)) as R.
  rewrite (IH _ v text (z + k)%Z k).
  - f_equal. lia.
  - apply set_ordinary; assumption.
  - unfold version_term. rewrite (rv_find_first s _ R (or_order s O)). exact V.
  - intros p I. apply no_set. apply NP. exact I.
  - rewrite tget_hmod by apply P. rewrite Nat.eqb_refl. cbn. rewrite int_str. reflexivity.
  - exact K.
Qed.
(** False and None *)
Lemma c41_keep : forall s w l, ordinary s -> settled s w -> name_values s l ->
  exists ver m, shown s w ver /\ name_parts (l ++ [ver]) m /\ as_version MvKeep s = (s, Ok (join "-" m)).
Proof.
  intros s w l O S NV. destruct (tail_keep s w l O S) as (ver & SH & T). eexists. eexists. split; [exact SH|]. split; [apply name_parts_run|]. unfold as_version. rewrite (generate_run s MvKeep l s w NV (settled_run s w O S)). exact T.
Qed.
Lemma key_some : forall s, ordinary s -> exists b o, has_semver s = (s, Ok b) /\ doc_find_first s (if b then "Version.Patch" else "Version") VFalse (SOne "Root") = Ok o.
Proof.
  intros s O.
  assert (F : forall b : bool, exists o, doc_find_first s (if b then "Version.Patch" else "Version") VFalse (SOne "Root") = Ok o).
  { intros [|].
    - destruct (find_ok s "Version.Patch" (SOne "Root") (or_order s O) patch_tidy (or_derived s O "Version.Patch" ltac:(used))) as (k & L). eexists. exact (find_first_spec _ _ _ _ _ L).
    - rewrite (short_version s _ O). destruct (version_cases s O) as [N|(v & V)]; eexists; eassumption. }
  destruct (version_cases s O) as [N|(v & V)]; [|destruct (parts_cases s v) as [(x & EX)|NP]].
  - exists false. destruct (F false) as (o & E). exists o. split; [apply (semver_none s O N)|exact E].
  - exists true. destruct (F true) as (o & E). exists o. split; [apply (semver_some s v x O V EX)|exact E].
  - exists false. destruct (F false) as (o & E). exists o. split; [apply (semver_plain s v O V NP)|exact E].
Qed.
Lemma c41_without : forall s l, ordinary s -> name_values s l -> exists s1 w m, update_version s = (s1, Ok w) /\ name_parts l m /\ as_version MvNone s = (s1, Ok (join "-" m)).
Proof.
  intros s l O NV. destruct (update_settles s O) as (s1 & w & [U S O1 _ _ _ _]). exists s1, w, (concat (map name_part l)). split; [exact U|]. split; [apply name_parts_run|].
  unfold as_version. rewrite (generate_run s MvNone l s1 w NV U). destruct (key_some s1 O1) as (b & o & B & F). rewrite (tail_run s1 w MvNone l b o _ O1 S B F eq_refl). cbn [new_mv]. rewrite map_app, concat_app. cbn. rewrite app_nil_r. reflexivity.
Qed.
(** a version with parts: the patch is changed *)
Lemma as_version_parts : forall s v a b c d l m x, ordinary s -> version_term s v -> first_child s v "Major" a -> first_child s v "Minor" b -> first_child s v "Patch" c -> build_of s v d ->
  t_val (tget a s) <> VNone -> t_val (tget b s) <> VNone -> t_val (tget c s) <> VNone -> t_val (tget v s) = VStr (version_text s a b c d) ->
  doc_find_first s "Version.Patch" VFalse (SOne "Root") = Ok (Some c) -> name_values s l -> new_mv (t_val (tget c s)) m = Ok x -> x <> VNone ->
  let s1 := hmod c (set_t_val x) s in let w := VStr (version_text s1 a b c d) in
  exists p, name_parts (l ++ [w]) p /\ as_version m s = (hmod v (set_t_val w) s1, Ok (join "-" p)).
Proof.
  intros s v a b c d l m x O V A B C D NA NB NC T F NV X NX s1 w. pose proof (settled_parts s v a b c d V A B C D NA NB NC T) as S. destruct (ordinary_version s v O V) as (IV & LV). pose proof (proj1 IV) as P.
  assert (PC : part_of s v a) by (exists "Major"; split; [exact in_major|exact A]).
  assert (PL : is_plain s c) by (destruct C as (p & q & E & _); destruct (ok_child s (io_ok s (or_order s O)) v c) as (_ & Y & _); [rewrite E; apply in_elt|exact Y]).
  pose proof (revalued_set s c x (proj2 PL)) as R. destruct (or_root s O) as (r & RS).
  assert (U : update_version s1 = (hmod v (set_t_val w) s1, Ok w)).
  { apply (update_done s1 r v a b c d).
    - apply (or_order s1 (set_ordinary s c x O PL)).
    - unfold secs, s1. rewrite doc_hmod. exact RS.
    - unfold version_term, s1. rewrite (rv_find_first s _ R (or_order s O)). exact V.
    - apply (ordinary_version s1 v (set_ordinary s c x O PL)). unfold version_term, s1. rewrite (rv_find_first s _ R (or_order s O)). exact V.
    - apply first_set. exact A.
    - apply first_set. exact B.
    - apply first_set. exact C.
    - unfold s1. rewrite tget_hmod by apply PL. destruct (a =? c); [exact NX|exact NA].
    - unfold s1. rewrite tget_hmod by apply PL. destruct (b =? c); [exact NX|exact NB].
    - unfold s1. rewrite tget_hmod by apply PL. rewrite Nat.eqb_refl. exact NX.
    - destruct d; cbn in D |- *; [apply first_set|apply no_set]; exact D. }
  eexists. split; [apply name_parts_run|]. unfold as_version. rewrite (generate_run s m l s _ NV (settled_run s _ O S)). rewrite (tail_run s _ m l true (Some c) _ O S (semver_some s v a O V PC) F eq_refl), X. fold s1.
  destruct x; [contradiction|..]; rewrite U; reflexivity.
Qed.

(** ** Accents *)

Lemma c44_accent : exists e m, name_parts [e] m /\ (forall c, In c (list_ascii_of_string (str_val e)) -> isspace c = false) /\ split_on "-" (join "-" m) <> m.
Proof.
  exists (VStr (String "a" (String (ascii_of_nat 180) "b"))). eexists. split; [apply np_take; [|apply np_nil]|split].
  - intros H. apply blank_val_iff in H. vm_compute in H. discriminate H.
  - intros c I. cbn in I. destruct I as [<-|[<-|[<-|[]]]]; reflexivity.
  - vm_compute. discriminate.
Qed.

End WithQuirks.
