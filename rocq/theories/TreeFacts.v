(** * TreeFacts: proofs about flatten *)

From Coq Require Import DecimalString DecimalN.
From Verif Require Import ListFacts StrFacts SpecTree Misc TextFacts.

Lemma jv_ind' : forall P : jv -> Prop,
  (forall v, P (JVal v)) -> (forall l, Forall P l -> P (JList l)) ->
  (forall d, Forall (fun kv => P (snd kv)) d -> P (JDict d)) -> forall e, P e.
Proof.
  intros P Hv Hl Hd. fix F 1. intros [v|l|d].
  - apply Hv.
  - apply Hl. induction l; constructor; auto.
  - apply Hd. induction d as [|[k e] d IH]; constructor; [apply F|exact IH].
Qed.

Definition under (k : string) (l : list (list string * val)) := map (fun pv => (k :: fst pv, snd pv)) l.

Definition named (pk : string) (l : list (list string * val)) : list (string * val) :=
  map (fun pv => (join "." (if nonempty pk then pk :: fst pv else fst pv), snd pv)) l.


Lemma uint_zero_nonempty : forall u, NilZero.string_of_uint u <> "".
Proof. destruct u; discriminate. Qed.
Lemma str_of_nat_nonempty : forall n, str_of_nat n <> "".
Proof. intros n. apply uint_zero_nonempty. Qed.

Definition pre (pk : string) (l : list (string * val)) :=
  map (fun kv => (((if nonempty pk then pk ++ "." else "") ++ fst kv)%string, snd kv)) l.

Lemma pre_named : forall pk k l, k <> "" -> pre pk (named k l) = named pk (under k l).
Proof.
  intros pk k l N. unfold pre, named, under. rewrite !map_map. apply map_ext. intros [p v]. cbn [fst snd].
  rewrite (proj2 (nonempty_true k) N). f_equal. destruct (nonempty pk); [|reflexivity].
  destruct p; cbn [join]; rewrite ?app_s_assoc; reflexivity.
Qed.

Lemma flat_spec : forall e, keyed e -> forall pk, flat "." pk e = named pk (leaves e).
Proof.
  induction e as [v|l IH|d IH] using jv_ind'; intros K pk.
  - cbn. unfold named. cbn. destruct (nonempty pk) eqn:E; [reflexivity|].
    apply nonempty_false in E. subst. reflexivity.
  - inversion K as [| |? K1]; subst. cbn [flat leaves].
    assert (G : forall i,
      (fix go (i : nat) (l : list jv) : list (string * val) :=
         match l with
         | [] => []
         | v :: l' => pre pk (flat "." (str_of_nat i) v) ++ go (S i) l'
         end) i l
      = named pk (concat (map (fun ie => under (str_of_nat (fst ie)) (snd ie))
                           (combine (seq i (List.length l)) (map leaves l))))).
    { clear K. induction l as [|e l IHl]; intros i; [reflexivity|].
      inversion IH; subst. inversion K1; subst. cbn [List.length seq map combine concat fst snd].
      rewrite IHl by assumption. rewrite H1 by assumption. rewrite pre_named by apply str_of_nat_nonempty.
      unfold named. rewrite map_app. reflexivity. }
    apply G.
  - inversion K as [|? K1|]; subst. cbn [flat leaves].
    assert (G :
      (fix go (d : list (string * jv)) : list (string * val) :=
         match d with
         | [] => []
         | (k, v) :: d' => pre pk (flat "." k v) ++ go d'
         end) d
      = named pk (concat (map (fun kv => under (fst kv) (leaves (snd kv))) d))).
    { clear K. induction d as [|[k e] d IHd]; [reflexivity|].
      inversion IH as [|? ? I1 I2]; subst. inversion K1 as [|? ? [K2 K3] K4]; subst. cbn [fst snd map concat] in *.
      rewrite IHd by assumption. rewrite I1 by assumption. rewrite pre_named by exact K2.
      unfold named. rewrite map_app. reflexivity. }
    apply G.
Qed.

Lemma flatten_spec : forall e, keyed e -> flatten e = map (fun pv => (join "." (fst pv), snd pv)) (leaves e).
Proof. intros e K. unfold flatten. rewrite flat_spec by exact K. reflexivity. Qed.

Lemma in_combine_seq : forall {A} (l : list A) i n x, In (n, x) (combine (seq i (List.length l)) l) <->
  i <= n /\ nth_error l (n - i) = Some x.
Proof.
  induction l; intros i n x; cbn [List.length seq combine In].
  - split; [tauto|]. intros [_ H]. destruct (n - i); discriminate.
  - rewrite IHl. split.
    + intros [H|[H1 H2]].
      * injection H as -> ->. split; [lia|]. rewrite Nat.sub_diag. reflexivity.
      * split; [lia|]. replace (n - i) with (S (n - S i)) by lia. exact H2.
    + intros [H1 H2]. destruct (Nat.eq_dec i n) as [->|N].
      * rewrite Nat.sub_diag in H2. injection H2 as ->. auto.
      * right. split; [lia|]. replace (n - i) with (S (n - S i)) in H2 by lia. exact H2.
Qed.

Lemma leaves_path : forall e p v, In (p, v) (leaves e) <-> at_path e p v.
Proof.
  assert (U : forall k l p v, In (p, v) (map (fun pv : list string * val => (k :: fst pv, snd pv)) l) <->
    exists q, p = k :: q /\ In (q, v) l).
  { intros. rewrite in_map_iff. split.
    - intros ([q w] & E & I). cbn in E. injection E as <- <-. eauto.
    - intros (q & -> & I). exists (q, v). auto. }
  induction e as [w|l IH|d IH] using jv_ind'; intros p v; cbn [leaves].
  - cbn. split.
    + intros [H|[]]. injection H as <- <-. constructor.
    + intros H. inversion H; subst. auto.
  - rewrite in_concat. split.
    + intros (x & I & Iv). apply in_map_iff in I. destruct I as ([i y] & <- & I). cbn [fst snd] in Iv.
      apply U in Iv. destruct Iv as (q & -> & Iq).
      rewrite <- (map_length leaves l) in I. apply in_combine_seq in I. destruct I as [_ I]. rewrite Nat.sub_0_r in I.
      rewrite nth_error_map in I. destruct (nth_error l i) as [e|] eqn:E; [|discriminate]. injection I as <-.
      apply nth_error_In in E as E'. rewrite Forall_forall in IH. apply (IH e E') in Iq. eapply at_index; eauto.
    + intros H. inversion H as [| |? i e q ? E Hq]; subst.
      apply nth_error_In in E as E'. rewrite Forall_forall in IH. apply (IH e E') in Hq.
      exists (map (fun pv => (str_of_nat i :: fst pv, snd pv)) (leaves e)). split; [|apply U; eauto].
      apply in_map_iff. exists (i, leaves e). split; [reflexivity|]. rewrite <- (map_length leaves l).
      apply in_combine_seq. split; [lia|]. rewrite Nat.sub_0_r, nth_error_map, E. reflexivity.
  - rewrite in_concat. split.
    + intros (x & I & Iv). apply in_map_iff in I. destruct I as ([k e] & <- & I). cbn [fst snd] in Iv.
      apply U in Iv. destruct Iv as (q & -> & Iq). rewrite Forall_forall in IH. apply (IH (k, e) I) in Iq.
      eapply at_key; eauto.
    + intros H. inversion H as [|? k e q ? I Hq|]; subst. rewrite Forall_forall in IH. apply (IH (k, e) I) in Hq.
      exists (map (fun pv => (k :: fst pv, snd pv)) (leaves e)). split; [|apply U; eauto].
      apply in_map_iff. exists (k, e). auto.
Qed.

Lemma flatten_leaves : forall e, keyed e -> forall n v,
  In (n, v) (flatten e) <-> exists p, at_path e p v /\ n = join "." p.
Proof.
  intros e K n v. rewrite flatten_spec by exact K. rewrite in_map_iff. split.
  - intros ([p w] & E & I). cbn in E. injection E as <- <-. exists p. split; [apply leaves_path; exact I|reflexivity].
  - intros (p & H & ->). exists (p, v). split; [reflexivity|apply leaves_path; exact H].
Qed.

(** ** No name twice *)

Lemma to_uint_nonnil : forall n, N.to_uint n <> Decimal.Nil.
Proof. intros n H. pose proof (DecimalN.Unsigned.of_to n) as X. rewrite H in X. cbn in X. subst. discriminate. Qed.

Lemma str_of_nat_inj : forall i j, str_of_nat i = str_of_nat j -> i = j.
Proof.
  intros i j H. unfold str_of_nat, str_of_N in H.
  apply (f_equal NilZero.uint_of_string) in H.
  rewrite !NilZero.usu in H by apply to_uint_nonnil. injection H as H.
  apply DecimalN.Unsigned.to_uint_inj in H. apply Nat2N.inj. exact H.
Qed.

Lemma uint_no_dot : forall u, has_char "." (NilZero.string_of_uint u) = false.
Proof.
  assert (E : forall u, has_char "." (NilEmpty.string_of_uint u) = false) by (induction u; cbn; auto).
  destruct u; cbn; auto.
Qed.
Lemma str_of_nat_no_dot : forall n, has_char "." (str_of_nat n) = false.
Proof. intros. apply uint_no_dot. Qed.

Lemma nodup_concat_under : forall (l : list (string * list (list string * val))),
  NoDup (map fst l) -> Forall (fun kl => NoDup (map fst (snd kl))) l ->
  NoDup (map fst (concat (map (fun kl => under (fst kl) (snd kl)) l))).
Proof.
  assert (U : forall k l, map fst (under k l) = map (cons k) (map fst l)).
  { intros. unfold under. rewrite !map_map. reflexivity. }
  induction l as [|[k x] l IH]; intros N F; [constructor|]. cbn [map fst snd concat] in *.
  inversion N as [|? ? N1 N2]; subst. inversion F as [|? ? F1 F2]; subst. cbn [snd] in F1.
  rewrite map_app, U. apply NoDup_app_intro.
  - apply FinFun.Injective_map_NoDup; [intros a b E; injection E; auto|exact F1].
  - apply IH; assumption.
  - intros p I1 I2. apply in_map_iff in I1. destruct I1 as (q & <- & _).
    apply in_map_iff in I2. destruct I2 as ([p2 v] & E & I2). cbn in E. subst.
    apply in_concat in I2. destruct I2 as (y & I2 & I3). apply in_map_iff in I2. destruct I2 as ([k2 l2] & <- & I2).
    cbn [fst snd] in I3. apply (in_map fst) in I3. rewrite U in I3. apply in_map_iff in I3. destruct I3 as (? & E & _).
    injection E as -> _. apply N1. apply (in_map fst) in I2. exact I2.
Qed.

Lemma combine_fst : forall {A B} (a : list A) (b : list B), List.length a = List.length b -> map fst (combine a b) = a.
Proof. induction a; destruct b; intros H; try discriminate; [reflexivity|]. cbn. f_equal. apply IHa. auto. Qed.

Lemma leaves_nodup : forall e, plain_keys e -> NoDup (map fst (leaves e)).
Proof.
  induction e as [v|l IH|d IH] using jv_ind'; intros P; cbn [leaves].
  - repeat constructor. intros [].
  - inversion P as [| |? P1]; subst.
    rewrite <- (map_map (fun ie : nat * _ => (str_of_nat (fst ie), snd ie)) (fun kl => under (fst kl) (snd kl))).
    apply nodup_concat_under.
    + rewrite map_map. cbn [fst]. rewrite <- (map_map fst str_of_nat), combine_fst by (rewrite seq_length, map_length; reflexivity).
      apply FinFun.Injective_map_NoDup; [exact str_of_nat_inj|apply seq_NoDup].
    + apply Forall_forall. intros [k x] I. cbn [snd]. apply in_map_iff in I. destruct I as ([i y] & E & I).
      injection E as <- <-. apply in_combine_r in I. apply in_map_iff in I. destruct I as (e & <- & I).
      rewrite Forall_forall in IH, P1. auto.
  - inversion P as [|? P1 P2|]; subst.
    rewrite <- (map_map (fun kv : string * jv => (fst kv, leaves (snd kv))) (fun kl => under (fst kl) (snd kl))).
    apply nodup_concat_under.
    + rewrite map_map. exact P1.
    + apply Forall_forall. intros [k x] I. cbn [snd]. apply in_map_iff in I. destruct I as ([k2 e] & E & I).
      injection E as <- <-. rewrite Forall_forall in IH, P2. cbn [snd] in *.
      apply (IH (k2, e) I). apply (P2 (k2, e) I).
Qed.

Lemma leaves_dotfree : forall e p v, plain_keys e -> at_path e p v -> Forall (fun k => has_char "." k = false) p.
Proof.
  intros e p v P H. induction H as [|d k e p v I _ IH|l i e p v E _ IH]; [constructor| |].
  - inversion P as [|? P1 P2|]; subst. rewrite Forall_forall in P2. apply P2 in I. cbn [fst snd] in I.
    constructor; [apply has_char_in; tauto|apply IH; tauto].
  - inversion P as [| |? P1]; subst. apply nth_error_In in E. rewrite Forall_forall in P1.
    constructor; [apply str_of_nat_no_dot|apply IH; auto].
Qed.

Lemma join_inj : forall p q, Forall (fun k => has_char "." k = false) p -> Forall (fun k => has_char "." k = false) q ->
  p <> [] -> q <> [] -> join "." p = join "." q -> p = q.
Proof.
  intros p q Fp Fq Np Nq E. rewrite Forall_forall in Fp, Fq.
  rewrite <- (split_join "." p Np Fp), <- (split_join "." q Nq Fq). f_equal. exact E.
Qed.

Lemma flatten_nodup : forall e, keyed e -> plain_keys e -> NoDup (map fst (flatten e)).
Proof.
  intros e K P. rewrite flatten_spec by exact K. rewrite map_map. cbn [fst].
  pose proof (leaves_nodup e P) as N.
  assert (F : forall p, In p (map fst (leaves e)) -> Forall (fun k => has_char "." k = false) p).
  { intros p I. apply in_map_iff in I. destruct I as ([q v] & <- & I). apply leaves_path in I. eapply leaves_dotfree; eauto. }
  destruct e as [v|l|d]; [repeat constructor; intros []| |].
  all: match goal with |- NoDup (map _ (leaves ?e)) => 
    assert (NN : forall p, In p (map fst (leaves e)) -> p <> []);
    [intros p I; apply in_map_iff in I; destruct I as ([q w] & <- & I); apply leaves_path in I; inversion I; discriminate|];
    rewrite <- (map_map fst (join "."));
    remember (map fst (leaves e)) as L eqn:HL; clear HL end.
  all: induction L as [|p L IH]; [constructor|]; inversion N as [|? ? N1 N2]; subst; cbn [map]; constructor;
    [|apply IH; auto; intros q I; [apply F|apply NN]; right; exact I].
  all: intros X; apply in_map_iff in X; destruct X as (q & E & I); apply N1; 
    replace p with q; [exact I|]; apply join_inj; auto;
    first [apply F; cbn; auto|apply NN; cbn; auto].
Qed.
