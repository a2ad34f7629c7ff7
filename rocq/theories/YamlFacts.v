(** * YamlFacts: proofs about the YAML source *)

From Verif Require Import StrFacts HeapFacts SpecTree SpecStray Misc TextFacts TreeFacts.

Section Yield.
Variable decl : dict tdecl.
Let vn (n : string) : string :=
  match dget n decl with
  | Some td => match dget "termvaluename" (td_props td) with Some x => lower x | None => "" end
  | None => ""
  end.

Definition skipped (skip : option string) (k : string) : bool := match skip with Some x => eqs x k | None => false end.

Lemma y_skip : forall par skip k v d, skipped skip k = true ->
  yield_dict decl par skip (JDict ((k, v) :: d)) = yield_dict decl par skip (JDict d).
Proof. intros par skip k v d H. unfold skipped in H. cbn [yield_dict]. rewrite H. reflexivity. Qed.

Lemma y_value : forall par skip k v d, skipped skip k = false ->
  yield_dict decl par skip (JDict ((k, JVal v) :: d))
  = (do? rest <- yield_dict decl par skip (JDict d) ;; Ok ((yaml_name par k, JVal v, par) :: rest)).
Proof. intros par skip k v d H. unfold skipped in H. cbn [yield_dict]. rewrite H. reflexivity. Qed.

Lemma y_dict : forall par skip k d' d, skipped skip k = false ->
  yield_dict decl par skip (JDict ((k, JDict d') :: d))
  = (do? here <- yield_dict decl (Some (yaml_name par k)) None (JDict d') ;;
     do? rest <- yield_dict decl par skip (JDict d) ;; Ok (here ++ rest)).
Proof. intros par skip k d' d H. unfold skipped in H. cbn [yield_dict]. rewrite H. reflexivity. Qed.

Lemma y_list_nil : forall par skip k d, skipped skip k = false ->
  yield_dict decl par skip (JDict ((k, JList []) :: d)) = yield_dict decl par skip (JDict d).
Proof.
  intros par skip k d H. unfold skipped in H. cbn [yield_dict]. rewrite H. cbn [rbind].
  match goal with |- (do? rest <- ?m ;; _) = _ => destruct m; reflexivity end.
Qed.

Lemma y_list_cons : forall par skip k item l d, skipped skip k = false ->
  yield_dict decl par skip (JDict ((k, JList (JDict item :: l)) :: d))
  = (do? here <- (match dget (vn (yaml_name par k)) item with
       | Some value => do? sub <- yield_dict decl (Some (yaml_name par k)) (Some (vn (yaml_name par k))) (JDict item) ;;
                       Ok ((yaml_name par k, value, par) :: sub)
       | None => yield_dict decl (Some (yaml_name par k)) None (JDict item)
       end) ;;
     do? rest <- yield_dict decl par skip (JDict ((k, JList l) :: d)) ;; Ok (here ++ rest)).
Proof.
  intros par skip k item l d H. unfold skipped in H. cbn [yield_dict]. rewrite H.
  fold (yaml_vtn decl (yaml_name par k)). change (vn (yaml_name par k)) with (yaml_vtn decl (yaml_name par k)).
  match goal with |- (do? out <- (do? here <- ?m ;; _) ;; _) = _ => destruct m as [here|e] end; [|reflexivity].
  cbn [rbind].
  match goal with |- (do? out <- (do? rest <- ?m ;; _) ;; _) = _ => destruct m as [rest|e] end; [|reflexivity].
  cbn [rbind].
  match goal with |- (do? rest <- ?m ;; _) = _ => destruct m as [rest2|e] end; [|reflexivity].
  cbn [rbind]. rewrite app_assoc. reflexivity.
Qed.

Lemma yaml_name_qual : forall path k, Forall (fun x => has_char "." x = false) path ->
  yaml_name (parent_name path) k = qual (path ++ [k]).
Proof.
  intros path k F. unfold yaml_name, parent_name, qual. rewrite rev_app_distr. cbn [rev app].
  destruct path as [|a path]; [reflexivity|].
  destruct (rev (a :: path)) as [|x r] eqn:E.
  { apply (f_equal (@rev string)) in E. rewrite rev_involutive in E. discriminate. }
  assert (Hx : has_char "." x = false).
  { rewrite Forall_forall in F. apply F. apply in_rev. rewrite E. left. reflexivity. }
  assert (Hl : has_char "." (lower x) = false).
  { rewrite has_dot_lower. exact Hx. }
  assert (G : forall q, has_char "." q = false -> 
    lower (last (split_on "." (if nonempty (q ++ "." ++ lower x) then q ++ "." ++ lower x else "Root")) "" ++ "." ++ k)
    = (lower x ++ "." ++ lower k)%string).
  { intros q Hq. assert (N : nonempty (q ++ "." ++ lower x) = true) by (apply nonempty_true; destruct q; discriminate).
    rewrite N. assert (S : split_on "." (q ++ "." ++ lower x) = [q; lower x]).
    { apply (split_join "." [q; lower x]); [discriminate|]. intros y [<-|[<-|[]]]; assumption. }
    rewrite S. cbn [last]. rewrite lower_app, lower_idem. reflexivity. }
  destruct r as [|y r].
  - exact (G "root" eq_refl).
  - apply (G (lower y)). rewrite has_dot_lower. rewrite Forall_forall in F. apply F. apply in_rev. rewrite E.
    right. left. reflexivity.
Qed.

Lemma find_dget : forall {A} k (d : dict A),
  match find (fun kv => String.eqb k (fst kv)) d with Some kv => Some (snd kv) | None => None end = dget k d.
Proof. induction d as [|[k' x] d IH]; [reflexivity|]. cbn [find fst dget]. unfold eqs. destruct (String.eqb k k'); [reflexivity|exact IH]. Qed.

Lemma without_skip : forall skip (items : list (string * jv)),
  (match skip with Some x => without x items | None => items end)
  = filter (fun kv => negb (skipped skip (fst kv))) items.
Proof.
  intros [x|] items; cbn [skipped]; [reflexivity|].
  induction items; [reflexivity|]. cbn. f_equal. exact IHitems.
Qed.

Lemma skip_head : forall par skip items k e d,
  (k, e) :: d = filter (fun kv => negb (skipped skip (fst kv))) items ->
  exists items', yield_dict decl par skip (JDict items) = yield_dict decl par skip (JDict ((k, e) :: items'))
    /\ d = filter (fun kv => negb (skipped skip (fst kv))) items' /\ skipped skip k = false.
Proof.
  induction items as [|[k0 e0] items IH]; intros k e d E; [discriminate|]. cbn [filter fst] in E.
  destruct (skipped skip k0) eqn:S; cbn [negb] in E.
  - rewrite y_skip by exact S. apply IH. exact E.
  - injection E as -> -> ->. exists items. auto.
Qed.
Lemma skip_all : forall par skip items,
  [] = filter (fun kv : string * jv => negb (skipped skip (fst kv))) items -> yield_dict decl par skip (JDict items) = Ok [].
Proof.
  induction items as [|[k0 e0] items IH]; intros E; [reflexivity|]. cbn [filter fst] in E.
  destruct (skipped skip k0) eqn:S; cbn [negb] in E; [|discriminate]. rewrite y_skip by exact S. auto.
Qed.

Lemma yield_nodes : forall path d ns, as_nodes vn path d ns ->
  Forall (fun x => has_char "." x = false) path -> Forall dotless ns ->
  forall skip items, d = filter (fun kv => negb (skipped skip (fst kv))) items ->
  yield_dict decl (parent_name path) skip (JDict items) = Ok (concat (map (emitted path) ns)).
Proof.
  assert (P : forall path k, Some (qual (path ++ [k])) = parent_name (path ++ [k])).
  { intros path k. destruct path; reflexivity. }
  assert (K : forall path k, Forall (fun x => has_char "." x = false) path -> ~ In "."%char (list_ascii_of_string k) ->
    Forall (fun x => has_char "." x = false) (path ++ [k])).
  { intros path k F N. apply Forall_app. split; [exact F|]. constructor; [apply has_char_in; exact N|constructor]. }
  induction 1 as [path|path k v d ns _ IH|path k d' kids d ns _ IH1 _ IH2|path k d ns _ IH|path k item l kids value d ns Hv _ IH1 _ IH2];
    intros Fp Fn skip items E.
  - apply skip_all. exact E.
  - destruct (skip_head (parent_name path) skip items _ _ _ E) as (items' & -> & E' & S).
    inversion Fn; subst. rewrite y_value by exact S. rewrite (IH Fp H2 skip items' eq_refl).
    rewrite yaml_name_qual by exact Fp. reflexivity.
  - destruct (skip_head (parent_name path) skip items _ _ _ E) as (items' & -> & E' & S).
    inversion Fn as [|? ? F1 F2]; subst. inversion F1 as [? ? ? D1 D2]; subst.
    rewrite y_dict by exact S. rewrite yaml_name_qual, P by exact Fp.
    rewrite (IH1 (K _ _ Fp D1) D2 None d') by (apply (without_skip None d')).
    rewrite (IH2 Fp F2 skip items' eq_refl). reflexivity.
  - destruct (skip_head (parent_name path) skip items _ _ _ E) as (items' & -> & E' & S).
    rewrite y_list_nil by exact S. apply IH; assumption.
  - destruct (skip_head (parent_name path) skip items _ _ _ E) as (items' & -> & E' & S).
    inversion Fn as [|? ? F1 F2]; subst. inversion F1 as [? ? ? D1 D2]; subst.
    rewrite y_list_cons by exact S. rewrite yaml_name_qual by exact Fp. rewrite find_dget.
    rewrite (IH2 Fp F2 skip ((k, JList l) :: items')) by (cbn [filter fst]; rewrite S; reflexivity).
    cbn [map concat emitted]. destruct (dget (vn (qual (path ++ [k]))) item) eqn:G.
    + rewrite P, (IH1 (K _ _ Fp D1) D2 (Some (vn (qual (path ++ [k])))) item)
        by (apply (without_skip (Some _) item)).
      reflexivity.
    + rewrite P, (IH1 (K _ _ Fp D1) D2 None item); [reflexivity|].
      unfold without. clear - G. cbn [skipped]. induction item as [|[k1 e1] item IHm]; [reflexivity|].
      cbn [dget] in G. cbn [filter fst negb]. unfold eqs in G.
      destruct (String.eqb (vn (qual (path ++ [k]))) k1); [discriminate|]. cbn [negb]. f_equal. apply IHm. exact G.
Qed.
End Yield.

Lemma yield_spec : forall decl d ns,
  as_nodes (fun n => match dget n decl with
                     | Some td => match dget "termvaluename" (td_props td) with Some x => lower x | None => "" end
                     | None => ""
                     end) [] d ns -> Forall dotless ns ->
  yield_dict decl None None (JDict d) = Ok (concat (map (emitted []) ns)).
Proof.
  intros decl d ns H D. apply (yield_nodes decl [] d ns H (Forall_nil _) D None d).
  apply (without_skip None d).
Qed.

Lemma as_nodes_total_aux : forall vn d, yaml_items d ->
  forall f path, exists ns, as_nodes vn path (filter (fun kv => f (fst kv)) d) ns.
Proof.
  induction 1 as [|k v d _ IH|k d' d _ IH1 _ IH2|k d _ IH|k item l d _ IH1 _ IH2]; intros f path; cbn [filter fst].
  - exists []. constructor.
  - destruct (IH f path) as (ns & H). destruct (f k); eexists; [constructor; exact H|exact H].
  - destruct (IH2 f path) as (ns & H). destruct (f k); [|eexists; exact H].
    destruct (IH1 (fun _ => true) (path ++ [k])) as (kids & H1).
    assert (E : filter (fun _ : string * jv => true) d' = d').
    { clear. induction d'; [reflexivity|]. cbn. congruence. }
    rewrite E in H1. eexists. apply nodes_dict; [exact H1|exact H].
  - destruct (IH f path) as (ns & H). destruct (f k); eexists; [constructor; exact H|exact H].
  - destruct (IH2 f path) as (ns & H). cbn [filter fst] in H. destruct (f k); [|eexists; exact H].
    destruct (IH1 (fun x => negb (String.eqb (vn (qual (path ++ [k]))) x)) (path ++ [k])) as (kids & H1).
    eexists. eapply nodes_list_cons; [reflexivity|exact H1|exact H].
Qed.
Lemma as_nodes_total : forall vn d path, yaml_items d -> exists ns, as_nodes vn path d ns.
Proof.
  intros vn d path H. destruct (as_nodes_total_aux vn d H (fun _ => true) path) as (ns & N).
  assert (E : filter (fun _ : string * jv => true) d = d).
  { clear. induction d; [reflexivity|]. cbn. congruence. }
  rewrite E in N. eauto.
Qed.

(** ** Items of lists that are not dicts *)

Section Stray.
Variable decl : dict tdecl.

(** what one item of a list gives *)
Definition y_item (tn : string) (par : option string) (x : jv) : res (list (string * jv * option string)) :=
  match x with
  | JDict de =>
      match dget (yaml_vtn decl tn) de with
      | Some value => do? sub <- yield_dict decl (Some tn) (Some (yaml_vtn decl tn)) x ;; Ok ((tn, value, par) :: sub)
      | None => yield_dict decl (Some tn) None x
      end
  | _ => Err EType
  end.
Fixpoint y_items (tn : string) (par : option string) (l : list jv) : res (list (string * jv * option string)) :=
  match l with
  | [] => Ok []
  | x :: l' => do? here <- y_item tn par x ;; do? rest <- y_items tn par l' ;; Ok (here ++ rest)
  end.
(** what one entry gives *)
Definition y_entry (par : option string) (k : string) (v : jv) : res (list (string * jv * option string)) :=
  match v with
  | JList l => y_items (yaml_name par k) par l
  | JDict _ => yield_dict decl (Some (yaml_name par k)) None v
  | JVal _ => Ok [(yaml_name par k, v, par)]
  end.

Lemma y_cons : forall par skip k v d, yield_dict decl par skip (JDict ((k, v) :: d))
  = if skipped skip k then yield_dict decl par skip (JDict d)
    else do? out <- y_entry par k v ;; do? rest <- yield_dict decl par skip (JDict d) ;; Ok (out ++ rest).
Proof.
  intros par skip k v d. destruct (skipped skip k) eqn:S; [apply y_skip; exact S|]. unfold skipped in S. cbn [yield_dict]. rewrite S.
  destruct v as [v|l|d']; try reflexivity. unfold y_entry.
  match goal with |- rbind ?a _ = rbind ?b _ => assert (E : a = b); [|rewrite E; reflexivity] end.
  induction l as [|x l IH]; [reflexivity|]. cbn [y_items]. rewrite <- IH. destruct x; reflexivity.
Qed.

(** an exception is a TypeError *)
Definition typed {A} (r : res A) : Prop := forall x, r = Err x -> x = EType.
Lemma typed_bind : forall A B (r : res A) (f : A -> res B), typed r -> (forall a, typed (f a)) -> typed (do? a <- r ;; f a).
Proof. intros A B [a|x] f H G; [apply G|]. intros y E. apply H. cbn [rbind] in E. injection E as ->. reflexivity. Qed.
Lemma typed_ok : forall A (a : A), typed (Ok a).
Proof. intros A a x E. discriminate E. Qed.

Lemma typed_all : forall v, match v with
  | JVal _ => True
  | JList l => forall tn par, typed (y_items tn par l)
  | JDict d => forall par skip, typed (yield_dict decl par skip (JDict d))
  end.
Proof.
  induction v as [v|l IH|d IH] using jv_ind'; [exact I| |].
  - intros tn par. induction IH as [|x l Hx _ IHl]; [apply typed_ok|]. cbn [y_items]. apply typed_bind; [|intros a; apply typed_bind; [exact IHl|intros b; apply typed_ok]].
    destruct x as [x|m|de]; try (intros y E; injection E as <-; reflexivity). cbn [y_item]. destruct (dget _ de); [|apply Hx].
    apply typed_bind; [apply Hx|intros a; apply typed_ok].
  - intros par skip. induction IH as [|[k v] d Hv _ IHd]; [apply typed_ok|]. rewrite y_cons. destruct (skipped skip k); [exact IHd|].
    apply typed_bind; [|intros a; apply typed_bind; [exact IHd|intros b; apply typed_ok]]. destruct v; [apply typed_ok|apply Hv|apply Hv].
Qed.
Lemma yield_typed : forall d par skip, typed (yield_dict decl par skip (JDict d)).
Proof. intros d. exact (typed_all (JDict d)). Qed.

Lemma yield_error : forall d par skip x, yield_dict decl par skip (JDict d) = Err x -> x = EType.
Proof. exact yield_typed. Qed.

Definition fails {A} (r : res A) : Prop := forall a, r <> Ok a.
Lemma fails_first : forall A B (r : res A) (f : A -> res B), fails r -> fails (do? a <- r ;; f a).
Proof. intros A B [a|x] f H b E; [exact (H a eq_refl)|discriminate E]. Qed.
Lemma fails_then : forall A B (r : res A) (f : A -> res B), (forall a, fails (f a)) -> fails (do? a <- r ;; f a).
Proof. intros A B [a|x] f H b E; [exact (H a b E)|discriminate E]. Qed.

Lemma items_fail : forall tn par l x, In x l -> fails (y_item tn par x) -> fails (y_items tn par l).
Proof.
  induction l as [|y l IH]; intros x I F; [destruct I|]. cbn [y_items]. destruct I as [-> |I]; [apply fails_first; exact F|].
  apply fails_then. intros a. apply fails_first. exact (IH x I F).
Qed.
Lemma entry_fails : forall par skip items k v, In (k, v) items -> skipped skip k = false -> fails (y_entry par k v) ->
  fails (yield_dict decl par skip (JDict items)).
Proof.
  induction items as [|[k0 v0] items IH]; intros k v I S F; [destruct I|]. rewrite y_cons. destruct I as [E|I].
  - injection E as -> ->. rewrite S. apply fails_first. exact F.
  - destruct (skipped skip k0); [exact (IH k v I S F)|]. apply fails_then. intros a. apply fails_first. exact (IH k v I S F).
Qed.

Lemma vtn_key : forall tn, value_key decl (yaml_vtn decl tn).
Proof.
  intros tn. unfold yaml_vtn. destruct (dget tn decl) as [td|] eqn:D; [|left; reflexivity]. destruct (dget "termvaluename" (td_props td)) as [x|] eqn:T; [|left; reflexivity].
  right. exists tn, td, x. auto.
Qed.

Lemma stray_fails : forall d, stray decl d -> forall par skip items, incl d items ->
  (forall kv, In kv d -> skipped skip (fst kv) = false) -> fails (yield_dict decl par skip (JDict items)).
Proof.
  induction 1 as [d k l x I Ix N|d k d' I _ IH|d k l item rest I Ii Sub V _ IH]; intros par skip items In1 Sk;
    apply (entry_fails par skip items k _ (In1 _ I) (Sk _ I)); cbn [y_entry].
  - apply (items_fail _ _ l x Ix). destruct x as [x|m|de]; [intros a E; discriminate E|intros a E; discriminate E|destruct (N de eq_refl)].
  - apply IH; [apply incl_refl|reflexivity].
  - apply (items_fail _ _ l _ Ii). cbn [y_item]. destruct (dget _ item).
    + apply fails_first. apply IH; [exact Sub|]. intros kv J. cbn [skipped]. apply eqs_false. intros E. apply (V kv J). rewrite <- E. apply vtn_key.
    + apply IH; [exact Sub|reflexivity].
Qed.

Lemma yield_stray : forall d par, stray decl d -> yield_dict decl par None (JDict d) = Err EType.
Proof.
  intros d par H. pose proof (stray_fails d H par None d (incl_refl _) (fun _ _ => eq_refl)) as F. pose proof (yield_typed d par None) as T.
  destruct (yield_dict decl par None (JDict d)) as [a|x]; [destruct (F a eq_refl)|]. rewrite (T x eq_refl). reflexivity.
Qed.
End Stray.
