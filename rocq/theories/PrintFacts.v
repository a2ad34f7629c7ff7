(** * PrintFacts: the rows of a document as a function of its trees *)

From Coq Require Import Permutation.
From Verif Require Import ListFacts StrFacts HeapFacts SpecNames NameFacts Render SpecInv SpecDoc SpecRound RowsFacts OrderFacts.

Lemma tree_ind' : forall P : tree -> Prop, (forall n v kids, Forall P kids -> P (Tree n v kids)) -> forall t, P t.
Proof.
  intros P H. fix IH 1. intros [n v kids]. apply H. induction kids as [|k kids IHk]; constructor; [apply IH|exact IHk].
Qed.

Fixpoint cell_texts (cols : list string) (l : list tree) : list string :=
  match cols with
  | [] => []
  | c :: cs => match find (called (lower c)) l with Some t => value_of t | None => "" end
               :: cell_texts cs (filter (fun t => negb (called (lower c) t)) l)
  end.
Definition leftover (cols : list string) (l : list tree) : list tree := filter (fun k => negb (has_column cols k)) l.
Definition name_text (p n : string) : string := title (replace "root." "" (p ++ "." ++ n)).
Fixpoint tree_rows (cols : list string) (p : string) (t : tree) : list (list string) :=
  match t with
  | Tree n v kids =>
      (name_text p n :: v :: cell_texts cols (filter childless kids))
      :: (map (fun k => [name_text n (name_of k); value_of k]) (leftover cols (filter childless kids))
          ++ flat_map (fun k => if childless k then [] else tree_rows cols n k) kids)
  end.
Definition sect_rows (c : sect) : list (list string) :=
  ((if eqs (sc_name c) "Root" then [] else [[""]; "Section" :: sc_name c :: sc_cols c])
   ++ flat_map (tree_rows (sc_cols c) "root") (sc_terms c))%list.
Definition doc_texts (o : list sect) : list (list string) := flat_map sect_rows o.

(** ** The cells of one row *)

Definition entry (kv : string * val) (t : tree) : Prop := fst kv = name_of t /\ text_of (snd kv) (value_of t).

Lemma entry_keys : forall D L, Forall2 entry D L -> dkeys D = map name_of L.
Proof. intros D L H. induction H as [|kv t D L [E _] H IH]; [reflexivity|]. cbn. rewrite E. f_equal. exact IH. Qed.

Lemma entry_get : forall D L n, Forall2 entry D L ->
  match dget n D, find (called n) L with
  | Some v, Some t => text_of v (value_of t)
  | None, None => True
  | _, _ => False
  end.
Proof.
  intros D L n H. induction H as [|[k v] t D L [E T] H IH]; [exact Logic.I|]. cbn [dget find]. cbn [fst snd] in *. change (called n t) with (String.eqb (name_of t) n). subst k.
  unfold eqs. rewrite String.eqb_sym. destruct (String.eqb (name_of t) n) eqn:Q; [exact T|exact IH].
Qed.

Lemma entry_del : forall D L n, NoDup (dkeys D) -> Forall2 entry D L -> Forall2 entry (ddel n D) (filter (fun t => negb (called n t)) L).
Proof.
  intros D L n N H. rewrite ddel_filter by exact N. clear N. induction H as [|[k v] t D L [E T] H IH]; [constructor|].
  cbn [filter]. cbn [fst snd] in *. unfold called at 1. subst k. unfold eqs at 1. rewrite String.eqb_sym. destruct (String.eqb (name_of t) n); cbn [negb]; [exact IH|].
  constructor; [split; [reflexivity|exact T]|exact IH].
Qed.

Lemma leftover_cons : forall c cs L, leftover (c :: cs) L = leftover cs (filter (fun t => negb (called (lower c) t)) L).
Proof.
  intros c cs L. unfold leftover. induction L as [|t L IH]; [reflexivity|]. cbn [filter]. change (called (lower c) t) with (String.eqb (name_of t) (lower c)).
  change (has_column (c :: cs) t) with (String.eqb (lower c) (name_of t) || has_column cs t).
  rewrite (String.eqb_sym (lower c)). destruct (String.eqb (name_of t) (lower c)); cbn [negb orb]; [exact IH|].
  cbn [filter]. destruct (has_column cs t); cbn [negb]; [exact IH|f_equal; exact IH].
Qed.

Lemma filter_true : forall {A} (f : A -> bool) l, (forall x, In x l -> f x = true) -> filter f l = l.
Proof. induction l as [|a l IH]; intros H; [reflexivity|]. cbn. rewrite (H a (or_introl eq_refl)). f_equal. apply IH. intros; apply H; right; assumption. Qed.

Lemma take_cols_texts : forall cols D L, NoDup (dkeys D) -> Forall2 entry D L ->
  Forall2 text_of (fst (take_cols cols D)) (cell_texts cols L) /\ Forall2 entry (snd (take_cols cols D)) (leftover cols L).
Proof.
  induction cols as [|c cs IH]; intros D L N H.
  - cbn. split; [constructor|]. unfold leftover. rewrite filter_true; [exact H|reflexivity].
  - cbn [take_cols cell_texts]. rewrite leftover_cons. pose proof (entry_get D L (lower c) H) as G.
    specialize (IH (ddel (lower c) D) (filter (fun t => negb (called (lower c) t)) L)).
    destruct (take_cols cs (ddel (lower c) D)) as [vs rest]. cbn [fst snd] in *. destruct IH as [A B]; [apply nodup_ddel; exact N|apply entry_del; assumption|].
    split; [|exact B]. constructor; [|exact A]. destruct (dget (lower c) D), (find (called (lower c)) L); try contradiction; [exact G|constructor].
Qed.

(** ** The rows of a term *)

Lemma shows_inv : forall s p n v kids x, shows s p (Tree n v kids) x ->
  t_rt (tget x s) = n /\ text_of (t_val (tget x s)) v /\ parent_named s x p
  /\ (exists i, t_section (tget x s) = Some i /\ t_doc (tget i s) = true) /\ Forall2 (shows s n) kids (t_children (tget x s)).
Proof. intros s p n v kids x H. inversion H; subst. repeat split; try assumption. eauto. Qed.

Lemma shows_name : forall s p t x, shows s p t x -> t_rt (tget x s) = name_of t /\ text_of (t_val (tget x s)) (value_of t) /\ is_terminal (tget x s) = childless t.
Proof.
  intros s p [n v kids] x H. apply shows_inv in H. destruct H as (A & B & _ & _ & K). split; [exact A|]. split; [exact B|].
  unfold is_terminal, childless. inversion K; reflexivity.
Qed.

Lemma writable_inv : forall dt cols above p n v kids, writable dt cols above p (Tree n v kids) ->
  cell_name n /\ ~ In n above /\ tidy v /\ value_name_in dt (p ++ "." ++ n) <> ""
  /\ ~ In (lower (value_name_in dt (p ++ "." ++ n))) (map name_of (filter childless kids))
  /\ NoDup (map name_of (filter childless kids))
  /\ (forall k, In k kids -> childless k = true -> has_column cols k = true -> value_of k <> "")
  /\ ~ (n = "datafile" /\ In "section" (map name_of kids)) /\ Forall (writable dt cols (n :: above) n) kids.
Proof. intros dt cols above p n v kids H. inversion H; subst. repeat (split; [assumption|]). assumption. Qed.

Lemma cell_name_lower : forall dt cols above p t, writable dt cols above p t -> lower (name_of t) = name_of t /\ name_of t <> "".
Proof. intros dt cols above p t H. inversion H as [? ? n v kids C]; subst. split; apply C. Qed.

Lemma row_props_texts : forall s n cs kids d, Forall2 (shows s n) kids cs ->
  Forall (fun t => lower (name_of t) = name_of t /\ name_of t <> "") kids ->
  NoDup (dkeys d ++ map name_of (filter childless kids)) ->
  exists D, fold_left (fun d c => let q := hget c (s_heap s) in if is_terminal q && nonempty (rt_lc q) then dset (rt_lc q) (t_val q) d else d) cs d = (d ++ D)%list
    /\ Forall2 entry D (filter childless kids).
Proof.
  intros s n cs kids d H. revert d. induction H as [|t c kids cs S H IH]; intros d L N; cbn [fold_left filter].
  - exists []. rewrite app_nil_r. split; [reflexivity|constructor].
  - inversion L as [|? ? [L1 L2] L3]; subst. destruct (shows_name _ _ _ _ S) as (R & T & E). cbv zeta. fold (tget c s). rewrite E.
    unfold rt_lc. rewrite R, L1. cbn [filter] in N. destruct (childless t) eqn:Ch; cbn [andb].
    + apply nonempty_true in L2. rewrite L2. cbn [map] in N.
      assert (Dn : dget (name_of t) d = None).
      { apply dget_none. intros I. apply NoDup_remove_2 in N. apply N. apply in_or_app. left. exact I. }
      rewrite dset_absent by exact Dn. destruct (IH (d ++ [(name_of t, t_val (tget c s))])%list L3) as (D & F & G).
      { unfold dkeys in *. rewrite map_app. cbn [map fst]. rewrite <- app_assoc. exact N. }
      exists ((name_of t, t_val (tget c s)) :: D). split; [|constructor; [split; [reflexivity|exact T]|exact G]].
      etransitivity; [exact F|]. rewrite <- app_assoc. reflexivity.
    + apply IH; assumption.
Qed.

Lemma map_lower_entries : forall D L, Forall2 entry D L -> Forall (fun t => lower (name_of t) = name_of t) L ->
  map (fun kv : string * val => (lower (fst kv), snd kv)) D = D.
Proof.
  intros D L H. induction H as [|[k v] t D L [E T] H IH]; intros F; [reflexivity|]. inversion F; subst. cbn [map fst snd] in *. subst k. rewrite IH by assumption. congruence.
Qed.

Lemma value_name_same : forall s q, value_name (s_doc s) q = value_name_in (d_decl_terms (s_doc s)) q.
Proof. reflexivity. Qed.

Lemma expand_texts : forall s sec dt cols above p n v kids x, 
  (forall q, value_name (s_doc s) q = value_name_in dt q) -> columns_of sec = cols ->
  writable dt cols above p (Tree n v kids) -> shows s p (Tree n v kids) x ->
  written (map print_row (expand_row (s_doc s) sec (dotted p n, row_props (s_heap s) (value_name (s_doc s) (dotted p n)) (tget x s))))
    ((name_text p n :: v :: cell_texts cols (filter childless kids))
     :: map (fun k => [name_text n (name_of k); value_of k]) (leftover cols (filter childless kids))).
Proof.
  intros s sec dt cols above p n v kids x VN Ec W S.
  pose proof (writable_inv _ _ _ _ _ _ _ W) as (C & Na & Tv & Vn1 & Vn2 & ND & Vc & Df & Wk).
  apply shows_inv in S. destruct S as (R & T & P & _ & K).
  assert (Lk : Forall (fun t => lower (name_of t) = name_of t /\ name_of t <> "") kids).
  { eapply Forall_impl; [|exact Wk]. intros t Ht. eapply cell_name_lower; exact Ht. }
  assert (Ll : Forall (fun t => lower (name_of t) = name_of t) (filter childless kids)).
  { rewrite Forall_forall in *. intros t I. apply filter_In in I. apply Lk. apply I. }
  change (p ++ "." ++ n)%string with (dotted p n) in *. rewrite <- VN in Vn1, Vn2. set (vn := value_name (s_doc s) (dotted p n)) in *.
  assert (Vn3 : ~ In vn (map name_of (filter childless kids))).
  { intros I. apply Vn2. apply in_map_iff in I. destruct I as (t & E & I). rewrite Forall_forall in Ll. pose proof (Ll t I) as L. rewrite E in L. rewrite L. apply in_map_iff. exists t. auto. }
  unfold row_props. destruct (row_props_texts s n (t_children (tget x s)) kids [(vn, t_val (tget x s))] K Lk) as (D & F & G).
  { cbn. constructor; assumption. }
  match goal with |- context [fold_left ?f ?l ?a] => replace (fold_left f l a) with ([(vn, t_val (tget x s))] ++ D)%list by (symmetry; exact F) end. unfold expand_row. cbn [fst snd]. unfold row_args. cbn [map fst snd app]. rewrite (map_lower_entries _ _ G Ll).
  pose proof (entry_keys _ _ G) as Ek.
  assert (Nk : forall w, NoDup (dkeys ((lower vn, w) :: D))) by (intros w; change (NoDup (lower vn :: dkeys D)); rewrite Ek; constructor; assumption).
  rewrite dict_of_id by apply Nk. fold vn. cbn [take_cols dget]. rewrite eqs_refl.
  assert (Dd : ddel (lower vn) ((lower vn, t_val (tget x s)) :: D) = D).
  { rewrite ddel_filter by apply Nk. cbn [filter fst]. rewrite eqs_refl. cbn [negb].
    apply filter_true. intros [k w] I. cbn [fst]. apply negb_true_iff. apply eqs_false. intros Ex. apply Vn2. rewrite Ex, <- Ek. unfold dkeys. apply in_map_iff. exists (k, w). auto. }
  rewrite Dd. change (sec_property_names sec) with (columns_of sec). rewrite Ec.
  destruct (take_cols_texts cols D (filter childless kids)) as [A B]; [rewrite Ek; exact ND|exact G|].
  destruct (take_cols cols D) as [cells rest]. cbn [fst snd] in A, B. cbn [map print_row fst snd]. constructor.
  - constructor; [constructor|]. constructor; assumption.
  - rewrite map_map. rewrite dot_free_split by apply C. clear - B. induction B as [|kv t rest L [E T] B IH]; [constructor|]. cbn [map]. constructor; [|exact IH].
    cbn [print_row fst snd]. rewrite E. constructor; [constructor|]. constructor; [exact T|constructor].
Qed.

Lemma parent_name_of : forall s p x q, parent_named s x p -> lower p = p -> qualified_term (s_heap s) (tget x s) = Ok q -> q = dotted p (rt_lc (tget x s)).
Proof.
  intros s p x q H L Q. unfold qualified_term in Q. unfold parent_named in H. destruct (t_parent (tget x s)) as [j|].
  - injection Q as <-. unfold rt_lc at 1. fold (tget j s). rewrite H, L. reflexivity.
  - destruct H as [_ ->]. destruct (eqs _ _); [injection Q as <-; reflexivity|discriminate Q].
Qed.

Lemma written_app : forall a b a' b', written a a' -> written b b' -> written (a ++ b) (a' ++ b').
Proof. intros. apply Forall2_app; assumption. Qed.

Lemma term_rows_texts : forall s sec dt cols, (forall q, value_name (s_doc s) q = value_name_in dt q) -> columns_of sec = cols ->
  forall t above p x f l, lower p = p -> writable dt cols above p t -> shows s p t x ->
  term_rows f (s_heap s) (s_doc s) x = Ok l ->
  written (map print_row (concat (map (expand_row (s_doc s) sec) l))) (tree_rows cols p t).
Proof.
  intros s sec dt cols VN Ec t. induction t as [n v kids IH] using tree_ind'. intros above p x f l Lp W S H.
  destruct f as [|f]; [discriminate H|]. cbn [term_rows] in H. fold (tget x s) in H.
  destruct (t_section (tget x s)); [|discriminate H]. destruct (negb _); [discriminate H|].
  destruct (qualified_term _ _) as [q|] eqn:Q; [|discriminate H]. cbn [rbind] in H.
  destruct (eqs _ ""); [discriminate H|]. destruct (rmap _ _) as [ls|] eqn:M; [|discriminate H]. injection H as <-.
  pose proof (shows_inv _ _ _ _ _ _ S) as (R & _ & P & _ & K).
  apply (parent_name_of s p x q P Lp) in Q. unfold rt_lc in Q. rewrite R in Q.
  pose proof (writable_inv _ _ _ _ _ _ _ W) as (C & Na & Tv & Vn1 & Vn2 & ND & Vc & Df & Wk).
  rewrite (cn_lower _ C) in Q. subst q. cbn [map concat tree_rows]. rewrite map_app.
  rewrite app_comm_cons. apply written_app; [eapply expand_texts; eassumption|].
  clear - IH K Wk M C. revert ls M. induction K as [|k c kids cs S K IHk]; intros ls M.
  - cbn in M. injection M as <-. constructor.
  - inversion IH as [|? ? IH1 IH2]; subst. inversion Wk as [|? ? W1 W2]; subst. cbn [flat_map filter] in *. fold (tget c s) in M.
    destruct (shows_name _ _ _ _ S) as (_ & _ & E). rewrite E in M. destruct (childless k); cbn [negb] in M.
    + apply IHk; assumption.
    + cbn [rmap] in M. destruct (term_rows f _ _ c) as [l1|] eqn:E1; [|discriminate M]. cbn [rbind] in M. destruct (rmap _ _) as [ls1|] eqn:E2; [|discriminate M].
      injection M as <-. cbn [concat map]. rewrite map_app, concat_app, map_app. apply written_app; [|apply IHk; auto].
      eapply IH1; [apply C|exact W1|exact S|exact E1].
Qed.

Lemma rmap_Forall2 : forall {A B} (f : A -> res B) l m, rmap f l = Ok m -> Forall2 (fun a b => f a = Ok b) l m.
Proof.
  intros A B f. induction l as [|a l IH]; intros m H; cbn [rmap] in H; [injection H as <-; constructor|].
  destruct (f a) as [b|] eqn:E; [|discriminate H]. cbn [rbind] in H. destruct (rmap f l) as [m'|]; [|discriminate H]. injection H as <-. constructor; auto.
Qed.

Lemma sect_rows_texts : forall s dt kv c rows, (forall q, value_name (s_doc s) q = value_name_in dt q) ->
  shows_section s kv c -> Forall (writable_top dt (sc_cols c)) (sc_terms c) ->
  section_rows (s_heap s) (s_doc s) (snd kv) = Ok rows ->
  written (section_heading (tget (snd kv) s) ++ map print_row rows) (sect_rows c).
Proof.
  intros s dt [k i] [nm cols terms] rows VN (_ & Sv & Sc & St) W H. cbn [fst snd sc_name sc_cols sc_terms] in *. apply written_app.
  - unfold section_heading. rewrite Sv. change (sec_property_names (tget i s)) with (columns_of (tget i s)). rewrite Sc. cbn [sc_name sc_cols veq].
    destruct (eqs nm "Root"); [constructor|]. constructor; [constructor; [constructor|constructor]|]. constructor; [|constructor].
    constructor; [constructor|]. constructor; [constructor|]. clear. induction cols; constructor; [constructor|assumption].
  - unfold section_rows in H. fold (tget i s) in H. destruct (rmap _ _) as [ls|] eqn:M; [|discriminate H]. injection H as <-. apply rmap_Forall2 in M. cbn [sc_terms sc_cols].
    revert W ls M. induction St as [|t x ts xs S1 S2 IH]; intros W ls M; inversion M as [|? l ? ls' M1 M2]; subst; [constructor|].
    inversion W as [|? ? [W1 W1'] W2]; subst. cbn [concat flat_map]. rewrite map_app, concat_app, map_app. apply written_app; [|apply IH; assumption].
    eapply term_rows_texts with (p := "root"); try eassumption; reflexivity.
Qed.

Lemma writable_all : forall dt decl o, writable_doc dt decl o -> Forall (fun c => Forall (writable_top dt (sc_cols c)) (sc_terms c)) o.
Proof. intros dt decl o H. destruct H as [ts rest H1 H2 H3]. constructor; [exact H1|]. eapply Forall_impl; [|exact H2]. intros c W. apply W. Qed.

Lemma doc_rows_texts : forall s dt decl o rows, (forall q, value_name (s_doc s) q = value_name_in dt q) ->
  shows_doc s o -> writable_doc dt decl o -> doc_rows s = Ok rows -> written rows (doc_texts o).
Proof.
  intros s dt decl o rows VN Sh W H. apply writable_all in W. unfold doc_rows in H. destruct (rmap _ _) as [ls|] eqn:M; [|discriminate H]. injection H as <-.
  apply rmap_Forall2 in M. unfold shows_doc in Sh. revert W ls M. induction Sh as [|kv c kvs o S1 S2 IH]; intros W ls M; inversion M as [|? l ? ls' M1 M2]; subst; [constructor|].
  inversion W as [|? ? W1 W2]; subst. unfold doc_texts. cbn [concat flat_map]. apply written_app; [|apply IH; assumption].
  destruct (section_rows _ _ _) as [rows|] eqn:E; [|discriminate M1]. injection M1 as <-. eapply sect_rows_texts; eassumption.
Qed.

Lemma text_fun : forall v a b, text_of v a -> text_of v b -> a = b.
Proof. intros v a b H H'. inversion H; subst; inversion H'; subst; reflexivity. Qed.
Lemma texts_fun : forall vs a b, Forall2 text_of vs a -> Forall2 text_of vs b -> a = b.
Proof.
  intros vs a b H. revert b. induction H as [|v x vs a T H IH]; intros b H'; inversion H'; subst; [reflexivity|]. f_equal; [eapply text_fun; eassumption|apply IH; assumption].
Qed.
Lemma written_fun : forall rows a b, written rows a -> written rows b -> a = b.
Proof.
  intros rows a b H. revert b. induction H as [|v x vs a T H IH]; intros b H'; inversion H'; subst; [reflexivity|]. f_equal; [eapply texts_fun; eassumption|apply IH; assumption].
Qed.

(** ** Arranged trees *)

Lemma in_columns_has : forall cols L t, In t (in_columns cols L) <-> In t L /\ has_column cols t = true.
Proof.
  induction cols as [|c cs IH]; intros L t; cbn [in_columns has_column existsb].
  - split; [intros []|intros [_ H]; discriminate H].
  - rewrite in_app_iff, IH, !filter_In. fold (has_column cs t). unfold called. rewrite (String.eqb_sym (lower c)).
    destruct (String.eqb (name_of t) (lower c)); cbn [negb orb]; intuition discriminate.
Qed.

Lemma filter_split : forall {A} (f : A -> bool) l, Permutation l (filter f l ++ filter (fun x => negb (f x)) l).
Proof.
  induction l as [|a l IH]; [constructor|]. cbn [filter]. destruct (f a); cbn [negb].
  - cbn. constructor. exact IH.
  - etransitivity; [constructor; exact IH|]. apply Permutation_middle.
Qed.

Lemma arranged_perm : forall cols L, Permutation L (in_columns cols L ++ leftover cols L).
Proof.
  induction cols as [|c cs IH]; intros L.
  - cbn. unfold leftover. rewrite filter_true; [apply Permutation_refl|reflexivity].
  - cbn [in_columns]. rewrite leftover_cons, <- app_assoc. etransitivity; [apply (filter_split (called (lower c)))|]. apply Permutation_app_head. apply IH.
Qed.

Lemma called_name : forall n t, called n t = true <-> name_of t = n.
Proof. intros. unfold called. apply String.eqb_eq. Qed.

Lemma find_perm : forall n L L', NoDup (map name_of L) -> Permutation L L' -> find (called n) L' = find (called n) L.
Proof.
  intros n L L' N P. induction P as [|t L L' P IH|t u L|L1 L2 L3 P1 IH1 P2 IH2].
  - reflexivity.
  - cbn [find]. inversion N; subst. destruct (called n t); [reflexivity|apply IH; assumption].
  - cbn [find]. destruct (called n t) eqn:E1, (called n u) eqn:E2; try reflexivity. exfalso. apply called_name in E1, E2. inversion N; subst. apply H1. left. cbn. congruence.
  - rewrite IH2, IH1; [reflexivity|exact N|]. eapply Permutation_NoDup; [apply Permutation_map; exact P1|exact N].
Qed.

Lemma find_filter : forall n m L, find (called n) (filter (fun t => negb (called m t)) L) = if eqs n m then None else find (called n) L.
Proof.
  intros n m L. induction L as [|t L IH]; [destruct (eqs n m); reflexivity|]. cbn [filter find]. destruct (called m t) eqn:E; cbn [negb].
  - rewrite IH. apply called_name in E. unfold called. rewrite E. unfold eqs. rewrite (String.eqb_sym m n). destruct (String.eqb n m); reflexivity.
  - cbn [find]. rewrite IH. destruct (called n t) eqn:E'; [|reflexivity]. eqs_cases n m; [|reflexivity]. subst. congruence.
Qed.

Lemma cell_texts_ext : forall cols L L', (forall n, find (called n) L' = find (called n) L) -> cell_texts cols L' = cell_texts cols L.
Proof.
  induction cols as [|c cs IH]; intros L L' H; [reflexivity|]. cbn [cell_texts]. rewrite H. f_equal. apply IH. intros n. rewrite !find_filter, H. reflexivity.
Qed.

Lemma filter_none : forall {A} (f : A -> bool) l, (forall x, In x l -> f x = false) -> filter f l = [].
Proof. induction l as [|a l IH]; intros H; [reflexivity|]. cbn. rewrite (H a (or_introl eq_refl)). apply IH. intros; apply H; right; assumption. Qed.

Lemma arrange_childless : forall cols t, childless (arrange cols t) = childless t.
Proof.
  intros cols [n v kids]. cbn [arrange childless]. destruct kids as [|k kids]; [cbn; destruct (in_columns cols []) eqn:E|].
  - reflexivity.
  - exfalso. assert (I : In t (in_columns cols [])) by (rewrite E; left; reflexivity). apply in_columns_has in I. destruct I as [[] _].
  - set (l := (_ ++ _)%list). assert (N : exists t, In t l).
    { unfold l. destruct (childless k) eqn:Ck.
      - exists k. rewrite !in_app_iff. destruct (has_column cols k) eqn:H.
        + left. apply in_columns_has. split; [|exact H]. cbn [filter]. rewrite Ck. left. reflexivity.
        + right. left. apply filter_In. rewrite H. split; [|reflexivity]. cbn [filter]. rewrite Ck. left. reflexivity.
      - exists (arrange cols k). rewrite !in_app_iff. right. right. cbn [flat_map]. rewrite Ck. left. reflexivity. }
    destruct N as (t & I). destruct l; [destruct I|reflexivity].
Qed.

Lemma name_arrange : forall cols t, name_of (arrange cols t) = name_of t.
Proof. intros cols [n v kids]. reflexivity. Qed.

Section Arranged.
Variables (cols : list string) (kids : list tree).
Let L := filter childless kids.
Let kids' := (in_columns cols L ++ leftover cols L ++ flat_map (fun k => if childless k then [] else [arrange cols k]) kids)%list.

Lemma arranged_childless : filter childless kids' = (in_columns cols L ++ leftover cols L)%list.
Proof.
  unfold kids'. rewrite app_assoc, filter_app.
  rewrite (filter_true childless (in_columns cols L ++ leftover cols L)).
  - rewrite (filter_none childless (flat_map _ _)); [apply app_nil_r|]. intros t I. apply in_flat_map in I. destruct I as (k & Ik & I). destruct (childless k) eqn:E; [destruct I|].
    destruct I as [<-|[]]. rewrite arrange_childless. exact E.
  - intros t I. assert (J : In t L).
    { apply in_app_iff in I. destruct I as [I|I]; [apply in_columns_has in I; apply I|]. unfold leftover in I. apply filter_In in I. apply I. }
    apply filter_In in J. apply J.
Qed.

Lemma arranged_in : forall t, In t kids' -> (In t kids /\ childless t = true) \/ exists k, In k kids /\ childless k = false /\ t = arrange cols k.
Proof.
  intros t I. unfold kids' in I. rewrite app_assoc in I. apply in_app_iff in I. destruct I as [I|I].
  - left. eapply Permutation_in in I; [|symmetry; apply arranged_perm]. apply filter_In in I. exact I.
  - right. apply in_flat_map in I. destruct I as (k & Ik & I). exists k. destruct (childless k); [destruct I|]. destruct I as [<-|[]]. auto.
Qed.
End Arranged.

Lemma leftover_columns : forall cols L, leftover cols (in_columns cols L) = [].
Proof. intros. apply filter_none. intros t I. apply in_columns_has in I. rewrite (proj2 I). reflexivity. Qed.
Lemma leftover_idem : forall cols L, leftover cols (leftover cols L) = leftover cols L.
Proof. intros. apply filter_true. intros t I. unfold leftover in I. apply filter_In in I. apply I. Qed.

Lemma arrange_rows : forall dt cols t above p, writable dt cols above p t -> tree_rows cols p (arrange cols t) = tree_rows cols p t.
Proof.
  intros dt cols t. induction t as [n v kids IH] using tree_ind'. intros above p W. pose proof (writable_inv _ _ _ _ _ _ _ W) as (C & Na & Tv & Vn1 & Vn2 & ND & Vc & Df & Wk).
  cbn [arrange tree_rows]. fold (leftover cols (filter childless kids)). rewrite arranged_childless. f_equal; [f_equal; f_equal|f_equal].
  - apply cell_texts_ext. intros m. apply find_perm; [exact ND|apply arranged_perm].
  - f_equal. unfold leftover at 1. rewrite filter_app. fold (leftover cols (in_columns cols (filter childless kids))) (leftover cols (leftover cols (filter childless kids))).
    rewrite leftover_columns, leftover_idem. reflexivity.
  - rewrite app_assoc, flat_map_app. replace (flat_map _ (in_columns cols (filter childless kids) ++ leftover cols (filter childless kids))) with (@nil (list string)).
    + cbn [app]. clear - IH Wk. induction kids as [|k kids IHk]; [reflexivity|]. inversion IH as [|? ? H1 H2]; subst. inversion Wk as [|? ? W1 W2]; subst. cbn [flat_map]. rewrite flat_map_app, IHk by assumption.
      destruct (childless k) eqn:Ck; [reflexivity|]. cbn [flat_map]. rewrite arrange_childless, Ck, app_nil_r. erewrite H1; [reflexivity|exact W1].
    + symmetry. assert (F : forall t, In t (in_columns cols (filter childless kids) ++ leftover cols (filter childless kids)) -> childless t = true).
      { intros t I. eapply Permutation_in in I; [|symmetry; apply arranged_perm]. apply filter_In in I. apply I. }
      induction (_ ++ _)%list as [|t l IHl]; [reflexivity|]. cbn [flat_map]. rewrite (F t (or_introl eq_refl)). apply IHl. intros u I. apply F. right. exact I.
Qed.

Lemma arrange_leaf : forall cols t, childless t = true -> value_of (arrange cols t) = value_of t.
Proof. intros cols [n v kids] _. reflexivity. Qed.

Lemma arrange_writable : forall dt cols t above p, writable dt cols above p t -> writable dt cols above p (arrange cols t).
Proof.
  intros dt cols t. induction t as [n v kids IH] using tree_ind'. intros above p W. pose proof (writable_inv _ _ _ _ _ _ _ W) as (C & Na & Tv & Vn1 & Vn2 & ND & Vc & Df & Wk).
  cbn [arrange]. fold (leftover cols (filter childless kids)).
  assert (PM : Permutation (map name_of (filter childless kids)) (map name_of (in_columns cols (filter childless kids) ++ leftover cols (filter childless kids)))) by (apply Permutation_map, arranged_perm).
  constructor; auto.
  - rewrite arranged_childless. intros I. apply Vn2. eapply Permutation_in; [symmetry; exact PM|exact I].
  - rewrite arranged_childless. eapply Permutation_NoDup; [exact PM|exact ND].
  - intros k I Ck Hc. apply arranged_in in I. destruct I as [[I _]|(k' & I & Ck' & ->)]; [apply Vc; assumption|]. rewrite arrange_childless in Ck. congruence.
  - intros [En I]. apply Df. split; [exact En|]. apply in_map_iff in I. destruct I as (k & Ek & I). apply arranged_in in I.
    destruct I as [[I _]|(k' & I & Ck' & ->)]; apply in_map_iff; [exists k; auto|exists k'; rewrite name_arrange in Ek; auto].
  - rewrite Forall_forall in *. intros k I. apply arranged_in in I. destruct I as [[I _]|(k' & I & Ck' & ->)]; [apply Wk; exact I|]. apply IH; [exact I|]. apply Wk. exact I.
Qed.

Lemma arrange_doc : forall dt decl o, writable_doc dt decl o -> writable_doc dt decl (map arrange_sect o) /\ doc_texts (map arrange_sect o) = doc_texts o.
Proof.
  intros dt decl o W.
  assert (T : forall cols ts, Forall (writable_top dt cols) ts -> Forall (writable_top dt cols) (map (arrange cols) ts) /\ flat_map (tree_rows cols "root") (map (arrange cols) ts) = flat_map (tree_rows cols "root") ts).
  { intros cols ts H. induction H as [|t ts [H H'] _ [IH1 IH2]]; [split; [constructor|reflexivity]|]. cbn [map flat_map]. split.
    - constructor; [|exact IH1]. split; [apply arrange_writable; exact H|rewrite name_arrange; exact H'].
    - rewrite IH2. f_equal. eapply arrange_rows. exact H. }
  assert (E : forall o, Forall (fun c => Forall (writable_top dt (sc_cols c)) (sc_terms c)) o -> doc_texts (map arrange_sect o) = doc_texts o).
  { intros l H. induction H as [|c l H1 H2 IH]; [reflexivity|]. unfold doc_texts in *. cbn [map flat_map]. rewrite IH. f_equal.
    unfold sect_rows. destruct c as [nm cols ts]. cbn [arrange_sect sc_name sc_cols sc_terms] in *. rewrite (proj2 (T cols ts H1)). reflexivity. }
  split; [|apply E; eapply writable_all; exact W]. destruct W as [ts rest H1 H2 H3]. cbn [map].
  change (arrange_sect (mk_sect "Root" [] ts)) with (mk_sect "Root" [] (map (arrange []) ts)). constructor.
  - apply T. exact H1.
  - clear H3. induction H2 as [|c rest W H2 IH]; [constructor|]. cbn [map]. constructor; [|exact IH]. destruct W as [W1 W2 W3 W4 W5]. constructor; try assumption. apply T. exact W5.
  - rewrite map_map. exact H3.
Qed.
