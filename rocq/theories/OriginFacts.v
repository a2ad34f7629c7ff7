(** * OriginFacts: where documents and terms come from (C79, C80, C81) *)

From Verif Require Import SpecFiles FilesFacts SpecWhere WhereFacts StrFacts HeapFacts SpecNames NameFacts TextFacts SlugFacts DigitFacts TreeFacts SpecNumber NumberFacts ResolveFacts SpecResolve SpecOrigin Origin.

Lemma free_char : forall c x, free_of c x <-> has_char c x = false.
Proof. intros. unfold free_of. rewrite has_char_in. reflexivity. Qed.
Lemma concat_join : forall c l, String.concat c l = join c l.
Proof. induction l as [|x [|y l]]; [reflexivity|reflexivity|]. cbn [String.concat join] in *. rewrite IHl. reflexivity. Qed.
Lemma spells_split : forall p l, spells p l <-> split_on "/" p = l.
Proof.
  intros p l. split.
  - intros (N & F & ->). rewrite concat_join. apply (split_join "/" l N). intros x X. apply free_char. rewrite Forall_forall in F. apply F, X.
  - intros <-. split; [apply split_on_nonnil|]. split.
    + apply Forall_forall. intros x X. apply free_char. eapply split_on_pieces, X.
    + rewrite concat_join. symmetry. apply join_split.
Qed.

(** ** Walking *)

Lemma norm_goes : forall comps up, ~ In ".." up -> goes (rev up) comps (norm_comps true up comps).
Proof.
  induction comps as [|c comps IH]; intros up N; [constructor|]. cbn [norm_comps].
  destruct (eqs c "") eqn:E; [apply eqs_true in E; subst; cbn [orb]; apply goes_stay; [left; reflexivity|apply IH, N]|].
  destruct (eqs c ".") eqn:D; [apply eqs_true in D; subst; cbn [orb]; apply goes_stay; [right; reflexivity|apply IH, N]|].
  cbn [orb]. apply eqs_false in E, D.
  destruct (eqs c "..") eqn:T; cbn [negb].
  - apply eqs_true in T. subst c. destruct up as [|x up].
    + apply goes_top. apply (IH [] N).
    + destruct (eqs x "..") eqn:X; [apply eqs_true in X; subst; exfalso; apply N; left; reflexivity|].
      cbn [rev]. apply goes_up. apply IH. intro H. apply N. right. exact H.
  - apply eqs_false in T. apply goes_down; try assumption. apply (IH (c :: up)). intros [H|H]; [congruence|exact (N H)].
Qed.
Lemma goes_fun : forall d l w, goes d l w -> forall w', goes d l w' -> w = w'.
Proof.
  assert (NS : forall A (d : list A) x, (d ++ [x])%list <> []) by (intros A [|? ?] x; discriminate).
  induction 1 as [d|d c l w C G IH|d x l w G IH|l w G IH|d c l w C1 C2 C3 G IH]; intros w' G'.
  all: inversion G'; subst; auto; try congruence;
    try match goal with H : _ = _ \/ _ = _ |- _ => destruct H; congruence end;
    try match goal with H : _ = _ \/ _ = _, H' : _ = _ \/ _ = _ |- _ => destruct H, H'; congruence end;
    try match goal with H : (_ ++ [_])%list = [] |- _ => apply NS in H; contradiction end;
    try match goal with H : [] = (_ ++ [_])%list |- _ => symmetry in H; apply NS in H; contradiction end;
    try match goal with H : (_ ++ [_])%list = (_ ++ [_])%list |- _ => apply app_inj_tail in H; destruct H; subst; auto end.
Qed.
Lemma goes_app : forall d l1 m, goes d l1 m -> forall l2 w, goes m l2 w -> goes d (l1 ++ l2) w.
Proof. induction 1; intros l2 w' G; cbn [app]; [exact G|apply goes_stay; auto|apply goes_up; auto|apply goes_top; auto|apply goes_down; auto]. Qed.
Lemma goes_some : forall l d, exists w, goes d l w.
Proof.
  induction l as [|c l IH]; intro d; [eexists; constructor|].
  destruct (eqs c "") eqn:E; [apply eqs_true in E; subst; destruct (IH d) as [w W]; exists w; constructor; auto|].
  destruct (eqs c ".") eqn:D; [apply eqs_true in D; subst; destruct (IH d) as [w W]; exists w; constructor; auto|].
  apply eqs_false in E, D. destruct (eqs c "..") eqn:T.
  - apply eqs_true in T. subst c. destruct (rev d) as [|x r] eqn:R.
    + apply (f_equal (@rev _)) in R. rewrite rev_involutive in R. subst d. destruct (IH []) as [w W]. exists w. apply goes_top, W.
    + apply (f_equal (@rev _)) in R. rewrite rev_involutive in R. subst d. cbn [rev]. destruct (IH (rev r)) as [w W]. exists w. apply goes_up, W.
  - apply eqs_false in T. destruct (IH (d ++ [c])%list) as [w W]. exists w. apply goes_down; assumption.
Qed.
Lemma goes_split : forall l1 l2 d w, goes d (l1 ++ l2) w -> exists m, goes d l1 m /\ goes m l2 w.
Proof.
  intros l1 l2 d w G. destruct (goes_some l1 d) as [m M]. exists m. split; [exact M|].
  destruct (goes_some l2 m) as [w' W']. rewrite (goes_fun _ _ _ G w' (goes_app _ _ _ M _ _ W')). exact W'.
Qed.
Lemma goes_blanks : forall l d w, Forall (fun x => x = "") l -> goes d l w -> w = d.
Proof. induction l as [|c l IH]; intros d w F G; inversion F; subst; inversion G; subst; auto; congruence. Qed.
Lemma goes_trail : forall l1 l2 d w, Forall (fun x => x = "") l2 -> goes d (l1 ++ l2) w -> goes d l1 w.
Proof. intros l1 l2 d w F G. apply goes_split in G. destruct G as (m & M & G). apply goes_blanks in G; [subst; exact M|exact F]. Qed.
Lemma goes_ordinary : forall d l w, goes d l w -> Forall ordinary d -> Forall ordinary w.
Proof.
  induction 1 as [d|d c l w C G IH|d x l w G IH|l w G IH|d c l w C1 C2 C3 G IH]; intro F; auto.
  - apply Forall_app in F. apply IH, F.
  - apply IH, Forall_app. split; [exact F|]. constructor; [|constructor]. repeat split; assumption.
Qed.
Lemma goes_from : forall d l w, goes d l w -> Forall (free_of "/") d -> Forall (free_of "/") l -> Forall (free_of "/") w.
Proof.
  induction 1 as [d|d c l w C G IH|d x l w G IH|l w G IH|d c l w C1 C2 C3 G IH]; intros D F; auto; inversion F; subst; auto.
  - apply Forall_app in D. apply IH; [apply D|assumption].
  - apply IH; [apply Forall_app; split; [exact D|constructor; [assumption|constructor]]|assumption].
Qed.
(** walking along the names themselves *)
Lemma goes_along : forall w d, Forall ordinary w -> goes d w (d ++ w).
Proof.
  induction w as [|c w IH]; intros d F; [rewrite app_nil_r; constructor|]. inversion F as [|? ? (A & B & C) F']; subst.
  apply goes_down; try assumption. replace (d ++ c :: w)%list with ((d ++ [c]) ++ w)%list by (rewrite <- app_assoc; reflexivity). apply IH, F'.
Qed.

(** ** The pieces of paths *)

Lemma split_glue : forall c a b, split_on c (a ++ String c b) = (split_on c a ++ split_on c b)%list.
Proof.
  induction a as [|d a IH]; intro b.
  - cbn [append split_on]. rewrite Ascii.eqb_refl. reflexivity.
  - cbn [append split_on]. rewrite IH. destruct (Ascii.eqb c d); [reflexivity|].
    destruct (split_on c a) eqn:E; [exfalso; exact (split_on_nonnil _ _ E)|]. reflexivity.
Qed.
Lemma split_slashes : forall v, slashes v -> v <> "" -> exists l, split_on "/" v = "" :: l /\ Forall (fun x => x = "") l.
Proof.
  induction v as [|c v IH]; intros S N; [congruence|]. apply slashes_cons in S. destruct S as [-> S]. cbn [split_on]. rewrite Ascii.eqb_refl.
  eexists. split; [reflexivity|]. destruct v as [|d v]; [cbn; constructor; [reflexivity|constructor]|].
  destruct (IH S) as (l & -> & F); [discriminate|]. constructor; [reflexivity|exact F].
Qed.
Lemma split_trail : forall t v, slashes v -> exists l, split_on "/" (t ++ v) = (split_on "/" t ++ l)%list /\ Forall (fun x => x = "") l.
Proof.
  intros t v S. destruct v as [|c v]; [exists []; rewrite app_s_nil, app_nil_r; auto|].
  apply slashes_cons in S. destruct S as [-> S]. rewrite split_glue. exists (split_on "/" v). split; [reflexivity|].
  destruct v as [|d v]; [cbn; constructor; [reflexivity|constructor]|]. destruct (split_slashes (String d v) S) as (l & -> & F); [discriminate|].
  constructor; [reflexivity|exact F].
Qed.
Lemma goes_unslashed : forall t v d w, slashes v -> goes d (split_on "/" (t ++ v)) w -> goes d (split_on "/" t) w.
Proof. intros t v d w S G. destruct (split_trail t v S) as (l & E & F). rewrite E in G. eapply goes_trail; eassumption. Qed.
Lemma slashes_all : forall s, all_chars (Ascii.eqb "/") s = true <-> slashes s.
Proof.
  induction s as [|c s IH]; [split; [intros _ c []|reflexivity]|]. cbn [all_chars]. rewrite andb_true_iff, slashes_cons, IH.
  split; intros [A B]; (split; [|exact B]); [symmetry; apply Ascii.eqb_eq, A|subst; apply Ascii.eqb_refl].
Qed.

(** ** The beginnings of paths *)

Lemma eqb_slash : forall c, Ascii.eqb "/" c = true <-> c = "/"%char.
Proof. intro c. split; intro H; [symmetry; apply Ascii.eqb_eq, H|subst; reflexivity]. Qed.
Lemma initial_root : forall p, absolute p -> root_of p (initial_slashes p).
Proof.
  intros p A. unfold initial_slashes. assert (S1 : startswith "/" p = true) by (apply absolute_spec, A). rewrite S1.
  destruct (startswith "//" p) eqn:S2; [destruct (startswith "///" p) eqn:S3|]; cbn [andb negb].
  - apply root_one; [exact A|]. intros r ->. apply absolute_spec. exact S3.
  - apply startswith_spec in S2. destruct S2 as [r ->]. apply root_two with r; [reflexivity|]. intro H. apply absolute_spec in H.
    cbn [append startswith] in S3. rewrite Ascii.eqb_refl in S3. cbn [andb] in S3. cbn [startswith] in H. congruence.
  - apply root_one; [exact A|]. intros r ->. exfalso. rewrite (startswith_app "//" r) in S2. discriminate.
Qed.
Lemma root_fun : forall p r r', root_of p r -> root_of p r' -> r = r'.
Proof.
  intros p r r' [x E N|A F] [y E' N'|A' F']; try reflexivity.
  - exfalso. exact (N (F' _ E)).
  - exfalso. exact (N' (F _ E')).
Qed.
Lemma initial_stable : forall t x, absolute t -> ~ ends_in_slash t -> initial_slashes (t ++ x) = initial_slashes t.
Proof.
  intros t x [r ->] N. unfold initial_slashes.
  destruct r as [|a r]; [exfalso; apply N; exists ""; reflexivity|].
  destruct r as [|b r].
  - cbn. destruct (Ascii.eqb "/" a) eqn:A; [|cbn; destruct a as [[] [] [] [] [] [] [] []]; try discriminate A; reflexivity].
    apply eqb_slash in A. subst. exfalso. apply N. exists "/". reflexivity.
  - cbn. destruct a as [[] [] [] [] [] [] [] []], b as [[] [] [] [] [] [] [] []]; reflexivity.
Qed.
Lemma initial_slash : forall t x, absolute t -> ~ absolute x -> initial_slashes (t ++ x) = initial_slashes t.
Proof.
  intros t x [r ->] N. unfold initial_slashes. assert (X : startswith "/" x = false) by (destruct (startswith "/" x) eqn:X; [exfalso; apply N, absolute_spec, X|reflexivity]).
  cbn [append startswith]. rewrite Ascii.eqb_refl. cbn [andb].
  destruct r as [|a r]; [cbn [append]; cbn [startswith] in X; destruct x as [|y x]; [reflexivity|]; cbn [startswith] in *; rewrite andb_true_r in X; rewrite X; reflexivity|].
  cbn [append startswith]. destruct (Ascii.eqb "/" a); [|reflexivity]. cbn [andb].
  destruct r as [|b r]; [|reflexivity]. cbn [append startswith]. destruct x as [|y x]; [reflexivity|]. cbn [startswith] in X. rewrite X. reflexivity.
Qed.
Lemma initial_nonempty : forall p, absolute p -> nonempty (initial_slashes p) = true.
Proof. intros p A. apply nonempty_true. destruct (initial_root p A); discriminate. Qed.

Lemma free_not_absolute : forall name, free_of "/" name -> ~ absolute name.
Proof. intros name F [r ->]. apply F. left. reflexivity. Qed.

Lemma normpath_abs : forall p, absolute p -> exists w, goes [] (split_on "/" p) w /\ normpath p = (initial_slashes p ++ String.concat "/" w)%string.
Proof.
  intros p A. exists (norm_comps true [] (split_on "/" p)). split; [apply (norm_goes _ []); intros []|].
  unfold normpath. cbv zeta. destruct (eqs p "") eqn:E; [apply eqs_true in E; subst; destruct A; discriminate|].
  rewrite (initial_nonempty p A). rewrite (concat_join "/" (norm_comps true [] (split_on "/" p))). pose proof (initial_root p A) as R.
  destruct (eqs (initial_slashes p ++ _) "") eqn:Q; [|reflexivity]. apply eqs_true in Q. exfalso. revert Q. destruct R; discriminate.
Qed.

Lemma dirname_of : forall p ds name, spells p (ds ++ [name]) -> exists head, head = join "/" (ds ++ [""])%list
  /\ p = (head ++ name)%string /\ split_on "/" head = (ds ++ [""])%list
  /\ dirname p = (if all_chars (Ascii.eqb "/") head then head else rstrip_c "/" head).
Proof.
  intros p ds name S. exists (join "/" (ds ++ [""])). split; [reflexivity|].
  assert (SP := proj1 (spells_split _ _) S). destruct S as (_ & F & P). split; [|split].
  - rewrite P, concat_join. clear. induction ds as [|d ds IH]; [reflexivity|].
    assert (N : forall x, (ds ++ [x])%list <> []) by (intro; destruct ds; discriminate).
    cbn [app join]. destruct (ds ++ [name])%list eqn:E1; [exfalso; eapply N, E1|]. destruct (ds ++ [""])%list eqn:E2; [exfalso; eapply N, E2|].
    rewrite IH, !app_s_assoc. reflexivity.
  - apply spells_split. split; [destruct ds; discriminate|]. split; [|symmetry; apply concat_join].
    apply Forall_app in F. apply Forall_app. split; [apply F|]. constructor; [intros []|constructor].
  - unfold dirname. rewrite SP, removelast_last. reflexivity.
Qed.
Lemma dirname_goes : forall p ds name d w, spells p (ds ++ [name]) -> goes d (split_on "/" (dirname p)) w -> goes d ds w.
Proof.
  intros p ds name d w S G. destruct (dirname_of _ _ _ S) as (head & _ & _ & SH & D). rewrite D in G.
  assert (B : Forall (fun x => x = "") [""]) by (constructor; [reflexivity|constructor]).
  destruct (all_chars _ head); [rewrite SH in G; eapply goes_trail; eassumption|].
  destruct (rstrip_of head) as (v & E & V & _). destruct (split_trail (rstrip_c "/" head) v V) as (l & E2 & F).
  rewrite <- E, SH in E2.
  destruct (goes_some ds d) as [w' W']. replace w with w'; [exact W'|].
  assert (G1 : goes d (ds ++ [""]) w') by (eapply goes_app; [exact W'|]; apply goes_stay; [left; reflexivity|constructor]).
  rewrite E2 in G1. apply goes_trail in G1; [|exact F]. symmetry. exact (goes_fun _ _ _ G _ G1).
Qed.
Lemma dirname_root : forall p, absolute p -> absolute (dirname p) /\ initial_slashes (dirname p) = initial_slashes p.
Proof.
  intros p A. destruct (exists_last (split_on_nonnil "/" p)) as (ds & name & E). apply spells_split in E.
  pose proof E as E'. destruct E' as (_ & F & _). apply Forall_app in F. destruct F as [_ F]. inversion F as [|? ? FN _]; subst.
  destruct (dirname_of _ _ _ E) as (head & H & P & SH & D).
  assert (AH : absolute head).
  { destruct A as [r A]. rewrite A in P. destruct head as [|c head]; [cbn in P; subst name; exfalso; apply FN; left; reflexivity|].
    injection P as <- _. exists head. reflexivity. }
  assert (I : initial_slashes p = initial_slashes head) by (rewrite P; apply initial_slash; [exact AH|apply free_not_absolute, FN]).
  rewrite I, D. destruct (all_chars _ head) eqn:AC; [auto|].
  destruct (rstrip_of head) as (v & EV & V & N). destruct (rstrip_c "/" head) as [|c t] eqn:R.
  - exfalso. cbn in EV. subst v. apply slashes_all in V. congruence.
  - assert (AT : absolute (String c t)) by (destruct AH as [r AH]; rewrite AH in EV; injection EV as <- _; exists t; reflexivity).
    split; [exact AT|]. rewrite EV. symmetry. apply initial_stable; assumption.
Qed.
Lemma dirname_relative : forall p, ~ absolute p -> ~ absolute (dirname p).
Proof.
  intros p A. destruct (exists_last (split_on_nonnil "/" p)) as (ds & name & E). apply spells_split in E.
  destruct (dirname_of _ _ _ E) as (head & H & P & SH & D).
  assert (AH : ~ absolute head) by (intros [r AH]; apply A; rewrite P, AH; exists (r ++ name)%string; reflexivity).
  rewrite D. destruct (all_chars _ head); [exact AH|]. destruct (rstrip_of head) as (v & EV & V & N).
  intros [r AR]. apply AH. rewrite EV, AR. exists (r ++ v)%string. reflexivity.
Qed.

(** ** C79 *)

Lemma c79_absolute : forall cwd parse o u ds name, o_ref o = RUrl u -> spells (u_path u) (ds ++ [name]) -> absolute (u_path u) ->
  exists r w, root_of (u_path u) r /\ goes [] ds w /\ Forall ordinary w /\ doc_dir cwd parse o = Some (r ++ String.concat "/" w)%string.
Proof.
  intros cwd parse o u ds name O S A. unfold doc_dir. rewrite O. destruct (dirname_root _ A) as [AD I].
  unfold abspath. rewrite (proj2 (absolute_spec _) AD). destruct (normpath_abs _ AD) as (w & G & N).
  exists (initial_slashes (u_path u)), w. split; [apply initial_root, A|]. split; [eapply dirname_goes; eassumption|]. split; [eapply goes_ordinary; [exact G|constructor]|]. rewrite N, I. reflexivity.
Qed.
Lemma c79_relative : forall cwd parse o u ds name cs, o_ref o = RUrl u -> spells (u_path u) (ds ++ [name]) -> ~ absolute (u_path u) ->
  absolute cwd -> spells cwd cs ->
  exists r w, root_of cwd r /\ goes [] (cs ++ ds) w /\ Forall ordinary w /\ doc_dir cwd parse o = Some (r ++ String.concat "/" w)%string.
Proof.
  intros cwd parse o u ds name cs O S A C SC. unfold doc_dir. rewrite O. pose proof (dirname_relative _ A) as ND.
  assert (W := fun d w => dirname_goes _ _ _ d w S). set (d := dirname (u_path u)) in *.
  unfold abspath. destruct (startswith "/" d) eqn:SD; [exfalso; apply ND, absolute_spec, SD|].
  assert (J : absolute (path_join cwd d) /\ initial_slashes (path_join cwd d) = initial_slashes cwd
    /\ forall w, goes [] (split_on "/" (path_join cwd d)) w -> goes [] (cs ++ ds) w).
  { apply spells_split in SC. subst cs. unfold path_join. rewrite SD.
    destruct (eqs cwd "") eqn:E; [apply eqs_true in E; subst; destruct C; discriminate|]. cbn [orb].
    destruct (endswith_char "/" cwd) eqn:EW.
    - split; [destruct C as [r ->]; exists (r ++ d)%string; reflexivity|]. split; [apply initial_slash; assumption|].
      intros w G. apply slash_spec in EW. destruct EW as [b ->]. rewrite <- app_s_assoc in G.
      change ("/" ++ d)%string with (String "/" d) in G. rewrite (split_glue "/" b d) in G. rewrite (split_glue "/" b ""). apply goes_split in G. destruct G as (m & G1 & G2).
      rewrite <- app_assoc. eapply goes_app; [exact G1|]. cbn [split_on app]. apply goes_stay; [left; reflexivity|]. apply W, G2.
    - assert (NS : ~ ends_in_slash cwd) by (intro H; apply slash_spec in H; congruence).
      split; [destruct C as [r ->]; exists (r ++ "/" ++ d)%string; reflexivity|]. split; [apply initial_stable; assumption|].
      intros w G. change ("/" ++ d)%string with (String "/" d) in G. rewrite (split_glue "/" cwd d) in G. apply goes_split in G. destruct G as (m & G1 & G2). eapply goes_app; [exact G1|apply W, G2]. }
  destruct J as (J1 & J2 & J3). destruct (normpath_abs _ J1) as (w & G & N).
  exists (initial_slashes cwd), w. split; [apply initial_root, C|]. split; [apply J3, G|]. split; [eapply goes_ordinary; [exact G|constructor]|]. rewrite N, J2. reflexivity.
Qed.

(** ** Reading a file in parts (C80) *)

Lemma sub_head : forall n s, exists a b, s = (a ++ b)%string /\ substring 0 n s = a /\ substring n (String.length s - n) s = b
  /\ (n <> 0 -> a = "" -> s = "") /\ (a <> "" -> String.length b < String.length s).
Proof.
  induction n as [|n IH]; intros [|c s].
  - exists "", "". repeat split; auto. congruence.
  - exists "", (String c s). assert (L : forall t, substring 0 (String.length t) t = t) by (induction t as [|y t IHt]; [reflexivity|cbn; rewrite IHt; reflexivity]).
    repeat split; [|congruence|congruence]. rewrite Nat.sub_0_r. apply L.
  - exists "", "". repeat split; auto. congruence.
  - destruct (IH s) as (a & b & E & A & B & _ & L). exists (String c a), b. cbn [substring String.length Nat.sub append].
    split; [rewrite <- E; reflexivity|]. split; [rewrite A; reflexivity|]. split; [exact B|]. split; [discriminate|].
    intros _. subst s. rewrite app_s_length. Lia.lia.
Qed.
Lemma feed_all : forall n, n <> 0 -> forall fuel rest acc, String.length rest < fuel -> feed fuel n rest acc = Ok (acc ++ rest)%string.
Proof.
  intros n N. induction fuel as [|f IH]; intros rest acc L; [Lia.lia|]. cbn [feed]. destruct (sub_head n rest) as (a & b & E & A & B & Z & D).
  rewrite A, B. destruct (eqs a "") eqn:Q.
  - apply eqs_true in Q. rewrite (Z N Q), app_s_nil. reflexivity.
  - apply eqs_false in Q. rewrite IH; [rewrite E, app_s_assoc; reflexivity|]. specialize (D Q). Lia.lia.
Qed.
Lemma md5_content : forall digest n fs p s, n <> 0 -> is_file fs p s -> md5_file digest n fs p = Ok (Some (digest s)).
Proof. intros digest n fs p s N L. apply lookup_leads in L. unfold md5_file. rewrite L, (feed_all n N); [reflexivity|Lia.lia]. Qed.
Lemma md5_none : forall digest n fs p, is_dir fs p \/ missing fs p -> md5_file digest n fs p = Ok None.
Proof.
  intros digest n fs p H. unfold md5_file. destruct (lookup fs p) as [[s|]|] eqn:L; [|reflexivity..]. exfalso. destruct H as [[es H]|H].
  - apply lookup_leads in H. congruence.
  - apply lookup_leads in L. exact (H _ L).
Qed.

(** ** Dotted names (C80) *)

Definition has_attr (o : pyobj) (c : string) (o' : pyobj) : Prop := match o with PyObj _ attrs => dget c attrs = Some o' end.
Lemma descend_reaches : forall names o o', descend o names = Found o' <-> reaches has_attr o names o'.
Proof.
  induction names as [|c names IH]; intros o o'; cbn [descend].
  - split; [intros [= ->]; constructor|]. intro R. inversion R. reflexivity.
  - destruct o as [i attrs]. split.
    + destruct (dget c attrs) as [o1|] eqn:D; [|discriminate]. intro H. apply IH in H. econstructor; [exact D|exact H].
    + intro R. inversion R; subst. cbn in H2. rewrite H2. apply IH. assumption.
Qed.
Lemma dotted_split : forall name names, dotted_name name names <-> split_on "." name = names.
Proof.
  intros p l. split.
  - intros (N & F & ->). rewrite concat_join. apply (split_join "." l N). intros x X. apply free_char. rewrite Forall_forall in F. apply F, X.
  - intros <-. split; [apply split_on_nonnil|]. split.
    + apply Forall_forall. intros x X. apply free_char. eapply split_on_pieces, X.
    + rewrite concat_join. symmetry. apply join_split.
Qed.
Lemma import_found : forall importable top name m mid l o, dotted_name name (m :: mid ++ [l]) ->
  (import_name importable top name = Found o
   <-> importable (String.concat "." (m :: mid)) = true /\ exists t, dget m top = Some t /\ reaches has_attr t (mid ++ [l]) o).
Proof.
  intros importable top name m mid l o D. apply dotted_split in D. unfold import_name. rewrite D.
  assert (R : removelast (m :: mid ++ [l]) = m :: mid) by (change (m :: mid ++ [l])%list with ((m :: mid) ++ [l])%list; apply removelast_last).
  rewrite R, (concat_join "." (m :: mid)). destruct (mid ++ [l])%list as [|x xs] eqn:E; [destruct mid; discriminate|]. rewrite <- E. clear R.
  destruct (importable _); [|split; [discriminate|intros [? _]; discriminate]].
  destruct (dget m top) as [t|]; [|split; [discriminate|intros (_ & t & ? & _); discriminate]].
  rewrite descend_reaches. split; [intro H; split; [reflexivity|]; exists t; auto|]. intros (_ & t' & [= ->] & H). exact H.
Qed.
Lemma import_nodot : forall importable top name, free_of "." name -> import_name importable top name = NoDot.
Proof. intros importable top name F. unfold import_name. rewrite (split_on_none "." name); [reflexivity|]. apply free_char, F. Qed.

(** ** What a term shows (C81) *)

Lemma safe_not : forall c x, In c (list_ascii_of_string (slugify x)) -> c <> " "%char /\ c <> "/"%char.
Proof. intros c x H. apply slugify_safe in H. split; intros ->; revert H; clear; intro H; repeat (destruct H as [H|H]; [discriminate H|]); exact H. Qed.
Lemma file_name_plain : forall p, free_of " " (file_name p) /\ free_of "/" (file_name p).
Proof.
  intro p. unfold file_name. destruct (nonempty p).
  - split; intro H; apply safe_not in H; destruct H; congruence.
  - split; intro H; repeat (destruct H as [H|H]; [discriminate H|]); exact H.
Qed.
Lemma basename_free : forall x, free_of "/" x -> basename x = x.
Proof. intros x F. unfold basename. rewrite (split_on_none "/" x); [reflexivity|]. apply free_char, F. Qed.

Lemma digits_free : forall c n, is_digit c = false -> free_of c (str_of_nat n).
Proof. intros c n D H. pose proof (proj1 (str_of_nat_digits n)) as F. unfold digits in F. rewrite Forall_forall in F. apply F in H. congruence. Qed.
Lemma col_free : forall c o, is_digit c = false -> free_of c "None" -> free_of c (str_opt o).
Proof. intros c [n|] D F; [apply digits_free, D|exact F]. Qed.
Lemma none_not_nat : forall n, str_of_nat n <> "None".
Proof. intros n E. apply (digits_free "N" n eq_refl). rewrite E. left. reflexivity. Qed.
Lemma str_opt_inj : forall a b, str_opt a = str_opt b -> a = b.
Proof.
  intros [a|] [b|] E; cbn [str_opt] in E; [apply str_of_nat_inj in E; congruence| | |reflexivity].
  - exfalso. exact (none_not_nat _ E).
  - exfalso. exact (none_not_nat _ (eq_sym E)).
Qed.
Lemma cut : forall c a b a' b', free_of c a -> free_of c a' -> (a ++ String c b)%string = (a' ++ String c b')%string -> a = a' /\ b = b'.
Proof. intros c a b a' b' F F' E. apply free_char in F, F'. exact (cut_char c a b a' b' F F' E). Qed.

Definition sec_name (h : list trec) (r : trec) : string := match t_section r with Some i => str_val (t_val (hget i h)) | None => "None" end.

Lemma c81_unique : forall h h' p p' r r' n n', t_row r = Some n -> t_row r' = Some n' ->
  free_of ":" (sec_name h r) -> free_of ":" (sec_name h' r') -> t_pt r <> "" -> t_pt r' <> "" ->
  free_of "." (t_pt r) -> free_of "." (t_pt r') -> free_of "=" (t_rt r) -> free_of "=" (t_rt r') ->
  term_str h (file_name p) r = term_str h' (file_name p') r' ->
  file_name p = file_name p' /\ n = n' /\ t_col r = t_col r' /\ sec_name h r = sec_name h' r'
  /\ t_pt r = t_pt r' /\ t_rt r = t_rt r' /\ str_val (t_val r) = str_val (t_val r').
Proof.
  intros h h' p p' r r' n n' R R' S S' P P' D D' Q Q' E.
  set (shown := fun x : trec => if eqs (t_pt x) ELIDED_TERM then "" else t_pt x).
  assert (SH : forall x, free_of "." (t_pt x) -> free_of "." (shown x)) by (intros x F; unfold shown; destruct (eqs (t_pt x) ELIDED_TERM); [intros []|exact F]).
  assert (T : forall h x p n, t_row x = Some n -> term_str h (file_name p) x = (file_name p ++ String " " (str_of_nat n ++ String ":" (str_opt (t_col x) ++ String " "
    (sec_name h x ++ String ":" (shown x ++ String "." (t_rt x ++ String "=" (str_val (t_val x))))))))%string).
  { intros h0 x p0 n0 R0. unfold term_str, file_ref, shown. rewrite R0, (basename_free _ (proj2 (file_name_plain p0))). change (match t_section x with Some i => str_val (t_val (hget i h0)) | None => "None" end) with (sec_name h0 x). cbv zeta.
    destruct (eqs (t_pt x) ELIDED_TERM); rewrite <- !app_s_assoc; reflexivity. }
  rewrite (T _ _ _ _ R), (T _ _ _ _ R') in E.
  apply cut in E; [|apply file_name_plain..]. destruct E as [E1 E].
  apply cut in E; [|apply digits_free; reflexivity..]. destruct E as [E2 E].
  assert (SP : free_of " " "None") by (intro H; repeat (destruct H as [H|H]; [discriminate H|]); exact H).
  apply cut in E; [|apply col_free; [reflexivity|exact SP]..]. destruct E as [E3 E].
  apply cut in E; [|assumption..]. destruct E as [E4 E].
  apply cut in E; [|apply SH; assumption..]. destruct E as [E5 E].
  apply cut in E; [|assumption..]. destruct E as [E6 E7].
  repeat split; auto.
  - apply str_of_nat_inj, E2.
  - apply str_opt_inj, E3.
  - unfold shown in E5. destruct (eqs (t_pt r) ELIDED_TERM) eqn:A, (eqs (t_pt r') ELIDED_TERM) eqn:B; try congruence.
    apply eqs_true in A, B. congruence.
Qed.

Lemma nat_numeral : forall n, numeral (str_of_nat n) (N.of_nat n).
Proof.
  intro n. pose proof (proj1 (str_of_nat_digits n)) as D. apply unsigned_numeral.
  - apply digits_starts, D.
  - intros a c b E. unfold digits in D. rewrite Forall_forall in D. assert (X : is_digit c = true).
    { apply D. rewrite E. clear. induction a as [|d a IH]; [left; reflexivity|right; exact IH]. }
    repeat split; intros ->; discriminate X.
  - rewrite py_int_str. f_equal. Lia.lia.
Qed.

Lemma c81_shows : forall h p r row col i sec, t_row r = Some row -> t_col r = Some col -> t_section r = Some i -> t_val (hget i h) = VStr sec ->
  exists rs cs, numeral rs (N.of_nat row) /\ numeral cs (N.of_nat col)
    /\ (t_pt r <> "<elided_term>" -> term_str h (file_name p) r = (file_name p ++ " " ++ rs ++ ":" ++ cs ++ " " ++ sec ++ ":" ++ t_pt r ++ "." ++ t_rt r ++ "=" ++ str_val (t_val r))%string)
    /\ (t_pt r = "<elided_term>" -> term_str h (file_name p) r = (file_name p ++ " " ++ rs ++ ":" ++ cs ++ " " ++ sec ++ ":." ++ t_rt r ++ "=" ++ str_val (t_val r))%string).
Proof.
  intros h p r row col i sec R C S V. exists (str_of_nat row), (str_of_nat col). split; [apply nat_numeral|]. split; [apply nat_numeral|].
  unfold term_str, file_ref. rewrite R, C, S, V, (basename_free _ (proj2 (file_name_plain p))). cbv zeta. cbn [str_val str_opt]. split; intro E.
  - apply eqs_false in E. change ELIDED_TERM with "<elided_term>". rewrite E, <- !app_s_assoc. reflexivity.
  - rewrite E. change (eqs "<elided_term>" ELIDED_TERM) with true. cbv iota. rewrite <- !app_s_assoc. reflexivity.
Qed.
Lemma c81_norow : forall h f r i sec, t_row r = None -> t_section r = Some i -> t_val (hget i h) = VStr sec -> t_pt r <> "<elided_term>" ->
  term_str h f r = (sec ++ ":" ++ t_pt r ++ "." ++ t_rt r ++ "=" ++ str_val (t_val r))%string.
Proof.
  intros h f r i sec R S V E. apply eqs_false in E. unfold term_str, file_ref. rewrite R, S, V. cbv zeta. change ELIDED_TERM with "<elided_term>". rewrite E. reflexivity.
Qed.
Lemma c81_file : forall p ds name, spells p (ds ++ [name]) -> p <> "" -> file_name p = slugify name.
Proof.
  intros p ds name S N. apply spells_split in S. unfold file_name, basename. apply nonempty_true in N. rewrite N, S, last_last. reflexivity.
Qed.

(** ** C79: times and paths *)

Lemma c79_mtime_file : forall now gm u t, u_scheme u = "file" -> gm (u_path u) = Some t -> doc_mtime (new_origin now gm (Parsed u)) = Ok t.
Proof. intros now gm u t S G. unfold doc_mtime, new_origin. cbn [o_mtime]. rewrite S, G. reflexivity. Qed.
Lemma c79_mtime_missing : forall now gm u, u_scheme u = "file" -> gm (u_path u) = None -> doc_mtime (new_origin now gm (Parsed u)) = Ok 0%Z.
Proof. intros now gm u S G. unfold doc_mtime, new_origin. cbn [o_mtime]. rewrite S, G. reflexivity. Qed.
Lemma c79_mtime_other : forall now gm u, u_scheme u <> "file" -> doc_mtime (new_origin now gm (Parsed u)) = Ok 0%Z.
Proof. intros now gm u S. apply eqs_false in S. unfold doc_mtime, new_origin. cbn [o_mtime]. rewrite S. reflexivity. Qed.
Lemma c79_path : forall now gm r parse, doc_path parse (new_origin now gm r) = None.
Proof. intros now gm [|u|] parse; reflexivity. Qed.

Lemma c81_place : forall h h' p p' r r' n n', t_row r = Some n -> t_row r' = Some n' -> term_str h (file_name p) r = term_str h' (file_name p') r' ->
  n = n' /\ t_col r = t_col r'.
Proof.
  intros h h' p p' r r' n n' R R' E.
  assert (T : forall h x p n, t_row x = Some n -> exists rest, term_str h (file_name p) x = (file_name p ++ String " " (str_of_nat n ++ String ":" (str_opt (t_col x) ++ String " " rest)))%string).
  { intros h0 x p0 n0 R0. unfold term_str, file_ref. rewrite R0, (basename_free _ (proj2 (file_name_plain p0))). cbv zeta.
    destruct (eqs (t_pt x) ELIDED_TERM); eexists; rewrite <- !app_s_assoc; reflexivity. }
  destruct (T h r p n R) as [t E1]. destruct (T h' r' p' n' R') as [t' E2]. rewrite E1, E2 in E.
  apply cut in E; [|apply file_name_plain..]. destruct E as [_ E].
  apply cut in E; [|apply digits_free; reflexivity..]. destruct E as [E3 E].
  assert (SP : free_of " " "None") by (intro H; repeat (destruct H as [H|H]; [discriminate H|]); exact H).
  apply cut in E; [|apply col_free; [reflexivity|exact SP]..]. destruct E as [E4 E].
  split; [apply str_of_nat_inj, E3|apply str_opt_inj, E4].
Qed.
Lemma c81_once : forall e fuel src s s' p, load_source e fuel src s = (s', Ok tt) ->
  forall i j, hlen s <= i -> hlen s <= j -> of_file s' i -> of_file s' j ->
  term_str (s_heap s') (file_name p) (tget i s') = term_str (s_heap s') (file_name p) (tget j s') -> i = j.
Proof.
  intros e fuel src s s' p L i j I J OI OJ E. destruct (t_row (tget i s')) as [n|] eqn:R; [|exfalso; destruct OI as (_ & _ & X & _); exact (X R)].
  destruct (t_row (tget j s')) as [n'|] eqn:R'; [|exfalso; destruct OJ as (_ & _ & X & _); exact (X R')].
  destruct (c81_place _ _ _ _ _ _ _ _ R R' E) as [<- C]. eapply c73_once; try eassumption. congruence.
Qed.
