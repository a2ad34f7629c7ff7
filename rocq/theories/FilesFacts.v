(** * FilesFacts: making directories, walking up, copying *)

From Verif Require Import ListFacts StrFacts HeapFacts RunFacts Files SpecFiles.

(** ** What is at a path *)

Definition kind (fs : node) (p : path) : option (option string) :=
  match lookup fs p with Some (File c) => Some (Some c) | Some (Dir _) => Some None | None => None end.

Lemma lookup_leads : forall p fs x, lookup fs p = Some x <-> leads fs p x.
Proof.
  intros p. induction p as [|n p IH]; intros fs x; cbn [lookup].
  - split; [injection 1 as <-; constructor|inversion 1; reflexivity].
  - split.
    + destruct fs as [c|es]; [discriminate|]. destruct (dget n es) as [y|] eqn:E; [|discriminate]. intros H. apply IH in H. econstructor; eassumption.
    + inversion 1; subst. match goal with H : dget n es = Some _ |- _ => rewrite H end. apply IH. assumption.
Qed.
Lemma kind_file : forall fs p c, kind fs p = Some (Some c) <-> is_file fs p c.
Proof.
  intros. unfold kind, is_file. rewrite <- lookup_leads. destruct (lookup fs p) as [[d|es]|]; split; intros H; try discriminate H; try congruence.
Qed.
Lemma kind_dir : forall fs p, kind fs p = Some None <-> is_dir fs p.
Proof.
  intros. unfold kind, is_dir. split.
  - destruct (lookup fs p) as [[d|es]|] eqn:E; try discriminate. intros _. exists es. apply lookup_leads. exact E.
  - intros [es H]. apply lookup_leads in H. rewrite H. reflexivity.
Qed.
Lemma kind_missing : forall fs p, kind fs p = None <-> missing fs p.
Proof.
  intros. unfold kind, missing. split.
  - destruct (lookup fs p) as [[d|es]|] eqn:E; try discriminate. intros _ x H. apply lookup_leads in H. congruence.
  - intros H. destruct (lookup fs p) as [x|] eqn:E; [exfalso; apply (H x); apply lookup_leads; exact E|reflexivity].
Qed.
Lemma kind_exists : forall fs p, exists_at fs p = match kind fs p with Some _ => true | None => false end.
Proof. intros. unfold exists_at, kind. destruct (lookup fs p) as [[|]|]; reflexivity. Qed.
Lemma kind_isdir : forall fs p, isdir_at fs p = match kind fs p with Some None => true | _ => false end.
Proof. intros. unfold isdir_at, kind. destruct (lookup fs p) as [[|]|]; reflexivity. Qed.
Lemma kind_nil : forall fs, kind fs [] = match fs with File c => Some (Some c) | Dir _ => Some None end.
Proof. intros [c|es]; reflexivity. Qed.
Lemma kind_cons : forall n p es, kind (Dir es) (n :: p) = match dget n es with Some y => kind y p | None => None end.
Proof. intros. unfold kind. cbn [lookup]. destruct (dget n es); reflexivity. Qed.
Lemma kind_file_below : forall n p c, kind (File c) (n :: p) = None.
Proof. reflexivity. Qed.

Lemma lookup_app : forall p q fs, lookup fs (p ++ q) = match lookup fs p with Some x => lookup x q | None => None end.
Proof.
  intros p. induction p as [|n p IH]; intros q fs; cbn [app lookup]; [reflexivity|]. destruct fs as [c|es]; [reflexivity|]. destruct (dget n es); [apply IH|reflexivity].
Qed.
Lemma kind_app : forall p q fs, kind fs (p ++ q) = match lookup fs p with Some x => kind x q | None => None end.
Proof. intros. unfold kind. rewrite lookup_app. destruct (lookup fs p); reflexivity. Qed.
(** what is above something is a directory *)
Lemma kind_above : forall fs p n q, kind fs (p ++ n :: q) <> None -> kind fs p = Some None.
Proof.
  intros fs p n q. rewrite kind_app. unfold kind at 2. destruct (lookup fs p) as [[c|es]|]; try congruence. intros H. exfalso. apply H. reflexivity.
Qed.

(** ** Putting something somewhere *)

Fixpoint after (p q : path) : option path :=
  match p, q with
  | [], _ => Some q
  | n :: p', m :: q' => if eqs n m then after p' q' else None
  | _ :: _, [] => None
  end.
Lemma after_spec : forall p q r, after p q = Some r <-> q = (p ++ r)%list.
Proof.
  intros p. induction p as [|n p IH]; intros q r; cbn [after app].
  - split; congruence.
  - destruct q as [|m q]; [split; discriminate|]. eqs_cases n m.
    + subst m. rewrite IH. split; congruence.
    + split; [discriminate|]. intros X. injection X as X _. congruence.
Qed.
Lemma after_none : forall p q, after p q = None <-> forall r, q <> (p ++ r)%list.
Proof.
  intros p q. split.
  - intros H r E. apply after_spec in E. congruence.
  - intros H. destruct (after p q) as [r|] eqn:E; [|reflexivity]. apply after_spec in E. exfalso. exact (H r E).
Qed.

Lemma put_kind : forall p fs x fs', put fs p x = Some fs' -> forall q, kind fs' q = match after p q with Some r => kind x r | None => kind fs q end.
Proof.
  intros p. induction p as [|n p IH]; intros fs x fs' H q.
  - cbn in H. injection H as <-. reflexivity.
  - cbn [put] in H. destruct fs as [c|es]; [discriminate H|]. cbn [after].
    assert (K : exists y', fs' = Dir (dset n y' es) /\ forall q', kind y' q' = match after p q' with Some r => kind x r | None => match dget n es with Some y => kind y q' | None => None end end).
    { destruct p as [|m p].
      - injection H as <-. exists x. split; [reflexivity|]. intros q'. reflexivity.
      - destruct (dget n es) as [y|]; [|discriminate H]. destruct (put y (m :: p) x) as [y'|] eqn:E; [|discriminate H]. injection H as <-.
        exists y'. split; [reflexivity|]. apply IH. exact E. }
    destruct K as (y' & -> & K). destruct q as [|m q]; [reflexivity|]. rewrite !kind_cons, dget_dset. eqs_cases m n.
    + subst m. rewrite eqs_refl. rewrite K. reflexivity.
    + rewrite (eqs_sym n m). rewrite (proj2 (eqs_false _ _)) by assumption. reflexivity.
Qed.
Lemma put_some : forall p n fs x, kind fs p = Some None -> exists fs', put fs (p ++ [n]) x = Some fs'.
Proof.
  intros p. induction p as [|m p IH]; intros n fs x K.
  - rewrite kind_nil in K. destruct fs; [discriminate K|]. eexists. reflexivity.
  - destruct fs as [c|es]; [discriminate K|]. rewrite kind_cons in K. cbn [app put]. destruct (dget m es) as [y|]; [|discriminate K].
    destruct (IH n y x K) as [y' ->]. destruct (p ++ [n])%list eqn:E; [destruct p; discriminate E|]. eexists. reflexivity.
Qed.
Lemma put_parent : forall p n fs x fs', put fs (p ++ [n]) x = Some fs' -> kind fs p = Some None.
Proof.
  intros p. induction p as [|m p IH]; intros n fs x fs' H.
  - destruct fs; [discriminate H|reflexivity].
  - destruct fs as [c|es]; [discriminate H|]. rewrite kind_cons. cbn [app put] in H. destruct (p ++ [n])%list eqn:E; [destruct p; discriminate E|].
    rewrite <- E in H. destruct (dget m es) as [y|]; [|discriminate H]. destruct (put y (p ++ [n]) x) as [y'|] eqn:E2; [|discriminate H]. eapply IH. exact E2.
Qed.

(** ** Directories *)

Definition paths_above (q p : path) : bool := match after q p with Some _ => true | None => false end.
Lemma paths_above_iff : forall q p, paths_above q p = true <-> above q p.
Proof.
  intros q p. unfold paths_above, above. destruct (after q p) as [r|] eqn:E.
  - apply after_spec in E. split; [intros _; exists r; exact E|reflexivity].
  - split; [discriminate|]. intros [r H]. apply after_spec in H. congruence.
Qed.

(** the tree with directories at the missing paths above [p] *)
Definition filled (p : path) (fs fs' : node) : Prop :=
  forall q, kind fs' q = match kind fs q with None => if paths_above q p then Some None else None | k => k end.

Lemma above_snoc : forall q p n, above q (p ++ [n]) <-> above q p \/ q = (p ++ [n])%list.
Proof.
  intros q p n. split.
  - intros [r H]. destruct (rev r) as [|m r'] eqn:E.
    + apply (f_equal (@rev string)) in E. rewrite rev_involutive in E. cbn in E. subst r. rewrite app_nil_r in H. auto.
    + apply (f_equal (@rev string)) in E. rewrite rev_involutive in E. cbn in E. subst r. rewrite app_assoc in H. apply app_inj_tail in H. destruct H as [-> ->]. left. eexists. reflexivity.
  - intros [[r ->]| ->]; [exists (r ++ [n])%list; rewrite app_assoc; reflexivity|exists []; rewrite app_nil_r; reflexivity].
Qed.

Lemma mkdir_run : forall p n fs, kind fs (p ++ [n]) = None -> kind fs p = Some None ->
  exists fs', mkdir (p ++ [n]) fs = (fs', Ok tt) /\ forall q, kind fs' q = if paths_above q (p ++ [n]) && match kind fs q with None => true | _ => false end then Some None else kind fs q.
Proof.
  intros p n fs M P. destruct (put_some p n fs (Dir []) P) as [fs' H]. exists fs'. split.
  - unfold mkdir, bind, gets, place_at. rewrite kind_exists, M. unfold bind, gets. rewrite H. reflexivity.
  - intros q. rewrite (put_kind _ _ _ _ H). destruct (after (p ++ [n]) q) as [r|] eqn:E.
    + apply after_spec in E. subst q. assert (N : kind fs ((p ++ [n]) ++ r) = None).
      { rewrite kind_app. unfold kind in M. destruct (lookup fs (p ++ [n])) as [[|]|]; try discriminate M. reflexivity. }
      rewrite N, andb_true_r. destruct r as [|m r].
      * rewrite app_nil_r. replace (paths_above (p ++ [n]) (p ++ [n])) with true; [reflexivity|]. symmetry. apply paths_above_iff. exists []. rewrite app_nil_r. reflexivity.
      * replace (paths_above ((p ++ [n]) ++ m :: r) (p ++ [n])) with false; [reflexivity|]. symmetry. destruct (paths_above _ _) eqn:X; [|reflexivity].
        apply paths_above_iff in X. destruct X as [z X]. apply (f_equal (@List.length string)) in X. rewrite !app_length in X. cbn in X. lia.
    + destruct (paths_above q (p ++ [n])) eqn:X; [|reflexivity]. cbn [andb]. apply paths_above_iff in X. apply above_snoc in X. destruct X as [[r ->]|X].
      * destruct r as [|m r]; [rewrite app_nil_r in P; rewrite P; reflexivity|]. rewrite (kind_above _ _ m r) by (rewrite P; discriminate). reflexivity.
      * exfalso. apply after_none with (r := []) in E. apply E. rewrite app_nil_r. exact X.
Qed.

(** os.makedirs: succeeds exactly if the path is missing and no file is in the way *)
Lemma makedirs_run : forall up fs, kind fs (rev up) = None -> (forall q c, above q (rev up) -> kind fs q <> Some (Some c)) ->
  exists fs', makedirs_up up fs = (fs', Ok tt) /\ filled (rev up) fs fs'.
Proof.
  intros up. induction up as [|n up IH]; intros fs M W.
  - destruct fs; discriminate M.
  - cbn [rev makedirs_up] in *. unfold bind at 1, gets at 1. cbv beta iota. rewrite kind_exists.
    destruct (kind fs (rev up)) as [k|] eqn:K.
    + assert (k = None). { destruct k as [c|]; [|reflexivity]. exfalso. apply (W (rev up) c); [exists [n]; reflexivity|exact K]. } subst k.
      destruct (mkdir_run (rev up) n fs M K) as (fs' & H1 & H2). exists fs'. split.
      * unfold bind at 1, ret. exact H1.
      * intros q. rewrite H2. destruct (kind fs q); [rewrite andb_false_r; reflexivity|rewrite andb_true_r; reflexivity].
    + destruct (IH fs K) as (fs1 & H1 & F1).
      { intros q c A. apply W. apply above_snoc. left. exact A. }
      assert (M1 : kind fs1 (rev up ++ [n]) = None).
      { rewrite F1, M. destruct (paths_above (rev up ++ [n]) (rev up)) eqn:X; [|reflexivity]. apply paths_above_iff in X. destruct X as [z X].
        apply (f_equal (@List.length string)) in X. rewrite !app_length in X. cbn in X. lia. }
      assert (P1 : kind fs1 (rev up) = Some None).
      { rewrite F1, K. replace (paths_above (rev up) (rev up)) with true; [reflexivity|]. symmetry. apply paths_above_iff. exists []. rewrite app_nil_r. reflexivity. }
      destruct (mkdir_run (rev up) n fs1 M1 P1) as (fs' & H2 & F2). exists fs'. split.
      * unfold bind at 1. rewrite H1. exact H2.
      * intros q. rewrite F2, !F1. destruct (kind fs q) as [k|] eqn:Kq; [rewrite andb_false_r; reflexivity|].
        destruct (paths_above q (rev up)) eqn:A.
        -- rewrite andb_false_r. replace (paths_above q (rev up ++ [n])) with true; [reflexivity|]. symmetry. apply paths_above_iff. apply above_snoc. left. apply paths_above_iff. exact A.
        -- rewrite andb_true_r. reflexivity.
Qed.

Lemma makedirs_fails : forall up fs, kind fs (rev up) <> None \/ (exists q c, above q (rev up) /\ kind fs q = Some (Some c)) ->
  makedirs_up up fs = (fs, Err EOS).
Proof.
  intros up. induction up as [|n up IH]; intros fs W; [reflexivity|].
  cbn [rev makedirs_up] in *. unfold bind at 1, gets at 1. cbv beta iota. rewrite kind_exists.
  destruct (kind fs (rev up)) as [k|] eqn:K.
  - unfold bind at 1, ret. unfold mkdir, bind, gets. rewrite kind_exists. destruct (kind fs (rev up ++ [n])) eqn:K2; [reflexivity|].
    destruct W as [W|(q & c & A & W)]; [congruence|].
    assert (k = Some c).
    { apply above_snoc in A. destruct A as [[r A]| ->]; [|congruence]. rewrite A in K. destruct r as [|m r]; [rewrite app_nil_r in K; congruence|].
      rewrite (kind_above fs q m r) in W by congruence. discriminate W. }
    subst k. unfold place_at, bind, gets. destruct (put fs (rev up ++ [n]) (Dir [])) eqn:E; [|reflexivity]. apply put_parent in E. congruence.
  - unfold bind at 1. rewrite IH; [reflexivity|].
    destruct W as [W|(q & c & A & W)].
    + exfalso. apply W. rewrite kind_app. unfold kind in K. destruct (lookup fs (rev up)) as [[|]|]; try discriminate K. reflexivity.
    + right. exists q, c. split; [|exact W]. apply above_snoc in A. destruct A as [A| ->]; [exact A|]. exfalso.
      rewrite kind_app in W. unfold kind in K. destruct (lookup fs (rev up)) as [[|]|]; discriminate.
Qed.

Lemma way_kind : forall fs p, in_the_way fs p <-> exists q c, above q p /\ kind fs q = Some (Some c).
Proof. intros. unfold in_the_way. split; intros (q & c & A & H); exists q, c; (split; [exact A|apply kind_file; exact H]). Qed.
Lemma filled_refl : forall p fs, kind fs p = Some None -> filled p fs fs.
Proof.
  intros p fs K q. destruct (kind fs q) as [k|] eqn:E; [reflexivity|]. destruct (paths_above q p) eqn:A; [|reflexivity]. exfalso.
  apply paths_above_iff in A. destruct A as [r ->]. destruct r as [|m r]; [rewrite app_nil_r in K; congruence|].
  rewrite (kind_above fs q m r) in E by congruence. discriminate E.
Qed.
Lemma maybe_ok : forall p fs, ~ in_the_way fs p -> exists fs', maybe_makedir p fs = (fs', Ok tt) /\ filled p fs fs'.
Proof.
  intros p fs W. unfold maybe_makedir, bind, gets. rewrite kind_exists, kind_isdir. destruct (kind fs p) as [[c|]|] eqn:K; cbn [andb negb].
  - exfalso. apply W. apply way_kind. exists p, c. split; [exists []; rewrite app_nil_r; reflexivity|exact K].
  - exists fs. split; [reflexivity|apply filled_refl; exact K].
  - unfold makedirs. destruct (makedirs_run (rev p) fs) as (fs' & H1 & H2); rewrite ?rev_involutive in *.
    + exact K.
    + intros q c A H. apply W. apply way_kind. exists q, c. auto.
    + exists fs'. auto.
Qed.
Lemma maybe_fails : forall p fs, in_the_way fs p -> maybe_makedir p fs = (fs, Err EOS).
Proof.
  intros p fs W. apply way_kind in W. destruct W as (q & c & A & H). unfold maybe_makedir, bind, gets. rewrite kind_exists, kind_isdir. destruct (kind fs p) as [[d|]|] eqn:K; cbn [andb negb].
  - reflexivity.
  - exfalso. destruct A as [r ->]. destruct r as [|m r]; [rewrite app_nil_r in K; congruence|]. rewrite (kind_above fs q m r) in H by congruence. discriminate H.
  - unfold makedirs. apply makedirs_fails. right. exists q, c. rewrite rev_involutive. auto.
Qed.
Lemma ensure_run : forall p fs, ensure_dir p fs = if match kind fs p with Some (Some _) => true | _ => false end then (fs, Ok tt) else maybe_makedir p fs.
Proof.
  intros. unfold ensure_dir, maybe_makedir, bind, gets. rewrite kind_exists, kind_isdir. destruct (kind fs p) as [[c|]|]; reflexivity.
Qed.

(** the tree with directories at the missing paths above some of [ps] *)
Definition filled_all (ps : list path) (fs fs' : node) : Prop :=
  forall q, kind fs' q = match kind fs q with None => if existsb (paths_above q) ps then Some None else None | k => k end.
Lemma filled_with : forall ps fs fs', (forall p, In p ps -> ~ in_the_way fs p) -> filled_all ps fs fs' -> with_dirs ps fs fs'.
Proof.
  intros ps fs fs' W F. split.
  - intros q c. rewrite <- !kind_file, F. destruct (kind fs q) as [k|]; [reflexivity|]. destruct (existsb _ ps); split; discriminate.
  - intros q. rewrite <- !kind_dir, F.
    assert (X : existsb (paths_above q) ps = true <-> exists p, In p ps /\ above q p).
    { rewrite existsb_exists. split; intros (p & X1 & X2); exists p; (split; [exact X1|apply paths_above_iff; exact X2]). }
    destruct (kind fs q) as [[c|]|] eqn:K.
    + split; [discriminate|]. intros [H|(p & X1 & X2)]; [exact H|]. exfalso. apply (W p X1). apply way_kind. exists q, c. auto.
    + tauto.
    + destruct (existsb (paths_above q) ps); split; intros H; try reflexivity; try discriminate H.
      * right. apply X. reflexivity.
      * destruct H as [H|H]; [discriminate H|]. apply X in H. discriminate H.
Qed.
Lemma filled_way : forall ps fs fs' p, filled_all ps fs fs' -> (in_the_way fs' p <-> in_the_way fs p).
Proof.
  intros ps fs fs' p F. rewrite !way_kind. assert (E : forall q c, kind fs' q = Some (Some c) <-> kind fs q = Some (Some c)).
  { intros q c. rewrite F. destruct (kind fs q); [reflexivity|]. destruct (existsb _ ps); split; discriminate. }
  split; intros (q & c & A & H); exists q, c; (split; [exact A|apply E; exact H]).
Qed.
Lemma filled_snoc : forall ps p fs fs1 fs', filled_all ps fs fs1 -> filled p fs1 fs' -> filled_all (ps ++ [p]) fs fs'.
Proof.
  intros ps p fs fs1 fs' F1 F2 q. rewrite F2, F1. destruct (kind fs q); [reflexivity|]. rewrite existsb_app. cbn [existsb]. destruct (existsb (paths_above q) ps); cbn; [reflexivity|].
  destruct (paths_above q p); reflexivity.
Qed.
Lemma filled_none : forall fs, filled_all [] fs fs.
Proof. intros fs q. cbn. destruct (kind fs q); reflexivity. Qed.

Fixpoint maybe_all (ps : list path) : FS unit := match ps with [] => ret tt | p :: ps' => maybe_makedir p ;;; maybe_all ps' end.
Lemma structure_all : forall base fs, make_dir_structure base fs = maybe_all (build_dirs base) fs.
Proof.
  intros. unfold make_dir_structure, build_dirs. cbn [maybe_all]. unfold bind. destruct (maybe_makedir _ fs) as [s1 [|]]; [|reflexivity].
  destruct (maybe_makedir _ s1) as [s2 [|]]; [|reflexivity]. destruct (maybe_makedir _ s2) as [s3 [[]|]]; reflexivity.
Qed.
Lemma maybe_all_run : forall ps done0 fs0 fs, filled_all done0 fs0 fs ->
  ((forall p, In p ps -> ~ in_the_way fs0 p) /\ exists fs', maybe_all ps fs = (fs', Ok tt) /\ filled_all (done0 ++ ps) fs0 fs')
  \/ (exists k p rest fs', ps = (firstn k ps ++ p :: rest)%list /\ (forall q, In q (firstn k ps) -> ~ in_the_way fs0 q) /\ in_the_way fs0 p /\ maybe_all ps fs = (fs', Err EOS) /\ filled_all (done0 ++ firstn k ps) fs0 fs').
Proof.
  intros ps. induction ps as [|p ps IH]; intros done0 fs0 fs F.
  - left. split; [intros p []|]. exists fs. split; [reflexivity|]. rewrite app_nil_r. exact F.
  - cbn [maybe_all].
    assert (D : in_the_way fs0 p \/ ~ in_the_way fs0 p).
    { destruct (existsb (fun k => match kind fs0 (firstn k p) with Some (Some _) => true | _ => false end) (seq 0 (S (List.length p)))) eqn:X.
      - left. apply existsb_exists in X. destruct X as (k & _ & X). destruct (kind fs0 (firstn k p)) as [[c|]|] eqn:K; try discriminate X. apply way_kind. exists (firstn k p), c.
        split; [exists (skipn k p); symmetry; apply firstn_skipn|exact K].
      - right. intros W. apply way_kind in W. destruct W as (q & c & [r ->] & K).
        assert (existsb (fun k => match kind fs0 (firstn k (q ++ r)) with Some (Some _) => true | _ => false end) (seq 0 (S (List.length (q ++ r)))) = true); [|congruence].
        apply existsb_exists. exists (List.length q). split; [apply in_seq; rewrite app_length; lia|]. rewrite firstn_app, firstn_all, Nat.sub_diag, firstn_O, app_nil_r, K. reflexivity. }
    destruct D as [D|D].
    + right. exists 0, p, ps, fs. split; [reflexivity|]. split; [intros q []|]. split; [exact D|]. split.
      * unfold bind. rewrite maybe_fails; [reflexivity|]. apply (filled_way _ _ _ _ F). exact D.
      * cbn [firstn]. rewrite app_nil_r. exact F.
    + destruct (maybe_ok p fs) as (fs1 & H1 & F1); [rewrite (filled_way _ _ _ _ F); exact D|].
      unfold bind. rewrite H1. destruct (IH (done0 ++ [p])%list fs0 fs1 (filled_snoc _ _ _ _ _ F F1)) as [(A & fs' & H2 & F2)|(k & q & rest & fs' & E & A & B & H2 & F2)].
      * left. split; [intros q [<-|Q]; [exact D|apply A; exact Q]|]. exists fs'. split; [exact H2|]. rewrite <- app_assoc in F2. exact F2.
      * right. exists (S k), q, rest, fs'. cbn [firstn]. split; [cbn; rewrite <- E; reflexivity|]. split; [intros z [<-|Q]; [exact D|apply A; exact Q]|]. split; [exact B|]. split; [exact H2|]. rewrite <- app_assoc in F2. exact F2.
Qed.

Lemma structure_ok : forall base fs, (forall p, In p (build_dirs base) -> ~ in_the_way fs p) ->
  exists fs', make_dir_structure base fs = (fs', Ok tt) /\ with_dirs (build_dirs base) fs fs'.
Proof.
  intros base fs W. rewrite structure_all. destruct (maybe_all_run (build_dirs base) [] fs fs (filled_none fs)) as [(A & fs' & H & F)|(k & p & rest & fs' & E & _ & B & _)].
  - exists fs'. split; [exact H|]. apply filled_with; [exact W|exact F].
  - exfalso. apply (W p); [|exact B]. rewrite E. apply in_or_app. right. left. reflexivity.
Qed.
Lemma structure_fails : forall base fs p, In p (build_dirs base) -> in_the_way fs p ->
  exists fs' k, make_dir_structure base fs = (fs', Err EOS) /\ with_dirs (firstn k (build_dirs base)) fs fs'.
Proof.
  intros base fs p I W. rewrite structure_all. destruct (maybe_all_run (build_dirs base) [] fs fs (filled_none fs)) as [(A & _)|(k & q & rest & fs' & E & A & B & H & F)].
  - exfalso. apply (A p I W).
  - exists fs', k. split; [exact H|]. apply filled_with; [exact A|exact F].
Qed.
(** a second call changes nothing *)
Lemma maybe_there : forall p fs, is_dir fs p -> maybe_makedir p fs = (fs, Ok tt).
Proof. intros p fs D. apply kind_dir in D. unfold maybe_makedir, bind, gets. rewrite kind_exists, kind_isdir, D. reflexivity. Qed.
Lemma structure_again : forall base fs, (forall p, In p (build_dirs base) -> is_dir fs p) -> make_dir_structure base fs = (fs, Ok tt).
Proof.
  intros base fs D. rewrite structure_all. revert D. generalize (build_dirs base) as ps. intros ps. induction ps as [|p ps IH]; intros D; [reflexivity|].
  cbn [maybe_all]. unfold bind. rewrite maybe_there by (apply D; left; reflexivity). apply IH. intros q Q. apply D. right. exact Q.
Qed.
Lemma ensure_ok : forall p fs, ~ in_the_way fs p -> exists fs', ensure_dir p fs = (fs', Ok tt) /\ with_dirs [p] fs fs'.
Proof.
  intros p fs W. rewrite ensure_run. destruct (kind fs p) as [[c|]|] eqn:K.
  1: { exfalso. apply W. apply way_kind. exists p, c. split; [exists []; rewrite app_nil_r; reflexivity|exact K]. }
  all: destruct (maybe_ok p fs W) as (fs' & H & F); exists fs'; (split; [exact H|]); apply filled_with; [intros q [<-|[]]; exact W|];
    apply (filled_snoc [] p fs fs fs' (filled_none fs) F).
Qed.
Lemma ensure_file : forall p fs c, is_file fs p c -> ensure_dir p fs = (fs, Ok tt).
Proof. intros p fs c H. apply kind_file in H. rewrite ensure_run, H. reflexivity. Qed.
Lemma ensure_fails : forall p fs, missing fs p -> in_the_way fs p -> ensure_dir p fs = (fs, Err EOS).
Proof. intros p fs M W. rewrite ensure_run. apply kind_missing in M. rewrite M. apply maybe_fails. exact W. Qed.

(** ** Walking up *)

Lemma walk_entry_ok : forall fs p, is_dir fs p -> exists dirs others, walk_entry fs p = Ok (p, dirs, others) /\ entries_of fs p dirs others.
Proof.
  intros fs p [es D]. unfold walk_entry, listdir. pose proof D as D'. apply lookup_leads in D'. rewrite D'. cbn [rbind].
  eexists. eexists. split; [reflexivity|]. exists es. split; [exact D|].
  assert (X : forall n, isdir_at fs (p ++ [n]) = true <-> is_dir fs (p ++ [n])).
  { intros n. rewrite kind_isdir, <- kind_dir. destruct (kind fs (p ++ [n])) as [[|]|]; split; congruence. }
  split; intros n; rewrite filter_In.
  - rewrite X. reflexivity.
  - rewrite negb_true_iff. rewrite <- X. destruct (isdir_at fs (p ++ [n])); split; intros [H1 H2]; split; congruence.
Qed.
Lemma walk_ok : forall up fs, is_dir fs (rev up) -> exists l, walk_from fs up = (l, None) /\ upward fs (rev up) l.
Proof.
  intros up. induction up as [|n up IH]; intros fs D; destruct (walk_entry_ok fs _ D) as (dirs & others & H & E).
  - exists [([], dirs, others)]. cbn [walk_from rev] in *. rewrite H. split; [reflexivity|constructor; exact E].
  - cbn [rev] in *. assert (D' : is_dir fs (rev up)).
    { apply kind_dir. apply kind_dir in D. apply (kind_above fs (rev up) n []). congruence. }
    destruct (IH fs D') as (l & H2 & U). exists (((rev up ++ [n])%list, dirs, others) :: l). cbn [walk_from rev]. rewrite H, H2. split; [reflexivity|constructor; assumption].
Qed.
Lemma walk_up_ok : forall fs p, is_dir fs p -> exists l, walk_up fs p = (l, None) /\ upward fs p l.
Proof. intros fs p D. unfold walk_up. rewrite <- (rev_involutive p) in D. destruct (walk_ok _ _ D) as (l & H & U). exists l. rewrite rev_involutive in U. auto. Qed.
Lemma walk_up_fails : forall fs p, ~ is_dir fs p -> walk_up fs p = ([], Some EOS).
Proof.
  intros fs p D. unfold walk_up. assert (E : walk_entry fs (rev (rev p)) = Err EOS).
  { rewrite rev_involutive. unfold walk_entry, listdir. destruct (lookup fs p) as [[c|es]|] eqn:L; try reflexivity. exfalso. apply D. exists es. apply lookup_leads. exact L. }
  destruct (rev p) as [|n up]; cbn [walk_from]; rewrite E; reflexivity.
Qed.

(** ** Copying *)

Definition placed (p : path) (x : node) (fs fs' : node) : Prop := forall q, kind fs' q = match after p q with Some r => kind x r | None => kind fs q end.
Lemma place_run : forall p n x fs, kind fs p = Some None -> exists fs', place_at (p ++ [n]) x fs = (fs', Ok tt) /\ placed (p ++ [n]) x fs fs'.
Proof.
  intros p n x fs K. destruct (put_some p n fs x K) as [fs' H]. exists fs'. split.
  - unfold place_at, bind, gets. rewrite H. reflexivity.
  - intros q. apply put_kind. exact H.
Qed.
Lemma no_file_above : forall fs p q c, kind fs p = Some None -> above q p -> kind fs q <> Some (Some c).
Proof.
  intros fs p q c K [r ->] H. destruct r as [|m r]; [rewrite app_nil_r in K; congruence|]. rewrite (kind_above fs q m r) in H by congruence. discriminate H.
Qed.
Lemma copy_dir_run : forall x p n fs, kind fs p = Some None -> kind fs (p ++ [n]) = None -> exists fs', copy_dir x (p ++ [n]) fs = (fs', Ok tt) /\ placed (p ++ [n]) x fs fs'.
Proof.
  intros x p n fs K M. unfold copy_dir, makedirs. destruct (makedirs_run (rev (p ++ [n])) fs) as (fs1 & H1 & F1); rewrite ?rev_involutive in *.
  - exact M.
  - intros q c A H. apply above_snoc in A. destruct A as [A| ->]; [|congruence]. apply (no_file_above fs p q c K A H).
  - destruct (place_run p n x fs1) as (fs' & H2 & F2); [rewrite F1, K; reflexivity|]. exists fs'. unfold bind. rewrite H1. split; [exact H2|].
    intros q. rewrite F2. destruct (after (p ++ [n]) q) eqn:E; [reflexivity|]. rewrite F1. destruct (kind fs q) eqn:Kq; [reflexivity|].
    destruct (paths_above q (p ++ [n])) eqn:A; [|reflexivity]. exfalso. apply paths_above_iff in A. apply above_snoc in A. destruct A as [[r ->]| ->].
    + destruct r as [|m r]; [rewrite app_nil_r in K; congruence|]. rewrite (kind_above fs q m r) in Kq by congruence. discriminate Kq.
    + apply after_none with (r := []) in E. apply E. rewrite app_nil_r. reflexivity.
Qed.
Lemma copy2_run : forall c src p n fs, src <> p -> kind fs p = Some None -> kind fs (p ++ [n]) <> Some None -> exists fs', copy2 c n src (p ++ [n]) fs = (fs', Ok tt) /\ placed (p ++ [n]) (File c) fs fs'.
Proof.
  intros c src p n fs Ns K M. unfold copy2, bind at 1, gets at 1. cbv beta iota. assert (B : isdir_at fs (p ++ [n]) = false).
  { rewrite kind_isdir. destruct (kind fs (p ++ [n])) as [[|]|]; congruence. }
  rewrite B. cbv zeta. destruct (list_eq_dec _ _ _) as [E|_]; [apply app_inj_tail in E; destruct E as [E _]; congruence|].
  unfold write_file, bind at 1, gets at 1. cbv beta iota. rewrite B. apply place_run. exact K.
Qed.
Lemma after_app : forall p q r, after (p ++ q) r = match after p r with Some z => after q z | None => None end.
Proof.
  intros p. induction p as [|n p IH]; intros q r; [reflexivity|]. cbn [app after]. destruct r as [|m r]; [reflexivity|]. destruct (eqs n m); [apply IH|reflexivity].
Qed.

(** no clash: a directory of the source is new in the target, a file is not put
    over a directory *)
Definition fits (fs : node) (dst : path) (items : list (string * node)) : Prop :=
  forall n x, In (n, x) items -> match x with Dir _ => kind fs (dst ++ [n]) = None | File _ => kind fs (dst ++ [n]) <> Some None end.
Lemma copy_items_run : forall items src dst fs, src <> dst -> NoDup (dkeys items) -> kind fs dst = Some None -> fits fs dst items ->
  exists fs', copy_items items src dst fs = (fs', Ok tt)
    /\ forall q, kind fs' q = match after dst q with Some (n :: r) => match dget n items with Some x => kind x r | None => kind fs q end | _ => kind fs q end.
Proof.
  intros items. induction items as [|[n x] items IH]; intros src dst fs Ns ND K F.
  - exists fs. split; [reflexivity|]. intros q. destruct (after dst q) as [[|]|]; reflexivity.
  - cbn [copy_items dkeys map fst] in *. inversion ND as [|? ? N1 N2]; subst.
    assert (S1 : exists fs1, (match x with Dir _ => copy_dir x (dst ++ [n]) | File c => copy2 c n src (dst ++ [n]) end) fs = (fs1, Ok tt) /\ placed (dst ++ [n]) x fs fs1).
    { pose proof (F n x (or_introl eq_refl)) as Fx. destruct x; [apply copy2_run; assumption|apply copy_dir_run; assumption]. }
    destruct S1 as (fs1 & H1 & P1).
    assert (A : forall m r, after (dst ++ [n]) (dst ++ m :: r) = if eqs n m then Some r else None).
    { intros m r. rewrite after_app. rewrite (proj2 (after_spec dst (dst ++ m :: r) (m :: r)) eq_refl). reflexivity. }
    assert (Z : after (dst ++ [n]) dst = None).
    { apply after_none. intros r E. apply (f_equal (@List.length string)) in E. rewrite !app_length in E. cbn in E. lia. }
    destruct (IH src dst fs1 Ns N2) as (fs' & H2 & P2).
    { rewrite P1, Z. exact K. }
    { intros m y I. rewrite P1. pose proof (F m y (or_intror I)) as Fy. rewrite A. eqs_cases n m; [|exact Fy]. subst m. exfalso. apply N1. change n with (fst (n, y)). apply in_map. exact I. }
    exists fs'. split; [unfold bind at 1; destruct x; cbv beta iota in *; rewrite H1; exact H2|]. intros q. rewrite P2. destruct (after dst q) as [[|m r]|] eqn:E.
    + apply after_spec in E. rewrite app_nil_r in E. subst q. rewrite P1, Z. reflexivity.
    + apply after_spec in E. subst q. cbn [dget]. rewrite (eqs_sym m n). rewrite P1, A. eqs_cases n m; [|reflexivity].
      subst m. destruct (dget n items) as [y|] eqn:G; [|reflexivity]. exfalso. apply N1. apply dget_in in G. change n with (fst (n, y)). apply in_map. exact G.
    + rewrite P1, after_app, E. reflexivity.
Qed.

Lemma kind_same : forall fs p fs' q, (forall r, kind fs (p ++ r) = kind fs' (q ++ r)) -> same_below fs p fs' q.
Proof. intros fs p fs' q H. split; intros r; [intros c; rewrite <- !kind_file, H; reflexivity|rewrite <- !kind_dir, H; reflexivity]. Qed.

Lemma copytree_ok : forall fs src dst, ~ above src dst -> is_dir fs src -> is_dir fs dst -> tidy fs src -> no_clash fs src dst ->
  exists fs', copytree src dst fs = (fs', Ok tt)
    /\ (forall n, ~ missing fs (src ++ [n]) -> same_below fs (src ++ [n]) fs' (dst ++ [n]))
    /\ forall q, (forall n, ~ missing fs (src ++ [n]) -> ~ above (dst ++ [n]) q) -> (forall c, is_file fs' q c <-> is_file fs q c) /\ (is_dir fs' q <-> is_dir fs q).
Proof.
  intros fs src dst Nab [es S] D T C. assert (Ns : src <> dst) by (intros ->; apply Nab; exists []; rewrite app_nil_r; reflexivity). pose proof (T es S) as ND. pose proof S as L. apply lookup_leads in L.
  assert (B : forall n r, kind fs (src ++ n :: r) = match dget n es with Some x => kind x r | None => None end).
  { intros n r. rewrite kind_app, L, kind_cons. reflexivity. }
  assert (F : fits fs dst es).
  { intros n x I. apply (dget_some _ _ _ ND) in I. specialize (C n). destruct C as [C1 C2]. specialize (B n []). rewrite I in B. destruct x as [c|es'].
    - rewrite kind_dir. apply (C2 c). apply kind_file. exact B.
    - apply kind_missing. apply C1. apply kind_dir. exact B. }
  apply kind_dir in D. destruct (copy_items_run es src dst fs Ns ND D F) as (fs' & H & P). exists fs'. split; [unfold copytree, bind, gets; rewrite L; exact H|].
  assert (Q : forall n r, kind fs' (dst ++ n :: r) = match dget n es with Some x => kind x r | None => kind fs (dst ++ n :: r) end).
  { intros n r. rewrite P. rewrite (proj2 (after_spec dst _ (n :: r)) eq_refl). reflexivity. }
  split.
  - intros n M. apply kind_same. intros r. rewrite <- !app_assoc. cbn [app]. rewrite B, Q. destruct (dget n es) eqn:E; [reflexivity|]. exfalso. apply M. apply kind_missing. rewrite B, E. reflexivity.
  - intros q N. assert (E : kind fs' q = kind fs q).
    { rewrite P. destruct (after dst q) as [[|n r]|] eqn:A; try reflexivity. destruct (dget n es) as [x|] eqn:G; [|reflexivity]. apply after_spec in A. subst q. exfalso. apply (N n).
      - intros M. apply kind_missing in M. rewrite B, G in M. destruct x; discriminate M.
      - exists r. rewrite <- app_assoc. reflexivity. }
    rewrite <- !kind_dir. setoid_rewrite <- kind_file. rewrite E. split; reflexivity.
Qed.

(** *** A directory that is in both *)

Definition keeps (fs fs' : node) : Prop := forall q, kind fs q <> None -> kind fs' q <> None.
Lemma keeps_refl : forall fs, keeps fs fs. Proof. intros fs q H. exact H. Qed.
Lemma keeps_trans : forall a b c, keeps a b -> keeps b c -> keeps a c. Proof. intros a b c H1 H2 q H. apply H2, H1, H. Qed.

Definition runs_or_os (m : FS unit) : Prop := forall fs, (exists fs', m fs = (fs', Ok tt) /\ keeps fs fs') \/ (exists fs', m fs = (fs', Err EOS)).
Lemma runs_bind : forall a b, runs_or_os a -> runs_or_os b -> runs_or_os (a ;;; b).
Proof.
  intros a b A B fs. unfold bind. destruct (A fs) as [(fs1 & -> & K1)|(fs1 & ->)]; [|right; eauto]. destruct (B fs1) as [(fs2 & -> & K2)|(fs2 & ->)]; [left|right]; eauto using keeps_trans.
Qed.
Lemma runs_if : forall (f : node -> bool) a b, runs_or_os a -> runs_or_os b -> runs_or_os (b0 <- gets f ;; if b0 then a else b).
Proof. intros f a b A B fs. unfold bind, gets. destruct (f fs); [apply A|apply B]. Qed.
Lemma runs_raise : runs_or_os (raise EOS). Proof. intros fs. right. eexists. reflexivity. Qed.
Lemma runs_ret : runs_or_os (ret tt). Proof. intros fs. left. eexists. split; [reflexivity|apply keeps_refl]. Qed.

Lemma makedirs_runs : forall p, runs_or_os (makedirs p).
Proof.
  intros p fs. unfold makedirs. destruct (kind fs p) as [k|] eqn:K.
  - right. exists fs. apply makedirs_fails. left. rewrite rev_involutive. congruence.
  - destruct (maybe_all_run [p] [] fs fs (filled_none fs)) as [(A & _)|(i & q & rest & fs' & E & _ & B & _)].
    + left. destruct (makedirs_run (rev p) fs) as (fs' & H & F); rewrite ?rev_involutive in *; [exact K| |].
      * intros q c Q X. apply (A p (or_introl eq_refl)). apply way_kind. eauto.
      * exists fs'. split; [exact H|]. intros q X. rewrite F. destruct (kind fs q); [congruence|contradiction].
    + right. exists fs. apply makedirs_fails. right. rewrite rev_involutive. assert (q = p). { destruct i as [|[|i]]; cbn in E; congruence. } subst q. apply way_kind. exact B.
Qed.
Lemma makedirs_fresh : forall p fs fs', makedirs p fs = (fs', Ok tt) -> kind fs p = None /\ keeps fs fs'.
Proof.
  intros p fs fs' H. destruct (makedirs_runs p fs) as [(f & H1 & K)|(f & H1)]; [|congruence]. rewrite H in H1. injection H1 as <-. split; [|exact K].
  destruct (kind fs p) eqn:E; [|reflexivity]. exfalso. unfold makedirs in H. rewrite makedirs_fails in H; [discriminate H|]. left. rewrite rev_involutive. congruence.
Qed.
Lemma placed_keeps : forall p x fs fs', (forall m r, kind fs (p ++ m :: r) <> None -> kind x (m :: r) <> None) -> put fs p x = Some fs' -> keeps fs fs'.
Proof.
  intros p x fs fs' N H q K. rewrite (put_kind _ _ _ _ H). destruct (after p q) as [[|m r]|] eqn:A; [destruct x; discriminate| |exact K].
  apply after_spec in A. subst q. apply N. exact K.
Qed.
Lemma write_runs : forall p c, runs_or_os (write_file p c).
Proof.
  intros p c fs. unfold write_file, bind, gets, place_at. rewrite kind_isdir. destruct (kind fs p) as [[d|]|] eqn:K; try (right; eexists; reflexivity);
  unfold bind, gets; (destruct (put fs p (File c)) as [fs'|] eqn:E; [|right; eexists; reflexivity]); left; exists fs'; (split; [reflexivity|]); eapply placed_keeps; try exact E;
  intros m r X; apply kind_above in X; congruence.
Qed.
Lemma copy2_runs : forall c n src p, runs_or_os (copy2 c n src p).
Proof.
  intros c n src p fs. unfold copy2, bind, gets. destruct (list_eq_dec _ _ _); [right; eexists; reflexivity|]. apply write_runs.
Qed.
Lemma copy_dir_runs : forall x p fs, (exists fs', copy_dir x p fs = (fs', Ok tt) /\ keeps fs fs' /\ kind fs p = None) \/ (exists fs', copy_dir x p fs = (fs', Err EOS)).
Proof.
  intros x p fs. unfold copy_dir, bind. destruct (makedirs_runs p fs) as [(f & H1 & K)|(f & H1)]; rewrite H1; [|right; eauto].
  unfold place_at, bind, gets. destruct (put f p x) as [fs'|] eqn:E; [|right; eexists; reflexivity]. left. exists fs'. destruct (makedirs_fresh _ _ _ H1) as [M _]. split; [reflexivity|]. split; [|exact M].
  intros q Q. pose proof (K q Q) as Q'. rewrite (put_kind _ _ _ _ E). destruct (after p q) as [r|] eqn:A; [|exact Q'].
  apply after_spec in A. subst q. exfalso. apply Q. rewrite kind_app. unfold kind in M. destruct (lookup fs p) as [[|]|]; try discriminate M. reflexivity.
Qed.
Lemma copy_items_clash : forall items src dst n es fs, In (n, Dir es) items -> kind fs (dst ++ [n]) <> None -> exists fs', copy_items items src dst fs = (fs', Err EOS).
Proof.
  intros items. induction items as [|[m x] items IH]; intros src dst n es fs I K; [destruct I|].
  cbn [copy_items]. assert (S1 : (exists fs1, (match x with Dir _ => copy_dir x (dst ++ [m]) | File c => copy2 c m src (dst ++ [m]) end) fs = (fs1, Ok tt) /\ keeps fs fs1 /\ (x = Dir es -> kind fs (dst ++ [m]) = None))
    \/ exists fs1, (match x with Dir _ => copy_dir x (dst ++ [m]) | File c => copy2 c m src (dst ++ [m]) end) fs = (fs1, Err EOS)).
  { destruct x as [c|es'].
    - destruct (copy2_runs c m src (dst ++ [m]) fs) as [(f & H & Kp)|(f & H)]; [left|right]; exists f; auto. split; [exact H|]. split; [exact Kp|discriminate].
    - destruct (copy_dir_runs (Dir es') (dst ++ [m]) fs) as [(f & H & Kp & M)|(f & H)]; [left|right]; exists f; auto. }
  unfold bind at 1. destruct S1 as [(fs1 & H1 & Kp & M)|(fs1 & H1)].
  - assert (R : exists fs', copy_items items src dst fs1 = (fs', Err EOS)).
    { destruct I as [I|I]; [injection I as -> ->; exfalso; apply K; apply M; reflexivity|]. apply (IH src dst n es fs1 I). apply Kp. exact K. }
    destruct R as (fs' & R). exists fs'. destruct x; cbv beta iota in *; rewrite H1; exact R.
  - exists fs1. destruct x; cbv beta iota in *; rewrite H1; reflexivity.
Qed.
(** onto itself: nothing is changed *)
Lemma copytree_self : forall fs src n, ~ missing fs (src ++ [n]) -> copytree src src fs = (fs, Err EOS).
Proof.
  intros fs src n M. assert (K : kind fs (src ++ [n]) <> None) by (intros X; apply M, kind_missing; exact X).
  rewrite kind_app in K. unfold copytree, bind, gets. destruct (lookup fs src) as [[c|es]|] eqn:L; [destruct K; reflexivity| |destruct K; reflexivity].
  destruct es as [|[m x] es]; [destruct K; reflexivity|]. cbn [copy_items].
  assert (Lm : lookup fs (src ++ [m]) = Some x) by (rewrite lookup_app, L; cbn [lookup dget]; rewrite eqs_refl; reflexivity).
  unfold bind at 1. destruct x as [c|es'].
  - unfold copy2, bind, gets, isdir_at. rewrite Lm. cbv zeta. destruct (list_eq_dec _ _ _) as [_|N]; [reflexivity|congruence].
  - unfold copy_dir, bind at 1, makedirs. rewrite rev_app_distr. cbn [rev app makedirs_up]. unfold bind at 1, gets at 1. rewrite rev_involutive.
    assert (E : exists_at fs src = true) by (unfold exists_at; rewrite L; reflexivity). rewrite E. unfold bind at 1, ret at 1.
    unfold mkdir, bind at 1, gets at 1. unfold exists_at. rewrite Lm. reflexivity.
Qed.
Lemma copytree_clash : forall fs src dst n, is_dir fs (src ++ [n]) -> ~ missing fs (dst ++ [n]) -> exists fs', copytree src dst fs = (fs', Err EOS).
Proof.
  intros fs src dst n [es S] M. apply lookup_leads in S. unfold copytree, bind, gets. rewrite lookup_app in S. destruct (lookup fs src) as [[c|es']|]; try discriminate S.
  cbn [lookup] in S. destruct (dget n es') as [x|] eqn:G; [|discriminate S]. injection S as ->. apply dget_in in G. apply (copy_items_clash es' src dst n es fs G). intros X. apply M. apply kind_missing. exact X.
Qed.
