(** * PackFacts: data packages (C47) *)

From Verif Require Import ListFacts StrFacts HeapFacts SpecNames NameFacts SpecInv RowsFacts SpecPack Render Misc.

Lemma rmap_two : forall {A B} (f : A -> res B) l m, rmap f l = Ok m -> Forall2 (fun x y => f x = Ok y) l m.
Proof.
  intros A B f. induction l as [|x l IH]; intros m H; cbn in H; [injection H as <-; constructor|]. destruct (f x) as [y|e] eqn:E; [|discriminate H]. cbn in H. destruct (rmap f l) as [ys|e]; [|discriminate H]. cbn in H. injection H as <-. constructor; [exact E|apply IH; reflexivity].
Qed.
Lemma dget_dupdate : forall {A} (e d : dict A) k, dget k (dupdate d e) = match dget k (dict_of e) with Some x => Some x | None => dget k d end.
Proof.
  intros A e. unfold dict_of, dupdate. induction e as [|(k', v) e IH] using rev_ind; intros d k; [reflexivity|]. rewrite !fold_left_app. cbn [fold_left fst snd]. rewrite !dget_dset. destruct (eqs k k'); [reflexivity|apply IH].
Qed.

(** ** Properties of a row *)

Lemma combine_app_one : forall {A B} (l : list A) (m : list B) x y, length l = length m -> combine (l ++ [x]) (m ++ [y]) = (combine l m ++ [(x, y)])%list.
Proof. intros A B. induction l as [|a l IH]; intros [|b m] x y H; try discriminate H; [reflexivity|]. cbn. rewrite IH by (injection H as H; exact H). reflexivity. Qed.
Lemma dict_of_last : forall {A} (l : list (string * A)) k v, dget k (dict_of l) = Some v <-> exists n, nth_error l n = Some (k, v) /\ forall n' v', nth_error l n' = Some (k, v') -> n' <= n.
Proof.
  intros A l. unfold dict_of, dupdate. induction l as [|(k', w) l IH] using rev_ind; intros k v.
  - split; [discriminate|]. intros (n & E & _). destruct n; discriminate E.
  - rewrite fold_left_app. cbn [fold_left fst snd]. rewrite dget_dset. destruct (eqs k k') eqn:Q.
    + apply eqs_true in Q. subst k'. split.
      * intros [= <-]. exists (length l). split; [rewrite nth_error_app2 by lia; rewrite Nat.sub_diag; reflexivity|]. intros n' v' E. assert (X : nth_error (l ++ [(k, w)]) n' <> None) by congruence. apply nth_error_Some in X. rewrite app_length in X. cbn in X. lia.
      * intros (n & E & M). specialize (M (length l) w). rewrite nth_error_app2, Nat.sub_diag in M by lia. specialize (M eq_refl). rewrite nth_error_app2 in E by lia. destruct (n - length l) as [|m] eqn:D; [cbn in E; congruence|]. destruct m; discriminate E.
    + assert (NK : k <> k') by (intros ->; rewrite eqs_refl in Q; discriminate Q). rewrite IH.
      assert (X : forall n x, nth_error (l ++ [(k', w)]) n = Some (k, x) <-> nth_error l n = Some (k, x)).
      { intros n x. destruct (Nat.lt_ge_cases n (length l)) as [L|L]; [rewrite nth_error_app1 by exact L; reflexivity|]. rewrite nth_error_app2 by exact L. rewrite (proj2 (nth_error_None l n) L). split; [|discriminate]. destruct (n - length l) as [|m]; cbn; [congruence|destruct m; discriminate]. }
      split; intros (n & E & M); exists n; (split; [apply X; exact E|]); intros n' v' E'; apply (M n' v'); apply X; exact E'.
Qed.
Lemma nth_combine : forall {A B} (l : list A) (m : list B) n x y, nth_error (combine l m) n = Some (x, y) <-> nth_error l n = Some x /\ nth_error m n = Some y.
Proof.
  intros A B. induction l as [|a l IH]; intros m n x y; [cbn; destruct n; split; [discriminate|intros [X _]; discriminate X|discriminate|intros [X _]; discriminate X]|].
  destruct m as [|b m]; [cbn; destruct n; (split; [discriminate|intros [_ X]; discriminate X])|]. destruct n as [|n]; cbn; [split; [intros [= <- <-]; auto|intros [[= <-] [= <-]]; reflexivity]|apply IH].
Qed.
Lemma row_prop_run : forall s t r, sectioned s -> arg_props (s_heap s) (tget t s) = Ok r -> forall k v, dget k r = Some v <-> row_prop s t k v.
Proof.
  intros s t r SE H k v. unfold arg_props in H. destruct (t_section (tget t s)) as [j|] eqn:J; [|discriminate H]. fold (tget j s) in H. rewrite (SE t j J) in H. injection H as <-. rewrite dget_dset. unfold row_prop. destruct (eqs k (lower (t_tvn (tget t s)))) eqn:Q.
  - apply eqs_true in Q. split; [intros [= <-]; left; auto|]. intros [(_ & ->)|(N & _)]; [reflexivity|contradiction].
  - assert (NK : k <> lower (t_tvn (tget t s))) by (intros E; rewrite E, eqs_refl in Q; discriminate Q).
    assert (X : forall n w, nth_error (combine (map lower (sec_property_names (tget j s))) (map VStr (t_args (tget t s)))) n = Some (k, w) <-> exists a, cell_of s t k n a /\ w = VStr a).
    { intros n w. rewrite nth_combine, !nth_error_map. change (sec_property_names (tget j s)) with (columns_of (tget j s)). unfold cell_of. split.
      - intros (A & B). destruct (nth_error (columns_of (tget j s)) n) as [col|] eqn:C; [|discriminate A]. destruct (nth_error (t_args (tget t s)) n) as [a|] eqn:D; [|discriminate B]. cbn in A, B. exists a. split; [|congruence]. exists j, col. rewrite J. split; [reflexivity|]. split; [exact C|]. split; [congruence|reflexivity].
      - intros (a & (j' & col & J' & C & L & D) & ->). rewrite J in J'. injection J' as <-. rewrite C, D. cbn. rewrite L. auto. }
    rewrite dict_of_last. split.
    + intros (n & E & M). right. split; [exact NK|]. apply X in E. destruct E as (a & C & ->). exists n, a. split; [exact C|]. split; [reflexivity|]. intros n' a' C'. apply (M n' (VStr a')). apply X. eauto.
    + intros [(E & _)|(_ & n & a & C & -> & M)]; [contradiction|]. exists n. split; [apply X; eauto|]. intros n' v' E. apply X in E. destruct E as (a' & C' & _). apply (M n' a' C').
Qed.

(** ** Tables *)

Lemma vget_spec : forall {A} (d : list (val * A)) v c, vget v d = Some c <-> exists a k b, d = (a ++ (k, c) :: b)%list /\ veq v k = true /\ forall k' c', In (k', c') b -> veq v k' = false.
Proof.
  intros A. induction d as [|(k, x) d IH]; intros v c; cbn [vget].
  - split; [discriminate|]. intros (a & k & b & E & _). destruct a; discriminate E.
  - destruct (vget v d) as [y|] eqn:V.
    + split.
      * intros [= <-]. apply IH in V. destruct V as (a & k' & b & -> & Q & N). exists ((k, x) :: a), k', b. auto.
      * intros (a & k' & b & E & Q & N). destruct a as [|h a].
        -- injection E as <- <- <-. apply IH in V. destruct V as (a & k' & b & -> & Q' & _). rewrite (N k' y) in Q' by apply in_elt. discriminate Q'.
        -- injection E as <- ->. assert (X : vget v (a ++ (k', c) :: b) = Some c) by (apply IH; exists a, k', b; auto). congruence.
    + destruct (veq v k) eqn:Q.
      * split.
        -- intros [= <-]. exists [], k, d. split; [reflexivity|]. split; [exact Q|]. intros k' c' I. destruct (veq v k') eqn:E; [|reflexivity]. exfalso. clear IH. induction d as [|(k2, x2) d IH]; [destruct I|]. cbn in V. destruct (vget v d) eqn:W; [discriminate V|]. destruct I as [[= -> ->]|I]; [rewrite E in V; discriminate V|apply IH; [reflexivity|exact I]].
        -- intros (a & k' & b & E & Q' & N). destruct a as [|h a]; [injection E as <- <- <-; reflexivity|]. injection E as <- ->. assert (X : vget v (a ++ (k', c) :: b) = Some c) by (apply IH; exists a, k', b; auto). congruence.
      * split; [discriminate|]. intros (a & k' & b & E & Q' & N). destruct a as [|h a]; [injection E as <- <- <-; congruence|]. injection E as <- ->. assert (X : vget v (a ++ (k', c) :: b) = Some c) by (apply IH; exists a, k', b; auto). congruence.
Qed.
Lemma schema_run : forall tables v c, vget v tables = Some c <-> schema_for tables v c.
Proof. intros. unfold schema_for. apply vget_spec. Qed.
Lemma columns_run : forall s tables t r, sectioned s -> arg_props (s_heap s) (tget t s) = Ok r -> forall c, resource_columns tables r = Some c <-> table_for s tables t c \/ (dget "name" r = None /\ exists v, row_prop s t "table" v /\ vget (VStr "<none>") tables = None /\ schema_for tables v c).
Proof.
  intros s tables t r SE H c. pose proof (row_prop_run s t r SE H) as P. unfold resource_columns, table_for. destruct (dget "name" r) as [n|] eqn:N.
  - apply P in N. assert (U : forall n', row_prop s t "name" n' -> n' = n) by (intros n' X; apply P in X; apply P in N; congruence).
    destruct (vget n tables) as [c'|] eqn:V.
    + split.
      * intros [= <-]. left. exists n. split; [exact N|]. left. apply schema_run. exact V.
      * intros [(n' & X & [S|(NS & _)])|(X & _)]; [apply U in X; subst n'; apply schema_run in S; congruence| |discriminate X]. apply U in X. subst n'. apply schema_run in V. destruct (NS _ V).
    + assert (NS : forall c', ~ schema_for tables n c') by (intros c' S; apply schema_run in S; congruence). split.
      * intros E. left. exists n. split; [exact N|]. right. split; [exact NS|]. destruct (dget "table" r) as [v|] eqn:T; [|discriminate E]. exists v. split; [apply P; exact T|apply schema_run; exact E].
      * intros [(n' & X & [S|(_ & v & T & S)])|(X & _)]; [apply U in X; subst n'; destruct (NS _ S)| |discriminate X]. apply P in T. rewrite T. apply schema_run. exact S.
  - assert (NN : forall n, ~ row_prop s t "name" n) by (intros n X; apply P in X; congruence). destruct (vget (VStr "<none>") tables) as [x|] eqn:V.
    + split; [discriminate|]. intros [(n & X & _)|(_ & v & _ & X & _)]; [destruct (NN _ X)|discriminate X].
    + split.
      * intros E. right. split; [reflexivity|]. destruct (dget "table" r) as [v|] eqn:T; [|discriminate E]. exists v. split; [apply P; exact T|]. split; [reflexivity|apply schema_run; exact E].
      * intros [(n & X & _)|(_ & v & T & _ & S)]; [destruct (NN _ X)|]. apply P in T. rewrite T. apply schema_run. exact S.
Qed.

(** ** Fields *)

Lemma map_type_run : forall o x, map_type o = Ok x -> (exists v, o = Some (JVal v) /\ x = JVal (type_name v)) \/ (o = None /\ x = JVal VNone).
Proof.
  intros [[v|l|d]|] x H; cbn in H; try discriminate H; [|right; injection H as <-; auto]. left. exists v. split; [reflexivity|]. destruct v as [|z|z| |i]; try (injection H as <-; reflexivity).
  injection H as <-. f_equal. unfold type_map. cbn [dget type_name].
  destruct (eqs z "str"); [reflexivity|]. destruct (eqs z "text"); [reflexivity|]. destruct (eqs z "unicode"); [reflexivity|]. destruct (eqs z "int"); [reflexivity|]. destruct (eqs z "float"); reflexivity.
Qed.
Lemma mkdict_run : forall c f, mkdict c = Ok f -> field_of c f.
Proof.
  intros [v|l|d] f H; cbn in H; try discriminate H. destruct (map_type (dget "datatype" d)) as [ty|e] eqn:T; [|discriminate H]. cbn [rbind] in H. injection H as <-. apply map_type_run in T.
  set (keep := fun p => match dget p d with Some x => if jtruthy x then [(p, x)] else [] | None => [] end).
  assert (K : forall p, keep p = [] \/ exists x, keep p = [(p, x)] /\ dget p d = Some x /\ jtruthy x = true).
  { intros p. unfold keep. destruct (dget p d) as [x|]; [|left; reflexivity]. destruct (jtruthy x) eqn:J; [right; exists x; auto|left; reflexivity]. }
  exists d. eexists. split; [reflexivity|]. split; [reflexivity|].
  assert (KN : forall p x, keep p = [] -> ~ (dget p d = Some x /\ jtruthy x = true)) by (intros p x E (A & B); unfold keep in E; rewrite A, B in E; discriminate E).
  fold (keep "name") (keep "title") (keep "description").
  split; [|split].
  - assert (KD : forall p q rest, dget p (keep q ++ rest) = if eqs p q then match keep q with [] => dget p rest | (_, x) :: _ => Some x end else dget p rest).
    { intros p q rest. destruct (K q) as [->|(x & -> & _)]; cbn [app dget]; destruct (eqs p q); reflexivity. }
    assert (Y : forall p x, (match keep p with [] => None | (_, x) :: _ => Some x end) = Some x <-> dget p d = Some x /\ jtruthy x = true).
    { intros p x. destruct (K p) as [E|(y & E & A & B)]; [rewrite E; split; [discriminate|intros X; destruct (KN p x E X)]|]. rewrite E. split; [intros [= <-]; auto|intros (X & _); congruence]. }
    intros p x I. cbn in I. destruct I as [<-|[<-|[<-|[]]]]; rewrite !KD; cbn [dget]; cbv [eqs String.eqb Ascii.eqb Bool.eqb]; apply Y.
  - intros p x. destruct (K "name") as [E1|(x1 & E1 & _)]; destruct (K "title") as [E2|(x2 & E2 & _)]; destruct (K "description") as [E3|(x3 & E3 & _)]; rewrite E1, E2, E3; cbn [app dget In];
      repeat match goal with |- context [eqs p ?c] => let Q := fresh in destruct (eqs p c) eqn:Q; [apply eqs_true in Q; subst p; auto 8|] end; discriminate.
  - assert (D : dget "type" (keep "name" ++ keep "title" ++ keep "description" ++ [("type", ty)]) = Some ty) by (destruct (K "name") as [E1|(x1 & E1 & _)]; destruct (K "title") as [E2|(x2 & E2 & _)]; destruct (K "description") as [E3|(x3 & E3 & _)]; rewrite E1, E2, E3; reflexivity).
    rewrite D. destruct T as [(v & E & ->)|(E & ->)]; [left; exists v; auto|right; auto].
Qed.
Lemma mkfields_run : forall c f, mkfields c = Ok f -> exists fs, f = JList fs /\ fields_of c fs.
Proof.
  intros [v|l|d] f H; cbn in H.
  - destruct v as [|z| | |]; try discriminate H. destruct z; [|discriminate H]. injection H as <-. exists []. split; reflexivity.
  - destruct (rmap mkdict l) as [fs|e] eqn:E; [|discriminate H]. injection H as <-. exists fs. split; [reflexivity|]. cbn. apply rmap_two in E. induction E; constructor; [apply mkdict_run; assumption|assumption].
  - destruct d; [|discriminate H]. injection H as <-. exists []. split; reflexivity.
Qed.
Lemma resources_run : forall s tables, sectioned s -> forall files rs, Forall2 (fun t r => arg_props (s_heap s) (tget t s) = Ok r) files rs -> forall out, resources tables rs = Ok out -> packed s tables files out.
Proof.
  intros s tables SE files rs F. induction F as [|t r files rs P F IH]; intros out H; cbn [resources] in H; [injection H as <-; constructor|].
  pose proof (columns_run s tables t r SE P) as C. pose proof (row_prop_run s t r SE P) as RP. destruct (resource_columns tables r) as [c|] eqn:RC.
  - destruct (dget "url" r) as [u|] eqn:U; [|discriminate H]. destruct (dget "name" r) as [n|] eqn:N; [|discriminate H]. destruct (mkfields c) as [f|e] eqn:M; [|discriminate H]. cbn [rbind] in H. destruct (resources tables rs) as [rest|e] eqn:R; [|discriminate H]. injection H as <-.
    apply mkfields_run in M. destruct M as (fs & -> & M). apply (pk_take s tables t files rest c u n fs); [|apply RP; exact U|apply RP; exact N|exact M|apply IH; reflexivity]. destruct (proj1 (C c) eq_refl) as [X|(X & _)]; [exact X|congruence].
  - apply pk_skip; [|apply IH; exact H]. intros c T. pose proof (proj2 (C c) (or_introl T)). discriminate.
Qed.


(** the data files of a section *)
Lemma is_datafile : forall r, term_is r "root.datafile" = Ok (eqs (lower (t_pt r) ++ "." ++ lower (t_rt r)) "root.datafile").
Proof.
  intros r. unfold term_is, term_is_name. change (has_char "." "root.datafile") with true. cbv iota. change (split_term_lower "root.datafile") with (Ok ("root", "datafile")). cbn [rbind]. change (lower "root.datafile") with "root.datafile". unfold dotted.
  destruct (eqs (lower (t_pt r) ++ "." ++ lower (t_rt r)) "root.datafile"); [reflexivity|]. reflexivity.
Qed.
Lemma rfilter_total : forall {A} (f : A -> res bool) g l, (forall x, f x = Ok (g x)) -> rfilter f l = Ok (filter g l).
Proof. intros A f g l H. induction l as [|x l IH]; [reflexivity|]. cbn. rewrite H. cbn. rewrite IH. cbn. destruct (g x); reflexivity. Qed.
Lemma table_run : forall s t vc, table_schema s t = Ok vc -> table_of s t vc.
Proof.
  intros s t vc H. unfold table_schema in H. destruct (as_dict _ _ _ _) as [j|e] eqn:E; [|discriminate H]. cbn [rbind] in H. destruct j as [v|l|d]; try discriminate H. destruct (dget "column" d) as [c|] eqn:C; [|discriminate H]. injection H as <-. exists d. auto.
Qed.
Lemma Forall2_map_impl : forall {A B} (P Q : A -> B -> Prop) l m, (forall x y, P x y -> Q x y) -> Forall2 P l m -> Forall2 Q l m.
Proof. intros A B P Q l m H F. induction F; constructor; auto. Qed.

Lemma front_run : forall s d, front_of s d -> 
  (do? root <- get_section (VStr "root") s ;;
  do? j <- section_as_dict (s_heap s) true root ;;
  do? dp <- (match j with JDict d => Ok d | _ => Err EAttr end) ;;
  match (do? i <- get_section (VStr "identity") s ;; section_as_dict (s_heap s) true i) with
             | Ok (JDict d) => Ok (dupdate dp d)
             | Ok (JVal (VStr "")) => Ok dp
             | Ok (JVal (VStr _)) => Err EValue
             | Ok _ => Err EType
             | Err EKey => Ok dp
             | Err e => Err e
             end) = Ok d.
Proof.
  intros s d (r & dr & R & RD & H). unfold get_section. cbn [as_str rbind]. change (lower "root") with "root". change (lower "identity") with "identity". unfold secs in *. rewrite R. cbn [rbind]. rewrite RD. cbn [rbind].
  destruct H as [(i & di & I & ID & ->)|[(I & ->)|(i & I & [ID|ID] & ->)]]; rewrite I; cbn [rbind]; [rewrite ID| |rewrite ID|rewrite ID]; reflexivity.
Qed.
Lemma c47_name : forall s d, front_of s d -> dget "name" d = None -> dget "indentifier" d = None -> convert_to_datapackage s = Err EConversion.
Proof.
  intros s d F N I. apply front_run in F. unfold convert_to_datapackage. cbv zeta.
  destruct (get_section (VStr "root") s) as [r|e]; [|discriminate F]. cbn [rbind] in *. destruct (section_as_dict (s_heap s) true r) as [j|e]; [|discriminate F]. cbn [rbind] in *. destruct j as [v|l|dr]; try discriminate F. cbn [rbind] in *. rewrite F. cbn [rbind]. rewrite N, I. reflexivity.
Qed.
Lemma front_some : forall s dr r d, get_section (VStr "root") s = Ok r -> section_as_dict (s_heap s) true r = Ok (JDict dr) ->
  match (do? i <- get_section (VStr "identity") s ;; section_as_dict (s_heap s) true i) with
             | Ok (JDict d) => Ok (dupdate dr d)
             | Ok (JVal (VStr "")) => Ok dr
             | Ok (JVal (VStr _)) => Err EValue
             | Ok _ => Err EType
             | Err EKey => Ok dr
             | Err e => Err e
             end = Ok d -> front_of s d.
Proof.
  intros s dr r d R RD H. exists r, dr. unfold get_section in R, H. cbn [as_str rbind] in R, H. change (lower "root") with "root" in R. change (lower "identity") with "identity" in H. fold (secs s) in R, H. split; [destruct (dget "root" (secs s)); [congruence|discriminate R]|]. split; [exact RD|].
  destruct (dget "identity" (secs s)) as [i|] eqn:I; cbn [rbind] in H; [|right; left; injection H as <-; auto].
  destruct (section_as_dict (s_heap s) true i) as [j|e] eqn:J.
  - destruct j as [v|l|di]; [destruct v as [|z| | |]; try discriminate H; destruct z; [|discriminate H]; injection H as <-; right; right; exists i; auto|discriminate H|]. injection H as <-. left. exists i, di. auto.
  - destruct e; try discriminate H. injection H as <-. right. right. exists i. auto.
Qed.

Lemma c47 : forall s dp, sectioned s -> convert_to_datapackage s = Ok dp ->
  exists front schema sec tables out, front_of s front /\ dget "schema" (secs s) = Some schema /\ dget "resources" (secs s) = Some sec
    /\ Forall2 (table_of s) (t_terms (tget schema s)) tables /\ packed s tables (datafiles s sec) out
    /\ dget "resources" dp = Some (JList out)
    /\ (forall k, k <> "resources" -> k <> "name" -> dget k dp = dget k front)
    /\ (exists x, dget "name" dp = Some x /\ (dget "name" front = Some x \/ (dget "name" front = None /\ dget "indentifier" front = Some x))).
Proof.
  intros s dp SE H. unfold convert_to_datapackage in H. cbv zeta in H.
  destruct (get_section (VStr "root") s) as [r|e] eqn:R; [|discriminate H]. cbn [rbind] in H. destruct (section_as_dict (s_heap s) true r) as [j|e] eqn:RD; [|discriminate H]. cbn [rbind] in H. destruct j as [v|l|dr]; try discriminate H. cbn [rbind] in H.
  match type of H with (rbind ?m _) = _ => destruct m as [front|e] eqn:F; [|discriminate H] end. cbn [rbind] in H. pose proof (front_some s dr r front R RD F) as FR.
  match type of H with (rbind ?m _) = _ => destruct m as [dp1|e] eqn:N; [|discriminate H] end. cbn [rbind] in H.
  destruct (key_to EConversion _) as [tables|e] eqn:T; [|discriminate H]. cbn [rbind] in H.
  destruct (get_section (VStr "resources") s) as [sec|e] eqn:S; [|discriminate H]. cbn [rbind] in H.
  rewrite (rfilter_total _ (fun t => eqs (lower (t_pt (tget t s)) ++ "." ++ lower (t_rt (tget t s))) "root.datafile")) in H by (intros t; apply is_datafile). cbn [rbind] in H. fold (tget sec s) in H. fold (datafiles s sec) in H.
  destruct (rmap _ (datafiles s sec)) as [rs|e] eqn:A; [|discriminate H]. cbn [rbind] in H. destruct (resources tables rs) as [out|e] eqn:O; [|discriminate H]. cbn [rbind] in H. injection H as <-.
  unfold get_section in T, S. cbn [as_str rbind] in T, S. change (lower "schema") with "schema" in T. change (lower "resources") with "resources" in S. fold (secs s) in T, S.
  destruct (dget "resources" (secs s)) as [sec'|]; [|discriminate S]. injection S as ->. destruct (dget "schema" (secs s)) as [schema|]; [|discriminate T]. cbn [rbind] in T.
  exists front, schema, sec, tables, out. split; [exact FR|]. split; [reflexivity|]. split; [reflexivity|]. split; [|split; [|split; [|split]]].
  - unfold key_to in T. destruct (rmap (table_schema s) _) as [l|e] eqn:X; [|destruct e; discriminate T]. injection T as ->. apply rmap_two in X. eapply Forall2_map_impl; [|exact X]. intros x y Y. apply table_run. exact Y.
  - apply (resources_run s tables SE (datafiles s sec) rs); [|exact O]. apply rmap_two in A. exact A.
  - apply dget_dset_same.
  - intros k K1 K2. rewrite dget_dset_other by exact K1. destruct (dget "name" front); [injection N as <-; reflexivity|]. destruct (dget "indentifier" front); [|discriminate N]. injection N as <-. apply dget_dset_other. exact K2.
  - rewrite dget_dset_other by discriminate. destruct (dget "name" front) as [x|] eqn:NF; [injection N as <-; exists x; auto|]. destruct (dget "indentifier" front) as [x|]; [|discriminate N]. injection N as <-. exists x. split; [apply dget_dset_same|auto].
Qed.

(** ** When it succeeds *)
Lemma mkfields_total : forall c, column_list c -> exists f, mkfields c = Ok f.
Proof.
  intros c (l & -> & F). cbn [mkfields]. destruct (rmap_ok mkdict l) as (m & M).
  - intros x I. rewrite Forall_forall in F. destruct (F x I) as (d & -> & D). cbn [mkdict]. destruct D as [->|(v & ->)]; [eexists; reflexivity|]. destruct v; eexists; reflexivity.
  - rewrite M. eexists. reflexivity.
Qed.
Lemma vget_in : forall {A} (d : list (val * A)) v c, vget v d = Some c -> exists k, In (k, c) d.
Proof. intros A d v c H. apply vget_spec in H. destruct H as (a & k & b & -> & _). exists k. apply in_elt. Qed.
Lemma resources_total : forall s tables, sectioned s -> Forall (fun vc => column_list (snd vc)) tables -> forall files rs, Forall (full_row s) files ->
  Forall2 (fun t r => arg_props (s_heap s) (tget t s) = Ok r) files rs -> exists out, resources tables rs = Ok out.
Proof.
  intros s tables SE C files rs FR F. induction F as [|t r files rs P F IH]; [exists []; reflexivity|]. inversion FR as [|? ? (_ & (n & N) & (u & U)) FR']; subst. destruct (IH FR') as (out & O). cbn [resources].
  destruct (resource_columns tables r) as [c|] eqn:R; [|exists out; exact O]. apply (row_prop_run s t r SE P) in N. apply (row_prop_run s t r SE P) in U. rewrite N, U.
  assert (X : exists k, In (k, c) tables).
  { unfold resource_columns in R. rewrite N in R. destruct (vget n tables) as [c'|] eqn:V; [injection R as ->; eapply vget_in; exact V|]. destruct (dget "table" r) as [v|]; [|discriminate R]. eapply vget_in. exact R. }
  destruct X as (k & X). rewrite Forall_forall in C. destruct (mkfields_total c (C _ X)) as (f & ->). rewrite O. cbn [rbind]. eexists. reflexivity.
Qed.
Lemma c47_total : forall s front schema sec tables, sectioned s -> front_of s front -> (dget "name" front <> None \/ dget "indentifier" front <> None) ->
  dget "schema" (secs s) = Some schema -> dget "resources" (secs s) = Some sec -> Forall2 (table_of s) (t_terms (tget schema s)) tables -> Forall (fun vc => column_list (snd vc)) tables -> Forall (full_row s) (datafiles s sec) ->
  exists dp, convert_to_datapackage s = Ok dp.
Proof.
  intros s front schema sec tables SE FR NM SC RS TB CL DF. apply front_run in FR. unfold convert_to_datapackage. cbv zeta.
  destruct (get_section (VStr "root") s) as [r|e]; [|discriminate FR]. cbn [rbind] in *. destruct (section_as_dict (s_heap s) true r) as [j|e]; [|discriminate FR]. cbn [rbind] in *. destruct j as [v|l|dr]; try discriminate FR. cbn [rbind] in *. rewrite FR. cbn [rbind].
  match goal with |- context [rbind ?m ?k] => assert (N : exists dp, m = Ok dp) end.
  { destruct (dget "name" front); [eexists; reflexivity|]. destruct (dget "indentifier" front); [eexists; reflexivity|]. destruct NM as [X|X]; contradiction. }
  destruct N as (dp & N). rewrite N. cbn [rbind]. unfold get_section. cbn [as_str rbind]. change (lower "schema") with "schema". change (lower "resources") with "resources". fold (secs s). rewrite SC, RS. cbn [rbind]. fold (tget schema s) (tget sec s).
  assert (T : rmap (table_schema s) (t_terms (tget schema s)) = Ok tables).
  { clear -TB. induction TB as [|t vc l tables (d & A & B & C) TB IH]; [reflexivity|]. cbn [rmap]. unfold table_schema at 1. rewrite A. cbn [rbind]. rewrite B. cbn [rbind]. rewrite IH. cbn [rbind]. destruct vc as (v, c). cbn in C. subst v. reflexivity. }
  rewrite T. cbn [key_to rbind].
  rewrite (rfilter_total _ (fun t => eqs (lower (t_pt (tget t s)) ++ "." ++ lower (t_rt (tget t s))) "root.datafile")) by (intros t; apply is_datafile). cbn [rbind]. fold (datafiles s sec).
  destruct (rmap_ok (fun t => arg_props (s_heap s) (hget t (s_heap s))) (datafiles s sec)) as (rs & R).
  { intros t I. rewrite Forall_forall in DF. destruct (DF t I) as (S & _). fold (tget t s). unfold arg_props. destruct (t_section (tget t s)) as [j|] eqn:J; [|contradiction]. fold (tget j s). rewrite (SE t j J). eexists. reflexivity. }
  rewrite R. cbn [rbind]. apply rmap_two in R. destruct (resources_total s tables SE CL _ _ DF R) as (out & ->). cbn [rbind]. eexists. reflexivity.
Qed.
Lemma c47_schema : forall s front, front_of s front -> (dget "name" front <> None \/ dget "indentifier" front <> None) -> dget "schema" (secs s) = None -> convert_to_datapackage s = Err EConversion.
Proof.
  intros s front FR NM SC. apply front_run in FR. unfold convert_to_datapackage. cbv zeta.
  destruct (get_section (VStr "root") s) as [r|e]; [|discriminate FR]. cbn [rbind] in *. destruct (section_as_dict (s_heap s) true r) as [j|e]; [|discriminate FR]. cbn [rbind] in *. destruct j as [v|l|dr]; try discriminate FR. cbn [rbind] in *. rewrite FR. cbn [rbind].
  match goal with |- context [rbind ?m ?k] => assert (N : exists dp, m = Ok dp) end.
  { destruct (dget "name" front); [eexists; reflexivity|]. destruct (dget "indentifier" front); [eexists; reflexivity|]. destruct NM as [X|X]; contradiction. }
  destruct N as (dp & N). rewrite N. cbn [rbind]. unfold get_section. cbn [as_str rbind]. change (lower "schema") with "schema". fold (secs s). rewrite SC. reflexivity.
Qed.
