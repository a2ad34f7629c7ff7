(** * CliFacts: runs of the command *)

From Verif Require Import StrFacts ListFacts HeapFacts NameFacts UrlFacts RunFacts Files SpecFiles FilesFacts SpecNames Cli SpecCli.

(** ** Names *)

Lemma fragment_run : forall w rd a c r, metatab w rd (on_file ("#" ++ r) a) c = metatab w rd (on_file ("metadata.csv#" ++ r) a) c.
Proof. reflexivity. Qed.
Lemma file_meant : forall f g, meant f g -> file_arg f = g.
Proof.
  intros f g [r|h H]; [reflexivity|]. unfold file_arg. destruct (startswith "#" h) eqn:E; [|reflexivity].
  destruct h as [|c h]; [discriminate E|]. cbn in E. destruct (Ascii.eqb_spec c "#"%char) as [->|N].
  - exfalso. exact (H h eq_refl).
  - exfalso. destruct c as [[] [] [] [] [] [] [] []]; try discriminate E; apply N; reflexivity.
Qed.

Lemma substring_prefix : forall a b, substring 0 (String.length a) (a ++ b) = a.
Proof. intros a b. induction a as [|c a IH]; [destruct b; reflexivity|]. cbn [append String.length substring]. rewrite IH. reflexivity. Qed.
Lemma str_length_app : forall a b, String.length (a ++ b) = String.length a + String.length b.
Proof. intros a b. induction a as [|c a IH]; [reflexivity|]. cbn. rewrite IH. reflexivity. Qed.
Lemma str_app_nil : forall a, (a ++ "")%string = a.
Proof. intros a. induction a as [|c a IH]; [reflexivity|]. cbn. rewrite IH. reflexivity. Qed.
Lemma dot_split : forall base old, dot_free old -> split_on "." (base ++ "." ++ old) = (split_on "." base ++ [old])%list.
Proof. intros base old D. change ("." ++ old)%string with (String "." old). rewrite split_on_app2. apply dot_free_iff in D. rewrite (split_on_none _ old D). reflexivity. Qed.
Lemma dot_unique : forall b1 o1 b2 o2, dot_free o1 -> dot_free o2 -> (b1 ++ "." ++ o1)%string = (b2 ++ "." ++ o2)%string -> b1 = b2 /\ o1 = o2.
Proof.
  intros b1 o1 b2 o2 D1 D2 E. pose proof E as F. apply (f_equal (split_on ".")) in F. rewrite !dot_split in F by assumption. apply app_inj_tail in F. destruct F as [F ->]. split; [|reflexivity].
  rewrite <- (join_split "." b1), <- (join_split "." b2), F. reflexivity.
Qed.
Lemma dot_cases : forall name, has_char "." name = false \/ exists base old, dot_free old /\ name = (base ++ "." ++ old)%string.
Proof.
  intros name. induction name as [|c name IH]; [left; reflexivity|]. destruct IH as [IH|(base & old & D & ->)].
  - destruct (Ascii.eqb "." c) eqn:E.
    + apply Ascii.eqb_eq in E. subst c. right. exists "", name. split; [apply dot_free_iff; exact IH|reflexivity].
    + left. cbn [has_char]. rewrite IH, E. reflexivity.
  - right. exists (String c base), old. split; [exact D|reflexivity].
Qed.
Lemma suffix_dotted : forall base old, has_char "/" (base ++ "." ++ old) = false -> dot_free old ->
  suffix (base ++ "." ++ old) = if nonempty old && nonempty base then ("." ++ old)%string else "".
Proof.
  intros base old S D. unfold suffix. rewrite (split_on_none _ _ S). cbn [last]. rewrite dot_split by exact D. rewrite rev_app_distr. cbn [rev app].
  destruct (rev (split_on "." base)) as [|x r] eqn:R.
  - exfalso. apply (f_equal (@rev string)) in R. rewrite rev_involutive in R. exact (split_on_nonnil _ _ R).
  - f_equal. f_equal. destruct base as [|c base].
    + cbn [append]. rewrite eqs_refl. reflexivity.
    + cbn [nonempty]. destruct (eqs (String c base ++ "." ++ old) ("." ++ old)) eqn:E; [|reflexivity]. exfalso. apply eqs_true in E.
      apply (f_equal String.length) in E. rewrite !str_length_app in E. cbn in E. lia.
Qed.
Lemma suffix_plain : forall name, has_char "/" name = false -> has_char "." name = false -> suffix name = "".
Proof. intros name S D. unfold suffix. rewrite (split_on_none _ _ S). cbn [last]. rewrite (split_on_none _ _ D). reflexivity. Qed.
Lemma name_suffix_none : forall name ext, suffix name = "" -> name_suffix name ext = (name ++ ext)%string.
Proof. intros name ext H. unfold name_suffix. rewrite H. cbn [String.length]. rewrite Nat.sub_0_r. rewrite <- (str_app_nil name) at 2. rewrite substring_prefix. reflexivity. Qed.
Lemma name_renamed : forall name ext, has_char "/" name = false -> renamed ext name (name_suffix name ext).
Proof.
  intros name ext S. destruct (dot_cases name) as [D|(base & old & D & ->)].
  - rewrite name_suffix_none by (apply suffix_plain; assumption). constructor. intros base old _ _ DO ->. rewrite has_char_app in D. cbn in D. rewrite orb_true_r in D. discriminate D.
  - destruct base as [|b base]; [|destruct old as [|o old]].
    1,2: rewrite name_suffix_none by (rewrite suffix_dotted by assumption; rewrite ?andb_false_r; reflexivity); constructor; intros b' o' B O D' E;
      destruct (dot_unique _ _ _ _ D D' E) as [<- <-]; congruence.
    assert (NB : nonempty (String b base) = true) by reflexivity. assert (NE : String b base <> "") by discriminate. revert S NB NE. generalize (String b base) as B. intros B S NB NE.
    unfold name_suffix. rewrite suffix_dotted by assumption. rewrite NB. change (nonempty (String o old)) with true. cbv beta iota zeta delta [andb].
    replace (String.length (B ++ "." ++ String o old) - String.length ("." ++ String o old)) with (String.length B) by (rewrite str_length_app; lia).
    rewrite substring_prefix. constructor; [exact NE|discriminate|exact D].
Qed.

(** ** Files written *)

Lemma write_only : forall p t fs fs', write_file p t fs = (fs', Ok tt) -> only_file p t fs fs'.
Proof.
  intros p t fs fs' H. unfold write_file, bind, gets, place_at in H. rewrite kind_isdir in H.
  assert (X : kind fs p <> Some None /\ put fs p (File t) = Some fs').
  { destruct (kind fs p) as [[d|]|] eqn:K; [| discriminate H |]; (split; [congruence|]); unfold bind, gets in H; (destruct (put fs p (File t)); [injection H as ->; reflexivity|discriminate H]). }
  destruct X as [K P]. pose proof (put_kind _ _ _ _ P) as Q. split.
  - apply kind_file. rewrite Q. replace (after p p) with (Some (@nil string)); [reflexivity|]. symmetry. apply after_spec. rewrite app_nil_r. reflexivity.
  - intros q N. assert (E : kind fs' q = kind fs q).
    { rewrite Q. destruct (after p q) as [[|m r]|] eqn:A; [| |reflexivity]; apply after_spec in A; [rewrite app_nil_r in A; congruence|]. subst q. cbn.
      destruct (kind fs (p ++ m :: r)) eqn:Z; [|reflexivity]. exfalso. apply K. apply (kind_above fs p m r). congruence. }
    rewrite <- !kind_dir. setoid_rewrite <- kind_file. rewrite E. split; reflexivity.
Qed.
Lemma write_fails : forall p t fs fs' e, write_file p t fs = (fs', Err e) -> fs' = fs /\ e = EOS.
Proof.
  intros p t fs fs' e H. unfold write_file, bind, gets, place_at in H. destruct (isdir_at fs p); [injection H as <- <-; auto|].
  unfold bind, gets in H. destruct (put fs p (File t)); [discriminate H|injection H as <- <-; auto].
Qed.
Lemma write_works : forall p n t fs, is_dir fs p -> ~ is_dir fs (p ++ [n]) -> exists fs', write_file (p ++ [n]) t fs = (fs', Ok tt).
Proof.
  intros p n t fs D N. unfold write_file, bind, gets. rewrite kind_isdir. rewrite <- kind_dir in D, N.
  destruct (place_run p n (File t) fs D) as (fs' & H & _). exists fs'. destruct (kind fs (p ++ [n])) as [[|]|]; try exact H. congruence.
Qed.

(** ** Parts of a run that leave the files alone *)

Definition calls {A} (m : CM A) : Prop := forall c, c_fs (fst (m c)) = c_fs c.
Lemma calls_bind : forall {A B} (m : CM A) (k : A -> CM B), calls m -> (forall x, calls (k x)) -> calls (bind m k).
Proof. intros A B m k Hm Hk c. unfold bind. specialize (Hm c). destruct (m c) as [c1 [x|e]]; cbn [fst] in *; [rewrite Hk; exact Hm|exact Hm]. Qed.
Lemma calls_ret : forall {A} (x : A), calls (ret x). Proof. intros A x c. reflexivity. Qed.
Lemma calls_raise : forall {A} e, calls (raise e : CM A). Proof. intros A e c. reflexivity. Qed.
Lemma calls_lift : forall {A} (r : res A), calls (lift r). Proof. intros A r c. reflexivity. Qed.
Lemma calls_gets : forall {A} (f : cst -> A), calls (gets f). Proof. intros A f c. reflexivity. Qed.
Lemma calls_print : forall t, calls (print t). Proof. intros t c. reflexivity. Qed.
Lemma calls_log : forall t, calls (log_line t). Proof. intros t c. reflexivity. Qed.
Lemma calls_exit : forall n, calls (exit_with n). Proof. intros n c. reflexivity. Qed.
Lemma calls_err : forall t, calls (err t). Proof. intros t c. reflexivity. Qed.
Lemma calls_print_all : forall l, calls (print_all l).
Proof. intros l. induction l as [|t l IH]; [apply calls_ret|]. apply calls_bind; [apply calls_print|intros _; exact IH]. Qed.
Ltac calm_run := repeat first
  [ apply calls_ret | apply calls_raise | apply calls_lift | apply calls_gets | apply calls_print | apply calls_log | apply calls_exit | apply calls_err | apply calls_print_all
  | apply calls_bind; [|intros ?] | match goal with |- calls (match ?x with _ => _ end) => destruct x | |- calls (let (_, _) := ?x in _) => destruct x end ].
Lemma calls_write_or_print : forall u a t, a_write a = false -> calls (write_or_print u a t).
Proof. intros u a t W. unfold write_or_print. rewrite W. calm_run. Qed.
Lemma calls_show_doc : forall rd a u s, a_write a = false \/ ~ In (a_type a) ["json"; "yaml"; "line"; "csv"] -> calls (show_doc rd a u s).
Proof.
  intros rd a u s [W|N]; unfold show_doc.
  - calm_run; apply calls_write_or_print; exact W.
  - assert (X : forall t, In t ["json"; "yaml"; "line"; "csv"] -> eqs (a_type a) t = false).
    { intros t I. apply eqs_false. intros E. apply N. rewrite E. exact I. }
    rewrite (X "json"), (X "yaml"), (X "line"), (X "csv") by (cbn; tauto). calm_run.
Qed.
Lemma calls_metatab : forall w rd a, a_create a = None -> a_write a = false \/ ~ In (a_type a) ["json"; "yaml"; "line"; "csv"] \/ a_decl a = true \/ (exists t, a_find a = Some t /\ t <> "") ->
  calls (metatab w rd a).
Proof.
  intros w rd a C H. unfold metatab. rewrite C. apply calls_bind; [apply calls_gets|]. intros fs.
  destruct (load_doc _ _ _) as [s|e]; [|destruct e; calm_run]. apply calls_bind; [|intros _; apply calls_exit].
  destruct (a_decl a) eqn:D.
  - unfold show_declaration. apply calls_bind; [apply calls_gets|]. intros fs'. destruct (load_declarations _ _ _ _) as [s' [[]|e]]; calm_run.
  - destruct (a_find a) as [t|] eqn:F.
    + destruct (nonempty t) eqn:NE; [unfold find_and_print; calm_run|]. apply calls_show_doc. destruct H as [H|[H|[H|(t' & H & H')]]]; auto; try discriminate H.
      injection H as <-. destruct t; [congruence|discriminate NE].
    + apply calls_show_doc. destruct H as [H|[H|[H|(t' & H & _)]]]; auto; discriminate H.
Qed.

(** ** What is read and shown *)

Lemma load_reads : forall w fs a s, load_doc w fs (w_src w fs (w_url w (file_arg (a_file a)))) = Ok s <-> reads_doc w fs a s.
Proof.
  intros w fs a s. unfold load_doc, reads_doc. split.
  - destruct (w_src _ _ _) as [src|e]; [|discriminate]. destruct (open_doc _ _ _ _ _) as [s' [[]|e]] eqn:E; [|discriminate]. intros H. injection H as <-. eauto.
  - intros (src & -> & ->). reflexivity.
Qed.
Lemma shown_type : forall rd s ty t, shown rd s ty t -> In ty ["json"; "yaml"; "line"; "csv"] /\ ("." ++ (if eqs ty "line" then "txt" else ty))%string = extension ty.
Proof. intros rd s ty t H. destruct H; (split; [cbn; tauto|reflexivity]). Qed.
Lemma show_run : forall rd a u s t, shown rd s (a_type a) t -> show_doc rd a u s = fun c => write_or_print u a t c.
Proof.
  intros rd a u s t H. unfold show_doc. remember (a_type a) as ty eqn:E.
  destruct H as [j H|j H|x H|x H];
    repeat match goal with |- context [eqs ?a ?b] => match a with EmptyString => idtac | String _ _ => idtac end; let v := eval vm_compute in (eqs a b) in change (eqs a b) with v end; cbv beta iota; unfold bind, lift; rewrite H; reflexivity.
Qed.
Lemma show_cases : forall rd a u s c, (exists t, shown rd s (a_type a) t /\ show_doc rd a u s c = write_or_print u a t c)
  \/ c_fs (fst (show_doc rd a u s c)) = c_fs c.
Proof.
  intros rd a u s c. destruct (in_dec string_dec (a_type a) ["json"; "yaml"; "line"; "csv"]) as [I|N]; [|right; apply calls_show_doc; auto].
  assert (X : (exists t, shown rd s (a_type a) t) \/ exists e, show_doc rd a u s c = (c, Err e)).
  { unfold show_doc. destruct I as [<-|[<-|[<-|[<-|[]]]]];
    repeat match goal with |- context [eqs ?a ?b] => match a with String _ _ => idtac end; let v := eval vm_compute in (eqs a b) in change (eqs a b) with v end; cbv beta iota; unfold bind, lift.
    - destruct (doc_as_dict s true) as [j|e] eqn:J; [left; eexists; constructor; exact J|right; eauto].
    - destruct (doc_as_dict s true) as [j|e] eqn:J; [left; eexists; constructor; exact J|right; eauto].
    - destruct (doc_as_lines s) as [j|e] eqn:J; [left; eexists; constructor; exact J|right; eauto].
    - destruct (doc_as_csv s) as [j|e] eqn:J; [left; eexists; constructor; exact J|right; eauto]. }
  destruct X as [(t & H)|(e & H)]; [left; exists t; split; [exact H|rewrite (show_run _ _ _ _ _ H); reflexivity]|right; rewrite H; reflexivity].
Qed.
Lemma plain_run : forall w rd a c s, plain a -> reads_doc w (c_fs c) a s -> metatab w rd a c = (show_doc rd a (w_url w (file_arg (a_file a))) s ;;; exit_with 0) c.
Proof.
  intros w rd a c s (C & D & F) R. unfold metatab. rewrite C, D. unfold bind at 1, gets at 1. cbv beta iota. rewrite (proj2 (load_reads _ _ _ _) R).
  destruct F as [F|F]; rewrite F; reflexivity.
Qed.

(** printing *)
Lemma printed_run : forall w rd a c s t, plain a -> a_write a = false -> reads_doc w (c_fs c) a s -> shown rd s (a_type a) t -> u_scheme (w_url w (file_arg (a_file a))) = "file" ->
  printed c (metatab w rd a c) [t].
Proof.
  intros w rd a c s t P W R S F. rewrite (plain_run w rd a c s P R), (show_run _ _ _ _ _ S). unfold bind at 1, write_or_print. rewrite F, W. change (eqs "file" "file") with true. cbn [negb].
  repeat split; reflexivity.
Qed.
(** a document that is not a local file is not shown, even without -W *)
Lemma remote_run : forall w rd a c s t, plain a -> reads_doc w (c_fs c) a s -> shown rd s (a_type a) t -> u_scheme (w_url w (file_arg (a_file a))) <> "file" ->
  exits (metatab w rd a c) 1 /\ c_fs (fst (metatab w rd a c)) = c_fs c /\ c_out (fst (metatab w rd a c)) = c_out c.
Proof.
  intros w rd a c s t P R S F. rewrite (plain_run w rd a c s P R), (show_run _ _ _ _ _ S). unfold bind, write_or_print. rewrite (proj2 (eqs_false _ _) F). repeat split; reflexivity.
Qed.
(** writing *)
Lemma with_suffix_snoc : forall p n ext, with_suffix (p ++ [n]) ext = Ok (p ++ [name_suffix n ext])%list.
Proof. intros. unfold with_suffix. rewrite rev_app_distr. cbn [rev app]. rewrite rev_involutive. reflexivity. Qed.
Lemma written_run : forall w rd a c s t p n, plain a -> a_write a = true -> reads_doc w (c_fs c) a s -> shown rd s (a_type a) t -> u_scheme (w_url w (file_arg (a_file a))) = "file" ->
  u_path (w_url w (file_arg (a_file a))) = (p ++ [n])%list -> has_char "/" n = false -> is_dir (c_fs c) p -> (forall n', renamed (extension (a_type a)) n n' -> ~ is_dir (c_fs c) (p ++ [n'])) ->
  exists n', renamed (extension (a_type a)) n n' /\ exits (metatab w rd a c) 0 /\ only_file (p ++ [n']) t (c_fs c) (c_fs (fst (metatab w rd a c)))
    /\ c_out (fst (metatab w rd a c)) = c_out c /\ c_log (fst (metatab w rd a c)) = c_log c.
Proof.
  intros w rd a c s t p n P W R S F U SL D N. pose proof (name_renamed n (extension (a_type a)) SL) as RN. exists (name_suffix n (extension (a_type a))). split; [exact RN|].
  destruct (write_works p _ t (c_fs c) D (N _ RN)) as (fs' & WF).
  assert (E : metatab w rd a c = (mk_cst fs' (c_out c) (c_log c) (Some 0), Err EExit)).
  { rewrite (plain_run w rd a c s P R), (show_run _ _ _ _ _ S). unfold bind at 1, write_or_print. rewrite F, W. change (eqs "file" "file") with true. cbn [negb].
    destruct (shown_type _ _ _ _ S) as [_ X]. rewrite X, U, with_suffix_snoc. unfold bind at 1, lift. unfold on_files. rewrite WF. reflexivity. }
  rewrite E. split; [split; reflexivity|]. split; [apply write_only; exact WF|]. split; reflexivity.
Qed.
(** whatever happens: nothing is written, or one file *)
Lemma at_most_one : forall w rd a c, a_create a = None ->
  c_fs (fst (metatab w rd a c)) = c_fs c
  \/ exists s t p n n', plain a /\ a_write a = true /\ reads_doc w (c_fs c) a s /\ shown rd s (a_type a) t
       /\ u_path (w_url w (file_arg (a_file a))) = (p ++ [n])%list /\ n' = name_suffix n (extension (a_type a)) /\ only_file (p ++ [n']) t (c_fs c) (c_fs (fst (metatab w rd a c))).
Proof.
  intros w rd a c C. destruct (a_write a) eqn:W; [|left; apply calls_metatab; auto]. destruct (a_decl a) eqn:D; [left; apply calls_metatab; auto|].
  assert (FF : (a_find a = None \/ a_find a = Some "") \/ exists t, a_find a = Some t /\ t <> "").
  { destruct (a_find a) as [[|x y]|]; [left; auto|right; eexists; split; [reflexivity|discriminate]|left; auto]. }
  destruct FF as [FF|FF]; [|left; apply calls_metatab; auto]. assert (P : plain a) by (split; [exact C|split; assumption]).
  destruct (load_doc w (c_fs c) (w_src w (c_fs c) (w_url w (file_arg (a_file a))))) as [s|e] eqn:L.
  2: { left. unfold metatab. rewrite C. unfold bind at 1, gets at 1. cbv beta iota. rewrite L. destruct e; reflexivity. }
  apply load_reads in L. rewrite (plain_run w rd a c s P L). unfold bind.
  destruct (show_cases rd a (w_url w (file_arg (a_file a))) s c) as [(t & S & E)|E].
  - rewrite E. unfold write_or_print. destruct (eqs (u_scheme _) "file"); cbn [negb]; [|left; reflexivity]. rewrite W. destruct (shown_type _ _ _ _ S) as [_ X]. rewrite X.
    destruct (rev (u_path (w_url w (file_arg (a_file a))))) as [|n up] eqn:RV; [left; unfold with_suffix, bind, lift; rewrite RV; reflexivity|].
    assert (U : u_path (w_url w (file_arg (a_file a))) = (rev up ++ [n])%list) by (rewrite <- (rev_involutive (u_path _)), RV; reflexivity).
    rewrite U, with_suffix_snoc. unfold bind, lift, on_files. destruct (write_file (rev up ++ [name_suffix n (extension (a_type a))]) t (c_fs c)) as [fs' [[]|e]] eqn:WF.
    + right. exists s, t, (rev up), n, (name_suffix n (extension (a_type a))). repeat (split; [first [assumption|reflexivity]|]). apply write_only. exact WF.
    + left. apply write_fails in WF. destruct WF as [-> _]. reflexivity.
  - destruct (show_doc _ _ _ _ c) as [c1 [x|e]]; left; exact E.
Qed.

(** opening fails *)
Lemma unopened_run : forall w rd a c, a_create a = None -> w_src w (c_fs c) (w_url w (file_arg (a_file a))) = Err EOS ->
  exits (metatab w rd a c) 1 /\ c_fs (fst (metatab w rd a c)) = c_fs c /\ c_out (fst (metatab w rd a c)) = c_out c.
Proof.
  intros w rd a c C L. assert (E : metatab w rd a c = err ("Failed to open '" ++ file_arg (a_file a) ++ "'") c).
  { unfold metatab. rewrite C. unfold bind at 1, gets. cbv beta iota. unfold load_doc. rewrite L. reflexivity. }
  rewrite E. repeat split; reflexivity.
Qed.

(** -f *)
Lemma find_run : forall w rd a c s term l, a_create a = None -> a_decl a = false -> a_find a = Some term -> term <> "" -> reads_doc w (c_fs c) a s -> doc_find s term VFalse SAny = Ok l ->
  match l with t :: _ => printed c (metatab w rd a c) [str_val (t_val (tget t s))] | [] => metatab w rd a c = (c, Err EAttr) end.
Proof.
  intros w rd a c s term l C D F NE R L. assert (N : nonempty term = true) by (destruct term; [congruence|reflexivity]).
  assert (E : metatab w rd a c = (find_and_print s term ;;; exit_with 0) c).
  { unfold metatab. rewrite C, D. unfold bind at 1, gets at 1. cbv beta iota. rewrite (proj2 (load_reads _ _ _ _) R), F, N. reflexivity. }
  rewrite E. unfold find_and_print, doc_find_first, bind, lift. rewrite L. cbn [rbind hd_error]. destruct l; [reflexivity|repeat split; reflexivity].
Qed.
(** -d with another format than json or yaml *)
Lemma decl_silent : forall w rd a c, a_create a = None -> a_decl a = true -> a_type a <> "json" -> a_type a <> "yaml" ->
  c_out (fst (metatab w rd a c)) = c_out c.
Proof.
  intros w rd a c C D J Y. unfold metatab. rewrite C, D. unfold bind at 1, gets at 1. cbv beta iota. destruct (load_doc _ _ _) as [s|e]; [|destruct e; reflexivity].
  unfold show_declaration, bind, gets. destruct (load_declarations _ _ _ _) as [s' [[]|e]]; [|reflexivity]. rewrite (proj2 (eqs_false _ _) J), (proj2 (eqs_false _ _) Y). reflexivity.
Qed.

(** ** -C *)

Lemma create_there : forall w rd a c t, a_create a = Some t -> ~ missing (c_fs c) (w_path w (file_arg (a_file a))) ->
  exits (metatab w rd a c) 0 /\ c_fs (fst (metatab w rd a c)) = c_fs c /\ c_out (fst (metatab w rd a c)) = c_out c
  /\ c_log (fst (metatab w rd a c)) = (c_log c ++ [("WARNING: File " ++ file_arg (a_file a) ++ " already exists.")%string])%list.
Proof.
  intros w rd a c t C M. assert (E : exists_at (c_fs c) (w_path w (file_arg (a_file a))) = true).
  { rewrite kind_exists. destruct (kind (c_fs c) (w_path w (file_arg (a_file a)))) eqn:K; [reflexivity|]. exfalso. apply M. apply kind_missing. exact K. }
  unfold metatab. rewrite C. unfold new_metatab_file, bind, gets. rewrite E. repeat split; reflexivity.
Qed.

Lemma load_template : forall w fs t s, load_doc w fs (w_template w fs (match t with Some t => if nonempty t then t else "metatab" | None => "metatab" end)) = Ok s <-> template_doc w fs t s.
Proof.
  intros w fs t s. unfold load_doc, template_doc. split.
  - destruct (w_template _ _ _) as [src|e]; [|discriminate]. destruct (open_doc _ _ _ _ _) as [s' [[]|e]] eqn:E; [|discriminate]. intros H. injection H as <-. eauto.
  - intros (src & -> & ->). reflexivity.
Qed.
Lemma write_csv_run : forall uuid name s s' o, write_csv uuid name s = (s', Ok o) -> exists text, o = Some (name, text) /\ doc_as_csv s = Ok text /\ suffix name = ".csv".
Proof.
  intros uuid name s s' o H. unfold write_csv in H. destruct (eqs (suffix name) ".csv") eqn:E; cbn [negb] in H; [|discriminate H]. unfold bind, reads in H.
  destruct (doc_as_csv s) as [text|e]; [|discriminate H]. destruct (cleanse uuid s) as [s1 [u|e]]; [|discriminate H]. injection H as _ <-. exists text. split; [reflexivity|]. split; [reflexivity|]. apply eqs_true. exact E.
Qed.
Lemma create_cases : forall w rd a c t, a_create a = Some t ->
  c_fs (fst (metatab w rd a c)) = c_fs c
  \/ exists s text, missing (c_fs c) (w_path w (file_arg (a_file a))) /\ template_doc w (c_fs c) t s /\ doc_as_csv s = Ok text
       /\ only_file (u_path (w_write_url w (file_arg (a_file a)))) text (c_fs c) (c_fs (fst (metatab w rd a c)))
       /\ exits (metatab w rd a c) 0 /\ c_out (fst (metatab w rd a c)) = (c_out c ++ [("Created  " ++ file_arg (a_file a))%string])%list.
Proof.
  intros w rd a c t C. remember (metatab w rd a c) as r eqn:E. unfold metatab in E. rewrite C in E. unfold bind at 1 in E. unfold new_metatab_file, bind at 1, gets at 1 in E. cbv beta iota in E. rewrite kind_exists in E.
  destruct (kind (c_fs c) (w_path w (file_arg (a_file a)))) eqn:K; [left; subst r; reflexivity|].
  unfold bind at 1, lift in E. destruct (load_doc w (c_fs c) (w_template w (c_fs c) _)) as [s|e] eqn:L; [|left; subst r; reflexivity]. cbv beta iota zeta in E.
  destruct (eqs (u_scheme _) "file"); cbn [negb] in E; [|left; subst r; reflexivity].
  destruct (write_csv (w_uuid w) (last (u_path (w_write_url w (file_arg (a_file a)))) "") s) as [s' [o|e]] eqn:WC; [|left; subst r; reflexivity].
  apply write_csv_run in WC. destruct WC as (text & -> & T & _). unfold bind, on_files in E.
  destruct (write_file (u_path (w_write_url w (file_arg (a_file a)))) text (c_fs c)) as [fs' [[]|e]] eqn:WF.
  - right. exists s, text. split; [apply kind_missing; exact K|]. split; [apply load_template; exact L|]. split; [exact T|]. subst r. split; [apply write_only; exact WF|]. repeat split; reflexivity.
  - left. apply write_fails in WF. destruct WF as [-> _]. subst r. reflexivity.
Qed.
Lemma create_run : forall w rd a c t s text p n s', a_create a = Some t -> missing (c_fs c) (w_path w (file_arg (a_file a))) -> template_doc w (c_fs c) t s -> doc_as_csv s = Ok text ->
  u_scheme (w_write_url w (file_arg (a_file a))) = "file" -> u_path (w_write_url w (file_arg (a_file a))) = (p ++ [n])%list -> suffix n = ".csv" -> cleanse (w_uuid w) s = (s', Ok tt) ->
  is_dir (c_fs c) p -> ~ is_dir (c_fs c) (p ++ [n]) ->
  exits (metatab w rd a c) 0 /\ only_file (p ++ [n]) text (c_fs c) (c_fs (fst (metatab w rd a c)))
  /\ c_out (fst (metatab w rd a c)) = (c_out c ++ [("Created  " ++ file_arg (a_file a))%string])%list.
Proof.
  intros w rd a c t s text p n s' C M T X F U SX CL D N. apply load_template in T. apply kind_missing in M. destruct (write_works p n text (c_fs c) D N) as (fs' & WF).
  assert (WC : write_csv (w_uuid w) n s = (s', Ok (Some (n, text)))).
  { unfold write_csv. rewrite SX. change (eqs ".csv" ".csv") with true. cbn [negb]. unfold bind, reads. rewrite X, CL. reflexivity. }
  assert (E : metatab w rd a c = (mk_cst fs' (c_out c ++ [("Created  " ++ file_arg (a_file a))%string])%list (c_log c) (Some 0), Err EExit)).
  { unfold metatab. rewrite C. unfold bind at 1. unfold new_metatab_file, bind at 1, gets at 1. cbv beta iota. rewrite kind_exists, M. unfold bind at 1, lift. rewrite T. cbv beta iota zeta.
    rewrite F. change (eqs "file" "file") with true. cbn [negb]. rewrite U, last_last, WC. cbv beta iota.
    unfold bind at 1 2, on_files. rewrite WF. reflexivity. }
  rewrite E. split; [split; reflexivity|]. split; [apply write_only; exact WF|reflexivity].
Qed.

(** ** get_table *)

Lemma quoted_strs : forall vs, quoted (map VStr vs) = Ok (map (fun v => "'" ++ v ++ "'")%string vs).
Proof. intros vs. induction vs as [|v vs IH]; [reflexivity|]. cbn [map quoted]. rewrite IH. reflexivity. Qed.
Lemma table_found : forall s name c t l, doc_find s "Root.Table" (VStr name) SAny = Ok (t :: l) -> get_table s name c = (c, Ok t).
Proof. intros s name c t l H. unfold get_table, doc_find_first, bind, lift. rewrite H. reflexivity. Qed.
Lemma table_missing : forall s name c l vs, doc_find s "Root.Table" (VStr name) SAny = Ok [] -> doc_find s "Root.Table" VFalse SAny = Ok l -> map (fun t => t_val (tget t s)) l = map VStr vs ->
  exists msg, get_table s name c = (mk_cst (c_fs c) (c_out c) (c_log c ++ [msg]) (Some 1), Err EExit)
    /\ msg = ("CRITICAL: Did not find schema for table name '" ++ name ++ "' Tables are: " ++ join " " (match vs with [] => ["<No Tables>"] | _ => map (fun v => "'" ++ v ++ "'") vs end))%string.
Proof.
  intros s name c l vs H1 H2 V. unfold get_table, doc_find_first, bind, lift. rewrite H1. cbn [rbind hd_error]. rewrite H2, V, quoted_strs. cbv beta iota. eexists. split; [reflexivity|]. destruct vs; reflexivity.
Qed.
