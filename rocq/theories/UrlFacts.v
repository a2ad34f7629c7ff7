(** * UrlFacts: proofs about metatab URLs *)

From Verif Require Import StrFacts SpecUrl Misc TextFacts.

Lemma split_on_app2 : forall c a b, split_on c (a ++ String c b) = split_on c a ++ split_on c b.
Proof.
  induction a; intros b; cbn [append split_on].
  - rewrite Ascii.eqb_refl. reflexivity.
  - destruct (Ascii.eqb c a) eqn:E; [cbn [app]; f_equal; apply IHa|]. rewrite IHa.
    pose proof (split_on_nonnil c a0). destruct (split_on c a0); [congruence|reflexivity].
Qed.

Lemma last_app : forall {A} (a b : list A) d, b <> [] -> last (a ++ b) d = last b d.
Proof.
  induction a; intros b d H; [reflexivity|]. cbn [app].
  destruct (a0 ++ b) eqn:E; [apply app_eq_nil in E; tauto|]. rewrite <- (IHa b d H), E. reflexivity.
Qed.

Lemma file_of_basename : forall path name, file_of path name <-> basename path = name.
Proof.
  assert (F : forall path name, file_of path name -> basename path = name).
  { intros path name [N [->|(d & ->)]]; apply has_char_in in N; unfold basename.
    - rewrite split_on_none by exact N. reflexivity.
    - change (d ++ "/" ++ name)%string with (d ++ String "/" name)%string.
      rewrite split_on_app2, last_app by apply split_on_nonnil. rewrite split_on_none by exact N. reflexivity. }
  intros path name. split; [apply F|]. intros <-.
  assert (X : exists name, file_of path name).
  { clear. induction path as [|c p (n & N & H)].
    - exists "". split; [intros []|auto].
    - destruct H as [->|(d & ->)].
      + destruct (Ascii.eqb c "/") eqn:E.
        * apply Ascii.eqb_eq in E. subst. exists n. split; [exact N|]. right. exists "". reflexivity.
        * exists (String c n). split; [|auto]. cbn. intros [H|H]; [subst; discriminate|tauto].
      + exists n. split; [exact N|]. right. exists (String c d). reflexivity. }
  destruct X as (n & X). rewrite (F _ _ X). exact X.
Qed.

Lemma all_dots : forall s, forallb (fun p => eqs p "") (split_on "." s) = true <->
  forall c, In c (list_ascii_of_string s) -> c = "."%char.
Proof.
  induction s as [|c s IH]; [cbn; split; [intros _ c []|reflexivity]|].
  cbn [split_on list_ascii_of_string In]. destruct (Ascii.eqb "." c) eqn:E.
  - apply Ascii.eqb_eq in E. subst. cbn [forallb]. change (eqs "" "") with true. cbn [andb]. rewrite IH. split.
    + intros H c [<-|I]; auto.
    + intros H c I. auto.
  - split.
    + destruct (split_on "." s); cbn; discriminate.
    + intros H. specialize (H c (or_introl eq_refl)). subst. discriminate.
Qed.

Lemma forallb_rev : forall {A} (f : A -> bool) l, forallb f (rev l) = forallb f l.
Proof.
  induction l; [reflexivity|]. cbn [rev forallb]. rewrite forallb_app, IHl. cbn. rewrite andb_true_r. apply andb_comm.
Qed.

Lemma has_ext_file_ext : forall name e, has_ext name e -> file_ext name = e.
Proof.
  intros name e (base & -> & N & c & I & Nc). unfold file_ext.
  change (base ++ "." ++ e)%string with (base ++ String "." e)%string. rewrite split_on_app2, rev_app_distr.
  apply has_char_in in N. rewrite (split_on_none _ e) by exact N. cbn [rev app].
  rewrite forallb_rev. destruct (forallb (fun p => eqs p "") (split_on "." base)) eqn:E; [|reflexivity].
  rewrite all_dots in E. apply E in I. congruence.
Qed.

Lemma file_ext_has_ext : forall name e, e <> "" -> file_ext name = e -> has_ext name e.
Proof.
  intros name e Ne H. unfold file_ext in H. destruct (rev (split_on "." name)) as [|x before] eqn:R; [congruence|].
  destruct (forallb (fun p => eqs p "") before) eqn:B; [congruence|]. subst x.
  apply (f_equal (@rev string)) in R. rewrite rev_involutive in R. cbn [rev] in R.
  destruct before as [|y before]; [discriminate|].
  assert (J : name = (join "." (rev (y :: before)) ++ "." ++ e)%string).
  { rewrite <- (join_split "." name) at 1. rewrite R. remember (rev (y :: before)) as l eqn:L.
    assert (Nl : l <> []). { subst. cbn [rev]. destruct (rev before); discriminate. }
    clear - Nl. induction l as [|a l IH]; [congruence|]. destruct l as [|b l]; [reflexivity|].
    change (join "." ((a :: b :: l) ++ [e])) with (a ++ "." ++ join "." ((b :: l) ++ [e]))%string.
    rewrite IH by discriminate. change (join "." (a :: b :: l)) with (a ++ "." ++ join "." (b :: l))%string.
    rewrite !app_s_assoc. reflexivity. }
  exists (join "." (rev (y :: before))). split; [exact J|]. split.
  - apply has_char_in. apply (split_on_pieces "." name). rewrite R. apply in_app_iff. right. left. reflexivity.
  - rewrite <- forallb_rev in B.
    assert (S : split_on "." (join "." (rev (y :: before))) = rev (y :: before)).
    { apply (split_join "." (rev (y :: before))).
      - cbn [rev]. destruct (rev before); discriminate.
      - intros x I. apply (split_on_pieces "." name). rewrite R. apply in_app_iff. left. exact I. }
    rewrite <- S in B. remember (join "." (rev (y :: before))) as b0. clear - B.
    assert (D : (forall c, In c (list_ascii_of_string b0) -> c = "."%char) \/ exists c, In c (list_ascii_of_string b0) /\ c <> "."%char).
    { clear. induction (list_ascii_of_string b0) as [|c l [IH|(d & I & N)]]; [left; intros c []| |right; exists d; split; [right|]; assumption].
      destruct (Ascii.eqb c ".") eqn:E.
      - apply Ascii.eqb_eq in E. left. intros d [<-|I]; auto.
      - apply Ascii.eqb_neq in E. right. exists c. split; [left; reflexivity|exact E]. }
    destruct D as [D|D]; [|exact D]. apply all_dots in D. congruence.
Qed.

Lemma known_mem : forall p e, file_ext (basename p) = e -> mem_str e known_exts = mem_str e ("zip" :: "xlsx" :: simple_formats).
Proof.
  intros p e _. unfold mem_str, known_exts, simple_formats. cbn [existsb].
  destruct (eqs e "csv"), (eqs e "txt"), (eqs e "ipynb"), (eqs e "xlsx"), (eqs e "zip"); reflexivity.
Qed.

Lemma mem_in : forall x l, mem_str x l = true <-> In x l.
Proof.
  intros x l. unfold mem_str. rewrite existsb_exists. split.
  - intros (y & I & E). apply eqs_true in E. subst. exact I.
  - intros I. exists x. split; [exact I|apply eqs_refl].
Qed.

Lemma url_path_known : forall p name e, file_of p name -> has_ext name e -> In e known_exts -> url_path p = p.
Proof.
  intros p name e F E K. apply file_of_basename in F. subst. apply has_ext_file_ext in E. unfold url_path.
  rewrite E, <- (known_mem p e E). apply mem_in in K. rewrite K. reflexivity.
Qed.

Lemma url_path_default : forall p name, file_of p name -> (forall e, In e known_exts -> ~ has_ext name e) ->
  entry_of p "metadata.csv" (url_path p) /\ file_of (url_path p) "metadata.csv".
Proof.
  intros p name F H. apply file_of_basename in F. subst.
  assert (E : url_path p = path_join p "metadata.csv").
  { unfold url_path. rewrite <- (known_mem p _ eq_refl).
    destruct (mem_str (file_ext (basename p)) known_exts) eqn:M; [|reflexivity].
    apply mem_in in M. exfalso. apply (H _ M). apply file_ext_has_ext; [|reflexivity].
    intros Z. rewrite Z in M. cbn in M. intuition discriminate. }
  rewrite E. unfold path_join. change (startswith "/" "metadata.csv") with false. cbn iota.
  assert (S : endswith_char "/" p = true <-> exists d, p = (d ++ "/")%string).
  { clear. split.
    - intros S. induction p as [|c p IH]; [discriminate|]. cbn [endswith_char] in S. destruct p as [|d p].
      + apply Ascii.eqb_eq in S. subst. exists "". reflexivity.
      + destruct (IH S) as (q & ->). exists (String c q). reflexivity.
    - intros (d & ->). induction d as [|c d IH]; [reflexivity|]. cbn [append]. 
      destruct (d ++ "/")%string eqn:Z; [destruct d; discriminate|exact IH]. }
  split.
  { eqs_cases p ""; [subst; apply entry_here; reflexivity|]. cbn [orb]. destruct (endswith_char "/" p).
    - apply entry_slash. apply S. reflexivity.
    - apply entry_plain; [assumption|]. intros d Z. destruct S as [_ S]. discriminate S. eauto. }
  clear S. split; [intros I; cbn in I; intuition discriminate|]. eqs_cases p ""; [subst; left; reflexivity|]. cbn [orb]. right.
  destruct (endswith_char "/" p) eqn:S; [|exists p; reflexivity].
  clear - S. assert (X : exists q, p = (q ++ "/")%string).
  { induction p as [|c p IH]; [discriminate|]. cbn [endswith_char] in S. destruct p as [|d p].
    - apply Ascii.eqb_eq in S. subst. exists "". reflexivity.
    - destruct (IH S) as (q & ->). exists (String c q). reflexivity. }
  destruct X as (q & ->). exists q. rewrite <- app_s_assoc. reflexivity.
Qed.

Lemma endswith_spec : forall suf s, endswith suf s = true <-> exists a, s = (a ++ suf)%string.
Proof.
  assert (L : forall s n m, substring n m s = substring n m s) by reflexivity.
  assert (Z : forall s, substring 0 (String.length s) s = s).
  { induction s; [reflexivity|]. cbn. f_equal. exact IHs. }
  assert (A : forall a s, substring (String.length a) (String.length s) (a ++ s) = s).
  { induction a; intros s; [apply Z|]. cbn. apply IHa. }
  assert (B : forall n s, n <= String.length s -> exists a, s = (a ++ substring n (String.length s - n) s)%string /\ String.length a = n).
  { induction n; intros s H.
    - exists "". split; [|reflexivity]. rewrite Nat.sub_0_r, Z. reflexivity.
    - destruct s as [|c s]; [cbn in H; lia|]. cbn in H. destruct (IHn s) as (a & E & La); [lia|].
      exists (String c a). split; [|cbn; lia]. cbn [String.length Nat.sub substring append]. f_equal. exact E. }
  intros suf s. unfold endswith. rewrite andb_true_iff, Nat.leb_le, eqs_true. split.
  - intros [H1 H2]. destruct (B (String.length s - String.length suf) s) as (a & E & La); [lia|].
    replace (String.length s - (String.length s - String.length suf)) with (String.length suf) in E by lia.
    rewrite H2 in E. eauto.
  - intros (a & ->). rewrite app_s_length. split; [lia|].
    replace (String.length a + String.length suf - String.length suf) with (String.length a) by lia. apply A.
Qed.

Lemma designated : forall path name, file_of path name ->
  (exists e, In e known_exts /\ has_ext name e) ->
  (name = "metadata.csv" \/ forall a, name <> (a ++ "metadata.csv")%string) ->
  exists file frag fmt, designates name file frag fmt
    /\ target_file path = file /\ url_fragment path = Some frag /\ target_format path = fmt.
Proof.
  intros path name F (e & K & E) G. pose proof F as F'. apply file_of_basename in F'. pose proof E as E'.
  apply has_ext_file_ext in E'.
  assert (D : endswith default_file path = eqs name default_file).
  { destruct (endswith default_file path) eqn:S; symmetry.
    - apply eqs_true. destruct G as [->|G]; [reflexivity|]. exfalso.
      apply endswith_spec in S. destruct S as (a & ->). destruct F as [N [H|(d & H)]].
      + apply (G a). symmetry. exact H.
      + unfold default_file in *.
        (* path = a ++ "metadata.csv" = d ++ "/" ++ name *)
        assert (X : exists b, name = (b ++ "metadata.csv")%string).
        { rewrite <- F'. exists (basename a). unfold basename.
          clear. induction a as [|c a IH]; [reflexivity|]. cbn [append split_on]. destruct (Ascii.eqb "/" c) eqn:E.
          - pose proof (split_on_nonnil "/" a). pose proof (split_on_nonnil "/" (a ++ "metadata.csv")).
            destruct (split_on "/" a); [congruence|]. destruct (split_on "/" (a ++ "metadata.csv")); [congruence|]. exact IH.
          - pose proof (split_on_nonnil "/" a) as N1. pose proof (split_on_nonnil "/" (a ++ "metadata.csv")) as N2.
            destruct (split_on "/" a) as [|x [|y l]] eqn:E1; [congruence| |].
            + assert (H : has_char "/" a = false).
              { destruct (has_char "/" a) eqn:H; [|reflexivity]. destruct (has_char_split _ _ H) as (u & v & -> & _).
                rewrite split_on_app2 in E1. pose proof (split_on_nonnil "/" u). pose proof (split_on_nonnil "/" v).
                destruct (split_on "/" u); [congruence|]. destruct (split_on "/" v); [congruence|].
                injection E1 as _ E1. destruct l; discriminate. }
              rewrite split_on_none in E1 by exact H. injection E1 as <-.
              rewrite split_on_none; [reflexivity|]. rewrite has_char_app, H. reflexivity.
            + assert (H : has_char "/" a = true).
              { destruct (has_char "/" a) eqn:H; [reflexivity|]. rewrite split_on_none in E1 by exact H. discriminate. }
              destruct (split_on "/" (a ++ "metadata.csv")) as [|x' [|y' l']] eqn:E2; [congruence| |].
              * exfalso. destruct (has_char_split _ _ H) as (u & v & -> & _).
                rewrite <- app_s_assoc in E2. change (String "/" v ++ "metadata.csv")%string with (String "/" (v ++ "metadata.csv")) in E2.
                rewrite split_on_app2 in E2. pose proof (split_on_nonnil "/" u). pose proof (split_on_nonnil "/" (v ++ "metadata.csv")).
                destruct (split_on "/" u); [congruence|]. destruct (split_on "/" (v ++ "metadata.csv")); [congruence|].
                injection E2 as _ E2. destruct l0; discriminate.
              * exact IH. }
        destruct X as (b & X). exact (G b X).
    - apply eqs_false. intros ->. apply not_true_iff_false in S. apply S. apply endswith_spec.
      destruct F as [_ [->|(d & ->)]]; [exists ""; reflexivity|exists (d ++ "/")%string; rewrite <- app_s_assoc; reflexivity]. }
  unfold target_file, url_fragment, target_format. rewrite F', E', D.
  unfold default_file in *. clear F' D. eqs_cases name "metadata.csv".
  - subst name. exists "metadata.csv", "", "csv". split.
    + apply des_simple; [|left; reflexivity]. exists "metadata". split; [reflexivity|]. split; [cbn; intuition discriminate|].
      exists "m"%char. split; [left; reflexivity|discriminate].
    + rewrite <- E'. repeat split; reflexivity.
  - cbn in K. destruct K as [<-|[<-|[<-|[<-|[<-|[]]]]]]; cbn.
    + exists name, "", "csv". split; [apply des_simple; auto; left; reflexivity|auto].
    + exists name, "", "txt". split; [apply des_simple; auto; right; left; reflexivity|auto].
    + exists name, "", "ipynb". split; [apply des_simple; auto; right; right; left; reflexivity|auto].
    + exists "meta", "meta", "xlsx". split; [apply des_xlsx; exact E|auto].
    + exists "metadata.csv", "metadata.csv", "csv". split; [apply des_zip; exact E|auto].
Qed.
