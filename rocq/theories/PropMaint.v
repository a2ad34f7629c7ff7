(** * PropMaint: identifiers, versions, names and writing *)

From Verif Require Import PyStr PyBase State Ops SpecNames SpecInv SpecFind SpecEdit SpecMaint Maint StepFacts MaintFacts VersionFacts GenFacts WriteFacts PropDoc.

(** ** C45 *)

(** [uuid] stands for the fresh identifier uuid4() gives *)
Theorem C45_identifier : forall (Q : Quirks) s uuid r, in_order s -> findable s "Root.Identifier" -> uuid <> "" -> dget "root" (secs s) = Some r ->
  exists s' i, ensure_identifier uuid s = (s', Ok tt) /\ in_order s' /\ identifier s' i /\ truthy (t_val (tget i s')) = true
    /\ (forall j, identifier s j -> i = j /\ s_doc s' = s_doc s /\ (truthy (t_val (tget j s)) = true -> s' = s)
          /\ forall x, tget x s' = if x =? j then (if truthy (t_val (tget j s)) then tget j s else set_t_val (VStr uuid) (tget j s)) else tget x s)
    /\ (no_identifier s -> i = hlen s /\ t_val (tget i s') = VStr uuid /\ listed s' = (listed s ++ [i])%list /\ forall x, x < hlen s -> x <> r -> tget x s' = tget x s)
    /\ forall uuid', ensure_identifier uuid' s' = (s', Ok tt).
Proof. exact (@c45). Qed.
Print Assumptions C45_identifier.

(** a new identifier, kept by a second call; an empty one filled in *)
Definition g1 : st := fst (ensure_identifier "9f3a" e5).
Definition g2 : st := fst (Ops.new_term 0 "Root.Identifier" (VStr "") [] e5).
Example C45_ex : in_order e5 /\ findable e5 "Root.Identifier" /\ dget "root" (secs e5) = Some 0 /\ no_identifier e5
  /\ ensure_identifier "9f3a" e5 = (g1, Ok tt) /\ identifier g1 8 /\ t_val (tget 8 g1) = VStr "9f3a" /\ ensure_identifier "77" g1 = (g1, Ok tt)
  /\ identifier g2 8 /\ t_val (tget 8 g2) = VNone /\ t_val (tget 8 (fst (ensure_identifier "77" g2))) = VStr "77".
Proof.
  split; [exact example_order|]. split; [split; vm_compute; reflexivity|]. repeat (split; [vm_compute; reflexivity|]). vm_compute; reflexivity.
Qed.

(** ** C42 *)

Theorem C42_parts : forall (Q : Quirks) s r v, in_order s -> dget "root" (secs s) = Some r -> underived s "Root.Version" -> version_term s v -> t_doc (tget v s) = true -> parts_usual s -> (exists x, part_of s v x) ->
  exists s' a b c d, update_version s = (s', Ok (VStr (version_text s' a b c d)))
    /\ in_order s' /\ version_term s' v /\ first_child s' v "Major" a /\ first_child s' v "Minor" b /\ first_child s' v "Patch" c /\ build_of s' v d
    /\ t_val (tget v s') = VStr (version_text s' a b c d)
    (* parts that were there are kept, with 0 for a missing value; new ones are 1 *)
    /\ (forall n x, In n parts -> first_child s v n x -> first_child s' v n x /\ t_val (tget x s') = filled (t_val (tget x s)))
    /\ (forall n x, In n parts -> no_child s v n -> first_child s' v n x -> hlen s <= x /\ t_val (tget x s') = VStr "1")
    /\ (forall x, build_of s v (Some x) -> d = Some x) /\ (build_of s v None -> d = None)
    (* nothing else changes *)
    /\ s_doc s' = s_doc s /\ s_reg s' = s_reg s /\ (forall x, x < hlen s -> x <> v -> ~ part_of s v x -> tget x s' = tget x s)
    /\ (forall x, x < hlen s -> t_cls (tget x s') = t_cls (tget x s) /\ t_rt (tget x s') = t_rt (tget x s) /\ t_pt (tget x s') = t_pt (tget x s) /\ t_section (tget x s') = t_section (tget x s) /\ t_doc (tget x s') = t_doc (tget x s))
    (* and a second call changes nothing at all *)
    /\ update_version s' = (s', Ok (VStr (version_text s' a b c d))).
Proof. exact (@c42). Qed.
Print Assumptions C42_parts.

Theorem C42_plain : forall (Q : Quirks) s r v, in_order s -> dget "root" (secs s) = Some r -> underived s "Root.Version" -> version_term s v -> t_doc (tget v s) = true -> (forall n, In n parts -> no_child s v n) ->
  update_version s = (s, Ok (t_val (tget v s))).
Proof. exact (@c42_plain). Qed.
Print Assumptions C42_plain.

Theorem C42_none : forall (Q : Quirks) s r, in_order s -> dget "root" (secs s) = Some r -> no_version s -> update_version s = (s, Ok VNone).
Proof. exact (@update_none). Qed.
Print Assumptions C42_none.

(** a version with a Minor, a Major without value and a Build *)
Definition g3 : st := fst (Ops.new_term 0 "Root.Version" (VStr "x") [("Minor", VStr "2"); ("Major", VNone); ("Build", VStr "77")] e5).
Lemma g3_order : in_order g3.
Proof. eapply order_edits; [|exact example_order]. eapply edits_more; [apply edits_none|]. eapply (ed_new_term e5 g3 "root" 0 "Root.Version"); [vm_compute; auto|intros []|top|apply surjective_pairing]. Qed.
Example C42_ex : in_order g3 /\ underived g3 "Root.Version" /\ version_term g3 8 /\ t_doc (tget 8 g3) = true /\ parts_usual g3 /\ part_of g3 8 9
  /\ (let (s', w) := update_version g3 in w = Ok (VStr "0.2.1.77") /\ map (fun c => (t_rt (tget c s'), t_val (tget c s'))) (t_children (tget 8 s')) = [("minor", VStr "2"); ("major", VInt 0); ("build", VStr "77"); ("patch", VStr "1")]
      /\ update_version s' = (s', w)).
Proof.
  split; [exact g3_order|]. split; [vm_compute; reflexivity|]. split; [vm_compute; reflexivity|]. split; [vm_compute; reflexivity|].
  split; [intros n I; cbn in I; destruct I as [<-|[<-|[<-|[]]]]; vm_compute; reflexivity|]. split; [|vm_compute; repeat split; reflexivity].
  exists "Minor". split; [right; left; reflexivity|]. exists [], [10; 11]. split; [vm_compute; reflexivity|]. split; [vm_compute; reflexivity|intros x []].
Qed.

(** a Build without a value shows up as 'None' *)
Example C42_empty_build : snd (update_version (fst (Ops.new_term 0 "Root.Version" (VStr "x") [("Minor", VStr "2"); ("Build", VNone)] e5))) = Ok (VStr "1.2.1.None").
Proof. vm_compute. reflexivity. Qed.

(** ** C44 *)

Theorem C44_name : forall (Q : Quirks) s l, ordinary s -> name_values s l ->
  exists s1 w ver m, update_version s = (s1, Ok w) /\ shown s1 w ver /\ name_parts (l ++ [ver]) m /\ generate_identity_name MvKeep s = (s1, Ok (join "-" m)).
Proof. exact (@c44_name). Qed.
Print Assumptions C44_name.

Theorem C44_split : forall l m, name_parts l m -> m <> [] -> (forall e, In e l -> ~ blank_val e -> unspaced (str_val e)) -> split_on "-" (join "-" m) = m.
Proof. exact c44_split. Qed.
Print Assumptions C44_split.

(** update_name always works on ordinary documents; afterwards the name agrees
    with the other terms if there is a dataset, and a second call changes
    nothing and reports no change *)
Theorem C44_again : forall (Q : Quirks) s uuid force create report, ordinary s -> uuid <> "" ->
  exists s' msgs, update_name uuid force create report MvKeep s = (s', Ok msgs) /\ ordinary s'
    /\ (exists i, identifier s' i /\ truthy (t_val (tget i s')) = true)
    /\ (forall uuid' report', exists m', update_name uuid' false create report' MvKeep s' = (s', Ok m') /\ quiet m')
    /\ (forall nt ds, name_term s' nt -> value_at s' "Root.Dataset" SAny ds -> truthy ds = true -> agrees s' nt)
    /\ (create = true -> exists nt, name_term s' nt).
Proof. exact (@c44_again). Qed.
Print Assumptions C44_again.

(** g3 with some of the values that go into the name *)
Definition g4 : st := fst (Ops.new_term 0 "Root.Dataset" (VStr "my-data") [] g3).
Definition g5 : st := fst (Ops.new_term 0 "Root.Origin" (VStr "example.com") [] g4).
Definition g6 : st := fst (Ops.new_term 0 "Root.Name" (VStr "old") [] g5).
Lemma g6_order : in_order g6.
Proof.
  eapply order_edits; [|exact g3_order]. eapply edits_more; [eapply edits_more; [eapply edits_more; [apply edits_none|]|]|].
  - eapply (ed_new_term g3 g4 "root" 0 "Root.Dataset"); [vm_compute; auto|intros []|top|apply surjective_pairing].
  - eapply (ed_new_term g4 g5 "root" 0 "Root.Origin"); [vm_compute; auto|intros []|top|apply surjective_pairing].
  - eapply (ed_new_term g5 g6 "root" 0 "Root.Name"); [vm_compute; auto|intros []|top|apply surjective_pairing].
Qed.
Lemma g6_ordinary : ordinary g6.
Proof.
  constructor; [exact g6_order|exists 0; vm_compute; reflexivity| |vm_compute; reflexivity|vm_compute; reflexivity| |].
  - intros item I. cbn in I. repeat (destruct I as [<-|I]; [vm_compute; reflexivity|]). destruct I.
  - intros n I. cbn in I. destruct I as [<-|[<-|[<-|[]]]]; vm_compute; reflexivity.
  - intros v V. unfold version_term in V. vm_compute in V. injection V as <-. vm_compute. reflexivity.
Qed.
Example C44_ex : ordinary g6 /\ name_term g6 14
  /\ name_values g6 [VStr "example.com"; VStr "my-data"; VNone; VNone; VNone; VNone]
  /\ (let (s', r) := update_name "9f3a" false true true MvKeep g6 in r = Ok [ChangedName] /\ t_val (tget 14 s') = VStr "example.com-my_data-0.2.1.77"
      /\ update_name "77" false true true MvKeep s' = (s', Ok [NameUnchanged]))
  /\ split_on "-" "example.com-my_data-0.2.1.77" = ["example.com"; "my_data"; "0.2.1.77"].
Proof.
  split; [exact g6_ordinary|]. split; [vm_compute; reflexivity|]. split.
  - constructor; (left; eexists; split; vm_compute; reflexivity) || (right; split; vm_compute; reflexivity).
  - split; [vm_compute; repeat split; reflexivity|vm_compute; reflexivity].
Qed.

(** a lone accent counts as white space in a slug: the name has one '-' more *)
Theorem C44_accent_refuted : exists e m, name_parts [e] m /\ (forall c, In c (list_ascii_of_string (str_val e)) -> isspace c = false) /\ split_on "-" (join "-" m) <> m.
Proof. exact c44_accent. Qed.
Print Assumptions C44_accent_refuted.

(** ** C40 *)

(** a wrong extension *)
Theorem C40_extension : forall s uuid path, suffix path <> ".csv" -> suffix path <> ".txt" -> write uuid path s = (s, Err EFormat).
Proof. exact write_wrong. Qed.
Print Assumptions C40_extension.

(** the file holds the document as it was before it was cleansed; if that
    cannot be rendered, no file is written and nothing is changed *)
Theorem C40_content_partial : forall s uuid path, suffix path = ".csv" \/ suffix path = ".txt" ->
  write uuid path s = match content_of path s with
    | Err e => (s, Err e)
    | Ok t => match cleanse uuid s with (s', Ok _) => (s', Ok (Some (path, t))) | (s', Err e) => (s', Err e) end
    end.
Proof. exact write_run. Qed.
Print Assumptions C40_content_partial.

(** cleansing an ordinary document works, and a cleansed document is not
    changed by cleansing it again; so a second write gives the current document *)
Theorem C40_second_partial : forall (Q : Quirks) s uuid path t, ordinary s -> uuid <> "" -> suffix path = ".csv" \/ suffix path = ".txt" -> content_of path s = Ok t ->
  exists s', write uuid path s = (s', Ok (Some (path, t))) /\ ordinary s' /\ forall uuid' path' t', suffix path' = ".csv" \/ suffix path' = ".txt" -> content_of path' s' = Ok t' -> write uuid' path' s' = (s', Ok (Some (path', t'))).
Proof. exact (@c40_again). Qed.
Print Assumptions C40_second_partial.

Theorem C40_refuted : exists s uuid path t s', ordinary s /\ suffix path = ".csv" /\ write uuid path s = (s', Ok (Some (path, t))) /\ content_of path s' <> Ok t.
Proof.
  exists g6, "9f3a", "dir/metadata.csv". eexists. eexists. split; [exact g6_ordinary|]. split; [vm_compute; reflexivity|]. split; [vm_compute; reflexivity|]. vm_compute. discriminate.
Qed.
Print Assumptions C40_refuted.

Example C40_ex : match write "9f3a" "dir/metadata.csv" g6 with
  | (s', Ok (Some (p, text))) =>
      p = "dir/metadata.csv" /\ doc_as_csv g6 = Ok text
      /\ match doc_as_csv s', write "77" "x.csv" s' with
         | Ok text', (s'', Ok (Some (_, text''))) => String.eqb text' text = false /\ text'' = text' /\ s'' = s'
         | _, _ => False
         end
  | _ => False
  end.
Proof. vm_compute. repeat split; reflexivity. Qed.
Example C40_ex_wrong : write "9f3a" "dir/metadata.xlsx" g6 = (g6, Err EFormat) /\ suffix "dir/metadata.xlsx" = ".xlsx".
Proof. split; vm_compute; reflexivity. Qed.

(** ** C41 *)

(** False and None, for documents whose version is up to date *)
Theorem C41_keep_partial : forall (Q : Quirks) s w l, ordinary s -> settled s w -> name_values s l -> exists ver m, shown s w ver /\ name_parts (l ++ [ver]) m /\ as_version MvKeep s = (s, Ok (join "-" m)).
Proof. exact (@c41_keep). Qed.
Print Assumptions C41_keep_partial.

(** None for all ordinary documents: the version is brought up to date *)
Theorem C41_without_partial : forall (Q : Quirks) s l, ordinary s -> name_values s l -> exists s1 w m, update_version s = (s1, Ok w) /\ name_parts l m /\ as_version MvNone s = (s1, Ok (join "-" m)).
Proof. exact (@c41_without). Qed.
Print Assumptions C41_without_partial.

(** a str: the name is right, but the version is stored in the document *)
Theorem C41_text_partial : forall (Q : Quirks) s v c y l, ordinary s -> version_term s v -> (forall n, In n parts -> no_child s v n) -> name_values s l -> c <> "+"%char -> c <> "-"%char ->
  exists s' m, name_parts (l ++ [VStr (String c y)]) m /\ as_version (MvStr (String c y)) s = (s', Ok (join "-" m)) /\ modT v (set_t_val (VStr (String c y))) s = (s', Ok tt).
Proof. intros Q s v c y l O V NP NV A B. destruct (as_version_text s v c y l O V NP NV A B) as (m & P & R). eexists. exists m. split; [exact P|]. split; [exact R|reflexivity]. Qed.
Print Assumptions C41_text_partial.
Theorem C41_step_partial : forall (Q : Quirks) s v (up : bool) text z k l, ordinary s -> version_term s v -> (forall n, In n parts -> no_child s v n) -> name_values s l -> int_of (t_val (tget v s)) = Ok z -> step_of text = Ok k ->
  let x := VStr (str_of_Z (if up then (z + k)%Z else (z - k)%Z)) in
  exists s' m, name_parts (l ++ [x]) m /\ as_version (MvStr (String (if up then "+" else "-")%char text)) s = (s', Ok (join "-" m)) /\ modT v (set_t_val x) s = (s', Ok tt).
Proof. intros Q s v up text z k l O V NP NV A B x. destruct (as_version_step s v up text z k l O V NP NV A B) as (m & P & R). eexists. exists m. split; [exact P|]. split; [exact R|reflexivity]. Qed.
Print Assumptions C41_step_partial.
(** with parts, the patch is changed *)
Theorem C41_parts_partial : forall (Q : Quirks) s v a b c d l m x, ordinary s -> version_term s v -> first_child s v "Major" a -> first_child s v "Minor" b -> first_child s v "Patch" c -> build_of s v d ->
  t_val (tget a s) <> VNone -> t_val (tget b s) <> VNone -> t_val (tget c s) <> VNone -> t_val (tget v s) = VStr (version_text s a b c d) ->
  doc_find_first s "Version.Patch" VFalse (SOne "Root") = Ok (Some c) -> name_values s l -> new_mv (t_val (tget c s)) m = Ok x -> x <> VNone ->
  exists s1 s' p, let w := VStr (version_text s1 a b c d) in
    name_parts (l ++ [w]) p /\ as_version m s = (s', Ok (join "-" p)) /\ modT c (set_t_val x) s = (s1, Ok tt) /\ modT v (set_t_val w) s1 = (s', Ok tt).
Proof.
  intros Q s v a b c d l m x O V A B C D NA NB NC T F NV X NX. destruct (as_version_parts s v a b c d l m x O V A B C D NA NB NC T F NV X NX) as (p & P & R). eexists. eexists. exists p. cbv zeta. split; [exact P|]. split; [exact R|]. split; reflexivity.
Qed.
Print Assumptions C41_parts_partial.

(** the calls accumulate, in every document with a plain integer version *)
Theorem C41_refuted : forall n s v text z k, ordinary s -> version_term s v -> (forall p, In p parts -> no_child s v p) -> int_of (t_val (tget v s)) = Ok z -> step_of text = Ok k ->
  int_of (t_val (tget v (calls n (MvStr (String "+" text)) s))) = Ok (z + Z.of_nat n * k)%Z.
Proof. exact c41_accumulates. Qed.
Print Assumptions C41_refuted.

Definition h1 : st := fst (Ops.new_term 0 "Root.Version" (VStr "7") [] e5).
Definition h2 : st := fst (Ops.new_term 0 "Root.Dataset" (VStr "data") [] h1).
Lemma h2_ordinary : ordinary h2.
Proof.
  constructor; [|exists 0; vm_compute; reflexivity| |vm_compute; reflexivity|vm_compute; reflexivity| |].
  - eapply order_edits; [|exact example_order]. eapply edits_more; [eapply edits_more; [apply edits_none|]|].
    + eapply (ed_new_term e5 h1 "root" 0 "Root.Version"); [vm_compute; auto|intros []|top|apply surjective_pairing].
    + eapply (ed_new_term h1 h2 "root" 0 "Root.Dataset"); [vm_compute; auto|intros []|top|apply surjective_pairing].
  - intros item I. cbn in I. repeat (destruct I as [<-|I]; [vm_compute; reflexivity|]). destruct I.
  - intros n I. cbn in I. destruct I as [<-|[<-|[<-|[]]]]; vm_compute; reflexivity.
  - intros v V. unfold version_term in V. vm_compute in V. injection V as <-. vm_compute. reflexivity.
Qed.
Example C41_ex : ordinary h2 /\ version_term h2 8 /\ settled h2 (VStr "7") /\ as_version MvKeep h2 = (h2, Ok "data-7") /\ as_version MvNone h2 = (h2, Ok "data")
  /\ (let (s', r) := as_version (MvStr "+2") h2 in r = Ok "data-9" /\ snd (as_version (MvStr "+2") s') = Ok "data-11" /\ snd (as_version (MvStr "-") s') = Ok "data-8" /\ snd (as_version (MvStr "3b") s') = Ok "data-3b")
  /\ t_val (tget 8 (calls 5 (MvStr "+2") h2)) = VStr "17".
Proof.
  split; [exact h2_ordinary|]. split; [vm_compute; reflexivity|]. split; [|repeat (split; [vm_compute; repeat split; reflexivity|]); vm_compute; reflexivity].
  change (VStr "7") with (t_val (tget 8 h2)). apply settled_plain; [vm_compute; reflexivity|]. intros n _ x X. vm_compute in X. destruct X.
Qed.
Example C41_ex_parts : let s := fst (update_version g6) in snd (as_version (MvStr "+1") s) = Ok "example.com-my_data-0.2.2.77" /\ doc_find_first s "Version.Patch" VFalse (SOne "Root") = Ok (Some 15)
  /\ new_mv (t_val (tget 15 s)) (MvStr "+1") = Ok (VStr "2").
Proof. repeat (split; [vm_compute; reflexivity|]). vm_compute; reflexivity. Qed.
