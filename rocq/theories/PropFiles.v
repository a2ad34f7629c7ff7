(** * PropFiles: making directories, walking up and copying (C62 - C64) *)

From Verif Require Import Files SpecFiles FilesFacts.

(** ** C62: the build directories *)

(** With no file in the way, the three directories and those above them are
    there afterwards, and nothing else has changed. *)
Theorem C62_made : forall base fs, (forall p, In p (build_dirs base) -> ~ in_the_way fs p) ->
  exists fs', make_dir_structure base fs = (fs', Ok tt) /\ with_dirs (build_dirs base) fs fs'.
Proof. exact structure_ok. Qed.
Print Assumptions C62_made.

(** With a file in the way of one of them an OSError is raised; no file is
    touched and only directories above some of the three are made. *)
Theorem C62_in_the_way : forall base fs p, In p (build_dirs base) -> in_the_way fs p ->
  exists fs' k, make_dir_structure base fs = (fs', Err EOS) /\ with_dirs (firstn k (build_dirs base)) fs fs'.
Proof. exact structure_fails. Qed.
Print Assumptions C62_in_the_way.

(** Where they are there already nothing is done. *)
Theorem C62_again : forall base fs, (forall p, In p (build_dirs base) -> is_dir fs p) -> make_dir_structure base fs = (fs, Ok tt).
Proof. exact structure_again. Qed.
Print Assumptions C62_again.

(** ensure_dir makes a directory and those above it. *)
Theorem C62_ensure : forall p fs, ~ in_the_way fs p -> exists fs', ensure_dir p fs = (fs', Ok tt) /\ with_dirs [p] fs fs'.
Proof. exact ensure_ok. Qed.
Print Assumptions C62_ensure.

Theorem C62_ensure_in_the_way : forall p fs, missing fs p -> in_the_way fs p -> ensure_dir p fs = (fs, Err EOS).
Proof. exact ensure_fails. Qed.
Print Assumptions C62_ensure_in_the_way.

(** "After ensure_dir returns there is a directory" is false: a file of that
    name is left as it is and no error is raised. *)
Theorem C62_ensure_refuted : forall p fs c, is_file fs p c -> ensure_dir p fs = (fs, Ok tt).
Proof. exact ensure_file. Qed.
Print Assumptions C62_ensure_refuted.

Definition disk : node :=
  Dir [("home", Dir [("a", Dir [("_metapack", Dir [("old", Dir [("x.csv", File "x")])]); ("metadata.csv", File "Declare,x")]);
                     ("b", Dir [("_metapack", Dir [("package", File "oops")])])]);
       ("tmp", Dir [])].
Example C62_ex : (forall p, In p (build_dirs ["home"; "a"]) -> ~ in_the_way disk p)
  /\ snd (make_dir_structure ["home"; "a"] disk) = Ok tt
  /\ lookup (fst (make_dir_structure ["home"; "a"] disk)) ["home"; "a"; "_metapack"]
     = Some (Dir [("old", Dir [("x.csv", File "x")]); ("download", Dir []); ("package", Dir [])]).
Proof.
  split; [|split; reflexivity]. intros p I (q & c & A & F). apply kind_file in F. destruct A as [r A].
  assert (B : forall k, kind disk (firstn k p) <> Some (Some c)).
  { intros k. repeat (destruct I as [<-|I]; [do 5 (destruct k as [|k]; [discriminate|]); discriminate|]). destruct I. }
  apply (B (List.length q)). rewrite A, firstn_app, firstn_all, Nat.sub_diag, firstn_O, app_nil_r. exact F.
Qed.
Example C62_ex_way : In ["home"; "b"; "_metapack"; "package"] (build_dirs ["home"; "b"]) /\ in_the_way disk ["home"; "b"; "_metapack"; "package"]
  /\ snd (make_dir_structure ["home"; "b"] disk) = Err EOS
  /\ lookup (fst (make_dir_structure ["home"; "b"] disk)) ["home"; "b"; "_metapack"] = Some (Dir [("package", File "oops"); ("download", Dir [])]).
Proof.
  split; [right; left; reflexivity|]. split; [|split; reflexivity]. exists ["home"; "b"; "_metapack"; "package"], "oops". split; [exists []; reflexivity|]. apply kind_file. reflexivity.
Qed.

(** ** C63: walking up *)

(** From a directory, walk_up yields it and every directory above it up to the
    root, each with its entries. *)
Theorem C63_up : forall fs p, is_dir fs p -> exists l, walk_up fs p = (l, None) /\ upward fs p l.
Proof. exact walk_up_ok. Qed.
Print Assumptions C63_up.

Theorem C63_not_a_directory : forall fs p, ~ is_dir fs p -> walk_up fs p = ([], Some EOS).
Proof. exact walk_up_fails. Qed.
Print Assumptions C63_not_a_directory.

Example C63_ex : is_dir disk ["home"; "a"]
  /\ walk_up disk ["home"; "a"] = ([(["home"; "a"], ["_metapack"], ["metadata.csv"]); (["home"], ["a"; "b"], []); ([], ["home"; "tmp"], [])], None).
Proof. split; [apply kind_dir|]; reflexivity. Qed.

(** ** C64: copying a tree *)

(** Everything in the directory [src] is in [dst] afterwards, and what is
    elsewhere is unchanged, if [dst] is a directory outside [src] and no name
    clashes with a directory. *)
Theorem C64_copied_partial : forall fs src dst, ~ above src dst -> is_dir fs src -> is_dir fs dst -> tidy fs src -> no_clash fs src dst ->
  exists fs', copytree src dst fs = (fs', Ok tt)
    /\ (forall n, ~ missing fs (src ++ [n]) -> same_below fs (src ++ [n]) fs' (dst ++ [n]))
    /\ forall q, (forall n, ~ missing fs (src ++ [n]) -> ~ above (dst ++ [n]) q) -> (forall c, is_file fs' q c <-> is_file fs q c) /\ (is_dir fs' q <-> is_dir fs q).
Proof. exact copytree_ok. Qed.
Print Assumptions C64_copied_partial.

(** "Copying into a directory merges the two": a directory of [src] whose name
    is there in [dst] always makes it fail. *)
Theorem C64_merge_refuted : forall fs src dst n, is_dir fs (src ++ [n]) -> ~ missing fs (dst ++ [n]) -> exists fs', copytree src dst fs = (fs', Err EOS).
Proof. exact copytree_clash. Qed.
Print Assumptions C64_merge_refuted.

(** "A file is copied under its name": over a directory of that name it goes
    into it. *)
Theorem C64_into_refuted : exists fs src dst fs', copytree src dst fs = (fs', Ok tt) /\ is_file fs (src ++ ["x"]) "1" /\ ~ is_file fs' (dst ++ ["x"]) "1" /\ is_file fs' (dst ++ ["x"; "x"]) "1".
Proof.
  exists (Dir [("s", Dir [("x", File "1")]); ("d", Dir [("x", Dir [])])]), ["s"], ["d"]. eexists. split; [reflexivity|].
  rewrite <- !kind_file. split; [reflexivity|]. split; [discriminate|reflexivity].
Qed.
Print Assumptions C64_into_refuted.

(** A directory with anything in it cannot be copied onto itself; nothing is
    changed. *)
Theorem C64_self : forall fs src n, ~ missing fs (src ++ [n]) -> copytree src src fs = (fs, Err EOS).
Proof. exact copytree_self. Qed.
Print Assumptions C64_self.

Example C64_ex_self : ~ missing disk (["home"; "a"] ++ ["metadata.csv"]) /\ snd (copytree ["home"; "a"] ["home"; "a"] disk) = Err EOS.
Proof. split; [|reflexivity]. intros M. apply kind_missing in M. discriminate M. Qed.

Example C64_ex : let src := ["home"; "a"] in let dst := ["tmp"] in
  ~ above src dst /\ is_dir disk src /\ is_dir disk dst /\ tidy disk src /\ no_clash disk src dst
  /\ lookup (fst (copytree src dst disk)) ["tmp"] = lookup disk ["home"; "a"].
Proof.
  cbv zeta. split; [intros [r E]; discriminate E|]. split; [apply kind_dir; reflexivity|]. split; [apply kind_dir; reflexivity|]. split.
  - intros es L. apply lookup_leads in L. injection L as <-. cbn. repeat constructor; cbn; intuition discriminate.
  - split; [|reflexivity]. intros n. split; [intros _; apply kind_missing; reflexivity|]. intros c _ D. apply kind_dir in D. discriminate D.
Qed.
Example C64_ex_merge : is_dir disk (["home"; "a"] ++ ["_metapack"]) /\ ~ missing disk (["home"; "b"] ++ ["_metapack"]).
Proof. split; [apply kind_dir; reflexivity|]. intros M. apply kind_missing in M. discriminate M. Qed.
