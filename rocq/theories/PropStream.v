(** * PropStream: the listing of the terms of a file (C88) *)

From Verif Require Import Parser Cli SpecNames SpecFiles ParseProps PropParse PropRound TermStream SpecStream StreamLoadFacts SpecDoc.

(** ** C88: metatab -T terms *)

(** The file [p] was read into the document [s]; its parser is read a second
    time.  Exactly the lines of the second view are printed: the root, and in the
    order of the file a line for each section heading, term and cell, with file
    name, place, section, name and value.  Nothing fails. *)
Theorem C88_stream : forall g rows ls s p, proper g -> plain_classes g -> NoDup (dkeys (in_super g)) -> means rows ls -> Forall sound ls ->
  (forall pre l post, ls = (pre ++ l :: post)%list -> placed pre l) -> loads g rows s ->
  terms_output (fun i => file_name (if i =? 0 then "" else p)) (in_env g) (in_fuel g) (mk_source (in_ref g) (in_dir g) rows) s
  = (printed (file_name p) (cols_of g) rows ls, None).
Proof. exact c88_stream. Qed.
Print Assumptions C88_stream.

(** They are the lines the file says, if every row with extra cells comes after
    a row that says what the columns are.  Missing: rows with extra cells before
    any such row; see [C88_columns_refuted]. *)
Theorem C88_same_partial : forall f decl rows ls, columns_first ls -> printed f decl rows ls = expected f decl rows ls.
Proof. exact c88_same. Qed.
Print Assumptions C88_same_partial.

(** The command prints the lines it is given and touches no file. *)
Theorem C88_command : forall rd a u s c l, a_type a = "terms" -> r_terms rd s = (l, None) ->
  exists c', show_doc rd a u s c = (c', Ok tt) /\ c_out c' = (c_out c ++ l)%list /\ c_fs c' = c_fs c.
Proof. exact c88_command. Qed.
Print Assumptions C88_command.

(** A name with two dots ends the listing: what came before it is printed, and
    the command raises the ValueError. *)
Theorem C88_bad_name : forall nm e f ref dir row rows s, ~ blank_row row -> 2 <= dots (hd "" row) ->
  terms_output nm e (S f) (mk_source ref dir (row :: rows)) s
  = ([term_str (s_heap s) (nm (d_root (s_doc s))) (tget (d_root (s_doc s)) s)], Some EValue).
Proof. exact c88_bad_name. Qed.
Print Assumptions C88_bad_name.

Theorem C88_failed : forall rd a u s c l x, a_type a = "terms" -> r_terms rd s = (l, Some x) ->
  exists c', show_doc rd a u s c = (c', Err x) /\ c_out c' = (c_out c ++ l)%list /\ c_fs c' = c_fs c.
Proof. exact c88_failed. Qed.
Print Assumptions C88_failed.

Example C88_bad_name_ex : terms_output (fun _ => "f") (in_env here) 1 (mk_source None "" [["Title"; "T"]; ["A.B.C"; "x"]]) (init_st default_classes)
  = (["f 0:0 None:root.root=Root"; "f 1:1 Root:root.title=T"], Some EValue).
Proof. vm_compute. reflexivity. Qed.

(** The columns left over from the end of the first reading name the cells at
    the start of the second: the cell "x" has no column, and the document calls
    it "0"; the listing calls it "name". *)
Theorem C88_columns_refuted : exists g rows ls s p, proper g /\ plain_classes g /\ NoDup (dkeys (in_super g)) /\ means rows ls /\ Forall sound ls
  /\ (forall pre l post, ls = (pre ++ l :: post)%list -> placed pre l) /\ loads g rows s
  /\ In "my-file.csv 1:2 Root:title.0=x" (expected (file_name p) (cols_of g) rows ls)
  /\ fst (terms_output (fun i => file_name (if i =? 0 then "" else p)) (in_env g) (in_fuel g) (mk_source (in_ref g) (in_dir g) rows) s)
     = ["<none> 0:0 None:root.root=Root"; "my-file.csv 1:1 Root:root.title=T"; "my-file.csv 1:2 Root:title.name=x"; "my-file.csv 2:2 None:root.section=People"].
Proof.
  set (rows := [["Title"; "T"; "x"]; ["Section"; "People"; "Name"; "Email"]]).
  exists here, rows, [LTerm "root" "title" "T" ["x"]; LSection "People" ["Name"; "Email"]], (fst (load_into here rows)), "/a/My File.csv".
  split; [exact here_proper|]. split; [exact here_plain|]. split; [constructor|]. split; [apply means_by; vm_compute; reflexivity|].
  split; [repeat constructor; try discriminate; intros [E _]; discriminate E|].
  split; [intros [|l1 [|l2 [|l3 pre]]] l post E; cbn [app] in E; try discriminate E; injection E; intros; subst; cbn [placed]; auto|].
  split; [vm_compute; reflexivity|]. split; [vm_compute; auto|]. vm_compute. reflexivity.
Qed.
Print Assumptions C88_columns_refuted.

(** a file with a section named twice, a header, rows of their own below other
    rows and cells without a column *)
Definition rows88 : list (list string) :=
  [["Title"; "T"]; ["Section"; "People"; "Name"; "Email"]; ["Person"; "Ann"; "x"; "y"]; [".Note"; ""; " hi "]; ["section"; "root"];
   ["A"; "  "; "q"]; ["Section"; "people"]; ["Header"; "V"; "W"]; ["Person.Age"; "4"; "z"]].
Definition lines88 : list line :=
  [LTerm "root" "title" "T" []; LSection "People" ["Name"; "Email"]; LTerm "root" "person" "Ann" ["x"; "y"]; LTerm current_parent "note" "" ["hi"];
   LSection "root" []; LTerm "root" "a" "" ["q"]; LSection "people" []; LHeader "V" ["W"]; LTerm "person" "age" "4" ["z"]].
Definition printed88 : list string :=
  ["<none> 0:0 None:root.root=Root"; "my-file.csv 1:1 Root:root.title=T"; "my-file.csv 2:2 None:root.section=People";
   "my-file.csv 3:1 People:root.person=Ann"; "my-file.csv 3:2 People:person.name=x"; "my-file.csv 3:3 People:person.email=y";
   "my-file.csv 4:1 People:person.note=None"; "my-file.csv 4:2 People:note.name=hi"; "<none> 0:0 None:root.root=Root";
   "my-file.csv 6:1 Root:root.a="; "my-file.csv 6:2 Root:a.name=q"; "my-file.csv 2:2 None:root.section=People";
   "my-file.csv 9:1 People:person.age=4"; "my-file.csv 9:2 People:age.w=z"].
Example C88_ex : proper here /\ plain_classes here /\ NoDup (dkeys (in_super here)) /\ means rows88 lines88 /\ Forall sound lines88
  /\ (forall pre l post, lines88 = (pre ++ l :: post)%list -> placed pre l) /\ columns_first lines88
  /\ (exists s, loads here rows88 s) /\ printed (file_name "/a/My File.csv") (cols_of here) rows88 lines88 = printed88.
Proof.
  split; [exact here_proper|]. split; [exact here_plain|]. split; [constructor|]. split; [apply means_by; vm_compute; reflexivity|].
  split; [repeat constructor; try discriminate; intros [E _]; discriminate E|].
  split.
  { intros [|l1 [|l2 [|l3 [|l4 [|l5 [|l6 [|l7 [|l8 [|l9 pre]]]]]]]]] l post E; cbn [app] in E; try (destruct pre; discriminate E); injection E; intros; subst; cbn [placed]; auto.
    right. right. right. exists 3.
    exists (firstn 2 lines88), (LTerm "root" "person" "Ann" ["x"; "y"]), (firstn 5 (skipn 3 lines88)). split; [reflexivity|]. split; [reflexivity|].
    split; [do 3 eexists; split; [reflexivity|discriminate]|]. cbn [firstn skipn lines88]. repeat apply Forall_cons; try apply Forall_nil; intros (q & y & c & E3 & N); discriminate E3. }
  split.
  { intros [|l1 [|l2 pre]] p r x cells post E.
    - injection E; intros; subst. left. constructor.
    - discriminate E.
    - right. injection E; intros; subst. right. left. cbn. discriminate. }
  split; [eexists; vm_compute; reflexivity|]. vm_compute. reflexivity.
Qed.
