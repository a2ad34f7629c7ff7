(** * PropRound: writing a document as rows and parsing them (C35)

    [shows_doc s o]: the document [s] consists of the sections [o]: their names,
    columns and trees of terms with names and values (SpecRound.v).
    [writable_doc]: its names can be written in cells; the text says exactly when.
    [written rows texts]: the cells of [rows] as texts, None as an empty cell. *)

From Verif Require Import SpecNames Parser SpecDoc SpecInv SpecRound StrFacts NameFacts TotalFacts Render Csv PropParse PrintFacts RoundFacts.

(** Parsing the rows of a document that can be written gives a document with the
    same sections, columns, terms, values and children; the childless children that
    have a column come first, in the order of the columns, then the other childless
    ones, then the rest ([arrange]). *)
Theorem C35_document : forall g s o rows, proper g -> plain_classes g -> in_fuel g <> 0 ->
  shows_doc s o -> writable_doc (d_decl_terms (s_doc s)) (declared_columns (in_secs g)) o -> doc_rows s = Ok rows ->
  exists texts s', written rows texts /\ loads g texts s' /\ shows_doc s' (map arrange_sect o).
Proof. exact c35_document. Qed.
Print Assumptions C35_document.

(** The rows of the document read are the rows it was read from, if both documents
    use the same names for values; so writing and reading once more changes
    nothing. *)
Theorem C35_again : forall g s o rows texts s', proper g -> plain_classes g -> in_fuel g <> 0 ->
  shows_doc s o -> writable_doc (d_decl_terms (s_doc s)) (declared_columns (in_secs g)) o -> doc_rows s = Ok rows ->
  (forall q, value_name_in (dupdate (in_terms g) installed_terms) q = value_name_in (d_decl_terms (s_doc s)) q) ->
  written rows texts -> loads g texts s' -> exists rows', doc_rows s' = Ok rows' /\ written rows' texts.
Proof. exact c35_again. Qed.
Print Assumptions C35_again.

(** The same through the text as_csv makes. *)
Theorem C35_csv : forall g s o text, proper g -> plain_classes g -> in_fuel g <> 0 ->
  shows_doc s o -> writable_doc (d_decl_terms (s_doc s)) (declared_columns (in_secs g)) o -> doc_as_csv s = Ok text ->
  exists s', loads g (csv_read text) s' /\ shows_doc s' (map arrange_sect o)
    /\ ((forall q, value_name_in (dupdate (in_terms g) installed_terms) q = value_name_in (d_decl_terms (s_doc s)) q) -> doc_as_csv s' = Ok text).
Proof. exact c35_csv. Qed.
Print Assumptions C35_csv.

(** ** An example *)

Lemma here_plain : plain_classes here.
Proof.
  intros name H. unfold class_for in H. cbn [in_reg in_super here default_classes dget] in H. destruct (eqs (lower name) "root.section") eqn:E1; [left; apply eqs_true; exact E1|].
  destruct (eqs (lower name) "root.root") eqn:E2; [right; apply eqs_true; exact E2|]. discriminate H.
Qed.

Definition rows35 : list (list string) :=
  [["Title"; "T"]; ["Title.Sub"; "s"]; ["Section"; "Contacts"; "Email"; "Phone"]; ["Person"; "Ann"; ""; "123"]; ["Person.Note"; "n"];
   ["Person.Email"; "a@x"]; ["Person.Address"; ""]; ["Address.City"; "B"]].
Definition doc35 : st := Eval vm_compute in fst (load_into here rows35).
Definition o35 : list sect :=
  [mk_sect "Root" [] [Tree "title" "T" [Tree "sub" "s" []]];
   mk_sect "Contacts" ["Email"; "Phone"]
     [Tree "person" "Ann" [Tree "phone" "123" []; Tree "note" "n" []; Tree "email" "a@x" []; Tree "address" "" [Tree "city" "B" []]]]].

Ltac sh := eapply shows_term; [reflexivity|first [apply text_str|apply text_none]|reflexivity|reflexivity|reflexivity|cbn; repeat constructor].
Ltac tdy := apply tidy_iff; split; reflexivity.
Ltac nod := repeat (constructor; [cbn; intuition discriminate|]); constructor.
Ltac wr := constructor; [apply cell_nameb_ok; vm_compute; reflexivity|cbn; intuition discriminate|tdy|discriminate|cbn; intuition discriminate|cbn; nod
  |cbn; intros k I; repeat (destruct I as [<-|I]; [cbn; intros; discriminate|]); destruct I|intros [X _]; discriminate X|].

Example C35_ex : proper here /\ plain_classes here /\ shows_doc doc35 o35 /\ writable_doc (d_decl_terms (s_doc doc35)) (declared_columns (in_secs here)) o35
  /\ (forall q, value_name_in (dupdate (in_terms here) installed_terms) q = value_name_in (d_decl_terms (s_doc doc35)) q)
  /\ doc_rows doc35 = Ok [[VStr "Title"; VStr "T"]; [VStr "Title.Sub"; VStr "s"]; [VStr ""]; [VStr "Section"; VStr "Contacts"; VStr "Email"; VStr "Phone"];
       [VStr "Person"; VStr "Ann"; VStr "a@x"; VStr "123"]; [VStr "Person.Note"; VStr "n"]; [VStr "Person.Address"; VNone; VStr ""; VStr ""]; [VStr "Address.City"; VStr "B"]]
  /\ map arrange_sect o35 <> o35.
Proof.
  split; [exact here_proper|]. split; [exact here_plain|]. split.
  { repeat constructor; sh; try sh. repeat constructor; sh. }
  split.
  { constructor.
    - constructor; [|constructor]. split; [|cbn; intuition discriminate]. wr. constructor; [wr; constructor|constructor].
    - constructor; [|constructor]. split; cbn [sc_name sc_cols sc_terms].
      + split; [tdy|discriminate].
      + constructor; [tdy|constructor; [tdy|constructor]].
      + cbn. intuition discriminate.
      + discriminate.
      + constructor; [|constructor]. split; [|cbn; intuition discriminate].
        wr. constructor; [wr; constructor|]. constructor; [wr; constructor|]. constructor; [wr; constructor|]. constructor; [|constructor]. wr. constructor; [wr; constructor|constructor].
    - cbn. nod. }
  split; [reflexivity|]. split; [vm_compute; reflexivity|discriminate].
Qed.

(** ** What is lost otherwise *)

(** names, values and names of the children of the terms of the document *)
Definition told (s : st) : list (string * val * list string) :=
  map (fun i => (t_rt (tget i s), t_val (tget i s), map (fun c => t_rt (tget c s)) (t_children (tget i s)))) (d_terms (s_doc s)).

(** a child without a value, for which there is a column, is lost *)
Theorem C35_empty_refuted : exists r s rows texts s', loads here r s /\ doc_rows s = Ok rows /\ written rows texts /\ loads here texts s'
  /\ told s = [("person", VStr "Ann", ["email"])] /\ told s' = [("person", VStr "Ann", [])].
Proof.
  exists [["Section"; "Contacts"; "Email"]; ["Person"; "Ann"]; ["Person.Email"; ""]].
  eexists _, _, [[""]; ["Section"; "Contacts"; "Email"]; ["Person"; "Ann"; ""]], _.
  split; [vm_compute; reflexivity|]. split; [vm_compute; reflexivity|]. split; [repeat constructor|]. split; [vm_compute; reflexivity|]. split; vm_compute; reflexivity.
Qed.
Print Assumptions C35_empty_refuted.

(** a name ending in "root" is cut off: its children become terms of their own *)
Theorem C35_root_refuted : exists r s rows texts s', loads here r s /\ doc_rows s = Ok rows /\ written rows texts /\ loads here texts s'
  /\ told s = [("taproot", VStr "x", ["leaf"])] /\ told s' = [("taproot", VStr "x", []); ("tapleaf", VStr "y", [])].
Proof.
  exists [["Taproot"; "x"]; ["Taproot.Leaf"; "y"]]. eexists _, _, [["Taproot"; "x"]; ["Tapleaf"; "y"]], _.
  split; [vm_compute; reflexivity|]. split; [vm_compute; reflexivity|]. split; [repeat constructor|]. split; [vm_compute; reflexivity|]. split; vm_compute; reflexivity.
Qed.
Print Assumptions C35_root_refuted.

(** of two children with the same name and no children of their own, one is lost *)
Theorem C35_twice_refuted : exists r s rows texts s', loads here r s /\ doc_rows s = Ok rows /\ written rows texts /\ loads here texts s'
  /\ told s = [("person", VStr "Ann", ["note"; "note"])] /\ told s' = [("person", VStr "Ann", ["note"])].
Proof.
  exists [["Person"; "Ann"]; ["Person.Note"; "a"]; ["Person.Note"; "b"]]. eexists _, _, [["Person"; "Ann"]; ["Person.Note"; "b"]], _.
  split; [vm_compute; reflexivity|]. split; [vm_compute; reflexivity|]. split; [repeat constructor|]. split; [vm_compute; reflexivity|]. split; vm_compute; reflexivity.
Qed.
Print Assumptions C35_twice_refuted.
