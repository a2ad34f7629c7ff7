(** * C82: extra cells and rows of their own say the same; C83: a document written as lines is read back *)

From Verif Require Import TextRows Csv Parser Render SpecNames PyBase SpecText SpecInv SpecParse State SpecEdit SpecDoc SpecRound SpecFind SpecDict SpecHead SpecOrderly SpecKeep SpecOutline SpecAnswer SpecSpread
  StrFacts StepFacts ParseFacts RowFacts ParseProps SpreadFacts RelineFacts PropParse PropRound PropAnswer.

(** ** C82 *)

(** the outline of a file is the same when the extra cells of rows are written as
    rows ".name" below them, and when blank rows come and go *)
Theorem C82_outline : forall w ls ls', spread (w_cols w) first_view ls ls' -> Forall usual ls -> outline w ls = outline w ls'.
Proof. exact c82_outline. Qed.
Print Assumptions C82_outline.

(** so the documents of two such files show the same outlines *)
Theorem C82_same : forall g rows rows' ls ls' s s', proper g -> means rows ls -> means rows' ls' -> spread (cols_of g) first_view ls ls' ->
  loads g rows s -> loads g rows' s' -> forall o, shows_doc s o <-> shows_doc s' o.
Proof. exact c82_same. Qed.
Print Assumptions C82_same.

(** and the second can be read when each row of the first has a parent *)
Theorem C82_read : forall g rows' ls ls', proper g -> plain_classes g -> in_fuel g <> 0 -> spread (cols_of g) first_view ls ls' -> Forall usual ls ->
  (forall pre l post, ls = (pre ++ l :: post)%list -> placed pre l) -> means rows' ls' -> Forall sound ls' ->
  exists s', loads g rows' s' /\ shows_doc s' (outline (world_of g) ls).
Proof. exact c82_read. Qed.
Print Assumptions C82_read.

Definition rows82 : list (list string) :=
  [["Title"; "T"]; ["Section"; "Contacts"; "Email"; "Phone"]; ["Person"; "Ann"; "a@x"; "123"]; ["Person.Note"; "n"; "b@x"]; []].
Definition rows82' : list (list string) :=
  [["Title"; "T"]; []; ["Section"; "Contacts"; "Email"; "Phone"]; ["Person"; "Ann"]; [".Email"; "a@x"]; [".Phone"; "123"]; ["Person.Note"; "n"; "b@x"]].
Definition lines82 : list line := Eval vm_compute in match read_rows rows82 with Some ls => ls | None => [] end.
Definition lines82' : list line := Eval vm_compute in match read_rows rows82' with Some ls => ls | None => [] end.
Definition doc82 : st := Eval vm_compute in fst (load_into here rows82).
Definition doc82' : st := Eval vm_compute in fst (load_into here rows82').

Example C82_ex : proper here /\ means rows82 lines82 /\ means rows82' lines82' /\ spread (cols_of here) first_view lines82 lines82'
  /\ loads here rows82 doc82 /\ loads here rows82' doc82'
  /\ outline (world_of here) lines82' =
       [mk_sect "Root" [] [Tree "title" "T" []];
        mk_sect "Contacts" ["Email"; "Phone"] [Tree "person" "Ann" [Tree "email" "a@x" []; Tree "phone" "123" []; Tree "note" "n" [Tree "email" "b@x" []]]]].
Proof.
  split; [exact here_proper|]. split; [apply means_by; vm_compute; reflexivity|]. split; [apply means_by; vm_compute; reflexivity|]. split.
  - unfold lines82, lines82'. apply spread_same. apply spread_in. apply spread_same.
    match goal with |- spread ?d ?v (LTerm ?p ?r ?x ?cells :: ?ls) ?l => change l with (LTerm p r x [] :: map alone (cells_from (v_cols v) 0 cells) ++ skipn 3 l)%list end.
    apply spread_cells; [discriminate|]. cbn [skipn]. apply spread_same. apply spread_out. apply spread_end.
  - split; [vm_compute; reflexivity|]. split; vm_compute; reflexivity.
Qed.

(** a row ".c" at the top of a section is a term of the section; rows ".name" after
    it would be too, and not below it *)
Definition ls82 (split : bool) : list line :=
  LSection "S" ["Email"] :: if split then [LTerm current_parent "c" "x" []; alone ("email", "e")] else [LTerm current_parent "c" "x" ["e"]].
Example C82_top : outline (world_of here) (ls82 false) <> outline (world_of here) (ls82 true).
Proof. vm_compute. discriminate. Qed.

(** ** C83 *)

(** a document whose outline can be written, with names and values that fit on
    lines, is read back from its lines with the same outline (terms in the order of
    the columns), and gives the same lines again *)
Theorem C83_lines : forall g s o text, proper g -> plain_classes g -> in_fuel g <> 0 ->
  shows_doc s o -> writable_doc (d_decl_terms (s_doc s)) (declared_columns (in_secs g)) o -> Forall line_sect o -> doc_as_lines s = Ok text ->
  exists s', loads g (text_rows text) s' /\ shows_doc s' (map arrange_sect o)
    /\ ((forall q, value_name_in (dupdate (in_terms g) installed_terms) q = value_name_in (d_decl_terms (s_doc s)) q) -> doc_as_lines s' = Ok text).
Proof. exact c83_again. Qed.
Print Assumptions C83_lines.

(** the document of a file has lines *)
Theorem C83_file : forall g rows ls s, proper g -> plain_classes g -> means rows ls -> Forall (fun l => ~ own_parent l) ls -> loads g rows s ->
  writable_doc (dupdate (in_terms g) installed_terms) (declared_columns (in_secs g)) (outline (world_of g) ls) -> Forall line_sect (outline (world_of g) ls) ->
  exists text s', doc_as_lines s = Ok text /\ loads g (text_rows text) s' /\ shows_doc s' (map arrange_sect (outline (world_of g) ls)) /\ doc_as_lines s' = Ok text.
Proof. exact c83_file. Qed.
Print Assumptions C83_file.

Example C83_ex : proper here /\ plain_classes here /\ shows_doc doc35 o35 /\ writable_doc (d_decl_terms (s_doc doc35)) (declared_columns (in_secs here)) o35 /\ Forall line_sect o35
  /\ exists text, doc_as_lines doc35 = Ok text /\ text_rows text =
     [["Title"; "T"]; ["Title.Sub"; "s"]; [""]; ["Section"; "Contacts"; "Email"; "Phone"]; ["Person"; "Ann"]; [".Email"; "a@x"]; [".Phone"; "123"]; ["Person.Note"; "n"];
      ["Person.Address"; ""]; ["Address.City"; "B"]].
Proof.
  destruct C35_ex as (A & B & C & D & _). repeat (split; [assumption|]). split; [apply line_sectb_ok; vm_compute; reflexivity|]. eexists. split; [vm_compute; reflexivity|]. vm_compute. reflexivity.
Qed.

(** without the condition on values it fails: a pipe in the value of a term with a
    column gives it a child (as_lines does not escape pipes) *)
Definition shows83 (rows : list (list string)) : option (list sect) := option_map (outline (world_of here)) (read_rows rows).
Example C83_pipe : exists s text, loads here [["Section"; "S"; "Email"]; ["Person"; "Ann|Lee"]] s /\ doc_as_lines s = Ok text
  /\ shows83 (text_rows text) = Some [mk_sect "Root" [] []; mk_sect "S" ["Email"] [Tree "person" "Ann" [Tree "email" "Lee" []]]].
Proof. eexists. eexists. split; [vm_compute; reflexivity|]. split; vm_compute; reflexivity. Qed.
