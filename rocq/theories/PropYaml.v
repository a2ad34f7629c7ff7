(** * PropYaml: the document of a YAML file (C71)

    The YAML file is a dict; its entries are read as nodes (SpecTree.as_nodes,
    C48).  The declarations leave the document [s1]; each node of the top level
    becomes a term in the section declared for it, its nodes the children. *)

From Verif Require Import NameFacts Ops SpecInv SpecEdit SpecFind SpecNames SpecParse Parser SpecKeep StrFacts StepFacts KeepFacts SpecTree SpecStray Yaml SpecYaml YamlDocFacts.

(** missing: nodes without a value of their own, such as nested dicts, and nodes
    with a node of the same qualified name below them *)
Theorem C71_document_partial : forall (Q : Quirks) e fuel items decl s0 s1 ns,
  yaml_declare items = Ok decl -> load_declarations e fuel decl s0 = (s1, Ok tt) -> in_order s1 ->
  (forall n, In n yaml_six -> ~ odd n /\ exists sd, dget n (d_decl_sections (s_doc s1)) = Some sd) ->
  as_nodes (value_name (d_decl_terms (s_doc s1))) [] items ns -> Forall (usual_node []) ns ->
  (forall n m, In n ns -> In m (names_in [] n) -> is_section_cls (doc_term_class m s1) = false) ->
  exists s ids, yaml_doc e fuel (JDict items) s0 = (s, Ok tt) /\ in_order s /\ yaml_made s1 s ns ids.
Proof. exact @yaml_document. Qed.
Print Assumptions C71_document_partial.

(** every term, except those the declarations lost, is in one section *)
Theorem C71_agree_partial : forall (Q : Quirks) e fuel items decl s0 s1 ns,
  yaml_declare items = Ok decl -> load_declarations e fuel decl s0 = (s1, Ok tt) -> in_order s1 ->
  (forall n, In n yaml_six -> ~ odd n /\ exists sd, dget n (d_decl_sections (s_doc s1)) = Some sd) ->
  as_nodes (value_name (d_decl_terms (s_doc s1))) [] items ns -> Forall (usual_node []) ns ->
  (forall n m, In n ns -> In m (names_in [] n) -> is_section_cls (doc_term_class m s1) = false) ->
  forall s r, yaml_doc e fuel (JDict items) s0 = (s, r) -> lists_agree s.
Proof. exact @yaml_agree. Qed.
Print Assumptions C71_agree_partial.

(** without a declaration of all six sections there is no document *)
Theorem C71_undeclared : forall (Q : Quirks) e fuel items decl s0 s1,
  yaml_declare items = Ok decl -> load_declarations e fuel decl s0 = (s1, Ok tt) -> in_order s1 ->
  (forall n, In n yaml_six -> ~ odd n) -> (exists n, In n yaml_six /\ dget n (d_decl_sections (s_doc s1)) = None) ->
  exists s, yaml_doc e fuel (JDict items) s0 = (s, Err EKey).
Proof. exact @yaml_undeclared. Qed.
Print Assumptions C71_undeclared.

(** the declarations are those of the entry "declare"; an exception they raise
    is that of the source *)
Theorem C71_declare : forall e fuel items d s0, asks_for items d -> yaml_declare items = Ok d
  /\ forall s1 x, load_declarations e fuel d s0 = (s1, Err x) -> yaml_doc e fuel (JDict items) s0 = (s1, Err x).
Proof. exact yaml_asks. Qed.
Print Assumptions C71_declare.

(** a list with an item that is not a dict, whatever the declarations, leaves no
    document *)
Theorem C71_stray : forall e fuel items s0 s, (forall decl, stray decl items) -> yaml_doc e fuel (JDict items) s0 <> (s, Ok tt).
Proof. exact yaml_stray. Qed.
Print Assumptions C71_stray.

(** so does a list of declarations: it is an entry of the file like the others *)
Theorem C71_listed : forall e fuel items x l s0 s, dget "declare" items = Some (JList (JVal x :: l)) ->
  yaml_doc e fuel (JDict items) s0 <> (s, Ok tt).
Proof. exact yaml_listed. Qed.
Print Assumptions C71_listed.

(** and a file that asks for no declarations in a new document *)
Theorem C71_none : forall e fuel items s0, asks_for items [] -> d_decl_sections (s_doc s0) = [] ->
  yaml_doc e fuel (JDict items) s0 = (s0, Err EKey).
Proof. exact yaml_none. Qed.
Print Assumptions C71_none.

(** the rows of the source are those of the document *)
Theorem C71_rows : forall e fuel d s, yaml_doc e fuel d (init_st default_classes) = (s, Ok tt) -> yaml_rows e fuel d = doc_rows s.
Proof. exact rows_of_doc. Qed.
Print Assumptions C71_rows.

(** ** A file *)

Definition decl71 : list (list string) :=
  [["Section"; "DeclaredSections"; ""; ""; ""];
   ["DeclareSection"; "DeclaredTerms"; "TermValueName"; "Section"; ""];
   ["DeclareSection"; "Root"; ""; ""; ""];
   ["DeclareSection"; "Contacts"; "Email"; ""; ""];
   ["DeclareSection"; "Documentation"; "Title"; ""; ""];
   ["DeclareSection"; "Resources"; "Name"; "Title"; ""];
   ["DeclareSection"; "References"; "Name"; ""; ""];
   ["DeclareSection"; "Schema"; "DataType"; ""; ""];
   ["Section"; "DeclaredTerms"; "TermValueName"; "Section"; ""];
   ["DeclareTerm"; "Root.Datafile"; "Url"; "Resources"; ""];
   ["DeclareTerm"; "Root.Table"; "Name"; "Schema"; ""];
   ["DeclareTerm"; "Table.Column"; "Name"; "Schema"; ""];
   ["DeclareTerm"; "Root.Wrangler"; "Name"; "Contacts"; ""]].
Definition env71 : env := mk_env (fun n => eqs n "metatab-latest") (fun _ => None) (fun n => if eqs n "metatab-latest" then Some decl71 else None).
Definition s71 : st := Eval vm_compute in fst (load_declarations env71 3 ["metatab-latest"] (init_st default_classes)).
Definition Q71 : Quirks := known_quirks [3; 6; 7; 9; 11; 14; 16] ["declaredterms"].
Lemma order71 : @in_order Q71 s71.
Proof. apply rd_order. apply ready_by. vm_compute. reflexivity. Qed.

Definition str (x : string) : jv := JVal (VStr x).
Definition items71 : list (string * jv) :=
  [("title", str "A title");
   ("wrangler", JList [JDict [("name", str "Bob"); ("email", str "bob@example.com")]]);
   ("datafile", JList [JDict [("url", str "a.csv"); ("title", str "A")]; JDict [("url", str "b.csv"); ("rows", JVal (VInt 3))]]);
   ("table", JList [JDict [("name", str "t"); ("column", JList [JDict [("name", str "id"); ("datatype", str "int")]; JDict [("name", str "x")]])]])].
Definition leaf (k : string) (x : string) : ynode := YNode k (Some (str x)) [].
Definition nodes71 : list ynode :=
  [leaf "title" "A title";
   YNode "wrangler" (Some (str "Bob")) [leaf "email" "bob@example.com"];
   YNode "datafile" (Some (str "a.csv")) [leaf "title" "A"];
   YNode "datafile" (Some (str "b.csv")) [YNode "rows" (Some (JVal (VInt 3))) []];
   YNode "table" (Some (str "t")) [YNode "column" (Some (str "id")) [leaf "datatype" "int"]; leaf "column" "x"]].
Definition doc71 : st := Eval vm_compute in fst (yaml_doc env71 3 (JDict items71) (init_st default_classes)).

Ltac nodes := repeat first [apply nodes_nil | apply nodes_value | (apply nodes_list_cons; [reflexivity|cbn [filter without]|]) | apply nodes_list_nil].

Ltac usual := repeat first [apply Forall_nil | apply Forall_cons; [usual_one|]]
with usual_one := first
  [ apply usual_is; [apply dot_free_iff; reflexivity|apply tidy_iff; split; reflexivity|discriminate|discriminate|intros _; discriminate|usual|usual]
  | let H := fresh in intros H; vm_compute in H; intuition discriminate ].

Example C71_ex : yaml_declare items71 = Ok ["metatab-latest"] /\ load_declarations env71 3 ["metatab-latest"] (init_st default_classes) = (s71, Ok tt)
  /\ @in_order Q71 s71 /\ (forall n, In n yaml_six -> ~ @odd Q71 n /\ exists sd, dget n (d_decl_sections (s_doc s71)) = Some sd)
  /\ as_nodes (value_name (d_decl_terms (s_doc s71))) [] items71 nodes71 /\ Forall (usual_node []) nodes71
  /\ (forall n m, In n nodes71 -> In m (names_in [] n) -> is_section_cls (doc_term_class m s71) = false)
  /\ yaml_doc env71 3 (JDict items71) (init_st default_classes) = (doc71, Ok tt)
  /\ secs doc71 = [("root", 0); ("declaredterms", 18); ("contacts", 35); ("documentation", 36); ("resources", 37); ("references", 38); ("schema", 39)]
  /\ map (fun t => (t, t_rt (tget t doc71), t_val (tget t doc71), t_section (tget t doc71), map (fun c => (t_rt (tget c doc71), t_val (tget c doc71))) (t_children (tget t doc71))))
       (skipn 14 (listed doc71))
     = [(40, "title", VStr "A title", Some 0, []);
        (41, "wrangler", VStr "Bob", Some 35, [("email", VStr "bob@example.com")]);
        (43, "datafile", VStr "a.csv", Some 37, [("title", VStr "A")]);
        (45, "datafile", VStr "b.csv", Some 37, [("rows", VStr "3")]);
        (47, "table", VStr "t", Some 39, [("column", VStr "id"); ("column", VStr "x")])]
  /\ map (fun c => (t_rt (tget c doc71), t_val (tget c doc71), t_parent (tget c doc71))) (t_children (tget 48 doc71)) = [("datatype", VStr "int", Some 48)]
  /\ (exists rows, yaml_rows env71 3 (JDict items71) = Ok rows /\ skipn 11 rows =
       [[VStr "Section"; VStr "contacts"; VStr "Email"];
        [VStr "Wrangler"; VStr "Bob"; VStr "bob@example.com"]; [VStr ""];
        [VStr "Section"; VStr "documentation"; VStr "Title"]; [VStr ""];
        [VStr "Section"; VStr "resources"; VStr "Name"; VStr "Title"];
        [VStr "Datafile"; VStr "a.csv"; VStr ""; VStr "A"];
        [VStr "Datafile"; VStr "b.csv"; VStr ""; VStr ""];
        [VStr "Datafile.Rows"; VStr "3"]; [VStr ""];
        [VStr "Section"; VStr "references"; VStr "Name"]; [VStr ""];
        [VStr "Section"; VStr "schema"; VStr "DataType"];
        [VStr "Table"; VStr "t"; VStr ""]; [VStr "Table.Column"; VStr "x"];
        [VStr "Table.Column"; VStr "id"; VStr "int"]]).
Proof.
  split; [reflexivity|]. split; [vm_compute; reflexivity|]. split; [exact order71|]. split.
  { intros n I. repeat destruct I as [<-|I]; try contradiction; (split; [intros [[X|[]] _]; discriminate X|eexists; vm_compute; reflexivity]). }
  split; [unfold items71, nodes71; nodes|]. split; [usual|]. split.
  { intros n m I J. repeat destruct I as [<-|I]; try contradiction; vm_compute in J; repeat destruct J as [<-|J]; try contradiction; vm_compute; reflexivity. }
  vm_compute. repeat split. eexists. split; reflexivity.
Qed.

(** a file without the declaration of "schema" *)
Example C71_undeclared_ex : exists e s, load_declarations e 3 ["metatab-latest"] (init_st default_classes) = (s, Ok tt)
  /\ @in_order (known_quirks [3; 6; 7; 9; 11; 14] ["declaredterms"]) s /\ dget "schema" (d_decl_sections (s_doc s)) = None
  /\ snd (yaml_doc e 3 (JDict items71) (init_st default_classes)) = Err EKey.
Proof.
  exists (mk_env (fun n => eqs n "metatab-latest") (fun _ => None) (fun n => if eqs n "metatab-latest" then Some (firstn 7 decl71) else None)).
  eexists. split; [vm_compute; reflexivity|]. split; [|split; vm_compute; reflexivity]. apply rd_order. apply ready_by. vm_compute. reflexivity.
Qed.

(** a file that asks for other declarations *)
Example C71_declare_ex : asks_for [("title", str "T"); ("declare", str "other")] ["other"]
  /\ snd (yaml_doc env71 3 (JDict [("title", str "T"); ("declare", str "other")]) (init_st default_classes)) = Err EInclude
  /\ asks_for items71 ["metatab-latest"].
Proof. split; [apply asks_one; reflexivity|]. split; [vm_compute; reflexivity|]. apply asks_latest. intros H; cbn in H; intuition discriminate. Qed.

(** the same declarations, given alone and in a list; none *)
Definition title_with (d : jv) : list (string * jv) := [("title", str "T"); ("declare", d)].
Theorem C71_list_refuted : asks_for (title_with (str "metatab-latest")) ["metatab-latest"] /\ asks_for (title_with (JList [str "metatab-latest"])) ["metatab-latest"]
  /\ snd (yaml_doc env71 3 (JDict (title_with (str "metatab-latest"))) (init_st default_classes)) = Ok tt
  /\ snd (yaml_doc env71 3 (JDict (title_with (JList [str "metatab-latest"]))) (init_st default_classes)) = Err EType.
Proof. split; [apply asks_one; reflexivity|]. split; [apply (asks_list _ ["metatab-latest"]); reflexivity|]. split; vm_compute; reflexivity. Qed.
Print Assumptions C71_list_refuted.
Example C71_none_ex : asks_for (title_with (JVal VNone)) [] /\ asks_for (title_with (JList [])) [] /\ d_decl_sections (s_doc (init_st default_classes)) = [].
Proof. split; [apply asks_none; reflexivity|]. split; [apply (asks_list _ []); reflexivity|reflexivity]. Qed.

(** a dict that is not in a list has no value, so no term is made for it: its
    entries find no parent *)
Definition items_dict : list (string * jv) := [("contact", JDict [("name", str "Bob")])].
Theorem C71_dict_refuted : as_nodes (value_name (d_decl_terms (s_doc s71))) [] items_dict [YNode "contact" None [leaf "name" "Bob"]]
  /\ snd (yaml_doc env71 3 (JDict items_dict) (init_st default_classes)) = Err EKey.
Proof. split; [apply nodes_dict; nodes|vm_compute; reflexivity]. Qed.
Print Assumptions C71_dict_refuted.

(** so is an item of a list without the value of its term; an entry of the item
    then goes to the term of the item before *)
Definition items_missing : list (string * jv) :=
  [("datafile", JList [JDict [("url", str "a.csv"); ("title", str "A")]; JDict [("title", str "B")]])].
Theorem C71_missing_refuted : as_nodes (value_name (d_decl_terms (s_doc s71))) [] items_missing
    [YNode "datafile" (Some (str "a.csv")) [leaf "title" "A"]; YNode "datafile" None [leaf "title" "B"]]
  /\ exists s, yaml_doc env71 3 (JDict items_missing) (init_st default_classes) = (s, Ok tt)
  /\ map (fun t => (t_rt (tget t s), t_val (tget t s), map (fun c => (t_rt (tget c s), t_val (tget c s))) (t_children (tget t s)))) (skipn 14 (listed s))
     = [("datafile", VStr "a.csv", [("title", VStr "A"); ("title", VStr "B")])].
Proof. split; [unfold items_missing; nodes|]. eexists. split; vm_compute; reflexivity. Qed.
Print Assumptions C71_missing_refuted.

(** below a node of the same qualified name the next entries go to that node *)
Definition decl71b : list (list string) :=
  (decl71 ++ [["DeclareTerm"; "Root.Part"; "Name"; "Root"; ""]; ["DeclareTerm"; "Part.Part"; "Name"; "Root"; ""]])%list.
Definition env71b : env := mk_env (fun n => eqs n "metatab-latest") (fun _ => None) (fun n => if eqs n "metatab-latest" then Some decl71b else None).
Definition items_nested : list (string * jv) :=
  [("part", JList [JDict [("name", str "a");
     ("part", JList [JDict [("name", str "b"); ("part", JList [JDict [("name", str "c")]]); ("size", str "of b")]])]])].
Theorem C71_nested_refuted : exists s1, load_declarations env71b 3 ["metatab-latest"] (init_st default_classes) = (s1, Ok tt)
  /\ as_nodes (value_name (d_decl_terms (s_doc s1))) [] items_nested
    [YNode "part" (Some (str "a")) [YNode "part" (Some (str "b")) [leaf "part" "c"; leaf "size" "of b"]]]
  /\ exists s a b c z, yaml_doc env71b 3 (JDict items_nested) (init_st default_classes) = (s, Ok tt)
  /\ t_val (tget a s) = VStr "a" /\ t_val (tget b s) = VStr "b" /\ t_val (tget c s) = VStr "c" /\ t_val (tget z s) = VStr "of b"
  /\ t_children (tget a s) = [b] /\ t_children (tget b s) = [c] /\ t_children (tget c s) = [z].
Proof.
  eexists. split; [vm_compute; reflexivity|]. split; [unfold items_nested; nodes|].
  exists (fst (yaml_doc env71b 3 (JDict items_nested) (init_st default_classes))), 46, 47, 48, 49. vm_compute. repeat split.
Qed.
Print Assumptions C71_nested_refuted.
