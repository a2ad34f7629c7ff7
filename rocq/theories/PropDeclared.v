(** * C90: a declaration file declares what its rows say *)

From Verif Require Import SpecNames PyBase State SpecParse Parser SpecCalm CalmRowFacts SpecOutline SpecDeclared DeclaredFacts DeclaredRowFacts DeclaredFileFacts ParseProps PropParse RunFacts RowFacts SpecDoc.

(** Loading the declaration file [x] into a new document: the declarations of the
    document are those it had, overlaid by those that the lines of the file tell,
    computed line by line from the installed ones. *)
Theorem C90_file : forall odd syn g x y rows ls s, quiet_place odd syn g ->
  find_declare_doc (in_env g) "" (strip x) = Ok y -> fetch (in_env g) y = Some rows -> Forall2 reads rows ls ->
  well_told (cols_of g) (props (in_terms g)) ["root"] first_desk (decls_of installed_terms installed_sections) ls ->
  load_declarations (in_env g) (in_fuel g) [x] (new_doc (in_reg g) (in_terms g) (in_secs g) (in_super g)) = (s, Ok tt) ->
  decls_of (d_decl_terms (s_doc s)) (d_decl_sections (s_doc s))
  = overlay (decls_of (in_terms g) (in_secs g))
      (told_all (cols_of g) (props (in_terms g)) first_desk (decls_of installed_terms installed_sections) ls).
Proof. exact t_declared_one. Qed.
Print Assumptions C90_file.

(** The same for a list of declaration files: each begins in the root section with
    the Header row and the name of values that the files before it left. *)
Theorem C90_files : forall odd syn g xs fs s, quiet_place odd syn g -> xs <> [] -> Forall2 (file_says (in_env g) "") xs fs ->
  well_told_files (cols_of g) (props (in_terms g)) ["root"] first_root "@value" (decls_of installed_terms installed_sections) fs ->
  load_declarations (in_env g) (in_fuel g) xs (new_doc (in_reg g) (in_terms g) (in_secs g) (in_super g)) = (s, Ok tt) ->
  decls_of (d_decl_terms (s_doc s)) (d_decl_sections (s_doc s))
  = overlay (decls_of (in_terms g) (in_secs g))
      (told_files (cols_of g) (props (in_terms g)) first_root "@value" (decls_of installed_terms installed_sections) fs).
Proof. exact t_declared. Qed.
Print Assumptions C90_files.

(** what a single term does that comes from a declaration file, in any state of
    the parser: a Root.DeclareSection declares a section with its cells as the
    columns, a Root.DeclareTerm declares a term, nothing else declares *)
Theorem C90_row : forall t s s' sec, manage_declare_terms t s = (s', Ok tt) -> lc_name (tget t s) ->
  (t_pt (tget t s) = "root" -> t_rt (tget t s) = "declareterm" -> t_section (tget t s) = Some sec /\ is_section_cls (t_cls (tget sec s)) = true) ->
  let r := tget t s in
  if eqs (t_pt r) "root" then
    if eqs (t_rt r) "declaresection" then
      exists x, t_val r = VStr x /\ Dof s' = mk_decls (dc_terms (Dof s)) (dset (lower x) (mk_sdecl (clean_args (t_args r)) []) (dc_secs (Dof s)))
    else if eqs (t_rt r) "declareterm" then
      exists x, t_val r = VStr x
        /\ ((forall i, dget "inheritsfrom" (row_props (t_tvn r) (sec_property_names (tget sec s)) (t_args r) x) = Some i -> lower (record_in x) <> lower (record_in i)) ->
            Dof s' = declare_term (t_tvn r) (sec_property_names (tget sec s)) (t_args r) x (Dof s))
    else Dof s' = Dof s
  else Dof s' = Dof s.
Proof. exact manage_told. Qed.
Print Assumptions C90_row.

(** a file with a list of columns, a Header row, an inherited child, a child row
    and a blank line *)
Definition rows90 : list (list string) :=
  [["DeclareSection"; "Contacts"; "Email"; " "; "Phone"];
   ["Section"; "Decl"; "Section"; "InheritsFrom"; "TermValueName"];
   ["DeclareTerm"; "Root.Person"; "Contacts"];
   ["DeclareTerm"; "Person.Email"; "Contacts"; ""; "address"];
   [];
   ["DeclareTerm"; "Root.Creator"; "Contacts"; "Person"];
   ["Section"; "Values"];
   ["Header"; "Term"; "DataType"; "Note"];
   ["DeclareTerm"; "Year"; "integer"; " "];
   ["DeclareTerm.Note"; "not a declaration"; "x"]].
Definition env90 (rows : list (list string)) : env := mk_env (fun x => eqs x "d.csv") (fun _ => None) (fun x => if eqs x "d.csv" then Some rows else None).
Definition place90 (rows : list (list string)) : place := mk_place (env90 rows) 3 None "" default_classes [("root.year", mk_tdecl [("term", "Old")] [])] [] [].
Definition lines90 (rows : list (list string)) : list line := match read_rows rows with Some ls => ls | None => [] end.
Definition open90 (rows : list (list string)) : st * res unit :=
  let g := place90 rows in load_declarations (in_env g) (in_fuel g) ["d.csv"] (new_doc (in_reg g) (in_terms g) (in_secs g) (in_super g)).
Definition doc90 : st := Eval vm_compute in fst (open90 rows90).

Lemma place90_quiet : forall odd syn rows, ~ In "root" odd -> forallb (quietb odd syn) (lines90 rows) = true -> read_rows rows <> None -> quiet_place odd syn (place90 rows).
Proof.
  intros odd syn rows O Q N. split; try assumption.
  - exact default_good_reg.
  - intros n. cbn. split; [intros []|intros [|i] c E; discriminate E].
  - intros k td v E. cbn in E. destruct (eqs k "root.year"); [injection E as <-; discriminate|discriminate].
  - intros x rows' H. cbn in H. destruct (eqs x "d.csv"); [|discriminate H]. injection H as <-. unfold lines90 in Q.
    destruct (read_rows rows) as [ls|] eqn:E; [|contradiction]. apply (quiet_by _ _ _ _ E Q).
Qed.

Definition shown90 (D : decls) : dict (dict string) * dict sdecl :=
  (filter (fun kv => mem_str (fst kv) ["root.person"; "person.email"; "root.creator"; "creator.email"; "root.year"; "declareterm.note"]) (dc_terms D),
   filter (fun kv => eqs (fst kv) "contacts") (dc_secs D)).

Example C90_ex :
  quiet_place ["decl"] [] (place90 rows90) /\ Forall2 reads rows90 (lines90 rows90)
  /\ well_told (cols_of (place90 rows90)) (props (in_terms (place90 rows90))) ["root"] first_desk (decls_of installed_terms installed_sections) (lines90 rows90)
  /\ open90 rows90 = (doc90, Ok tt)
  /\ shown90 (decls_of (d_decl_terms (s_doc doc90)) (d_decl_sections (s_doc doc90)))
     = ([("root.year", [("datatype", "integer"); ("term", "Year")]);
         ("root.person", [("section", "Contacts"); ("term", "Root.Person")]);
         ("person.email", [("section", "Contacts"); ("termvaluename", "address"); ("term", "Person.Email")]);
         ("root.creator", [("section", "Contacts"); ("inheritsfrom", "Person"); ("term", "Root.Creator")]);
         ("creator.email", [("section", "Contacts"); ("termvaluename", "address"); ("term", "Creator.Email"); ("inheritsfrom", "")])],
        [("contacts", mk_sdecl ["Email"; "Phone"] ["Root.Person"; "Person.Email"; "Root.Creator"; "Creator.Email"])]).
Proof.
  split; [apply place90_quiet; [intros [E|[]]; discriminate E|vm_compute; reflexivity|vm_compute; discriminate]|].
  split; [eapply (quiet_by ["decl"] []); vm_compute; reflexivity|]. split; [apply well_told_by; vm_compute; reflexivity|].
  split; vm_compute; reflexivity.
Qed.

(** two files: the second has no Header row of its own and uses that of the first *)
Definition env90t (a b : list (list string)) : env :=
  mk_env (fun x => mem_str x ["a.csv"; "b.csv"]) (fun _ => None) (fun x => if eqs x "a.csv" then Some a else if eqs x "b.csv" then Some b else None).
Definition place90t (a b : list (list string)) : place := mk_place (env90t a b) 3 None "" default_classes [("root.year", mk_tdecl [("term", "Old")] [])] [] [].
Lemma place90t_quiet : forall odd syn a b, ~ In "root" odd -> forallb (quietb odd syn) (lines90 a) = true -> read_rows a <> None ->
  forallb (quietb odd syn) (lines90 b) = true -> read_rows b <> None -> quiet_place odd syn (place90t a b).
Proof.
  intros odd syn a b O Qa Na Qb Nb. split; try assumption.
  - exact default_good_reg.
  - intros n. cbn. split; [intros []|intros [|i] c E; discriminate E].
  - intros k td v E. cbn in E. destruct (eqs k "root.year"); [injection E as <-; discriminate|discriminate].
  - intros x rows' H. cbn in H. unfold lines90 in *. destruct (eqs x "a.csv"); [|destruct (eqs x "b.csv"); [|discriminate H]]; injection H as <-.
    + destruct (read_rows a) as [ls|] eqn:E; [|contradiction]. apply (quiet_by _ _ _ _ E Qa).
    + destruct (read_rows b) as [ls|] eqn:E; [|contradiction]. apply (quiet_by _ _ _ _ E Qb).
Qed.
Definition first90 : list (list string) :=
  [["Header"; "Term"; "DataType"]; ["DeclareTerm"; "Year"; "integer"]; ["Section"; "Decl"; "Section"]; ["DeclareSection"; "Data"; "Size"]].
Definition second90 : list (list string) :=
  [["DeclareTerm"; "Count"; "number"]; ["Section"; "More"; "Section"; "Note"]; ["DeclareTerm"; "Root.Size"; "Data"; "big"]].
Definition open90t (a b : list (list string)) : st * res unit :=
  let g := place90t a b in load_declarations (in_env g) (in_fuel g) ["a.csv"; "b.csv"] (new_doc (in_reg g) (in_terms g) (in_secs g) (in_super g)).
Definition doc90t : st := Eval vm_compute in fst (open90t first90 second90).

Example C90_files_ex :
  quiet_place ["decl"; "more"] [] (place90t first90 second90)
  /\ Forall2 (file_says (env90t first90 second90) "") ["a.csv"; "b.csv"] [lines90 first90; lines90 second90]
  /\ well_told_files (cols_of (place90t first90 second90)) (props (in_terms (place90t first90 second90))) ["root"] first_root "@value"
       (decls_of installed_terms installed_sections) [lines90 first90; lines90 second90]
  /\ open90t first90 second90 = (doc90t, Ok tt)
  /\ (let D := decls_of (d_decl_terms (s_doc doc90t)) (d_decl_sections (s_doc doc90t)) in
      (filter (fun kv => mem_str (fst kv) ["root.year"; "root.count"; "root.size"]) (dc_terms D), filter (fun kv => eqs (fst kv) "data") (dc_secs D)))
     = ([("root.year", [("datatype", "integer"); ("term", "Year")]);
         ("root.count", [("datatype", "number"); ("term", "Count")]);
         ("root.size", [("section", "Data"); ("note", "big"); ("term", "Root.Size")])],
        [("data", mk_sdecl ["Size"] ["Root.Size"])]).
Proof.
  split; [apply place90t_quiet; [intros [E|[E|[]]]; discriminate E|vm_compute; reflexivity|vm_compute; discriminate|vm_compute; reflexivity|vm_compute; discriminate]|].
  split.
  { constructor; [|constructor; [|constructor]].
    - exists "a.csv", first90. split; [vm_compute; reflexivity|]. split; [vm_compute; reflexivity|]. eapply (quiet_by ["decl"; "more"] []); vm_compute; reflexivity.
    - exists "b.csv", second90. split; [vm_compute; reflexivity|]. split; [vm_compute; reflexivity|]. eapply (quiet_by ["decl"; "more"] []); vm_compute; reflexivity. }
  split; [split; [apply well_told_by; vm_compute; reflexivity|split; [apply well_told_by; vm_compute; reflexivity|exact Logic.I]]|].
  split; vm_compute; reflexivity.
Qed.

(** A heading that has a column Section is put among the sections of the document
    (terms.py:373-375: assigning its section sets the property of that name).  When the heading comes again the first one is used for it
    (parser.py:376-385), with the columns of the first. *)
Definition again90 : list (list string) :=
  [["DeclareSection"; "Things"];
   ["Section"; "Decl"; "Section"; "Note"]; ["DeclareTerm"; "Root.A"; "Things"; "hello"];
   ["Section"; "Decl"; "Section"; "DataType"]; ["DeclareTerm"; "Root.B"; "Things"; "integer"]].
Theorem C90_repeated_refuted : exists odd syn g x y rows ls s, quiet_place odd syn g
  /\ find_declare_doc (in_env g) "" (strip x) = Ok y /\ fetch (in_env g) y = Some rows /\ Forall2 reads rows ls
  /\ well_told (cols_of g) (props (in_terms g)) ["root"] first_desk (decls_of installed_terms installed_sections) (filter (fun l => match l with LSection _ _ => false | _ => true end) ls)
  /\ load_declarations (in_env g) (in_fuel g) [x] (new_doc (in_reg g) (in_terms g) (in_secs g) (in_super g)) = (s, Ok tt)
  /\ told_prop (decls_of (d_decl_terms (s_doc s)) (d_decl_sections (s_doc s))) "root.b" "note" = Some "integer"
  /\ told_prop (told_all (cols_of g) (props (in_terms g)) first_desk (decls_of installed_terms installed_sections) ls) "root.b" "datatype" = Some "integer"
  /\ told_prop (decls_of (d_decl_terms (s_doc s)) (d_decl_sections (s_doc s))) "root.b" "datatype" = None.
Proof.
  exists ["decl"], [], (place90 again90), "d.csv", "d.csv", again90, (lines90 again90), (fst (open90 again90)).
  split; [apply place90_quiet; [intros [E|[]]; discriminate E|vm_compute; reflexivity|vm_compute; discriminate]|].
  split; [reflexivity|]. split; [reflexivity|]. split; [eapply (quiet_by ["decl"] []); vm_compute; reflexivity|].
  split; [apply well_told_by; vm_compute; reflexivity|]. split; [vm_compute; reflexivity|]. repeat split; vm_compute; reflexivity.
Qed.
Print Assumptions C90_repeated_refuted.
