(** * C92: a file that begins with Declare rows is read by what the files they name declare *)

From Verif Require Import SpecNames PyBase State SpecParse Parser SpecHead SpecCalm CalmRowFacts SpecOutline SpecInv SpecRound SpecMore SpecDeclared DeclaredFileFacts SpecOpened OpenedFacts SpecDeclaring DeclaringFacts ParseProps PropParse PropDeclared PropOpened SpecDoc.

(** The first rows name the declaration files [xs] with the lines [ds]; the lines of
    the other rows are [fs].  Their sections and terms are those of the outline of
    [fs], in which the parser knows the terms that the files declare (C90) and the
    document knows what it did before.  The line after the Declare rows is in the
    root section; its cells are named by the last heading or Header row of the
    files, and a name such as ".c" belongs to their last record. *)
Theorem C92_declaring : forall odd syn g xs ds rows fs s, quiet_place odd syn g -> Forall2 (file_says (in_env g) (in_dir g)) xs ds ->
  well_told_files (cols_of g) (props (in_terms g)) ["root"] first_root "@value" (decls_of installed_terms installed_sections) ds ->
  means rows fs -> (forall k, In k (headings fs) -> ~ In k odd) -> loads g (declare_rows xs ++ rows) s ->
  let w := declaring_world g ds in let v := view_past_files g (List.length xs) ds in
  among_themselves (cols_of g) v fs ->
  exists title, lower title = "root" /\ let h0 := root_head title ds in
  (forall k, ~ In k odd -> In k (dkeys (d_sections (s_doc s))) <-> In k (map h_key (heads w v [h0] fs)))
  /\ forall h, In h (heads w v [h0] fs) -> exists i old new, dget (h_key h) (d_sections (s_doc s)) = Some i
     /\ head_of s (h_key h, i) = h /\ t_terms (tget i s) = (old ++ new)%list /\ (h_key h <> "root" -> old = [])
     /\ Forall2 (fun t z => shows s "root" (bare t) z /\ keeps s t z) (tops (h_key h) (made w v [h0] fs)) new.
Proof. exact declaring. Qed.
Print Assumptions C92_declaring.

(** the declaration file of PropOpened.v, named by the first row.  The section
    Contacts has no columns, and the cell of the Title row is called "section",
    after the last heading of the declaration file. *)
Definition own92 : list (list string) :=
  [["Title"; "T"; "x"]; ["Section"; "Contacts"]; ["Person"; "Ann"; "a@x"]; ["Section"; "Data"]; ["Header"; "Year"; "Note"]; ["Year"; "2020"; "n"]; ["Year.Unit"; "A"]].
Definition doc92 : st := Eval vm_compute in fst (load_into (place90 decl91) (declare_rows ["d.csv"] ++ own92)).
Definition world92 : world := declaring_world (place90 decl91) [lines90 decl91].
Definition view92 : view := view_past_files (place90 decl91) 1 [lines90 decl91].

Example C92_ex : file_says (in_env (place90 decl91)) "" "d.csv" (lines90 decl91) /\ means own92 (lines90 own92)
  /\ (forall k, In k (headings (lines90 own92)) -> ~ In k ["decl"])
  /\ loads (place90 decl91) (declare_rows ["d.csv"] ++ own92) doc92 /\ among_themselves (cols_of (place90 decl91)) view92 (lines90 own92)
  /\ heads world92 view92 [root_head "Root" [lines90 decl91]] (lines90 own92)
     = [mk_head "root" "Root" [] [] "@value"; mk_head "contacts" "Contacts" [] [] "@value"; mk_head "data" "Data" [] ["Note"] "year"]
  /\ map (fun e => (e_name e, e_value e, m_type (e_meta e), m_vname (e_meta e))) (made world92 view92 [root_head "Root" [lines90 decl91]] (lines90 own92))
     = [("title", "T", "any", "@value"); ("section", "x", "any", "@value"); ("person", "Ann", "any", "Name"); ("0", "a@x", "any", "@value");
        ("year", "2020", "scalar", "year"); ("note", "n", "any", "year"); ("unit", "A", "any", "year")].
Proof.
  destruct C91_ex as (_ & B & _).
  split; [exists "d.csv", decl91; split; [vm_compute; reflexivity|]; split; [vm_compute; reflexivity|exact B]|].
  split; [apply means_by; vm_compute; reflexivity|].
  split; [intros k I [<-|[]]; vm_compute in I; repeat (destruct I as [I|I]; [discriminate I|]); exact I|].
  split; [vm_compute; reflexivity|]. split; [vm_compute; repeat split; discriminate|]. split; vm_compute; reflexivity.
Qed.

(** What C61 says of rows that come after others applies to the rows after the
    Declare rows: the state [s0] before them has the columns, the name of values and
    the last record of [view_past_files], the parser declares what the files say and
    the document is not changed.  When the file is read, the document declares what
    it did before, changed by what the files say: the other rows declare nothing. *)
Theorem C92_head : forall odd syn g xs ds rows fs s, quiet_place odd syn g -> Forall2 (file_says (in_env g) (in_dir g)) xs ds ->
  well_told_files (cols_of g) (props (in_terms g)) ["root"] first_root "@value" (decls_of installed_terms installed_sections) ds ->
  means rows fs -> (forall k, In k (headings fs) -> ~ In k odd) -> loads g (declare_rows xs ++ rows) s ->
  (exists s0, loads_after g (declare_rows xs) rows odd s0 fs s
    /\ (let v := view_past (declare_rows xs) s0 [] in let v0 := view_past_files g (List.length xs) ds in
        v_line v = v_line v0 /\ v_cur v = v_cur v0 /\ v_vname v = v_vname v0 /\ v_parent v = v_parent v0
        /\ forall cells, cells_from (v_cols v) 0 cells = cells_from (v_cols v0) 0 cells)
    /\ decls_of (p_dterms (s_prs s0)) (p_dsecs (s_prs s0)) = told_by g ds
    /\ d_decl_terms (s_doc s0) = in_terms g /\ d_decl_sections (s_doc s0) = in_secs g)
  /\ decls_of (d_decl_terms (s_doc s)) (d_decl_sections (s_doc s)) = told_in g ds.
Proof. exact declaring_head. Qed.
Print Assumptions C92_head.

(** the row ".Note" after the declaration file belongs to its last record, which is
    a DeclareTerm row; the document declares what the file says when it is read *)
Definition below92 : list (list string) := [[".Note"; "n"]].
Definition doc92b : st := Eval vm_compute in fst (load_into (place90 decl91) (declare_rows ["d.csv"] ++ below92)).

Example C92_head_ex : means below92 (lines90 below92) /\ loads (place90 decl91) (declare_rows ["d.csv"] ++ below92) doc92b
  /\ v_parent view92 = "declareterm" /\ v_cols view92 = ["Section"; "TermValueName"; "ChildPropertyType"]
  /\ (exists i j, t_term (tget i doc92b) = "<elided_term>.note" /\ t_pt (tget i doc92b) = "declareterm" /\ t_parent (tget i doc92b) = Some j
      /\ t_term (tget j doc92b) = "root.declareterm" /\ t_val (tget j doc92b) = VStr "Root.Year")
  /\ dget "root.person" (dc_terms (decls_of (d_decl_terms (s_doc doc92b)) (d_decl_sections (s_doc doc92b))))
     = Some [("section", "Contacts"); ("termvaluename", "Name"); ("term", "Root.Person")].
Proof.
  split; [apply means_by; vm_compute; reflexivity|]. split; [vm_compute; reflexivity|]. split; [vm_compute; reflexivity|]. split; [vm_compute; reflexivity|].
  split; [|vm_compute; reflexivity]. exists 16, 13. repeat split; vm_compute; reflexivity.
Qed.

(** A Declare row is not the same as opening the file with the declaration file:
    the columns that it declares for a section are not those of the section. *)
Theorem C92_opened_refuted : exists odd syn g x lines rows fs s s', quiet_place odd syn g /\ file_says (in_env g) (in_dir g) x lines
  /\ well_told_files (cols_of g) (props (in_terms g)) ["root"] first_root "@value" (decls_of installed_terms installed_sections) [lines]
  /\ tidy_columns odd (told_in g [lines]) /\ means rows fs /\ (forall k, In k (headings fs) -> ~ In k odd)
  /\ among_themselves (cols_of g) (view_past_files g 1 [lines]) fs
  /\ loads g (declare_rows [x] ++ rows) s
  /\ open_doc (in_env g) (in_fuel g) [x] (mk_source (in_ref g) (in_dir g) rows) (blank_doc g) = (s', Ok tt)
  /\ exists k i i', dget k (d_sections (s_doc s)) = Some i /\ dget k (d_sections (s_doc s')) = Some i' /\ t_args (tget i s) = [] /\ t_args (tget i' s') <> [].
Proof.
  exists ["decl"], [], (place90 decl91), "d.csv", (lines90 decl91), own92, (lines90 own92), doc92.
  destruct C91_ex as (A & _ & C & D & _). destruct C92_ex as (B & E & F & G & Am & _).
  eexists. split; [exact A|]. split; [exact B|]. split; [exact C|]. split; [exact D|]. split; [exact E|]. split; [exact F|]. split; [exact Am|]. split; [exact G|].
  split; [vm_compute; reflexivity|]. exists "contacts". eexists. eexists.
  split; [vm_compute; reflexivity|]. split; [vm_compute; reflexivity|]. split; [vm_compute; reflexivity|]. vm_compute. discriminate.
Qed.
Print Assumptions C92_opened_refuted.
