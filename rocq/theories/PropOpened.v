(** * C91: a document opened with declaration files is read by what those files declare *)

From Verif Require Import SpecNames PyBase State SpecParse Parser SpecCalm CalmRowFacts SpecOutline SpecInv SpecRound SpecMore SpecDeclared DeclaredFileFacts SpecOpened OpenedFacts ParseProps PropParse PropDeclared SpecDoc.

(** [open_doc xs src] loads the declaration files [xs] and then the rows of [src].
    The sections and terms that the rows make are those of the outline of the rows
    (C77), with the declarations that the lines of the files tell (C90): columns of
    sections, property types and value names.  Nothing of the declaration files is
    among them, but in the root section, which has the Header row that they left it
    with, and in the sections named [odd], which they had themselves. *)
Theorem C91_opened : forall odd syn g xs ds src fs s, quiet_place odd syn g -> xs <> [] -> Forall2 (file_says (in_env g) "") xs ds ->
  well_told_files (cols_of g) (props (in_terms g)) ["root"] first_root "@value" (decls_of installed_terms installed_sections) ds ->
  let w := told_world (told_in g ds) in
  tidy_columns odd (told_in g ds) -> means (src_rows src) fs -> (forall k, In k (headings fs) -> ~ In k odd) ->
  open_doc (in_env g) (in_fuel g) xs src (blank_doc g) = (s, Ok tt) ->
  exists title, lower title = "root" /\ let h0 := root_head title ds in
  (forall k, ~ In k odd -> In k (dkeys (d_sections (s_doc s))) <-> In k (map h_key (heads w first_view [h0] fs)))
  /\ forall h, In h (heads w first_view [h0] fs) -> exists i old new, dget (h_key h) (d_sections (s_doc s)) = Some i
     /\ head_of s (h_key h, i) = h /\ t_terms (tget i s) = (old ++ new)%list /\ (h_key h <> "root" -> old = [])
     /\ Forall2 (fun t z => shows s "root" (bare t) z /\ keeps s t z) (tops (h_key h) (made w first_view [h0] fs)) new.
Proof. exact opened. Qed.
Print Assumptions C91_opened.

(** a declaration file with the columns of a section, the name of a value and a
    property type, and a file that uses them *)
Definition decl91 : list (list string) :=
  [["DeclareSection"; "Contacts"; "Email"; " "; "Phone"];
   ["Section"; "Decl"; "Section"; "TermValueName"; "ChildPropertyType"];
   ["DeclareTerm"; "Root.Person"; "Contacts"; "Name"];
   ["DeclareTerm"; "Root.Year"; "Contacts"; ""; "scalar"]].
Definition own91 : list (list string) :=
  [["Title"; "T"]; ["Section"; "Contacts"]; ["Person"; "Ann"; "a@x"; "1"]; ["Section"; "Data"]; ["Header"; "Year"; "Note"]; ["Year"; "2020"; "n"]].
Definition open91 (x : list string) : st * res unit :=
  let g := place90 decl91 in open_doc (in_env g) (in_fuel g) x (mk_source None "" own91) (blank_doc g).
Definition doc91 : st := Eval vm_compute in fst (open91 ["d.csv"]).
Definition world91 : world := told_world (told_in (place90 decl91) [lines90 decl91]).

Example C91_ex : quiet_place ["decl"] [] (place90 decl91) /\ Forall2 reads decl91 (lines90 decl91)
  /\ well_told_files (cols_of (place90 decl91)) (props (in_terms (place90 decl91))) ["root"] first_root "@value" (decls_of installed_terms installed_sections) [lines90 decl91]
  /\ tidy_columns ["decl"] (told_in (place90 decl91) [lines90 decl91]) /\ means own91 (lines90 own91)
  /\ (forall k, In k (headings (lines90 own91)) -> ~ In k ["decl"])
  /\ open91 ["d.csv"] = (doc91, Ok tt)
  /\ heads world91 first_view first_heads (lines90 own91)
     = [mk_head "root" "Root" [] [] "@value"; mk_head "contacts" "Contacts" ["Email"; "Phone"] [] "@value"; mk_head "data" "Data" [] ["Note"] "year"]
  /\ map (fun e => (e_name e, e_value e, m_type (e_meta e), m_vname (e_meta e))) (made world91 first_view first_heads (lines90 own91))
     = [("title", "T", "any", "@value"); ("person", "Ann", "any", "Name"); ("email", "a@x", "any", "@value"); ("phone", "1", "any", "@value");
        ("year", "2020", "scalar", "year"); ("note", "n", "any", "year")].
Proof.
  split; [apply place90_quiet; [intros [E|[]]; discriminate E|vm_compute; reflexivity|vm_compute; discriminate]|].
  split; [eapply (quiet_by ["decl"] []); vm_compute; reflexivity|]. split; [split; [apply well_told_by; vm_compute; reflexivity|exact Logic.I]|].
  split; [apply tidy_by; vm_compute; reflexivity|]. split; [apply means_by; vm_compute; reflexivity|].
  split; [intros k I [<-|[]]; vm_compute in I; repeat (destruct I as [I|I]; [discriminate I|]); exact I|].
  split; [vm_compute; reflexivity|]. split; vm_compute; reflexivity.
Qed.

(** two files; the root section of the document has the Header row of the first, but
    the cells of its rows are not named by it *)
Definition own91t : list (list string) := [["Title"; "T"; "text"]; ["Section"; "Data"]; ["Size"; "3"; "m"]].
Definition open91t : st * res unit :=
  let g := place90t first90 second90 in open_doc (in_env g) (in_fuel g) ["a.csv"; "b.csv"] (mk_source None "" own91t) (blank_doc g).
Definition doc91t : st := Eval vm_compute in fst open91t.
Definition decls91t : list (list line) := [lines90 first90; lines90 second90].
Definition world91t : world := told_world (told_in (place90t first90 second90) decls91t).
Example C91_files_ex : tidy_columns ["decl"; "more"] (told_in (place90t first90 second90) decls91t) /\ means own91t (lines90 own91t)
  /\ (forall k, In k (headings (lines90 own91t)) -> ~ In k ["decl"; "more"])
  /\ open91t = (doc91t, Ok tt)
  /\ root_head "Root" decls91t = mk_head "root" "Root" [] ["DataType"] "term"
  /\ heads world91t first_view [root_head "Root" decls91t] (lines90 own91t)
     = [mk_head "root" "Root" [] ["DataType"] "term"; mk_head "data" "Data" ["Size"] [] "@value"]
  /\ map (fun e => (e_name e, e_value e)) (made world91t first_view [root_head "Root" decls91t] (lines90 own91t))
     = [("title", "T"); ("0", "text"); ("size", "3"); ("size", "m")].
Proof.
  split; [apply tidy_by; vm_compute; reflexivity|]. split; [apply means_by; vm_compute; reflexivity|].
  split; [intros k I [<-|[<-|[]]]; vm_compute in I; repeat (destruct I as [I|I]; [discriminate I|]); exact I|].
  split; [vm_compute; reflexivity|]. repeat split; vm_compute; reflexivity.
Qed.

(** A heading with a column Section stays in the document when it comes from the
    declaration file: the document has a section that its own rows do not have. *)
Theorem C91_left_refuted : exists odd syn g x lines src fs s, quiet_place odd syn g /\ file_says (in_env g) "" x lines
  /\ well_told_files (cols_of g) (props (in_terms g)) ["root"] first_root "@value" (decls_of installed_terms installed_sections) [lines]
  /\ tidy_columns odd (told_in g [lines]) /\ means (src_rows src) fs
  /\ open_doc (in_env g) (in_fuel g) [x] src (blank_doc g) = (s, Ok tt)
  /\ exists k, In k (dkeys (d_sections (s_doc s))) /\ k <> "root" /\ ~ In k (headings fs).
Proof.
  exists ["decl"], [], (place90 decl91), "d.csv", (lines90 decl91), (mk_source None "" own91), (lines90 own91), doc91.
  destruct C91_ex as (A & B & C & D & E & F & G & _). split; [exact A|].
  split; [exists "d.csv", decl91; split; [vm_compute; reflexivity|]; split; [vm_compute; reflexivity|exact B]|]. split; [exact C|]. split; [exact D|]. split; [exact E|]. split; [vm_compute; reflexivity|].
  exists "decl". split; [vm_compute; right; left; reflexivity|]. split; [discriminate|]. intros I. apply (F _ I). left. reflexivity.
Qed.
Print Assumptions C91_left_refuted.
