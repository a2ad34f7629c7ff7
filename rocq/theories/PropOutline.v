(** * C77: a parsed document is exactly the forest its rows describe *)

From Verif Require Import SpecNames PyBase State SpecParse Parser SpecInv SpecDoc SpecRound SpecInclude SpecHead SpecOutline ParseProps ParseFacts DocFacts HeadFacts OutlineFacts PropParse PropHead.

(** the document of a file: its sections, their columns and their trees are those
    of the outline of its lines *)
Theorem C77_outline : forall g rows ls s, proper g -> means rows ls -> loads g rows s ->
  shows_doc s (outline (world_of g) ls).
Proof. exact c77_outline. Qed.
Print Assumptions C77_outline.

(** a file without rows that cannot be placed is read, and the document is the outline *)
Theorem C77_read : forall g rows ls, proper g -> plain_classes g -> in_fuel g <> 0 -> means rows ls -> Forall sound ls ->
  (forall pre l post, ls = (pre ++ l :: post)%list -> placed pre l) ->
  exists s, loads g rows s /\ shows_doc s (outline (world_of g) ls).
Proof. exact c77_total. Qed.
Print Assumptions C77_read.

(** and it is no other *)
Theorem C77_only : forall s o o', shows_doc s o -> shows_doc s o' -> o = o'.
Proof. exact shows_doc_fun. Qed.
Print Assumptions C77_only.

(** what is recorded of every term besides its name and value: the name of its
    parent, its property type and the name of its value *)
Theorem C77_recorded : forall g rows ls s, proper g -> means rows ls -> loads g rows s ->
  Forall2 (fun kv h => fst kv = h_key h /\ Forall2 (keeps s) (tops (h_key h) (made (world_of g) first_view first_heads ls)) (t_terms (tget (snd kv) s)))
    (d_sections (s_doc s)) (heads (world_of g) first_view first_heads ls).
Proof. exact c77_recorded. Qed.
Print Assumptions C77_recorded.

(** after first rows of any kind (Declare and Include rows among them) that leave
    the parser in a calm state, the rest of the file adds the terms of its outline
    to the sections, each with what is recorded of it, and leaves the terms that
    are there as they are *)
Theorem C77_added : forall g head rows odd s0 ls s, loads_after g head rows odd s0 ls s -> among_themselves (cols_in s0) (view_past head s0 []) ls ->
  Forall2 (fun kv h => fst kv = h_key h /\ t_val (tget (snd kv) s) = VStr (h_title h) /\ columns_of (tget (snd kv) s) = columns h
     /\ exists new, t_terms (tget (snd kv) s) = (terms_of s0 (h_key h) ++ new)%list
        /\ let ts := tops (h_key h) (made (world_in s0) (view_past head s0 []) (heads_of s0) ls) in
           Forall2 (shows s "root") (map bare ts) new /\ Forall2 (keeps s) ts new)
    (d_sections (s_doc s)) (heads (world_in s0) (view_past head s0 []) (heads_of s0) ls)
  /\ forall i, i < hlen s0 -> i <> d_root (s_doc s0) ->
       t_rt (tget i s) = t_rt (tget i s0) /\ t_val (tget i s) = t_val (tget i s0) /\ t_children (tget i s) = t_children (tget i s0).
Proof. exact c77_added. Qed.
Print Assumptions C77_added.

(** so if the first rows left a document with an outline, that outline is continued *)
Theorem C77_after : forall g head rows odd s0 ls s o, loads_after g head rows odd s0 ls s -> among_themselves (cols_in s0) (view_past head s0 []) ls ->
  shows_doc s0 o -> Forall (fun c => Forall well_named (sc_terms c)) o ->
  shows_doc s (outline_from (world_in s0) (view_past head s0 []) (heads_of s0) o ls).
Proof. exact c77_after. Qed.
Print Assumptions C77_after.

(** an example with nested terms, an elided name, extra cells, columns, a Header
    row and a section that is entered twice *)
Definition doc77 : list (list string) :=
  [["Title"; "A set"]; ["Version"; "1"; "x"]; ["Section"; "Schema"; "DataType"; "Width"];
   ["Table"; "people"]; ["Table.Column"; "id"; "integer"; "4"]; ["Column.Note"; "key"]; ["# comment"]; ["Table.Column"; "name"; ""; "10"; "extra"];
   ["Section"; "Contacts"; "Email"]; ["Wrangler"; "Ann"; "a@x"]; [".Org"; "Acme"; "o@x"];
   ["Section"; "SCHEMA"; "ignored"]; ["Header"; "Name"; "Kind"]; ["Table"; "towns"; "t"]; ["Table.Column"; "zip"]].
Definition lines77 : list line := Eval vm_compute in match read_rows doc77 with Some ls => ls | None => [] end.
Definition outline77 : list sect :=
  [mk_sect "Root" [] [Tree "title" "A set" []; Tree "version" "1" [Tree "0" "x" []]];
   mk_sect "Schema" ["Kind"]
     [Tree "table" "people"
        [Tree "column" "id" [Tree "datatype" "integer" []; Tree "width" "4" []; Tree "note" "key" []];
         Tree "column" "name" [Tree "width" "10" []; Tree "2" "extra" []]];
      Tree "table" "towns" [Tree "kind" "t" []; Tree "column" "zip" []]];
   mk_sect "Contacts" ["Email"] [Tree "wrangler" "Ann" [Tree "email" "a@x" []; Tree "org" "Acme" []; Tree "email" "o@x" []]]].
Example C77_ex : means doc77 lines77 /\ Forall sound lines77
  /\ outline (world_of here) lines77 = outline77 /\ exists s, loads here doc77 s /\ shows_doc s outline77.
Proof.
  assert (M : means doc77 lines77) by (apply means_by; vm_compute; reflexivity).
  split; [exact M|]. split; [unfold lines77; repeat constructor; try discriminate; intros [A B]; discriminate A|].
  assert (E : outline (world_of here) lines77 = outline77) by (vm_compute; reflexivity). split; [exact E|].
  exists (fst (load_into here doc77)). assert (L : loads here doc77 (fst (load_into here doc77))) by (vm_compute; reflexivity).
  split; [exact L|]. rewrite <- E. apply (c77_outline here doc77); auto. exact here_proper.
Qed.

(** a row "a.a" and the rows below it are in no section *)
Example C77_self : exists s, loads here [["A"; "1"]; ["A.A"; "2"]; ["A.B"; "3"]; ["C"; "4"]] s
  /\ shows_doc s [mk_sect "Root" [] [Tree "a" "1" []; Tree "c" "4" []]].
Proof.
  eexists. split; [vm_compute; reflexivity|].
  change [mk_sect "Root" [] [Tree "a" "1" []; Tree "c" "4" []]] with
    (outline (world_of here) [LTerm "root" "a" "1" []; LTerm "a" "a" "2" []; LTerm "a" "b" "3" []; LTerm "root" "c" "4" []]).
  apply (c77_outline here [["A"; "1"]; ["A.A"; "2"]; ["A.B"; "3"]; ["C"; "4"]]); [exact here_proper|apply means_by; vm_compute; reflexivity|vm_compute; reflexivity].
Qed.

(** ** After a declaration *)

Definition rows77 : list (list string) :=
  [["Title"; "T"; "more"]; ["Section"; "Resources"]; ["Datafile"; "u"; "CA"]; ["Datafile.Note"; "n"]; ["Header"; "Url"; "Kind"]; ["Datafile"; "v"; "k"; "2"]; ["Root.Title"; "S"]].
Definition lines77d : list line := Eval vm_compute in match read_rows rows77 with Some ls => ls | None => [] end.
Definition state77 : st := Eval vm_compute in
  let s := new_doc (in_reg place61) [] [] [] in
  fst (rows_to env61 true (generate_terms env61 true 1) (mk_source None "" (head61 ++ rows77)) None 1 head61 0 (set_s_prs (fresh_parser s) s)).
Definition doc77d : st := Eval vm_compute in fst (load_into place61 (head61 ++ rows77)).

Lemma after77 : loads_after place61 head61 rows77 ["declaredterms"] state77 lines77d doc77d.
Proof.
  split.
  - vm_compute. reflexivity.
  - exists 0. vm_compute. reflexivity.
  - apply calm_by. vm_compute. reflexivity.
  - apply means_by; vm_compute; reflexivity.
  - intros k [<-|[]] [E|[]]. discriminate E.
Qed.

(** the columns of the declaration file are still in force for the rows between it
    and the next heading: the second cell of the title is called "termvaluename".
    Here are the terms added to each section, with name, value, name of the parent, type and name of the value *)
Fixpoint told (t : rose) : list (string * string * meta) := match t with Rose e kids => (e_name e, e_value e, e_meta e) :: concat (map told kids) end.
Example C77_added_ex : loads_after place61 head61 rows77 ["declaredterms"] state77 lines77d doc77d
  /\ among_themselves (cols_in state77) (view_past head61 state77 []) lines77d
  /\ map (fun h => (h_key h, columns h)) (heads (world_in state77) (view_past head61 state77 []) (heads_of state77) lines77d)
     = [("root", []); ("declaredterms", ["TermValueName"; "ChildPropertyType"; "Section"]); ("resources", ["Kind"])]
  /\ map (fun h => (h_key h, map told (tops (h_key h) (made (world_in state77) (view_past head61 state77 []) (heads_of state77) lines77d))))
       (heads (world_in state77) (view_past head61 state77 []) (heads_of state77) lines77d)
     = [("root", [[("title", "T", mk_meta "root" "any" "@value"); ("termvaluename", "more", mk_meta "title" "any" "@value")]]);
        ("declaredterms", []);
        ("resources",
         [[("datafile", "u", mk_meta "root" "Sequence" "Url"); ("0", "CA", mk_meta "datafile" "any" "@value"); ("note", "n", mk_meta "datafile" "any" "@value")];
          [("datafile", "v", mk_meta "root" "Sequence" "Url"); ("kind", "k", mk_meta "datafile" "any" "url"); ("1", "2", mk_meta "datafile" "any" "url")];
          [("title", "S", mk_meta "root" "any" "url")]])]
  /\ map (fun kv => (fst kv, t_terms (tget (snd kv) doc77d))) (d_sections (s_doc doc77d))
     = [("root", [1; 18]); ("declaredterms", [8; 10; 12; 14]); ("resources", [21; 25; 28])].
Proof. split; [exact after77|]. split; [vm_compute; repeat split; discriminate|]. split; [vm_compute; reflexivity|]. split; vm_compute; reflexivity. Qed.

(** after an included file, the document it describes is continued *)
Definition part77 : list (list string) := [["Title"; "A set"]; ["Section"; "Contacts"; "Email"]; ["Wrangler"; "Ann"; "a@x"]; ["Wrangler.Org"; "Acme"]].
Definition env77 : env := mk_env (fun n => eqs n "http://part") (fun _ => None) (fun n => if eqs n "http://part" then Some part77 else None).
Definition place77 : place := mk_place env77 2 None "" default_classes [] [] [].
Definition head77 : list (list string) := [["Include"; "http://part"]].
Definition rows77c : list (list string) := [["Section"; "contacts"]; ["Creator"; "Bo"; "b@x"]; ["Creator.Org"; "Co"]; ["Section"; "Notes"]; ["Note"; "n"; "m"]].
Definition lines77c : list line := Eval vm_compute in match read_rows rows77c with Some ls => ls | None => [] end.
Definition state77c : st := Eval vm_compute in
  let s := new_doc (in_reg place77) [] [] [] in
  fst (rows_to env77 true (generate_terms env77 true 1) (mk_source None "" (head77 ++ rows77c)) None 1 head77 0 (set_s_prs (fresh_parser s) s)).
Definition doc77c : st := Eval vm_compute in fst (load_into place77 (head77 ++ rows77c)).
Definition before77 : list sect :=
  [mk_sect "Root" [] [Tree "include" "http://part" []; Tree "title" "A set" []];
   mk_sect "Contacts" ["Email"] [Tree "wrangler" "Ann" [Tree "email" "a@x" []; Tree "org" "Acme" []]]].
Example C77_after_ex : loads_after place77 head77 rows77c [] state77c lines77c doc77c
  /\ among_themselves (cols_in state77c) (view_past head77 state77c []) lines77c
  /\ shows_doc state77c before77 /\ Forall (fun c => Forall well_named (sc_terms c)) before77
  /\ outline_from (world_in state77c) (view_past head77 state77c []) (heads_of state77c) before77 lines77c
     = [mk_sect "Root" [] [Tree "include" "http://part" []; Tree "title" "A set" []];
        mk_sect "Contacts" ["Email"]
          [Tree "wrangler" "Ann" [Tree "email" "a@x" []; Tree "org" "Acme" []]; Tree "creator" "Bo" [Tree "email" "b@x" []; Tree "org" "Co" []]];
        mk_sect "Notes" [] [Tree "note" "n" [Tree "0" "m" []]]].
Proof.
  split.
  { split.
    - vm_compute. reflexivity.
    - exists 0. vm_compute. reflexivity.
    - apply calm_by. vm_compute. reflexivity.
    - apply means_by; vm_compute; reflexivity.
    - intros k _ []. }
  split; [vm_compute; repeat split; discriminate|]. split; [repeat (econstructor; try (vm_compute; reflexivity)); reflexivity|].
  split; [repeat constructor; discriminate|]. vm_compute. reflexivity.
Qed.
