(** * C89: a file loaded into a document that is not empty *)

From Verif Require Import SpecNames PyBase State SpecParse Parser SpecInv SpecInclude SpecHead SpecRound SpecOutline SpecMore ParseProps HeadFacts MoreFacts PropParse PropRound PropHead SpecDoc.

(** files loaded one after another into a new document: the document is the
    outline of all of them *)
Theorem C89_files : forall g e fuel srcs lss s, proper g -> Forall2 (fun src ls => means (src_rows src) ls) srcs lss -> Forall (Forall sound) lss ->
  loads_all e fuel srcs (blank_doc g) s -> shows_doc s (outline_files g lss).
Proof. exact c89_files. Qed.
Print Assumptions C89_files.

(** they are all read, if the rows of each file can be placed in that file *)
Theorem C89_read : forall g e fuel srcs lss, proper g -> plain_classes g -> NoDup (dkeys (in_super g)) -> fuel <> 0 ->
  Forall2 (fun src ls => means (src_rows src) ls) srcs lss -> Forall (Forall sound) lss -> Forall placed_file lss ->
  exists s, loads_all e fuel srcs (blank_doc g) s /\ shows_doc s (outline_files g lss).
Proof. exact c89_read. Qed.
Print Assumptions C89_read.

(** the outline of one file is that of C77 *)
Theorem C89_one : forall g ls, outline_files g [ls] = outline (world_of g) ls.
Proof. exact c89_one. Qed.
Print Assumptions C89_one.

(** a file loaded into any document, wherever it comes from, that a new parser
    finds in good order: its terms come after those that are there *)
Theorem C89_added : forall odd e fuel src ls s s' o, calm odd (reopened s) -> means (src_rows src) ls -> (forall k, In k (headings ls) -> ~ In k odd) ->
  load_source e fuel src s = (s', Ok tt) -> shows_doc s o -> named_doc o ->
  shows_doc s' (outline_from (world_in (reopened s)) (fresh_view (heads_of s)) (heads_of s) o ls).
Proof. exact c89_added. Qed.
Print Assumptions C89_added.

(** and what is recorded of them; the terms that are there stay as they are *)
Theorem C89_recorded : forall odd e fuel src ls s s', calm odd (reopened s) -> means (src_rows src) ls -> (forall k, In k (headings ls) -> ~ In k odd) ->
  load_source e fuel src s = (s', Ok tt) ->
  Forall2 (fun kv h => fst kv = h_key h /\ exists new, t_terms (tget (snd kv) s') = (terms_of s (h_key h) ++ new)%list
     /\ Forall2 (keeps s') (tops (h_key h) (made (world_in (reopened s)) (fresh_view (heads_of s)) (heads_of s) ls)) new)
    (d_sections (s_doc s')) (heads (world_in (reopened s)) (fresh_view (heads_of s)) (heads_of s) ls)
  /\ forall i, i < hlen s -> i <> d_root (s_doc s) ->
       t_rt (tget i s') = t_rt (tget i s) /\ t_val (tget i s') = t_val (tget i s) /\ t_children (tget i s') = t_children (tget i s).
Proof. exact c89_recorded. Qed.
Print Assumptions C89_recorded.

(** then the document is in good order again *)
Theorem C89_again : forall odd e fuel src ls s s', calm odd (reopened s) -> means (src_rows src) ls -> (forall k, In k (headings ls) -> ~ In k odd) ->
  load_source e fuel src s = (s', Ok tt) -> calm odd (reopened s').
Proof. exact c89_again. Qed.
Print Assumptions C89_again.

(** as it is after a first file with Declare and Include rows, unless that declares
    a column named "section" for a section that is not odd *)
Theorem C89_reopen : forall g head rows odd s0 ls s, loads_after g head rows odd s0 ls s -> ~ In "root" odd ->
  (forall n, ~ In (lower (strip n)) odd -> ~ In "section" (map lower (map strip (declared_columns (d_decl_sections (s_doc s)) n)))) ->
  calm odd (reopened s).
Proof. exact c89_reopen. Qed.
Print Assumptions C89_reopen.

(** the names of the first file mean nothing in the second: a row can go below a
    row of its own file only, and any other is refused *)
Theorem C89_accepted : forall odd e fuel src ls s, calm odd (reopened s) -> plain_classes_in (reopened s) -> fuel <> 0 ->
  means (src_rows src) ls -> Forall sound ls -> (forall k, In k (headings ls) -> ~ In k odd) -> placed_file ls ->
  exists s', load_source e fuel src s = (s', Ok tt).
Proof. exact c89_accepted. Qed.
Print Assumptions C89_accepted.

Theorem C89_apart : forall odd e fuel r0 d0 rows row post ls p r x cells s, calm odd (reopened s) -> plain_classes_in (reopened s) -> fuel <> 0 ->
  means rows ls -> Forall sound ls -> (forall k, In k (headings ls) -> ~ In k odd) -> placed_file ls ->
  reads row (LTerm p r x cells) -> usual (LTerm p r x cells) -> sound (LTerm p r x cells) -> ~ placed ls (LTerm p r x cells) ->
  exists s', load_source e fuel (mk_source r0 d0 (rows ++ row :: post)) s = (s', Err EParser).
Proof. exact c89_apart. Qed.
Print Assumptions C89_apart.

(** ** Examples *)

Definition one89 : list (list string) :=
  [["Title"; "One"]; ["Section"; "Contacts"; "Email"]; ["Wrangler"; "Ann"; "a@x"]; ["Wrangler.Org"; "Acme"];
   ["Section"; "Notes"]; ["Header"; "Note"; "Kind"]; ["Note"; "n"; "k"]].
Definition two89 : list (list string) :=
  [["Title"; "Two"; "z"]; [".Sub"; "s"]; ["Section"; "CONTACTS"; "Phone"]; ["Wrangler"; "Bo"; "b@x"]; ["Wrangler.Org"; "Co"];
   ["Section"; "Notes"]; ["Note"; "m"; "j"]; ["Section"; "More"]; ["Item"; "i"]].
Definition lines89 (rows : list (list string)) : list line := match read_rows rows with Some ls => ls | None => [] end.
Definition both89 : list source := [mk_source (Some "one.csv") "." one89; mk_source (Some "two.csv") "." two89].
Definition doc89 : st := Eval vm_compute in fst (load_source no_files 1 (mk_source (Some "two.csv") "." two89)
  (fst (load_source no_files 1 (mk_source (Some "one.csv") "." one89) (blank_doc here)))).

(** the second file starts in the root section, without columns; the columns of a
    section it comes back to are those of the first heading, not those of the
    Header row *)
Example C89_ex : proper here /\ Forall2 (fun src ls => means (src_rows src) ls) both89 [lines89 one89; lines89 two89]
  /\ Forall (Forall sound) [lines89 one89; lines89 two89]
  /\ loads_all no_files 1 both89 (blank_doc here) doc89
  /\ outline_files here [lines89 one89; lines89 two89] =
     [mk_sect "Root" [] [Tree "title" "One" []; Tree "title" "Two" [Tree "0" "z" []; Tree "sub" "s" []]];
      mk_sect "Contacts" ["Email"] [Tree "wrangler" "Ann" [Tree "email" "a@x" []; Tree "org" "Acme" []]; Tree "wrangler" "Bo" [Tree "email" "b@x" []; Tree "org" "Co" []]];
      mk_sect "Notes" ["Kind"] [Tree "note" "n" [Tree "kind" "k" []]; Tree "note" "m" [Tree "0" "j" []]];
      mk_sect "More" [] [Tree "item" "i" []]]
  /\ outline (world_of here) (lines89 (one89 ++ two89)) <> outline_files here [lines89 one89; lines89 two89].
Proof.
  split; [exact here_proper|]. split; [constructor; [apply means_by; vm_compute; reflexivity|constructor; [apply means_by; vm_compute; reflexivity|constructor]]|].
  split; [vm_compute; repeat constructor; try discriminate; intros [A B]; discriminate A|].
  split; [repeat (econstructor; [vm_compute; reflexivity|]); constructor|]. split; [vm_compute; reflexivity|]. vm_compute. discriminate.
Qed.

(** a row of the second file below a term of the first *)
Definition first89 : st := Eval vm_compute in fst (load_source no_files 1 (mk_source (Some "one.csv") "." one89) (blank_doc here)).
Example C89_apart_ex : calm [] (reopened first89) /\ plain_classes_in (reopened first89)
  /\ ~ placed [] (LTerm "wrangler" "phone" "1" [])
  /\ snd (load_source no_files 1 (mk_source None "" [["Wrangler.Phone"; "1"]]) first89) = Err EParser
  /\ snd (load_source no_files 1 (mk_source None "" (one89 ++ [["Wrangler.Phone"; "1"]])) (blank_doc here)) = Ok tt.
Proof.
  split; [apply calm_by; vm_compute; reflexivity|]. split; [exact here_plain|].
  split; [|split; vm_compute; reflexivity].
  intros [E|[E|[E|(k & pre & x & post & E & _)]]]; try discriminate E. destruct pre; discriminate E.
Qed.

(** a second file after a first one with a Declare row *)
Definition two89d : list (list string) := [["Title"; "T"; "more"]; ["Section"; "Resources"]; ["Datafile"; "u"; "CA"]].
Definition decl89 : st := Eval vm_compute in fst (load_into place61 head61).
Definition next89 : st := Eval vm_compute in fst (load_source no_files 1 (mk_source None "" two89d) decl89).
Example C89_declared_ex : calm ["declaredterms"] (reopened decl89) /\ snd (load_into place61 head61) = Ok tt
  /\ means two89d (lines89 two89d) /\ load_source no_files 1 (mk_source None "" two89d) decl89 = (next89, Ok tt)
  /\ map (fun c => (sc_name c, sc_terms c)) (outline_from (world_in (reopened decl89)) (fresh_view (heads_of decl89)) (heads_of decl89) [] (lines89 two89d))
     = [("Root", [Tree "title" "T" [Tree "0" "more" []]]); ("DeclaredTerms", []); ("Resources", [Tree "datafile" "u" [Tree "space" "CA" []]])]
  /\ map (fun t => t_tvn (tget t next89)) (match doc_find next89 "Datafile" VFalse SAny with Ok l => l | Err _ => [] end) = ["Url"].
Proof.
  split; [apply calm_by; vm_compute; reflexivity|]. split; [vm_compute; reflexivity|]. split; [apply means_by; vm_compute; reflexivity|].
  split; [vm_compute; reflexivity|]. split; vm_compute; reflexivity.
Qed.
