(** * PropParse: the rows of a file and the terms made from them
    (C04 - C10, C14, C16)

    [loads g rows s]: loading the file [rows] into the new document of [g]
    succeeds with the document [s].  [means rows ls]: the rows read as the lines
    [ls], and none of them is an Include or Declare row, is named by a number or
    by a name the parser itself uses, or has a column named "section"
    (SpecParse.v, SpecDoc.v). *)

From Coq Require Import Sorted.
From Verif Require Import SpecNames Parser SpecDoc ForestFacts ParseProps TotalFacts MetaFacts RunFacts RowFacts.

Definition no_files : env := mk_env (fun _ => false) (fun _ => None) (fun _ => None).
Definition here : place := mk_place no_files 1 None "" default_classes [] [] [].

Lemma here_proper : proper here.
Proof. split; [exact default_good_reg|]. intros n []. Qed.

(** name, value and names of the children of a term *)
Definition shown (s : st) (t : nat) : string * string * val * list string :=
  let r := tget t s in (t_pt r, t_rt r, t_val r, map (fun c => t_rt (tget c s)) (t_children r)).

(** ** Which files are accepted *)

(** a file whose rows all name a known parent is accepted *)
Theorem C05_accepted : forall g rows ls, proper g -> plain_classes g -> in_fuel g <> 0 -> means rows ls -> Forall sound ls ->
  (forall pre l post, ls = (pre ++ l :: post)%list -> placed pre l) -> exists s, loads g rows s.
Proof. exact loads_total. Qed.
Print Assumptions C05_accepted.

(** the first row whose parent was never used stops the parse with ParserError,
    whatever comes after it *)
Theorem C05_missing : forall g rows ls row p r x cells post, proper g -> plain_classes g -> in_fuel g <> 0 ->
  means rows ls -> Forall sound ls ->
  (forall pre l post, ls = (pre ++ l :: post)%list -> placed pre l) ->
  reads row (LTerm p r x cells) -> usual (LTerm p r x cells) -> sound (LTerm p r x cells) -> ~ placed ls (LTerm p r x cells) ->
  exists s, load_into g (rows ++ row :: post) = (s, Err EParser).
Proof. exact loads_missing. Qed.
Print Assumptions C05_missing.

(** ** C04 *)

Theorem C04_cells : forall g rows lpre p r x cells lpost s, proper g ->
  means rows (lpre ++ LTerm p r x cells :: lpost) -> loads g rows s ->
  exists t own q before after, line_term s (S (List.length lpre)) t
    /\ (forall u, from_line s (S (List.length lpre)) u <-> u = t \/ In u own)
    /\ NoDup (t :: own)
    /\ map (fun u => (t_rt (tget u s), t_val (tget u s))) own
       = map (fun nc => (fst nc, VStr (snd nc))) (cells_from (v_cols (view_after (cols_of g) lpre)) 0 cells)
    /\ t_children (tget q s) = (before ++ own ++ after)%list
    /\ (forall u, In u own -> t_parent (tget u s) = Some q).
Proof. exact c04. Qed.
Print Assumptions C04_cells.

Definition doc04 : list (list string) :=
  [["Section"; "Contacts"; "Email"; ""; "Phone"];
   ["Wrangler"; " Ann "; " a@x "; ""; ""; "4th"];
   ["Creator"; "Bob"; ""; "two"; "555"]].
Definition lines04 : list line :=
  [LSection "Contacts" ["Email"; ""; "Phone"];
   LTerm "root" "wrangler" "Ann" ["a@x"; ""; ""; "4th"];
   LTerm "root" "creator" "Bob" [""; "two"; "555"]].
Example C04_ex : means doc04 lines04 /\ exists s, loads here doc04 s
  /\ cells_from (v_cols (view_after (cols_of here) (firstn 1 lines04))) 0 ["a@x"; ""; ""; "4th"] = [("email", "a@x"); ("3", "4th")]
  /\ shown s 2 = ("root", "wrangler", VStr "Ann", ["email"; "3"])
  /\ shown s 5 = ("root", "creator", VStr "Bob", ["1"; "phone"]).
Proof.
  split; [apply means_by; vm_compute; reflexivity|].
  exists (fst (load_into here doc04)). vm_compute. repeat split; reflexivity.
Qed.

(** ** C05 *)

(** a row "P.c" is a child of the most recent row named P, after all the earlier ones *)
Theorem C05_parent : forall g rows lpre p r x cells lpost s, proper g ->
  means rows (lpre ++ LTerm p r x cells :: lpost) -> loads g rows s ->
  p <> current_parent -> p <> "root" -> p <> r ->
  exists l t q before after, most_recent p lpre l /\ line_term s (S (List.length lpre)) t /\ line_term s l q
    /\ t_rt (tget q s) = p /\ t_rt (tget t s) = r /\ t_parent (tget t s) = Some q
    /\ t_children (tget q s) = (before ++ t :: after)%list
    /\ (forall u, In u before -> u < t) /\ (forall u, In u after -> t < u)
    /\ (forall u k, from_line s k u -> k < S (List.length lpre) -> u < t).
Proof. exact c05. Qed.
Print Assumptions C05_parent.

Theorem C05_root : forall g rows lpre r x cells lpost s, proper g ->
  means rows (lpre ++ LTerm "root" r x cells :: lpost) -> loads g rows s ->
  exists t before after, line_term s (S (List.length lpre)) t /\ t_parent (tget t s) = Some (d_root (s_doc s))
    /\ t_children (tget (d_root (s_doc s)) s) = (before ++ t :: after)%list
    /\ (forall u, In u before -> u < t) /\ (forall u, In u after -> t < u).
Proof. exact c05_root. Qed.
Print Assumptions C05_root.

Definition doc05 : list (list string) :=
  [["Table"; "one"]; ["Section"; "Other"]; ["Table"; "two"]; ["Note"; "n"]; ["Table.Column"; "id"]; ["Column.Width"; "3"]].
Definition lines05 : list line :=
  [LTerm "root" "table" "one" []; LSection "Other" []; LTerm "root" "table" "two" []; LTerm "root" "note" "n" [];
   LTerm "table" "column" "id" []; LTerm "column" "width" "3" []].
Example C05_ex : means doc05 lines05 /\ Forall sound lines05 /\ exists s, loads here doc05 s
  /\ shown s 1 = ("root", "table", VStr "one", [])
  /\ shown s 3 = ("root", "table", VStr "two", ["column"])
  /\ shown s 5 = ("table", "column", VStr "id", ["width"]).
Proof.
  split; [apply means_by; vm_compute; reflexivity|]. split; [repeat constructor; try discriminate; intros [E _]; discriminate E|].
  exists (fst (load_into here doc05)). vm_compute. repeat split; reflexivity.
Qed.
Example C05_missing_ex : snd (load_into here [["Table"; "one"]; ["Column.Width"; "3"]; ["Column"; "late"]]) = Err EParser
  /\ ~ placed [LTerm "root" "table" "one" []] (LTerm "column" "width" "3" []).
Proof.
  split; [vm_compute; reflexivity|]. cbn [placed]. intros [H|[H|[H|(k & pre & x & post & E & _ & (q & y & c & U & _) & _)]]]; try discriminate H.
  destruct pre as [|z pre]; [injection E as <- _; discriminate U|]. injection E as _ E. destruct pre; discriminate E.
Qed.

(** a row with an elided parent is not remembered as a parent *)
Theorem C05_elided_refuted : exists rows, rows = [["A"; "1"]; [".P"; "2"]; ["P.C"; "3"]] /\ snd (load_into here rows) = Err EParser.
Proof. eexists. split; [reflexivity|]. vm_compute. reflexivity. Qed.
Print Assumptions C05_elided_refuted.

(** ** C06 *)

(** parent, name and value are the same; so are the meta data of names that are
    not declared *)
Theorem C06_elided_partial : forall g rows1 rows2 lpre p r x cells lpost1 lpost2 s1 s2, proper g ->
  means rows1 (lpre ++ LTerm current_parent r x cells :: lpost1) -> loads g rows1 s1 ->
  means rows2 (lpre ++ LTerm p r x cells :: lpost2) -> loads g rows2 s2 ->
  nth_error rows1 (List.length lpre) <> None ->
  option_map (@tl string) (nth_error rows1 (List.length lpre)) = option_map (@tl string) (nth_error rows2 (List.length lpre)) ->
  p = v_parent (view_after (cols_of g) lpre) -> p <> r ->
  exists t1 t2 q1 q2, line_term s1 (S (List.length lpre)) t1 /\ line_term s2 (S (List.length lpre)) t2
    /\ same_shape s1 s2 t1 t2 /\ t_parent (tget t1 s1) = Some q1 /\ t_parent (tget t2 s2) = Some q2
    /\ (p = "root" -> q1 = d_root (s_doc s1) /\ q2 = d_root (s_doc s2))
    /\ (p <> "root" -> exists l, most_recent p lpre l /\ line_term s1 l q1 /\ line_term s2 l q2)
    /\ (dget (dotted p r) installed_terms = None -> dget (dotted p r) (in_terms g) = None ->
        v_vname (view_after (cols_of g) lpre) <> "" ->
        t_valid (tget t1 s1) = t_valid (tget t2 s2) /\ t_cpt (tget t1 s1) = t_cpt (tget t2 s2) /\ t_tvn (tget t1 s1) = t_tvn (tget t2 s2)).
Proof. exact c06. Qed.
Print Assumptions C06_elided_partial.

(** the meta data of a declared name are not those of the explicit row *)
Theorem C06_declared_refuted : exists s1 s2,
  loads here [["DeclareValueSet"; "x"]; ["DeclareValueSet.Value"; "v"]] s1
  /\ loads here [["DeclareValueSet"; "x"]; [".Value"; "v"]] s2
  /\ t_pt (tget 2 s1) = t_pt (tget 2 s2) /\ t_rt (tget 2 s1) = t_rt (tget 2 s2)
  /\ t_valid (tget 2 s1) = Some true /\ t_valid (tget 2 s2) = Some false
  /\ t_cpt (tget 2 s1) = "sequence" /\ t_cpt (tget 2 s2) = "any"
  /\ t_tvn (tget 2 s1) = "value" /\ t_tvn (tget 2 s2) = "@value".
Proof.
  exists (fst (load_into here [["DeclareValueSet"; "x"]; ["DeclareValueSet.Value"; "v"]])),
         (fst (load_into here [["DeclareValueSet"; "x"]; [".Value"; "v"]])). vm_compute. repeat split; reflexivity.
Qed.
Print Assumptions C06_declared_refuted.

Example C06_ex : means [["Table"; "one"]; [".Column"; "id"]] [LTerm "root" "table" "one" []; LTerm current_parent "column" "id" []]
  /\ means [["Table"; "one"]; ["Table.Column"; "id"]] [LTerm "root" "table" "one" []; LTerm "table" "column" "id" []]
  /\ v_parent (view_after (cols_of here) [LTerm "root" "table" "one" []]) = "table"
  /\ exists s1 s2, loads here [["Table"; "one"]; [".Column"; "id"]] s1 /\ loads here [["Table"; "one"]; ["Table.Column"; "id"]] s2
     /\ shown s1 1 = ("root", "table", VStr "one", ["column"]) /\ shown s2 1 = shown s1 1
     /\ shown s1 2 = ("table", "column", VStr "id", []) /\ shown s2 2 = shown s1 2.
Proof.
  split; [apply means_by; vm_compute; reflexivity|]. split; [apply means_by; vm_compute; reflexivity|]. split; [vm_compute; reflexivity|].
  exists (fst (load_into here [["Table"; "one"]; [".Column"; "id"]])), (fst (load_into here [["Table"; "one"]; ["Table.Column"; "id"]])).
  vm_compute. repeat split; reflexivity.
Qed.

(** ** C07 *)

Theorem C07_own_partial : forall g rows lpre p r x cells lpost s, proper g ->
  means rows (lpre ++ LTerm p r x cells :: lpost) -> loads g rows s -> p <> current_parent ->
  exists t, line_term s (S (List.length lpre)) t
    /\ forall u, from_line s (S (List.length lpre)) u -> u <> t -> t_parent (tget u s) = Some t /\ In u (t_children (tget t s)).
Proof. exact c07. Qed.
Print Assumptions C07_own_partial.

(** with an elided name the cells become children of the parent *)
Theorem C07_elided_refuted : exists s,
  loads here [["Section"; "S"; "Width"]; ["Table"; "one"]; [".Column"; "id"; "3"]] s
  /\ line_term s 3 3 /\ shown s 3 = ("table", "column", VStr "id", [])
  /\ from_line s 3 4 /\ t_parent (tget 4 s) = Some 2 /\ shown s 2 = ("root", "table", VStr "one", ["column"; "width"]).
Proof.
  exists (fst (load_into here [["Section"; "S"; "Width"]; ["Table"; "one"]; [".Column"; "id"; "3"]])).
  vm_compute. repeat split; try reflexivity; repeat constructor.
Qed.
Print Assumptions C07_elided_refuted.

Example C07_ex : exists s, loads here doc04 s /\ from_line s 2 3 /\ t_parent (tget 3 s) = Some 2 /\ t_children (tget 2 s) = [3; 4].
Proof. exists (fst (load_into here doc04)). vm_compute. repeat split; try reflexivity; repeat constructor. Qed.

(** ** C08 *)

Theorem C08_forest_partial : forall g rows ls s, proper g -> means rows ls -> Forall (fun l => ~ own_parent l) ls -> loads g rows s ->
  (forall c, in_document s c ->
     exists q, q < c /\ c < hlen s /\ t_parent (tget c s) = Some q /\ count_occ Nat.eq_dec (t_children (tget q s)) c = 1
       /\ forall q', q' < hlen s -> In c (t_children (tget q' s)) -> q' = q)
  /\ (forall c, c < hlen s -> ancestor s (S c) c = None).
Proof. exact c08. Qed.
Print Assumptions C08_forest_partial.

(** also with such rows, children and parents agree *)
Theorem C08_linked : forall g rows ls s, proper g -> means rows ls -> loads g rows s ->
  forall q c, q < hlen s -> In c (t_children (tget q s)) -> c < hlen s /\ t_parent (tget c s) = Some q.
Proof. intros g rows ls s P M L. exact (lk_child s (loads_linked g rows ls s P M L)). Qed.
Print Assumptions C08_linked.

(** a row "A.A" is its own parent *)
Theorem C08_cycle_refuted : exists s, loads here [["A.A"; "1"]] s /\ t_parent (tget 1 s) = Some 1 /\ t_children (tget 1 s) = [1]
  /\ forall n, ancestor s n 1 = Some 1.
Proof.
  exists (fst (load_into here [["A.A"; "1"]])). split; [vm_compute; reflexivity|]. split; [vm_compute; reflexivity|]. split; [vm_compute; reflexivity|].
  induction n as [|n IH]; [reflexivity|]. cbn [ancestor].
  assert (E : t_parent (tget 1 (fst (load_into here [["A.A"; "1"]]))) = Some 1) by (vm_compute; reflexivity). rewrite E. exact IH.
Qed.
Print Assumptions C08_cycle_refuted.

Example C08_ex : means doc05 lines05 /\ Forall (fun l => ~ own_parent l) lines05 /\ exists s, loads here doc05 s
  /\ in_document s 6 /\ ancestor s 1 6 = Some 5 /\ ancestor s 2 6 = Some 3 /\ ancestor s 3 6 = Some 0 /\ ancestor s 4 6 = None.
Proof.
  split; [apply means_by; vm_compute; reflexivity|].
  split; [repeat constructor; intros (r & x & c & E); inversion E; subst; discriminate|].
  exists (fst (load_into here doc05)). split; [vm_compute; reflexivity|]. split; [right; exists 5; vm_compute; split; [repeat constructor|auto]|].
  vm_compute. repeat split; reflexivity.
Qed.

(** ** C09 *)

(** [tops]: the root-level lines and the names of the headings above them *)
Theorem C09_sections : forall g rows ls s, proper g -> means rows ls -> loads g rows s ->
  exists tops, (forall l k, In (l, k) tops <->
      exists pre x post, ls = (pre ++ x :: post)%list /\ l = S (List.length pre) /\ root_level (cols_of g) pre x /\ k = current_heading pre)
    /\ StronglySorted lt (map fst tops)
    /\ Forall2 (fun t x => line_term s (fst x) t) (d_terms (s_doc s)) tops
    /\ (forall k i, dget k (d_sections (s_doc s)) = Some i ->
         Forall2 (fun t x => line_term s (fst x) t) (t_terms (tget i s)) (filter (fun x => eqs (snd x) k) tops))
    /\ (forall l k, In (l, k) tops -> In k (dkeys (d_sections (s_doc s))))
    /\ (forall l t t', line_term s l t -> line_term s l t' -> t = t').
Proof. exact c09. Qed.
Print Assumptions C09_sections.

Definition doc09 : list (list string) :=
  [["Title"; "t"]; ["Section"; "Notes"]; ["Note"; "1"]; ["Note.Sub"; "x"]; ["Section"; "Data"]; ["Table"; "2"];
   ["Section"; " NOTES "]; ["Note"; "3"]; ["Section"; "root"]; ["Last"; "4"]].
Definition lines09 : list line :=
  [LTerm "root" "title" "t" []; LSection "Notes" []; LTerm "root" "note" "1" []; LTerm "note" "sub" "x" []; LSection "Data" [];
   LTerm "root" "table" "2" []; LSection " NOTES " []; LTerm "root" "note" "3" []; LSection "root" []; LTerm "root" "last" "4" []].
Example C09_ex : means doc09 lines09 /\ exists s, loads here doc09 s
  /\ map (fun t => t_val (tget t s)) (d_terms (s_doc s)) = [VStr "t"; VStr "1"; VStr "2"; VStr "3"; VStr "4"]
  /\ map (fun ki => (fst ki, map (fun t => t_val (tget t s)) (t_terms (tget (snd ki) s)))) (d_sections (s_doc s))
     = [("root", [VStr "t"; VStr "4"]); ("notes", [VStr "1"; VStr "3"]); ("data", [VStr "2"])].
Proof.
  split; [apply means_by; vm_compute; reflexivity|]. exists (fst (load_into here doc09)). vm_compute. repeat split; reflexivity.
Qed.

(** ** C10 *)

Theorem C10_names : forall g rows ls s, proper g -> means rows ls -> loads g rows s ->
  dkeys (d_sections (s_doc s)) = firsts ("root" :: headings ls)
  /\ NoDup (dkeys (d_sections (s_doc s)))
  /\ (forall k i, dget k (d_sections (s_doc s)) = Some i -> exists n, t_val (tget i s) = VStr n /\ lower n = k)
  /\ (forall k k' i, dget k (d_sections (s_doc s)) = Some i -> dget k' (d_sections (s_doc s)) = Some i -> k = k')
  /\ (forall k i, k <> "root" -> dget k (d_sections (s_doc s)) = Some i ->
       exists pre n cells post, ls = (pre ++ LSection n cells :: post)%list /\ lower (strip n) = k /\ ~ In k (headings pre)
         /\ t_args (tget i s) = match cells with [] => map strip (cols_of g n) | _ => cells end).
Proof. exact c10. Qed.
Print Assumptions C10_names.

Definition doc10 : list (list string) :=
  [["Section"; "People"; "Email"]; ["Section"; "DATA"]; ["Section"; " people "; "Phone"]; ["Person"; "Ann"; "a@x"]].
Example C10_ex : exists s, loads here doc10 s /\ dkeys (d_sections (s_doc s)) = ["root"; "people"; "data"]
  /\ dget "people" (d_sections (s_doc s)) = Some 1 /\ t_args (tget 1 s) = ["Email"]
  /\ map (fun t => shown s t) (t_terms (tget 1 s)) = [("root", "person", VStr "Ann", ["email"])].
Proof. exists (fst (load_into here doc10)). vm_compute. repeat split; reflexivity. Qed.

(** ** C14 *)

Theorem C14_columns : forall g rows a n cols b p r x cells lpost s, proper g ->
  means rows (a ++ LHeader n cols :: b ++ LTerm p r x cells :: lpost) -> loads g rows s ->
  Forall (fun l => ~ heading_line l) b ->
  exists t own, line_term s (S (List.length (a ++ LHeader n cols :: b))) t
    /\ (forall u, from_line s (S (List.length (a ++ LHeader n cols :: b))) u <-> u = t \/ In u own)
    /\ map (fun u => (t_rt (tget u s), t_val (tget u s))) own = map (fun nc => (fst nc, VStr (snd nc))) (cells_from cols 0 cells)
    /\ ((p <> current_parent -> dget (dotted p r) installed_terms = None) -> dget (dotted "root" r) (in_terms g) = None -> n <> "" -> t_tvn (tget t s) = lower n).
Proof. exact c14. Qed.
Print Assumptions C14_columns.

Theorem C14_no_term : forall g rows lpre n cols lpost s, proper g ->
  means rows (lpre ++ LHeader n cols :: lpost) -> loads g rows s ->
  forall u, from_line s (S (List.length lpre)) u ->
    ~ in_document s u /\ (forall i, i < hlen s -> ~ In u (t_terms (tget i s))).
Proof. exact c14_no_term. Qed.
Print Assumptions C14_no_term.

Definition doc14 : list (list string) :=
  [["Section"; "People"; "Email"]; ["Person"; "Ann"; "a@x"]; ["Header"; "Name"; "Phone"; ""; "City"]; ["Person"; "Bob"; "555"; "q"; "Rome"];
   ["Section"; "Data"; "Rows"]; ["Table"; "t"; "9"]].
Example C14_ex : exists s, loads here doc14 s
  /\ map (fun t => (t_rt (tget t s), t_val (tget t s), t_tvn (tget t s), map (fun c => t_rt (tget c s)) (t_children (tget t s)))) (d_terms (s_doc s))
     = [("person", VStr "Ann", "@value", ["email"]); ("person", VStr "Bob", "name", ["phone"; "1"; "city"]); ("table", VStr "t", "@value", ["rows"])].
Proof. exists (fst (load_into here doc14)). vm_compute. repeat split; reflexivity. Qed.

(** the heading of the root section does not end the reach of a Header *)
Theorem C14_root_heading_refuted : exists s,
  loads here [["Section"; "People"]; ["Header"; "Name"; "Phone"]; ["Section"; "Root"]; ["Title"; "t"; "555"]] s
  /\ map (fun t => (t_rt (tget t s), t_tvn (tget t s), map (fun c => t_rt (tget c s)) (t_children (tget t s)))) (d_terms (s_doc s))
     = [("title", "name", ["phone"])].
Proof.
  exists (fst (load_into here [["Section"; "People"]; ["Header"; "Name"; "Phone"]; ["Section"; "Root"]; ["Title"; "t"; "555"]])).
  vm_compute. split; reflexivity.
Qed.
Print Assumptions C14_root_heading_refuted.

(** ** C16 *)

(** [consume_normal t]: the parser handles the value-bearing term [t] (parser.py:471-513)
    in any state, with any declarations [dt] *)
Theorem C16_meta : forall t s s' p r, t < hlen s -> t_pt (tget t s) = p -> t_rt (tget t s) = r -> lower p = p -> lower r = r ->
  p <> ELIDED_TERM -> consume_normal t s = (s', Ok tt) ->
  let dt := p_dterms (s_prs s) in let n := dotted p r in
  (exists b, t_valid (tget t s') = Some b /\ (b = true <-> exists td, dget n dt = Some td))
  /\ ((p = "root" ->
        (* the document declares the term as the parser does, or not at all; no empty declaration *)
        (dget n (d_decl_terms (s_doc s)) = None \/ dget n (d_decl_terms (s_doc s)) = dget n dt)
        /\ p_dtvn (s_prs s) <> "" /\ ~ declares dt n "termvaluename" "" /\ ~ declares dt n "childpropertytype" "") ->
      declared_or dt n "childpropertytype" "any" (t_cpt (tget t s'))
      /\ declared_or dt n "termvaluename" (p_dtvn (s_prs s)) (t_tvn (tget t s'))).
Proof. exact c16. Qed.
Print Assumptions C16_meta.

(** a declaration file, and a file that uses it *)
Definition decl16 : list (list string) :=
  [["Section"; "DeclaredTerms"; "Section"; "TermValueName"; "ChildPropertyType"];
   ["DeclareTerm"; "Root.Table"; ""; "Name"; "Sequence"]; ["DeclareTerm"; "Table.Column"; ""; "Label"; ""]].
Definition with_decl : env := mk_env (fun n => eqs n "decl.csv") (fun _ => None) (fun n => if eqs n "decl.csv" then Some decl16 else None).
Definition there : place := mk_place with_decl 2 None "" default_classes [] [] [].
Example C16_ex : exists s, loads there [["Declare"; "decl.csv"]; ["Table"; "t"]; ["Table.Column"; "c"]; ["Other"; "o"]] s
  /\ map (fun t => (t_rt (tget t s), t_valid (tget t s), t_cpt (tget t s), t_tvn (tget t s)))
         (filter (fun t => mem_str (t_rt (tget t s)) ["table"; "column"; "other"]) (seq 0 (hlen s)))
     = [("table", Some true, "Sequence", "Name"); ("column", Some true, "any", "Label"); ("other", Some false, "any", "@value")].
Proof.
  exists (fst (load_into there [["Declare"; "decl.csv"]; ["Table"; "t"]; ["Table.Column"; "c"]; ["Other"; "o"]])).
  vm_compute. split; reflexivity.
Qed.

(** a term with an elided parent never gets the declared meta data *)
Theorem C16_elided_refuted : exists s, loads there [["Declare"; "decl.csv"]; ["Table"; "t"]; [".Column"; "c"]] s
  /\ map (fun t => (tjoin (tget t s), t_valid (tget t s), t_tvn (tget t s)))
         (filter (fun t => eqs (t_rt (tget t s)) "column") (seq 0 (hlen s)))
     = [("table.column", Some false, "@value")].
Proof.
  exists (fst (load_into there [["Declare"; "decl.csv"]; ["Table"; "t"]; [".Column"; "c"]])). vm_compute. split; reflexivity.
Qed.
Print Assumptions C16_elided_refuted.
