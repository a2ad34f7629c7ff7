(** * PropHead: the rows after the first rows of a file (C61)

    The first rows [head] may be Declare or Include rows, or anything else; if
    they leave the parser in a calm state [s0], the rows that follow mean what
    the theorems of PropParse.v say of whole files, with [s0] for the empty
    document.  [loads_after g head rows odd s0 ls s]: loading [head ++ rows]
    passes through [s0] and ends in [s], and [rows] read as the lines [ls]
    (SpecHead.v). *)

From Coq Require Import Sorted.
From Verif Require Import Ops SpecInv SpecEdit SpecNames SpecParse Parser SpecDoc SpecInclude SpecHead StrFacts ParseProps HeadFacts PropParse.

(** ** One row *)

Theorem C61_cells : forall g head rows odd s0 lpre p r x cells lpost s, loads_after g head rows odd s0 (lpre ++ LTerm p r x cells :: lpost) s ->
  let n := S (List.length head + List.length lpre) in
  exists row t own q before after, nth_error rows (List.length lpre) = Some row /\ line_since s0 s n t
    /\ t_rt (tget t s) = r /\ t_val (tget t s) = cell_value (nth 1 row "")
    /\ (forall u, from_since s0 s n u <-> u = t \/ In u own)
    /\ NoDup (t :: own)
    /\ map (fun u => (t_rt (tget u s), t_val (tget u s))) own
       = map (fun nc => (fst nc, VStr (snd nc))) (cells_from (v_cols (view_past head s0 lpre)) 0 cells)
    /\ t_children (tget q s) = (before ++ own ++ after)%list
    /\ (forall u, In u own -> t_parent (tget u s) = Some q)
    /\ (p <> current_parent -> q = t).
Proof. exact h_cells. Qed.
Print Assumptions C61_cells.

(** the parent is the last row of that name since, or else the term known by
    that name before *)
Theorem C61_parent : forall g head rows odd s0 lpre p r x cells lpost s, loads_after g head rows odd s0 (lpre ++ LTerm p r x cells :: lpost) s ->
  p <> r ->
  let n := S (List.length head + List.length lpre) in
  let pn := if eqs p current_parent then v_parent (view_past head s0 lpre) else p in
  exists t q before after, line_since s0 s n t /\ t_rt (tget t s) = r /\ t_pt (tget t s) = pn /\ t_parent (tget t s) = Some q
    /\ (pn = "root" -> q = d_root (s_doc s))
    /\ (pn <> "root" -> (exists l, most_recent pn lpre l /\ line_since s0 s (List.length head + l) q /\ t_rt (tget q s) = pn)
                        \/ ((forall l, ~ most_recent pn lpre l) /\ dget pn (p_tmap (s_prs s0)) = Some q))
    /\ t_children (tget q s) = (before ++ t :: after)%list
    /\ (forall u, In u before -> u < t) /\ (forall u, In u after -> t < u)
    /\ (forall u k, from_since s0 s k u -> k < n -> u < t).
Proof. exact h_parent. Qed.
Print Assumptions C61_parent.

(** section and meta data: a term is valid exactly if the declarations read
    before it declare it *)
Theorem C61_meta : forall g head rows odd s0 lpre p r x cells lpost s, loads_after g head rows odd s0 (lpre ++ LTerm p r x cells :: lpost) s ->
  let n := S (List.length head + List.length lpre) in
  exists t, line_since s0 s n t /\ t_section (tget t s) = dget (v_cur (view_past head s0 lpre)) (d_sections (s_doc s))
    /\ (p <> current_parent -> t_valid (tget t s) = Some (dmem (dotted p r) (p_dterms (s_prs s0))))
    /\ (dget (dotted p r) (p_dterms (s_prs s0)) = None -> (t_pt (tget t s) = "root" -> dget (dotted "root" r) (d_decl_terms (s_doc s0)) = None) ->
        v_vname (view_past head s0 lpre) <> "" ->
        t_valid (tget t s) = Some false /\ t_cpt (tget t s) = "any" /\ t_tvn (tget t s) = v_vname (view_past head s0 lpre)).
Proof. exact h_meta. Qed.
Print Assumptions C61_meta.

(** ** Sections *)

Theorem C61_sections : forall g head rows odd s0 ls s, loads_after g head rows odd s0 ls s ->
  exists new tops, d_terms (s_doc s) = (d_terms (s_doc s0) ++ new)%list
    /\ (forall l k, In (l, k) tops <-> exists pre x post, ls = (pre ++ x :: post)%list /\ l = S (List.length head + List.length pre)
         /\ (exists p r v cells, x = LTerm p r v cells /\ (p = "root" \/ p = current_parent /\ v_parent (view_past head s0 pre) = "root"))
         /\ k = last (headings pre) (section_name s0))
    /\ StronglySorted lt (map fst tops)
    /\ Forall2 (fun t x => line_since s0 s (fst x) t) new tops
    /\ (forall k i, dget k (d_sections (s_doc s)) = Some i -> exists mine,
         t_terms (tget i s) = ((if (i <? hlen s0)%nat then t_terms (tget i s0) else []) ++ mine)%list
         /\ Forall2 (fun t x => line_since s0 s (fst x) t) mine (filter (fun x => eqs (snd x) k) tops))
    /\ (forall l k, In (l, k) tops -> In k (dkeys (d_sections (s_doc s))))
    /\ (forall l t t', line_since s0 s l t -> line_since s0 s l t' -> t = t').
Proof. exact h_sections. Qed.
Print Assumptions C61_sections.

Theorem C61_names : forall g head rows odd s0 ls s, loads_after g head rows odd s0 ls s ->
  dkeys (d_sections (s_doc s)) = firsts (dkeys (d_sections (s_doc s0)) ++ headings ls)
  /\ (forall k i, dget k (d_sections (s_doc s0)) = Some i -> dget k (d_sections (s_doc s)) = Some i /\ t_args (tget i s) = t_args (tget i s0))
  /\ (forall k i, dget k (d_sections (s_doc s)) = Some i -> exists n, t_val (tget i s) = VStr n /\ lower n = k)
  /\ (forall k k' i, dget k (d_sections (s_doc s)) = Some i -> dget k' (d_sections (s_doc s)) = Some i -> k = k')
  /\ (forall k i, dget k (d_sections (s_doc s0)) = None -> dget k (d_sections (s_doc s)) = Some i ->
       exists pre n cells post, ls = (pre ++ LSection n cells :: post)%list /\ lower (strip n) = k /\ ~ In k (headings pre)
         /\ t_args (tget i s) = match cells with [] => map strip (cols_in s0 n) | _ => cells end).
Proof. exact h_names. Qed.
Print Assumptions C61_names.

Theorem C61_header : forall g head rows odd s0 a n cols b p r x cells lpost s,
  loads_after g head rows odd s0 (a ++ LHeader n cols :: b ++ LTerm p r x cells :: lpost) s -> Forall (fun l => ~ heading_line l) b ->
  let k := S (List.length head + List.length (a ++ LHeader n cols :: b)) in
  exists t own, line_since s0 s k t /\ (forall u, from_since s0 s k u <-> u = t \/ In u own)
    /\ map (fun u => (t_rt (tget u s), t_val (tget u s))) own = map (fun nc => (fst nc, VStr (snd nc))) (cells_from cols 0 cells)
    /\ (dget (dotted p r) (p_dterms (s_prs s0)) = None -> dget (dotted "root" r) (d_decl_terms (s_doc s0)) = None -> n <> "" -> t_tvn (tget t s) = lower n).
Proof. exact h_header. Qed.
Print Assumptions C61_header.

(** ** Which rows are accepted *)

Theorem C61_accepted : forall g head rows odd s0 ls, in_fuel g <> 0 -> steps_to g (head ++ rows) head s0 -> calm odd s0 -> plain_classes_in s0 ->
  ~ In "section" (p_pmap (s_prs s0)) ->
  means rows ls -> Forall sound ls -> (forall k, In k (headings ls) -> ~ In k odd) ->
  (forall pre l post, ls = (pre ++ l :: post)%list -> placed_after s0 pre l) -> exists s, loads g (head ++ rows) s.
Proof. exact h_accepted. Qed.
Print Assumptions C61_accepted.

Theorem C61_missing : forall g head rows odd s0 ls row p r x cells post, in_fuel g <> 0 -> steps_to g (head ++ rows ++ row :: post) head s0 -> calm odd s0 -> plain_classes_in s0 ->
  ~ In "section" (p_pmap (s_prs s0)) ->
  means rows ls -> Forall sound ls -> (forall k, In k (headings ls) -> ~ In k odd) ->
  (forall pre l post, ls = (pre ++ l :: post)%list -> placed_after s0 pre l) ->
  reads row (LTerm p r x cells) -> usual (LTerm p r x cells) -> sound (LTerm p r x cells) -> ~ placed_after s0 ls (LTerm p r x cells) ->
  exists s, load_into g (head ++ rows ++ row :: post) = (s, Err EParser).
Proof. exact h_missing. Qed.
Print Assumptions C61_missing.

(** ** A file with declarations *)

(** declarations as in test-data/short-declare.csv *)
Definition decl61 : list (list string) :=
  [["Section"; "DeclaredSections"; ""; ""; ""];
   ["DeclareSection"; "Root"; ""; ""; ""];
   ["DeclareSection"; "Resources"; "Space"; "Time"; ""];
   ["Section"; "DeclaredTerms"; "TermValueName"; "ChildPropertyType"; "Section"];
   ["DeclareTerm"; "Root.Title"; ""; ""; "Root"];
   ["DeclareTerm"; "Root.Datafile"; "Url"; "Sequence"; "Resources"]].
Definition env61 : env := mk_env (fun n => eqs n "decl.csv") (fun _ => None) (fun n => if eqs n "decl.csv" then Some decl61 else None).
Definition place61 : place := mk_place env61 2 None "" default_classes [] [] [].
Definition head61 : list (list string) := [["Declare"; "decl.csv"]].
Definition rows61 : list (list string) :=
  [["Title"; "T"]; ["Section"; "Resources"; "Space"]; ["Datafile"; "u"; "CA"]; ["Datafile.Note"; "n"]; ["Other"; "o"]; ["DeclareTerm.Extra"; "e"]].
Definition lines61 : list line :=
  [LTerm "root" "title" "T" []; LSection "Resources" ["Space"]; LTerm "root" "datafile" "u" ["CA"]; LTerm "datafile" "note" "n" [];
   LTerm "root" "other" "o" []; LTerm "declareterm" "extra" "e" []].

Definition state61 : st := Eval vm_compute in
  let s := new_doc (in_reg place61) [] [] [] in
  fst (rows_to env61 true (generate_terms env61 true 1) (mk_source None "" (head61 ++ rows61)) None 1 head61 0 (set_s_prs (fresh_parser s) s)).
Definition doc61 : st := Eval vm_compute in fst (load_into place61 (head61 ++ rows61)).

Lemma after61 : loads_after place61 head61 rows61 ["declaredterms"] state61 lines61 doc61.
Proof.
  split.
  - vm_compute. reflexivity.
  - exists 0. vm_compute. reflexivity.
  - apply calm_by. vm_compute. reflexivity.
  - apply means_by; vm_compute; reflexivity.
  - intros k [<-|[]] [E|[]]. discriminate E.
Qed.

(** every row, the term of its line, and what it is: declared terms are valid,
    the others are not; the row "DeclareTerm.Extra" belongs to a term of the
    declaration file *)
Example C61_ex :
  let s := doc61 in
  List.length (s_heap state61) = 18
  /\ map (fun t => (shown s t, t_row (tget t s), t_valid (tget t s))) [18; 20; 21; 22; 23; 24]
     = [(("root", "title", VStr "T", []), Some 2, Some true);
        (("root", "datafile", VStr "u", ["space"; "note"]), Some 4, Some true);
        (("datafile", "space", VStr "CA", []), Some 4, Some false);
        (("datafile", "note", VStr "n", []), Some 5, Some false);
        (("root", "other", VStr "o", []), Some 6, Some false);
        (("declareterm", "extra", VStr "e", []), Some 7, Some false)]
  /\ dget "declareterm" (p_tmap (s_prs state61)) = Some 14 /\ t_parent (tget 24 s) = Some 14 /\ t_val (tget 14 s) = VStr "Root.Datafile"
  /\ map (fun ki => (fst ki, t_terms (tget (snd ki) s))) (d_sections (s_doc s)) = [("root", [1; 18]); ("declaredterms", [8; 10; 12; 14]); ("resources", [20; 23])].
Proof. vm_compute. repeat split; reflexivity. Qed.

(** the same file is accepted up to a row whose parent nothing has *)
Definition head61b : list (list string) := (head61 ++ [["Section"; "Resources"; "Space"]])%list.
Definition rows61b : list (list string) := [["Datafile"; "u"; "CA"]; ["DeclareTerm.Extra"; "e"]].
Definition lines61b : list line := [LTerm "root" "datafile" "u" ["CA"]; LTerm "declareterm" "extra" "e" []].
Definition row61b : list string := ["Missing.Note"; "n"].
Definition state61b : st := Eval vm_compute in
  let s := new_doc (in_reg place61) [] [] [] in
  fst (rows_to env61 true (generate_terms env61 true 1) (mk_source None "" (head61b ++ rows61b)) None 1 head61b 0 (set_s_prs (fresh_parser s) s)).

Example C61_missing_ex : steps_to place61 (head61b ++ rows61b) head61b state61b /\ calm ["declaredterms"] state61b /\ plain_classes_in state61b
  /\ ~ In "section" (p_pmap (s_prs state61b)) /\ means rows61b lines61b /\ Forall sound lines61b
  /\ (forall pre l post, lines61b = (pre ++ l :: post)%list -> placed_after state61b pre l)
  /\ ~ placed_after state61b lines61b (LTerm "missing" "note" "n" [])
  /\ (exists s, loads place61 (head61b ++ rows61b) s) /\ snd (load_into place61 (head61b ++ rows61b ++ [row61b])) = Err EParser.
Proof.
  split; [eexists; vm_compute; reflexivity|]. split; [apply calm_by; vm_compute; reflexivity|].
  split.
  { intros name H. unfold parser_term_class, class_for in H. change (super_terms state61b) with (@nil (string * string)) in H. cbn in H.
    destruct (eqs (lower name) "root.section") eqn:E; [left; apply eqs_true in E; exact E|].
    destruct (eqs (lower name) "root.root") eqn:E2; [right; apply eqs_true in E2; exact E2|].
    exfalso. cbn in H. discriminate H. }
  split; [intros [E|[]]; discriminate E|]. split; [apply means_by; vm_compute; reflexivity|].
  split; [repeat constructor; try discriminate; intros [E _]; discriminate E|].
  split.
  { intros pre l post E. destruct pre as [|l1 [|l2 pre]].
    - injection E as <- _. cbn. auto.
    - injection E as _ <- _. cbn. right. right. right. right. discriminate.
    - destruct pre; discriminate E. }
  split.
  { intros [E|[E|[E|[(k & P)|P]]]]; try discriminate E.
    - destruct P as (pre & x & post & E & _ & U & _). assert (I : In x lines61b) by (rewrite E; apply in_or_app; right; left; reflexivity).
      destruct I as [<-|[<-|[]]]; destruct U as (q & y & c & E3 & _); discriminate E3.
    - apply P. reflexivity. }
  split; [eexists; vm_compute; reflexivity|vm_compute; reflexivity].
Qed.

(** ** What Declare leaves behind *)

(** After a Declare row, rows are read with the columns of the last section of
    the declaration file until the next section heading, and a row that elides
    its parent belongs to the last record of the declaration file. *)
Definition row61c : list (list string) := [["Title"; "T"; "a"; "b"]].
Definition row61d : list (list string) := [[".Extra"; "e"]].

Theorem C19_rows_after_refuted :
  (exists s s', loads place61 row61c s /\ loads place61 (head61 ++ row61c) s'
    /\ (exists t, doc_find s' "Title" VFalse SAny = Ok [t] /\ map (fun c => t_rt (tget c s')) (t_children (tget t s')) = ["termvaluename"; "childpropertytype"])
    /\ (exists t, doc_find s "Title" VFalse SAny = Ok [t] /\ map (fun c => t_rt (tget c s)) (t_children (tget t s)) = ["0"; "1"]))
  /\ (exists s t q, loads place61 (head61 ++ row61d) s /\ line_since state61 s 2 t /\ t_parent (tget t s) = Some q /\ t_val (tget q s) = VStr "Root.Datafile").
Proof.
  split.
  - exists (fst (load_into place61 row61c)), (fst (load_into place61 (head61 ++ row61c))). split; [vm_compute; reflexivity|]. split; [vm_compute; reflexivity|].
    split; eexists; split; vm_compute; reflexivity.
  - exists (fst (load_into place61 (head61 ++ row61d))), 18, 14. split; [vm_compute; reflexivity|].
    split; [|vm_compute; repeat split; reflexivity]. vm_compute. repeat split; repeat constructor.
Qed.
Print Assumptions C19_rows_after_refuted.

(** The sections of a declaration file are not sections of the document, but its
    terms are terms of the document: they lie in no section of it, so the lists
    do not agree. *)
Definition decl61e : list (list string) := [["Section"; "DeclaredSections"]; ["DeclareSection"; "Resources"]].
Definition place61e : place := mk_place (mk_env (fun n => eqs n "decl.csv") (fun _ => None) (fun n => if eqs n "decl.csv" then Some decl61e else None)) 2 None "" default_classes [] [] [].

Theorem C22_declared_refuted : exists s t, loads place61e head61 s /\ ~ lists_agree s
  /\ In t (listed s) /\ (forall k j, In (k, j) (secs s) -> ~ In t (t_terms (tget j s))) /\ t_rt (tget t s) = "declaresection".
Proof.
  exists (fst (load_into place61e head61)), 3. split; [vm_compute; reflexivity|].
  assert (X : In 3 (listed (fst (load_into place61e head61)))
    /\ (forall k j, In (k, j) (secs (fst (load_into place61e head61))) -> ~ In 3 (t_terms (tget j (fst (load_into place61e head61)))))).
  { split; [vm_compute; auto|]. intros k j H. vm_compute in H. destruct H as [H|[]]. injection H as <- <-. vm_compute. intuition discriminate. }
  destruct X as [L N]. split; [|split; [exact L|split; [exact N|vm_compute; reflexivity]]].
  intros (_ & _ & _ & A). destruct (A 3 L (fun x => x)) as (k & i & I & T & _). exact (N k i I T).
Qed.
Print Assumptions C22_declared_refuted.
