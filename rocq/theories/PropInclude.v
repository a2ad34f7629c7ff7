(** * PropInclude: files that include each other (C12, C13) *)

From Verif Require Import StrFacts SpecNames SpecParse Parser SpecDoc SpecInclude IncludeFacts IncFacts RunFacts RowFacts PropParse.

Definition web (files : dict (list (list string))) : env := mk_env (fun _ => false) (fun _ => None) (fun x => dget x files).
Definition place_with (e : env) : place := mk_place e 3 None "" default_classes [] [] [].

(** ** C12 *)

(** After an Include row the section of the rows before it is in force again.  If
    this is a section other than Root, and no Header row was read in it, its
    columns and its value name are in force again as well.
    Missing: a section with a Header row, and the section Root. *)
Theorem C12_back_partial : forall g pre inc post s, proper g -> usual_files (in_env g) -> Forall usual_or_include (pre ++ inc :: post) ->
  file_row "include" inc -> loads g (pre ++ inc :: post) s ->
  exists before after, steps_to g (pre ++ inc :: post) pre before /\ steps_to g (pre ++ inc :: post) (pre ++ [inc]) after
    /\ p_lastsec (s_prs after) = p_lastsec (s_prs before)
    /\ (forall a sec b, pre = (a ++ sec :: b)%list -> file_row "section" sec -> lower (strip (nth 1 sec "")) <> "root" ->
          Forall (fun row => ~ file_row "section" row /\ ~ file_row "header" row) b -> force after = force before).
Proof. exact include_back. Qed.
Print Assumptions C12_back_partial.

Definition sub_file : list (list string) := [["Section"; "Other"; "X"; "Y"]; ["Thing"; "v"; "x1"; "y1"]].
Definition with_sub : place := place_with (web [("http://sub", sub_file)]).
Definition inc_row : list string := ["Include"; "http://sub"].
Definition doc12 : list (list string) :=
  [["Title"; "T"]; ["Section"; "Contacts"; "Email"; "Phone"]; ["Wrangler"; "Ann"; "a@x"]; inc_row; ["Creator"; "Bob"; "b@x"; "555"]].

(** the children of Creator are named by the columns of Contacts *)
Example C12_ex : exists s, loads with_sub doc12 s
  /\ map (fun i => (t_rt (tget i s), map (fun c => t_rt (tget c s)) (t_children (tget i s)), t_section (tget i s))) (d_terms (s_doc s))
     = [("title", [], Some 0); ("wrangler", ["email"], Some 2); ("include", [], Some 2);
        ("thing", ["x"; "y"], Some 6); ("creator", ["email"; "phone"], Some 2)].
Proof. eexists. split; vm_compute; reflexivity. Qed.

Definition all_usual (rows : list (list string)) : Prop := Forall usual_or_include rows.
Definition kids_of (s : st) (n : string) : list (list string) :=
  map (fun i => map (fun c => t_rt (tget c s)) (t_children (tget i s))) (filter (fun i => eqs n (t_rt (tget i s))) (d_terms (s_doc s))).

(** the columns of a Header row are forgotten, and in Root the columns of the
    included file stay in force: with an ordinary row in the place of the
    Include row the cells of the last row have other names *)
Theorem C12_refuted :
  (exists a b, let rows x := [["Section"; "Contacts"; "Email"]; ["Header"; "Name"; "Mail"]; x; ["Creator"; "Bob"; "b@x"]] in
     loads with_sub (rows inc_row) a /\ loads with_sub (rows ["Note"; "n"]) b
     /\ kids_of a "creator" = [["email"]] /\ kids_of b "creator" = [["mail"]])
  /\ (exists a b, let rows x := [x; ["Creator"; "Bob"; "b@x"]] in
     loads with_sub (rows inc_row) a /\ loads with_sub (rows ["Note"; "n"]) b
     /\ kids_of a "creator" = [["x"]] /\ kids_of b "creator" = [["0"]]).
Proof. split; eexists; eexists; cbv zeta; split; [|split; [|split]| |split; [|split]]; vm_compute; reflexivity. Qed.
Print Assumptions C12_refuted.

(** ** C13 *)

(** a row of a file that names the file itself raises IncludeError, whatever the
    state of the parse and the rest of the files.  (The class hypothesis: Include
    terms were not given a section class by set_term_classes.) *)
Theorem C13_self_row : forall e load rec f dir rows ft line row ls s kind,
  In kind ["include"; "declare"] -> file_row kind row -> names_file e dir row f ->
  is_section_cls (parser_term_class (dotted "root" kind) s) = false ->
  exists s2, row_step e load rec (mk_source (Some f) dir rows) ft line row ls s = (s2, Err EInclude).
Proof. exact self_row. Qed.
Print Assumptions C13_self_row.

(** so a file with such a row is never loaded *)
Theorem C13_self_load : forall e n f dir rows row s s', In row rows -> names_file e dir row f ->
  load_source e n (mk_source (Some f) dir rows) s <> (s', Ok tt).
Proof. exact self_load. Qed.
Print Assumptions C13_self_load.

(** an Include of a local file in a file without a directory raises
    IncludeError; all included files have no directory (parser.py:343-348) *)
Theorem C13_local_row : forall e load rec ref rows ft line row ls s,
  file_row "include" row -> local_name (nth 1 row "") -> nth 1 row "" <> "" ->
  is_section_cls (parser_term_class "root.include" s) = false ->
  exists s2, row_step e load rec (mk_source ref "" rows) ft line row ls s = (s2, Err EInclude).
Proof. exact local_row. Qed.
Print Assumptions C13_local_row.

(** a document that includes a file which includes a local file is never loaded *)
Theorem C13_nested_local : forall e n src s s' row y rows' row', In row (src_rows src) -> names_file e (src_dir src) row y ->
  fetch e y = Some rows' -> In row' rows' -> file_row "include" row' -> local_name (nth 1 row' "") ->
  load_source e n src s <> (s', Ok tt).
Proof. exact nested_local. Qed.
Print Assumptions C13_nested_local.

(** files naming each other in a circle: a document naming one of them is never loaded *)
Theorem C13_circle : forall e C n src s s' row y, circle e C -> In row (src_rows src) -> names_file e (src_dir src) row y -> C y ->
  load_source e n src s <> (s', Ok tt).
Proof. exact circle_load. Qed.
Print Assumptions C13_circle.

(** files that do not name each other in circles: the parse ends, its result does
    not depend on a bound on the nesting of files *)
Theorem C13_settles : forall e height n m src k s, no_circle e height -> below e height k (src_dir src) (src_rows src) ->
  k < n -> k < m -> load_source e n src s = load_source e m src s.
Proof. exact load_settles. Qed.
Print Assumptions C13_settles.

(** in every set of files a bound that is large enough gives the one result *)
Theorem C13_more : forall e n m src s, n <= m -> snd (load_source e n src s) <> Err ERecursion ->
  load_source e m src s = load_source e n src s.
Proof. exact load_more. Qed.
Print Assumptions C13_more.

Definition circle13 : env := web [("http://a", [["Include"; "http://b"]]); ("http://b", [["Title"; "t"]; ["Include"; "http://a"]])].
Definition chain13 : env := web [("http://a", [["Include"; "http://b"]]); ("http://b", [["Title"; "t"]])].
Definition local13 : env := web [("http://a", [["Include"; "b.csv"]])].
Definition start : st := new_doc default_classes [] [] [].
Definition from (n : nat) (e : env) (rows : list (list string)) : res unit := snd (load_source e n (mk_source (Some "http://me") "" rows) start).

Example C13_ex :
  from 9 circle13 [["Include"; "http://a"]] = Err ERecursion
  /\ from 9 local13 [["Include"; "http://a"]] = Err EInclude
  /\ from 9 chain13 [["Include"; "http://me"]] = Err EInclude
  /\ from 3 chain13 [["Include"; "http://a"]] = Ok tt
  /\ from 2 chain13 [["Include"; "http://a"]] = Err ERecursion.
Proof. repeat split. Qed.

Definition heights (x : string) : nat := if eqs x "http://a" then 1 else 0.
Example C13_heights : no_circle chain13 heights /\ circle circle13 (fun x => In x ["http://a"; "http://b"]).
Proof.
  split.
  - intros x rows F row y Hin N. cbn [chain13 web fetch dget] in F. destruct (eqs x "http://a") eqn:E1.
    + injection F as <-. destruct Hin as [<-|[]]. apply eqs_true in E1. subst x. destruct N as [_ [[_ N]|[[_ N] _]]].
      * injection N as <-. vm_compute. lia.
      * apply NameFacts.split_term_lower_spec in N. discriminate N.
    + destruct (eqs x "http://b"); [|discriminate F]. injection F as <-. destruct Hin as [<-|[]]. destruct N as [_ [[[_ N] _]|[[_ N] _]]];
      apply NameFacts.split_term_lower_spec in N; discriminate N.
  - intros x rows [<-|[<-|[]]] F; injection F as <-.
    + exists ["Include"; "http://b"], "http://b". split; [left; reflexivity|]. split; [|right; left; reflexivity].
      split; [discriminate|]. left. split; [|reflexivity]. split; [|apply NameFacts.split_term_lower_spec; reflexivity].
      intros B. apply ParseFacts.skip_blank in B. discriminate B.
    + exists ["Include"; "http://a"], "http://a". split; [right; left; reflexivity|]. split; [|left; reflexivity].
      split; [discriminate|]. left. split; [|reflexivity]. split; [|apply NameFacts.split_term_lower_spec; reflexivity].
      intros B. apply ParseFacts.skip_blank in B. discriminate B.
Qed.
