(** * PropCalm: first rows that leave the parser in good order (C61)

    The theorems of PropHead.v ask that the first rows of a file leave a calm
    state behind.  Here that is derived from the texts of these rows and of the
    files they name.  [quiet_place odd syn g]: every row of every file that can
    be read is quiet; [quiet_line odd syn l] (SpecCalm.v): no name of a term is a
    number, only sections named in [odd] have a column "section", and columns
    named "synonym" have a number in [syn] and are left empty by declarations of
    terms. *)

From Verif Require Import Ops SpecNames SpecParse Parser SpecDoc SpecInclude SpecHead SpecCalm StrFacts RowFacts ParseProps CalmRowFacts PropHead.

Theorem C61_calm : forall odd syn g head rows lh s0, quiet_place odd syn g -> Forall2 reads head lh -> Forall (quiet_line odd syn) lh ->
  ~ In (current_heading lh) odd -> steps_to g (head ++ rows) head s0 -> calm odd s0 /\ section_name s0 = current_heading lh.
Proof. exact head_calm. Qed.
Print Assumptions C61_calm.

(** so the theorems of PropHead.v hold of every document loaded from such a file *)
Theorem C61_quiet : forall odd syn g head rows lh ls s, quiet_place odd syn g -> Forall2 reads head lh -> Forall (quiet_line odd syn) lh ->
  ~ In (current_heading lh) odd -> means rows ls -> (forall k, In k (headings ls) -> ~ In k odd) -> loads g (head ++ rows) s ->
  exists s0, loads_after g head rows odd s0 ls s /\ section_name s0 = current_heading lh.
Proof. exact head_loads. Qed.
Print Assumptions C61_quiet.

(** ** Examples *)

(** the file of PropHead.v, with the columns of templates/datapackage.csv *)
Definition decl61q : list (list string) :=
  [["Section"; "DeclaredSections"];
   ["DeclareSection"; "Resources"; "Space"; "Time"];
   ["Section"; "DeclaredTerms"; "TermValueName"; "ChildPropertyType"; "Section"; "Synonym"; "ValueSet"];
   ["DeclareTerm"; "Root.Title"; ""; ""; "Root"];
   ["DeclareTerm"; "Root.Datafile"; "Url"; "Sequence"; "Resources"; ""; ""]].
Definition more61q : list (list string) := [["Include"; "http://x/inner.csv"]; ["Section"; "Contacts"; "Email"]; ["Wrangler"; "W"; "w@x"]; [".Phone"; "1"]].
Definition inner61q : list (list string) := [["Section"; "Notes"]; ["Note"; "n"; "a"]].
Definition files61q (n : string) : option (list (list string)) :=
  if eqs n "decl.csv" then Some decl61q else if eqs n "http://x/more.csv" then Some more61q else if eqs n "http://x/inner.csv" then Some inner61q else None.
Definition env61q : env := mk_env (fun n => match files61q n with Some _ => true | None => false end) (fun _ => None) files61q.
Definition place61q : place := mk_place env61q 3 None "" default_classes [] [] [].
Definition head61q : list (list string) :=
  [["Declare"; "decl.csv"]; ["Title"; "T"]; ["Section"; "Resources"; "Space"]; ["Include"; "http://x/more.csv"]].
Definition lines61q : list line :=
  [LTerm "root" "declare" "decl.csv" []; LTerm "root" "title" "T" []; LSection "Resources" ["Space"]; LTerm "root" "include" "http://x/more.csv" []].

Lemma fetch61q : forall x rows, fetch env61q x = Some rows -> rows = decl61q \/ rows = more61q \/ rows = inner61q.
Proof.
  intros x rows H. cbn in H. unfold files61q in H.
  destruct (eqs x "decl.csv"); [injection H as <-; auto|]. destruct (eqs x "http://x/more.csv"); [injection H as <-; auto|].
  destruct (eqs x "http://x/inner.csv"); [injection H as <-; auto|discriminate H].
Qed.

Lemma quiet61q : quiet_place ["declaredterms"] [3] place61q
  /\ Forall2 reads head61q lines61q /\ Forall (quiet_line ["declaredterms"] [3]) lines61q /\ ~ In (current_heading lines61q) ["declaredterms"].
Proof.
  assert (Q : forall rows ls, read_rows rows = Some ls -> forallb (quietb ["declaredterms"] [3]) ls = true -> Forall (quiet_row ["declaredterms"] [3]) rows)
    by (intros rows ls A B; apply (quiet_by _ _ _ _ A B)).
  split; [|split; [|split]].
  - split.
    + exact default_good_reg.
    + intros [E|[]]. discriminate E.
    + intros n. cbn. split; [intros []|intros [|i] c E; discriminate E].
    + intros k td v E. discriminate E.
    + intros x rows H. apply fetch61q in H. destruct H as [-> |[-> | ->]]; (eapply Q; vm_compute; reflexivity).
  - apply (quiet_by ["declaredterms"] [3]); vm_compute; reflexivity.
  - eapply quiet_by; [|vm_compute; reflexivity]. instantiate (1 := head61q). vm_compute. reflexivity.
  - intros [E|[]]. discriminate E.
Qed.

Definition rows61q : list (list string) := [["Datafile"; "u"; "CA"]; ["Datafile.Note"; "n"]; ["Section"; "Contacts"]; ["Analyst"; "A"; "a@x"]].
Definition after61q : list line := [LTerm "root" "datafile" "u" ["CA"]; LTerm "datafile" "note" "n" []; LSection "Contacts" []; LTerm "root" "analyst" "A" ["a@x"]].
Definition doc61q : st := Eval vm_compute in fst (load_into place61q (head61q ++ rows61q)).

Example C61_quiet_ex :
  (exists s0, loads_after place61q head61q rows61q ["declaredterms"] s0 after61q doc61q /\ section_name s0 = "resources")
  /\ map (fun ki => (fst ki, map (fun t => (t_rt (tget t doc61q), t_row (tget t doc61q))) (t_terms (tget (snd ki) doc61q)))) (d_sections (s_doc doc61q))
     = [("root", [("declare", Some 1); ("title", Some 2)]);
        ("declaredterms", [("section", None); ("section", None); ("declareterm", Some 4); ("declareterm", Some 5)]);
        ("resources", [("include", Some 4); ("include", Some 1); ("datafile", Some 5)]);
        ("notes", [("note", Some 2)]);
        ("contacts", [("wrangler", Some 3); ("analyst", Some 8)])].
Proof.
  split.
  - destruct quiet61q as (A & B & C & D). apply (C61_quiet ["declaredterms"] [3] _ _ _ lines61q); try assumption.
    + apply means_by; vm_compute; reflexivity.
    + intros k [<-|[]] [E|[]]. discriminate E.
    + vm_compute. reflexivity.
  - vm_compute. reflexivity.
Qed.
