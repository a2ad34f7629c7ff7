(** * PropResolve: the files that names in Declare and Include rows mean (C72) *)

From Verif Require Import StrFacts HeapFacts SpecNames NameFacts SpecParse Parser SpecDoc SpecInclude PropInclude Resolve SpecResolve ResolveFacts.

(** a declaration is looked for in five places in order, then on the web *)
Theorem C72_declare : forall pkg e d n y, find_declare_doc (with_package pkg e) d n = Ok y <-> declaration_means (fexists e) pkg d n y.
Proof. exact declare_means. Qed.
Print Assumptions C72_declare.

Theorem C72_declare_nothing : forall pkg e d n, (forall y, ~ declaration_means (fexists e) pkg d n y) ->
  find_declare_doc (with_package pkg e) d n = Err EInclude.
Proof. exact declare_nothing. Qed.
Print Assumptions C72_declare_nothing.

Theorem C72_include : forall d n y, find_include_doc d n = Ok y <-> include_means d n y.
Proof. exact include_spec. Qed.
Print Assumptions C72_include.

Theorem C72_include_nothing : forall d n, (forall y, ~ include_means d n y) -> find_include_doc d n = Err EInclude.
Proof. exact include_nothing. Qed.
Print Assumptions C72_include_nothing.

(** if a document could be loaded, the files its rows mean could be read, and
    are other files than the document *)
Theorem C72_declare_rows : forall pkg e n src s s' row, load_source (with_package pkg e) n src s = (s', Ok tt) ->
  In row (src_rows src) -> file_row "declare" row ->
  exists name y rows, trimmed (nth 1 row "") name /\ declaration_means (fexists e) pkg (src_dir src) name y
    /\ src_ref src <> Some y /\ fetch e y = Some rows.
Proof. exact declare_row_reads. Qed.
Print Assumptions C72_declare_rows.

Theorem C72_include_rows : forall e n src s s' row, load_source e n src s = (s', Ok tt) ->
  In row (src_rows src) -> file_row "include" row ->
  exists name y rows, trimmed (nth 1 row "") name /\ include_means (src_dir src) name y
    /\ src_ref src <> Some y /\ fetch e y = Some rows.
Proof. exact include_row_reads. Qed.
Print Assumptions C72_include_rows.

(** ** Files *)

Definition files72 : dict (list (list string)) :=
  [("/pkg/metatab-latest.csv", [["Section"; "DeclaredSections"]; ["DeclareSection"; "Notes"; "Author"]]);
   ("/data/metatab-latest", []); ("/data/local.csv", []); ("/data/sub/x.csv", [["Note"; "n"]]); ("http://a/b", [])].
Definition env72 : env :=
  mk_env (fun x => dmem x files72 && negb (startswith "http" x)) (fun _ => None) (fun x => dget x files72).
Definition decl72 (d n : string) : res string := find_declare_doc (with_package "/pkg" env72) d n.
Definition src72 : source := mk_source (Some "/data/me.csv") "/data" [["Declare"; " metatab-latest "]; ["Title"; "t"]; ["Include"; "/sub/x.csv"]].

Example C72_ex :
  decl72 "/data" "metatab-latest" = Ok "/pkg/metatab-latest.csv" /\ decl72 "/data" "local" = Ok "/data/local.csv"
  /\ decl72 "/data/" "local.csv" = Ok "/data/local.csv" /\ decl72 "" "/data/metatab-latest" = Ok "/data/metatab-latest"
  /\ decl72 "" "http://a/b//" = Ok "http://a/b" /\ decl72 "/data" "nothing" = Err EInclude /\ decl72 "" "local" = Err EInclude
  /\ find_include_doc "/data" "sub/x.csv" = Ok "/data/sub/x.csv" /\ find_include_doc "" "/http://a/b/" = Ok "http://a/b"
  /\ find_include_doc "" "sub/x.csv" = Err EInclude
  /\ exists s, load_source (with_package "/pkg" env72) 3 src72 (init_st default_classes) = (s, Ok tt)
       /\ dget "notes" (d_decl_sections (s_doc s)) = Some (mk_sdecl ["Author"] [])
       /\ map (fun t => t_rt (tget t s)) (d_terms (s_doc s)) = ["declare"; "declaresection"; "title"; "include"; "note"].
Proof. vm_compute. repeat split. eexists. repeat split. Qed.

(** an Include of an absolute path is read from the directory of the file *)
Theorem C72_absolute_refuted : exists d n y, absolute d /\ absolute n /\ find_include_doc d n = Ok y /\ y <> n /\ y = (d ++ n)%string.
Proof. exists "/data", "/sub/x.csv", "/data/sub/x.csv". split; [eexists; reflexivity|]. split; [eexists; reflexivity|]. split; [reflexivity|]. split; [discriminate|reflexivity]. Qed.
Print Assumptions C72_absolute_refuted.

(** the docstring of find_declare_doc has the directory of the file before the
    package; the package comes first *)
Theorem C72_order_refuted : exists pkg e d n p y, joined d n y /\ joined pkg n p /\ fexists e y = true /\ y <> p
  /\ find_declare_doc (with_package pkg e) d n = Ok p.
Proof.
  exists "/pkg", (mk_env (fun x => eqs x "/pkg/a" || eqs x "/data/a") (fun _ => None) (fun _ => None)), "/data", "a", "/pkg/a", "/data/a".
  split; [apply join_spec; reflexivity|]. split; [apply join_spec; reflexivity|]. split; [reflexivity|]. split; [discriminate|reflexivity].
Qed.
Print Assumptions C72_order_refuted.
