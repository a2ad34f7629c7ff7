(** * PropOrigin: where documents and terms come from (C79, C80, C81) *)

From Verif Require Import SpecFiles SpecDoc SpecWhere PropWhere StrFacts Parser SpecNumber SpecResolve SpecOrigin Origin OriginFacts.

(** ** C79: the directory, time and path of a document *)

(** The directory of a document is absolute.  It is reached by walking from the
    top along the steps of its path, without the last ... *)
Theorem C79_dir_absolute : forall cwd parse o u ds name, o_ref o = RUrl u -> spells (u_path u) (ds ++ [name]) -> absolute (u_path u) ->
  exists r w, root_of (u_path u) r /\ goes [] ds w /\ Forall ordinary w /\ doc_dir cwd parse o = Some (r ++ String.concat "/" w)%string.
Proof. exact c79_absolute. Qed.
Print Assumptions C79_dir_absolute.

(** ... or, if the path is relative, first along those of the working directory. *)
Theorem C79_dir_relative : forall cwd parse o u ds name cs, o_ref o = RUrl u -> spells (u_path u) (ds ++ [name]) -> ~ absolute (u_path u) ->
  absolute cwd -> spells cwd cs ->
  exists r w, root_of cwd r /\ goes [] (cs ++ ds) w /\ Forall ordinary w /\ doc_dir cwd parse o = Some (r ++ String.concat "/" w)%string.
Proof. exact c79_relative. Qed.
Print Assumptions C79_dir_relative.

(** The walk leads to one place. *)
Theorem C79_one_way : forall d l w, goes d l w -> forall w', goes d l w' -> w = w'.
Proof. exact goes_fun. Qed.
Print Assumptions C79_one_way.

Theorem C79_one_root : forall p r r', root_of p r -> root_of p r' -> r = r'.
Proof. exact root_fun. Qed.
Print Assumptions C79_one_root.

Theorem C79_dir_none : forall cwd parse now gm, doc_dir cwd parse (new_origin now gm NoRef) = None /\ doc_dir cwd parse (new_origin now gm Refused) = None.
Proof. exact (fun _ _ _ _ => conj eq_refl eq_refl). Qed.
Print Assumptions C79_dir_none.

Theorem C79_mtime_file : forall now gm u t, u_scheme u = "file" -> gm (u_path u) = Some t -> doc_mtime (new_origin now gm (Parsed u)) = Ok t.
Proof. exact c79_mtime_file. Qed.
Print Assumptions C79_mtime_file.

Theorem C79_mtime_missing : forall now gm u, u_scheme u = "file" -> gm (u_path u) = None -> doc_mtime (new_origin now gm (Parsed u)) = Ok 0%Z.
Proof. exact c79_mtime_missing. Qed.
Print Assumptions C79_mtime_missing.

Theorem C79_mtime_other : forall now gm u, u_scheme u <> "file" -> doc_mtime (new_origin now gm (Parsed u)) = Ok 0%Z.
Proof. exact c79_mtime_other. Qed.
Print Assumptions C79_mtime_other.

Theorem C79_mtime_new : forall now gm, doc_mtime (new_origin now gm NoRef) = Ok now.
Proof. exact (fun _ _ => eq_refl). Qed.
Print Assumptions C79_mtime_new.

(** "Every document has a time" is false: that of a document made from a row
    generator raises AttributeError. *)
Theorem C79_mtime_refuted : forall now gm, doc_mtime (new_origin now gm Refused) = Err EAttr.
Proof. exact (fun _ _ => eq_refl). Qed.
Print Assumptions C79_mtime_refuted.

(** "The path of a document read from a file is that of the file" is false: it
    is None for all documents, because the reference is stored as a Url and
    looked for as a str. *)
Theorem C79_path_refuted : forall now gm r parse, doc_path parse (new_origin now gm r) = None.
Proof. exact c79_path. Qed.
Print Assumptions C79_path_refuted.

Definition here (p : string) : origin := new_origin 5 (fun _ => Some 3%Z) (Parsed (mk_url "file" p)).
Definition no_parse (s : string) : url * string := (mk_url "" s, "").
Example C79_ex :
  spells "../data//./x/metadata.csv" ([".."; "data"; ""; "."; "x"] ++ ["metadata.csv"])
  /\ goes [] (["" ; "home"; "u"] ++ [".."; "data"; ""; "."; "x"]) ["home"; "data"; "x"]
  /\ doc_dir "/home/u" no_parse (here "../data//./x/metadata.csv") = Some "/home/data/x"
  /\ doc_dir "/home/u" no_parse (here "//a/../../m.csv") = Some "//" /\ doc_dir "/home/u" no_parse (here "m.csv") = Some "/home/u"
  /\ doc_mtime (here "m.csv") = Ok 3%Z.
Proof.
  split; [|split; [|repeat split; vm_compute; reflexivity]].
  - apply spells_split. vm_compute. reflexivity.
  - apply (norm_goes ["" ; "home"; "u"; ".."; "data"; ""; "."; "x"] []). intros [].
Qed.

(** ** C80: the digest of a file, and dotted names *)

(** The file is read in parts of any size but 0; what is digested is all of it. *)
Theorem C80_md5 : forall digest n fs p s, n <> 0 -> is_file fs p s -> md5_file digest n fs p = Ok (Some (digest s)).
Proof. exact md5_content. Qed.
Print Assumptions C80_md5.

Theorem C80_md5_none : forall digest n fs p, is_dir fs p \/ missing fs p -> md5_file digest n fs p = Ok None.
Proof. exact md5_none. Qed.
Print Assumptions C80_md5_none.

(** A dotted name means the object found by following its names from the top
    module, if the module it says to import can be imported. *)
Theorem C80_import : forall importable top name m mid l o, dotted_name name (m :: mid ++ [l]) ->
  (import_name importable top name = Found o
   <-> importable (String.concat "." (m :: mid)) = true /\ exists t, dget m top = Some t /\ reaches has_attr t (mid ++ [l]) o).
Proof. exact import_found. Qed.
Print Assumptions C80_import.

Theorem C80_import_plain : forall importable top name, free_of "." name -> import_name importable top name = NoDot.
Proof. exact import_nodot. Qed.
Print Assumptions C80_import_plain.

Example C80_ex :
  md5_file (fun s => s) 2 (Dir [("d", Dir [("f", File "abcde")])]) ["d"; "f"] = Ok (Some "abcde")
  /\ md5_file (fun s => s) 2 (Dir [("d", Dir [("f", File "abcde")])]) ["d"] = Ok None
  /\ import_name (fun m => eqs m "a.b") [("a", PyObj "1" [("b", PyObj "2" [("c", PyObj "3" [])])])] "a.b.c" = Found (PyObj "3" [])
  /\ import_name (fun m => eqs m "a.b") [("a", PyObj "1" [("b", PyObj "2" [("c", PyObj "3" [])])])] "a.b.x" = NoAttr
  /\ import_name (fun m => eqs m "a.b") [] "ab" = NoDot.
Proof. repeat split; vm_compute; reflexivity. Qed.

(** ** C81: what a term shows of itself *)

Theorem C81_file : forall p ds name, spells p (ds ++ [name]) -> p <> "" -> file_name p = slugify name.
Proof. exact c81_file. Qed.
Print Assumptions C81_file.

Theorem C81_shows : forall h p r row col i sec, t_row r = Some row -> t_col r = Some col -> t_section r = Some i -> t_val (hget i h) = VStr sec ->
  exists rs cs, numeral rs (N.of_nat row) /\ numeral cs (N.of_nat col)
    /\ (t_pt r <> "<elided_term>" -> term_str h (file_name p) r = (file_name p ++ " " ++ rs ++ ":" ++ cs ++ " " ++ sec ++ ":" ++ t_pt r ++ "." ++ t_rt r ++ "=" ++ str_val (t_val r))%string)
    /\ (t_pt r = "<elided_term>" -> term_str h (file_name p) r = (file_name p ++ " " ++ rs ++ ":" ++ cs ++ " " ++ sec ++ ":." ++ t_rt r ++ "=" ++ str_val (t_val r))%string).
Proof. exact c81_shows. Qed.
Print Assumptions C81_shows.

(** a term that was not read from a file *)
Theorem C81_no_row : forall h f r i sec, t_row r = None -> t_section r = Some i -> t_val (hget i h) = VStr sec -> t_pt r <> "<elided_term>" ->
  term_str h f r = (sec ++ ":" ++ t_pt r ++ "." ++ t_rt r ++ "=" ++ str_val (t_val r))%string.
Proof. exact c81_norow. Qed.
Print Assumptions C81_no_row.

(** The text tells the file, row, column, section, names and value. *)
Theorem C81_unique : forall h h' p p' r r' n n', t_row r = Some n -> t_row r' = Some n' ->
  free_of ":" (sec_name h r) -> free_of ":" (sec_name h' r') -> t_pt r <> "" -> t_pt r' <> "" ->
  free_of "." (t_pt r) -> free_of "." (t_pt r') -> free_of "=" (t_rt r) -> free_of "=" (t_rt r') ->
  term_str h (file_name p) r = term_str h' (file_name p') r' ->
  file_name p = file_name p' /\ n = n' /\ t_col r = t_col r' /\ sec_name h r = sec_name h' r'
  /\ t_pt r = t_pt r' /\ t_rt r = t_rt r' /\ str_val (t_val r) = str_val (t_val r').
Proof. exact c81_unique. Qed.
Print Assumptions C81_unique.

(** No two terms of a parsed file show the same text. *)
Theorem C81_once : forall e fuel src s s' p, load_source e fuel src s = (s', Ok tt) ->
  forall i j, hlen s <= i -> hlen s <= j -> of_file s' i -> of_file s' j ->
  term_str (s_heap s') (file_name p) (tget i s') = term_str (s_heap s') (file_name p) (tget j s') -> i = j.
Proof. exact c81_once. Qed.
Print Assumptions C81_once.

(** "No two terms of a parsed document show the same text" is false: those of an
    included file of the same name do. *)
Definition rows81 : list (list string) := [["Note"; "n"]; ["Include"; "http://x/m.csv"]].
Definition place81 : place :=
  mk_place (mk_env (fun _ => false) (fun _ => None) (fun n => if eqs n "http://x/m.csv" then Some [["Note"; "n"]] else None)) 3 (Some "http://y/m.csv") "http://y" default_classes [] [] [].
Definition doc81 : st := Eval vm_compute in fst (load_into place81 rows81).
Theorem C81_once_refuted : exists g rows s i j, loads g rows s /\ i <> j /\ i < hlen s /\ j < hlen s
  /\ term_str (s_heap s) (file_name "http://y/m.csv") (tget i s) = term_str (s_heap s) (file_name "http://x/m.csv") (tget j s)
  /\ t_val (tget j s) = VStr "n".
Proof. exists place81, rows81, doc81, 1, 3. repeat split; vm_compute; try reflexivity; lia. Qed.
Print Assumptions C81_once_refuted.

Example C81_ex :
  map (fun i => term_str (s_heap doc73a) (file_name "/home/u/My Data.csv") (tget i doc73a)) [0; 1; 4; 5; 6; 7]
  = ["my-data.csv 0:0 None:root.root=Root"; "my-data.csv 1:1 Root:root.include=http://a"; "my-data.csv 3:3 None:root.section=Data";
     "my-data.csv 4:1 Data:root.datafile=x"; "my-data.csv 4:2 Data:datafile.name=y"; "my-data.csv 5:1 Data:datafile.size=7"].
Proof. vm_compute. reflexivity. Qed.
