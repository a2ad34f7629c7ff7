(** * PropCli: the metatab command (C65 - C69) *)

From Verif Require Import Cli SpecFiles SpecNames SpecCli FilesFacts CliFacts.

(** ** C65: metatab -C *)

(** A file that is there is left alone, with a warning. *)
Theorem C65_there : forall w rd a c t, a_create a = Some t -> ~ missing (c_fs c) (w_path w (file_arg (a_file a))) ->
  exits (metatab w rd a c) 0 /\ c_fs (fst (metatab w rd a c)) = c_fs c /\ c_out (fst (metatab w rd a c)) = c_out c
  /\ c_log (fst (metatab w rd a c)) = (c_log c ++ [("WARNING: File " ++ file_arg (a_file a) ++ " already exists.")%string])%list.
Proof. exact create_there. Qed.
Print Assumptions C65_there.

(** Otherwise it is made, with the CSV text of the template. *)
Theorem C65_created : forall w rd a c t s text p n s', a_create a = Some t -> missing (c_fs c) (w_path w (file_arg (a_file a))) -> template_doc w (c_fs c) t s -> doc_as_csv s = Ok text ->
  u_scheme (w_write_url w (file_arg (a_file a))) = "file" -> u_path (w_write_url w (file_arg (a_file a))) = (p ++ [n])%list -> suffix n = ".csv" -> cleanse (w_uuid w) s = (s', Ok tt) ->
  is_dir (c_fs c) p -> ~ is_dir (c_fs c) (p ++ [n]) ->
  exits (metatab w rd a c) 0 /\ only_file (p ++ [n]) text (c_fs c) (c_fs (fst (metatab w rd a c)))
  /\ c_out (fst (metatab w rd a c)) = (c_out c ++ [("Created  " ++ file_arg (a_file a))%string])%list.
Proof. exact create_run. Qed.
Print Assumptions C65_created.

(** However the run ends, no other file is touched, and a file appears only
    together with exit code 0 and the message. *)
Theorem C65_nothing_else : forall w rd a c t, a_create a = Some t ->
  c_fs (fst (metatab w rd a c)) = c_fs c
  \/ exists s text, missing (c_fs c) (w_path w (file_arg (a_file a))) /\ template_doc w (c_fs c) t s /\ doc_as_csv s = Ok text
       /\ only_file (u_path (w_write_url w (file_arg (a_file a)))) text (c_fs c) (c_fs (fst (metatab w rd a c)))
       /\ exits (metatab w rd a c) 0 /\ c_out (fst (metatab w rd a c)) = (c_out c ++ [("Created  " ++ file_arg (a_file a))%string])%list.
Proof. exact create_cases. Qed.
Print Assumptions C65_nothing_else.

(** A small world: /p holds metadata.csv; the names are relative to /p. *)
Definition no_env : env := mk_env (fun _ => false) (fun _ => None) (fun _ => None).
Definition before_hash (s : string) : string := hd "" (split_on "#" s).
Definition csv_rows : list (list string) := [["Title"; "T"]; ["Section"; "Contacts"]; ["Wrangler"; "Bob"]; ["Wrangler.Email"; "b@x"]].
Definition w1 : world :=
  mk_world (fun f => ["p"; f]) (fun f => mk_url "file" ["p"; before_hash f]) (fun f => mk_url "file" ["p"; before_hash f])
    (fun _ _ => Ok (mk_source None "" csv_rows)) (fun _ => no_env) (fun _ t => Ok (mk_source None "" [["Title"; t]; ["Name"; "n"]])) 5 "77".
Definition rd1 : renderers := mk_rend (fun _ => "json") (fun _ => "yaml") (fun _ => "pretty") (fun _ => "dj") (fun _ => "dy") (fun _ => ([], None)).
Definition disk1 : node := Dir [("p", Dir [("metadata.csv", File "old")])].
Definition start1 : cst := mk_cst disk1 [] [] None.
Definition run_ (a : args) : cst * res unit := metatab w1 rd1 a start1.

Example C65_ex : let a := mk_args (Some None) "csv" false None false "new.csv" in
  exits (run_ a) 0 /\ c_out (fst (run_ a)) = ["Created  new.csv"] /\ exists text, lookup (c_fs (fst (run_ a))) ["p"] = Some (Dir [("metadata.csv", File "old"); ("new.csv", File text)])
    /\ (text = "Title,metatab" ++ String (ascii_of_nat 13) (String (ascii_of_nat 10) "") ++ "Name,n" ++ String (ascii_of_nat 13) (String (ascii_of_nat 10) ""))%string.
Proof. cbv zeta. split; [split; vm_compute; reflexivity|]. split; [vm_compute; reflexivity|]. eexists. split; vm_compute; reflexivity. Qed.
Example C65_ex_there : let a := mk_args (Some None) "csv" false None false "metadata.csv" in
  ~ missing (c_fs start1) (w_path w1 (file_arg (a_file a))) /\ c_log (fst (run_ a)) = ["WARNING: File metadata.csv already exists."] /\ c_fs (fst (run_ a)) = disk1.
Proof. cbv zeta. split; [intros M; apply kind_missing in M; discriminate M|]. split; vm_compute; reflexivity. Qed.

(** "A file that is there is never overwritten" is false where reading the name
    as a URL gives another file than the name itself: with "#meta" on the
    command line the name asked about is "metadata.csv#meta", the file written
    is metadata.csv. *)
Theorem C65_fragment_refuted : exists w rd a c t new, a_create a = Some t /\ is_file (c_fs c) ["p"; "metadata.csv"] "old" /\ new <> "old"
  /\ a_file a = "#meta" /\ exits (metatab w rd a c) 0 /\ is_file (c_fs (fst (metatab w rd a c))) ["p"; "metadata.csv"] new.
Proof.
  pose (a := mk_args (Some None) "csv" false None false "#meta").
  exists w1, rd1, a, start1, None.
  assert (X : exists new, kind (c_fs (fst (metatab w1 rd1 a start1))) ["p"; "metadata.csv"] = Some (Some new) /\ new <> "old").
  { eexists. split; [vm_compute; reflexivity|discriminate]. }
  destruct X as (new & X1 & X2). exists new. split; [reflexivity|]. split; [apply kind_file; reflexivity|]. split; [exact X2|]. split; [reflexivity|]. split; [split; vm_compute; reflexivity|]. apply kind_file. exact X1.
Qed.
Print Assumptions C65_fragment_refuted.

(** ** C66: without -C and -W no file is touched *)

Theorem C66_untouched : forall w rd a c, a_create a = None -> a_write a = false -> c_fs (fst (metatab w rd a c)) = c_fs c.
Proof. exact (fun w rd a c C W => calls_metatab w rd a C (or_introl W) c). Qed.
Print Assumptions C66_untouched.

(** The formats that -W is not for, -d and -f do not write with it either. *)
Theorem C66_untouched_formats : forall w rd a c, a_create a = None ->
  ~ In (a_type a) ["json"; "yaml"; "line"; "csv"] \/ a_decl a = true \/ (exists t, a_find a = Some t /\ t <> "") ->
  c_fs (fst (metatab w rd a c)) = c_fs c.
Proof. exact (fun w rd a c C H => calls_metatab w rd a C (or_intror H) c). Qed.
Print Assumptions C66_untouched_formats.

Example C66_ex : let a := mk_args None "csv" false None false "metadata.csv" in
  a_create a = None /\ a_write a = false /\ exits (run_ a) 0 /\ List.length (c_out (fst (run_ a))) = 1 /\ c_fs (fst (run_ a)) = disk1.
Proof. repeat split; vm_compute; reflexivity. Qed.

(** ** C67: -W *)

(** What would have been printed is written to the file of the same name with
    the extension of the format, and nothing else changes. *)
Theorem C67_written : forall w rd a c s t p n, plain a -> a_write a = true -> reads_doc w (c_fs c) a s -> shown rd s (a_type a) t -> u_scheme (w_url w (file_arg (a_file a))) = "file" ->
  u_path (w_url w (file_arg (a_file a))) = (p ++ [n])%list -> has_char "/" n = false -> is_dir (c_fs c) p -> (forall n', renamed (extension (a_type a)) n n' -> ~ is_dir (c_fs c) (p ++ [n'])) ->
  exists n', renamed (extension (a_type a)) n n' /\ exits (metatab w rd a c) 0 /\ only_file (p ++ [n']) t (c_fs c) (c_fs (fst (metatab w rd a c)))
    /\ c_out (fst (metatab w rd a c)) = c_out c /\ c_log (fst (metatab w rd a c)) = c_log c.
Proof. exact written_run. Qed.
Print Assumptions C67_written.

(** However a run with -W ends, at most that one file has changed. *)
Theorem C67_nothing_else : forall w rd a c, a_create a = None ->
  c_fs (fst (metatab w rd a c)) = c_fs c
  \/ exists s t p n n', plain a /\ a_write a = true /\ reads_doc w (c_fs c) a s /\ shown rd s (a_type a) t
       /\ u_path (w_url w (file_arg (a_file a))) = (p ++ [n])%list /\ n' = name_suffix n (extension (a_type a)) /\ only_file (p ++ [n']) t (c_fs c) (c_fs (fst (metatab w rd a c))).
Proof. exact at_most_one. Qed.
Print Assumptions C67_nothing_else.

Example C67_ex : let a := mk_args None "line" true None false "metadata.csv" in
  plain a /\ (exists s, reads_doc w1 (c_fs start1) a s /\ exists t, shown rd1 s "line" t
    /\ lookup (c_fs (fst (run_ a))) ["p"] = Some (Dir [("metadata.csv", File "old"); ("metadata.txt", File t)]))
  /\ renamed ".txt" "metadata.csv" "metadata.txt" /\ exits (run_ a) 0 /\ c_out (fst (run_ a)) = [].
Proof.
  cbv zeta. split; [split; [reflexivity|split; [reflexivity|left; reflexivity]]|]. split; [|split; [|split; [split|]; vm_compute; reflexivity]].
  - eexists. split.
    + eexists. split; [reflexivity|]. vm_compute. reflexivity.
    + eexists. split; [apply shown_line|]; vm_compute; reflexivity.
  - apply (with_ext ".txt" "metadata" "csv"); [discriminate|discriminate|]. unfold dot_free. cbn. intuition discriminate.
Qed.

(** ** C68: what is printed, and how the run ends *)

(** a fragment alone is one of metadata.csv; other names are taken as they are *)
Theorem C68_fragment : forall w rd a c r, metatab w rd (on_file ("#" ++ r) a) c = metatab w rd (on_file ("metadata.csv#" ++ r) a) c.
Proof. exact fragment_run. Qed.
Print Assumptions C68_fragment.

Theorem C68_file : forall f g, meant f g -> file_arg f = g.
Proof. exact file_meant. Qed.
Print Assumptions C68_file.

Theorem C68_printed : forall w rd a c s t, plain a -> a_write a = false -> reads_doc w (c_fs c) a s -> shown rd s (a_type a) t -> u_scheme (w_url w (file_arg (a_file a))) = "file" ->
  printed c (metatab w rd a c) [t].
Proof. exact printed_run. Qed.
Print Assumptions C68_printed.

(** "A document that could be read is printed": not if it is not a local file. *)
Theorem C68_remote_refuted : forall w rd a c s t, plain a -> reads_doc w (c_fs c) a s -> shown rd s (a_type a) t -> u_scheme (w_url w (file_arg (a_file a))) <> "file" ->
  exits (metatab w rd a c) 1 /\ c_fs (fst (metatab w rd a c)) = c_fs c /\ c_out (fst (metatab w rd a c)) = c_out c.
Proof. exact remote_run. Qed.
Print Assumptions C68_remote_refuted.

Theorem C68_unopened : forall w rd a c, a_create a = None -> w_src w (c_fs c) (w_url w (file_arg (a_file a))) = Err EOS ->
  exits (metatab w rd a c) 1 /\ c_fs (fst (metatab w rd a c)) = c_fs c /\ c_out (fst (metatab w rd a c)) = c_out c.
Proof. exact unopened_run. Qed.
Print Assumptions C68_unopened.

(** -f prints the value of the first term that find returns ... *)
Theorem C68_find : forall w rd a c s term t l, a_create a = None -> a_decl a = false -> a_find a = Some term -> term <> "" -> reads_doc w (c_fs c) a s -> doc_find s term VFalse SAny = Ok (t :: l) ->
  printed c (metatab w rd a c) [str_val (t_val (tget t s))].
Proof. exact (fun w rd a c s term t l => find_run w rd a c s term (t :: l)). Qed.
Print Assumptions C68_find.
(** ... and ends in an AttributeError if there is none. *)
Theorem C68_find_refuted : forall w rd a c s term, a_create a = None -> a_decl a = false -> a_find a = Some term -> term <> "" -> reads_doc w (c_fs c) a s -> doc_find s term VFalse SAny = Ok [] ->
  metatab w rd a c = (c, Err EAttr).
Proof. exact (fun w rd a c s term => find_run w rd a c s term []). Qed.
Print Assumptions C68_find_refuted.

(** "-d prints the declarations": only with -j or -y; with the default format
    nothing is printed. *)
Theorem C68_declaration_refuted : forall w rd a c, a_create a = None -> a_decl a = true -> a_type a <> "json" -> a_type a <> "yaml" ->
  c_out (fst (metatab w rd a c)) = c_out c.
Proof. exact decl_silent. Qed.
Print Assumptions C68_declaration_refuted.

Definition s1 : st := Eval vm_compute in fst (parse_rows no_env 5 csv_rows).
Example C68_ex : let a := mk_args None "csv" false None false "metadata.csv" in
  plain a /\ reads_doc w1 disk1 a s1 /\ (exists t, shown rd1 s1 "csv" t /\ c_out (fst (run_ a)) = [t])
  /\ c_out (fst (run_ (mk_args None "csv" false (Some "Root.Wrangler") false "metadata.csv"))) = ["Bob"]
  /\ run_ (mk_args None "csv" false (Some "Root.Nobody") false "metadata.csv") = (start1, Err EAttr)
  /\ doc_find s1 "Root.Wrangler" VFalse SAny = Ok [3] /\ doc_find s1 "Root.Nobody" VFalse SAny = Ok []
  /\ c_out (fst (metatab w1 rd1 (mk_args None "csv" false None true "metadata.csv") start1)) = [].
Proof.
  cbv zeta. split; [split; [reflexivity|split; [reflexivity|left; reflexivity]]|]. split; [eexists; split; [reflexivity|vm_compute; reflexivity]|].
  split; [eexists; split; [apply shown_csv|]; vm_compute; reflexivity|]. repeat split; vm_compute; reflexivity.
Qed.
Definition w_web : world :=
  mk_world (w_path w1) (fun f => mk_url "http" ["p"; f]) (w_write_url w1) (w_src w1) (w_env w1) (w_template w1) 5 "77".
Example C68_ex_remote : let a := mk_args None "csv" false None false "http://x.org/metadata.csv" in
  plain a /\ reads_doc w_web disk1 a s1 /\ (exists t, shown rd1 s1 "csv" t) /\ u_scheme (w_url w_web (file_arg (a_file a))) <> "file"
  /\ c_log (fst (metatab w_web rd1 a start1)) = ["CRITICAL: Can only use -w with local files"].
Proof.
  cbv zeta. split; [split; [reflexivity|split; [reflexivity|left; reflexivity]]|]. split; [eexists; split; [reflexivity|vm_compute; reflexivity]|].
  split; [eexists; apply shown_csv; vm_compute; reflexivity|]. split; [discriminate|vm_compute; reflexivity].
Qed.
Definition w_none : world :=
  mk_world (w_path w1) (w_url w1) (w_write_url w1) (fun _ _ => Err EOS) (w_env w1) (w_template w1) 5 "77".
Example C68_ex_unopened : c_log (fst (metatab w_none rd1 (mk_args None "csv" false None false "x.csv") start1)) = ["CRITICAL: Failed to open 'x.csv'"].
Proof. vm_compute. reflexivity. Qed.

(** ** C69: get_table *)

(** The first table with that name is returned. *)
Theorem C69_found : forall s name c t l, doc_find s "Root.Table" (VStr name) SAny = Ok (t :: l) -> get_table s name c = (c, Ok t).
Proof. exact table_found. Qed.
Print Assumptions C69_found.

(** Without one the command ends with exit code 1 and a message that lists the
    tables there are. *)
Theorem C69_missing_partial : forall s name c l vs, doc_find s "Root.Table" (VStr name) SAny = Ok [] -> doc_find s "Root.Table" VFalse SAny = Ok l -> map (fun t => t_val (tget t s)) l = map VStr vs ->
  exists msg, get_table s name c = (mk_cst (c_fs c) (c_out c) (c_log c ++ [msg]) (Some 1), Err EExit)
    /\ msg = ("CRITICAL: Did not find schema for table name '" ++ name ++ "' Tables are: " ++ join " " (match vs with [] => ["<No Tables>"] | _ => map (fun v => "'" ++ v ++ "'") vs end))%string.
Proof. exact table_missing. Qed.
Print Assumptions C69_missing_partial.

(** A table without a value makes the message fail with a TypeError instead. *)
Theorem C69_missing_refuted : exists s name c l, doc_find s "Root.Table" (VStr name) SAny = Ok [] /\ doc_find s "Root.Table" VFalse SAny = Ok l /\ get_table s name c = (c, Err EType).
Proof.
  exists (fst (parse_rows no_env 5 [["Section"; "Schema"]; ["Table"; ""]; ["Table"; "b"]])), "a", start1. eexists.
  split; [vm_compute; reflexivity|]. split; [vm_compute; reflexivity|]. vm_compute. reflexivity.
Qed.
Print Assumptions C69_missing_refuted.

Definition tables : st := Eval vm_compute in fst (parse_rows no_env 5 [["Section"; "Schema"]; ["Table"; "a"]; ["Table"; "b"]]).
Example C69_ex : doc_find tables "Root.Table" (VStr "b") SAny = Ok [3] /\ get_table tables "b" start1 = (start1, Ok 3)
  /\ doc_find tables "Root.Table" (VStr "x") SAny = Ok []
  /\ c_log (fst (get_table tables "x" start1)) = ["CRITICAL: Did not find schema for table name 'x' Tables are: 'a' 'b'"].
Proof. repeat split; vm_compute; reflexivity. Qed.
