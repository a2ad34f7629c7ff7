(** * PropArgv: the command line (C87) *)

From Verif Require Import Argv SpecArgv ArgvFacts.

(** ** C87 *)

(** every command line in the letters, names, shortened names and values of the
    options, with at most one file and no two options that exclude each other, is
    read as what its parts say *)
Theorem C87_read : forall is ws, whole is ws -> one_kind is -> List.length (files_of is) <= 1 -> parse_args ws = Parsed (meaning is).
Proof. exact c87_read. Qed.
Print Assumptions C87_read.

Theorem C87_command : forall w rd is ws c, whole is ws -> one_kind is -> List.length (files_of is) <= 1 -> command w rd ws c = metatab w rd (meaning is) c.
Proof. exact c87_command. Qed.
Print Assumptions C87_command.

(** with two such options or two files it is an error, exit code 2 *)
Theorem C87_wrong : forall is ws, whole is ws -> ~ one_kind is \/ 2 <= List.length (files_of is) -> parse_args ws = Exits 2.
Proof. exact c87_wrong. Qed.
Print Assumptions C87_wrong.

(** a word that starts like an option but is none, is short for several ones, or has a
    value it cannot have is an error in every place *)
Theorem C87_bad : forall is ws w is' ws', line is ws -> bad_word w -> line is' ws' -> parse_args (ws ++ w :: ws') = Exits 2.
Proof. exact c87_bad. Qed.
Print Assumptions C87_bad.

(** -f needs a word after it *)
Theorem C87_missing : forall is ws is' s, line is ws -> letters_of s is' -> parse_args (ws ++ [("-" ++ s ++ "f")%string]) = Exits 2.
Proof. exact c87_missing. Qed.
Print Assumptions C87_missing.

(** an error reads and writes no file *)
Theorem C87_usage : forall w rd ws c, parse_args ws = Exits 2 -> command w rd ws c = (mk_cst (c_fs c) (c_out c) (c_log c) (Some 2), Err EExit).
Proof. exact c87_usage. Qed.
Print Assumptions C87_usage.

(** -h ends the command with code 0 *)
Theorem C87_help : forall is ws w, line is ws -> one_kind is -> In w ["-h"; "--help"] -> parse_args (ws ++ [w]) = Exits 0.
Proof. exact c87_help. Qed.
Print Assumptions C87_help.

(** metatab -jW a.csv --find=root.title *)
Definition parts87 : list item := [IType "json"; IWrite; IFile "a.csv"; IFind "root.title"].
Definition words87 : list string := ["-jW"; "a.csv"; "--find=root.title"].
Example C87_ex : whole parts87 words87 /\ one_kind parts87 /\ List.length (files_of parts87) <= 1
  /\ meaning parts87 = mk_args None "json" true (Some "root.title") false "a.csv".
Proof.
  split; [|split; [|split; [cbn; auto|reflexivity]]].
  - apply wh_line. apply (l_cons [IType "json"; IWrite] ["-jW"] [IFile "a.csv"; IFind "root.title"] ["a.csv"; "--find=root.title"]); [| |discriminate].
    { apply (w_letters "jW"); [|discriminate]. apply (lo_cons "j"%char "json"); [cbn; tauto|]. apply (lo_cons "W"%char "write-in-place"); [cbn; tauto|]. apply lo_nil. }
    apply (l_cons [IFile "a.csv"] ["a.csv"] [IFind "root.title"] ["--find=root.title"]); [apply w_file; intros c s; discriminate| |discriminate].
    apply (l_cons [IFind "root.title"] ["--find=root.title"] [] []); [|apply l_nil|discriminate].
    apply (w_long_joined "f"%char "find-first" IFind "find" "root.title"); [cbn; tauto| |discriminate]. split; [reflexivity|]. right.
    intros l' I E. cbn in I. repeat (destruct I as [I|I]; [subst l'; try reflexivity; discriminate E|]). destruct I.
  - intros i j k k' I J A B. cbn in I, J. repeat (destruct I as [I|I]; [subst i|]); try destruct I; try discriminate A; repeat (destruct J as [J|J]; [subst j|]); try destruct J; try discriminate B. cbn in A, B. congruence.
Qed.

Example C87_bad_ex : bad_word "--c" /\ bad_word "-jx" /\ bad_word "--json=1"
  /\ parse_args ["-j"; "-y"] = Exits 2 /\ parse_args ["a"; "b"] = Exits 2 /\ parse_args ["-j"; "-h"; "a"; "b"] = Exits 0.
Proof.
  split; [|split; [|split; [|repeat split; reflexivity]]].
  - apply (b_many "c" "csv" "create"); try discriminate; try reflexivity; cbn; tauto.
  - apply (b_letters "j" [IType "json"] "x" ""); [apply (lo_cons "j"%char "json"); [cbn; tauto|apply lo_nil]|discriminate| |discriminate].
    cbn. intros I. repeat (destruct I as [I|I]; [discriminate I|]). destruct I.
  - apply (b_value "j"%char "json" (IType "json") "json" "1"); [cbn; tauto|]. split; [reflexivity|left; reflexivity].
Qed.

(** a word after -C is its template, so the file to create has to come first or after -- *)
Example C87_create_ex :
  parse_args ["-C"; "new.csv"] = Parsed (mk_args (Some (Some "new.csv")) "csv" false None false "metadata.csv")
  /\ parse_args ["new.csv"; "-C"] = Parsed (mk_args (Some None) "csv" false None false "new.csv")
  /\ parse_args ["-C"; "--"; "-n.csv"] = Parsed (mk_args (Some None) "csv" false None false "-n.csv").
Proof. repeat split; reflexivity. Qed.

(** a letter with = is not always an error: -j=W is read as -jW, and -j= ends in an
    uncaught IndexError *)
Example C87_equals_ex :
  parse_args ["-j=W"] = Parsed (mk_args None "json" true None false "metadata.csv") /\ parse_args ["-j="] = Raises EIndex.
Proof. split; reflexivity. Qed.
