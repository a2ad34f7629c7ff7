(** * PropNumber: names that are numbers of columns *)

From Coq Require Import NArith.
From Verif Require Import SpecNames SpecNumber Parser NumberFacts.

(** ** C15: handling a term changes nothing but its record name, and that only
    if it is the decimal number of a column, which it then takes: for every state
    and every term whose name has no declared synonym and no sign or underscore.
    [p_pmap] are the columns in force. *)
Theorem C15_rename : forall t s, t < hlen s -> tidy (t_rt (tget t s)) -> unsigned (t_rt (tget t s)) ->
  dget (join_lc (tget t s)) (synonyms (p_dterms (s_prs s))) = None ->
  exists name, renames (p_pmap (s_prs s)) (t_rt (tget t s)) name
    /\ rename_term t s = modT t (set_t_rt name) s.
Proof. exact c15_rename. Qed.
Print Assumptions C15_rename.

Definition c15_env : env := mk_env (fun _ => false) (fun _ => None) (fun _ => None).
Definition c15_doc (name : string) : st * res unit :=
  parse_rows c15_env 2 [["Section"; "S"; "Alpha"; "Beta"]; ["Thing"; "t"]; [("." ++ name)%string; "x"]].

(** the name of the last row's term *)
Definition c15_last (name : string) : string := t_rt (tget 3 (fst (c15_doc name))).
Example C15_example :
  map c15_last ["0"; "1"; "01"; "2"; "x1"] = ["alpha"; "beta"; "beta"; "2"; "x1"]
  /\ numeral "01" 1.
Proof. split; [vm_compute; reflexivity|]. exact (num_more "0" 0 "1" 1 (num_one "0" 0 dig0) dig1). Qed.

(** signs and underscores: "-1" takes the last column, "+1" and "0_1" the second *)
Theorem C15_sign_refuted :
  map c15_last ["-1"; "+1"; "0_1"] = ["beta"; "beta"; "beta"] /\ ~ (exists n, numeral "-1" n).
Proof. split; [vm_compute; reflexivity|]. intros [n H]. apply numeral_parse in H. discriminate H. Qed.
Print Assumptions C15_sign_refuted.
