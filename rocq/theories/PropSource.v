(** * PropSource: row generators (C86) *)

From Verif Require Import StrFacts SpecNames SpecParse Parser SpecDoc SpecInclude RowGen SpecSource SourceFacts.

(** ** C86 *)

(** the text row generator reads the text it is given: that of a path, an open
    file, a URL or a file name, and a str that names no file is the text itself;
    anything else, and a path or URL that cannot be read, is an error *)
Theorem C86_text : forall files o c, given files o c -> text_of_ref o = option_map Chars c.
Proof. exact c86_text. Qed.
Print Assumptions C86_text.

Example C86_text_ex :
  given (fun _ => None) (mk_obj None None None None (Some (Chars "Title: T"))) (Some "Title: T")
  /\ rows_of_text (Chars (join (String (ascii_of_nat 10) "") ["Title: T"; "# no"; "==== People"; "Name: Ann | a@x"])) = Ok [["Title"; "T"]; ["Section"; "People"]; ["Name"; "Ann "; " a@x"]].
Proof. split; [constructor; reflexivity|reflexivity]. Qed.

(** a text that is the name of a file is not read as text; a file opened as binary
    cannot be read at all: TypeError *)
Theorem C86_name_refuted :
  (exists files s c, files s = Some c /\ c <> s /\ text_of_ref (mk_obj None None None (option_map Chars (files s)) (Some (Chars s))) = Some (Chars c))
  /\ rows_of_text (Bytes "Title: T") = Err EType.
Proof. split; [exists (fun _ => Some "x"), "Title: T", "x"; repeat split; discriminate|reflexivity]. Qed.
Print Assumptions C86_name_refuted.

(** the rows of a row generator are read like those of a file in any directory, if
    no row names the file itself and the directory does not matter for the names in
    Include and Declare rows.
    Missing: rows that name files relative to the path of the generator. *)
Theorem C86_load_partial : forall e n decls f dir rows path s, Forall (place_free e dir) rows -> Forall (fun row => ~ names_file e dir row f) rows ->
  open_gen e n decls (row_generator rows path) s = open_doc e n decls (mk_source (Some f) dir rows) s.
Proof. exact c86_load. Qed.
Print Assumptions C86_load_partial.

Definition env86 : env := mk_env (fun x => eqs x "/data/b.csv") (fun _ => None) (fun x => dget x [("/data/b.csv", [["Note"; "n"]]); ("http://b", [["Note"; "n"]])]).
Definition start86 : st := new_doc default_classes [] [] [].
Definition rows86 (name : string) : list (list string) := [["Title"; "T"]; ["Include"; name]].

Example C86_ex : Forall (place_free env86 "/data") (rows86 "http://b") /\ Forall (fun row => ~ names_file env86 "/data" row "/data/me.csv") (rows86 "http://b")
  /\ snd (open_gen env86 3 [] (row_generator (rows86 "http://b") (Some "/data/me.csv")) start86) = Ok tt.
Proof.
  assert (D : ~ cell_names "Include" "root" "declare") by (intros H; apply NameFacts.split_term_lower_spec in H; discriminate H).
  assert (T : forall k, In k ["include"; "declare"] -> ~ cell_names "Title" "root" k).
  { intros k I H. apply NameFacts.split_term_lower_spec in H. destruct I as [<-|[<-|[]]]; discriminate H. }
  assert (T' : forall dir y, ~ names_file env86 dir ["Title"; "T"] y).
  { intros dir y [V [[[A B] C]|[[A B] C]]]; [exact (T _ (or_introl eq_refl) B)|exact (T _ (or_intror (or_introl eq_refl)) B)]. }
  assert (N : forall dir y, names_file env86 dir ["Include"; "http://b"] y <-> file_row "include" ["Include"; "http://b"] /\ y = "http://b").
  { intros dir y. split.
    - intros [V [[A C]|[[A B] C]]]; [|exfalso; exact (D B)]. split; [exact A|]. injection C as <-. reflexivity.
    - intros [A ->]. split; [discriminate|]. left. split; [exact A|reflexivity]. }
  split; [|split].
  - apply Forall_cons; [|apply Forall_cons; [|apply Forall_nil]]; intros y.
    + split; intros H; exfalso; exact (T' _ _ H).
    + rewrite !N. reflexivity.
  - apply Forall_cons; [apply T'|apply Forall_cons; [|apply Forall_nil]]. rewrite N. intros [_ H]. discriminate H.
  - vm_compute. reflexivity.
Qed.

(** the parser does not use the path of a row generator: a file that is read
    through a row generator that has its path cannot include its neighbours *)
Theorem C86_path_refuted :
  snd (open_gen env86 3 [] (row_generator (rows86 "b.csv") (Some "/data/me.csv")) start86) = Err EInclude
  /\ snd (open_doc env86 3 [] (mk_source (Some "/data/me.csv") "/data" (rows86 "b.csv")) start86) = Ok tt.
Proof. split; vm_compute; reflexivity. Qed.
Print Assumptions C86_path_refuted.
