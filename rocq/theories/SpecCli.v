(** * SpecCli: what a run of the command may do (C65 - C69) *)

From Verif Require Import Cli SpecFiles SpecNames.

(** [fs'] is [fs] with the file [p] containing [t], and nothing else changed *)
Definition only_file (p : path) (t : string) (fs fs' : node) : Prop :=
  is_file fs' p t
  /\ forall q, q <> p -> (forall c, is_file fs' q c <-> is_file fs q c) /\ (is_dir fs' q <-> is_dir fs q).

(** the same arguments, but printing *)
Definition printing (a : args) : args := mk_args (a_create a) (a_type a) false (a_find a) (a_decl a) (a_file a).

(** the name with its extension replaced, or added if it has none *)
Inductive renamed (ext : string) : string -> string -> Prop :=
| with_ext : forall base old, base <> "" -> old <> "" -> dot_free old -> renamed ext (base ++ "." ++ old)%string (base ++ ext)%string
| without_ext : forall name, (forall base old, base <> "" -> old <> "" -> dot_free old -> name <> (base ++ "." ++ old)%string) -> renamed ext name (name ++ ext)%string.

(** the run ended with sys.exit(n) *)
Definition exits (r : cst * res unit) (n : nat) : Prop := snd r = Err EExit /\ c_code (fst r) = Some n.

(** the run printed [t], did nothing else and ended with exit code 0 *)
Definition printed (c : cst) (r : cst * res unit) (l : list string) : Prop :=
  exits r 0 /\ c_fs (fst r) = c_fs c /\ c_log (fst r) = c_log c /\ c_out (fst r) = (c_out c ++ l)%list.

(** the file a command line means: a fragment is one of metadata.csv *)
Inductive meant : string -> string -> Prop :=
| meant_fragment : forall r, meant ("#" ++ r) ("metadata.csv#" ++ r)
| meant_file : forall f, (forall r, f <> ("#" ++ r)%string) -> meant f f.
Definition on_file (f : string) (a : args) : args := mk_args (a_create a) (a_type a) (a_write a) (a_find a) (a_decl a) f.

(** the document the command reads *)
Definition reads_doc (w : world) (fs : node) (a : args) (s : st) : Prop :=
  exists src, w_src w fs (w_url w (file_arg (a_file a))) = Ok src /\ open_doc (w_env w fs) (w_fuel w) [] src (init_st default_classes) = (s, Ok tt).

(** what is shown of a document in each of the formats *)
Inductive shown (rd : renderers) (s : st) : string -> string -> Prop :=
| shown_json : forall j, doc_as_dict s true = Ok j -> shown rd s "json" (r_json rd j)
| shown_yaml : forall j, doc_as_dict s true = Ok j -> shown rd s "yaml" (r_yaml rd j)
| shown_line : forall t, doc_as_lines s = Ok t -> shown rd s "line" t
| shown_csv : forall t, doc_as_csv s = Ok t -> shown rd s "csv" t.
Definition extension (ty : string) : string := match ty with "line" => ".txt" | "json" => ".json" | "yaml" => ".yaml" | _ => ".csv" end.

(** neither -C nor -d nor -f *)
Definition plain (a : args) : Prop := a_create a = None /\ a_decl a = false /\ (a_find a = None \/ a_find a = Some "").

(** the document of a template, of "metatab" if none is named *)
Definition template_doc (w : world) (fs : node) (t : option string) (s : st) : Prop :=
  exists src, w_template w fs (match t with Some t => if nonempty t then t else "metatab" | None => "metatab" end) = Ok src
    /\ open_doc (w_env w fs) (w_fuel w) [] src (init_st default_classes) = (s, Ok tt).
