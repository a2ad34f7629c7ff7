(** * SpecMaint: vocabulary for the maintenance operations (C40 - C50) *)

From Verif Require Import PyStr PyBase State Ops SpecNames SpecInv SpecFind SpecEdit Slug Maint.

(** a name of the top level such as Root.Identifier, to be found in documents:
    nothing is declared to be derived from it, and it does not make a section *)
Definition findable (s : st) (item : string) : Prop :=
  dget (lower item) (d_derived (s_doc s)) = None /\ is_section_cls (doc_term_class (lower item) s) = false.

(** nothing is declared to be derived from it *)
Definition underived (s : st) (item : string) : Prop := dget (lower item) (d_derived (s_doc s)) = None.

(** the identifier of a document *)
Definition identifier (s : st) (i : nat) : Prop := doc_find_first s "Root.Identifier" VFalse (SOne "Root") = Ok (Some i).
Definition no_identifier (s : st) : Prop := doc_find_first s "Root.Identifier" VFalse (SOne "Root") = Ok None.

(** ** Versions *)

(** the version of a document, and the names of the parts of a version *)
Definition version_term (s : st) (v : nat) : Prop := doc_find_first s "Root.Version" VFalse (SOne "Root") = Ok (Some v).
Definition no_version (s : st) : Prop := doc_find_first s "Root.Version" VFalse (SOne "Root") = Ok None.
Definition parts : list string := ["Major"; "Minor"; "Patch"].
(** [x] is the Major, Minor or Patch of [v] *)
Definition part_of (s : st) (v x : nat) : Prop := exists n, In n parts /\ first_child s v n x.
(** parts can be made: their names do not make sections *)
Definition parts_usual (s : st) : Prop := forall n, In n parts -> is_section_cls (doc_term_class (lower ("Version." ++ n)) s) = false.
(** a missing value counts as 0 *)
Definition filled (w : val) : val := match w with VNone => VInt 0 | w => w end.
(** the build of a version, if it has one *)
Definition build_of (s : st) (v : nat) (d : option nat) : Prop :=
  match d with Some d => first_child s v "Build" d | None => no_child s v "Build" end.
(** 'major.minor.patch' or 'major.minor.patch.build' *)
Definition version_text (s : st) (a b c : nat) (d : option nat) : string :=
  let str i := str_val (t_val (tget i s)) in
  (str a ++ "." ++ str b ++ "." ++ str c ++ match d with Some d => "." ++ str d | None => "" end)%string.

(** the names the maintenance operations look for *)
Definition used_names : list string :=
  ["Root.Identifier"; "Root.Name"; "Root.Dataset"; "Root.Origin"; "Root.Time"; "Root.Space"; "Root.Grain"; "Root.Variant"; "Root.Version"; "Version"; "Version.Patch"].
(** documents the maintenance operations are made for *)
Record ordinary {QK : Quirks} (s : st) : Prop := {
  or_order : in_order s;
  or_root : exists r, dget "root" (secs s) = Some r;
  or_derived : forall item, In item used_names -> underived s item;
  or_identifier : is_section_cls (doc_term_class "root.identifier" s) = false;
  or_name : is_section_cls (doc_term_class "root.name" s) = false;
  or_parts : parts_usual s;
  or_doc : forall v, version_term s v -> t_doc (tget v s) = true
}.

(** the version is up to date; [w] is its value *)
Inductive settled (s : st) : val -> Prop :=
| settled_none : no_version s -> settled s VNone
| settled_plain : forall v, version_term s v -> (forall n, In n parts -> no_child s v n) -> settled s (t_val (tget v s))
| settled_parts : forall v a b c d, version_term s v -> first_child s v "Major" a -> first_child s v "Minor" b -> first_child s v "Patch" c -> build_of s v d ->
    t_val (tget a s) <> VNone -> t_val (tget b s) <> VNone -> t_val (tget c s) <> VNone ->
    t_val (tget v s) = VStr (version_text s a b c d) -> settled s (VStr (version_text s a b c d)).

(** ** Names *)

(** the value of the first term called [item], None if there is none *)
Definition value_at (s : st) (item : string) (sa : secarg) (v : val) : Prop :=
  (exists i, doc_find_first s item VFalse sa = Ok (Some i) /\ v = t_val (tget i s)) \/ doc_find_first s item VFalse sa = Ok None /\ v = VNone.

(** a value that does not count *)
Definition blank_val (e : val) : Prop := truthy e = false \/ white (str_val e).
(** underscores for dashes *)
Fixpoint undash (x : string) : string :=
  match x with "" => "" | String c y => String (if Ascii.eqb c "-" then "_" else c)%char (undash y) end.
(** the slugs of the values that count *)
Inductive name_parts : list val -> list string -> Prop :=
| np_nil : name_parts [] []
| np_skip : forall e l m, blank_val e -> name_parts l m -> name_parts (e :: l) m
| np_take : forall e l m, ~ blank_val e -> name_parts l m -> name_parts (e :: l) (slugify (undash (str_val e)) :: m).

(** the version that goes into the name: that of the document; but a semantic
    version is left out if the root section has no Version.Patch with a value *)
Inductive shown (s : st) (w : val) : val -> Prop :=
| shown_none : no_version s -> shown s w w
| shown_plain : forall v, version_term s v -> (forall n, In n parts -> no_child s v n) -> shown s w w
| shown_patch : forall v x p u, version_term s v -> part_of s v x -> doc_find_first s "Version.Patch" VFalse (SOne "Root") = Ok (Some p) ->
    t_val (tget p s) = u -> u <> VNone -> shown s w w
| shown_nothing : forall v x, version_term s v -> part_of s v x -> value_at s "Version.Patch" (SOne "Root") VNone -> shown s w VNone.

(** no white space, and no accent that stands alone (it counts as white space) *)
Definition unspaced (x : string) : Prop := forall c, In c (list_ascii_of_string x) -> isspace c = false /\ ~ In (nat_of_ascii c) [160; 168; 175; 180; 184].

(** the six values before the version *)
Inductive name_values (s : st) : list val -> Prop :=
| nv_values : forall origin dataset time space grain variant,
    value_at s "Root.Origin" (SOne "Root") origin -> value_at s "Root.Dataset" (SOne "Root") dataset -> value_at s "Root.Time" (SOne "Root") time ->
    value_at s "Root.Space" (SOne "Root") space -> value_at s "Root.Grain" (SOne "Root") grain -> value_at s "Root.Variant" (SOne "Root") variant ->
    name_values s [origin; dataset; time; space; grain; variant].

(** the term that holds the name *)
Definition name_term (s : st) (nt : nat) : Prop := doc_find_first s "Root.Name" VFalse SAny = Ok (Some nt).
(** update_name did not report a change *)
Definition quiet (m : list update_msg) : Prop := ~ In ChangedName m /\ ~ In SetToIdentifier m.
(** the name agrees with the other terms of the document *)
Definition agrees (s : st) (nt : nat) : Prop :=
  exists l w ver m, name_values s l /\ settled s w /\ shown s w ver /\ name_parts (l ++ [ver]) m /\ t_val (tget nt s) = VStr (join "-" m).

(** what a file with the name [path] should hold *)
Definition content_of (path : string) (s : st) : res string := if eqs (suffix path) ".txt" then doc_as_lines s else doc_as_csv s.
(** the document after [n] calls of as_version *)
Fixpoint calls (n : nat) (m : modver) (s : st) : st := match n with O => s | S n => calls n m (fst (as_version m s)) end.
