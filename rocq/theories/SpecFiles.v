(** * SpecFiles: what is where in a tree of files (C62 - C65) *)

From Verif Require Import Files.

(** [x] is found by following the names [p] *)
Inductive leads : node -> path -> node -> Prop :=
| leads_here : forall x, leads x [] x
| leads_in : forall n es y p x, dget n es = Some y -> leads y p x -> leads (Dir es) (n :: p) x.

Definition is_file (fs : node) (p : path) (c : string) : Prop := leads fs p (File c).
Definition is_dir (fs : node) (p : path) : Prop := exists es, leads fs p (Dir es).
Definition missing (fs : node) (p : path) : Prop := forall x, ~ leads fs p x.

(** [q] is [p] or a directory above it *)
Definition above (q p : path) : Prop := exists r, p = (q ++ r)%list.

(** a file stands where a directory is to be *)
Definition in_the_way (fs : node) (p : path) : Prop := exists q c, above q p /\ is_file fs q c.

(** the same files, and the directories of [fs] and those above the paths [ps] *)
Definition with_dirs (ps : list path) (fs fs' : node) : Prop :=
  (forall q c, is_file fs' q c <-> is_file fs q c)
  /\ forall q, is_dir fs' q <-> is_dir fs q \/ exists p, In p ps /\ above q p.

(** the directories a package is built in *)
Definition build_dirs (base : path) : list path :=
  [(base ++ ["_metapack"; "download"])%list; (base ++ ["_metapack"; "package"])%list; (base ++ ["_metapack"; "old"])%list].

(** the directories above a directory, from itself to the root, each with its
    entries: first the directories, then the others *)
Definition entries_of (fs : node) (p : path) (dirs others : list string) : Prop :=
  exists es, leads fs p (Dir es)
    /\ (forall n, In n dirs <-> In n (dkeys es) /\ is_dir fs (p ++ [n])) /\ (forall n, In n others <-> In n (dkeys es) /\ ~ is_dir fs (p ++ [n])).
Inductive upward (fs : node) : path -> list (path * list string * list string) -> Prop :=
| up_root : forall dirs others, entries_of fs [] dirs others -> upward fs [] [([], dirs, others)]
| up_next : forall p n dirs others l, entries_of fs (p ++ [n]) dirs others -> upward fs p l -> upward fs (p ++ [n]) (((p ++ [n])%list, dirs, others) :: l).

(** the same below [p] in [fs] as below [q] in [fs'] *)
Definition same_below (fs : node) (p : path) (fs' : node) (q : path) : Prop :=
  (forall r c, is_file fs (p ++ r) c <-> is_file fs' (q ++ r) c) /\ (forall r, is_dir fs (p ++ r) <-> is_dir fs' (q ++ r)).

(** every directory of [src] is new in [dst], and no file of it is a directory there *)
Definition no_clash (fs : node) (src dst : path) : Prop :=
  forall n, (is_dir fs (src ++ [n]) -> missing fs (dst ++ [n])) /\ (forall c, is_file fs (src ++ [n]) c -> ~ is_dir fs (dst ++ [n])).

(** no name is twice in the directory *)
Definition tidy (fs : node) (p : path) : Prop := forall es, leads fs p (Dir es) -> NoDup (dkeys es).
