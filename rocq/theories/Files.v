(** * Files: directories and files (metatab/util.py:84-99, 126-173)

    The file system is a tree without links; a path is the list of names that
    lead from the root to a node, already absolute and free of "." and ".."
    ([os.path.realpath] is the identity on it).  Permissions, times and full
    disks are not modelled. *)

From Verif Require Export PyBase.

Inductive node := File (content : string) | Dir (entries : dict node).
Definition path := list string.

Definition FS := M node.

(** the node at a path *)
Fixpoint lookup (fs : node) (p : path) : option node :=
  match p, fs with
  | [], _ => Some fs
  | n :: p', Dir es => match dget n es with Some x => lookup x p' | None => None end
  | _ :: _, File _ => None
  end.

(** os.path.exists, os.path.isdir *)
Definition exists_at (fs : node) (p : path) : bool := match lookup fs p with Some _ => true | None => false end.
Definition isdir_at (fs : node) (p : path) : bool := match lookup fs p with Some (Dir _) => true | _ => false end.

(** the tree with [x] at the path: None if the directory to hold it is missing *)
Fixpoint put (fs : node) (p : path) (x : node) : option node :=
  match p, fs with
  | [], _ => Some x
  | n :: p', Dir es =>
      match p' with
      | [] => Some (Dir (dset n x es))
      | _ => match dget n es with
             | Some y => match put y p' x with Some y' => Some (Dir (dset n y' es)) | None => None end
             | None => None
             end
      end
  | _ :: _, File _ => None
  end.

Definition place_at (p : path) (x : node) : FS unit :=
  fs <- gets (fun fs => fs) ;;
  match put fs p x with
  | Some fs' => fun _ => (fs', Ok tt)
  | None => raise EOS
  end.

(** os.mkdir *)
Definition mkdir (p : path) : FS unit :=
  b <- gets (fun fs => exists_at fs p) ;;
  if b then raise EOS else place_at p (Dir []).

(** os.makedirs(p); the argument is the path from its last name up *)
Fixpoint makedirs_up (up : list string) : FS unit :=
  match up with
  | [] => raise EOS
  | _ :: up' =>
      b <- gets (fun fs => exists_at fs (rev up')) ;;
      (if b then ret tt else makedirs_up up') ;;;
      mkdir (rev up)
  end.
Definition makedirs (p : path) : FS unit := makedirs_up (rev p).

(** open(p, 'w') and writing [text] *)
Definition write_file (p : path) (text : string) : FS unit :=
  b <- gets (fun fs => isdir_at fs p) ;;
  if b then raise EOS else place_at p (File text).

(** util.py:161-163 ensure_dir.  The empty string is the path [] here; nothing
    is done for either. *)
Definition ensure_dir (p : path) : FS unit :=
  b <- gets (fun fs => exists_at fs p) ;;
  if b then ret tt else makedirs p.

(** util.py:87-95 maybe_makedir *)
Definition maybe_makedir (p : path) : FS unit :=
  e <- gets (fun fs => exists_at fs p) ;;
  d <- gets (fun fs => isdir_at fs p) ;;
  if e && negb d then raise EOS
  else if e then ret tt else makedirs p.

(** util.py:84-99 make_dir_structure, with the names of util.py:78-81 *)
Definition make_dir_structure (base : path) : FS unit :=
  maybe_makedir (base ++ ["_metapack"; "download"]) ;;;
  maybe_makedir (base ++ ["_metapack"; "package"]) ;;;
  maybe_makedir (base ++ ["_metapack"; "old"]).

(** os.listdir; the order is that of the tree *)
Definition listdir (fs : node) (p : path) : res (list string) :=
  match lookup fs p with
  | Some (Dir es) => Ok (dkeys es)
  | _ => Err EOS
  end.

(** util.py:126-158 walk_up: what the generator yields, and the exception it
    ends with, if any.  The argument is the path from its last name up. *)
Definition walk_entry (fs : node) (p : path) : res (path * list string * list string) :=
  do? names <- listdir fs p ;;
  Ok (p, filter (fun n => isdir_at fs (p ++ [n])) names, filter (fun n => negb (isdir_at fs (p ++ [n]))) names).
Fixpoint walk_from (fs : node) (up : list string) : list (path * list string * list string) * option exn :=
  match walk_entry fs (rev up) with
  | Err e => ([], Some e)
  | Ok x =>
      match up with
      | [] => ([x], None)
      | _ :: up' => let (l, e) := walk_from fs up' in (x :: l, e)
      end
  end.
Definition walk_up (fs : node) (bottom : path) : list (path * list string * list string) * option exn := walk_from fs (rev bottom).

(** shutil.copy2(s, d) of the file [name] in the directory [src]: into [d] if it
    is a directory; SameFileError, an OSError, if it would go onto itself *)
Definition copy2 (content name : string) (src d : path) : FS unit :=
  b <- gets (fun fs => isdir_at fs d) ;;
  let target := (if b : bool then (d ++ [name])%list else d) in
  if list_eq_dec string_dec target (src ++ [name]) then raise EOS else write_file target content.

(** shutil.copytree(s, d) of the directory [x]: [d] is made, with its parents,
    and must not be there.  The copy of the contents is put there at once:
    [d] does not lie in the copied directory. *)
Definition copy_dir (x : node) (d : path) : FS unit := makedirs d ;;; place_at d x.

(** util.py:166-173 copytree; the directory [src] is read first *)
Fixpoint copy_items (items : list (string * node)) (src dst : path) : FS unit :=
  match items with
  | [] => ret tt
  | (n, x) :: items' =>
      (match x with
       | Dir _ => copy_dir x (dst ++ [n])
       | File c => copy2 c n src (dst ++ [n])
       end) ;;;
      copy_items items' src dst
  end.
Definition copytree (src dst : path) : FS unit :=
  o <- gets (fun fs => lookup fs src) ;;
  match o with
  | Some (Dir es) => copy_items es src dst
  | _ => raise EOS
  end.
