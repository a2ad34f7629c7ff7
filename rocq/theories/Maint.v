(** * Maint: identifiers, names, versions, cleaning and writing
    (metatab/doc.py:119-131, 520-773, 863-928) *)

From Verif Require Export Csv Slug.

(** self['Root'] (doc.py:307-315) *)
Definition root_section : MM nat := reads (get_section (VStr "Root")).

(** doc.py:572-583 ensure_identifier; [uuid] is the result of str(uuid4()) *)
Definition ensure_identifier (uuid : string) : MM unit :=
  o <- reads (fun s => doc_find_first s "Root.Identifier" VFalse (SOne "Root")) ;;
  i <- (match o with
        | Some i => ret i
        | None => r <- root_section ;; new_term r "Root.Identifier" VNone []
        end) ;;
  q <- getT i ;;
  (if truthy (t_val q) then ret tt else modT i (set_t_val (VStr uuid))) ;;;
  q <- getT i ;;
  assert_ (truthy (t_val q)).

(** doc.py:602, 587: self['Root'].find_first('Root.Version') *)
Definition find_version : MM (option nat) :=
  r <- root_section ;;
  reads (fun s => section_get_term s r "Root.Version" VFalse).

(** version.find_first(name) *)
Definition version_part (v : nat) (name : string) : MM (option nat) :=
  h <- gets s_heap ;; lift (term_find_first h v name VFalse).

(** doc.py:585-596 _has_semver *)
Definition has_semver : MM bool :=
  o <- find_version ;;
  match o with
  | None => ret false
  | Some v =>
      a <- version_part v "Version.Major" ;;
      b <- version_part v "Version.Minor" ;;
      c <- version_part v "Version.Patch" ;;
      ret (match a, b, c with None, None, None => false | _, _, _ => true end)
  end.

(** doc.py:616-624: one part of the version *)
Definition fix_part (v : nat) (o : option nat) (name : string) : MM unit :=
  i <- (match o with Some i => ret i | None => new_child v name (VInt 1) [] end) ;;
  q <- getT i ;;
  match t_val q with
  | VNone => modT i (set_t_val (VInt 0))
  | _ => ret tt
  end.

(** doc.py:598-644 update_version *)
Definition update_version : MM val :=
  o <- find_version ;;
  match o with
  | None => ret VNone
  | Some v =>
      a <- version_part v "Version.Major" ;;
      b <- version_part v "Version.Minor" ;;
      c <- version_part v "Version.Patch" ;;
      match a, b, c with
      | None, None, None => q <- getT v ;; ret (t_val q)
      | _, _, _ =>
          fix_part v a "Version.Major" ;;;
          fix_part v b "Version.Minor" ;;;
          fix_part v c "Version.Patch" ;;;
          a <- version_part v "Version.Major" ;;
          b <- version_part v "Version.Minor" ;;
          c <- version_part v "Version.Patch" ;;
          match a, b, c with
          | Some a, Some b, Some c =>
              h <- gets s_heap ;;
              let str i := str_val (t_val (hget i h)) in
              let sem := (str a ++ "." ++ str b ++ "." ++ str c)%string in
              modT v (set_t_val (VStr sem)) ;;;
              d <- version_part v "Version.Build" ;;
              let full := match d with
                          | Some d => (sem ++ "." ++ str d)%string
                          | None => sem
                          end in
              modT v (set_t_val (VStr full)) ;;;
              ret (VStr full)
          | _, _, _ => raise EAssert
          end
      end
  end.

(** the argument mod_version of _generate_identity_name (doc.py:699-703):
    False, None or a str *)
Inductive modver := MvKeep | MvNone | MvStr (s : string).

(** int(v) (doc.py:741, 755): TypeError for None and terms, ValueError for a
    str that is not an integer *)
Definition int_of (v : val) : res Z :=
  match v with
  | VStr s => match py_int s with Some z => Ok z | None => Err EValue end
  | VInt z => Ok z
  | VFalse => Ok 0%Z
  | VNone | VRef _ => Err EType
  end.

(** doc.py:754-757: the step after the sign *)
Definition step_of (s : string) : res Z :=
  if nonempty s then match py_int s with Some z => Ok z | None => Err EValue end else Ok 1%Z.

(** doc.py:729-761: the new modifiable part of the version.  The conversion of
    mv through float (doc.py:747-752) does not change int(mv). *)
Definition new_mv (mv : val) (m : modver) : res val :=
  match m with
  | MvKeep => Ok mv
  | MvNone => Ok VNone
  | MvStr "" => Err EIndex
  | MvStr (String c rest) =>
      if Ascii.eqb c "+" || Ascii.eqb c "-" then
        match int_of mv with
        | Err EValue => Err EMetatab
        | Err e => Err e
        | Ok n =>
            do? k <- step_of rest ;;
            Ok (VStr (str_of_Z (if Ascii.eqb c "+" then (n + k)%Z else (n - k)%Z)))
        end
      else Ok (VStr (String c rest))
  end.

(** doc.py:769-773: one part of the name *)
Definition name_part (e : val) : list string :=
  if truthy e && nonblank (str_val e) then [slugify (replace "-" "_" (str_val e))] else [].

(** doc.py:699-773 _generate_identity_name *)
Definition generate_identity_name (m : modver) : MM string :=
  let fv n := reads (fun s => doc_find_first_value s n VFalse (SOne "Root")) in
  datasetname <- fv "Root.Dataset" ;;
  origin <- fv "Root.Origin" ;;
  time <- fv "Root.Time" ;;
  space <- fv "Root.Space" ;;
  grain <- fv "Root.Grain" ;;
  variant <- fv "Root.Variant" ;;
  u <- update_version ;;
  sem <- has_semver ;;
  let key := if sem then "Version.Patch" else "Version" in
  r <- root_section ;;
  mv <- reads (fun s => section_get_value s r key) ;;
  mv' <- lift (new_mv mv m) ;;
  version <- (match mv' with
              | VNone => ret VNone
              | _ =>
                  r <- root_section ;;
                  o <- reads (fun s => section_get_term s r key VFalse) ;;
                  (match o with
                   | Some i => modT i (set_t_val mv')
                   | None => raise EAttr
                   end) ;;;
                  update_version
              end) ;;
  ret (join "-" (concat (map name_part [origin; datasetname; time; space; grain; variant; version]))).

(** doc.py:119-131 as_version *)
Definition as_version (m : modver) : MM string := generate_identity_name m.

(** the messages of update_name (doc.py:646-697) *)
Inductive update_msg :=
| NoNameTerm | ChangedName | NameUnchanged | GivingUp | SetToIdentifier | NoDataset.

(** doc.py:646-697 update_name *)
Definition update_name (uuid : string) (force create report : bool) (m : modver) : MM (list update_msg) :=
  ensure_identifier uuid ;;;
  o <- reads (fun s => doc_find_first s "Root.Name" VFalse SAny) ;;
  o <- (match o with
        | Some i => ret (Some i)
        | None =>
            if create then r <- root_section ;; i <- new_term r "Root.Name" (VStr "") [] ;; ret (Some i)
            else ret None
        end) ;;
  match o with
  | None => ret [NoNameTerm]
  | Some nt =>
      q <- getT nt ;;
      let orig := t_val q in
      identifier <- reads (fun s => doc_find_first_value s "Root.Identifier" VFalse SAny) ;;
      ds <- reads (fun s => doc_find_first_value s "Root.Dataset" VFalse SAny) ;;
      if truthy ds then
        name <- generate_identity_name m ;;
        if negb (veq (VStr name) orig) || force then
          modT nt (set_t_val (VStr name)) ;;; ret [ChangedName]
        else ret (if report then [NameUnchanged] else [])
      else if negb (truthy orig) then
        if negb (truthy identifier) then ret [GivingUp]
        else modT nt (set_t_val identifier) ;;; ret [SetToIdentifier]
      else if veq orig identifier then ret (if report then [NameUnchanged] else [])
      else ret [NoDataset]
  end.

(** except MetatabError *)
Definition catch_metatab {A} (m : MM A) (h : MM A) : MM A :=
  fun s => match m s with
           | (s', Err EMetatab) => h s'
           | (s', Err EInclude) => h s'
           | (s', Err EParser) => h s'
           | (s', Err EDeclaration) => h s'
           | (s', Err EGenerate) => h s'
           | (s', Err EConversion) => h s'
           | (s', Err EFormat) => h s'
           | x => x
           end.

(** doc.py:520-539 cleanse *)
Definition cleanse (uuid : string) : MM unit :=
  ensure_identifier uuid ;;;
  catch_metatab
    (l <- update_name uuid false false true MvKeep ;; ret tt)
    (r <- root_section ;;
     ident <- reads (fun s => section_get_term s r "Root.Identifier" VFalse) ;;
     name <- reads (fun s => section_get_term s r "Root.Name" VFalse) ;;
     h <- gets s_heap ;;
     let slug_ident := match ident with
                       | Some i => Ok (VStr (slugify (str_val (t_val (hget i h)))))
                       | None => Err EAttr
                       end in
     match name with
     | Some n =>
         if truthy (t_val (hget n h)) then modT n (set_t_val (VStr (slugify (str_val (t_val (hget n h))))))
         else v <- lift slug_ident ;; modT n (set_t_val v)
     | None =>
         v <- lift slug_ident ;;
         n <- get_or_new_term r "Root.Name" VFalse [] ;;
         modT n (set_t_val v)
     end).

(** ** clean_unused_schema_terms (doc.py:541-570) *)

(** doc.py:550-554, 566-567: the columns of the tables of the schema *)
Definition schema_columns (s : st) (sec : nat) : res (list nat) :=
  do? tables <- section_find s sec "Root.Table" VFalse ;;
  do? l <- rmap (fun t => term_find (s_heap s) t "Table.Column" VFalse) tables ;;
  Ok (concat l).

(** [v and v.strip()] *)
Definition val_nonblank (v : val) : res bool :=
  if truthy v then do? s <- as_str v ;; Ok (nonblank s) else Ok false.

(** doc.py:552-554 *)
Definition used_of (h : list trec) (c : nat) : res (list string) :=
  do? l <- rmap (fun kv => do? b <- val_nonblank (snd kv) ;; Ok (if b then [fst kv] else [])) (props h c) ;;
  Ok (concat l).

(** doc.py:541-570.  Python iterates over sets in an unspecified order; here
    removed and added columns are taken in order of first occurrence. *)
Definition clean_unused_schema_terms : MM unit :=
  sec <- reads (get_section (VStr "Schema")) ;;
  s <- gets (fun s => s) ;;
  let args := map lower (t_args (tget sec s)) in
  cols <- lift (schema_columns s sec) ;;
  used <- lift (do? l <- rmap (used_of (s_heap s)) cols ;; Ok (nodup string_dec (concat l))) ;;
  let drop := filter (fun a => negb (mem_str a used)) (nodup string_dec args) in
  let add := filter (fun a => negb (mem_str a args)) used in
  modT sec (fun r => set_t_args (fold_left (fun l a => remove_arg (title a) l) drop (t_args r)) r) ;;;
  modT sec (fun r => set_t_args (fold_left (fun l a => add_arg a false l) add (t_args r)) r) ;;;
  s <- gets (fun s => s) ;;
  cols <- lift (schema_columns s sec) ;;
  mapM_ (fun c =>
    q <- getT c ;;
    mapM_ (fun k =>
      kq <- getT k ;;
      b <- lift (val_nonblank (t_val kq)) ;;
      if b then ret tt else remove_child c k) (t_children q)) cols.

(** ** Writing (doc.py:890-928) *)

(** pathlib's PurePath.suffix of a path (trailing slashes and dots are not
    normalised as pathlib does) *)
Definition suffix (path : string) : string :=
  let name := last (split_on "/" path) "" in
  match rev (split_on "." name) with
  | ext :: _ :: _ =>
      if nonempty ext && negb (eqs name ("." ++ ext)%string) then ("." ++ ext)%string else ""
  | _ => ""
  end.

(** What a write does to the file system: nothing (None) or the path and the
    content written.  The content is computed before cleanse() runs
    (doc.py:901-917); [path] is a local file name (doc.py:863-888). *)
Definition write_csv (uuid path : string) : MM (option (string * string)) :=
  if negb (eqs (suffix path) ".csv") then raise EMetatab
  else
    text <- reads doc_as_csv ;;
    cleanse uuid ;;;
    ret (Some (path, text)).

Definition write_lines (uuid path : string) : MM (option (string * string)) :=
  if negb (eqs (suffix path) ".txt") then raise EMetatab
  else
    text <- reads doc_as_lines ;;
    cleanse uuid ;;;
    ret (Some (path, text)).

(** doc.py:919-928 write *)
Definition write (uuid path : string) : MM (option (string * string)) :=
  if eqs (suffix path) ".txt" then write_lines uuid path
  else if eqs (suffix path) ".csv" then write_csv uuid path
  else raise EFormat.
