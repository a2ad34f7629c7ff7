(** * Misc: flatten, data packages, YAML source, metatab URLs
    (metatab/util.py, datapackage.py, rowgen.py, appurl.py) *)

From Verif Require Export Render Parser.

(** ** flatten (util.py:55-72)

    The code uses collections.MutableMapping, which exists up to Python 3.9; the
    model is of that behaviour.  Dict keys are str. *)
Fixpoint flat (sep pk : string) (e : jv) : list (string * val) :=
  let prefix := (if nonempty pk then pk ++ sep else "")%string in
  let pre l := map (fun kv => ((prefix ++ fst kv)%string, snd kv)) l in
  match e with
  | JDict d =>
      (fix go (d : list (string * jv)) : list (string * val) :=
         match d with
         | [] => []
         | (k, v) :: d' => pre (flat sep k v) ++ go d'
         end) d
  | JList l =>
      (fix go (i : nat) (l : list jv) : list (string * val) :=
         match l with
         | [] => []
         | v :: l' => pre (flat sep (str_of_nat i) v) ++ go (S i) l'
         end) 0 l
  | JVal v => [(pk, v)]
  end.

Definition flatten (e : jv) : list (string * val) := flat "." "" e.

(** ** convert_to_datapackage (datapackage.py) *)

(** datapackage.py:9-15 *)
Definition type_map : dict string :=
  [("str", "string"); ("text", "string"); ("unicode", "string"); ("int", "integer"); ("float", "number")].

(** type_map.get(x, x); a list or dict is not hashable *)
Definition map_type (x : option jv) : res jv :=
  match x with
  | None => Ok (JVal VNone)
  | Some (JVal (VStr s)) => Ok (JVal (VStr (match dget s type_map with Some t => t | None => s end)))
  | Some (JVal v) => Ok (JVal v)
  | Some _ => Err EType
  end.

(** datapackage.py:49-58 mkdict; [c.get] needs a dict *)
Definition mkdict (c : jv) : res jv :=
  match c with
  | JDict d =>
      let keep p := match dget p d with Some x => if jtruthy x then [(p, x)] else [] | None => [] end in
      do? ty <- map_type (dget "datatype" d) ;;
      Ok (JDict (keep "name" ++ keep "title" ++ keep "description" ++ [("type", ty)]))
  | _ => Err EAttr
  end.

(** [mkdict(c) for c in columns]: iterating a dict gives its keys and a str its
    characters, which have no [get] *)
Definition mkfields (columns : jv) : res jv :=
  match columns with
  | JList l => do? fs <- rmap mkdict l ;; Ok (JList fs)
  | JDict [] => Ok (JList [])
  | JDict _ => Err EAttr
  | JVal (VStr "") => Ok (JList [])
  | JVal (VStr _) => Err EAttr
  | JVal _ => Err EType
  end.

(** a dict keyed by term values *)
Fixpoint vget {A} (k : val) (d : list (val * A)) : option A :=
  match d with
  | [] => None
  | (k', x) :: d' => match vget k d' with Some y => Some y | None => if veq k k' then Some x else None end
  end.

(** datapackage.py:33: t.as_dict()['column'] *)
Definition table_schema (s : st) (t : nat) : res (val * jv) :=
  do? j <- as_dict (heap_fuel (s_heap s)) (s_heap s) true t ;;
  match j with
  | JDict d => match dget "column" d with
               | Some c => Ok (t_val (tget t s), c)
               | None => Err EKey
               end
  | _ => Err EType
  end.

(** datapackage.py:44-47: the columns of a resource, None to skip it *)
Definition resource_columns (schemas : list (val * jv)) (r : dict val) : option jv :=
  let name := match dget "name" r with Some v => v | None => VStr "<none>" end in
  match vget name schemas with
  | Some c => match dget "name" r with Some _ => Some c | None => None end
  | None => match dget "table" r with Some v => vget v schemas | None => None end
  end.

(** datapackage.py:41-66 *)
Fixpoint resources (schemas : list (val * jv)) (rs : list (dict val)) : res (list jv) :=
  match rs with
  | [] => Ok []
  | r :: rs' =>
      match resource_columns schemas r with
      | None => resources schemas rs'
      | Some columns =>
          match dget "url" r, dget "name" r with
          | Some u, Some n =>
              do? fs <- mkfields columns ;;
              do? rest <- resources schemas rs' ;;
              Ok (JDict [("path", JVal u); ("name", JVal n); ("schema", JDict [("fields", fs)])] :: rest)
          | _, _ => Err EKey
          end
      end
  end.

Definition key_to (e : exn) {A} (r : res A) : res A :=
  match r with Err EKey => Err e | _ => r end.

(** datapackage.py:18-68 convert_to_datapackage *)
Definition convert_to_datapackage (s : st) : res (dict jv) :=
  let h := s_heap s in
  do? root <- get_section (VStr "root") s ;;
  do? j <- section_as_dict h true root ;;
  do? dp <- (match j with JDict d => Ok d | _ => Err EAttr end) ;;
  do? dp <- (match (do? i <- get_section (VStr "identity") s ;; section_as_dict h true i) with
             | Ok (JDict d) => Ok (dupdate dp d)
             | Ok (JVal (VStr "")) => Ok dp
             | Ok (JVal (VStr _)) => Err EValue
             | Ok _ => Err EType
             | Err EKey => Ok dp
             | Err e => Err e
             end) ;;
  do? dp <- (match dget "name" dp with
             | Some _ => Ok dp
             | None => match dget "indentifier" dp with
                       | Some x => Ok (dset "name" x dp)
                       | None => Err EConversion
                       end
             end) ;;
  do? schemas <- key_to EConversion
                   (do? sec <- get_section (VStr "schema") s ;;
                    rmap (table_schema s) (t_terms (hget sec h))) ;;
  do? rsec <- get_section (VStr "resources") s ;;
  do? files <- rfilter (fun t => term_is (hget t h) "root.datafile") (t_terms (hget rsec h)) ;;
  do? rs <- rmap (fun t => arg_props h (hget t h)) files ;;
  do? out <- resources schemas rs ;;
  Ok (dset "resources" (JList out) dp).

(** ** YamlMetatabSource.yield_dict (rowgen.py:19-40) *)

(** rowgen.py:23 *)
Definition yaml_name (parent : option string) (k : string) : string :=
  let p := match parent with Some p => if nonempty p then p else "Root" | None => "Root" end in
  lower (last (split_on "." p) "" ++ "." ++ k)%string.

(** rowgen.py:24-25 *)
Definition yaml_vtn (decl : dict tdecl) (tn : string) : string :=
  match dget tn decl with
  | Some td => match dget "termvaluename" (td_props td) with Some n => lower n | None => "" end
  | None => ""
  end.

(** rowgen.py:19-40.  [del e[vtn]] is modelled by passing [skip]: the key that
    was deleted from the dict before the recursive call. *)
Fixpoint yield_dict (decl : dict tdecl) (parent : option string) (skip : option string) (d : jv)
    : res (list (string * jv * option string)) :=
  match d with
  | JDict items =>
      (fix go (items : list (string * jv)) : res (list (string * jv * option string)) :=
         match items with
         | [] => Ok []
         | (k, v) :: items' =>
             if (match skip with Some x => eqs x k | None => false end) then go items'
             else
               let tn := yaml_name parent k in
               let vtn := yaml_vtn decl tn in
               do? out <-
                 (match v with
                  | JList l =>
                      (fix golist (l : list jv) : res (list (string * jv * option string)) :=
                         match l with
                         | [] => Ok []
                         | e :: l' =>
                             do? here <-
                               (match e with
                                | JDict de =>
                                    match dget vtn de with
                                    | Some value =>
                                        do? sub <- yield_dict decl (Some tn) (Some vtn) e ;;
                                        Ok ((tn, value, parent) :: sub)
                                    | None => yield_dict decl (Some tn) None e
                                    end
                                | _ => Err EType
                                end) ;;
                             do? rest <- golist l' ;;
                             Ok (here ++ rest)
                         end) l
                  | JDict _ => yield_dict decl (Some tn) None v
                  | JVal _ => Ok [(tn, v, parent)]
                  end) ;;
               do? rest <- go items' ;;
               Ok (out ++ rest)
         end) items
  | _ => Err EAttr
  end.

(** ** MetatabUrl (appurl.py)

    Only the path part of the URL is modelled; [file_ext] of the rowgenerators
    library is os.path.splitext without the dot, and resource_file is the base
    name of the path. *)

Definition default_file : string := "metadata.csv".

(** os.path.basename *)
Definition basename (p : string) : string := last (split_on "/" p) "".


(** file_ext(basename(path)): what follows the last dot, if something other
    than dots precedes it *)
Definition file_ext (name : string) : string :=
  match rev (split_on "." name) with
  | ext :: before => if forallb (fun p => eqs p "") before then "" else ext
  | [] => ""
  end.

(** appurl.py:18 simple_file_formats *)
Definition simple_formats : list string := ["csv"; "txt"; "ipynb"].

(** appurl.py:29-30: the path of the URL *)
Definition url_path (p : string) : string :=
  if mem_str (file_ext (basename p)) ("zip" :: "xlsx" :: simple_formats) then p
  else path_join p default_file.

(** appurl.py:36-45: the fragment; None stands for UnboundLocalError *)
Definition url_fragment (path : string) : option string :=
  let fmt := file_ext (basename path) in
  if eqs (basename path) default_file then Some ""
  else if mem_str fmt simple_formats then Some ""
  else if eqs fmt "xlsx" then Some "meta"
  else if eqs fmt "zip" then Some default_file
  else None.

(** str.endswith *)
Definition endswith (suf s : string) : bool :=
  (String.length suf <=? String.length s)
  && eqs (substring (String.length s - String.length suf) (String.length suf) s) suf.

(** appurl.py:67-78 target_file *)
Definition target_file (path : string) : string :=
  let fmt := file_ext (basename path) in
  if endswith default_file path then default_file
  else if mem_str fmt simple_formats then basename path
  else if eqs fmt "xlsx" then "meta"
  else if eqs fmt "zip" then "metadata.csv"
  else basename path.

(** appurl.py:80-89 target_format *)
Definition target_format (path : string) : string :=
  let fmt := file_ext (basename path) in
  if mem_str fmt simple_formats then fmt
  else if eqs fmt "xlsx" then "xlsx"
  else "csv".
