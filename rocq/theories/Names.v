(** * Names: term names (metatab/terms.py, metatab/parser.py) *)

From Verif Require Export PyBase.

(** parser.py:13 ROOT_TERM *)
Definition ROOT_TERM : string := "root".
(** parser.py:15 ELIDED_TERM *)
Definition ELIDED_TERM : string := "<elided_term>".

(** terms.py:121-139 Term.split_term.  [term.split('.')] is unpacked into two
    names: with two or more dots Python raises ValueError. *)
Definition split_term (term : string) : res (string * string) :=
  if has_char "." term then
    match split_on "." term with
    | [p; r] =>
        let p := strip p in
        let r := strip r in
        Ok (if eqs p "" then ELIDED_TERM else p, r)
    | _ => Err EValue
    end
  else Ok (ROOT_TERM, strip term).

(** terms.py:141-150 Term.split_term_lower *)
Definition split_term_lower (term : string) : res (string * string) :=
  do? (p, r) <- split_term term ;; Ok (lower p, lower r).

(** the format "{}.{}" used by terms.py:414, 419, 424 *)
Definition dotted (p r : string) : string := (p ++ "." ++ r)%string.

(** terms.py:411-414 Term.normalize_term *)
Definition normalize_term (term : string) : res string :=
  do? (p, r) <- split_term_lower term ;; Ok (dotted p r).

(** terms.py:447-472 Term.term_is for a str argument, for a term with parent
    name [pt] and record name [rt].  ValueError comes from split_term_lower. *)
Definition term_is_name (pt rt : string) (v : string) : res bool :=
  let v := if has_char "." v then v else ("root." ++ v)%string in
  do? (v_p, v_r) <- split_term_lower v ;;
  Ok (if eqs (dotted (lower pt) (lower rt)) (lower v) then true
      else if eqs v_r "*" && eqs v_p (lower pt) then true
      else if eqs v_p "*" && eqs v_r (lower rt) then true
      else if eqs v_p "*" && eqs v_r "*" then true
      else false).

(** terms.py:474-476 term_is for a list or tuple: any(...) stops at the first True *)
Fixpoint term_is_any (pt rt : string) (vs : list string) : res bool :=
  match vs with
  | [] => Ok false
  | v :: vs' =>
      do? b <- term_is_name pt rt v ;;
      if b then Ok true else term_is_any pt rt vs'
  end.
