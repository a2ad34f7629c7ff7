(** * PropInherit: declarations that inherit, and value sets (C17, C18) *)

From Verif Require Import SpecNames Parser SpecDoc SpecInherit InheritFacts DeclFacts ParseFacts.

(** ** C17 *)

(** Declaring the term [n] that inherits from [i]: for every name "i.r" listed in
    the section a declaration of "n.r" is made which is that of "i.r" but for its
    own name, and it is listed in the section of "i.r". *)
Theorem C17_children : forall t s s' v ap sec ih p n q i, full_keys s ->
  add_declared_term t s = (s', Ok tt) -> t_val (tget t s) = VStr v ->
  arg_props (s_heap s) (tget t s) = Ok ap ->
  dget "section" ap = Some (VStr sec) -> nonblank sec = true ->
  dget "inheritsfrom" ap = Some (VStr ih) -> nonblank ih = true ->
  cell_names v p n -> cell_names ih q i -> n <> "" -> n <> i -> p <> i ->
  forall x r, listed s (lower sec) x -> child_name i x r ->
  exists td m td', declared s x td /\ lower m = (n ++ "." ++ lower r)%string /\ declared s' m td' /\ copied m td td'
    /\ forall sc, dget "section" (td_props td) = Some sc -> listed s' (lower sc) m.
Proof. exact declare_children. Qed.
Print Assumptions C17_children.

(** the hypothesis on the names of the declarations holds when a parse starts and
    is kept by it, also by one that stops with an error *)
Theorem C17_keys : (forall s, full_keys (started s))
  /\ forall e load n src ft s s' r, full_keys s -> generate_terms e load n src ft s = (s', r) -> full_keys s'.
Proof. exact (conj full_started full_generate). Qed.
Print Assumptions C17_keys.

(** the process ends: the loop over the growing list of the section never runs
    out of the number of steps the model allows, twice the length of the list *)
Theorem C17_ends : forall T I sec s s', dot_free T ->
  inherit_loop (inherit_fuel sec s) T I sec 0 s <> (s', Err ERecursion).
Proof. exact inherit_norec. Qed.
Print Assumptions C17_ends.

Definition decls17 : list (list string) :=
  [["DeclareSection"; "Contacts"]; ["DeclareSection"; "People"];
   ["Section"; "Decl"; "Section"; "InheritsFrom"; "TermValueName"];
   ["DeclareTerm"; "Root.Person"; "Contacts"];
   ["DeclareTerm"; "Person.Email"; "Contacts"; ""; "address"];
   ["DeclareTerm"; "Person.Phone"; "People"];
   ["DeclareTerm"; "Root.Creator"; "Contacts"; "Person"]].
Definition env17 : env := mk_env (fun x => eqs x "d.csv") (fun _ => None) (fun x => if eqs x "d.csv" then Some decls17 else None).
Definition doc17 : st * res unit :=
  load_source env17 3 (mk_source None "" [["Declare"; "d.csv"]]) (new_doc default_classes [] [] []).

Example C17_ex : snd doc17 = Ok tt
  /\ map (fun kv => (fst kv, sd_terms (snd kv))) (filter (fun kv => dmem (fst kv) [("contacts", 0); ("people", 1)]) (p_dsecs (s_prs (fst doc17))))
     = [("contacts", ["Root.Person"; "Person.Email"; "Root.Creator"; "Creator.Email"]); ("people", ["Person.Phone"])]
  /\ option_map td_props (dget "creator.email" (p_dterms (s_prs (fst doc17))))
     = Some [("section", "Contacts"); ("termvaluename", "address"); ("term", "Creator.Email"); ("inheritsfrom", "")].
Proof. vm_compute. repeat split. Qed.

(** where the process stops: the inherited declaration was made again without a
    section.  What is raised is not the library's DeclarationError but the
    AttributeError of making its message (parser.py:597, 611). *)
Definition decls17b : list (list string) :=
  [["DeclareSection"; "Contacts"]; ["Section"; "Decl"; "Section"; "InheritsFrom"];
   ["DeclareTerm"; "Person.Email"; "Contacts"]; ["DeclareTerm"; "Person.Email"]; ["DeclareTerm"; "Root.Creator"; "Contacts"; "Person"]].
Example C17_stops_ex :
  let e rows := mk_env (fun x => eqs x "d.csv") (fun _ => None) (fun x => if eqs x "d.csv" then Some rows else None) in
  let load rows := snd (load_source (e rows) 3 (mk_source None "" [["Declare"; "d.csv"]]) (new_doc default_classes [] [] [])) in
  load decls17b = Err EAttr /\ load [["Section"; "Decl"; "Section"]; ["DeclareTerm"; "Root.Creator"; "Nowhere"]] = Err EDeclaration.
Proof. vm_compute. repeat split. Qed.

(** ** C18 *)

(** No parse ever records a value for a declared term whose ValueSetName has no
    dot in it: values are only collected from terms below a term called Value
    (parser.py:535), and the name they are compared with is the full dotted name
    of that term (parser.py:615-622). *)
Definition decls18 (vs : string) : list (list string) :=
  [["DeclareSection"; "Things"];
   ["Section"; "Decl"; "Section"; "ValueSetName"];
   ["DeclareTerm"; "Root.Color"; "Things"; vs];
   ["Section"; "Sets"; "DisplayValue"];
   ["DeclareValueSet"; "Colors"];
   ["DeclareValueSet.Value"; "r"; "Red"];
   ["Value.Item"; "g"; "Green"]].
Definition env18 (vs : string) : env :=
  mk_env (fun x => eqs x "d.csv") (fun _ => None) (fun x => if eqs x "d.csv" then Some (decls18 vs) else None).
Definition doc18 (vs : string) : st * res unit :=
  load_source (env18 vs) 3 (mk_source None "" [["Declare"; "d.csv"]]) (new_doc default_classes [] [] []).
Definition color18 (vs : string) : option (option string * dict val) :=
  option_map (fun td => (dget "valuesetname" (td_props td), td_values td)) (dget "root.color" (p_dterms (s_prs (fst (doc18 vs))))).

Theorem C18_refuted :
  (forall e n src s s' r k td name, load_source e n src s = (s', r) ->
     dget k (p_dterms (s_prs s')) = Some td -> dget "valuesetname" (td_props td) = Some name -> dot_free name -> td_values td = [])
  /\ snd (doc18 "Colors") = Ok tt /\ color18 "Colors" = Some (Some "Colors", []).
Proof. exact (conj never_values (conj eq_refl eq_refl)). Qed.
Print Assumptions C18_refuted.

(** The step that records a value adds it to exactly the declarations whose
    ValueSetName is the full name of the parent of the value.  Missing: that the
    rows of a DeclareValueSet reach this step, which they do not. *)
Theorem C18_record_partial : forall t p s s' ap, add_value_set_value t s = (s', Ok tt) -> t_parent (tget t s) = Some p ->
  arg_props (s_heap s) (tget t s) = Ok ap ->
  let shown := match dget "displayvalue" ap with Some v => v | None => VNone end in
  s_heap s' = s_heap s /\ s_doc s' = s_doc s /\
  forall k, dget k (p_dterms (s_prs s')) = match dget k (p_dterms (s_prs s)) with
    | None => None
    | Some td => match dget "valuesetname" (td_props td) with
        | Some n => if eqs (lower n) (join_lc (tget p s)) && negb (dmem (str_val (t_val (tget t s))) (td_values td))
                    then Some (set_td_values (dset (str_val (t_val (tget t s))) shown (td_values td)) td) else Some td
        | None => Some td
        end
    end.
Proof. exact record_value. Qed.
Print Assumptions C18_record_partial.

(** the one way to record values: the set is named by the full name of a Value
    row; then what is recorded are the children of that row, not its value *)
Example C18_ex : snd (doc18 "DeclareValueSet.Value") = Ok tt
  /\ color18 "DeclareValueSet.Value" = Some (Some "DeclareValueSet.Value", [("Red", VNone); ("g", VStr "Green")]).
Proof. vm_compute. repeat split. Qed.
