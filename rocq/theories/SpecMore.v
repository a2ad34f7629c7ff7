(** * SpecMore: files loaded one after another into a document (C89)

    [doc.load_terms(TermParser(ref, doc=doc))] may be called again on a document
    that has been loaded: the parser is a new one, the document is not.  Here,
    [load_source e fuel src s] for any [s]. *)

From Verif Require Import SpecNames PyBase SpecParse State Parser SpecDoc SpecHead SpecInv SpecRound SpecOutline.

(** a parser that has read nothing, on a document with the sections [hs] *)
Definition fresh_view (hs : list head) : view :=
  mk_view 1 (map (fun h => (h_key h, h_args h)) hs) "root" [] "@value" "root" [] [].

(** the document as a new parser finds it *)
Definition reopened (s : st) : st := set_s_prs (fresh_parser s) s.

(** every term has a name *)
Inductive named : tree -> Prop := named_tree : forall n v kids, n <> "" -> Forall named kids -> named (Tree n v kids).
Definition named_doc (o : list sect) : Prop := Forall (fun c => Forall named (sc_terms c)) o.

(** the files [srcs], loaded one after another, make [s'] of [s] *)
Inductive loads_all (e : env) (fuel : nat) : list source -> st -> st -> Prop :=
| loads_none : forall s, loads_all e fuel [] s s
| loads_one : forall src srcs s s1 s', load_source e fuel src s = (s1, Ok tt) -> loads_all e fuel srcs s1 s' -> loads_all e fuel (src :: srcs) s s'.
Definition blank_doc (g : place) : st := new_doc (in_reg g) (in_terms g) (in_secs g) (in_super g).

(** what the document knows of declarations after a file was loaded: what is
    built into the parser is now declared in the document, too *)
Definition settled (g : place) : place :=
  mk_place (in_env g) (in_fuel g) (in_ref g) (in_dir g) (in_reg g)
    (dupdate (in_terms g) installed_terms) (dupdate (in_secs g) installed_sections) (in_super g).

(** the outline of several files *)
Fixpoint outline_all (g : place) (hs : list head) (o : list sect) (lss : list (list line)) : list sect :=
  match lss with
  | [] => o
  | ls :: lss' => outline_all (settled g) (heads (world_of g) (fresh_view hs) hs ls) (outline_from (world_of g) (fresh_view hs) hs o ls) lss'
  end.
Definition outline_files (g : place) (lss : list (list line)) : list sect := outline_all g first_heads [mk_sect "Root" [] []] lss.

(** the parents named in a file are terms of that file *)
Definition placed_file (ls : list line) : Prop := forall pre l post, ls = (pre ++ l :: post)%list -> placed pre l.
