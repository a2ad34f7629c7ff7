(** * PropShared: the parser's cache and shared dicts cannot be seen (C85) *)

From Verif Require Import StrFacts Shared SharedFacts SpecNames SpecParse SpecDoc.

(** ** C85 *)

(** a parser that keeps the super terms it found, until it reads the next row of a
    declaration, and whose inherited declarations have the dict of values of the
    ones they are copied from, does what the parser of the other properties does,
    which has no cache and copies the values.  When it is done, the dicts have the
    values. *)
Theorem C85_same : forall e n decls src k k' r, open_doc_k e n decls src k = (k', r) ->
  open_doc e n decls src (k_st k) = (k_st k', r)
  /\ (r = Ok tt -> forall name td, dget name (p_dterms (s_prs (k_st k'))) = Some td ->
        match dget name (k_refs k') with Some a => nth_error (k_vals k') a = Some (td_values td) | None => td_values td = [] end).
Proof. exact c85_open. Qed.
Print Assumptions C85_same.

Definition decls85 : list (list string) :=
  [["DeclareSection"; "Things"];
   ["Section"; "Decl"; "Section"; "InheritsFrom"; "ValueSetName"];
   ["DeclareTerm"; "Root.Thing"; "Things"];
   ["DeclareTerm"; "Thing.Color"; "Things"; ""; "DeclareValueSet.Value"];
   ["DeclareTerm"; "Root.Toy"; "Things"; "Thing"];
   ["Section"; "Sets"; "DisplayValue"];
   ["DeclareValueSet"; "Colors"];
   ["DeclareValueSet.Value"; "r"; "Red"];
   ["Value.Item"; "g"; "Green"]].
Definition env85 : env := mk_env (fun x => eqs x "d.csv") (fun _ => None) (fun x => if eqs x "d.csv" then Some decls85 else None).
Definition start85 : kst := mk_kst (new_doc default_classes [] [] []) None [] [].
Definition done85 : kst * res unit := Eval vm_compute in open_doc_k env85 3 [] (mk_source None "" [["Declare"; "d.csv"]; ["Toy"; "t"]; ["Note"; "n"]]) start85.

(** Toy.Color shares the values of Thing.Color: one dict, which has the value; and
    the super terms are in the cache *)
Example C85_ex : snd done85 = Ok tt
  /\ dget "thing.color" (k_refs (fst done85)) = Some 1 /\ dget "toy.color" (k_refs (fst done85)) = Some 1
  /\ k_vals (fst done85) = [[]; [("Red", VNone); ("g", VStr "Green")]; []]
  /\ k_cache (fst done85) = Some (ADict [("root.toy", "thing"); ("toy.color", "")]).
Proof. vm_compute. repeat split. Qed.
