(** * SpecSyn: names that stand for other names

    A declared term may have a Synonym: a row with the name of the term is then
    read as a row with the other name (C74). *)

From Verif Require Import SpecNames PyBase State Parser SpecParse SpecDoc SpecInclude.

(** the declaration [d] makes [x] another name of [v]; a name without a dot is
    also meant with the parent Root *)
Definition makes_synonym (d : string * tdecl) (x v : string) : Prop :=
  dget "synonym" (td_props (snd d)) = Some v /\ v <> ""
  /\ exists k, trimmed (fst d) k /\ (x = lower k \/ (dot_free k /\ x = ("root." ++ lower k)%string)).

(** the last such declaration of the list *)
Definition stands_for (ds : list (string * tdecl)) (x v : string) : Prop :=
  exists before d after, ds = (before ++ d :: after)%list /\ makes_synonym d x v
    /\ forall d' v', In d' after -> ~ makes_synonym d' x v'.

(** a name that decides what the row is before names are replaced *)
Definition special (p r : string) : Prop := p = "root" /\ (r = "include" \/ r = "declare" \/ r = "section").

(** in the state [s] the name of the first row stands for that of the second;
    the rows have the same cells *)
Record respells (s : st) (row1 row2 : list string) : Prop := {
  rs_rows : ~ blank_row row1 /\ ~ blank_row row2 /\ tl row1 = tl row2;
  rs_names : exists p r v p' r',
    cell_names (hd "" row1) p r /\ stands_for (p_dterms (s_prs s)) (p ++ "." ++ r)%string v
    /\ cell_names v p' r' /\ cell_names (hd "" row2) p' r'
    (* the other name is not a synonym again *)
    /\ (forall w, ~ stands_for (p_dterms (s_prs s)) (p' ++ "." ++ r')%string w)
    (* the rows are no Include, Declare or Section row *)
    /\ ~ special p r /\ ~ special p' r'
    /\ is_section_cls (parser_term_class (p ++ "." ++ r) s) = false
    /\ is_section_cls (parser_term_class (p' ++ "." ++ r') s) = false
}.

(** two terms that differ at most in the text of the name in the file and in
    the class chosen by it *)
Definition unspelled (r : trec) : trec :=
  set_t_term "" (set_t_cls (if is_section_cls (t_cls r) then t_cls r else CTerm) r).
Definition same_but_spelling (a b : trec) : Prop := unspelled a = unspelled b.

(** two outcomes of a load that differ at most in this *)
Definition same_outcome (x y : st * res unit) : Prop :=
  Forall2 same_but_spelling (s_heap (fst x)) (s_heap (fst y))
  /\ s_doc (fst x) = s_doc (fst y) /\ s_prs (fst x) = s_prs (fst y) /\ s_reg (fst x) = s_reg (fst y)
  /\ snd x = snd y.
