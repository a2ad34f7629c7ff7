(** * PropWipe: removing terms through sections and parents (C75)

    [taken_out ts s s'] (SpecWipe.v): [s'] is the document [s] without the terms
    [ts], and in all else the same. *)

From Verif Require Import Ops SpecInv SpecEdit SpecWipe WipeFacts PropDoc.

(** clean takes exactly the terms of the section out of the document; the
    document stays in good order *)
Theorem C75_clean : forall (Q : Quirks) s k sec, doc_ok s -> In (k, sec) (secs s) -> ~ odd k ->
  (forall t, In t (t_terms (tget sec s)) -> lower (t_tvn (tget t s)) <> "section" /\ parent_attached s t) ->
  exists s', section_clean sec s = (s', Ok tt) /\ doc_ok s' /\ edits s s' /\ taken_out (t_terms (tget sec s)) s s' /\ t_terms (tget sec s') = [].
Proof. exact (@clean_run). Qed.
Print Assumptions C75_clean.

(** remove_term of a section, of whichever section, is remove_term of the document (C21) *)
Theorem C75_section : forall (Q : Quirks) s k sec t, doc_ok s -> In (k, sec) (secs s) -> removable s t ->
  section_remove_term sec t s = doc_remove_term t s.
Proof. exact (@section_remove_run). Qed.
Print Assumptions C75_section.

(** remove_child takes out the child, and only the parent is changed *)
Theorem C75_child : forall (Q : Quirks) s p c, doc_ok s -> is_plain s p -> t_doc (tget p s) = true -> In c (t_children (tget p s)) -> removable s c ->
  exists s', remove_child p c s = (s', Ok tt) /\ doc_ok s' /\ taken_out [c] s s' /\ listed s' = listed s
    /\ forall j, tget j s' = if j =? p then set_t_children (without c (t_children (tget p s))) (tget p s) else tget j s.
Proof. exact (@remove_child_effect). Qed.
Print Assumptions C75_child.

(** what is not a child cannot be removed *)
Theorem C75_no_child : forall s p c, ~ In c (t_children (tget p s)) -> remove_child p c s = (s, Err EValue).
Proof. exact OpFacts.remove_child_absent. Qed.
Print Assumptions C75_no_child.

(** [e5] has the section Contacts with the terms 2 (children 3 and 4) and 7, and
    the section Notes with the term 6 *)
Example C75_ex : in_order e5 /\ In ("contacts", 1) (secs e5) /\ t_terms (tget 1 e5) = [2; 7] /\ listed e5 = [2; 6; 7]
  /\ (forall t, In t (t_terms (tget 1 e5)) -> lower (t_tvn (tget t e5)) <> "section" /\ parent_attached e5 t)
  /\ (exists s', section_clean 1 e5 = (s', Ok tt) /\ listed s' = [6] /\ t_terms (tget 1 s') = [] /\ t_terms (tget 5 s') = [6]
       /\ doc_find s' "Wrangler" VFalse SAny = Ok [] /\ doc_find s' "Note" VFalse SAny = Ok [6] /\ tget 2 s' = tget 2 e5)
  /\ (exists s', section_remove_term 5 2 e5 = (s', Ok tt) /\ t_terms (tget 1 s') = [7] /\ t_terms (tget 5 s') = [6])
  /\ (exists s', remove_child 2 3 e5 = (s', Ok tt) /\ t_children (tget 2 s') = [4])
  /\ remove_child 2 7 e5 = (e5, Err EValue).
Proof.
  split; [exact example_order|]. split; [vm_compute; auto|]. split; [vm_compute; reflexivity|]. split; [vm_compute; reflexivity|].
  split. { intros t I. vm_compute in I. destruct I as [<-|[<-|[]]]; (split; [vm_compute; discriminate|intros p E; vm_compute in E; discriminate E]). }
  split; [exists (fst (section_clean 1 e5)); vm_compute; repeat split|].
  split; [exists (fst (section_remove_term 5 2 e5)); vm_compute; repeat split|].
  split; [exists (fst (remove_child 2 3 e5)); vm_compute; repeat split|]. vm_compute. reflexivity.
Qed.
