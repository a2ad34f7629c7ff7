(** * C78: what the document of a file answers is what its rows say *)

From Verif Require Import SpecNames PyBase SpecParse State Ops Parser Render Csv SpecInv SpecEdit SpecDoc SpecRound SpecFind SpecDict SpecHead SpecOrderly SpecKeep SpecOutline SpecAnswer
  StrFacts StepFacts ParseFacts RowFacts KeepFacts HeadFacts ParseProps AnswerFacts PropParse PropHead PropOrderly PropRound PropKeep PropOutline.

(** the dict of the document of a file is that of the trees its rows describe:
    trees of one name share an entry, made by their property type *)
Theorem C78_dict : forall g rows ls s rvn, proper g -> means rows ls -> Forall (fun l => ~ own_parent l) ls -> loads g rows s ->
  all_dictable (trees (world_of g) ls) -> exists j, doc_as_dict s rvn = Ok j /\ forest_dict rvn (trees (world_of g) ls) j.
Proof. exact c78_dict. Qed.
Print Assumptions C78_dict.

(** a search for terms of the top level finds those of the rows that have the
    name, the section and the value, in the order of the file *)
Theorem C78_find : forall g rows ls s p v sa, orderly_file g rows ls -> loads g rows s -> tidy_pattern p -> top_pattern p -> askable v ->
  (forall k, ~ In (k, lower p) (in_super g)) ->
  exists r ks, doc_find s p v sa = Ok r
    /\ chosen (sought p v sa) (in_file_order (made (world_of g) first_view first_heads ls)) ks
    /\ Forall2 (fun kt x => keeps s (snd kt) x) ks r.
Proof. exact c78_find. Qed.
Print Assumptions C78_find.

(** a search for terms below others finds those of the rows that have the name and
    the value, section by section, each before those below it *)
Theorem C78_find_below : forall g rows ls s a b v, orderly_file g rows ls -> loads g rows s -> tidy_pattern (a ++ "." ++ b) -> dot_free a -> a <> "*" -> lower a <> "root" -> askable v ->
  (forall k, ~ In (k, lower (a ++ "." ++ b)) (in_super g)) ->
  exists r ks, doc_find s (a ++ "." ++ b) v SAny = Ok r
    /\ chosen (sought_below (a ++ "." ++ b) v) (flat_map nodes (trees (world_of g) ls)) ks
    /\ Forall2 (keeps s) ks r.
Proof. exact c78_find_below. Qed.
Print Assumptions C78_find_below.

(** the text of a file whose outline can be written: it is there, reading it gives
    the same outline (terms in the order of the columns), and the same text again *)
Theorem C78_csv : forall g rows ls s, proper g -> plain_classes g -> means rows ls -> Forall (fun l => ~ own_parent l) ls -> loads g rows s ->
  writable_doc (dupdate (in_terms g) installed_terms) (declared_columns (in_secs g)) (outline (world_of g) ls) ->
  exists text s', doc_as_csv s = Ok text /\ loads g (csv_read text) s' /\ shows_doc s' (map arrange_sect (outline (world_of g) ls)) /\ doc_as_csv s' = Ok text.
Proof. exact c78_csv. Qed.
Print Assumptions C78_csv.

(** after first rows of any kind, the dict of every term that the rest of the file
    adds is that of its tree *)
Theorem C78_term : forall (Q : Quirks) g head rows od s0 ls s rvn, loads_after g head rows od s0 ls s -> ready s0 ->
  Forall (fun l => ~ own_parent l) ls -> Forall dotless_columns ls -> among_themselves (cols_in s0) (view_past head s0 []) ls ->
  Forall2 (fun kv h => exists new, t_terms (tget (snd kv) s) = (terms_of s0 (h_key h) ++ new)%list
        /\ Forall2 (fun t x => dictable t -> exists j, as_dict (heap_fuel (s_heap s)) (s_heap s) rvn x = Ok j /\ tree_dict rvn t j)
             (tops (h_key h) (made (world_in s0) (view_past head s0 []) (heads_of s0) ls)) new)
    (d_sections (s_doc s)) (heads (world_in s0) (view_past head s0 []) (heads_of s0) ls).
Proof. exact c78_term. Qed.
Print Assumptions C78_term.

(** ** An example with declared types and names of values *)

Definition place78 : place := mk_place no_files 1 None "" default_classes
  [("root.wrangler", mk_tdecl [("childpropertytype", "sequence"); ("termvaluename", "Name")] []); ("root.note", mk_tdecl [("childpropertytype", "sconcat")] [])] [] [].
Definition rows78 : list (list string) :=
  [["Title"; "T"]; ["Note"; "one"]; ["Section"; "Contacts"; "Email"]; ["Wrangler"; "Ann"; "a@x"]; ["Wrangler.Org"; "Acme"]; ["Org.Url"; "u"]; ["Org.Url"; "w"];
   ["Section"; "More"]; ["Note"; "two"]; ["Creator"; "Bo"]; ["Creator.Org"; "Acme"]].
Definition lines78 : list line := Eval vm_compute in match read_rows rows78 with Some ls => ls | None => [] end.
Definition doc78 : st := Eval vm_compute in fst (load_into place78 rows78).

Lemma file78 : orderly_file place78 rows78 lines78.
Proof.
  split.
  - split; [exact default_good_reg|]. intros k sd [].
  - apply means_by; vm_compute; reflexivity.
  - unfold lines78. repeat (apply Forall_cons; [intros (a & b & c & H); try discriminate H; injection H as H1 H2; rewrite <- H1 in H2; discriminate H2|]). apply Forall_nil.
  - repeat (apply Forall_cons; [first [exact Logic.I | apply dotsb_ok; reflexivity]|]). apply Forall_nil.
Qed.

Definition text (x : string) : jv := JVal (VStr x).
Example C78_dict_ex : proper place78 /\ means rows78 lines78 /\ Forall (fun l => ~ own_parent l) lines78 /\ loads place78 rows78 doc78
  /\ all_dictable (trees (world_of place78) lines78)
  /\ (forall rvn, doc_as_dict doc78 rvn = Ok (JDict
       ([("title", text "T"); ("note", text "one two");
         ("wrangler", JList [JDict ([("email", text "a@x"); ("org", JDict [("url", JList [text "u"; text "w"]); ("@value", text "Acme")])] ++ [(if rvn then "name" else "@value", text "Ann")])%list]);
         ("creator", JDict [("org", text "Acme"); ("@value", text "Bo")])] ++ (if rvn then [] else [("@value", text "Root")]))%list)).
Proof.
  pose proof file78 as F. split; [split; [exact default_good_reg|intros n []]|]. split; [apply F|]. split; [apply F|]. split; [vm_compute; reflexivity|].
  split; [apply all_dictable_by; vm_compute; reflexivity|]. intros [|]; vm_compute; reflexivity.
Qed.

Definition found78 (p : string) (v : val) (sa : secarg) : option (list (string * string)) :=
  match doc_find doc78 p v sa with
  | Ok r => Some (map (fun x => (t_rt (tget x doc78), match t_val (tget x doc78) with VStr t => t | _ => "?" end)) r)
  | Err _ => None
  end.
Example C78_find_ex : orderly_file place78 rows78 lines78 /\ loads place78 rows78 doc78
  /\ map (fun kt => (fst kt, rname (snd kt), rvalue (snd kt))) (in_file_order (made (world_of place78) first_view first_heads lines78))
     = [("root", "title", "T"); ("root", "note", "one"); ("contacts", "wrangler", "Ann"); ("more", "note", "two"); ("more", "creator", "Bo")]
  /\ found78 "Note" VFalse SAny = Some [("note", "one"); ("note", "two")]
  /\ found78 "Root.NOTE" (VStr "two") SAny = Some [("note", "two")]
  /\ found78 "note" VFalse (SOne "more") = Some [("note", "two")]
  /\ found78 "wrangler.org" VFalse SAny = Some [("org", "Acme")]
  /\ found78 "Org.Url" (VStr "w") SAny = Some [("url", "w")].
Proof. split; [exact file78|]. repeat split; vm_compute; reflexivity. Qed.

Definition lines35 : list line := Eval vm_compute in match read_rows rows35 with Some ls => ls | None => [] end.
Example C78_csv_ex : proper here /\ plain_classes here /\ means rows35 lines35 /\ Forall (fun l => ~ own_parent l) lines35 /\ loads here rows35 doc35
  /\ outline (world_of here) lines35 = o35
  /\ writable_doc (dupdate (in_terms here) installed_terms) (declared_columns (in_secs here)) (outline (world_of here) lines35).
Proof.
  split; [exact here_proper|]. split; [exact here_plain|]. split; [apply means_by; vm_compute; reflexivity|].
  split; [unfold lines35; repeat (apply Forall_cons; [intros (a & b & c & H); try discriminate H; injection H as H1 H2; rewrite <- H1 in H2; discriminate H2|]); apply Forall_nil|].
  split; [vm_compute; reflexivity|]. assert (E : outline (world_of here) lines35 = o35) by (vm_compute; reflexivity). split; [exact E|]. rewrite E.
  replace (dupdate (in_terms here) installed_terms) with (d_decl_terms (s_doc doc35)) by (vm_compute; reflexivity). apply C35_ex.
Qed.

(** the rows after a declaration: the dict of each new term of the section "resources" *)
Example C78_term_ex : loads_after place61 head61 rows77 ["declaredterms"] state77 lines77d doc77d /\ @ready Q61 state77
  /\ Forall (fun l => ~ own_parent l) lines77d /\ Forall dotless_columns lines77d /\ among_themselves (cols_in state77) (view_past head61 state77 []) lines77d
  /\ map (as_dict (heap_fuel (s_heap doc77d)) (s_heap doc77d) true) [21; 25; 28]
     = [Ok (JDict [("0", text "CA"); ("note", text "n"); ("url", text "u")]); Ok (JDict [("kind", text "k"); ("1", text "2"); ("url", text "v")]); Ok (text "S")]
  /\ map dictableb (tops "resources" (made (world_in state77) (view_past head61 state77 []) (heads_of state77) lines77d)) = [true; true; true].
Proof.
  split; [exact after77|]. split; [apply ready_by; vm_compute; reflexivity|].
  split; [unfold lines77d; repeat (apply Forall_cons; [intros (a & b & c & H); try discriminate H; injection H as H1 H2; rewrite <- H1 in H2; discriminate H2|]); apply Forall_nil|].
  split; [repeat (apply Forall_cons; [first [exact Logic.I | apply dotsb_ok; reflexivity]|]); apply Forall_nil|].
  split; [vm_compute; repeat split; discriminate|]. split; vm_compute; reflexivity.
Qed.
