(** * PropTree: C46 flatten, C48 the YAML source, C49 metatab URLs *)

From Verif Require Import SpecTree SpecStray TreeFacts YamlFacts SpecUrl UrlFacts Misc.

(** ** C46 *)

(** flatten lists the leaves in order, each under its dotted path *)
Theorem C46_in_order : forall e, keyed e ->
  flatten e = map (fun pv => (join "." (fst pv), snd pv)) (leaves e).
Proof. exact flatten_spec. Qed.
Print Assumptions C46_in_order.

(** [leaves] does list what can be reached, and nothing else *)
Theorem C46_leaves : forall e p v, In (p, v) (leaves e) <-> at_path e p v.
Proof. exact leaves_path. Qed.
Print Assumptions C46_leaves.

Theorem C46_reached : forall e, keyed e -> forall n v,
  In (n, v) (flatten e) <-> exists p, at_path e p v /\ n = join "." p.
Proof. exact flatten_leaves. Qed.
Print Assumptions C46_reached.

(** each path once, when paths can be told apart *)
Theorem C46_once : forall e, keyed e -> plain_keys e -> NoDup (map fst (flatten e)).
Proof. exact flatten_nodup. Qed.
Print Assumptions C46_once.

Definition nested : jv :=
  JDict [("a", JVal (VInt 1)); ("b", JDict [("c", JList [JVal (VStr "x"); JDict [("d", JVal VNone)]]); ("e", JList [])])].
Example C46_ex : keyed nested /\ plain_keys nested
  /\ flatten nested = [("a", VInt 1); ("b.c.0", VStr "x"); ("b.c.1.d", VNone)].
Proof.
  split; [|split; [|vm_compute; reflexivity]].
  - repeat (constructor; cbn; try discriminate).
  - repeat first [progress cbn [fst snd map] | apply plain_val | apply plain_list | apply plain_dict | apply NoDup_nil
      | apply Forall_nil | apply Forall_cons | apply NoDup_cons | split]; cbn; intuition discriminate.
Qed.

(** with an empty key the dot is lost and a path is listed twice *)
Theorem C46_empty_key_refuted : exists e, plain_keys e /\
  flatten e = [("a", VInt 1); ("a", VInt 2)] /\ at_path e [""; "a"] (VInt 1) /\ at_path e ["a"] (VInt 2).
Proof.
  exists (JDict [("", JDict [("a", JVal (VInt 1))]); ("a", JVal (VInt 2))]). split; [|split; [vm_compute; reflexivity|split]].
  - repeat first [progress cbn [fst snd map] | apply plain_val | apply plain_list | apply plain_dict | apply NoDup_nil
      | apply Forall_nil | apply Forall_cons | apply NoDup_cons | split]; cbn; intuition discriminate.
  - eapply at_key; [left; reflexivity|]. eapply at_key; [left; reflexivity|]. constructor.
  - eapply at_key; [right; left; reflexivity|]. constructor.
Qed.
Print Assumptions C46_empty_key_refuted.

(** ** C48 *)

(** the values come out in document order under their qualified names, with the
    names of their parents *)
Theorem C48_emitted : forall decl d ns,
  as_nodes (fun n => match dget n decl with
                     | Some td => match dget "termvaluename" (td_props td) with Some x => lower x | None => "" end
                     | None => ""
                     end) [] d ns -> Forall dotless ns ->
  yield_dict decl None None (JDict d) = Ok (concat (map (emitted []) ns)).
Proof. exact yield_spec. Qed.
Print Assumptions C48_emitted.

(** every dict whose list items are dicts has such nodes *)
Theorem C48_total : forall vn d path, yaml_items d -> exists ns, as_nodes vn path d ns.
Proof. exact as_nodes_total. Qed.
Print Assumptions C48_total.

Definition ydecl : dict tdecl := [("root.table", mk_tdecl [("termvaluename", "Name")] [])].
Definition ydoc : list (string * jv) :=
  [("Title", JVal (VStr "t"));
   ("Table", JList [JDict [("name", JVal (VStr "n")); ("Column", JList [JDict [("width", JVal (VInt 1))]])]])].
Example C48_ex : yaml_items ydoc /\
  yield_dict ydecl None None (JDict ydoc)
  = Ok [("root.title", JVal (VStr "t"), None); ("root.table", JVal (VStr "n"), None);
        ("column.width", JVal (VInt 1), Some "table.column")].
Proof. split; [repeat constructor|vm_compute; reflexivity]. Qed.

(** a list item that is not a dict is an error *)
Theorem C48_scalar_item_refuted : exists decl d,
  at_path (JDict d) ["keyword"; "0"] (VStr "x") /\ yield_dict decl None None (JDict d) = Err EType.
Proof.
  exists [], [("keyword", JList [JVal (VStr "x")])]. split; [|vm_compute; reflexivity].
  eapply at_key; [left; reflexivity|]. apply (at_index _ 0 (JVal (VStr "x"))); [reflexivity|constructor].
Qed.
Print Assumptions C48_scalar_item_refuted.

(** wherever in the file that item is *)
Theorem C48_stray : forall decl d par, stray decl d -> yield_dict decl par None (JDict d) = Err EType.
Proof. exact yield_stray. Qed.
Print Assumptions C48_stray.

(** there is no other error *)
Theorem C48_error : forall decl d par skip x, yield_dict decl par skip (JDict d) = Err x -> x = EType.
Proof. exact yield_error. Qed.
Print Assumptions C48_error.

Example C48_stray_ex : stray ydecl [("Table", JList [JDict [("name", JVal (VStr "n")); ("keyword", JList [JVal (VStr "x")])]])]
  /\ yield_dict ydecl None None (JDict [("Table", JList [JDict [("name", JVal (VStr "n")); ("keyword", JList [JVal (VStr "x")])]])]) = Err EType.
Proof.
  split; [|vm_compute; reflexivity].
  eapply stray_item with (rest := [("keyword", JList [JVal (VStr "x")])]); [left; reflexivity|left; reflexivity|intros kv [<-|[]]; right; left; reflexivity| |].
  - intros kv [<-|[]] [E|(n & td & x & E & T & K)]; [discriminate E|]. cbn in E. destruct (eqs n "root.table"); [|discriminate E]. injection E as <-. cbn in T. injection T as <-. discriminate K.
  - eapply stray_here; [left; reflexivity|left; reflexivity|discriminate].
Qed.

(** ** C49 *)

Theorem C49_known : forall p name e, file_of p name -> has_ext name e -> In e known_exts -> url_path p = p.
Proof. exact url_path_known. Qed.
Print Assumptions C49_known.

Theorem C49_default : forall p name, file_of p name -> (forall e, In e known_exts -> ~ has_ext name e) ->
  entry_of p "metadata.csv" (url_path p) /\ file_of (url_path p) "metadata.csv".
Proof. exact url_path_default. Qed.
Print Assumptions C49_default.

Theorem C49_target : forall path name, file_of path name ->
  (exists e, In e known_exts /\ has_ext name e) ->
  (name = "metadata.csv" \/ forall a, name <> (a ++ "metadata.csv")%string) ->
  exists file frag fmt, designates name file frag fmt
    /\ target_file path = file /\ url_fragment path = Some frag /\ target_format path = fmt.
Proof. exact designated. Qed.
Print Assumptions C49_target.

Example C49_ex : file_of "/d/x.y/pack.zip" "pack.zip" /\ has_ext "pack.zip" "zip"
  /\ target_file "/d/x.y/pack.zip" = "metadata.csv" /\ url_path "/d/x.y" = "/d/x.y/metadata.csv".
Proof.
  repeat split; try (vm_compute; reflexivity).
  - cbn. intuition discriminate.
  - right. exists "/d/x.y". reflexivity.
  - exists "pack". split; [reflexivity|]. split; [cbn; intuition discriminate|]. exists "p"%char. split; [left; reflexivity|discriminate].
Qed.

(** a CSV file whose name merely ends in metadata.csv is not its own target *)
Theorem C49_suffix_refuted : exists path name, file_of path name /\ has_ext name "csv" /\ target_file path <> name.
Proof.
  exists "/d/my-metadata.csv", "my-metadata.csv". split; [|split; [|vm_compute; discriminate]].
  - split; [cbn; intuition discriminate|]. right. exists "/d". reflexivity.
  - exists "my-metadata". split; [reflexivity|]. split; [cbn; intuition discriminate|].
    exists "m"%char. split; [left; reflexivity|discriminate].
Qed.
Print Assumptions C49_suffix_refuted.
