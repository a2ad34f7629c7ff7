(** * ArgvFacts: proofs about the command line *)

From Verif Require Import StrFacts HeapFacts TextFacts Argv SpecArgv.

(** ** items as actions *)

Definition act_of (i : item) : option (act * option string) :=
  match i with
  | IType t => Some (AType t, None) | IWrite => Some (AWrite, None) | IDecl => Some (ADecl, None)
  | IFind v => Some (AFind, Some v) | ICreate v => Some (ACreate, v) | IFile _ => None
  end.
Definition step (i : item) (p : pst) : pst + parsed :=
  match act_of i with
  | Some (a, v) => take a v p
  | None => match i with IFile v => inl (if p_file p then extra p else take_file v p) | _ => inl p end
  end.
Fixpoint steps (is : list item) (p : pst) : pst + parsed :=
  match is with [] => inl p | i :: is' => match step i p with inl p' => steps is' p' | inr r => inr r end end.

Lemma steps_app : forall a b p, steps (a ++ b) p = match steps a p with inl p' => steps b p' | inr r => inr r end.
Proof. induction a; intros; cbn [app steps]; [reflexivity|]. destruct (step a p); [apply IHa|reflexivity]. Qed.

(** ** letters *)

Definition plain_acts (is : list item) : list act := map (fun i => match act_of i with Some (a, _) => a | None => AHelp end) is.

Lemma plain_entry : forall c l i, In (c, l, i) plain_options ->
  exists a, act_of i = Some (a, None) /\ dget (String "-" (String c "")) option_names = Some a /\ dget ("--" ++ l)%string option_names = Some a
    /\ arity_of a = Zero /\ In l long_names /\ c <> "-"%char /\ c <> "="%char /\ kind_of i = grouped a.
Proof.
  intros c l i I. cbn in I. repeat (destruct I as [I|I]; [injection I as <- <- <-; eexists; repeat split; try reflexivity; try discriminate; cbn; tauto|]). destruct I.
Qed.

Lemma value_entry : forall c l f, In (c, l, f) value_options ->
  exists a, (forall v, act_of (f v) = Some (a, Some v)) /\ dget (String "-" (String c "")) option_names = Some a /\ dget ("--" ++ l)%string option_names = Some a
    /\ arity_of a <> Zero /\ In l long_names /\ c <> "-"%char /\ c <> "="%char /\ (forall v, f v <> ICreate None).
Proof.
  intros c l f I. cbn in I. repeat (destruct I as [I|I]; [injection I as <- <- <-; eexists; repeat split; try reflexivity; try discriminate; cbn; tauto|]). destruct I.
Qed.

Lemma plain_steps : forall s is, letters_of s is -> forall p, take_all (plain_acts is) p = steps is p.
Proof.
  induction 1 as [|c l i s is I H IH]; intros p; cbn [plain_acts map take_all steps]; [reflexivity|].
  destruct (plain_entry _ _ _ I) as (a & A & _). unfold step. rewrite A. destruct (take a None p); [apply IH|reflexivity].
Qed.

Lemma letters_nonnil : forall s is, letters_of s is -> s <> "" -> is <> [].
Proof. intros s is H N. destruct H; [congruence|discriminate]. Qed.

Lemma take_all_app : forall a b p, take_all (a ++ b) p = match take_all a p with inl p' => take_all b p' | inr r => inr r end.
Proof. induction a; intros; cbn [app take_all]; [reflexivity|]. destruct (take a None p); [apply IHa|reflexivity]. Qed.

(** a letter starts the word *)
Lemma split_first_cons : forall c x s, x <> c -> split_first c (String x s) = (String x (fst (split_first c s)), snd (split_first c s)).
Proof.
  intros c x s N. cbn [split_first]. destruct (Ascii.eqb c x) eqn:E; [apply Ascii.eqb_eq in E; congruence|]. destruct (split_first c s). reflexivity.
Qed.

Definition letter_names : list (ascii * act) :=
  [("h"%char, AHelp); ("C"%char, ACreate); ("t"%char, AType "terms"); ("j"%char, AType "json"); ("y"%char, AType "yaml"); ("l"%char, AType "line");
   ("c"%char, AType "csv"); ("p"%char, AType "prety"); ("W"%char, AWrite); ("f"%char, AFind); ("d"%char, ADecl)].
Lemma letter_dget : forall c a, dget (String "-" (String c "")) option_names = Some a <-> In (c, a) letter_names.
Proof.
  intros c a. split.
  - intros H. apply dget_in in H. unfold option_names in H. cbn [In] in H.
    repeat (destruct H as [H|H]; [first [discriminate H|injection H as <- <-; cbn; tauto]|]). destruct H.
  - intros I. cbn in I. repeat (destruct I as [I|I]; [injection I as <- <-; reflexivity|]). destruct I.
Qed.

Lemma letter_none : forall c, ~ In c known_letters -> dget (String "-" (String c "")) option_names = None.
Proof.
  intros c N. destruct (dget _ _) as [a|] eqn:E; [|reflexivity]. apply letter_dget in E. exfalso. apply N.
  cbn in E |- *. repeat (destruct E as [E|E]; [injection E as <- _; tauto|]). destruct E.
Qed.

Lemma long_dget : forall c c' r, c <> "-"%char -> dget (String "-" (String c (String c' r))) option_names = None.
Proof.
  intros c c' r N. destruct (dget _ _) as [a|] eqn:H; [|reflexivity]. exfalso. apply dget_in in H. unfold option_names in H. cbn [In] in H.
  repeat (destruct H as [H|H]; [first [discriminate H|apply N; injection H; congruence]|]). destruct H.
Qed.

Lemma one_letter : forall c a, In (c, a) letter_names -> classify_word (String "-" (String c "")) = Some (Opt (Some a) (String "-" (String c "")) None).
Proof. intros c a I. cbn in I. repeat (destruct I as [I|I]; [injection I as <- <-; reflexivity|]). destruct I. Qed.

Lemma more_letters : forall c a c' r, In (c, a) letter_names -> c' <> "="%char ->
  classify_word (String "-" (String c (String c' r))) = Some (Opt (Some a) (String "-" (String c "")) (Some (String c' r))).
Proof.
  intros c a c' r I N. unfold classify_word. cbn [negb].
  assert (ND : c <> "-"%char /\ c <> "="%char) by (cbn in I; repeat (destruct I as [I|I]; [injection I as <- <-; split; discriminate|]); destruct I).
  destruct ND as [ND NE].
  change (Ascii.eqb "-" "-") with true. cbn [negb]. rewrite long_dget by exact ND.
  change (eqs (String c (String c' r)) "") with false. cbv iota.
  rewrite (split_first_cons "=" "-"), (split_first_cons "=" c), (split_first_cons "=" c') by (assumption || discriminate). cbn [fst snd].
  rewrite long_dget by exact ND.
  assert (T : option_tuples (String "-" (String c (String c' r))) = [(a, String "-" (String c ""), Some (String c' r))]).
  { cbn in I. repeat (destruct I as [I|I]; [injection I as <- <-; reflexivity|]). destruct I. }
  rewrite T. destruct (snd (split_first "=" r)); reflexivity.
Qed.

Lemma no_dashes : forall c s, c <> "-"%char -> startswith "--" (String "-" (String c s)) = false.
Proof.
  intros c s N. destruct (startswith _ _) eqn:E; [|reflexivity]. apply startswith_spec in E. destruct E as (t & E). injection E as E _. congruence.
Qed.

(** the letters of a word after the first *)
Lemma letters_plain : forall s is, letters_of s is -> forall before a c0, arity_of a = Zero -> c0 <> "-"%char -> s <> "" ->
  exists l x, letters before a (String "-" (String c0 "")) s = inl ((before ++ a :: l)%list, x, None) /\ arity_of x = Zero /\ plain_acts is = (l ++ [x])%list.
Proof.
  induction 1 as [|c l i s is I H IH]; intros before a c0 Z N E; [congruence|].
  destruct (plain_entry _ _ _ I) as (a' & A & D & _ & Z' & _ & N' & _).
  assert (SW : startswith "--" (String "-" (String c0 "")) = false) by (apply no_dashes; exact N).
  cbn [letters]. rewrite Z, SW, D. destruct s as [|c' s].
  - inversion H; subst. exists [], a'. cbn. rewrite A. auto.
  - destruct (IH (before ++ [a])%list a' c Z' N' ltac:(discriminate)) as (l' & x & L & ZX & P).
    exists (a' :: l'), x. rewrite L, <- app_assoc. split; [reflexivity|]. split; [exact ZX|]. cbn [plain_acts map]. rewrite A. fold (plain_acts is). rewrite P. reflexivity.
Qed.

(** then a letter with a value in the word, or nothing after it *)
Lemma letters_value : forall s is, letters_of s is -> forall c b before a c0 v, arity_of a = Zero -> c0 <> "-"%char ->
  dget (String "-" (String c "")) option_names = Some b -> arity_of b <> Zero ->
  letters before a (String "-" (String c0 "")) (s ++ String c v) = inl ((before ++ a :: plain_acts is)%list, b, match v with "" => None | _ => Some v end).
Proof.
  induction 1 as [|c1 l i s is I H IH]; intros c b before a c0 v Z N D NZ;
    assert (SW : startswith "--" (String "-" (String c0 "")) = false) by (apply no_dashes; exact N).
  - cbn [append letters]. rewrite Z, SW, D. destruct v as [|c2 v]; [reflexivity|].
    cbn [letters]. destruct (arity_of b); [congruence|reflexivity|reflexivity].
  - destruct (plain_entry _ _ _ I) as (a' & A & D1 & _ & Z' & _ & N' & _).
    cbn [append letters]. rewrite Z, SW, D1. destruct (s ++ String c v)%string as [|y ys] eqn:Y; [destruct s; discriminate Y|]. rewrite <- Y.
    rewrite (IH c b (before ++ [a])%list a' c1 v Z' N' D NZ), <- app_assoc. cbn [app plain_acts map]. rewrite A. reflexivity.
Qed.

(** or an unknown letter *)
Lemma letters_unknown : forall s is, letters_of s is -> forall c before a c0 v, arity_of a = Zero -> c0 <> "-"%char ->
  dget (String "-" (String c "")) option_names = None -> letters before a (String "-" (String c0 "")) (s ++ String c v) = inr (Exits 2).
Proof.
  induction 1 as [|c1 l i s is I H IH]; intros c before a c0 v Z N D;
    assert (SW : startswith "--" (String "-" (String c0 "")) = false) by (apply no_dashes; exact N).
  - cbn [append letters]. rewrite Z, SW, D. reflexivity.
  - destruct (plain_entry _ _ _ I) as (a' & A & D1 & _ & Z' & _ & N' & _).
    cbn [append letters]. rewrite Z, SW, D1. destruct (s ++ String c v)%string as [|y ys] eqn:Y; [destruct s; discriminate Y|]. rewrite <- Y.
    apply IH; assumption.
Qed.

(** ** long names *)

Fixpoint prefixes (s : string) : list string := "" :: match s with "" => [] | String c s' => map (String c) (prefixes s') end.
Lemma prefixes_in : forall p l, startswith p l = true -> In p (prefixes l).
Proof.
  induction p as [|c p IH]; intros l H; [destruct l; left; reflexivity|]. destruct l as [|d l]; [discriminate|].
  cbn in H. apply andb_true_iff in H. destruct H as [E H]. apply Ascii.eqb_eq in E. subst. right. apply in_map. apply IH. exact H.
Qed.

Definition resolves (p : string) : list (string * act) := filter (fun na => startswith p (fst na)) option_names.
Definition unique (p l : string) : bool := forallb (fun l' => negb (startswith p l') || eqs l' l) long_names.

Definition long_ok (l p : string) : bool :=
  if eqs p l then true
  else if unique p l then
    match dget ("--" ++ p)%string option_names, resolves ("--" ++ p), dget ("--" ++ l)%string option_names with
    | None, [(n, a)], Some b => eqs n ("--" ++ l)%string && match a, b with
        | AType x, AType y => eqs x y | AHelp, AHelp | ACreate, ACreate | AWrite, AWrite | AFind, AFind | ADecl, ADecl => true | _, _ => false end
    | _, _, _ => false
    end
  else true.
Lemma long_all : forallb (fun l => forallb (long_ok l) (prefixes l)) long_names = true.
Proof. vm_compute. reflexivity. Qed.

Lemma long_resolves : forall p l a, In l long_names -> short_for p l -> dget ("--" ++ l)%string option_names = Some a ->
  (p = l \/ (dget ("--" ++ p)%string option_names = None /\ resolves ("--" ++ p) = [(("--" ++ l)%string, a)])).
Proof.
  intros p l a I [S U] D. destruct (eqs p l) eqn:PL; [left; apply eqs_true; exact PL|]. right.
  pose proof long_all as LA. rewrite forallb_forall in LA. specialize (LA l I). rewrite forallb_forall in LA. specialize (LA p (prefixes_in _ _ S)).
  unfold long_ok in LA. rewrite PL in LA. destruct U as [U|U]; [apply eqs_false in PL; congruence|].
  assert (UN : unique p l = true).
  { apply forallb_forall. intros l' I'. destruct (startswith p l') eqn:E; [|reflexivity]. cbn. apply eqs_true. apply U; assumption. }
  rewrite UN, D in LA. destruct (dget ("--" ++ p)%string option_names); [discriminate|]. split; [reflexivity|].
  destruct (resolves ("--" ++ p)) as [|[n b] [|? ?]]; try discriminate. apply andb_true_iff in LA. destruct LA as [N B]. apply eqs_true in N. subst n.
  destruct b, a; try discriminate; try reflexivity. apply eqs_true in B. subst. reflexivity.
Qed.

Lemma names_noeq : forallb (fun na : string * act => negb (has_char "=" (fst na))) option_names = true.
Proof. reflexivity. Qed.
Lemma dget_eq_none : forall s, has_char "=" s = true -> dget s option_names = None.
Proof.
  intros s H. destruct (dget s option_names) eqn:E; [|reflexivity]. apply HeapFacts.dget_in in E.
  pose proof names_noeq as N. rewrite forallb_forall in N. specialize (N _ E). cbn in N. rewrite H in N. discriminate.
Qed.

Lemma tuples_long : forall w p v, split_first "=" (String "-" (String "-" w)) = (p, v) ->
  option_tuples (String "-" (String "-" w)) = map (fun na => (snd na, fst na, v)) (resolves p).
Proof.
  intros w p v E. unfold option_tuples, resolves. change (Ascii.eqb "-" "-") with true. cbv iota. rewrite E.
  induction option_names as [|na l IH]; [reflexivity|]. cbn [flat_map filter]. destruct (startswith p (fst na)); cbn [map app]; rewrite IH; reflexivity.
Qed.

Lemma prefix_noeq : forall p l, In l long_names -> startswith p l = true -> has_char "=" p = false.
Proof.
  intros p l I S. apply startswith_spec in S. destruct S as (t & ->).
  assert (N : has_char "=" (p ++ t) = false) by (cbn [long_names In] in I; repeat (destruct I as [I|I]; [rewrite <- I; reflexivity|]); destruct I).
  rewrite has_char_app in N. apply orb_false_iff in N. apply N.
Qed.

Lemma classify_long : forall p l a, In l long_names -> short_for p l -> dget ("--" ++ l)%string option_names = Some a ->
  exists n, startswith "--" n = true /\ classify_word ("--" ++ p) = Some (Opt (Some a) n None)
    /\ forall v, classify_word ("--" ++ p ++ "=" ++ v) = Some (Opt (Some a) n (Some v)).
Proof.
  intros p l a I S D. exists ("--" ++ l)%string. split; [reflexivity|].
  pose proof (prefix_noeq p l I (proj1 S)) as NE.
  assert (SP : forall v, split_first "=" ("--" ++ p ++ "=" ++ v) = (("--" ++ p)%string, Some v)).
  { intros v. exact (split_first_cut "=" ("--" ++ p) v NE). }
  assert (SN : split_first "=" ("--" ++ p) = (("--" ++ p)%string, None)) by (apply split_first_none; exact NE).
  assert (HE : forall v, has_char "=" ("--" ++ p ++ "=" ++ v) = true).
  { intros v. change (has_char "=" (p ++ "=" ++ v) = true). rewrite has_char_app. apply orb_true_iff. right. reflexivity. }
  destruct (long_resolves p l a I S D) as [->|[DN R]].
  - split; [unfold classify_word; cbn [append negb Ascii.eqb Bool.eqb]; cbn [append] in D; rewrite D; reflexivity|]. intros v.
    unfold classify_word. specialize (HE v). specialize (SP v). cbn [append] in *. change (Ascii.eqb "-" "-") with true. cbn [negb].
    rewrite (dget_eq_none _ HE). change (eqs (String "-" (l ++ String "=" v)) "") with false. cbv iota. rewrite SP, D. reflexivity.
  - split.
    + unfold classify_word. cbn [append] in *. change (Ascii.eqb "-" "-") with true. cbn [negb]. rewrite DN.
      change (eqs (String "-" p) "") with false. cbv iota. rewrite SN, (tuples_long _ _ _ SN), R. reflexivity.
    + intros v. unfold classify_word. specialize (HE v). specialize (SP v). cbn [append] in *. change (Ascii.eqb "-" "-") with true. cbn [negb]. rewrite (dget_eq_none _ HE).
      change (eqs (String "-" (p ++ String "=" v)) "") with false. cbv iota. rewrite SP, DN, (tuples_long _ _ _ SP), R. reflexivity.
Qed.

Lemma argument_word : forall v, argument v -> classify_word v = Some (Word v).
Proof.
  intros v A. destruct v as [|c [|d r]]; [reflexivity| |].
  - unfold classify_word. destruct (Ascii.eqb c "-") eqn:E; [|reflexivity]. apply Ascii.eqb_eq in E. subst. reflexivity.
  - unfold classify_word. destruct (Ascii.eqb c "-") eqn:E; [|reflexivity]. apply Ascii.eqb_eq in E. subst. destruct (A d r eq_refl).
Qed.

(** ** tokens *)

Definition quiet_end (r : list tok) : Prop := forall t, r = Dashes :: t -> exists v, t = [Word v].
Definition no_word (r : list tok) : Prop := forall x t, r <> Word x :: t.

(** some words, their tokens and what these do *)
Definition reads_as (is : list item) (ws : list string) (ts : list tok) : Prop :=
  (forall ws', classify (ws ++ ws') = option_map (app ts) (classify ws'))
  /\ (ts = [] -> is = []) /\ (forall x t, ts = Word x :: t -> exists v r, is = IFile v :: r) /\ (forall t, ts <> Dashes :: t)
  /\ forall r p, quiet_end r -> (open_end is -> no_word r) -> consume (ts ++ r) p = match steps is p with inl p' => consume r p' | inr x => x end.

Lemma classify_one : forall w t ws, w <> "--" -> classify_word w = Some t -> classify (w :: ws) = option_map (app [t]) (classify ws).
Proof.
  intros w t ws N C. cbn [classify]. destruct (eqs w "--") eqn:E; [apply eqs_true in E; congruence|]. rewrite C. destruct (classify ws); reflexivity.
Qed.

Lemma steps_one : forall i p, steps [i] p = step i p.
Proof. intros. cbn. destruct (step i p); reflexivity. Qed.

(** tokens of an option and the actions before it *)
Lemma opt_zero : forall (a : act) (n : string) is p r, forall value l x,
  match value with None => inl ([], a, None) | Some v => letters [] a n v end = inl (l, x, None) -> arity_of x = Zero -> plain_acts is = (l ++ [x])%list ->
  (forall p, take_all (plain_acts is) p = steps is p) ->
  consume (Opt (Some a) n value :: r) p = match steps is p with inl p' => consume r p' | inr y => y end.
Proof. intros a n is p r value l x L Z P TS. cbn [consume]. rewrite L, Z, <- P, TS. reflexivity. Qed.

Lemma opt_value : forall (a : act) (n : string) is i p r, forall value l b x,
  match value with None => inl ([], a, None) | Some v => letters [] a n v end = inl (l, b, Some x) -> arity_of b <> Zero -> plain_acts is = l ->
  (forall p, take_all (plain_acts is) p = steps is p) -> act_of i = Some (b, Some x) ->
  consume (Opt (Some a) n value :: r) p = match steps (is ++ [i]) p with inl p' => consume r p' | inr y => y end.
Proof.
  intros a n is i p r value l b x L Z P TS A. rewrite steps_app, <- TS, P. cbn [consume]. rewrite L.
  destruct (arity_of b); [congruence| |]; destruct (take_all l p) as [p'|]; try reflexivity; rewrite steps_one; unfold step; rewrite A; destruct (take b (Some x) p'); reflexivity.
Qed.

Lemma opt_next : forall (a : act) (n : string) is i p r, forall value l b x,
  match value with None => inl ([], a, None) | Some v => letters [] a n v end = inl (l, b, None) -> arity_of b <> Zero -> plain_acts is = l ->
  (forall p, take_all (plain_acts is) p = steps is p) -> act_of i = Some (b, Some x) ->
  consume (Opt (Some a) n value :: Word x :: r) p = match steps (is ++ [i]) p with inl p' => consume r p' | inr y => y end.
Proof.
  intros a n is i p r value l b x L Z P TS A. rewrite steps_app, <- TS, P. cbn [consume]. rewrite L.
  destruct (arity_of b); [congruence| |]; destruct (take_all l p) as [p'|]; try reflexivity; rewrite steps_one; unfold step; rewrite A; destruct (take b (Some x) p'); reflexivity.
Qed.

Lemma opt_none : forall (a : act) (n : string) is p r, forall value l,
  match value with None => inl ([], a, None) | Some v => letters [] a n v end = inl (l, ACreate, None) -> plain_acts is = l ->
  (forall p, take_all (plain_acts is) p = steps is p) -> no_word r ->
  consume (Opt (Some a) n value :: r) p = match steps (is ++ [ICreate None]) p with inl p' => consume r p' | inr y => y end.
Proof.
  intros a n is p r value l L P TS NW. rewrite steps_app, <- TS, P. cbn [consume]. rewrite L. cbn [arity_of].
  destruct r as [|[x| |]]; try (destruct (NW x r eq_refl)); destruct (take_all l p) as [p'|]; try reflexivity; rewrite steps_one; unfold step; cbn [act_of]; destruct (take ACreate None p'); reflexivity.
Qed.

(** the token of letters, at the end or before a letter with a value *)
Lemma letters_tok : forall s is, letters_of s is -> s <> "" ->
  exists a n value l x, classify_word ("-" ++ s) = Some (Opt (Some a) n value)
    /\ match value with None => inl ([], a, None) | Some v => letters [] a n v end = inl (l, x, None) /\ arity_of x = Zero /\ plain_acts is = (l ++ [x])%list.
Proof.
  intros s is H N. destruct H as [|c l i s is I H]; [congruence|]. destruct (plain_entry _ _ _ I) as (a & A & D & _ & Z & _ & ND & NE & _).
  apply letter_dget in D. destruct s as [|c' s].
  - inversion H; subst. exists a, (String "-" (String c "")), None, [], a. split; [apply one_letter; exact D|]. cbn. rewrite A. auto.
  - assert (NE' : c' <> "="%char) by (inversion H; subst; match goal with X : In (c', _, _) _ |- _ => destruct (plain_entry _ _ _ X) as (?&?&?&?&?&?&?&?&?); assumption end).
    destruct (letters_plain _ _ H [] a c Z ND ltac:(discriminate)) as (l' & x & L & ZX & P).
    exists a, (String "-" (String c "")), (Some (String c' s)), (a :: l'), x. split; [apply more_letters; assumption|]. split; [exact L|]. split; [exact ZX|].
    cbn [plain_acts map]. rewrite A. fold (plain_acts is). rewrite P. reflexivity.
Qed.

Lemma value_tok : forall s is c b v, letters_of s is -> In (c, b) letter_names -> arity_of b <> Zero -> (s = "" -> startswith "=" v = false) -> c <> "="%char ->
  exists a n value, classify_word ("-" ++ s ++ String c v) = Some (Opt (Some a) n value)
    /\ match value with None => inl ([], a, None) | Some v => letters [] a n v end = inl (plain_acts is, b, match v with "" => None | _ => Some v end).
Proof.
  intros s is c b v H D NZ EQ CE. destruct H as [|c1 l i s is I H].
  - destruct v as [|c' v].
    + exists b, (String "-" (String c "")), None. split; [apply one_letter; exact D|reflexivity].
    + exists b, (String "-" (String c "")), (Some (String c' v)). split; [apply more_letters; [exact D|]|].
      * intros ->. specialize (EQ eq_refl). discriminate EQ.
      * cbn [letters]. destruct (arity_of b); [congruence|reflexivity|reflexivity].
  - destruct (plain_entry _ _ _ I) as (a & A & D1 & _ & Z & _ & ND & NE & _). apply letter_dget in D1.
    exists a, (String "-" (String c1 "")), (Some (s ++ String c v)%string). split.
    + cbn [append]. destruct (s ++ String c v)%string as [|y ys] eqn:Y; [destruct s; discriminate Y|]. apply more_letters; [exact D1|].
      destruct s as [|z s]; cbn [append] in Y; injection Y as <- _; [exact CE|].
      inversion H; subst; match goal with X : In (z, _, _) _ |- _ => destruct (plain_entry _ _ _ X) as (?&?&?&?&?&?&?&?&?); assumption end.
    + cbn iota. rewrite (letters_value _ _ H c b [] a c1 v Z ND (proj2 (letter_dget c b) D) NZ). cbn [app plain_acts map]. rewrite A. reflexivity.
Qed.

Lemma dash_neq : forall s is, letters_of s is -> forall t, (t = "" -> s <> "") -> (forall c t', t = String c t' -> c <> "-"%char) -> ("-" ++ s ++ t)%string <> "--".
Proof.
  intros s is H t N D E. destruct H as [|c l i s is I H]; cbn [append] in E.
  - destruct t as [|c t]; [destruct (N eq_refl); reflexivity|]. apply (D _ _ eq_refl). congruence.
  - destruct (plain_entry _ _ _ I) as (a & A & D1 & _ & Z & _ & ND & NE & _). congruence.
Qed.

Lemma open_value : forall is i, open_end (is ++ [i]) -> i = ICreate None.
Proof. intros is i. unfold open_end. rewrite last_last. exact (fun H => H). Qed.

Lemma word_file : forall v r p, quiet_end r -> consume (Word v :: r) p = match steps [IFile v] p with inl p' => consume r p' | inr x => x end.
Proof.
  intros v r p Q. cbn [steps step act_of]. cbn [consume]. destruct (p_file p); [reflexivity|].
  destruct r as [|[x| |a n o] r]; try reflexivity. destruct (Q r eq_refl) as (w & ->). cbn. reflexivity.
Qed.

Lemma short_nonempty : forall p l, In l long_names -> short_for p l -> p <> "".
Proof.
  intros p l I [S U] ->. destruct U as [<-|U]; [cbn in I; repeat (destruct I as [I|I]; [discriminate I|]); destruct I|].
  assert (E1 : "help" = l) by (apply U; [cbn; tauto|reflexivity]). assert (E2 : "terms" = l) by (apply U; [cbn; tauto|reflexivity]). congruence.
Qed.

Lemma long_neq : forall p s, p <> "" -> ("--" ++ p ++ s)%string <> "--".
Proof. intros p s N E. destruct p; [congruence|discriminate E]. Qed.

Lemma one_plain : forall c l i, In (c, l, i) plain_options -> letters_of (String c "") [i].
Proof. intros c l i I. apply (lo_cons c l i "" []); [exact I|constructor]. Qed.

Lemma file_free : forall is i x v r, (exists s, letters_of s is) -> act_of i = Some x -> (is ++ [i])%list = IFile v :: r -> False.
Proof.
  intros is i x v r (s & H) A E. destruct H as [|c l j s is I H]; cbn [app] in E; injection E as -> _; [discriminate A|].
  destruct (plain_entry _ _ _ I) as (a & A' & _). discriminate A'.
Qed.

Lemma writes_reads : forall is ws, writes is ws -> exists ts, reads_as is ws ts.
Proof.
  intros is ws W. destruct W as [s is H N|c l i p I S|s is c l f v H I A|s is c l f v H I NV ND EQ|c l f p v I S A|c l f p v I S ND|s is H|p S|v A].
  - destruct (letters_tok s is H N) as (a & n & value & k & x & C & L & Z & P). exists [Opt (Some a) n value].
    split; [|split; [discriminate|split; [discriminate|split; [discriminate|]]]].
    + intros ws'. apply classify_one; [|exact C]. rewrite <- (app_s_nil s). apply (dash_neq s is H ""); [auto|discriminate].
    + intros r q Q O. apply (opt_zero a n is q r value k x L Z P). apply (plain_steps s is H).
  - destruct (plain_entry _ _ _ I) as (a & A & D & DL & Z & IL & _). destruct (classify_long p l a IL S DL) as (n & SN & C & _). exists [Opt (Some a) n None].
    split; [|split; [discriminate|split; [discriminate|split; [discriminate|]]]].
    + intros ws'. apply classify_one; [|exact C]. intros E. apply (short_nonempty p l IL S). injection E as E. exact E.
    + intros r q Q O. apply (opt_zero a n [i] q r None [] a eq_refl Z); [cbn; rewrite A; reflexivity|]. apply (plain_steps _ _ (one_plain _ _ _ I)).
  - destruct (value_entry _ _ _ I) as (b & AB & D & _ & NZ & _ & CD & CE & NC).
    destruct (value_tok s is c b "" H (proj1 (letter_dget c b) D) NZ (fun _ => eq_refl) CE) as (a & n & value & C & L).
    exists [Opt (Some a) n value; Word v]. split; [|split; [discriminate|split; [discriminate|split; [discriminate|]]]].
    + intros ws'. cbn [app]. rewrite (classify_one _ _ (v :: ws') (dash_neq s is H (String c "") ltac:(discriminate) ltac:(intros ? ? E; injection E as <- _; exact CD)) C).
      rewrite (classify_one v (Word v)); [destruct (classify ws'); reflexivity| |apply argument_word; exact A]. intros ->. destruct (A _ _ eq_refl).
    + intros r q Q O. apply (opt_next a n is (f v) q r value (plain_acts is) b v L NZ eq_refl (plain_steps s is H) (AB v)).
  - destruct (value_entry _ _ _ I) as (b & AB & D & _ & NZ & _ & CD & CE & NC).
    destruct (value_tok s is c b v H (proj1 (letter_dget c b) D) NZ EQ CE) as (a & n & value & C & L).
    exists [Opt (Some a) n value]. split; [|split; [discriminate|split; [discriminate|split; [discriminate|]]]].
    + intros ws'. apply classify_one; [|exact C]. apply (dash_neq s is H (String c v)); [discriminate|intros ? ? E; injection E as <- _; exact CD].
    + intros r q Q O. destruct v as [|y v]; [congruence|]. apply (opt_value a n is (f (String y v)) q r value (plain_acts is) b (String y v) L NZ eq_refl (plain_steps s is H) (AB _)).
  - destruct (value_entry _ _ _ I) as (b & AB & D & DL & NZ & IL & CD & CE & NC). destruct (classify_long p l b IL S DL) as (n & SN & C & _).
    exists [Opt (Some b) n None; Word v]. split; [|split; [discriminate|split; [discriminate|split; [discriminate|]]]].
    + intros ws'. cbn [app]. rewrite (classify_one ("--" ++ p) _ (v :: ws') ltac:(intros E; apply (short_nonempty p l IL S); injection E as E; exact E) C).
      rewrite (classify_one v (Word v)); [destruct (classify ws'); reflexivity| |apply argument_word; exact A]. intros ->. destruct (A _ _ eq_refl).
    + intros r q Q O. apply (opt_next b n [] (f v) q r None [] b v eq_refl NZ eq_refl (fun _ => eq_refl) (AB v)).
  - destruct (value_entry _ _ _ I) as (b & AB & D & DL & NZ & IL & CD & CE & NC). destruct (classify_long p l b IL S DL) as (n & SN & _ & C).
    exists [Opt (Some b) n (Some v)]. split; [|split; [discriminate|split; [discriminate|split; [discriminate|]]]].
    + intros ws'. apply classify_one; [|apply C]. apply long_neq. exact (short_nonempty p l IL S).
    + intros r q Q O. apply (opt_value b n [] (f v) q r (Some v) [] b v); auto. cbn [letters]. destruct v; cbn [letters]; destruct (arity_of b); congruence.
  - destruct (value_tok s is "C" ACreate "" H) as (a & n & value & C & L); [cbn; tauto|discriminate|reflexivity|discriminate|].
    exists [Opt (Some a) n value]. split; [|split; [discriminate|split; [discriminate|split; [discriminate|]]]].
    + intros ws'. apply classify_one; [|exact C]. apply (dash_neq s is H "C"); [discriminate|intros ? ? E; injection E as <- _; discriminate].
    + intros r q Q O. apply (opt_none a n is q r value (plain_acts is) L eq_refl (plain_steps s is H)). apply O. unfold open_end. apply last_last.
  - assert (IL : In "create" long_names) by (cbn; tauto). destruct (classify_long p "create" ACreate IL S eq_refl) as (n & SN & C & _).
    exists [Opt (Some ACreate) n None]. split; [|split; [discriminate|split; [discriminate|split; [discriminate|]]]].
    + intros ws'. apply classify_one; [|exact C]. intros E. apply (short_nonempty p "create" IL S). injection E as E. exact E.
    + intros r q Q O. apply (opt_none ACreate n [] q r None [] eq_refl eq_refl (fun _ => eq_refl)). apply O. reflexivity.
  - exists [Word v]. split; [|split; [discriminate|split; [intros x t E; injection E as -> _; eauto|split; [discriminate|]]]].
    + intros ws'. apply classify_one; [|apply argument_word; exact A]. intros ->. destruct (A _ _ eq_refl).
    + intros r q Q O. apply word_file. exact Q.
Qed.

Lemma open_app : forall is is', is' <> [] -> open_end (is ++ is') -> open_end is'.
Proof.
  intros is is' N. unfold open_end. destruct (exists_last N) as (a & x & ->). rewrite app_assoc, !last_last. exact (fun H => H).
Qed.

Lemma line_reads : forall is ws, line is ws -> exists ts, reads_as is ws ts.
Proof.
  induction 1 as [|is ws is' ws' W L IH O].
  - exists []. split; [|split; [auto|split; [discriminate|split; [discriminate|]]]].
    + intros ws'. cbn. destruct (classify ws'); reflexivity.
    + intros r p _ _. reflexivity.
  - destruct (writes_reads _ _ W) as (ts & C1 & E1 & F1 & D1 & R1). destruct IH as (ts' & C2 & E2 & F2 & D2 & R2). exists (ts ++ ts')%list.
    split; [|split; [|split; [|split]]].
    + intros x. rewrite <- app_assoc, C1, C2. destruct (classify x); cbn; [rewrite app_assoc|]; reflexivity.
    + intros E. apply app_eq_nil in E. destruct E as [-> ->]. rewrite E1, E2; reflexivity.
    + intros x t E. destruct ts as [|y ts].
      * rewrite E1 by reflexivity. apply (F2 x t). exact E.
      * injection E as -> E. destruct (F1 x ts eq_refl) as (v & r & ->). exists v, (r ++ is')%list. reflexivity.
    + intros t E. destruct ts as [|y ts]; [exact (D2 t E)|]. injection E as -> E. exact (D1 ts eq_refl).
    + intros r p Q NW. rewrite <- app_assoc, steps_app, R1.
      * destruct (steps is p) as [p'|x]; [|reflexivity]. apply R2; [exact Q|]. intros Oe. apply NW. destruct is' as [|i is']; [discriminate Oe|].
        unfold open_end in *. rewrite <- Oe. clear. revert i. induction is as [|j is IH]; intros i; [reflexivity|]. cbn [app]. rewrite <- (IH i). cbn. destruct (is ++ i :: is')%list eqn:E; [destruct is; discriminate E|reflexivity].
      * intros t E. destruct ts' as [|y ts']; [exact (Q t E)|]. injection E as -> _. destruct (D2 ts' eq_refl).
      * intros Oe x t E. destruct ts' as [|y ts'].
        -- specialize (E2 eq_refl). subst is'. rewrite app_nil_r in NW. exact (NW Oe x t E).
        -- injection E as -> _. destruct (F2 x ts' eq_refl) as (v & r' & ->). exact (O Oe v eq_refl).
Qed.

(** ** what the parts come to *)

Definition no_dash (i : item) : Prop := match i with IFind v => v <> "--" | ICreate (Some v) => v <> "--" | _ => True end.

Lemma argument_no : forall v, argument v -> v <> "--".
Proof. intros v A ->. exact (A _ _ eq_refl). Qed.

Lemma letters_nodash : forall s is, letters_of s is -> Forall no_dash is.
Proof.
  induction 1 as [|c l i s is I H IH]; constructor; [|exact IH]. cbn in I. repeat (destruct I as [I|I]; [injection I as _ _ <-; exact Logic.I|]). destruct I.
Qed.
Lemma value_nodash : forall c l f v, In (c, l, f) value_options -> v <> "--" -> no_dash (f v).
Proof. intros c l f v I N. cbn in I. repeat (destruct I as [I|I]; [injection I as _ _ <-; exact N|]). destruct I. Qed.
Lemma plain_nodash : forall c l i, In (c, l, i) plain_options -> no_dash i.
Proof. intros c l i I. pose proof (letters_nodash _ _ (one_plain _ _ _ I)) as F. inversion F; assumption. Qed.

Lemma writes_nodash : forall is ws, writes is ws -> Forall no_dash is.
Proof.
  intros is ws W. destruct W as [s is H N|c l i p I S|s is c l f v H I A|s is c l f v H I NV ND EQ|c l f p v I S A|c l f p v I S ND|s is H|p S|v A];
    try (apply Forall_app; split); try (exact (letters_nodash _ _ H)); repeat constructor.
  - exact (plain_nodash _ _ _ I).
  - exact (value_nodash _ _ _ _ I (argument_no v A)).
  - exact (value_nodash _ _ _ _ I ND).
  - exact (value_nodash _ _ _ _ I (argument_no v A)).
  - exact (value_nodash _ _ _ _ I ND).
Qed.
Lemma line_nodash : forall is ws, line is ws -> Forall no_dash is.
Proof. induction 1; [constructor|]. apply Forall_app. split; [eapply writes_nodash; eassumption|assumption]. Qed.

Definition kinds (is : list item) : list string := flat_map (fun i => match kind_of i with Some k => [k] | None => [] end) is.
Definition all_same (l : list string) : Prop := forall a b, In a l -> In b l -> a = b.
Lemma kinds_in : forall is k, In k (kinds is) <-> exists i, In i is /\ kind_of i = Some k.
Proof.
  intros is k. unfold kinds. rewrite in_flat_map. split; intros (i & I & K); exists i; (split; [exact I|]); destruct (kind_of i) as [k'|] eqn:E; try discriminate; try (destruct K; fail).
  - destruct K as [<-|[]]. reflexivity.
  - injection K as ->. left. reflexivity.
Qed.
Lemma one_same : forall is, one_kind is <-> all_same (kinds is).
Proof.
  intros is. split.
  - intros O a b A B. apply kinds_in in A, B. destruct A as (i & I & A), B as (j & J & B). exact (O i j a b I J A B).
  - intros S i j k k' I J A B. apply S; apply kinds_in; eauto.
Qed.

Lemma step_result : forall i p, no_dash i ->
  step i p = if match kind_of i with Some k => existsb (fun x => negb (eqs x k)) (p_seen p) | None => false end then inr (Exits 2)
             else inl (match i with
                       | IFile v => if p_file p then extra p else mk_pst (adds (p_args p) i) (p_seen p) true (p_extra p)
                       | _ => mk_pst (adds (p_args p) i) (match kind_of i with Some k => k :: p_seen p | None => p_seen p end) (p_file p) (p_extra p)
                       end).
Proof.
  intros i p N. destruct i as [t| | |v|v|v]; unfold step; cbn [act_of kind_of]; unfold take; cbn [grouped].
  - destruct (existsb _ _); reflexivity.
  - reflexivity.
  - reflexivity.
  - cbn in N. destruct (eqs v "--") eqn:E; [apply eqs_true in E; congruence|]. reflexivity.
  - destruct v as [v|]; cbn in N; [destruct (eqs v "--") eqn:E; [apply eqs_true in E; congruence|]|]; destruct (existsb _ _); reflexivity.
  - destruct (p_file p); reflexivity.
Qed.

Lemma existsb_differs : forall k l, existsb (fun x => negb (eqs x k)) l = false <-> forall x, In x l -> x = k.
Proof.
  intros k l. split.
  - intros E x I. destruct (eqs x k) eqn:X; [apply eqs_true; exact X|]. exfalso. assert (T : existsb (fun x => negb (eqs x k)) l = true) by (apply existsb_exists; exists x; rewrite X; auto). congruence.
  - intros H. destruct (existsb _ l) eqn:E; [|reflexivity]. apply existsb_exists in E. destruct E as (x & I & X). rewrite (H x I) in X. unfold eqs in X. rewrite String.eqb_refl in X. discriminate.
Qed.

(** exclusive options: an error *)
Lemma steps_kinds : forall is p, Forall no_dash is -> all_same (p_seen p) ->
  (all_same (kinds is ++ p_seen p) /\ exists p', steps is p = inl p' /\ (p_extra p = true -> p_extra p' = true))
  \/ (~ all_same (kinds is ++ p_seen p) /\ steps is p = inr (Exits 2)).
Proof.
  induction is as [|i is IH]; intros p F S.
  - left. cbn. split; [exact S|]. exists p. auto.
  - inversion F as [|? ? N F']; subst. cbn [steps]. rewrite step_result by exact N. change (kinds (i :: is)) with ((match kind_of i with Some k => [k] | None => [] end) ++ kinds is)%list.
    destruct (kind_of i) as [k|] eqn:K.
    + destruct (existsb _ (p_seen p)) eqn:E.
      * right. split; [|reflexivity]. intros A. assert (E' : existsb (fun x => negb (eqs x k)) (p_seen p) = false); [|congruence].
        apply existsb_differs. intros x X. apply A; [apply in_or_app; right; exact X|left; reflexivity].
      * assert (E' := proj1 (existsb_differs k _) E). set (q := match i with IFile _ => _ | _ => _ end).
        assert (Q : p_seen q = k :: p_seen p /\ p_extra q = p_extra p) by (unfold q; destruct i; try discriminate K; split; reflexivity). destruct Q as [Q QX].
        assert (SQ : all_same (p_seen q)). { rewrite Q. assert (T : forall a, In a (k :: p_seen p) -> a = k) by (intros a [<-|A]; auto). intros a b A B. rewrite (T a A), (T b B). reflexivity. }
        destruct (IH q F' SQ) as [[A (p' & P & X)]|[A P]]; rewrite Q in A; [left|right].
        -- split; [|exists p'; rewrite <- QX; auto]. intros a b I J. apply A; (apply in_app_or in I || idtac); (apply in_app_or in J || idtac); apply in_or_app; cbn [app In] in *.
           ++ destruct I as [[<-|I]|I]; [right; left; reflexivity|left; exact I|right; right; exact I].
           ++ destruct J as [[<-|J]|J]; [right; left; reflexivity|left; exact J|right; right; exact J].
        -- split; [|exact P]. intros B. apply A. intros a b I J. apply B; apply in_or_app; cbn [app In]; apply in_app_or in I, J; cbn [In] in I, J; tauto.
    + set (q := match i with IFile _ => _ | _ => _ end).
      assert (Q : p_seen q = p_seen p /\ (p_extra p = true -> p_extra q = true)) by (unfold q; destruct i; try discriminate K; try (split; [reflexivity|exact (fun H => H)]); destruct (p_file p); split; auto).
      destruct Q as [Q QX]. assert (SQ : all_same (p_seen q)) by (rewrite Q; exact S). destruct (IH q F' SQ) as [[A (p' & P & X)]|[A P]]; rewrite Q in A; [left|right]; (split; [exact A|]); [exists p'; split; [exact P|auto]|exact P].
Qed.

(** the arguments, and names that are too many *)
Lemma steps_args : forall is p p', Forall no_dash is -> steps is p = inl p' ->
  (List.length (files_of is) + (if p_file p then 1 else 0) <= 1 -> p_args p' = fold_left adds is (p_args p) /\ p_extra p' = p_extra p)
  /\ (2 <= List.length (files_of is) + (if p_file p then 1 else 0) -> 1 <= List.length (files_of is) -> p_extra p' = true).
Proof.
  induction is as [|i is IH]; intros p p' F P.
  - injection P as <-. split; [auto|]. cbn. intros _ H. inversion H.
  - inversion F as [|? ? N F']; subst. cbn [steps] in P. rewrite step_result in P by exact N.
    destruct (match kind_of i with Some _ => _ | None => _ end); [discriminate|]. set (q := match i with IFile _ => _ | _ => _ end) in P.
    destruct (IH q p' F' P) as [G B].
    assert (X : p_extra q = true -> p_extra p' = true).
    { intros XQ. clearbody q. clear -P XQ F'. revert q P XQ. induction is as [|j is IH]; intros q P XQ; [injection P as <-; exact XQ|].
      inversion F' as [|? ? N F]; subst. cbn [steps] in P. rewrite step_result in P by exact N.
      destruct (match kind_of j with Some _ => _ | None => _ end); [discriminate|]. apply (IH F _ P). destruct j; cbn; try exact XQ. destruct (p_file q); [reflexivity|exact XQ]. }
    destruct i as [t| | |v|v|v]; try (cbn [files_of flat_map app fold_left]; exact (conj G B)).
    cbn [files_of flat_map app List.length fold_left]. unfold q in *. destruct (p_file p) eqn:PF; cbn [p_args p_file p_extra extra] in *.
    + split; [intros H; exfalso; clear -H; lia|]. intros _ _. apply X. reflexivity.
    + fold (files_of is) in *. split; [intros H; apply G; clear -H; lia|]. intros H _. apply B; clear -H; lia.
Qed.

Lemma start_same : all_same (p_seen (mk_pst default_args [] false false)).
Proof. intros a b []. Qed.

Definition accepted (is : list item) : Prop := one_kind is /\ List.length (files_of is) <= 1.

Lemma accepted_result : forall is, Forall no_dash is ->
  (accepted is -> exists p', steps is (mk_pst default_args [] false false) = inl p' /\ p_args p' = meaning is /\ p_extra p' = false)
  /\ (~ accepted is -> match steps is (mk_pst default_args [] false false) with inl p' => p_extra p' = true | inr x => x = Exits 2 end).
Proof.
  intros is F. destruct (steps_kinds is _ F start_same) as [[A (p' & P & X)]|[A P]]; cbn [p_seen] in A; rewrite app_nil_r in A; rewrite P.
  - apply one_same in A. destruct (steps_args is _ p' F P) as [G B]. cbn [p_file p_args p_extra] in *. split.
    + intros [_ L]. exists p'. split; [reflexivity|]. apply G. lia.
    + intros N. destruct (Nat.le_gt_cases (List.length (files_of is)) 1) as [L|L]; [destruct N; split; assumption|]. apply B; lia.
  - split; [|reflexivity]. intros [O _]. destruct A. apply one_same. exact O.
Qed.

Lemma whole_reads : forall is ws, whole is ws ->
  Forall no_dash is /\ exists ts, classify ws = Some ts /\ forall p, match consume ts p with x => match steps is p with inl p' => x = if p_extra p' then Exits 2 else Parsed (p_args p') | inr y => x = y end end.
Proof.
  intros is ws W. destruct W as [is ws L|is ws v L]; pose proof (line_nodash _ _ L) as F; destruct (line_reads _ _ L) as (ts & C & _ & _ & _ & R).
  - split; [exact F|]. exists ts. specialize (C []). rewrite app_nil_r in C. split; [rewrite C; cbn; rewrite app_nil_r; reflexivity|]. intros p.
    specialize (R [] p). rewrite app_nil_r in R. rewrite R; [|discriminate|discriminate]. destruct (steps is p); reflexivity.
  - split; [apply Forall_app; split; [exact F|repeat constructor]|]. exists (ts ++ [Dashes; Word v])%list. split; [rewrite C; reflexivity|]. intros p.
    rewrite steps_app, R; [|intros t E; injection E as <-; eauto|discriminate]. destruct (steps is p) as [p'|x]; [|reflexivity].
    cbn [steps step act_of consume]. destruct (p_file p') eqn:PF; [cbn; rewrite PF; reflexivity|reflexivity].
Qed.

Theorem c87_read : forall is ws, whole is ws -> one_kind is -> List.length (files_of is) <= 1 -> parse_args ws = Parsed (meaning is).
Proof.
  intros is ws W O L. destruct (whole_reads is ws W) as (F & ts & C & R). unfold parse_args. rewrite C.
  destruct (accepted_result is F) as [G _]. destruct (G (conj O L)) as (p' & P & A & X). specialize (R (mk_pst default_args [] false false)). rewrite P, X in R. rewrite R, A. reflexivity.
Qed.

Theorem c87_wrong : forall is ws, whole is ws -> ~ one_kind is \/ 2 <= List.length (files_of is) -> parse_args ws = Exits 2.
Proof.
  intros is ws W O. destruct (whole_reads is ws W) as (F & ts & C & R). unfold parse_args. rewrite C.
  destruct (accepted_result is F) as [_ B]. specialize (B ltac:(intros [A1 A2]; destruct O as [O|O]; [exact (O A1)|lia])). specialize (R (mk_pst default_args [] false false)).
  destruct (steps is _) as [p'|x]; [rewrite B in R; exact R|rewrite R; exact B].
Qed.

(** ** help, missing values, bad words *)

Theorem c87_help : forall is ws w, line is ws -> one_kind is -> In w ["-h"; "--help"] -> parse_args (ws ++ [w]) = Exits 0.
Proof.
  intros is ws w L O I. pose proof (line_nodash _ _ L) as F. destruct (line_reads _ _ L) as (ts & C & _ & _ & _ & R). unfold parse_args. rewrite C.
  assert (CW : exists n, classify [w] = Some [Opt (Some AHelp) n None]) by (destruct I as [<-|[<-|[]]]; eexists; reflexivity). destruct CW as (n & ->). cbn [option_map].
  rewrite R; [|discriminate|discriminate].
  destruct (steps_kinds is (mk_pst default_args [] false false) F start_same) as [[A (p' & P & X)]|[A P]]; cbn [p_seen] in A; rewrite app_nil_r in A; rewrite P; [reflexivity|].
  destruct A. apply one_same. exact O.
Qed.

Theorem c87_missing : forall is ws is' s, line is ws -> letters_of s is' -> parse_args (ws ++ [("-" ++ s ++ "f")%string]) = Exits 2.
Proof.
  intros is ws is' s L LS. pose proof (line_nodash _ _ L) as F. destruct (line_reads _ _ L) as (ts & C & _ & _ & _ & R). unfold parse_args. rewrite C.
  destruct (value_tok s is' "f" AFind "" LS) as (a & n & value & CW & LT); [cbn; tauto|discriminate|reflexivity|discriminate|].
  rewrite (classify_one _ _ [] (dash_neq s is' LS "f" ltac:(discriminate) ltac:(intros ? ? E; injection E as <- _; discriminate)) CW). cbn [classify option_map app].
  rewrite R; [|discriminate|discriminate].
  destruct (steps_kinds is (mk_pst default_args [] false false) F start_same) as [[A (p' & P & X)]|[A P]]; rewrite P; [|reflexivity].
  cbn [consume]. rewrite LT. reflexivity.
Qed.

(** a bad word: ambiguous, an error by itself, or a word nobody takes *)
Definition bad_tok (o : option tok) : Prop :=
  o = None \/ (exists w, o = Some (Opt None w None)) \/ exists a n v, o = Some (Opt (Some a) n (Some v)) /\ letters [] a n v = inr (Exits 2).

Lemma newline_match : forall {A} x (a b : A), match x with "010"%char => a | _ => b end = b \/ match x with "010"%char => a | _ => b end = a.
Proof. intros A [b0 b1 b2 b3 b4 b5 b6 b7] a b. destruct b0, b1, b2, b3, b4, b5, b6, b7; auto. Qed.

Lemma number_not : forall c s, is_digit c = false -> c <> "."%char -> negative_number (String "-" (String c s)) = false.
Proof.
  intros c s D N. unfold negative_number.
  assert (E : drop_newline (String "-" (String c s)) = "-" \/ exists r, drop_newline (String "-" (String c s)) = String "-" (String c r)).
  { unfold drop_newline. destruct (newline_match (last (list_ascii_of_string (String "-" (String c s))) "x"%char) (substring 0 (String.length (String "-" (String c s)) - 1) (String "-" (String c s))) (String "-" (String c s))) as [E|E]; rewrite E; [right; exists s; reflexivity|].
    cbn [String.length Nat.sub]. destruct s as [|d s]; [left; reflexivity|]. right. exists (substring 0 (String.length s) (String d s)). reflexivity. }
  assert (G : forall r, (match split_first "." (String c r) with (a, None) => nonempty a && all_chars is_digit a | (a, Some b) => all_chars is_digit a && nonempty b && all_chars is_digit b end) = false).
  { intros r. rewrite split_first_cons by exact N. destruct (snd (split_first "." r)); cbn [all_chars]; rewrite D; [reflexivity|]. apply andb_false_r. }
  destruct E as [->|(r & ->)]; [reflexivity|apply G].
Qed.

Lemma tuples_none : forall c s, ~ In c known_letters -> c <> "-"%char -> option_tuples (String "-" (String c s)) = [].
Proof.
  intros c s N ND. destruct (option_tuples _) as [|t l] eqn:T; [reflexivity|]. exfalso. assert (I : In t (option_tuples (String "-" (String c s)))) by (rewrite T; left; reflexivity).
  unfold option_tuples in I. destruct (Ascii.eqb c "-") eqn:E; [apply Ascii.eqb_eq in E; congruence|]. apply in_flat_map in I. destruct I as ([n a] & I & J). cbn [fst snd] in J.
  assert (X : exists t', n = String "-" (String c t')).
  { destruct (eqs n _) eqn:Q; [apply eqs_true in Q; subst; eauto|]. destruct (startswith _ n) eqn:S; [|destruct J]. apply startswith_spec in S. destruct S as (t' & ->). eexists. reflexivity. }
  destruct X as (t' & ->). unfold option_names in I. cbn [In] in I.
  repeat (destruct I as [I|I]; [first [apply ND; injection I; congruence|apply N; injection I as <- _; cbn; tauto|apply N; injection I as <- _ _; cbn; tauto]|]). destruct I.
Qed.

Lemma resolves_in : forall p t, In t (resolves p) <-> In t option_names /\ startswith p (fst t) = true.
Proof. intros p t. exact (filter_In (fun na : string * act => startswith p (fst na)) t option_names). Qed.

Lemma resolves_none : forall p, p <> "" -> (forall l, In l long_names -> startswith p l = false) -> resolves ("--" ++ p) = [] /\ dget ("--" ++ p)%string option_names = None.
Proof.
  intros p NE H. assert (R : resolves ("--" ++ p) = []).
  { destruct (resolves ("--" ++ p)) as [|t r] eqn:T; [reflexivity|]. exfalso. assert (I : In t (resolves ("--" ++ p))) by (rewrite T; left; reflexivity).
    apply resolves_in in I. destruct I as [I S]. destruct t as [n a]. cbn [fst] in S. apply startswith_spec in S. destruct S as (t & ->).
    assert (L : In (p ++ t)%string long_names).
    { destruct p as [|c p]; [congruence|]. unfold option_names in I. cbn [In append] in I.
      repeat (destruct I as [I|I]; [first [discriminate I|apply (f_equal (fun x : string * act => match fst x with String _ (String _ r) => r | _ => "" end)) in I; cbn [fst] in I; cbn [append]; rewrite <- I; cbn [In long_names]; tauto]|]). destruct I. }
    specialize (H _ L). rewrite startswith_app in H. discriminate. }
  split; [exact R|]. destruct (dget _ _) as [a|] eqn:E; [|reflexivity]. apply HeapFacts.dget_in in E. exfalso.
  assert (I : In (("--" ++ p)%string, a) (resolves ("--" ++ p))); [|rewrite R in I; exact I].
  apply resolves_in. split; [exact E|]. cbn [fst]. apply startswith_spec. exists "". rewrite app_s_nil. reflexivity.
Qed.

Definition many_ok (l l' p : string) : bool :=
  eqs l l' || eqs p l || eqs p l' || eqs p "" || negb (startswith p l') ||
    match dget ("--" ++ p)%string option_names, resolves ("--" ++ p) with None, _ :: _ :: _ => true | _, _ => false end.
Lemma many_all : forallb (fun l => forallb (fun l' => forallb (many_ok l l') (prefixes l)) long_names) long_names = true.
Proof. vm_compute. reflexivity. Qed.

Lemma bad_tokens : forall w, bad_word w -> w <> "--" /\ bad_tok (classify_word w).
Proof.
  intros w B. destruct B as [c s N D ND NP SP|s is c s' LS NE N EQ|p NE HE HS H|p v HE HS H|p l l' I I' NL N1 N2 NE S S'|c l i p v I S].
  - split; [intros E; injection E as E _; congruence|]. right. left. exists (String "-" (String c s)).
    unfold classify_word. change (Ascii.eqb "-" "-") with true. cbn [negb].
    assert (DG : forall t, dget (String "-" (String c t)) option_names = None).
    { intros [|c' t]; [apply letter_none; exact N|apply long_dget; exact ND]. }
    rewrite DG. change (eqs (String c s) "") with false. cbv iota. rewrite (tuples_none c s N ND).
    rewrite (number_not c s D NP). change (has_char " " (String "-" (String c s))) with (has_char " " (String c s)). rewrite SP. cbn [orb].
    assert (X : match split_first "=" (String "-" (String c s)) with (p, Some v) => match dget p option_names with Some a => Some (a, p, v) | None => None end | _ => None end = None).
    { rewrite (split_first_cons "=" "-") by discriminate. destruct (Ascii.eqb "=" c) eqn:E.
      - apply Ascii.eqb_eq in E. subst c. cbn [split_first]. rewrite Ascii.eqb_refl. reflexivity.
      - apply Ascii.eqb_neq in E. rewrite (split_first_cons "=" c) by congruence. cbn [fst snd]. rewrite DG. destruct (snd _); reflexivity. }
    rewrite X. reflexivity.
  - split. { destruct s as [|c1 s]; [congruence|]. intros E. inversion LS as [|? ? ? ? ? I H]; subst. destruct (plain_entry _ _ _ I) as (?&?&?&?&?&?&ND&?). cbn [append] in E. injection E as E _. congruence. }
    right. right. inversion LS as [|c1 l i s1 is1 I H]; subst; [congruence|]. destruct (plain_entry _ _ _ I) as (a & A & D & _ & Z & _ & ND & _).
    exists a, (String "-" (String c1 "")), (s1 ++ String c s')%string. split.
    + cbn [append]. destruct (s1 ++ String c s')%string as [|y ys] eqn:Y; [destruct s1; discriminate Y|]. apply more_letters; [apply letter_dget; exact D|].
      destruct s1 as [|z s1]; cbn [append] in Y; injection Y as <- _; [exact (EQ c1 eq_refl)|].
      inversion H; subst; match goal with X : In (z, _, _) _ |- _ => destruct (plain_entry _ _ _ X) as (?&?&?&?&?&?&?&?&?); assumption end.
    + apply (letters_unknown _ _ H); [exact Z|exact ND|apply letter_none; exact N].
  - split; [intros E; injection E as E; congruence|]. right. left. exists ("--" ++ p)%string. destruct (resolves_none p NE H) as [R D].
    assert (SN : split_first "=" ("--" ++ p) = (("--" ++ p)%string, None)) by (apply split_first_none; exact HE).
    unfold classify_word. cbn [append] in *. change (Ascii.eqb "-" "-") with true. cbn [negb]. rewrite D. change (eqs (String "-" p) "") with false. cbv iota.
    rewrite SN, (tuples_long _ _ _ SN), R. cbn [map]. rewrite (number_not "-" p eq_refl ltac:(discriminate)). change (has_char " " (String "-" (String "-" p))) with (has_char " " p). rewrite HS. reflexivity.
  - split; [destruct p; discriminate|]. destruct p as [|c p].
    + left. unfold classify_word. cbn [append]. change (Ascii.eqb "-" "-") with true. cbn [negb]. rewrite dget_eq_none by reflexivity. reflexivity.
    + right. left. exists ("--" ++ String c p ++ "=" ++ v)%string. set (q := String c p) in *. destruct (resolves_none q ltac:(discriminate) H) as [R D].
      assert (SN : split_first "=" ("--" ++ q ++ "=" ++ v) = (("--" ++ q)%string, Some v)) by exact (split_first_cut "=" ("--" ++ q) v HE).
      assert (HQ : has_char "=" ("--" ++ q ++ "=" ++ v) = true) by (change (has_char "=" (q ++ "=" ++ v) = true); rewrite has_char_app; apply orb_true_iff; right; reflexivity).
      assert (HB : has_char " " ("--" ++ q ++ "=" ++ v) = false). { change (has_char " " (q ++ "=" ++ v) = false). rewrite has_char_app in HS |- *. exact HS. }
      clearbody q. unfold classify_word. cbn [append] in *. change (Ascii.eqb "-" "-") with true. cbn [negb]. rewrite (dget_eq_none _ HQ). change (eqs (String "-" (q ++ String "=" v)) "") with false. cbv iota.
      rewrite SN, D, (tuples_long _ _ _ SN), R. cbn [map]. rewrite (number_not "-" _ eq_refl ltac:(discriminate)), HB. reflexivity.
  - split; [intros E; injection E as E; congruence|]. left.
    pose proof many_all as M. rewrite forallb_forall in M. specialize (M l I). rewrite forallb_forall in M. specialize (M l' I'). rewrite forallb_forall in M. specialize (M p (prefixes_in p l S)).
    unfold many_ok in M. apply eqs_false in NL, N1, N2, NE. rewrite NL, N1, N2, NE, S' in M. cbn [orb negb] in M.
    destruct (dget ("--" ++ p)%string option_names) eqn:D; [discriminate|]. destruct (resolves ("--" ++ p)) as [|x [|y z]] eqn:R; try discriminate.
    assert (SN : split_first "=" ("--" ++ p) = (("--" ++ p)%string, None)) by (apply split_first_none; exact (prefix_noeq p l I S)).
    unfold classify_word. cbn [append] in *. change (Ascii.eqb "-" "-") with true. cbn [negb]. rewrite D. change (eqs (String "-" p) "") with false. cbv iota.
    rewrite SN, (tuples_long _ _ _ SN), R. reflexivity.
  - destruct (plain_entry _ _ _ I) as (a & A & D & DL & Z & IL & _). split; [apply long_neq; exact (short_nonempty p l IL S)|]. right. right.
    destruct (classify_long p l a IL S DL) as (n & SN & _ & C). exists a, n, v. split; [apply C|]. destruct v; cbn [letters]; rewrite Z, SN; reflexivity.
Qed.

Theorem c87_bad : forall is ws w is' ws', line is ws -> bad_word w -> line is' ws' -> parse_args (ws ++ w :: ws') = Exits 2.
Proof.
  intros is ws w is' ws' L B L'. pose proof (line_nodash _ _ L) as F. pose proof (line_nodash _ _ L') as F'.
  destruct (line_reads _ _ L) as (ts & C & _ & _ & _ & R). destruct (line_reads _ _ L') as (ts' & C' & _ & _ & _ & R').
  specialize (C' []). rewrite app_nil_r in C'. cbn in C'. rewrite app_nil_r in C'.
  destruct (bad_tokens w B) as [ND T]. unfold parse_args. rewrite C. cbn [classify]. destruct (eqs w "--") eqn:E; [apply eqs_true in E; congruence|]. rewrite C'.
  destruct T as [->|[(x & ->)|(a & n & v & -> & LT)]]; [reflexivity| |]; cbn [option_map]; (rewrite R; [|discriminate|discriminate]);
    (destruct (steps_kinds is (mk_pst default_args [] false false) F start_same) as [[A (p' & P & X)]|[A P]]; rewrite P; [|reflexivity]); cbn [consume].
  - assert (G : forall q, p_extra q = true -> all_same (p_seen q) -> consume ts' q = Exits 2).
    { intros q XQ SQ. specialize (R' [] q). rewrite app_nil_r in R'. rewrite R'; [|discriminate|discriminate].
      destruct (steps_kinds is' q F' SQ) as [[_ (q' & Q & Y)]|[_ Q]]; rewrite Q; [|reflexivity]. cbn [consume]. rewrite (Y XQ). reflexivity. }
    apply G; [reflexivity|]. cbn [extra p_seen].
    (* the options seen are all of one kind *)
    assert (K : forall is p p', Forall no_dash is -> steps is p = inl p' -> forall k, In k (p_seen p') -> In k (kinds is ++ p_seen p)).
    { clear. induction is as [|i is IH]; intros p p' F P k K; [injection P as <-; exact K|]. inversion F as [|? ? N F']; subst.
      cbn [steps] in P. rewrite step_result in P by exact N. destruct (match kind_of i with Some _ => _ | None => _ end); [discriminate|].
      specialize (IH _ _ F' P k K). unfold kinds. cbn [flat_map]. fold (kinds is). rewrite <- app_assoc.
      destruct i as [t| | |v|v|v]; cbn [kind_of p_seen app] in *; try exact IH.
      - apply in_app_or in IH. cbn [In] in IH |- *. destruct IH as [IH|[IH|IH]]; [right; apply in_or_app; left; exact IH|left; exact IH|right; apply in_or_app; right; exact IH].
      - apply in_app_or in IH. cbn [In] in IH |- *. destruct IH as [IH|[IH|IH]]; [right; apply in_or_app; left; exact IH|left; exact IH|right; apply in_or_app; right; exact IH].
      - destruct (p_file p); exact IH. }
    intros a b I J. apply A; [exact (K _ _ _ F P a I)|exact (K _ _ _ F P b J)].
  - rewrite LT. reflexivity.
Qed.

Theorem c87_command : forall w rd is ws c, whole is ws -> one_kind is -> List.length (files_of is) <= 1 -> command w rd ws c = metatab w rd (meaning is) c.
Proof. intros w rd is ws c W O L. unfold command. rewrite (c87_read is ws W O L). reflexivity. Qed.

Theorem c87_usage : forall w rd ws c, parse_args ws = Exits 2 -> command w rd ws c = (mk_cst (c_fs c) (c_out c) (c_log c) (Some 2), Err EExit).
Proof. intros w rd ws c E. unfold command. rewrite E. reflexivity. Qed.
