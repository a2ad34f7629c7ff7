(** * PyBase: values, exceptions, dicts and the state-and-exception monad *)

From Verif Require Export PyStr.

(** ** Exceptions

    One constructor per Python exception class raised by (or escaping from)
    the modelled code.  Messages are not modelled.  [ERecursion] stands for
    Python's RecursionError / non-termination (the model's fuel ran out),
    [EOS] for OSError and its subclasses, [EExit] for sys.exit(1). *)
Inductive exn :=
| EValue | EKey | EType | EAttr | EAssert | EIndex
| EInclude | EDeclaration | EParser | EMetatab | EGenerate | EFormat | EConversion
| ERecursion | EOS | EExit.

Inductive res (A : Type) := Ok (a : A) | Err (e : exn).
Arguments Ok {A}. Arguments Err {A}.

Definition rbind {A B} (m : res A) (f : A -> res B) : res B :=
  match m with Ok a => f a | Err e => Err e end.
Notation "'do?' x <- m ;; k" := (rbind m (fun x => k))
  (at level 200, x pattern, m at level 100, k at level 200, right associativity).

Fixpoint rmap {A B} (f : A -> res B) (l : list A) : res (list B) :=
  match l with
  | [] => Ok []
  | x :: l' => do? y <- f x ;; do? ys <- rmap f l' ;; Ok (y :: ys)
  end.

Definition is_ok {A} (r : res A) : bool := match r with Ok _ => true | Err _ => false end.

(** ** Values

    What a term's [value] can hold: None, a str, an int, False (the default of
    several keyword arguments), or a reference to a term object (see
    Term.__setattr__ in Ops.v). *)
Inductive val := VNone | VStr (s : string) | VInt (z : Z) | VFalse | VRef (i : nat).

(** Python [==] on values (False == 0 holds in Python) *)
Definition veq (a b : val) : bool :=
  match a, b with
  | VNone, VNone => true
  | VStr s, VStr t => eqs s t
  | VInt z, VInt w => Z.eqb z w
  | VFalse, VFalse => true
  | VFalse, VInt z => Z.eqb z 0
  | VInt z, VFalse => Z.eqb z 0
  | VRef i, VRef j => Nat.eqb i j
  | _, _ => false
  end.

(** bool(v) *)
Definition truthy (v : val) : bool :=
  match v with
  | VNone => false | VStr s => nonempty s | VInt z => negb (Z.eqb z 0)
  | VFalse => false | VRef _ => true
  end.

(** terms.py:55-59 strip_if_str *)
Definition strip_val (v : val) : val :=
  match v with VStr s => VStr (strip s) | _ => v end.

(** terms.py:68  [strip_if_str(value) if value else None] *)
Definition init_val (v : val) : val := if truthy v then strip_val v else VNone.

(** a method call of str on a value: AttributeError when it is not a str *)
Definition as_str (v : val) : res string :=
  match v with VStr s => Ok s | _ => Err EAttr end.

(** str(v) for the values that are printed.  The repr of a term object is not
    modelled: it is left opaque. *)
Definition str_val (v : val) : string :=
  match v with
  | VNone => "None" | VStr s => s | VInt z => str_of_Z z | VFalse => "False"
  | VRef _ => "<term>"
  end.

(** ** Insertion-ordered dicts with str keys *)
Definition dict (A : Type) := list (string * A).

Fixpoint dget {A} (k : string) (d : dict A) : option A :=
  match d with
  | [] => None
  | (k', v) :: d' => if eqs k k' then Some v else dget k d'
  end.

Definition dmem {A} (k : string) (d : dict A) : bool :=
  match dget k d with Some _ => true | None => false end.

(** d[k] = v : replace in place, or append *)
Fixpoint dset {A} (k : string) (v : A) (d : dict A) : dict A :=
  match d with
  | [] => [(k, v)]
  | (k', v') :: d' => if eqs k k' then (k', v) :: d' else (k', v') :: dset k v d'
  end.

(** del d[k] (no KeyError: absent keys are left alone) *)
Fixpoint ddel {A} (k : string) (d : dict A) : dict A :=
  match d with
  | [] => []
  | (k', v') :: d' => if eqs k k' then d' else (k', v') :: ddel k d'
  end.

(** d.update(e) *)
Definition dupdate {A} (d e : dict A) : dict A :=
  fold_left (fun d kv => dset (fst kv) (snd kv) d) e d.

(** dict(pairs) *)
Definition dict_of {A} (l : list (string * A)) : dict A := dupdate [] l.

Definition dkeys {A} (d : dict A) : list string := map fst d.

(** [x in l] / l.remove(x) on lists of object references (identity) *)
Definition mem_id (i : nat) (l : list nat) : bool := existsb (Nat.eqb i) l.

Fixpoint remove_first (i : nat) (l : list nat) : list nat :=
  match l with
  | [] => []
  | j :: l' => if Nat.eqb i j then l' else j :: remove_first i l'
  end.

Definition mem_str (s : string) (l : list string) : bool := existsb (eqs s) l.

(** ** The monad *)
Section Monad.
  Context {S : Type}.
  Definition M (A : Type) := S -> S * res A.
  Definition ret {A} (a : A) : M A := fun s => (s, Ok a).
  Definition raise {A} (e : exn) : M A := fun s => (s, Err e).
  Definition bind {A B} (m : M A) (f : A -> M B) : M B :=
    fun s => match m s with
             | (s', Ok a) => f a s'
             | (s', Err e) => (s', Err e)
             end.
  Definition gets {A} (f : S -> A) : M A := fun s => (s, Ok (f s)).
  Definition modify (f : S -> S) : M unit := fun s => (f s, Ok tt).
  Definition lift {A} (r : res A) : M A := fun s => (s, r).
  (** a read-only computation that may raise *)
  Definition reads {A} (f : S -> res A) : M A := fun s => (s, f s).
  Definition when (b : bool) (m : M unit) : M unit := if b then m else ret tt.
  (** assert b *)
  Definition assert_ (b : bool) : M unit := if b then ret tt else raise EAssert.
  Fixpoint mapM_ {A} (f : A -> M unit) (l : list A) : M unit :=
    match l with
    | [] => ret tt
    | x :: l' => bind (f x) (fun _ => mapM_ f l')
    end.
End Monad.
Arguments M : clear implicits.

Notation "x <- m ;; k" := (bind m (fun x => k))
  (at level 100, m at next level, right associativity).
Notation "' p <- m ;; k" := (bind m (fun p => k))
  (at level 100, p pattern, m at next level, right associativity).
Notation "m ;;; k" := (bind m (fun _ => k))
  (at level 100, right associativity).
