(** * Base: exceptions as values, Python dictionaries and loops

    Definitions only.  Everything here models features of the Python language
    (or of its standard library) that the modelled functions in
    [/repo/src/tomato] rely on. *)
From Coq Require Import List String ZArith Bool Ascii.
Import ListNotations.

(** The exception classes the modelled code can raise.
    [Blocked] is not a Python exception: it marks a call that never returns
    (a [recv_pyobj] without timeout on a server that never answers, e.g.
    daemon/job.py:111, daemon/pip.py:78).
    [OutOfFuel] marks a Python loop that was cut off by the model's fuel.
    [SqlError] stands for sqlite3.OperationalError. *)
Inductive exn : Type :=
| AssertionError | KeyError | ValueError | TypeError | AttributeError
| RuntimeError | UnboundLocalError | ValidationError | ProgrammingError
| SqlError | IntegrityError | FileExistsError | FileNotFoundError | EOFError
| ZMQError | ZMQAgain | SystemExit | ParseError | IndexError
| DimensionalityError | OverflowError | NoSuchProcess | Blocked | OutOfFuel.

(** Result of a pure Python function that may raise. *)
Inductive res (A : Type) : Type :=
| Ok (a : A)
| Err (e : exn).
Arguments Ok {A} a.
Arguments Err {A} e.

Definition rbind {A B : Type} (x : res A) (f : A -> res B) : res B :=
  match x with Ok a => f a | Err e => Err e end.

(** [for a in l: s = f(s, a)] where the body may raise (which ends the loop). *)
Fixpoint foldM {S A : Type} (f : S -> A -> res S) (s : S) (l : list A) : res S :=
  match l with
  | [] => Ok s
  | a :: r => match f s a with Ok s' => foldM f s' r | Err e => Err e end
  end.

(** [x is not None] *)
Definition is_some {A : Type} (o : option A) : bool :=
  match o with Some _ => true | None => false end.
Definition is_none {A : Type} (o : option A) : bool := negb (is_some o).

(** Required key of a Python mapping: [d[k]] raises [KeyError] when absent. *)
Definition need {A : Type} (o : option A) : res A :=
  match o with Some a => Ok a | None => Err KeyError end.

(** ** Python dictionaries with string keys: insertion-ordered association lists. *)
Definition dict (V : Type) : Type := list (string * V).

(** [d.get(k)] *)
Fixpoint dget {V : Type} (d : dict V) (k : string) : option V :=
  match d with
  | [] => None
  | (k', v) :: r => if String.eqb k k' then Some v else dget r k
  end.

(** [k in d] *)
Definition dhas {V : Type} (d : dict V) (k : string) : bool := is_some (dget d k).

(** [d[k] = v]: replaces in place, or appends a new key at the end. *)
Fixpoint dset {V : Type} (d : dict V) (k : string) (v : V) : dict V :=
  match d with
  | [] => [(k, v)]
  | (k', v') :: r => if String.eqb k k' then (k, v) :: r else (k', v') :: dset r k v
  end.

(** [d.pop(k)] (the popped value is not used by the code). *)
Fixpoint ddel {V : Type} (d : dict V) (k : string) : dict V :=
  match d with
  | [] => []
  | (k', v) :: r => if String.eqb k k' then r else (k', v) :: ddel r k
  end.

(** [d.update(e)] *)
Definition dupdate {V : Type} (d e : dict V) : dict V :=
  fold_left (fun acc kv => dset acc (fst kv) (snd kv)) e d.

(** [d.keys()], [d.values()] in insertion order. *)
Definition dkeys {V : Type} (d : dict V) : list string := map fst d.
Definition dvals {V : Type} (d : dict V) : list V := map snd d.

(** [d == e] for dictionaries: same number of keys and same value under every
    key; insertion order is irrelevant in Python. *)
Definition dict_eqb {V : Type} (veq : V -> V -> bool) (d e : dict V) : bool :=
  Nat.eqb (List.length d) (List.length e) &&
  forallb (fun kv => match dget e (fst kv) with
                     | Some v => veq (snd kv) v
                     | None => false
                     end) d.

(** [set(l)] of strings, kept as the list of first occurrences.  Python leaves
    the iteration order of sets of strings unspecified (hash randomisation);
    no theorem depends on this order. *)
Fixpoint mem (x : string) (l : list string) : bool :=
  match l with [] => false | y :: r => String.eqb x y || mem x r end.
Fixpoint dedup_aux (seen l : list string) : list string :=
  match l with
  | [] => []
  | x :: r => if mem x seen then dedup_aux seen r else x :: dedup_aux (x :: seen) r
  end.
Definition set_of (l : list string) : list string := dedup_aux [] l.

(** [a.issubset(b)] *)
Definition subset (a b : list string) : bool := forallb (fun x => mem x b) a.

(** Membership for lists of integers ([x in l]). *)
Fixpoint memZ (x : Z) (l : list Z) : bool :=
  match l with [] => false | y :: r => Z.eqb x y || memZ x r end.

(** Equality of optional values. *)
Definition opt_eqb {A : Type} (eqb : A -> A -> bool) (a b : option A) : bool :=
  match a, b with
  | Some x, Some y => eqb x y
  | None, None => true
  | _, _ => false
  end.
