(** * Prog: programs over atomic operations

    A Python function that touches shared state is modelled as a tree of atomic
    operations.  [op] is the type of operations and [resp o] the type of the
    value returned by operation [o]; an operation may also raise.  Definitions
    only.  Nothing here corresponds to particular lines of /repo: it models
    sequencing, exceptions and loops of the Python language. *)
From Coq Require Import List.
From Verif Require Import Base.
Import ListNotations.

Section Prog.
  Context {op : Type} {resp : op -> Type}.

  Inductive prog (A : Type) : Type :=
  | Ret (a : A)
  | Raise (e : exn)
  | Op (o : op) (k : res (resp o) -> prog A).
  Arguments Ret {A} a.
  Arguments Raise {A} e.
  Arguments Op {A} o k.

  (** Statement sequencing. *)
  Fixpoint bind {A B : Type} (p : prog A) (f : A -> prog B) : prog B :=
    match p with
    | Ret a => f a
    | Raise e => Raise e
    | Op o k => Op o (fun r => bind (k r) f)
    end.

  (** A single operation whose exception propagates. *)
  Definition do (o : op) : prog (resp o) :=
    Op o (fun r => match r with Ok x => Ret x | Err e => Raise e end).

  (** [try: p except e: h(e)]; [h e = None] means that [e] is not caught. *)
  Fixpoint catch {A : Type} (p : prog A) (h : exn -> option (prog A)) : prog A :=
    match p with
    | Ret a => Ret a
    | Raise e => match h e with Some q => q | None => Raise e end
    | Op o k => Op o (fun r => catch (k r) h)
    end.

  (** [for a in l: s = f(s, a)] *)
  Fixpoint forP {S A : Type} (f : S -> A -> prog S) (s : S) (l : list A) : prog S :=
    match l with
    | [] => Ret s
    | a :: r => bind (f s a) (fun s' => forP f s' r)
    end.

  (** [for a in l] with early exit: [inr x] leaves the loop with [x]. *)
  Fixpoint forB {S A R : Type} (f : S -> A -> prog (S + R)) (s : S) (l : list A)
    : prog (S + R) :=
    match l with
    | [] => Ret (inl s)
    | a :: r => bind (f s a) (fun x => match x with
                                       | inl s' => forB f s' r
                                       | inr y => Ret (inr y)
                                       end)
    end.

  (** [x] of a pure computation that may raise. *)
  Definition lift {A : Type} (x : res A) : prog A :=
    match x with Ok a => Ret a | Err e => Raise e end.

  (** [assert b] *)
  Definition assertP (b : bool) : prog unit :=
    if b then Ret tt else Raise AssertionError.

  (** Running a program without interference, given the meaning of the
      operations on a state [W]. *)
  Section Run.
    Context {W : Type} (exec : forall o : op, W -> res (resp o) * W).
    Fixpoint run {A : Type} (p : prog A) (w : W) : res A * W :=
      match p with
      | Ret a => (Ok a, w)
      | Raise e => (Err e, w)
      | Op o k => let (r, w') := exec o w in run (k r) w'
      end.
  End Run.

  (** Every operation that a program may ever issue satisfies [P], whatever
      answers it gets. *)
  Fixpoint all_ops {A : Type} (P : op -> Prop) (p : prog A) : Prop :=
    match p with
    | Ret _ => True
    | Raise _ => True
    | Op o k => P o /\ forall r, all_ops P (k r)
    end.

  (** Rely/guarantee: from state [w], whatever the environment does (allowed by
      [R]), the next operation satisfies the guarantee [G] in the state in which
      it is executed, and so on for the rest of the program. *)
  Section Ok.
    Context {W : Type} (exec : forall o : op, W -> res (resp o) * W).
    Context (R : W -> W -> Prop) (G : op -> W -> Prop).
    Fixpoint okp {A : Type} (p : prog A) (w : W) : Prop :=
      match p with
      | Ret _ => True
      | Raise _ => True
      | Op o k => forall w1, R w w1 -> G o w1 /\
                    (let (r, w2) := exec o w1 in okp (k r) w2)
      end.
  End Ok.
End Prog.
Arguments prog op resp A : clear implicits.
Arguments Ret {op resp A} a.
Arguments Raise {op resp A} e.
Arguments Op {op resp A} o k.

Declare Scope prog_scope.
Delimit Scope prog_scope with prog.
Notation "x <- p ;; q" := (bind p (fun x => q))
  (at level 61, p at next level, right associativity) : prog_scope.
Notation "p ;;; q" := (bind p (fun _ => q))
  (at level 61, right associativity) : prog_scope.
Notation "' pat <- p ;; q" := (bind p (fun x => match x with pat => q end))
  (at level 61, pat pattern, p at next level, right associativity) : prog_scope.
