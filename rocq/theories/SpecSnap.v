(** * SpecSnap: snapshots of a running job (C106, C107) *)
From Coq Require Import List String ZArith Bool.
From Verif Require Import Base Prog IoModel SnapModel JobThreadModel.
Import ListNotations.

(** ** What a snapshot contains (C107) *)

(** Every data file of the folder belongs to a role and holds the data [held] of it. *)
Definition holds (held : string -> option (list nat)) (s : fsys) : Prop :=
  NoDup (dkeys (f_folder s)) /\
  forall r, dget (f_folder s) (role_file r) = option_map (fun p => PValue (Some (mkDs (Some r) p))) (held r).
(** The data of a role after some batches have been stored. *)
Definition with_stores (h : option (list nat)) (done : list (list nat)) : option (list nat) :=
  match done with
  | [] => h
  | _ => Some (match h with Some p => p | None => [] end ++ List.concat done)%list
  end.
(** The batches of a role. *)
Definition batches (ws : list (string * list (list nat))) (r : string) : list (list nat) :=
  match find (fun rb => String.eqb (fst rb) r) ws with Some rb => snd rb | None => [] end.
(** [pts] is the data of the role at some moment: after some of its batches, in order. *)
Definition moment (ws : list (string * list (list nat))) (held : string -> option (list nat))
    (r : string) (pts : list nat) : Prop :=
  exists done todo, batches ws r = (done ++ todo)%list /\ with_stores (held r) done = Some pts.

(** ** When snapshots are made (C106) *)
Open Scope Z_scope.

(** What the main thread of a job does: an operation and its outcome. *)
Inductive mev : Type := MEv (o : mop) (r : res (mresp o)).
(** [mleads p l q]: with the events [l] the program [p] gets to the program [q]. *)
Fixpoint mleads {A : Type} (p : mpgm A) (l : list mev) (q : mpgm A) : Prop :=
  match p with
  | Op o k => (l = [] /\ q = Op o k) \/ exists r l', l = MEv o r :: l' /\ mleads (k r) l' q
  | Ret a => l = [] /\ q = Ret a
  | Raise e => l = [] /\ q = Raise e
  end.
(** Readings of the clock, and snapshots: made, or failed. *)
Inductive tick : Type := TClock (z : Z) | TSnap (made : bool).
Definition tick_of (e : mev) : list tick :=
  match e with
  | MEv o r =>
      match o as o' return res (mresp o') -> list tick with
      | MClock => fun r => match r with Ok z => [TClock z] | Err _ => [] end
      | MSnapshot => fun r => [TSnap (match r with Ok _ => true | Err _ => false end)]
      | _ => fun _ => []
      end r
  end.
Definition ticks (l : list mev) : list tick := flat_map tick_of l.
(** The number of snapshots, and the times they were made. *)
Fixpoint snaps (l : list tick) : Z :=
  match l with [] => 0 | TSnap _ :: r => 1 + snaps r | TClock _ :: r => snaps r end.
(** No two consecutive readings are more than [g] apart, the first being at most [g] after [z]. *)
Fixpoint brisk (g z : Z) (l : list tick) : Prop :=
  match l with [] => True | TSnap _ :: r => brisk g z r | TClock z' :: r => z' - z <= g /\ brisk g z' r end.
