(** * SpecTrig: start and stop triggers of tasks (C110, C111)

    Vocabulary for statements about a whole job process: what is observed of it in the
    order in which it happens. *)
From Coq Require Import List String Arith Bool.
From Verif Require Import Base Types Prog JobThreadModel SpecWorker.
Import ListNotations.

(** Something that happens in the job process: worker [i] does something, or the main
    thread does. *)
Inductive obs : Type := OWork (i : nat) (e : jev) | OMain (o : mop) (r : res (mresp o)).

(** [tsteps s tr s']: the job process gets from [s] to [s'], and [tr] happens. *)
Inductive tsteps (s : jsys) : list obs -> jsys -> Prop :=
| ts_nil : tsteps s [] s
| ts_worker : forall tr l m i k o kont r,
    tsteps s tr (mkJsys l m) ->
    nth_error l i = Some k -> k_prog k = Op o kont -> allowed k o r ->
    tsteps s (tr ++ [OWork i (Ev o r)]) (mkJsys (put_wk i (wk_after k o r (kont r)) l) m)
| ts_main : forall tr l l' o kont r,
    tsteps s tr (mkJsys l (Op o kont)) -> mexec l o r l' ->
    tsteps s (tr ++ [OMain o r]) (mkJsys l' (kont r)).

(** The main thread looks at the task of worker [j]; it tells worker [i] the names it knows. *)
Definition looks_at (x : obs) : option nat :=
  match x with OMain (MCurrent j) _ => Some j | _ => None end.
Definition tells (x : obs) : option nat :=
  match x with OMain (MPush i _) _ => Some i | _ => None end.

(** The task that worker [j] has turned to and not yet left, after [tr]. *)
Definition turn (j : nat) (x : obs) (cur : option task) : option task :=
  match x with
  | OWork i (Ev (JCurrent c) _) => if Nat.eqb i j then c else cur
  | _ => cur
  end.
Definition busy (j : nat) (tr : list obs) : option task := fold_left (fun c x => turn j x c) tr None.
Definition named (n : string) (t : option task) : Prop := exists t', t = Some t' /\ t_name t' = Some n.

(** The main thread has looked at a worker while that worker was on a task named [n]. *)
Definition looked (n : string) (tr : list obs) : Prop :=
  exists a x b j, tr = a ++ x :: b /\ looks_at x = Some j /\ named n (busy j a).
(** ... and has told worker [i] since. *)
Definition announced (i : nat) (n : string) (tr : list obs) : Prop :=
  exists a y b, tr = a ++ y :: b /\ tells y = Some i /\ looked n a.

(** Where a worker is with regard to triggers: over; or at the task [cur], holding for the
    name [hold], having to stop the task at once. *)
Inductive tstate : Type := Over | At (cur : option task) (hold : option string) (stop : bool).
Definition start_of (c : option task) : option string := match c with Some t => t_start_with t | None => None end.
Definition stop_of (c : option task) : option string := match c with Some t => t_stop_with t | None => None end.
(** What a worker may do, and where it is then.  Holding, it only looks at the names, until
    it sees the one it holds for; otherwise it looks at names only for the stop trigger of
    its task; it stops the task exactly if it has just seen that name. *)
Definition trig (s : tstate) (v : jview) : option tstate :=
  match s, v with
  | Over, _ => None
  | _, VFail => Some Over
  | At cur (Some n) _, VNames l => Some (At cur (if mem n l then None else Some n) false)
  | At cur (Some n) _, _ => None
  | At cur None true, VStop _ => Some (At cur None false)
  | At cur None true, _ => None
  | At cur None false, VNames l =>
      match stop_of cur with Some n => Some (At cur None (mem n l)) | None => None end
  | At cur None false, VStop _ => None
  | At cur None false, VCurrent c => Some (At c (start_of c) false)
  | At cur None false, VCrash => Some Over
  | At cur None false, _ => Some s
  end.
(** A worker only sends the task it is at. *)
Definition own (s : tstate) (v : jview) : Prop :=
  match v, s with VSend t _, At cur _ _ => cur = Some t | _, _ => True end.
(** Doing [l] takes a worker from [s] to [s']. *)
Fixpoint trigs (s : tstate) (l : list jview) (s' : tstate) : Prop :=
  match l with
  | [] => s' = s
  | v :: r => own s v /\ match trig s v with Some s1 => trigs s1 r s' | None => False end
  end.
(** A worker that starts. *)
Definition fresh : tstate := At None None false.
(** The worker holds for the name [n]. *)
Definition holding (n : string) (k : wkst) : Prop :=
  exists t, t_start_with t = Some n /\ trigs fresh (views (k_events k)) (At (Some t) (Some n) false).

(** The worker asks its component to start [t], or to stop what it does. *)
Definition starts (e : jev) : option task := match e with Ev (JSend t) _ => Some t | _ => None end.
Definition stops (e : jev) : bool := match e with Ev JStop _ => true | _ => false end.
(** Nobody is at a task named [n], and nobody who goes on has one. *)
Definition past (n : string) (s : jsys) : Prop :=
  forall k, In k (s_wk s) -> ~ named n (k_current k) /\
    ((forall o kont, k_prog k <> Op o kont) \/ forall t, In t (k_tasks k) -> t_name t <> Some n).
