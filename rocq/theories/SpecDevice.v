(** * SpecDevice: what the history of a component must look like (C52 to C57)

    The functions below read a log, latest event first. *)
From Coq Require Import List ZArith Bool.
From Verif Require Import DeviceModel.
Import ListNotations.
Open Scope Z_scope.

(** The component can get into state [s] with some schedule and requests. *)
Definition can_reach (s : dev) : Prop := exists l, dsteps l dev_new = Some s.

(** First come, first served: an item is only ever taken from the front of those that
    were accepted and not yet taken; a reset discards the waiting ones.  [None] when
    the history violates this, otherwise the items still waiting. *)
Fixpoint waiting (l : list dev_event) : option (list qitem) :=
  match l with
  | [] => Some []
  | LAccept it :: r => match waiting r with Some w => Some (w ++ [it]) | None => None end
  | LBegin it :: r =>
      match waiting r with
      | Some (it' :: w) => if Nat.eqb (q_id it) (q_id it') then Some w else None
      | _ => None
      end
  | LReset :: r => match waiting r with Some _ => Some [] | None => None end
  | _ :: r => waiting r
  end.

(** One at a time: an item is begun only when no other is being worked on.  [None] when
    the history violates this, otherwise the item being worked on. *)
Fixpoint busy (l : list dev_event) : option (option qitem) :=
  match l with
  | [] => Some None
  | LBegin it :: r => match busy r with Some None => Some (Some it) | _ => None end
  | LFinish it :: r =>
      match busy r with
      | Some (Some it') => if Nat.eqb (q_id it) (q_id it') then Some None else None
      | _ => None
      end
  | _ :: r => busy r
  end.

(** Numbers of the items begun, in order. *)
Fixpoint begun (l : list dev_event) : list nat :=
  match l with
  | [] => []
  | LBegin it :: r => begun r ++ [q_id it]
  | _ :: r => begun r
  end.
(** Numbers of the items accepted, in order. *)
Fixpoint accepted (l : list dev_event) : list nat :=
  match l with
  | [] => []
  | LAccept it :: r => accepted r ++ [q_id it]
  | _ :: r => accepted r
  end.

(** [a] is [b] with some elements left out. *)
Inductive leaves_out {A : Type} : list A -> list A -> Prop :=
| lo_nil : leaves_out [] []
| lo_keep : forall x a b, leaves_out a b -> leaves_out (x :: a) (x :: b)
| lo_skip : forall x a b, leaves_out a b -> leaves_out a (x :: b).

(** The points measured by tasks, in order. *)
Fixpoint measured (l : list dev_event) : list nat :=
  match l with
  | [] => []
  | LPoint p :: r => measured r ++ [p]
  | _ :: r => measured r
  end.
(** The points returned, or lost at the start of a task or by a reset, in order. *)
Fixpoint settled (l : list dev_event) : list nat :=
  match l with
  | [] => []
  | LReturn d :: r | LDrop d :: r | LLost d :: r => settled r ++ d
  | _ :: r => settled r
  end.
(** The points returned, in order. *)
Fixpoint returned (l : list dev_event) : list nat :=
  match l with
  | [] => []
  | LReturn d :: r => returned r ++ d
  | _ :: r => returned r
  end.

(** The points still to be returned or lost: those of a data request under way, those
    cached, and the one being stored. *)
Definition outstanding (s : dev) : list nat :=
  (match d_main s with MClear l => l | MUnlock l => l | _ => [] end)
  ++ (if d_taken s then [] else d_data s)
  ++ (match d_worker s with WAppend _ _ _ _ _ => match d_last s with Some p => [p] | None => [] end | _ => [] end).

(** The worker is executing the item [it], from taking it to being done with it. *)
Definition executing (s : dev) : option qitem :=
  match d_worker s with
  | WTop | WGet | WEnd => None
  | WQuit o => o
  | WGot it | WClear it | WKind it | WArm it | WStart it | WDrop it _ | WLoop it _ _ _
  | WTime it _ _ _ | WDue it _ _ _ _ | WLock it _ _ _ _ | WMeasure it _ _ _ _
  | WAppend it _ _ _ _ | WUnlock it _ _ _ _ | WNext it _ _ _ _ | WOver it _ _ _ _
  | WStop it | WOnce it | WFree it | WFail it => Some it
  end.

(** The worker is in the measuring loop of [it]: it has been told to run. *)
Definition in_loop (s : dev) (it : qitem) : Prop :=
  match d_worker s with
  | WStart i | WDrop i _ | WLoop i _ _ _ | WTime i _ _ _ | WDue i _ _ _ _ | WLock i _ _ _ _
  | WMeasure i _ _ _ _ | WAppend i _ _ _ _ | WUnlock i _ _ _ _ | WNext i _ _ _ _
  | WOver i _ _ _ _ | WStop i | WFree i => i = it
  | _ => False
  end.

(** Number of measurements of task [it] in a piece of history. *)
Fixpoint count_meas (it : qitem) (l : list dev_event) : nat :=
  match l with
  | [] => 0
  | LMeas i _ _ _ :: r => if Nat.eqb (q_id i) (q_id it) then S (count_meas it r) else count_meas it r
  | _ :: r => count_meas it r
  end.

(** Sampling: the measurements of a task are counted from 1; the n-th is made with a
    clock reading more than n sampling intervals after the start; and it is only made
    if no earlier measurement of the task was already past the maximum duration. *)
Fixpoint sampled (l : list dev_event) : Prop :=
  match l with
  | [] => True
  | LMeas it n t0 tn :: r =>
      n = S (count_meas it r)
      /\ (exists si du, q_kind it = KTask si du
          /\ Z.of_nat n * si < tn - t0
          /\ (forall n' t0' tn', In (LMeas it n' t0' tn') r -> t0' = t0 /\ tn' - t0 <= du))
      /\ sampled r
  | _ :: r => sampled r
  end.

(** The events since a one-off measurement last found [running] false. *)
Fixpoint since_ask (l : list dev_event) : list dev_event :=
  match l with
  | [] => []
  | LAsk :: _ => []
  | e :: r => e :: since_ask r
  end.

(** The item is a task, not a one-off measurement. *)
Definition is_task (it : qitem) : bool := match q_kind it with KTask _ _ => true | KOnce => false end.

(** Moves of the worker thread in a schedule. *)
Fixpoint work (l : list move) : nat :=
  match l with [] => 0 | Work _ _ :: r => S (work r) | _ :: r => work r end.

(** Idle and empty. *)
Definition idle_empty (s : dev) : Prop :=
  d_running s = None /\ d_queue s = [] /\ d_data s = [] /\ executing s = None.

(** ** Accepted tasks are executed (C87) *)

(** The schedule contains no request to reset the component. *)
Definition no_reset (l : list move) : Prop := forall b, ~ In (Ask (AReset b)) l.
(** The driver's own code does not raise, and no reset leaves the component without worker. *)
Definition calm (l : list move) : Prop :=
  (forall c, ~ In (Work c true) l) /\ ~ In (Ask (AReset false)) l.
(** Steps of the worker thread only, without failures. *)
Definition worker_only (l : list move) : Prop := forall m, In m l -> exists c, m = Work c false.
(** Answers to status requests, oldest first. *)
Fixpoint statuses (l : list dev_event) : list bool :=
  match l with
  | [] => []
  | LStatus b :: r => statuses r ++ [b]
  | _ :: r => statuses r
  end.

(** ** Status (C94) *)

(** The item announced as running, according to the history. *)
Fixpoint announced (l : list dev_event) : option qitem :=
  match l with
  | [] => None
  | LShow it :: _ => Some it
  | LFinish _ :: _ => None
  | _ :: r => announced r
  end.
(** Every status request was answered with "running" exactly when an item had been
    announced and was not finished. *)
Fixpoint told (l : list dev_event) : Prop :=
  match l with
  | [] => True
  | LStatus b :: r => (b = true <-> exists it, announced r = Some it) /\ told r
  | _ :: r => told r
  end.

(** ** Resetting (C105) *)

(** Whether the last completed reset let the component go on. *)
Fixpoint last_restart (l : list dev_event) : option bool :=
  match l with
  | [] => None
  | LRestart b :: _ => Some b
  | _ :: r => last_restart r
  end.
(** Something is done, or said to be done. *)
Definition activity (e : dev_event) : Prop :=
  match e with
  | LBegin _ | LShow _ | LMeas _ _ _ _ | LPoint _ | LOnce _ | LFinish _ | LDrop _ | LStatus true => True
  | _ => False
  end.
