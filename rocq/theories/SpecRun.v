(** * SpecRun: vocabulary for a job's worker and its component (C93) *)
From Coq Require Import List ZArith Bool.
From Verif Require Import Base Types Prog JobThreadModel DeviceModel SpecDevice RunModel.
Import ListNotations.

(** Data received by the last operation of the worker. *)
Definition received (h : list jev) : list nat :=
  match h with
  | Ev JData (Ok (DData l)) :: _ => l
  | Ev JStop (Ok (DData l)) :: _ => l
  | _ => []
  end.

(** The component is used by this job only, and every request is answered. *)
Definition undisturbed (l : rlabel) : Prop :=
  match l with RAsk _ | ROffline => False | _ => True end.

(** A component that is not used: nothing is executed, waits or is cached. *)
Definition at_rest (d : dev) : Prop :=
  can_reach d /\ d_main d = MIdle /\ d_queue d = [] /\ executing d = None /\ d_data d = [].
