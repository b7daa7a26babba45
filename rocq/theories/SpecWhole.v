(** * SpecWhole: vocabulary for the data of a whole job (C109) *)
From Coq Require Import List String ZArith Bool.
From Verif Require Import Base Types Prog JobThreadModel DeviceModel SpecDevice RunModel SpecRun IoModel WholeModel.
Import ListNotations.

(** The worker has ended; it has ended after its last task (a worker with two tasks or
    more then ends with AttributeError, see C59). *)
Definition ended (p : part) : Prop :=
  match r_pgm (pt_run p) with Op _ _ => False | _ => True end.
Definition through (p : part) : Prop :=
  r_pgm (pt_run p) = Ret tt \/ r_pgm (pt_run p) = Raise AttributeError.
(** No component is used by anybody else, and every request is answered. *)
Definition calm (l : wlabel) : Prop :=
  match l with LPart _ l => undisturbed l | _ => True end.
(** The folder of a job before its workers start: no data file. *)
Definition no_data (s : fsys) : Prop :=
  NoDup (dkeys (f_folder s)) /\ forall r, dget (f_folder s) (r ++ ".pkl") = None.
(** The data of a role in a result file. *)
Definition group_of (g : dict (list nat)) (r : string) : list nat :=
  match dget g r with Some l => l | None => [] end.
(** The points measured by the component of a worker. *)
Definition points (p : part) : list nat := measured (d_log (r_dev (pt_run p))).
