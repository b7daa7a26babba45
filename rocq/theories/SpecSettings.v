(** * SpecSettings: the settings of a driver and the requests tomato sends to it (C125) *)
From Coq Require Import List String ZArith Bool.
From Verif Require Import Base Types World AttrModel IfaceModel WireModel PassataModel ByHandModel.
Import ListNotations.
Open Scope string_scope.
Open Scope Z_scope.

(** The interval between idle measurements in the settings of a driver (driver.py:222-223):
    [None] if they do not have one that is a whole number. *)
Definition interval_in (l : dict sval) : option (option Z) :=
  match dget l "idle_measurement_interval" with Some (SvInt n) => Some (Some n) | _ => None end.

(** The requests of a job process (daemon/job.py:557, 576, 583, 630, 644, 672, 688, 704). *)
Definition job_requests : list string :=
  ["task_start"; "task_status"; "task_data"; "task_stop"; "cmp_reset"].
(** The requests of the commands of passata (passata/__init__.py:96, 121, 149, 177, 205, 237,
    282, 316, 344, 372). *)
Definition hand_requests : list string :=
  ["cmp_status"; "cmp_register"; "cmp_attrs"; "cmp_capabilities"; "cmp_constants"; "cmp_get_attr";
   "cmp_set_attr"; "cmp_reset"; "cmp_last_data"; "cmp_measure"].

(** What a driver process is sent by tomato: the managers of the daemon, a job process, the
    commands of passata.  The request "settings", which a driver understands
    (driver.py:277-282), is sent nowhere in /repo/src. *)
Definition of_tomato (q : dreq) : Prop :=
  (exists c, q = message c) \/
  (exists name p, In name job_requests /\ q = mkReq (Some name) p) \/
  (exists r, In (q_cmd r) hand_requests /\ q = as_message r).
Definition only_tomato (l : list turn_in) : Prop :=
  forall i q, In i l -> ti_req i = Some q -> of_tomato q.
