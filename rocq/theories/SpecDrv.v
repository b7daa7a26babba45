(** * SpecDrv: vocabulary for the driver manager *)
From Coq Require Import List String Ascii ZArith Bool.
From Verif Require Import Base PyStr Types ConfigModel Prog World Replies SysModel SpecSys.
Import ListNotations.
Open Scope Z_scope.

(** Data that has a length (a dictionary or list). *)
Definition sized (d : ddata) : Prop := match d with DdNone | DdVal _ => False | _ => True end.
Definition no_entries (d : ddata) : Prop := d = DdCaps [] \/ d = DdDict 0.

(** The driver is configured. *)
Definition configured (dm : daemon) (d : drvstate) : Prop := In (dv_name d) (dkeys (df_drivers (dm_df dm))).

(** A successful answer to a status request carries a dictionary. *)
Definition proper (w : world) (d : drvstate) : Prop :=
  plain (dv_name d) /\
  forall p r, dv_port d = Some p -> w_driver w p CStatus = Some r -> dr_ok r = true -> sized (dr_data r).

(** The driver at port [p] answers: status requests, and the request to
    register its components that follows an empty status. *)
Definition answering (w : world) (p : Z) : Prop :=
  exists r, w_driver w p CStatus = Some r /\
    (dr_ok r = true -> no_entries (dr_data r) -> w_driver w p CRegister <> None).

(** At time [t] the last contact is more than five seconds ago. *)
Definition check_due (t : Z) (d : drvstate) : Prop :=
  t - dv_heartbeat d > 5000000 \/ (dv_heartbeat d = 0 /\ t - dv_spawn_time d > 5000000).
Definition start_due (t : Z) (d : drvstate) : Prop :=
  dv_port d = None /\ t - dv_spawn_time d > 5000000 /\ dv_spawn_count d < 3.

(** If driver [d] is asked for its status now and answers with success, the answer carries a dictionary. *)
Definition decent (w : world) (d : drvstate) : Prop :=
  forall p r, dv_port d = Some p -> check_due (w_perf w) d -> w_driver w p CStatus = Some r -> dr_ok r = true ->
  sized (dr_data r).

(** What one pass makes of the record [d]. *)
Inductive pass_row (w : world) (d : drvstate) : drvstate -> Prop :=
| RowAlive p : dv_port d = Some p -> check_due (w_perf w) d -> answering w p ->
    pass_row w d (mkDrv (dv_name d) (dv_port d) (dv_pid d) (dv_version d) (dv_spawn_time d)
                    (dv_spawn_count d) (w_perf w))
| RowDead p : dv_port d = Some p -> check_due (w_perf w) d -> ~ answering w p ->
    pass_row w d (mkDrv (dv_name d) None None None 0 0 0)
| RowRecent p : dv_port d = Some p -> ~ check_due (w_perf w) d -> pass_row w d d
| RowStarted : start_due (w_perf w) d ->
    pass_row w d (mkDrv (dv_name d) (dv_port d) (dv_pid d) (dv_version d) (w_perf w)
                    (dv_spawn_count d + 1) (dv_heartbeat d))
| RowWaiting : dv_port d = None -> ~ start_due (w_perf w) d -> pass_row w d d.
