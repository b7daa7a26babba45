(** * SpecCharge: which part of tomato changes which record (C119) *)
From Coq Require Import List String ZArith.
From Verif Require Import Base PyStr Types World Replies CmdModel KetchupModel TomatoModel SysModel.
Import ListNotations.
Open Scope Z_scope.

(** ** Jobs: what each kind of thread may make of the record [j] *)

(** Only the status / only the time of the start / only the paths differ. *)
Definition with_status (j : job) (s : jstatus) : job :=
  mkJob (j_id j) (j_payload j) (j_jobname j) (j_pid j) s (j_submitted j) (j_launched j) (j_connected j)
    (j_completed j) (j_jobpath j) (j_respath j) (j_snappath j).
Definition with_launched (j : job) (t : Z) : job :=
  mkJob (j_id j) (j_payload j) (j_jobname j) (j_pid j) (j_status j) (j_submitted j) (Some t) (j_connected j)
    (j_completed j) (j_jobpath j) (j_respath j) (j_snappath j).
Definition with_paths (j : job) (p r n : string) : job :=
  mkJob (j_id j) (j_payload j) (j_jobname j) (j_pid j) (j_status j) (j_submitted j) (j_launched j) (j_connected j)
    (j_completed j) (Some p) (Some r) (Some n).
(** Connected: process, status and time; ended: status, time and, for the daemon, no process any more. *)
Definition with_process (j : job) (pid t : Z) : job :=
  mkJob (j_id j) (j_payload j) (j_jobname j) (Some pid) Sr (j_submitted j) (j_launched j) (Some t)
    (j_completed j) (j_jobpath j) (j_respath j) (j_snappath j).
Definition with_end (j : job) (s : jstatus) (pid : option Z) (t : Z) : job :=
  mkJob (j_id j) (j_payload j) (j_jobname j) pid s (j_submitted j) (j_launched j) (j_connected j)
    (Some t) (j_jobpath j) (j_respath j) (j_snappath j).

Definition job_change (k : kind) (j j' : job) : Prop :=
  match k with
  | KCmd => j' = with_status j Scd \/ j' = with_status j Srd
  | KJobMgr => j' = with_status j Sqw \/ (exists t, j' = with_launched j t) \/
      exists s t, (s = Scd \/ s = Sce) /\ j' = with_end j s None t
  | KJob pid a => j_id j = ja_jobid a /\
      ((exists t, j' = with_process j pid t) \/ (exists p r n, j' = with_paths j p r n) \/
       exists s t, (s = Sc \/ s = Sce) /\ j' = with_end j s (j_pid j) t)
  | _ => False
  end.
(** A new record: a queued job that nothing was done about. *)
Definition job_made (k : kind) (j : job) : Prop :=
  k = KCmd /\ j_status j = Sq /\ j_pid j = None /\ j_launched j = None /\ j_connected j = None /\
  j_completed j = None /\ j_jobpath j = None /\ j_respath j = None /\ j_snappath j = None.

(** ** Pipelines *)
Definition pip_change (k : kind) (p p' : pipstate) : Prop :=
  match k with
  | KCmd => (exists s, p' = mkPip (p_name p) false (p_jobid p) s) \/ p' = mkPip (p_name p) true (p_jobid p) (p_sample p)
  | KJobMgr => exists id, p' = mkPip (p_name p) false (Some id) (p_sample p)
  | KPipMgr => p' = mkPip (p_name p) false None (p_sample p)
  | KJob _ a => sql_lit (ja_pipeline a) = Some (p_name p) /\ exists b, p' = mkPip (p_name p) b None (p_sample p)
  | _ => False
  end.
Definition pip_made (k : kind) (p : pipstate) : Prop := k = KCmd /\ exists n, p = mkPip n false None None.

(** ** Drivers *)
Definition drv_change (k : kind) (d d' : drvstate) : Prop :=
  match k with
  | KDrvMgr => d' = mkDrv (dv_name d) None None None 0 0 0 \/
      (exists t, d' = mkDrv (dv_name d) (dv_port d) (dv_pid d) (dv_version d) (dv_spawn_time d) (dv_spawn_count d) t) \/
      exists t c, d' = mkDrv (dv_name d) (dv_port d) (dv_pid d) (dv_version d) t c (dv_heartbeat d)
  | KDriver n => sql_lit n = Some (dv_name d) /\
      exists port pid ver, d' = mkDrv (dv_name d) (Some port) (Some pid) (Some ver) (dv_spawn_time d) (dv_spawn_count d) 0
  | _ => False
  end.
Definition drv_made (k : kind) (d : drvstate) : Prop := k = KCmd /\ exists n, d = mkDrv n None None None 0 0 0.

(** [x] of a table after the step [l] was there before, or was added or changed by the thread that did the step. *)
Definition in_charge {A : Type} (tbl : world -> list A) (made : kind -> A -> Prop) (change : kind -> A -> A -> Prop)
    (l : label) (s s' : sys) : Prop :=
  forall x, In x (tbl (s_world s')) -> In x (tbl (s_world s)) \/
  exists n t, l = LStep n /\ nth_error (s_threads s) n = Some t /\
    (made (t_kind t) x \/ exists y, In y (tbl (s_world s)) /\ change (t_kind t) y x).
