(** * SpecSetup: the columns the rest of tomato reads and writes (C74)

    Independent of the statements that create the tables (db.py). *)
From Coq Require Import List String.
Import ListNotations.
Open Scope string_scope.

(** Written by insert_job (jobdb.py:20-35); [id] is used by update_job_id and get_job_id
    (jobdb.py:48, 56).  They are the fields of [Job] (models.py). *)
Definition job_columns : list string :=
  ["id"; "jobname"; "payload"; "pid"; "status"; "submitted_at"; "launched_at"; "connected_at";
   "completed_at"; "jobpath"; "respath"; "snappath"].
(** Written by insert_pip (pipdb.py:19-22). *)
Definition pipeline_columns : list string := ["name"; "ready"; "jobid"; "sampleid"].
(** Written by insert_drv (drvdb.py:19-34). *)
Definition driver_columns : list string :=
  ["name"; "port"; "pid"; "version"; "spawn_time"; "spawn_count"; "heartbeat_time"].

(** The table has exactly these columns. *)
Definition exactly (cols used : list string) : Prop :=
  NoDup cols /\ forall c, In c cols <-> In c used.
