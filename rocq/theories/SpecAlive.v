(** * SpecAlive: vocabulary for managers that go on (C104) *)
From Coq Require Import List String Ascii ZArith Bool.
From Verif Require Import Base PyStr Types ConfigModel Prog World SysModel SpecSys SpecSys2.
Import ListNotations.

(** A devices file as it is after loading: pipelines are listed under their names, which
    have no apostrophe, and consist of components of the file. *)
Definition sound_file (df : devicefile) : Prop :=
  forall n p, In (n, p) (df_pipelines df) ->
    pp_name p = n /\ has_char "'"%char n = false /\
    forall cn, In cn (dvals (pp_components p)) -> dget (df_components df) cn <> None.

(** The daemon has the pipelines and components of [df] and drivers of the same names. *)
Definition same_file (df : devicefile) (s : sys) : Prop :=
  forall d, w_daemon (s_world s) = Some d ->
  df_pipelines (dm_df d) = df_pipelines df /\ df_components (dm_df d) = df_components df /\
  dkeys (df_drivers (dm_df d)) = dkeys (df_drivers df).

(** Every pipeline that holds a job is one of the file, and the job exists. *)
Definition rows_sound (df : devicefile) (w : world) : Prop :=
  forall p i, In p (w_pips w) -> p_jobid p = Some i ->
  In (p_name p) (dkeys (df_pipelines df)) /\ exists j, In j (w_jobs w) /\ j_id j = i.

(** What the environment owes manager [k] when it executes operation [o]. *)
Definition served (df : devicefile) (k : kind) (o : op) (w : world) : Prop :=
  match k, o with
  (* a driver that is looked up is recorded and has a port, and what listens there answers *)
  | KJobMgr, ODrvGet n | KPipMgr, ODrvGet n =>
      exists v p, get_drv (w_drvs w) n = Some v /\ dv_port v = Some p
  | KJobMgr, ODriver (Some p) c | KPipMgr, ODriver (Some p) c => w_driver w p c <> None
  (* a job that is started has no folder yet *)
  | KJobMgr, OMkdir dir => ~ In dir (w_dirs w)
  (* archives can be written, and jobs marked for termination have told where *)
  | KJobMgr, OArchive _ j => w_merge w (j_id j) = None
  | KJobMgr, OJobsWhere WPid => forall j, In j (w_jobs w) -> j_status j = Srd -> j_pid j <> None ->
      j_jobpath j <> None /\ j_respath j <> None
  (* the recorded drivers are those of the file *)
  | KDrvMgr, ODrvsAll => forall v, In v (w_drvs w) ->
      In (dv_name v) (dkeys (df_drivers df)) /\ has_char "'"%char (dv_name v) = false
  (* the status of a driver, if it answers at all, comes with the list of its components *)
  | KDrvMgr, ODriverT (Some p) CStatus => forall r, w_driver w p CStatus = Some r -> dr_ok r = true ->
      match dr_data r with DdNone | DdVal _ => False | _ => True end
  | _, _ => True
  end.

(** At every step of a manager it is served, and no process vanishes at the moment when a
    manager that has found it is about to look at its state. *)
Definition serving (df : devicefile) (l : label) (s : sys) : Prop :=
  match l with
  | LStep n => forall t o c, nth_error (s_threads s) n = Some t -> is_mgr (t_kind t) = true ->
      t_pgm t = Op o c -> served df (t_kind t) o (s_world s)
  | LProcEnd pid false => forall t c, In t (s_threads s) -> is_mgr (t_kind t) = true ->
      t_pgm t <> Op (OPidZombie pid) c
  | _ => True
  end.

(** A manager has ended in the middle of its work. *)
Definition broken (s : sys) (k : kind) (e : exn) : Prop :=
  is_mgr k = true /\ exists t, In t (s_threads s) /\ t_kind t = k /\ t_pgm t = Raise e /\
  (k = KDrvMgr -> t_done t = false).
