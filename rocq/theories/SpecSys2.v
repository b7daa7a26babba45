(** * SpecSys2: vocabulary for job processes and their pipelines *)
From Coq Require Import List String Ascii ZArith Bool.
From Verif Require Import Base PyStr Types ConfigModel Prog World PipModel SysModel SpecQueue SpecSys.
Import ListNotations.
Open Scope list_scope.
Open Scope Z_scope.

(** [P l s] holds at every step [l] of the execution, [s] being the state before. *)
Fixpoint each_step (P : label -> sys -> Prop) (ls : list label) (s : sys) : Prop :=
  match ls with
  | [] => True
  | l :: r => P l s /\ match step l s with Some s' => each_step P r s' | None => True end
  end.

(** The operating system lists [pid] as a process of job [ja_jobid a] that is not a zombie. *)
Definition listed (w : world) (pid : Z) (a : jobargs) : Prop :=
  get_proc (w_procs w) pid = Some (mkProc pid false (Some a)).

(** A job process has been started and has not ended yet. *)
Definition under_way (w : world) (a : jobargs) : Prop :=
  In a (w_spawned w) \/ exists pid, listed w pid a.

(** No job is marked for termination while its process exists. *)
Definition undisturbed (w : world) : Prop :=
  forall pid a j, listed w pid a -> In j (w_jobs w) -> j_id j = ja_jobid a -> j_status j <> Srd.

(** A started job connects within ten days. *)
Definition prompt (w : world) : Prop :=
  forall a j l, under_way w a -> In j (w_jobs w) -> j_id j = ja_jobid a ->
  j_connected j = None -> j_launched j = Some l -> w_now w - l <= ten_days.

(** While the pipeline manager is in the middle of an iteration the clock does not
    reach the tenth day after the launch of a job whose process is under way.  At
    all other times, and for all other jobs, the clock is free. *)
Definition steady (l : label) (s : sys) : Prop :=
  match l with
  | LTime now _ =>
      rests KPipMgr s \/
      forall a j t, under_way (s_world s) a -> In j (w_jobs (s_world s)) -> j_id j = ja_jobid a ->
      j_launched j = Some t -> now - t <= ten_days \/ ten_days < w_now (s_world s) - t
  | _ => True
  end.

(** The iterations of the job manager and of the pipeline manager do not overlap. *)
Definition managers_apart (s : sys) : Prop := rests KJobMgr s \/ rests KPipMgr s.

(** Waiting jobs have never had a process. *)
Definition waiting_new (w : world) : Prop :=
  forall j, In j (w_jobs w) -> waiting (j_status j) -> j_pid j = None /\ j_connected j = None.

(** Thread [n] is a job process that still uses its pipeline: it has an operation
    to do other than reading back the row of the pipeline, which is its last one
    after having released the pipeline (job.py:497, pipdb.py:32). *)
Definition uses (s : sys) (n : nat) (a : jobargs) : Prop :=
  exists t pid o c, nth_error (s_threads s) n = Some t /\ t_kind t = KJob pid a /\
    t_pgm t = Op o c /\ o <> OPipGet (ja_pipeline a).

(** An execution [ls] that leads to [s] from a fresh start of the system with world
    [w]: the folder of the jobs stays the same, no job is marked for termination
    while its process exists, processes connect in time and the clock is [steady]. *)
Definition ordinary (stg : string) (w : world) (ls : list label) (s : sys) : Prop :=
  w_log w = [] /\ w_spawned w = [] /\ wf_queue w /\ NoDup (map p_name (w_pips w)) /\
  (forall p, In p (w_procs w) -> pr_job p = None) /\ waiting_new w /\
  files_storage stg (w_files w) /\ Forall (keeps_storage stg) ls /\
  each_step steady ls (start_sys w) /\
  along (fun s => undisturbed (s_world s)) ls (start_sys w) /\
  along (fun s => prompt (s_world s)) ls (start_sys w) /\
  runs ls (start_sys w) = Some s.

(** Component [cn] is part of pipeline [n] in the devices file. *)
Definition part_of (df : devicefile) (n cn : string) : Prop :=
  exists p, dget (df_pipelines df) n = Some p /\ In cn (dvals (pp_components p)).
(** Request [c] asks a driver to reset component [cn]. *)
Definition reset_of (df : devicefile) (cn : string) (c : dcmd) : Prop :=
  exists cmp, dget (df_components df) cn = Some cmp /\ c = CReset (c_address cmp) (c_channel cmp).
(** No component is part of two pipelines. *)
Definition own_components (df : devicefile) : Prop :=
  forall n m cn, part_of df n cn -> part_of df m cn -> n = m.
(** The daemon has the pipelines and components of devices file [df]. *)
Definition configured (df : devicefile) (s : sys) : Prop :=
  forall d, w_daemon (s_world s) = Some d ->
  df_pipelines (dm_df d) = df_pipelines df /\ df_components (dm_df d) = df_components df.

(** A record says what its status promises: a process is only recorded together
    with the time it reported; a running job has a process; a job that ended by
    itself has reported and has an end time; a completed one also has its files. *)
Definition record_ok (j : job) : Prop :=
  (j_pid j <> None -> j_connected j <> None) /\
  (j_status j = Sr -> j_pid j <> None) /\
  (j_status j = Sc \/ j_status j = Sce -> j_connected j <> None /\ j_completed j <> None) /\
  (j_status j = Sc -> j_jobpath j <> None /\ j_respath j <> None /\ j_snappath j <> None).

(** ** Completed jobs *)

(** What a completed job can still be recorded as: a cancel that raced with the
    end of the job marks it for termination. *)
Definition past (s : jstatus) : Prop := s = Sc \/ s = Srd \/ s = Scd.
(** No process of job [i] is about to start, and those that exist do not write
    to the queue any more, whatever they read. *)
Definition no_update (o : op) : Prop := match o with OJobUpdate _ _ => False | _ => True end.
Definition wrote_last (i : Z) (s : sys) : Prop :=
  (forall a, In a (w_spawned (s_world s)) -> ja_jobid a <> i) /\
  (forall t pid a, In t (s_threads s) -> t_kind t = KJob pid a -> ja_jobid a = i -> all_ops no_update (t_pgm t)).
