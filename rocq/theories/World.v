(** * World: the shared state and its atomic operations

    The state shared by the processes and threads of tomato and the atomic
    operations on it: committed SQL transactions (daemon/jobdb.py, pipdb.py,
    drvdb.py on the tables created by daemon/db.py:73-112), requests to the
    daemon and to the drivers, file-system and process operations, clock
    readings.  Definitions only.

    Simplifications that apply to the whole file:
    - one database file; every SQL transaction is atomic and succeeds (a locked
      database, which raises after a time-out, is not represented) except for
      the malformed statements mentioned at the operations;
    - the state of the daemon process is accessed directly by the code that the
      daemon runs on behalf of a request; the request/reply exchange itself is
      in DaemonModel. *)
From Coq Require Import List String ZArith Bool.
From Verif Require Import Base PyStr Types ConfigModel Prog.
Import ListNotations.
Open Scope string_scope.
Open Scope Z_scope.

(** ** Requests to driver processes and their replies *)

(** The requests sent by the modelled clients (daemon/job.py:70-73,110;
    daemon/pip.py:77; daemon/driver.py:125,376,380; passata/__init__.py). *)
Inductive dcmd : Type :=
| CCapabilities (addr ch : string)
| CValidate (t : task) (addr ch : string)
| CReset (addr ch : string)
| CCmpStatus (addr ch : string)
| CRegisterCmp (addr ch : string)
| CAttrs (addr ch : string)
| CConstants (addr ch : string)
| CGetAttr (attr addr ch : string)
| CSetAttr (attr : string) (v : pyval) (addr ch : string)
| CLastData (addr ch : string)
| CMeasure (addr ch : string)
| CStatus
| CRegister
| CStop.

(** The part of [Reply.data] that the clients look at. *)
Inductive ddata : Type :=
| DdNone
| DdCaps (l : list string)        (* a set of technique names *)
| DdRunning (b : bool)            (* {"running": b, ...} *)
| DdDict (n : nat)                (* a dictionary with n entries *)
| DdVal (v : pyval).

Record dreply : Type := mkDReply { dr_ok : bool; dr_data : ddata }.

(** ** The world *)

(** Contents of jobdata.json (daemon/job.py:279-284); a job directory
    [storage/str(jobid)] is represented by the pair. *)
Definition jobdir : Type := (string * Z)%type.
Record jobargs : Type := mkArgs {
  ja_pipeline : string;
  ja_payload : payload;
  ja_repos : list string;
  ja_jobid : Z;
  ja_dir : jobdir
}.

(** A process known to the operating system; [pr_job] is set for the
    tomato-job processes started by the daemon. *)
Record proc : Type := mkProc { pr_pid : Z; pr_zombie : bool; pr_job : option jobargs }.

(** Observable effects that leave no trace in the tables. *)
Inductive event : Type :=
| EvSpawn (a : jobargs)                       (* a tomato-job process was started *)
| EvSpawnDriver (name : string) (t : Z)       (* a tomato-driver process was started *)
| EvArchive (path : string) (j : job)         (* an archive was written, with [j] as its attribute tomato_Job (io.py:37-41) *)
| EvRequest (port : Z) (c : dcmd).            (* a request was sent to a driver *)

Record world : Type := mkWorld {
  w_jobs : list job;              (* table queue, in id order *)
  w_seq : Z;                      (* largest id ever used (AUTOINCREMENT) *)
  w_pips : list pipstate;         (* table pipelines, in insertion order *)
  w_drvs : list drvstate;         (* table drivers, in insertion order *)
  w_daemon : option daemon;       (* state of the daemon process, None: not running *)
  w_files : cfgfiles;             (* settings.toml and devices files *)
  w_dirs : list jobdir;           (* existing job directories *)
  w_jobdata : list (jobdir * jobargs);  (* jobdata.json files *)
  w_spawned : list jobargs;       (* started tomato-job processes that did not run yet *)
  w_procs : list proc;            (* processes *)
  w_driver : Z -> dcmd -> option dreply; (* answer of the driver on a port, None: no answer *)
  w_main : Z -> res bool;         (* outcome of job_main_loop: Ok true is None, Ok false is 1 *)
  w_merge : Z -> option exn;      (* failure of writing an archive of a job *)
  w_crate : Z -> option exn;      (* failure of to_rocrate for a job *)
  w_outdir : string -> option exn;(* failure of checking/creating an output folder *)
  w_now : Z;                      (* datetime.now(timezone.utc), microseconds *)
  w_perf : Z;                     (* time.perf_counter(), microseconds *)
  w_log : list event              (* effects, latest first *)
}.

(** ** Column updates ([UPDATE ... SET k = v] for each item of [params]) *)
Inductive jcol : Type :=
| JPayload (p : payload) | JJobname (n : option string) | JSubmitted (t : Z)
| JPid (p : option Z) | JStatus (s : jstatus)
| JLaunched (t : option Z) | JConnected (t : option Z) | JCompleted (t : option Z)
| JJobpath (s : option string) | JRespath (s : option string) | JSnappath (s : option string).
Inductive pcol : Type := PReady (b : bool) | PJobid (j : option Z) | PSample (s : option string).
Inductive dcol : Type :=
| DPort (p : option Z) | DPid (p : option Z) | DVersion (v : option string)
| DSpawnTime (t : Z) | DSpawnCount (n : Z) | DHeartbeat (t : Z).

Definition set_jcol (j : job) (c : jcol) : job :=
  match c with
  | JPayload p => mkJob (j_id j) p (j_jobname j) (j_pid j) (j_status j) (j_submitted j) (j_launched j) (j_connected j) (j_completed j) (j_jobpath j) (j_respath j) (j_snappath j)
  | JJobname n => mkJob (j_id j) (j_payload j) n (j_pid j) (j_status j) (j_submitted j) (j_launched j) (j_connected j) (j_completed j) (j_jobpath j) (j_respath j) (j_snappath j)
  | JSubmitted t => mkJob (j_id j) (j_payload j) (j_jobname j) (j_pid j) (j_status j) t (j_launched j) (j_connected j) (j_completed j) (j_jobpath j) (j_respath j) (j_snappath j)
  | JPid p => mkJob (j_id j) (j_payload j) (j_jobname j) p (j_status j) (j_submitted j) (j_launched j) (j_connected j) (j_completed j) (j_jobpath j) (j_respath j) (j_snappath j)
  | JStatus s => mkJob (j_id j) (j_payload j) (j_jobname j) (j_pid j) s (j_submitted j) (j_launched j) (j_connected j) (j_completed j) (j_jobpath j) (j_respath j) (j_snappath j)
  | JLaunched t => mkJob (j_id j) (j_payload j) (j_jobname j) (j_pid j) (j_status j) (j_submitted j) t (j_connected j) (j_completed j) (j_jobpath j) (j_respath j) (j_snappath j)
  | JConnected t => mkJob (j_id j) (j_payload j) (j_jobname j) (j_pid j) (j_status j) (j_submitted j) (j_launched j) t (j_completed j) (j_jobpath j) (j_respath j) (j_snappath j)
  | JCompleted t => mkJob (j_id j) (j_payload j) (j_jobname j) (j_pid j) (j_status j) (j_submitted j) (j_launched j) (j_connected j) t (j_jobpath j) (j_respath j) (j_snappath j)
  | JJobpath s => mkJob (j_id j) (j_payload j) (j_jobname j) (j_pid j) (j_status j) (j_submitted j) (j_launched j) (j_connected j) (j_completed j) s (j_respath j) (j_snappath j)
  | JRespath s => mkJob (j_id j) (j_payload j) (j_jobname j) (j_pid j) (j_status j) (j_submitted j) (j_launched j) (j_connected j) (j_completed j) (j_jobpath j) s (j_snappath j)
  | JSnappath s => mkJob (j_id j) (j_payload j) (j_jobname j) (j_pid j) (j_status j) (j_submitted j) (j_launched j) (j_connected j) (j_completed j) (j_jobpath j) (j_respath j) s
  end.

Definition set_pcol (p : pipstate) (c : pcol) : pipstate :=
  match c with
  | PReady b => mkPip (p_name p) b (p_jobid p) (p_sample p)
  | PJobid j => mkPip (p_name p) (p_ready p) j (p_sample p)
  | PSample s => mkPip (p_name p) (p_ready p) (p_jobid p) s
  end.

Definition set_dcol (d : drvstate) (c : dcol) : drvstate :=
  match c with
  | DPort p => mkDrv (dv_name d) p (dv_pid d) (dv_version d) (dv_spawn_time d) (dv_spawn_count d) (dv_heartbeat d)
  | DPid p => mkDrv (dv_name d) (dv_port d) p (dv_version d) (dv_spawn_time d) (dv_spawn_count d) (dv_heartbeat d)
  | DVersion v => mkDrv (dv_name d) (dv_port d) (dv_pid d) v (dv_spawn_time d) (dv_spawn_count d) (dv_heartbeat d)
  | DSpawnTime t => mkDrv (dv_name d) (dv_port d) (dv_pid d) (dv_version d) t (dv_spawn_count d) (dv_heartbeat d)
  | DSpawnCount n => mkDrv (dv_name d) (dv_port d) (dv_pid d) (dv_version d) (dv_spawn_time d) n (dv_heartbeat d)
  | DHeartbeat t => mkDrv (dv_name d) (dv_port d) (dv_pid d) (dv_version d) (dv_spawn_time d) (dv_spawn_count d) t
  end.

Definition set_jcols (cs : list jcol) (j : job) : job := fold_left set_jcol cs j.
Definition set_pcols (cs : list pcol) (p : pipstate) : pipstate := fold_left set_pcol cs p.
Definition set_dcols (cs : list dcol) (d : drvstate) : drvstate := fold_left set_dcol cs d.

(** [UPDATE ... WHERE id = i] / [WHERE name = 'n'] (jobdb.py:47-48,
    pipdb.py:29-30, drvdb.py:39-40): all matching rows, in place. *)
Definition upd_jobs (id : Z) (cs : list jcol) (l : list job) : list job :=
  map (fun j => if Z.eqb (j_id j) id then set_jcols cs j else j) l.
Definition upd_pips (n : string) (cs : list pcol) (l : list pipstate) : list pipstate :=
  map (fun p => if String.eqb (p_name p) n then set_pcols cs p else p) l.
Definition upd_drvs (n : string) (cs : list dcol) (l : list drvstate) : list drvstate :=
  map (fun d => if String.eqb (dv_name d) n then set_dcols cs d else d) l.

(** [SELECT * FROM ... WHERE id = ?] / [name = ?], [fetchone()]. *)
Definition get_job (l : list job) (id : Z) : option job :=
  find (fun j => Z.eqb (j_id j) id) l.
Definition get_pip (l : list pipstate) (n : string) : option pipstate :=
  find (fun p => String.eqb (p_name p) n) l.
Definition get_drv (l : list drvstate) (n : string) : option drvstate :=
  find (fun d => String.eqb (dv_name d) n) l.

(** The [where] clauses of [get_jobs_where] (ketchup/__init__.py:171,175,238,293,338;
    daemon/job.py:159,220).  [WLike t] is [jobname LIKE '%t%']. *)
Inductive jwhere : Type :=
| WAll | WIds (l : list Z) | WLike (t : string) | WPid | WQueued.

(** Rows selected by a condition, in table order.  A NULL name never matches.
    A stray quote in the text of [WLike] makes the statement invalid. *)
Definition jobs_where (c : jwhere) (l : list job) : res (list job) :=
  match c with
  | WAll => Ok l
  | WIds ids => Ok (filter (fun j => memZ (j_id j) ids) l)
  | WLike t =>
      match sql_lit t with
      | None => Err SqlError
      | Some t' =>
          Ok (filter (fun j => match j_jobname j with
                               | Some n => like ("%" ++ t' ++ "%") n
                               | None => false
                               end) l)
      end
  | WPid => Ok (filter (fun j => is_some (j_pid j)) l)
  | WQueued => Ok (filter (fun j => match j_status j with Sq | Sqw => true | _ => false end) l)
  end.

(** ** Operations *)
Inductive op : Type :=
(* jobdb.py *)
| OJobInsert (j : job)                 (* lines 20-38; the id of [j] is ignored *)
| OJobIdAt (t : Z)                     (* line 39-40: id of the first row submitted at t *)
| OJobUpdate (id : Z) (cs : list jcol) (* lines 46-50 *)
| OJobGet (id : Z)                     (* lines 54-61 *)
| OJobsWhere (c : jwhere)              (* lines 64-73 *)
(* pipdb.py *)
| OPipInsert (p : pipstate)            (* lines 17-23 *)
| OPipUpdate (n : string) (cs : list pcol) (* lines 27-32 *)
| OPipGet (n : string)                 (* lines 36-45 *)
| OPipsWhere (busy : bool)             (* lines 48-57; jobid IS NOT NULL / IS NULL *)
(* drvdb.py *)
| ODrvInsert (d : drvstate)            (* lines 17-33 *)
| ODrvUpdate (n : string) (cs : list dcol) (* lines 37-42 *)
| ODrvGet (n : string)                 (* lines 46-55 *)
| ODrvsAll                             (* lines 58-67 with name IS NOT NULL *)
| ODrvDel (n : string)                 (* lines 70-75 *)
(* the daemon process *)
| ODmGet                               (* cmd "status"; None: no answer in time *)
| ODmBind (d : daemon)                 (* the bootstrapped daemon starts listening, daemon/__init__.py:58-59 *)
| ODmSetStatus (s : dstatus)           (* daemon.status = s  (cmd.py:41) *)
| ODmSetConfig (st : settings) (df : devicefile) (* cmd.py:152-153 *)
(* file system *)
| OReadSettings                        (* toml.load(appdir / "settings.toml") *)
| OReadDevices (path : string)         (* the parsed devices file *)
| OMkdir (d : jobdir)                  (* os.makedirs(root), job.py:271 *)
| OWriteJobdata (d : jobdir) (a : jobargs) (* job.py:285-286 *)
| OArchive (path : string) (j : job)   (* merge_netcdfs, after its assertions *)
| OCrate (j : job)                     (* to_rocrate, job.py:484-489 *)
| OOutdir (path : string)              (* job.py:451-455 *)
(* processes *)
| OSpawnJob (a : jobargs)              (* job.py:305-310 *)
| OSpawnDriver (n : string) (t : Z)    (* driver.py:401-417 *)
| OPidExists (pid : Z)                 (* psutil.pid_exists *)
| OPidZombie (pid : Z)                 (* psutil.Process(pid).status() is STATUS_ZOMBIE *)
| OMainLoop (j : job) (pip : string)   (* job_main_loop, modelled in JobThreadModel *)
(* drivers *)
| ODriver (port : option Z) (c : dcmd)     (* request, waiting for the reply for ever *)
| ODriverT (port : option Z) (c : dcmd)    (* the same with RCVTIMEO *)
| ODriverLpp (port : option Z) (c : dcmd)  (* lpp.comm *)
(* clocks *)
| ONow
| OPerf.

Definition resp (o : op) : Type :=
  match o with
  | OJobInsert _ => unit
  | OJobIdAt _ => Z
  | OJobUpdate _ _ => unit
  | OJobGet _ => job
  | OJobsWhere _ => list job
  | OPipInsert _ => unit
  | OPipUpdate _ _ => unit
  | OPipGet _ => option pipstate
  | OPipsWhere _ => list pipstate
  | ODrvInsert _ => unit
  | ODrvUpdate _ _ => unit
  | ODrvGet _ => option drvstate
  | ODrvsAll => list drvstate
  | ODrvDel _ => unit
  | ODmGet => option daemon
  | ODmBind _ => unit
  | ODmSetStatus _ => unit
  | ODmSetConfig _ _ => unit
  | OReadSettings => option settings
  | OReadDevices _ => option rawfile
  | OMkdir _ => unit
  | OWriteJobdata _ _ => unit
  | OArchive _ _ => unit
  | OCrate _ => unit
  | OOutdir _ => unit
  | OSpawnJob _ => unit
  | OSpawnDriver _ _ => unit
  | OPidExists _ => bool
  | OPidZombie _ => bool
  | OMainLoop _ _ => bool
  | ODriver _ _ => dreply
  | ODriverT _ _ => dreply
  | ODriverLpp _ _ => dreply
  | ONow => Z
  | OPerf => Z
  end.

Definition pgm (A : Type) : Type := prog op resp A.

(** One operation as a program. *)
Definition act (o : op) : pgm (resp o) := do o.

(** Field updates of the world. *)
Definition set_jobs (w : world) (l : list job) (s : Z) : world :=
  mkWorld l s (w_pips w) (w_drvs w) (w_daemon w) (w_files w) (w_dirs w) (w_jobdata w)
    (w_spawned w) (w_procs w) (w_driver w) (w_main w) (w_merge w) (w_crate w) (w_outdir w)
    (w_now w) (w_perf w) (w_log w).
Definition set_pips (w : world) (l : list pipstate) : world :=
  mkWorld (w_jobs w) (w_seq w) l (w_drvs w) (w_daemon w) (w_files w) (w_dirs w) (w_jobdata w)
    (w_spawned w) (w_procs w) (w_driver w) (w_main w) (w_merge w) (w_crate w) (w_outdir w)
    (w_now w) (w_perf w) (w_log w).
Definition set_drvs (w : world) (l : list drvstate) : world :=
  mkWorld (w_jobs w) (w_seq w) (w_pips w) l (w_daemon w) (w_files w) (w_dirs w) (w_jobdata w)
    (w_spawned w) (w_procs w) (w_driver w) (w_main w) (w_merge w) (w_crate w) (w_outdir w)
    (w_now w) (w_perf w) (w_log w).
Definition set_daemon (w : world) (d : option daemon) : world :=
  mkWorld (w_jobs w) (w_seq w) (w_pips w) (w_drvs w) d (w_files w) (w_dirs w) (w_jobdata w)
    (w_spawned w) (w_procs w) (w_driver w) (w_main w) (w_merge w) (w_crate w) (w_outdir w)
    (w_now w) (w_perf w) (w_log w).
Definition set_files (w : world) (f : cfgfiles) : world :=
  mkWorld (w_jobs w) (w_seq w) (w_pips w) (w_drvs w) (w_daemon w) f (w_dirs w) (w_jobdata w)
    (w_spawned w) (w_procs w) (w_driver w) (w_main w) (w_merge w) (w_crate w) (w_outdir w)
    (w_now w) (w_perf w) (w_log w).
Definition set_dirs (w : world) (l : list jobdir) : world :=
  mkWorld (w_jobs w) (w_seq w) (w_pips w) (w_drvs w) (w_daemon w) (w_files w) l (w_jobdata w)
    (w_spawned w) (w_procs w) (w_driver w) (w_main w) (w_merge w) (w_crate w) (w_outdir w)
    (w_now w) (w_perf w) (w_log w).
Definition set_jobdata (w : world) (l : list (jobdir * jobargs)) : world :=
  mkWorld (w_jobs w) (w_seq w) (w_pips w) (w_drvs w) (w_daemon w) (w_files w) (w_dirs w) l
    (w_spawned w) (w_procs w) (w_driver w) (w_main w) (w_merge w) (w_crate w) (w_outdir w)
    (w_now w) (w_perf w) (w_log w).
Definition set_procs (w : world) (s : list jobargs) (l : list proc) : world :=
  mkWorld (w_jobs w) (w_seq w) (w_pips w) (w_drvs w) (w_daemon w) (w_files w) (w_dirs w) (w_jobdata w)
    s l (w_driver w) (w_main w) (w_merge w) (w_crate w) (w_outdir w)
    (w_now w) (w_perf w) (w_log w).
Definition add_event (w : world) (e : event) : world :=
  mkWorld (w_jobs w) (w_seq w) (w_pips w) (w_drvs w) (w_daemon w) (w_files w) (w_dirs w) (w_jobdata w)
    (w_spawned w) (w_procs w) (w_driver w) (w_main w) (w_merge w) (w_crate w) (w_outdir w)
    (w_now w) (w_perf w) (e :: w_log w).

(** The row inserted for job [j] (jobdb.py:20-37): SQLite chooses the id. *)
Definition with_id (j : job) (id : Z) : job :=
  mkJob id (j_payload j) (j_jobname j) (j_pid j) (j_status j) (j_submitted j) (j_launched j)
    (j_connected j) (j_completed j) (j_jobpath j) (j_respath j) (j_snappath j).

Definition with_status (d : daemon) (s : dstatus) : daemon :=
  mkDaemon s (dm_port d) (dm_settings d) (dm_df d).
Definition with_config (d : daemon) (st : settings) (df : devicefile) : daemon :=
  mkDaemon (dm_status d) (dm_port d) st df.

Definition jobdir_eqb (a b : jobdir) : bool :=
  String.eqb (fst a) (fst b) && Z.eqb (snd a) (snd b).
Definition has_dir (l : list jobdir) (d : jobdir) : bool := existsb (jobdir_eqb d) l.

Definition get_proc (l : list proc) (pid : Z) : option proc :=
  find (fun p => Z.eqb (pr_pid p) pid) l.

(** Outcome of an attempt to reach a driver: no port gives an invalid endpoint
    [tcp://127.0.0.1:None], which [connect] refuses with ZMQError. *)
Definition ask (w : world) (port : option Z) (c : dcmd) (silent : res dreply)
    : res dreply * world :=
  match port with
  | None => (Err ZMQError, w)
  | Some p =>
      let w' := add_event w (EvRequest p c) in
      match w_driver w p c with
      | Some r => (Ok r, w')
      | None => (silent, w')
      end
  end.

(** Meaning of the operations. *)
Definition exec (o : op) (w : world) : res (resp o) * world :=
  match o return res (resp o) * world with
  | OJobInsert j =>
      let id := w_seq w + 1 in
      (Ok tt, set_jobs w (w_jobs w ++ [with_id j id]) id)
  | OJobIdAt t =>
      (* fetchone() is None when there is no such row: TypeError *)
      (match find (fun j => Z.eqb (j_submitted j) t) (w_jobs w) with
       | Some j => Ok (j_id j)
       | None => Err TypeError
       end, w)
  | OJobUpdate id cs => (Ok tt, set_jobs w (upd_jobs id cs (w_jobs w)) (w_seq w))
  | OJobGet id =>
      (* zip(columns, None) raises TypeError *)
      (match get_job (w_jobs w) id with Some j => Ok j | None => Err TypeError end, w)
  | OJobsWhere c => (jobs_where c (w_jobs w), w)
  | OPipInsert p =>
      match get_pip (w_pips w) (p_name p) with
      | Some _ => (Err IntegrityError, w)
      | None => (Ok tt, set_pips w (w_pips w ++ [p]))
      end
  | OPipUpdate n cs =>
      match sql_lit n with
      | None => (Err SqlError, w)
      | Some n' => (Ok tt, set_pips w (upd_pips n' cs (w_pips w)))
      end
  | OPipGet n => (Ok (get_pip (w_pips w) n), w)
  | OPipsWhere busy =>
      (Ok (filter (fun p => Bool.eqb (is_some (p_jobid p)) busy) (w_pips w)), w)
  | ODrvInsert d =>
      match get_drv (w_drvs w) (dv_name d) with
      | Some _ => (Err IntegrityError, w)
      | None => (Ok tt, set_drvs w (w_drvs w ++ [d]))
      end
  | ODrvUpdate n cs =>
      match sql_lit n with
      | None => (Err SqlError, w)
      | Some n' => (Ok tt, set_drvs w (upd_drvs n' cs (w_drvs w)))
      end
  | ODrvGet n => (Ok (get_drv (w_drvs w) n), w)
  | ODrvsAll => (Ok (w_drvs w), w)
  | ODrvDel n =>
      (* one binding supplied for a statement without parameters *)
      (match sql_lit n with None => Err SqlError | Some _ => Err ProgrammingError end, w)
  | ODmGet => (Ok (w_daemon w), w)
  | ODmBind d =>
      (* the address is already in use when another daemon is listening *)
      match w_daemon w with
      | None => (Ok tt, set_daemon w (Some d))
      | Some _ => (Err ZMQError, w)
      end
  | ODmSetStatus s =>
      match w_daemon w with
      | None => (Err Blocked, w)
      | Some d => (Ok tt, set_daemon w (Some (with_status d s)))
      end
  | ODmSetConfig st df =>
      match w_daemon w with
      | None => (Err Blocked, w)
      | Some d => (Ok tt, set_daemon w (Some (with_config d st df)))
      end
  | OReadSettings => (Ok (cf_settings (w_files w)), w)
  | OReadDevices p => (Ok (cf_devices (w_files w) p), w)
  | OMkdir d =>
      if has_dir (w_dirs w) d then (Err FileExistsError, w)
      else (Ok tt, set_dirs w (d :: w_dirs w))
  | OWriteJobdata d a => (Ok tt, set_jobdata w ((d, a) :: w_jobdata w))
  | OArchive p j =>
      match w_merge w (j_id j) with
      | Some e => (Err e, w)
      | None => (Ok tt, add_event w (EvArchive p j))
      end
  | OCrate j => (match w_crate w (j_id j) with Some e => Err e | None => Ok tt end, w)
  | OOutdir p => (match w_outdir w p with Some e => Err e | None => Ok tt end, w)
  | OSpawnJob a =>
      (Ok tt, add_event (set_procs w (w_spawned w ++ [a]) (w_procs w)) (EvSpawn a))
  | OSpawnDriver n t => (Ok tt, add_event w (EvSpawnDriver n t))
  | OPidExists p => (Ok (is_some (get_proc (w_procs w) p)), w)
  | OPidZombie p =>
      (match get_proc (w_procs w) p with
       | Some pr => Ok (pr_zombie pr)
       | None => Err NoSuchProcess
       end, w)
  | OMainLoop j _ => (w_main w (j_id j), w)
  | ODriver port c => ask w port c (Err Blocked)
  | ODriverT port c => ask w port c (Err ZMQAgain)
  | ODriverLpp port c => ask w port c (Ok (mkDReply false DdNone))
  | ONow => (Ok (w_now w), w)
  | OPerf => (Ok (w_perf w), w)
  end.
