(** * SysModel: all processes and threads together

    The state of the whole installation: the shared world and the programs
    being executed by commands, by the three manager threads of the daemon
    (daemon/__init__.py:61-71), by job processes and by starting driver
    processes.  A step executes one atomic operation of one of them, or is one
    of the events that can happen at any time (a process is killed, the daemon
    crashes, a started process begins to run, clocks advance, drivers change
    their answers, files are edited).  Any sequence of steps is an execution.
    Definitions only. *)
From Coq Require Import List String ZArith Bool.
From Verif Require Import Base PyStr Types ConfigModel Prog World Replies CmdModel KetchupModel
  TomatoModel JobModel PipModel DrvModel.
Import ListNotations.
Open Scope Z_scope.
Open Scope prog_scope.

(** ** Commands of the command line *)
Inductive command : Type :=
| CmdStart (port : Z)                     (* tomato start: the daemon process up to its main loop *)
| CmdStop (port : Z)
| CmdReload (port : Z)
| CmdLoad (port : Z) (pip sample : string)
| CmdEject (port : Z) (pip : string)
| CmdReady (port : Z) (pip : string)
| CmdSubmit (port : Z) (f : payload_file) (cwd : string) (name : option string)
| CmdStatus (port : Z) (ids : list Z)
| CmdCancel (port : Z) (ids : list Z)
| CmdSnapshot (port : Z) (ids : list Z)
| CmdSearch (port : Z) (text : string).

(** The program of a command; it ends with the reply shown to the user.
    (tomato/__init__.py, ketchup/__init__.py; the daemon of [CmdStart] has no
    reply) *)
Definition some_reply (p : pgm reply) : pgm (option reply) := r <- p;; Ret (Some r).
Definition no_reply (p : pgm unit) : pgm (option reply) := p;;; Ret None.
Definition cmd_pgm (c : command) : pgm (option reply) :=
  match c with
  | CmdStart port => no_reply (daemon_start port)
  | CmdStop port => some_reply (tomato_stop port)
  | CmdReload port => some_reply (tomato_reload port)
  | CmdLoad port p s => some_reply (pipeline_load port p s)
  | CmdEject port p => some_reply (pipeline_eject port p)
  | CmdReady port p => some_reply (pipeline_ready port p)
  | CmdSubmit port f cwd n => some_reply (ketchup_submit port f cwd n)
  | CmdStatus port ids => some_reply (ketchup_status port ids)
  | CmdCancel port ids => some_reply (ketchup_cancel port ids)
  | CmdSnapshot port ids => some_reply (ketchup_snapshot port ids)
  | CmdSearch port t => some_reply (ketchup_search port t)
  end.

(** ** Threads *)
Inductive kind : Type :=
| KCmd                               (* a command, or the daemon while it starts *)
| KJobMgr | KPipMgr | KDrvMgr        (* manager threads *)
| KJob (pid : Z) (a : jobargs)       (* a tomato-job process *)
| KDriver (n : string).              (* a tomato-driver process while it starts *)

(** What a manager does in one iteration and when it is told to stop
    (job.py:338-349, pip.py:37-85, driver.py:340-441). *)
Definition mgr_pass (k : kind) : option (pgm unit) :=
  match k with
  | KJobMgr => Some job_pass
  | KPipMgr => Some pip_pass
  | KDrvMgr => Some drv_pass
  | _ => None
  end.

(** [t_done]: the thread has left its loop (managers only). *)
Record thread : Type := mkThread {
  t_kind : kind;
  t_pgm : pgm (option reply);
  t_done : bool
}.

(** [s_run]: the [do_run] attribute of the manager threads
    (daemon/__init__.py:64-71,92-94). *)
Record sys : Type := mkSys {
  s_world : world;
  s_threads : list thread;
  s_run : bool
}.

Definition set_world (s : sys) (w : world) : sys := mkSys w (s_threads s) (s_run s).
Definition set_threads (s : sys) (l : list thread) : sys := mkSys (s_world s) l (s_run s).
Definition add_thread (s : sys) (t : thread) : sys := set_threads s (s_threads s ++ [t])%list.

Fixpoint set_nth {A : Type} (n : nat) (x : A) (l : list A) : list A :=
  match n, l with
  | _, [] => []
  | O, _ :: r => x :: r
  | S n', y :: r => y :: set_nth n' x r
  end.
Fixpoint del_nth {A : Type} (n : nat) (l : list A) : list A :=
  match n, l with
  | _, [] => []
  | O, _ :: r => r
  | S n', y :: r => y :: del_nth n' r
  end.

Definition is_mgr (k : kind) : bool :=
  match k with KJobMgr | KPipMgr | KDrvMgr => true | _ => false end.
Definition mgr_eqb (a b : kind) : bool :=
  match a, b with
  | KJobMgr, KJobMgr | KPipMgr, KPipMgr | KDrvMgr, KDrvMgr => true
  | _, _ => false
  end.

(** A thread that will do nothing any more: it returned (and, for a manager,
    left its loop) or died with an exception. *)
Definition ended (t : thread) : bool :=
  match t_pgm t with
  | Ret _ => negb (is_mgr (t_kind t)) || t_done t
  | Raise _ => true
  | Op _ _ => false
  end.

(** A thread that waits for ever for an answer; it is still alive. *)
Definition waits (t : thread) : bool := match t_pgm t with Raise Blocked => true | _ => false end.

(** ** Steps *)
Inductive label : Type :=
| LCmd (c : command)            (* a command is issued *)
| LStep (n : nat)               (* thread n executes its next operation *)
| LKill (n : nat)               (* the process of thread n is killed (not a manager) *)
| LCrash                        (* the daemon process is killed *)
| LManager (k : kind)           (* the daemon starts one of its managers *)
| LTellStop                     (* the daemon tells its managers to stop *)
| LExit                         (* the daemon ends its main loop *)
| LJobStart (i : nat) (pid : Z) (* a started tomato-job process begins to run *)
| LJobLost (i : nat)            (* a started tomato-job process fails before doing anything *)
| LDriver (n : string) (port pid : Z) (ver : string) (ok : bool) (* a tomato-driver process begins to run *)
| LProcEnd (pid : Z) (zombie : bool) (* an ended process disappears or becomes a zombie *)
| LProcNew (pid : Z)            (* an unrelated process starts *)
| LTime (now perf : Z)          (* clocks *)
| LFiles (f : cfgfiles)         (* configuration files are edited *)
| LAnswers (g : Z -> dcmd -> option dreply)  (* drivers change their answers *)
| LOutcome (m : Z -> res bool) (g c : Z -> option exn) (o : string -> option exn).
                                (* the job worker, archive, crate and folder outcomes *)

Definition set_env (w : world) (now perf : Z) : world :=
  mkWorld (w_jobs w) (w_seq w) (w_pips w) (w_drvs w) (w_daemon w) (w_files w) (w_dirs w) (w_jobdata w)
    (w_spawned w) (w_procs w) (w_driver w) (w_main w) (w_merge w) (w_crate w) (w_outdir w)
    now perf (w_log w).
Definition set_answers (w : world) (g : Z -> dcmd -> option dreply) : world :=
  mkWorld (w_jobs w) (w_seq w) (w_pips w) (w_drvs w) (w_daemon w) (w_files w) (w_dirs w) (w_jobdata w)
    (w_spawned w) (w_procs w) g (w_main w) (w_merge w) (w_crate w) (w_outdir w)
    (w_now w) (w_perf w) (w_log w).
Definition set_outcome (w : world) (m : Z -> res bool) (g c : Z -> option exn)
    (o : string -> option exn) : world :=
  mkWorld (w_jobs w) (w_seq w) (w_pips w) (w_drvs w) (w_daemon w) (w_files w) (w_dirs w) (w_jobdata w)
    (w_spawned w) (w_procs w) (w_driver w) m g c o
    (w_now w) (w_perf w) (w_log w).

Definition has_kind (k : kind) (s : sys) : bool :=
  existsb (fun t => mgr_eqb k (t_kind t)) (s_threads s).

(** A job process that still executes. *)
Definition runs_pid (pid : Z) (t : thread) : bool :=
  match t_kind t with KJob p _ => Z.eqb p pid && negb (ended t) | _ => false end.

(** Thread [n] continues: the next operation; a manager at the end of an
    iteration starts the next one, or, when told to stop, leaves its loop (the
    driver manager then stops the drivers). *)
Definition step_thread (s : sys) (n : nat) (t : thread) : option sys :=
  match t_pgm t with
  | Op o k =>
      let (r, w) := exec o (s_world s) in
      Some (mkSys w (set_nth n (mkThread (t_kind t) (k r) (t_done t)) (s_threads s)) (s_run s))
  | Raise _ => None
  | Ret _ =>
      match mgr_pass (t_kind t) with
      | None => None
      | Some p =>
          if t_done t then None
          else if s_run s then
            Some (set_threads s (set_nth n (mkThread (t_kind t) (no_reply p) false) (s_threads s)))
          else
            Some (set_threads s (set_nth n
              (mkThread (t_kind t)
                 (match t_kind t with KDrvMgr => no_reply drv_quit | _ => Ret None end) true)
              (s_threads s)))
      end
  end.

Definition step (l : label) (s : sys) : option sys :=
  let w := s_world s in
  match l with
  | LCmd c => Some (add_thread s (mkThread KCmd (cmd_pgm c) false))
  | LStep n =>
      match nth_error (s_threads s) n with
      | Some t => step_thread s n t
      | None => None
      end
  | LKill n =>
      match nth_error (s_threads s) n with
      | Some t =>
          if is_mgr (t_kind t) then None
          else Some (set_threads s (set_nth n (mkThread (t_kind t) (Raise SystemExit) false) (s_threads s)))
      | None => None
      end
  | LCrash =>
      match w_daemon w with
      | Some _ =>
          Some (mkSys (set_daemon w None) (filter (fun t => negb (is_mgr (t_kind t))) (s_threads s)) true)
      | None => None
      end
  | LManager k =>
      match w_daemon w, mgr_pass k with
      | Some _, Some p =>
          if has_kind k s then None else Some (add_thread s (mkThread k (Ret None) false))
      | _, _ => None
      end
  | LTellStop =>
      match w_daemon w with
      | Some d => match dm_status d with Dstop => Some (mkSys w (s_threads s) false) | _ => None end
      | None => None
      end
  | LExit =>
      match w_daemon w with
      | Some d =>
          if negb (s_run s)
             && forallb (fun t => negb (is_mgr (t_kind t)) || (ended t && negb (waits t))) (s_threads s)
          then Some (mkSys (set_daemon w None)
                       (filter (fun t => negb (is_mgr (t_kind t))) (s_threads s)) true)
          else None
      | None => None
      end
  | LJobStart i pid =>
      match nth_error (w_spawned w) i, get_proc (w_procs w) pid with
      | Some a, None =>
          Some (mkSys (set_procs w (del_nth i (w_spawned w))
                         (mkProc pid false (Some a) :: w_procs w))
                  (s_threads s ++ [mkThread (KJob pid a) (no_reply (tomato_job pid a)) false])%list
                  (s_run s))
      | _, _ => None
      end
  | LJobLost i =>
      match nth_error (w_spawned w) i with
      | Some _ => Some (set_world s (set_procs w (del_nth i (w_spawned w)) (w_procs w)))
      | None => None
      end
  | LDriver n port pid ver ok =>
      Some (add_thread s (mkThread (KDriver n) (no_reply (driver_connect n port pid ver ok)) false))
  | LProcEnd pid z =>
      if existsb (runs_pid pid) (s_threads s) then None
      else
        Some (set_world s (set_procs w (w_spawned w)
          (if z : bool
           then map (fun p => if Z.eqb (pr_pid p) pid then mkProc pid true (pr_job p) else p) (w_procs w)
           else filter (fun p => negb (Z.eqb (pr_pid p) pid)) (w_procs w))))
  | LProcNew pid =>
      match get_proc (w_procs w) pid with
      | Some _ => None
      | None => Some (set_world s (set_procs w (w_spawned w) (mkProc pid false None :: w_procs w)))
      end
  | LTime now perf => Some (set_world s (set_env w now perf))
  | LFiles f => Some (set_world s (set_files w f))
  | LAnswers g => Some (set_world s (set_answers w g))
  | LOutcome m g c o => Some (set_world s (set_outcome w m g c o))
  end.

(** A sequence of steps. *)
Fixpoint runs (ls : list label) (s : sys) : option sys :=
  match ls with
  | [] => Some s
  | l :: r => match step l s with Some s' => runs r s' | None => None end
  end.

(** Nothing is running yet; the database and the file system have any content. *)
Definition start_sys (w : world) : sys := mkSys (set_daemon w None) [] true.
