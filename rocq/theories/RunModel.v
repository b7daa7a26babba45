(** * RunModel: a worker of a job together with the component it uses

    Composes [job_thread] (daemon/job.py:500-713, JobThreadModel) with a component of a
    driver and its worker thread (driverinterface_2_1/__init__.py, DeviceModel).  The
    requests of the job are answered by the state of the component.  Definitions only.

    Simplifications:
    - the main thread of the driver serves one request at a time (daemon/driver.py:245-324);
      a request is delivered once, or not at all ([ROffline]); lpp.comm may send it again
      (LppModel), which is left out here;
    - whether a task is refused by task_start (its parameters, DrvModel/IfaceModel) is
      decided by the label of the step, and so is whether a task that somebody else sent
      equals the worker's task;
    - storing data always succeeds (see C61 and C66 for failures). *)
From Coq Require Import List String ZArith Bool.
From Verif Require Import Base Types Prog JobThreadModel DeviceModel.
Import ListNotations.
Open Scope Z_scope.

(** The state: the component, what the worker still has to do, whether its request is
    being handled, thread.current_task, the tasks put into the queue by their numbers,
    the data stored so far and the events of the worker, latest first. *)
Record rsys : Type := mkR {
  r_dev : dev;
  r_pgm : jpgm unit;
  r_wait : bool;
  r_cur : option task;
  r_sent : list (nat * task);
  r_stored : list nat;
  r_hist : list jev
}.
Definition run_start (d : dev) (p : jpgm unit) : rsys := mkR d p false None [] [] [].

(** The scheduler's choices. *)
Inductive rlabel : Type :=
| RWork (clock : Z) (fails : bool)   (* the worker thread of the component *)
| RAsk (a : ask)                     (* a request of somebody else *)
| RGo                                (* the main thread of the driver goes on *)
| RJob (clock : Z) (names : list string) (choice : bool)  (* the worker of the job *)
| ROffline.                          (* a request of the worker fails *)

(** The task in the queue under number [i]. *)
Fixpoint sent_task (i : nat) (l : list (nat * task)) : option task :=
  match l with
  | [] => None
  | (j, t) :: r => if Nat.eqb i j then Some t else sent_task i r
  end.

(** The answer to task_status (driverinterface_2_1/__init__.py:319-325): the queue is
    unbounded, so [can_submit] holds; [task] is compared with the task of the worker by
    value (job.py:598, 610, 656), with [same]; the tasks of others are not known, so
    [other] tells whether such a task equals the worker's. *)
Definition status_answer (same : task -> task -> bool) (other : bool) (s : rsys) : sans :=
  match d_running (r_dev s) with
  | None => SState true false (Some false)
  | Some it =>
      SState true true
        (Some (match sent_task (q_id it) (r_sent s), r_cur s with
               | Some t, Some t' => same t t'
               | _, _ => other
               end))
  end.

(** The operation of the worker is complete with result [r]. *)
Definition done_op (s : rsys) (d : dev) (cur : option task) (sent : list (nat * task)) (stored : list nat)
    (o : jop) (k : res (jresp o) -> jpgm unit) (r : res (jresp o)) : rsys :=
  mkR d (k r) false cur sent stored (Ev o r :: r_hist s).
Definition same_state (s : rsys) := done_op s (r_dev s) (r_cur s) (r_sent s) (r_stored s).

(** [Some] data, or nothing when the cache is empty (None). *)
Definition data_answer (l : list nat) : dans := match l with [] => DNothing | _ => DData l end.

(** The worker's request is passed to the component (no request is being handled). *)
Definition pass_on (s : rsys) (a : ask) : option rsys :=
  option_map (fun d => mkR d (r_pgm s) true (r_cur s) (r_sent s) (r_stored s) (r_hist s))
             (begin_request a (r_dev s)).

(** A step of the worker of the job (job.py:500-713). *)
Definition job_step (same : task -> task -> bool) (clock : Z) (names : list string) (choice : bool) (s : rsys)
    : option rsys :=
  if r_wait s then None else
  match r_pgm s with
  | Op o k =>
      match o as o' return (res (jresp o') -> jpgm unit) -> option rsys with
      | JCurrent t => fun k => Some (done_op s (r_dev s) t (r_sent s) (r_stored s) (JCurrent t) k (Ok tt))
      | JNames => fun k => Some (same_state s JNames k (Ok names))
      | JClock => fun k => Some (same_state s JClock k (Ok clock))
      | JCrash => fun k => Some (same_state s JCrash k (Ok tt))
      | JStore l => fun k => Some (done_op s (r_dev s) (r_cur s) (r_sent s) (r_stored s ++ l) (JStore l) k (Ok tt))
      | JStatus => fun k =>
          option_map (fun d => done_op s d (r_cur s) (r_sent s) (r_stored s) JStatus k (Ok (status_answer same choice s)))
                     (begin_request AStatus (r_dev s))
      | JSend t => fun k =>
          if choice then
            option_map (fun d => done_op s d (r_cur s) ((d_items (r_dev s), t) :: r_sent s) (r_stored s)
                                         (JSend t) k (Ok (BAnswer true)))
                       (begin_request (AStart (t_interval t) (t_duration t)) (r_dev s))
          else match d_main (r_dev s) with
               | MIdle => Some (same_state s (JSend t) k (Ok (BAnswer false)))
               | _ => None
               end
      | JData => fun _ => pass_on s AData
      | JStop => fun _ => pass_on s AStop
      | JReset => fun _ => pass_on s (AReset true)
      end k
  | _ => None
  end.

(** The driver has completed a request; [m] is where it was before. *)
Definition answer (m : mpc) (s : rsys) : rsys :=
  match r_pgm s with
  | Op o k =>
      match o as o' return (res (jresp o') -> jpgm unit) -> rsys with
      | JData => fun k => match m with MUnlock l => same_state s JData k (Ok (data_answer l)) | _ => s end
      | JStop => fun k => match m with MUnlock l => same_state s JStop k (Ok (data_answer l)) | _ => s end
      | JReset => fun k => match m with MThread _ => same_state s JReset k (Ok (BAnswer true)) | _ => s end
      | _ => fun _ => s
      end k
  | _ => s
  end.

(** A request fails: the socket is closed (lpp.py, LppModel).  If it is being handled, the
    driver completes it for nobody. *)
Definition offline (s : rsys) : option rsys :=
  match r_pgm s with
  | Op o k =>
      match o as o' return (res (jresp o') -> jpgm unit) -> option rsys with
      | JStatus => fun k => Some (same_state s JStatus k (Ok SOffline))
      | JSend t => fun k => Some (same_state s (JSend t) k (Ok BOffline))
      | JReset => fun k => Some (same_state s JReset k (Ok BOffline))
      | JData => fun k => Some (same_state s JData k (Ok DOffline))
      | JStop => fun k => Some (same_state s JStop k (Ok DOffline))
      | _ => fun _ => None
      end k
  | _ => None
  end.

Definition with_dev (s : rsys) (d : dev) : rsys :=
  mkR d (r_pgm s) (r_wait s) (r_cur s) (r_sent s) (r_stored s) (r_hist s).

Definition rstep (same : task -> task -> bool) (l : rlabel) (s : rsys) : option rsys :=
  match l with
  | RWork c f => option_map (with_dev s) (wstep c f (r_dev s))
  | RAsk a => if r_wait s then None else option_map (with_dev s) (begin_request a (r_dev s))
  | RGo =>
      option_map (fun d => if r_wait s then answer (d_main (r_dev s)) (with_dev s d) else with_dev s d)
                 (mstep (r_dev s))
  | RJob c n b => job_step same c n b s
  | ROffline => offline s
  end.
Fixpoint rsteps (same : task -> task -> bool) (ls : list rlabel) (s : rsys) : option rsys :=
  match ls with
  | [] => Some s
  | l :: r => match rstep same l s with Some s' => rsteps same r s' | None => None end
  end.
