(** * DeviceModel: a component and its worker thread (2.1 interface)

    Models [ModelDevice] of driverinterface_2_1/__init__.py:457-684 together with the
    requests that act on it (cmp_measure 268-285, task_start 287-306, task_status
    308-325, task_stop 327-341, task_data 343-361, cmp_reset 146-159), as a transition
    system in which the worker thread (task_runner 507-570) and the thread that
    handles requests take steps in any order.  A step is one access to the shared
    state; the program counters are named after the lines about to be executed.
    Definitions only.

    Simplifications:
    - validation (task_validate) does not touch the shared state: [AStart] is a task
      that passed it; a refused task has no effect;
    - [do_measure] of a driver either raises or stores one new point in [last_data];
      [xr.concat] of points of one component does not raise; points are numbered;
    - times are integers (floating-point rounding of [t_p += interval] is not modelled);
    - [self.data = None] and an empty data set are not distinguished. *)
From Coq Require Import List ZArith Bool.
Import ListNotations.
Open Scope Z_scope.

(** An entry of [task_list]: a task with its sampling interval and maximum duration,
    or the string "measure".  The number identifies the request that queued it. *)
Inductive ikind : Type := KTask (interval duration : Z) | KOnce.
Record qitem : Type := mkItem { q_id : nat; q_kind : ikind }.

(** Who holds [datalock]. *)
Inductive holder : Type := HMain | HWorker.

(** The worker thread (task_runner).  [it] is the task, [t0] and [tp] are t_0 and t_p,
    [n] counts the measurements made so far, [tn] is t_n. *)
Inductive wpc : Type :=
| WTop                                   (* 520: while do_run *)
| WGet                                   (* 522: task_list.get(timeout=1) *)
| WGot (it : qitem)                      (* 530: self.running = task *)
| WClear (it : qitem)                    (* 532: do_run_task = False *)
| WKind (it : qitem)                     (* 533: isinstance; 534: prepare_task *)
| WArm (it : qitem)                      (* 535: do_run_task = True *)
| WStart (it : qitem)                    (* 536-537: t_0, t_p *)
| WDrop (it : qitem) (t0 : Z)            (* 538: self.data = None *)
| WLoop (it : qitem) (t0 tp : Z) (n : nat)      (* 539: while do_run_task and do_run *)
| WTime (it : qitem) (t0 tp : Z) (n : nat)      (* 540: t_n *)
| WDue (it : qitem) (t0 tp : Z) (n : nat) (tn : Z)      (* 541: if due *)
| WLock (it : qitem) (t0 tp : Z) (n : nat) (tn : Z)     (* 542: with self.datalock *)
| WMeasure (it : qitem) (t0 tp : Z) (n : nat) (tn : Z)  (* 589: do_measure *)
| WAppend (it : qitem) (t0 tp : Z) (n : nat) (tn : Z)   (* 590-597: self.data = ... *)
| WUnlock (it : qitem) (t0 tp : Z) (n : nat) (tn : Z)   (* 543: release *)
| WNext (it : qitem) (t0 tp : Z) (n : nat) (tn : Z)     (* 544: t_p += interval *)
| WOver (it : qitem) (t0 tp : Z) (n : nat) (tn : Z)     (* 545: if over *)
| WStop (it : qitem)                     (* 546: do_run_task = False; 551-555 *)
| WOnce (it : qitem)                     (* 557: do_measure *)
| WFree (it : qitem)                     (* 563 task_done; 568: self.running = False *)
| WFail (it : qitem)                     (* 566: do_run = False *)
| WQuit (it : option qitem)              (* 570: self.running = False *)
| WEnd.                                  (* the thread has ended *)

(** The thread that handles requests. *)
Inductive mpc : Type :=
| MIdle
| MEmpty                                 (* 281: task_list.empty() *)
| MPut                                   (* 284: task_list.put("measure") *)
| MLock                                  (* 636: with self.datalock *)
| MRead                                  (* 637: ret = self.data *)
| MClear (ret : list nat)                (* 638: self.data = None *)
| MUnlock (ret : list nat)               (* 639: release, return *)
| MJoin (do_run : bool)                  (* 674: self.thread.join() *)
| MRun (do_run : bool)                   (* 676: self.running = False *)
| MData (do_run : bool)                  (* 677: self.data = None *)
| MNewLock (do_run : bool)               (* 678: self.datalock = RLock() *)
| MQueue (do_run : bool)                 (* 679: self.task_list = queue.Queue() *)
| MThread (do_run : bool).               (* 680-683: a new thread is started *)

(** What happened, for the statement of the properties. *)
Inductive dev_event : Type :=
| LAccept (it : qitem)          (* put into the queue *)
| LRefuse                       (* one-off measurement refused *)
| LAsk                          (* a one-off measurement found [running] false *)
| LBegin (it : qitem)           (* taken from the queue *)
| LShow (it : qitem)            (* [running] set *)
| LMeas (it : qitem) (n : nat) (t0 tn : Z)  (* the n-th measurement of the task begins *)
| LPoint (p : nat)              (* point measured by a task *)
| LOnce (p : nat)               (* point of a one-off measurement *)
| LFinish (it : qitem)          (* the worker is done with the item *)
| LStop                         (* a stop request cleared do_run_task *)
| LReturn (l : list nat)        (* data returned to a request *)
| LDrop (l : list nat)          (* data lost at the start of a task *)
| LLost (l : list nat)          (* data lost by a reset *)
| LReset                        (* the queue is replaced *)
| LRestart (do_run : bool)      (* reset is complete *)
| LStatus (running : bool).     (* answer of task_status *)

(** The state: fields of [ModelDevice], flags of the current worker thread, the two
    program counters; [d_items] and [d_points] number items and points; [d_taken] is
    set while the cached data has been read by [get_data] but not yet cleared; the log
    has the latest event first. *)
Record dev : Type := mkD {
  d_queue : list qitem;
  d_running : option qitem;
  d_data : list nat;
  d_last : option nat;
  d_lock : option holder;
  d_run : bool;
  d_run_task : bool;
  d_worker : wpc;
  d_main : mpc;
  d_items : nat;
  d_points : nat;
  d_taken : bool;
  d_log : list dev_event
}.

(** [__init__] (492-505), after which the component can be used. *)
Definition dev_new : dev :=
  mkD [] None [] None None true false WTop MIdle 0 0 false [].

Definition set_worker (w : wpc) (s : dev) : dev :=
  mkD (d_queue s) (d_running s) (d_data s) (d_last s) (d_lock s) (d_run s) (d_run_task s)
      w (d_main s) (d_items s) (d_points s) (d_taken s) (d_log s).
Definition set_main (m : mpc) (s : dev) : dev :=
  mkD (d_queue s) (d_running s) (d_data s) (d_last s) (d_lock s) (d_run s) (d_run_task s)
      (d_worker s) m (d_items s) (d_points s) (d_taken s) (d_log s).
Definition set_queue (q : list qitem) (s : dev) : dev :=
  mkD q (d_running s) (d_data s) (d_last s) (d_lock s) (d_run s) (d_run_task s)
      (d_worker s) (d_main s) (d_items s) (d_points s) (d_taken s) (d_log s).
Definition set_running (r : option qitem) (s : dev) : dev :=
  mkD (d_queue s) r (d_data s) (d_last s) (d_lock s) (d_run s) (d_run_task s)
      (d_worker s) (d_main s) (d_items s) (d_points s) (d_taken s) (d_log s).
Definition set_data (l : list nat) (s : dev) : dev :=
  mkD (d_queue s) (d_running s) l (d_last s) (d_lock s) (d_run s) (d_run_task s)
      (d_worker s) (d_main s) (d_items s) (d_points s) (d_taken s) (d_log s).
Definition set_lock (l : option holder) (s : dev) : dev :=
  mkD (d_queue s) (d_running s) (d_data s) (d_last s) l (d_run s) (d_run_task s)
      (d_worker s) (d_main s) (d_items s) (d_points s) (d_taken s) (d_log s).
Definition set_flags (run run_task : bool) (s : dev) : dev :=
  mkD (d_queue s) (d_running s) (d_data s) (d_last s) (d_lock s) run run_task
      (d_worker s) (d_main s) (d_items s) (d_points s) (d_taken s) (d_log s).
Definition set_taken (b : bool) (s : dev) : dev :=
  mkD (d_queue s) (d_running s) (d_data s) (d_last s) (d_lock s) (d_run s) (d_run_task s)
      (d_worker s) (d_main s) (d_items s) (d_points s) b (d_log s).
Definition log (e : dev_event) (s : dev) : dev :=
  mkD (d_queue s) (d_running s) (d_data s) (d_last s) (d_lock s) (d_run s) (d_run_task s)
      (d_worker s) (d_main s) (d_items s) (d_points s) (d_taken s) (e :: d_log s).
(** A new point is stored in [last_data] by [do_measure]. *)
Definition new_point (s : dev) : dev :=
  mkD (d_queue s) (d_running s) (d_data s) (Some (d_points s)) (d_lock s) (d_run s) (d_run_task s)
      (d_worker s) (d_main s) (d_items s) (S (d_points s)) (d_taken s) (d_log s).
(** [task_list.put(...)] *)
Definition put (k : ikind) (s : dev) : dev :=
  let it := mkItem (d_items s) k in
  mkD (d_queue s ++ [it]) (d_running s) (d_data s) (d_last s) (d_lock s) (d_run s) (d_run_task s)
      (d_worker s) (d_main s) (S (d_items s)) (d_points s) (d_taken s) (LAccept it :: d_log s).

(** ** The worker thread
    [clock] is what time.perf_counter returns in this step; [fails] makes the
    driver's own code (prepare_task, do_measure) raise.  [None]: the worker has to wait
    for the lock, or has ended. *)
Definition wstep (clock : Z) (fails : bool) (s : dev) : option dev :=
  match d_worker s with
  | WTop => Some (set_worker (if d_run s then WGet else WQuit None) s)
  | WGet =>
      match d_queue s with
      | [] => Some (set_worker WTop s)                                     (* 523-524 *)
      | it :: q => Some (log (LBegin it) (set_worker (WGot it) (set_queue q s)))
      end
  | WGot it => Some (log (LShow it) (set_worker (WClear it) (set_running (Some it) s)))
  | WClear it => Some (set_worker (WKind it) (set_flags (d_run s) false s))
  | WKind it =>
      match q_kind it with
      | KTask _ _ => Some (set_worker (if fails then WFail it else WArm it) s)
      | KOnce => Some (set_worker (WOnce it) s)                            (* 556 *)
      end
  | WArm it => Some (set_worker (WStart it) (set_flags (d_run s) true s))
  | WStart it => Some (set_worker (WDrop it clock) s)
  | WDrop it t0 =>
      Some (log (LDrop (if d_taken s then [] else d_data s))
             (set_worker (WLoop it t0 t0 0) (set_data [] s)))
  | WLoop it t0 tp n =>
      Some (set_worker (if d_run_task s && d_run s then WTime it t0 tp n else WFree it) s)
  | WTime it t0 tp n => Some (set_worker (WDue it t0 tp n clock) s)
  | WDue it t0 tp n tn =>
      match q_kind it with
      | KTask si _ => Some (set_worker (if si <? tn - tp then WLock it t0 tp n tn else WOver it t0 tp n tn) s)
      | KOnce => None
      end
  | WLock it t0 tp n tn =>
      match d_lock s with
      | None => Some (log (LMeas it (S n) t0 tn)
                       (set_worker (WMeasure it t0 tp n tn) (set_lock (Some HWorker) s)))
      | Some _ => None
      end
  | WMeasure it t0 tp n tn =>
      if fails then Some (set_worker (WFail it) (set_lock None s))         (* the with block releases *)
      else Some (log (LPoint (d_points s)) (set_worker (WAppend it t0 tp n tn) (new_point s)))
  | WAppend it t0 tp n tn =>
      Some (set_worker (WUnlock it t0 tp n tn)
             (match d_last s with
              | None => s                                                  (* 592-593 *)
              | Some p => set_data (d_data s ++ [p]) s                     (* 590-591, 595-597 *)
              end))
  | WUnlock it t0 tp n tn => Some (set_worker (WNext it t0 tp n tn) (set_lock None s))
  | WNext it t0 tp n tn =>
      match q_kind it with
      | KTask si _ => Some (set_worker (WOver it t0 (tp + si) (S n) tn) s)
      | KOnce => None
      end
  | WOver it t0 tp n tn =>
      match q_kind it with
      | KTask _ du => Some (set_worker (if du <? tn - t0 then WStop it else WLoop it t0 tp n) s)
      | KOnce => None
      end
  | WStop it => Some (set_worker (WFree it) (set_flags (d_run s) false s))
  | WOnce it =>
      if fails then Some (set_worker (WFail it) s)
      else Some (log (LOnce (d_points s)) (set_worker (WFree it) (new_point s)))
  | WFree it => Some (log (LFinish it) (set_worker WTop (set_running None s)))
  | WFail it => Some (set_worker (WQuit (Some it)) (set_flags false (d_run_task s) s))
  | WQuit o =>
      Some (match o with Some it => log (LFinish it) | None => fun x => x end
             (set_worker WEnd (set_running None s)))
  | WEnd => None
  end.

(** ** Requests *)
Inductive ask : Type :=
| AStart (interval duration : Z)
| AMeasure
| AStatus
| AData
| AStop
| AReset (do_run : bool).

(** The first step of a request. *)
Definition begin_request (a : ask) (s : dev) : option dev :=
  match d_main s with
  | MIdle =>
      Some match a with
           | AStart si du => put (KTask si du) s                           (* 305 *)
           | AMeasure =>                                                   (* 279 *)
               match d_running s with
               | Some _ => log LRefuse s
               | None => log LAsk (set_main MEmpty s)
               end
           | AStatus => log (LStatus (match d_running s with Some _ => true | None => false end)) s
           | AData => set_main MLock s
           | AStop => log LStop (set_main MLock (set_flags (d_run s) false s))  (* 611-612 *)
           | AReset b => set_main (MJoin b) (set_flags false (d_run_task s) s)  (* 671-672 *)
           end
  | _ => None
  end.

(** A further step of the request being handled. *)
Definition mstep (s : dev) : option dev :=
  match d_main s with
  | MIdle => None
  | MEmpty =>
      match d_queue s with
      | [] => Some (set_main MPut s)
      | _ :: _ => Some (log LRefuse (set_main MIdle s))
      end
  | MPut => Some (put KOnce (set_main MIdle s))
  | MLock =>
      match d_lock s with
      | None => Some (set_main MRead (set_lock (Some HMain) s))
      | Some _ => None
      end
  | MRead => Some (set_main (MClear (d_data s)) (set_taken true s))
  | MClear ret => Some (set_main (MUnlock ret) (set_taken false (set_data [] s)))
  | MUnlock ret => Some (log (LReturn ret) (set_main MIdle (set_lock None s)))
  | MJoin b =>
      match d_worker s with
      | WEnd => Some (set_main (MRun b) s)
      | _ => None
      end
  | MRun b => Some (set_main (MData b) (set_running None s))
  | MData b => Some (log (LLost (d_data s)) (set_main (MNewLock b) (set_data [] s)))
  | MNewLock b => Some (set_main (MQueue b) (set_lock None s))
  | MQueue b => Some (log LReset (set_main (MThread b) (set_queue [] s)))
  | MThread b => Some (log (LRestart b) (set_main MIdle (set_worker WTop (set_flags b false s))))
  end.

(** ** Executions: the scheduler's choices *)
Inductive move : Type :=
| Work (clock : Z) (fails : bool)
| Ask (a : ask)
| Go.

Definition dstep (m : move) (s : dev) : option dev :=
  match m with
  | Work c f => wstep c f s
  | Ask a => begin_request a s
  | Go => mstep s
  end.

Fixpoint dsteps (l : list move) (s : dev) : option dev :=
  match l with
  | [] => Some s
  | m :: r => match dstep m s with Some s' => dsteps r s' | None => None end
  end.

(** ** Registering a component again
    [cmp_register] (102-124) on a key that is already in [devmap] replaces the device
    object; the worker thread of the old object goes on. *)
Record comp : Type := mkComp { c_now : dev; c_old : list dev }.
Definition comp_new : comp := mkComp dev_new [].
Inductive cmove : Type := Now (m : move) | Old (i : nat) (clock : Z) (fails : bool) | Register.

(** Replace the i-th element. *)
Fixpoint set_nth {A : Type} (i : nat) (a : A) (l : list A) : list A :=
  match l, i with
  | [], _ => []
  | _ :: r, O => a :: r
  | b :: r, S j => b :: set_nth j a r
  end.

Definition cstep (m : cmove) (c : comp) : option comp :=
  match m with
  | Now m => option_map (fun d => mkComp d (c_old c)) (dstep m (c_now c))
  | Old i t f =>
      match nth_error (c_old c) i with
      | Some d => option_map (fun d' => mkComp (c_now c) (set_nth i d' (c_old c))) (wstep t f d)
      | None => None
      end
  | Register =>
      match d_main (c_now c) with
      | MIdle => Some (mkComp dev_new (c_old c ++ [c_now c]))
      | _ => None
      end
  end.
Fixpoint csteps (l : list cmove) (c : comp) : option comp :=
  match l with
  | [] => Some c
  | m :: r => match cstep m c with Some c' => csteps r c' | None => None end
  end.
