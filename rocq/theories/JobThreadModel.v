(** * JobThreadModel: the workers of a job process and its main loop

    Models [job_thread] (daemon/job.py:500-713) and [job_main_loop] (716-829).
    Definitions only.

    Simplifications:
    - a request made with lpp.comm (modelled in [LppModel]) is one operation; it ends
      with an answer, or with the socket closed ("offline");
    - [ret.data["task"] == task] is part of the answer: for the comparison only its
      outcome matters;
    - [time.sleep], log messages and the socket itself are left out; clock readings are
      arbitrary integers;
    - data points are numbered; [ds.attrs] is not modelled;
    - the dictionaries and the driver table read at the start of job_main_loop are
      arguments; the wait for drivers before that (733-747) is in StartModel. *)
From Coq Require Import List String ZArith Bool.
From Verif Require Import Base Types Prog.
Import ListNotations.
Open Scope prog_scope.
Open Scope Z_scope.

(** ** Operations of a worker *)
Inductive jop : Type :=
| JCurrent (t : option task)   (* 540, 700: thread.current_task = t *)
| JNames                       (* 547, 669: thread.started_task_names *)
| JStatus                      (* 562, 586, 645: task_status request *)
| JClock                       (* 575, 585, 623, 625: time.perf_counter() *)
| JSend (t : task)             (* 577: task_start request *)
| JData                        (* 631, 689: task_data request *)
| JStop                        (* 673: task_stop request *)
| JStore (d : list nat)        (* 639, 681, 697: data_to_pickle *)
| JReset                       (* 705: cmp_reset request *)
| JCrash.                      (* 566, 579, ...: thread.crashed = True *)

(** Answer to task_status: offline; success False; success without data; or the entries
    can_submit, running and task of the data.  [cur = None]: there is no entry "task"
    (2.0 interface); otherwise whether it equals the worker's task. *)
Inductive sans : Type :=
| SOffline | SRefused | SEmpty
| SState (can_submit running : bool) (cur : option bool).
(** Answer to task_start and cmp_reset: offline, or success. *)
Inductive bans : Type := BOffline | BAnswer (success : bool).
(** Answer to task_data and task_stop: offline, no data (or success False), data. *)
Inductive dans : Type := DOffline | DNothing | DData (d : list nat).

Definition jresp (o : jop) : Type :=
  match o with
  | JNames => list string
  | JStatus => sans
  | JClock => Z
  | JSend _ => bans
  | JData => dans
  | JStop => dans
  | JReset => bans
  | _ => unit
  end.
Definition jpgm (A : Type) : Type := prog jop jresp A.
Definition jact (o : jop) : jpgm (jresp o) := do o.

(** [setattr(thread, "crashed", True); sys.exit()] *)
Definition crash {A : Type} : jpgm A := jact JCrash;;; Raise SystemExit.

(** [MAX_TASK_WAIT] (job.py:42) *)
Definition MAX_TASK_WAIT : Z := 10.

(** Hold while the start condition is not met (543-554). *)
Fixpoint wait_start (fuel : nat) (t : task) : jpgm unit :=
  match t_start_with t with
  | None => Ret tt
  | Some n =>
      match fuel with
      | O => Raise OutOfFuel
      | S f =>
          l <- jact JNames;;
          if mem n (l : list string) then Ret tt else wait_start f t
      end
  end.

(** Hold while the component is not ready (556-571). *)
Fixpoint wait_ready (fuel : nat) : jpgm unit :=
  match fuel with
  | O => Raise OutOfFuel
  | S f =>
      s <- jact JStatus;;
      match (s : sans) with
      | SState true _ _ => Ret tt
      | SOffline => crash
      | _ => wait_ready f
      end
  end.

(** Wait until the task is running (582-619); [t0] is the time of the submission. *)
Fixpoint wait_running (fuel : nat) (t0 : Z) : jpgm unit :=
  match fuel with
  | O => Raise OutOfFuel
  | S f =>
      now <- jact JClock;;
      s <- jact JStatus;;
      let again := if MAX_TASK_WAIT <? (now : Z) - t0 then crash else wait_running f t0 in
      match (s : sans) with
      | SOffline => crash
      | SState _ false _ => again                                   (* 590 *)
      | SState _ true (Some false) => again                         (* 594 *)
      | SState _ true (Some true) => Ret tt                         (* 606 *)
      | SState _ true None => Ret tt                                (* 611 *)
      | _ => again
      end
  end.

(** Store the data of an answer, if there is any (632-639, 674-681, 690-697). *)
Definition store (d : dans) : jpgm unit :=
  match d with
  | DOffline => crash
  | DNothing => Ret tt
  | DData l => jact (JStore l)
  end.

(** Main loop of a task (622-684). *)
Fixpoint task_loop (fuel : nat) (pollrate : Z) (t : task) (tp : Z) : jpgm unit :=
  match fuel with
  | O => Raise OutOfFuel
  | S f =>
      tn <- jact JClock;;
      tp' <- (if pollrate <? (tn : Z) - tp                          (* 628-640 *)
              then d <- jact JData;; store d;;; Ret (tp + pollrate)
              else Ret tp);;
      s <- jact JStatus;;
      match (s : sans) with
      | SOffline => crash                                           (* 646 *)
      | SState _ false _ => Ret tt                                  (* 649 *)
      | SState _ true (Some false) => Ret tt                        (* 652 *)
      | SRefused => Ret tt                                          (* 662 *)
      | _ =>
          match t_stop_with t with                                  (* 667-682 *)
          | None => task_loop f pollrate t tp'
          | Some n =>
              l <- jact JNames;;
              if mem n (l : list string) then d <- jact JStop;; store d
              else task_loop f pollrate t tp'
          end
      end
  end.

(** One task (537-700).  [completed] is thread.completed_tasks: [Some] a list, or [None]
    after the first [setattr(thread, "completed_tasks", list.append(task))], because
    append returns None (698-699). *)
Definition one_task (fuel : nat) (pollrate : Z) (completed : option (list task)) (t : task)
  : jpgm (option (list task)) :=
  jact (JCurrent (Some t));;;
  wait_start fuel t;;;
  wait_ready fuel;;;
  t0 <- jact JClock;;
  b <- jact (JSend t);;
  match (b : bans) with
  | BOffline => crash
  | BAnswer _ =>
      wait_running fuel t0;;;
      tp <- jact JClock;;
      task_loop fuel pollrate t tp;;;
      d <- jact JData;;
      store d;;;
      match completed with
      | None => Raise AttributeError
      | Some _ => jact (JCurrent None);;; Ret None
      end
  end.

(** [job_thread] (500-713). *)
Definition job_thread (fuel : nat) (pollrate : Z) (tasks : list task) : jpgm unit :=
  forP (one_task fuel pollrate) (Some []) tasks;;;
  b <- jact JReset;;
  match (b : bans) with
  | BOffline => crash
  | BAnswer _ => Ret tt
  end.

(** ** Events: an operation and its outcome *)
Inductive jev : Type := Ev (o : jop) (r : res (jresp o)).

(** [leads p l q]: with the events [l] the program [p] gets to the program [q]. *)
Fixpoint leads {A : Type} (p : jpgm A) (l : list jev) (q : jpgm A) : Prop :=
  match p with
  | Op o k => (l = [] /\ q = Op o k) \/ exists r l', l = Ev o r :: l' /\ leads (k r) l' q
  | Ret a => l = [] /\ q = Ret a
  | Raise e => l = [] /\ q = Raise e
  end.

(** ** The main loop *)

(** Steps collated by role (753-758). *)
Definition plan (method : list task) : dict (list task) :=
  fold_left (fun p s => let p' := if dhas p (t_role s) then p else dset p (t_role s) [] in
                        dset p' (t_role s) (match dget p' (t_role s) with Some l => l | None => [] end ++ [s]))
            method [].

(** A worker to be started: role, tasks, component, device, port of the driver. *)
Record worker : Type := mkWorker {
  wk_role : string; wk_tasks : list task; wk_comp : component; wk_device : device; wk_port : option Z
}.

(** The plan distributed over the components of the pipeline (761-786).  [drvs] are the
    rows of the drivers table.  An exception ends the main thread, not the workers
    already started; [inr] carries both. *)
Fixpoint distribute (df : devicefile) (drvs : dict drvstate) (p : dict (list task))
    (cs : dict string) (started : list worker) : list worker * option exn :=
  match cs with
  | [] => (started, None)
  | (crole, cname) :: r =>
      match dget (df_components df) cname with
      | None => (started, Some KeyError)
      | Some cmp =>
          match dget p crole with
          | None => distribute df drvs p r started                          (* 766-767 *)
          | Some tasks =>
              match dget (df_devices df) (c_device cmp), dget drvs (c_driver cmp),
                    dget (df_drivers df) (c_driver cmp) with
              | None, _, _ => (started, Some KeyError)
              | _, None, _ => (started, Some AssertionError)
              | _, _, None => (started, Some KeyError)
              | Some dev, Some drv, Some _ =>
                  distribute df drvs p r (started ++ [mkWorker crole tasks cmp dev (dv_port drv)])
              end
          end
      end
  end.

(** Operations of the polling loop (788-823): reading the attributes of the threads. *)
Inductive mop : Type :=
| MCurrent (i : nat)                  (* 803: current_task, its name *)
| MPush (i : nat) (l : list string)   (* 806-809 *)
| MCrashed (i : nat)                  (* 810, 812: crashed *)
| MAlive (i : nat)                    (* 812: is_alive() *)
| MClock                              (* 795 *)
| MSnapshot.                          (* 798: merge_netcdfs(job, snapshot=True) *)
Definition mresp (o : mop) : Type :=
  match o with
  | MCurrent _ => option string
  | MCrashed _ => bool
  | MAlive _ => bool
  | MClock => Z
  | _ => unit
  end.
Definition mpgm (A : Type) : Type := prog mop mresp A.
Definition mact (o : mop) : mpgm (mresp o) := do o.

(** [thread.is_alive() is False or thread.crashed] *)
Definition is_joined (i : nat) : mpgm bool :=
  a <- mact (MAlive i);;
  if (a : bool) then mact (MCrashed i) else Ret true.

(** The polling loop for workers number 0 to n-1 (794-823) and the value returned
    (825-829): whether any worker was seen to have crashed. *)
Fixpoint main_loop (fuel : nat) (snap : option Z) (ids : list nat) (ts : Z) (names : list string) : mpgm bool :=
  match fuel with
  | O => Raise OutOfFuel
  | S f =>
      tn <- mact MClock;;
      ts' <- (match snap with
              | Some iv => if iv <? (tn : Z) - ts then mact MSnapshot;;; Ret (ts + iv) else Ret ts
              | None => Ret ts
              end);;
      names' <- forP (fun acc i => o <- mact (MCurrent i);;
                                   Ret (match (o : option string) with
                                        | Some n => if mem n acc then acc else acc ++ [n]
                                        | None => acc
                                        end)) names ids;;
      forP (fun _ i => mact (MPush i names')) tt ids;;;
      crashed <- forP (fun acc i => b <- mact (MCrashed i);; Ret (acc ++ [b : bool])) [] ids;;
      joined <- forP (fun acc i => b <- is_joined i;; Ret (acc ++ [b : bool])) [] ids;;
      if forallb (fun b => b) joined then Ret (existsb (fun b => b) crashed)
      else main_loop f snap ids ts' names'
  end.

(** ** The job process: workers and main thread interleaved *)
Record wkst : Type := mkWk {
  k_tasks : list task;
  k_prog : jpgm unit;            (* what the thread still has to do *)
  k_crashed : bool;
  k_names : list string;
  k_current : option task;
  k_events : list jev            (* what it did so far, in order *)
}.
Record jsys : Type := mkJsys { s_wk : list wkst; s_main : mpgm bool }.

(** [is_alive()]; out of fuel stands for "still waiting". *)
Definition alive (k : wkst) : bool :=
  match k_prog k with Op _ _ | Raise OutOfFuel => true | _ => false end.

(** Outcome of a worker's operation: attributes of the thread are read and written; the
    answers of the driver, the clock and the file system are arbitrary. *)
Definition allowed (k : wkst) (o : jop) (r : res (jresp o)) : Prop :=
  match o as o' return res (jresp o') -> Prop with
  | JCurrent _ => fun r => r = Ok tt
  | JCrash => fun r => r = Ok tt
  | JNames => fun r => r = Ok (k_names k)
  | JClock => fun r => exists z, r = Ok z
  | _ => fun _ => True
  end r.
Definition wk_after (k : wkst) (o : jop) (r : res (jresp o)) (p : jpgm unit) : wkst :=
  mkWk (k_tasks k) p
       (match o with JCrash => true | _ => k_crashed k end)
       (k_names k)
       (match o with JCurrent c => c | _ => k_current k end)
       (k_events k ++ [Ev o r]).

(** Replace the i-th worker. *)
Fixpoint put_wk (i : nat) (k : wkst) (l : list wkst) : list wkst :=
  match l, i with
  | [], _ => []
  | _ :: r, O => k :: r
  | a :: r, S j => a :: put_wk j k r
  end.

(** Meaning of the operations of the main thread. *)
Definition mexec (s : list wkst) (o : mop) (r : res (mresp o)) (s' : list wkst) : Prop :=
  match o as o' return res (mresp o') -> Prop with
  | MCurrent i => fun r => s' = s /\ exists k, nth_error s i = Some k /\
                  r = Ok (match k_current k with Some t => t_name t | None => None end)
  | MPush i l => fun r => r = Ok tt /\ exists k, nth_error s i = Some k /\
                  s' = put_wk i (mkWk (k_tasks k) (k_prog k) (k_crashed k)
                                      (k_names k ++ filter (fun n => negb (mem n (k_names k))) l)
                                      (k_current k) (k_events k)) s
  | MCrashed i => fun r => s' = s /\ exists k, nth_error s i = Some k /\ r = Ok (k_crashed k)
  | MAlive i => fun r => s' = s /\ exists k, nth_error s i = Some k /\ r = Ok (alive k)
  | MClock => fun r => s' = s /\ exists z, r = Ok z
  | MSnapshot => fun _ => s' = s
  end r.

Inductive jstep : jsys -> jsys -> Prop :=
| step_worker : forall l m i k o kont r,
    nth_error l i = Some k -> k_prog k = Op o kont -> allowed k o r ->
    jstep (mkJsys l m) (mkJsys (put_wk i (wk_after k o r (kont r)) l) m)
| step_main : forall l l' o kont r,
    mexec l o r l' -> jstep (mkJsys l (Op o kont)) (mkJsys l' (kont r)).

Inductive jsteps : jsys -> jsys -> Prop :=
| js_refl : forall s, jsteps s s
| js_step : forall s1 s2 s3, jsteps s1 s2 -> jstep s2 s3 -> jsteps s1 s3.

(** The state in which job_main_loop has started its workers (776-793).  Connecting to
    [tcp://127.0.0.1:None] raises ZMQError (521-522). *)
Definition wk_start (fuel : nat) (w : worker) : wkst :=
  mkWk (wk_tasks w)
       (match wk_port w with
        | None => Raise ZMQError
        | Some _ => job_thread fuel (d_pollrate (wk_device w)) (wk_tasks w)
        end) false [] None [].
Definition job_start (fuel : nat) (snap : option Z) (ts : Z) (ws : list worker) : jsys :=
  mkJsys (map (wk_start fuel) ws) (main_loop fuel snap (seq 0 (List.length ws)) ts []).
