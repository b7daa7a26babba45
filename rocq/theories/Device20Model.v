(** * Device20Model: a component of the 2.0 interface

    Models [ModelDevice] of driverinterface_2_0/__init__.py:505-728 with the requests
    cmp_measure (317-332), task_start (334-355), task_stop (375-395), task_data (397-415)
    and cmp_reset (197-208).  Here every task gets a thread of its own: [self.thread] is the thread
    that the next task will use, and [task_runner] replaces it when it is done; a one-off
    measurement gets a thread that runs [meas_runner] (619-633).

    The steps are coarser than in [DeviceModel]: one turn of the measuring loop, and
    each request, is a single step.  The executions of this model are therefore some of
    the executions of the code, those in which no other thread runs within such a step.
    The model is used for exhibiting executions, and for what a request does by itself.
    Definitions only. *)
From Coq Require Import List ZArith Bool.
Import ListNotations.
Open Scope Z_scope.

(** A task: sampling interval and maximum duration. *)
Record xtask : Type := mkXT { x_interval : Z; x_duration : Z }.

(** Where a thread is in task_runner (566-617). *)
Inductive xpc : Type :=
| XNew                                    (* created, not started *)
| XBegin                                  (* 580: self.running = True *)
| XGet                                    (* 583: self.task_list.get() *)
| XStart (t : xtask)                      (* 584-591: prepare_task, clock, data = None *)
| XLoop (t : xtask) (t0 tp : Z)           (* 592-609: one turn of the loop *)
| XDone                                   (* 611-613 *)
| XMeasBegin                              (* 627: self.running = True *)
| XMeasure                                (* 628-631: do_measure, then running and thread *)
| XEnd.
(** A thread and its [do_run] attribute (not set before run, 555-558). *)
Record xthread : Type := mkXth { xt_pc : xpc; xt_run : bool }.

(** The object; threads are numbered in order of creation and [x_cur] is [self.thread].
    [x_open] is the number of unfinished tasks of the queue.  [x_log] records which
    thread made which measurement, latest first. *)
Record xdev : Type := mkX {
  x_queue : list xtask;
  x_open : nat;
  x_running : bool;
  x_data : list nat;
  x_cur : nat;
  x_threads : list xthread;
  x_points : nat;
  x_log : list (nat * nat)
}.

(** [__init__] (543-553). *)
Definition x_new : xdev := mkX [] 0 false [] 0 [mkXth XNew false] 0 [].

(** Replace the i-th thread. *)
Fixpoint set_thread (i : nat) (t : xthread) (l : list xthread) : list xthread :=
  match l, i with
  | [], _ => []
  | _ :: r, O => t :: r
  | b :: r, S j => b :: set_thread j t r
  end.
Definition with_threads (l : list xthread) (s : xdev) : xdev :=
  mkX (x_queue s) (x_open s) (x_running s) (x_data s) (x_cur s) l (x_points s) (x_log s).

(** [setattr(thread, "do_run", b)] for the i-th thread. *)
Definition set_run (i : nat) (b : bool) (l : list xthread) : list xthread :=
  match nth_error l i with
  | Some th => set_thread i (mkXth (xt_pc th) b) l
  | None => l
  end.

(** One step of thread [i]; [fails] makes the driver's own code (prepare_task,
    do_measure) raise.  [None] when it cannot step (not started, waiting for a task, or
    ended). *)
Definition xwork (i : nat) (clock : Z) (fails : bool) (s : xdev) : option xdev :=
  match nth_error (x_threads s) i with
  | None => None
  | Some th =>
      let go (p : xpc) (s' : xdev) := Some (with_threads (set_thread i (mkXth p (xt_run th)) (x_threads s')) s') in
      match xt_pc th with
      | XNew => None
      | XBegin => go XGet (mkX (x_queue s) (x_open s) true (x_data s) (x_cur s) (x_threads s) (x_points s) (x_log s))
      | XGet =>
          match x_queue s with
          | [] => None
          | t :: q => go (XStart t) (mkX q (x_open s) (x_running s) (x_data s) (x_cur s) (x_threads s) (x_points s) (x_log s))
          end
      | XStart t =>
          (* 585-587: a failure clears the flag of [self.thread], which after a reset is
             not this thread *)
          let run := if fails && Nat.eqb (x_cur s) i then false else xt_run th in
          let l := if fails then set_run (x_cur s) false (x_threads s) else x_threads s in
          Some (mkX (x_queue s) (x_open s) (x_running s) [] (x_cur s)
                    (set_thread i (mkXth (XLoop t clock clock) run) l) (x_points s) (x_log s))
      | XLoop t t0 tp =>
          if xt_run th then
            let due := x_interval t <? clock - tp in
            let s1 := if due && negb fails
                      then mkX (x_queue s) (x_open s) (x_running s) (x_data s ++ [x_points s]) (x_cur s)
                               (x_threads s) (S (x_points s)) ((i, x_points s) :: x_log s)
                      else s in
            let tp' := if due then tp + x_interval t else tp in
            let run := negb (due && fails) in                              (* 604-606 *)
            Some (with_threads
                    (set_thread i (mkXth (if x_duration t <? clock - t0 then XDone else XLoop t t0 tp') run)
                                (x_threads s1)) s1)
          else go XDone s
      | XDone =>
          match x_open s with
          | O => go XEnd s              (* task_done() raises ValueError: the thread ends here *)
          | S n =>
              Some (mkX (x_queue s) n false (x_data s) (List.length (x_threads s))
                        (set_thread i (mkXth XEnd (xt_run th)) (x_threads s) ++ [mkXth XNew false])
                        (x_points s) (x_log s))
          end
      | XMeasBegin =>
          go XMeasure (mkX (x_queue s) (x_open s) true (x_data s) (x_cur s) (x_threads s) (x_points s) (x_log s))
      | XMeasure =>
          if fails then go XEnd s                                          (* 632-633 *)
          else Some (mkX (x_queue s) (x_open s) false (x_data s) (List.length (x_threads s))
                         (set_thread i (mkXth XEnd (xt_run th)) (x_threads s) ++ [mkXth XNew false])
                         (S (x_points s)) ((i, x_points s) :: x_log s))
      | XEnd => None
      end
  end.

(** task_start (334-355) of a valid task.  [None]: [thread.start()] raises RuntimeError
    because the thread was started before. *)
Definition xtask_start (t : xtask) (s : xdev) : option xdev :=
  match nth_error (x_threads s) (x_cur s) with
  | Some (mkXth XNew _) =>
      Some (mkX (x_queue s ++ [t]) (S (x_open s)) (x_running s) (x_data s) (x_cur s)
                (set_thread (x_cur s) (mkXth XBegin true) (x_threads s)) (x_points s) (x_log s))
  | _ => None
  end.

(** cmp_measure (317-332), measure (560-564); [None]: refused. *)
Definition xmeasure (s : xdev) : option xdev :=
  if x_running s then None
  else Some (mkX (x_queue s) (x_open s) (x_running s) (x_data s) (List.length (x_threads s))
                 (x_threads s ++ [mkXth XMeasBegin true]) (x_points s) (x_log s)).

(** task_stop (375-395): stop_task (671-674), then task_data. *)
Definition xtask_stop (s : xdev) : xdev * list nat :=
  (mkX (x_queue s) (x_open s) (x_running s) [] (x_cur s)
       (set_run (x_cur s) true (x_threads s)) (x_points s) (x_log s),
   x_data s).

(** cmp_reset (197-208), reset (721-728). *)
Definition xreset (s : xdev) : xdev :=
  mkX [] 0 false [] (List.length (x_threads s)) (x_threads s ++ [mkXth XNew false]) (x_points s) (x_log s).

(** Executions. *)
Inductive xmove : Type :=
| XWork (i : nat) (clock : Z)
| XFail (i : nat) (clock : Z)             (* the driver's code raises in this step *)
| XTask (t : xtask)
| XMeas
| XStop
| XReset.
Definition xstep (m : xmove) (s : xdev) : option xdev :=
  match m with
  | XWork i c => xwork i c false s
  | XFail i c => xwork i c true s
  | XTask t => xtask_start t s
  | XMeas => Some (match xmeasure s with Some s' => s' | None => s end)
  | XStop => Some (fst (xtask_stop s))
  | XReset => Some (xreset s)
  end.
Fixpoint xsteps (l : list xmove) (s : xdev) : option xdev :=
  match l with
  | [] => Some s
  | m :: r => match xstep m s with Some s' => xsteps r s' | None => None end
  end.
