(** * RetryModel: a worker of a job whose requests are sent again

    Extends RunModel by lpp.comm (daemon/lpp.py:21-66): when no answer has come within a
    second, the socket is closed and the request is sent again.  The driver has executed,
    or still executes, the first request as well; its answer is received by nobody.
    Definitions only.

    Simplifications: comm sends a request three times at most; here it may be sent again
    any number of times.  A request that waits for the driver is executed before the next
    one of the worker; requests still waiting when comm has given up are requests of
    somebody else ([RAsk]).  Requests that a driver refuses have no effect and can be sent
    again without any, so these are not late. *)
From Coq Require Import List String ZArith Bool.
From Verif Require Import Base Types Prog JobThreadModel DeviceModel RunModel.
Import ListNotations.
Open Scope Z_scope.

(** The state: worker and component as in RunModel; for the statement of the properties,
    the points in answers that nobody received, and how many tasks were sent again. *)
Record ysys : Type := mkY { y_run : rsys; y_lost : list nat; y_again : nat }.
Definition retry_start (d : dev) (p : jpgm unit) : ysys := mkY (run_start d p) [] 0.

(** The scheduler's choices: a step as in RunModel, or the answer is late. *)
Inductive ylabel : Type := YStep (l : rlabel) | YLate.

(** The answer given by this step is received by nobody. *)
Definition missed (l : rlabel) (s : rsys) : list nat :=
  match l, d_main (r_dev s), r_wait s with
  | RGo, MUnlock ret, false => ret
  | _, _, _ => []
  end.

(** No answer in time (lpp.py:41-60): a status request has been answered for nobody, a
    task has been put into the queue, and a request under way is completed for nobody.  The
    worker sends the same request again. *)
Definition late (y : ysys) : option ysys :=
  let s := y_run y in
  match r_pgm s with
  | Op JStatus _ =>
      option_map (fun d => mkY (with_dev s d) (y_lost y) (y_again y)) (begin_request AStatus (r_dev s))
  | Op (JSend t) _ =>
      option_map (fun d => mkY (mkR d (r_pgm s) (r_wait s) (r_cur s) ((d_items (r_dev s), t) :: r_sent s)
                                    (r_stored s) (r_hist s)) (y_lost y) (S (y_again y)))
                 (begin_request (AStart (t_interval t) (t_duration t)) (r_dev s))
  | Op JData _ | Op JStop _ | Op JReset _ =>
      if r_wait s then
        Some (mkY (mkR (r_dev s) (r_pgm s) false (r_cur s) (r_sent s) (r_stored s) (r_hist s))
                  (y_lost y) (y_again y))
      else None
  | _ => None
  end.

(** Worker, component and late answers take steps in any order. *)
Definition ystep (same : task -> task -> bool) (l : ylabel) (y : ysys) : option ysys :=
  match l with
  | YStep l =>
      option_map (fun s => mkY s (y_lost y ++ missed l (y_run y)) (y_again y)) (rstep same l (y_run y))
  | YLate => late y
  end.
Fixpoint ysteps (same : task -> task -> bool) (ls : list ylabel) (y : ysys) : option ysys :=
  match ls with
  | [] => Some y
  | l :: r => match ystep same l y with Some y' => ysteps same r y' | None => None end
  end.
