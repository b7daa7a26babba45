(** * P_Retry2: where measured points are, in all executions (C112, C93) *)
From Coq Require Import List String ZArith Bool Lia Permutation.
From Verif Require Import Base Types Prog JobThreadModel DeviceModel SpecDevice DeviceProofs DeviceProofs2 RunModel SpecRun RunProofs
  RetryModel SpecRetry SpecRetry2 RetryProofs RetryProofs2 P_Run P_Retry.
Import ListNotations.
Open Scope string_scope.
Open Scope list_scope.
Open Scope Z_scope.

(** In all executions on a component used by this job only, whichever answers are late and
    whichever requests fail, with or without stop conditions, whichever tasks are repeated:
    every point measured is in exactly one of six places.  It was fetched before the
    job began, or it is stored, just received, was in an answer that nobody received, was
    dropped by the start of a task or by a reset, or is still in the component.  The points
    returned to requests are those of the first four kinds. *)
Theorem C112_account :
  forall same d f pr ts ls y, can_reach d -> Forall alone ls ->
  ysteps same ls (retry_start d (job_thread f pr ts)) = Some y ->
  let s := y_run y in
  NoDup (measured (d_log (r_dev s))) /\
  Permutation (returned (d_log (r_dev s))) (returned (d_log d) ++ r_stored s ++ received (r_hist s) ++ y_lost y) /\
  Permutation (measured (d_log (r_dev s)))
    (returned (d_log d) ++ r_stored s ++ received (r_hist s) ++ y_lost y ++
     dropped (d_log (r_dev s)) ++ outstanding (r_dev s)).
Proof.
  intros same d f pr ts ls y Hd Hl H s.
  split; [|exact (account_lemma same d f pr ts ls y Hd Hl H)].
  apply measured_nodup. exact (proj1 (order_ysteps _ _ (retry_start d (job_thread f pr ts)) _ (order_start d f pr ts Hd) H)).
Qed.
Print Assumptions C112_account.

(** Hence, for a worker whose requests are all answered in time, with or without stop
    conditions: what is missing from the data stored is what the component dropped at the
    start of a task or by a reset. *)
Theorem C93_account :
  forall same d f pr ts ls s, can_reach d -> d_main d = MIdle -> Forall undisturbed ls ->
  rsteps same ls (run_start d (job_thread f pr ts)) = Some s ->
  Permutation (returned (d_log (r_dev s))) (returned (d_log d) ++ r_stored s ++ received (r_hist s)) /\
  Permutation (measured (d_log (r_dev s)))
    (returned (d_log d) ++ r_stored s ++ received (r_hist s) ++ dropped (d_log (r_dev s)) ++ outstanding (r_dev s)).
Proof. exact C93_account_lemma. Qed.
Print Assumptions C93_account.

(** Stored, just received, in answers that nobody received, dropped, still in the component:
    a task that is stopped; one that is executed twice; an answer that is late while the
    component goes on; a request that is late once and then fails. *)
Definition where_are (o : option ysys) :=
  option_map (fun y => (match r_pgm (y_run y) with Ret _ => Some (Ok tt) | Raise e => Some (Err e) | _ => None end,
     [r_stored (y_run y); received (r_hist (y_run y)); y_lost y; dropped (d_log (r_dev (y_run y))); outstanding (r_dev (y_run y))])) o.
Example C112_ex_where :
  map where_are
    [ retry_job [ex_task 1 100 (Some "b")] (Y ex_stop);
      retry_job [ex_task 1 1 None] ex_twice;
      retry_job [ex_task 1 9 None] (Y (J 0 4 ++ D 0 8 ++ J 0 3 ++ D 2 9 ++ J 2 2) ++ [YLate] ++
        Y (G 4 ++ D 4 8 ++ J 2 1 ++ G 4 ++ D 6 8));
      retry_job [ex_task 1 9 None] (Y (J 0 4 ++ D 0 8 ++ J 0 3 ++ D 2 9 ++ J 2 2) ++ [YLate] ++
        Y (G 4 ++ J 2 1 ++ [ROffline] ++ D 4 8 ++ G 4 ++ J 2 1 ++ D 6 9)) ]
  = [ Some (Some (Ok tt), [[0%nat]; []; []; [1%nat]; []]);
      Some (Some (Ok tt), [[1%nat]; []; []; [0%nat]; []]);
      Some (None, [[]; [1%nat]; [0%nat]; []; [2%nat]]);
      Some (Some (Err SystemExit), [[]; []; [0%nat; 1%nat]; []; [2%nat]]) ].
Proof. vm_compute. reflexivity. Qed.
