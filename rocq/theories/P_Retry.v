(** * P_Retry: theorems about requests that are sent again (C112) *)
From Coq Require Import List String ZArith Bool Lia Permutation.
From Verif Require Import Base Types Prog JobThreadModel DeviceModel SpecDevice DeviceProofs DeviceProofs2 RunModel SpecRun RunProofs
  RetryModel SpecRetry RetryProofs P_Run.
Import ListNotations.
Open Scope string_scope.
Open Scope list_scope.
Open Scope Z_scope.

(** ** C112 *)

(** Without late answers everything is as in RunModel, and C93 applies. *)
Theorem C112_conservative :
  forall same d p ls y, ysteps same (map YStep ls) (retry_start d p) = Some y ->
  rsteps same ls (run_start d p) = Some (y_run y) /\ y_again y = 0%nat.
Proof. intros same d p ls y H. exact (only_steps same ls (retry_start d p) y H). Qed.
Print Assumptions C112_conservative.

(** In all executions, whichever answers are late, whatever else uses the component and
    whatever fails: the data stored is some of the data measured, each point at most once
    and in order.  No point is stored twice because a request was sent twice. *)
Theorem C112_order :
  forall same d f pr ts ls y, can_reach d ->
  ysteps same ls (retry_start d (job_thread f pr ts)) = Some y ->
  leaves_out (r_stored (y_run y)) (measured (d_log (r_dev (y_run y)))) /\ NoDup (r_stored (y_run y)).
Proof. exact C112_order_lemma. Qed.
Print Assumptions C112_order.

(** For tasks without stop condition on a component used by this job only, when no answer
    to task_start was late: at any time every point measured is in exactly one of four
    places.  It is stored, just received, still in the component, or it was in an answer
    that came late.  When the worker has come to its end it is stored or it was in a late
    answer.
    Missing: late answers to task_start ([C112_twice_refuted]), and stop conditions (see
    [C93_stop_refuted]). *)
Theorem C112_partial :
  forall same d f pr ts ls y, (forall t, same t t = true) -> at_rest d ->
  (forall t, In t ts -> t_stop_with t = None) -> Forall patient ls ->
  ysteps same ls (retry_start d (job_thread f pr ts)) = Some y -> y_again y = 0%nat ->
  let s := y_run y in
  NoDup (measured (d_log (r_dev s))) /\
  Permutation (measured (d_log (r_dev s)))
    (measured (d_log d) ++ (r_stored s ++ y_lost y) ++ received (r_hist s) ++ outstanding (r_dev s)) /\
  (r_pgm s = Ret tt \/ r_pgm s = Raise AttributeError ->
   Permutation (measured (d_log (r_dev s))) (measured (d_log d) ++ r_stored s ++ y_lost y)).
Proof.
  intros same d f pr ts ls y Hs Hd Ht Hl H Ha s.
  split; [|exact (C112_lemma same d f pr ts ls y Hs Hd Ht Hl H Ha)].
  apply measured_nodup. exact (proj1 (order_ysteps _ _ (retry_start d (job_thread f pr ts)) _ (order_start d f pr ts (proj1 Hd)) H)).
Qed.
Print Assumptions C112_partial.

(** So late answers do no harm as long as they held no data and were not answers to
    task_start, for example when they were answers to task_status or cmp_reset. *)
Theorem C112_harmless :
  forall same f pr ts ls y, (forall t, same t t = true) ->
  (forall t, In t ts -> t_stop_with t = None) -> Forall patient ls ->
  ysteps same ls (retry_start dev_new (job_thread f pr ts)) = Some y ->
  y_again y = 0%nat -> y_lost y = [] ->
  r_pgm (y_run y) = Ret tt \/ r_pgm (y_run y) = Raise AttributeError ->
  r_stored (y_run y) = measured (d_log (r_dev (y_run y))).
Proof.
  intros same f pr ts ls y Hs Ht Hl H Ha Hn Hp.
  assert (R : at_rest dev_new) by (split; [exists []; reflexivity|]; repeat split).
  destruct (C112_lemma same dev_new f pr ts ls y Hs R Ht Hl H Ha) as [_ P]. specialize (P Hp). rewrite Hn, app_nil_r in P.
  apply lo_all; [exact (proj1 (C112_order_lemma _ _ _ _ _ _ _ (proj1 R) H))|].
  symmetry. exact (Permutation_length P).
Qed.
Print Assumptions C112_harmless.

(** In all executions on a component used by this job only, failing requests included:
    the tasks put into the queue are those whose acceptance the worker has learned, and
    one more for every late answer to task_start. *)
Theorem C112_items :
  forall same d p ls y, d_main d = MIdle -> Forall alone ls ->
  ysteps same ls (retry_start d p) = Some y ->
  d_items (r_dev (y_run y)) = (d_items d + accepted_sends (r_hist (y_run y)) + y_again y)%nat.
Proof. exact C112_items_lemma. Qed.
Print Assumptions C112_items.

(** Scripts as in P_Run, with late answers in between. *)
Definition Y (l : list rlabel) : list ylabel := map YStep l.
Definition retry_job (ts : list task) (ls : list ylabel) : option ysys :=
  ysteps ex_same ls (retry_start dev_new (job_thread 5 1 ts)).
Definition yseen (o : option ysys) :=
  option_map (fun y => (match r_pgm (y_run y) with Ret _ => Some (Ok tt) | Raise e => Some (Err e) | _ => None end,
     r_stored (y_run y), y_lost y, measured (d_log (r_dev (y_run y))), (y_again y, d_items (r_dev (y_run y))))) o.

(** The worker asks for data while the component measures, which takes longer than a
    second.  The request waits for the lock, and its answer holds the point just measured;
    it is late, and the second answer is empty.  The worker ends regularly. *)
Definition ex_late : list ylabel :=
  Y (J 0 4 ++ D 0 8 ++ J 0 3 ++ D 2 4 ++ J 2 2) ++ [YLate] ++
  Y (D 2 5 ++ G 4 ++ J 2 1 ++ G 4 ++ J 2 1 ++ D 4 11 ++ J 2 3 ++ G 4 ++ J 4 3 ++ D 4 2 ++ G 6).
Theorem C112_refuted :
  exists ts ls y, (forall t, In t ts -> t_stop_with t = None) /\ Forall patient ls /\
    ysteps ex_same ls (retry_start dev_new (job_thread 5 1 ts)) = Some y /\ y_again y = 0%nat /\
    r_pgm (y_run y) = Ret tt /\ ~ In (Ev JCrash (Ok tt)) (r_hist (y_run y)) /\
    r_stored (y_run y) = [1%nat] /\ measured (d_log (r_dev (y_run y))) = [0%nat; 1%nat] /\ y_lost y = [0%nat].
Proof.
  exists [ex_task 1 3 None], ex_late. eexists.
  split; [intros t [<-|[]]; reflexivity|]. split; [repeat constructor|].
  split; [vm_compute; reflexivity|]. split; [reflexivity|]. split; [reflexivity|].
  split; [intros X; cbn [r_hist y_run] in X; repeat (destruct X as [X|X]; [discriminate X|]); contradiction|].
  split; [reflexivity|]. split; reflexivity.
Qed.
Print Assumptions C112_refuted.

(** The answer to task_start is late: the only task of the job is executed twice.  The
    second execution drops the data of the first before the worker has fetched it. *)
Definition ex_twice : list ylabel :=
  Y (J 0 3) ++ [YLate] ++
  Y (J 0 1 ++ D 0 8 ++ J 0 3 ++ D 2 11 ++ D 2 8 ++ J 2 2 ++ G 4 ++ J 2 1 ++ D 4 11 ++ J 4 2 ++ G 4 ++
     J 4 3 ++ G 4 ++ J 4 2 ++ D 4 2 ++ G 6).
Theorem C112_twice_refuted :
  exists t ls y i1 i2, t_stop_with t = None /\ Forall patient ls /\
    ysteps ex_same ls (retry_start dev_new (job_thread 5 1 [t])) = Some y /\
    r_pgm (y_run y) = Ret tt /\ ~ In (Ev JCrash (Ok tt)) (r_hist (y_run y)) /\
    accepted_sends (r_hist (y_run y)) = 1%nat /\ i1 <> i2 /\
    In (LFinish i1) (d_log (r_dev (y_run y))) /\ In (LFinish i2) (d_log (r_dev (y_run y))) /\
    r_stored (y_run y) = [1%nat] /\ measured (d_log (r_dev (y_run y))) = [0%nat; 1%nat] /\
    y_lost y = [] /\ In (LDrop [0%nat]) (d_log (r_dev (y_run y))).
Proof.
  exists (ex_task 1 1 None), ex_twice. eexists. exists (mkItem 0 (KTask 1 1)), (mkItem 1 (KTask 1 1)).
  split; [reflexivity|]. split; [repeat constructor|].
  split; [vm_compute; reflexivity|]. split; [reflexivity|].
  split; [intros X; cbn [r_hist y_run] in X; repeat (destruct X as [X|X]; [discriminate X|]); contradiction|].
  split; [reflexivity|]. split; [discriminate|]. split; [vm_compute; auto 60|]. split; [vm_compute; auto 60|].
  split; [reflexivity|]. split; [reflexivity|]. split; [reflexivity|]. vm_compute; auto 60.
Qed.
Print Assumptions C112_twice_refuted.

(** Late answers to task_status and cmp_reset, twice each: nothing is lost. *)
Example C112_ex_harmless :
  yseen (retry_job [ex_task 1 3 None]
    (Y (J 0 1) ++ [YLate; YLate] ++ Y (J 0 3 ++ D 0 8 ++ J 0 1) ++ [YLate] ++ Y (J 0 2 ++ D 2 9 ++ J 2 2 ++ G 4 ++ J 2 2 ++ D 4 11 ++
     J 2 3 ++ G 4 ++ J 4 2 ++ J 4 1) ++ [YLate] ++ Y (D 4 2 ++ G 6 ++ J 4 1) ++ [YLate] ++ Y (D 4 2 ++ G 6 ++ J 4 1 ++ D 4 2 ++ G 6)))
  = Some (Some (Ok tt), [0%nat; 1%nat], [], [0%nat; 1%nat], (0%nat, 1%nat)).
Proof. vm_compute. reflexivity. Qed.
(** The first of three answers holds data, and two of them are late: the last one is empty. *)
Example C112_ex_three :
  option_map (fun y => (y_lost y, hd_error (r_hist (y_run y)), outstanding (r_dev (y_run y))))
   (retry_job [ex_task 1 3 None]
    (Y (J 0 4 ++ D 0 8 ++ J 0 3 ++ D 2 9 ++ J 2 2) ++ [YLate] ++ Y (G 4 ++ J 2 1) ++ [YLate] ++ Y (G 4 ++ J 2 1 ++ G 4)))
  = Some ([0%nat], Some (Ev JData (Ok DNothing)), []).
Proof. vm_compute. reflexivity. Qed.
