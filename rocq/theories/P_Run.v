(** * P_Run: theorems about a job's worker and its component together (C93) *)
From Coq Require Import List String ZArith Bool Lia.
From Verif Require Import Base Types Prog JobThreadModel DeviceModel SpecDevice RunModel SpecRun RunProofs2 RunProofs3 RunProofs4.
Import ListNotations.
Open Scope string_scope.
Open Scope list_scope.
Open Scope Z_scope.

Definition ex_same (t t' : task) : bool :=
  String.eqb (t_technique t) (t_technique t') && Z.eqb (t_interval t) (t_interval t') &&
  Z.eqb (t_duration t) (t_duration t').
Lemma ex_same_refl t : ex_same t t = true.
Proof. unfold ex_same. rewrite String.eqb_refl, !Z.eqb_refl. reflexivity. Qed.
Definition ex_task (iv du : Z) (stop : option string) : task :=
  mkTask "counter" "count" None (Some "a") None stop iv du.

(** Scripts: the job's worker at time [t], [n] steps; the component's thread likewise. *)
Definition J (t : Z) (n : nat) : list rlabel := repeat (RJob t ["b"] true) n.
Definition D (t : Z) (n : nat) : list rlabel := repeat (RWork t false) n.
Definition G (n : nat) : list rlabel := repeat RGo n.
Definition run_job (ts : list task) (ls : list rlabel) : option rsys :=
  rsteps ex_same ls (run_start dev_new (job_thread 5 1 ts)).
Definition seen (o : option rsys) :=
  option_map (fun s => (match r_pgm s with Ret _ => Some (Ok tt) | Raise e => Some (Err e) | _ => None end,
                        r_stored s, measured (d_log (r_dev s)), d_data (r_dev s))) o.

(** ** C93 *)

(** In all executions, whatever else uses the component and whatever fails, the data
    stored is some of the data measured, each point at most once and in order. *)
Theorem C93_order :
  forall same d f pr ts ls s, can_reach d ->
  rsteps same ls (run_start d (job_thread f pr ts)) = Some s ->
  leaves_out (r_stored s) (measured (d_log (r_dev s))) /\ NoDup (r_stored s).
Proof. exact C93_order_lemma. Qed.
Print Assumptions C93_order.

(** For tasks without stop condition, on a component that nobody else uses and that
    answers: at any time every point measured is stored, just received, or still in the
    component; when the worker has come to its end, everything is stored.  (A worker with
    two tasks or more ends with AttributeError, see C59.)  The driver's own code may fail
    at any point.
    Missing: tasks with stop condition ([C93_stop_refuted]) and tasks that are over
    before they are seen to run ([C93_short_refuted]). *)
Theorem C93_stored_partial :
  forall same d f pr ts ls s, (forall t, same t t = true) -> at_rest d ->
  (forall t, In t ts -> t_stop_with t = None) -> Forall undisturbed ls ->
  rsteps same ls (run_start d (job_thread f pr ts)) = Some s ->
  measured (d_log (r_dev s)) =
    measured (d_log d) ++ r_stored s ++ received (r_hist s) ++ outstanding (r_dev s) /\
  (r_pgm s = Ret tt \/ r_pgm s = Raise AttributeError ->
   measured (d_log (r_dev s)) = measured (d_log d) ++ r_stored s).
Proof. exact C93_lemma. Qed.
Print Assumptions C93_stored_partial.

(** A task is executed completely between two status requests of the job: the job takes
    it for not started, and gives up after ten seconds without fetching its data. *)
Definition ex_short : list rlabel := J 0 4 ++ D 0 8 ++ D 2 11 ++ J 1 2 ++ J 11 3.
Theorem C93_short_refuted :
  exists ts ls s it, (forall t, In t ts -> t_stop_with t = None) /\ Forall undisturbed ls /\
    rsteps ex_same ls (run_start dev_new (job_thread 5 1 ts)) = Some s /\
    In (LFinish it) (d_log (r_dev s)) /\ measured (d_log (r_dev s)) = [0%nat] /\
    r_stored s = [] /\ r_pgm s = Raise SystemExit /\ In (Ev JCrash (Ok tt)) (r_hist s).
Proof.
  exists [ex_task 1 1 None], ex_short. eexists. exists (mkItem 0 (KTask 1 1)).
  split; [intros t [<-|[]]; reflexivity|]. split; [repeat constructor|].
  split; [vm_compute; reflexivity|]. split; [vm_compute; auto 20|]. split; [reflexivity|]. split; [reflexivity|].
  split; [reflexivity|]. vm_compute. auto 20.
Qed.
Print Assumptions C93_short_refuted.

(** A task is stopped while its component is about to measure: the point is measured after
    the job has fetched its last data, and lost by the reset. *)
Definition ex_stop : list rlabel :=
  J 0 4 ++ D 0 8 ++ J 0 3 ++ D 2 9 ++ D 4 3 ++ J 1 4 ++ G 4 ++ J 1 2 ++ G 4 ++ D 4 8 ++ J 1 2 ++ D 4 2 ++ G 6.
Theorem C93_stop_refuted :
  exists ts ls s, Forall undisturbed ls /\
    rsteps ex_same ls (run_start dev_new (job_thread 5 1 ts)) = Some s /\
    r_pgm s = Ret tt /\ ~ In (Ev JCrash (Ok tt)) (r_hist s) /\
    r_stored s = [0%nat] /\ measured (d_log (r_dev s)) = [0%nat; 1%nat] /\ In (LLost [1%nat]) (d_log (r_dev s)).
Proof.
  exists [ex_task 1 100 (Some "b")], ex_stop. eexists.
  split; [repeat constructor|]. split; [vm_compute; reflexivity|]. split; [reflexivity|].
  split; [intros X; cbn [r_hist] in X; repeat (destruct X as [X|X]; [discriminate X|]); contradiction|].
  split; [reflexivity|]. split; [reflexivity|].
  vm_compute. auto 20.
Qed.
Print Assumptions C93_stop_refuted.

(** One request of the worker fails, at whatever point of whatever execution: the worker
    sends no task and stores no data any more; it marks itself as crashed and exits. *)
Theorem C93_lost :
  forall same d f pr ts ls s s1 ls' s',
  rsteps same ls (run_start d (job_thread f pr ts)) = Some s -> rstep same ROffline s = Some s1 ->
  rsteps same ls' s1 = Some s' ->
  r_stored s' = r_stored s /\ r_sent s' = r_sent s /\
  (r_pgm s' = Raise SystemExit \/ exists k, r_pgm s' = Op JCrash k /\ k (Ok tt) = Raise SystemExit).
Proof. exact C93_lost_lemma. Qed.
Print Assumptions C93_lost.

(** A point was measured; the next status request fails; the component goes on. *)
Example C93_ex4 :
  seen (run_job [ex_task 1 3 None] (J 0 4 ++ D 0 8 ++ J 0 3 ++ D 2 9 ++ J 0 1 ++ [ROffline] ++ D 4 11 ++ J 4 1))
  = Some (Some (Err SystemExit), [], [0%nat; 1%nat], [0%nat; 1%nat]).
Proof. vm_compute. reflexivity. Qed.
(** The same for the requests to start a task, for data, to stop and to reset. *)
Example C93_ex5 :
  map (fun ls => option_map fst (option_map fst (option_map fst (seen (run_job [ex_task 1 3 (Some "b")] ls)))))
    [ J 0 3 ++ [ROffline] ++ J 0 1; J 0 4 ++ D 0 8 ++ J 0 3 ++ J 5 1 ++ [ROffline] ++ J 0 1;
      J 0 4 ++ D 0 8 ++ J 0 6 ++ [ROffline] ++ J 0 1 ] =
  [Some (Some (Err SystemExit)); Some (Some (Err SystemExit)); Some (Some (Err SystemExit))] /\
  option_map fst (option_map fst (option_map fst (seen (run_job [] ([ROffline] ++ J 0 1))))) = Some (Some (Err SystemExit)).
Proof. vm_compute. auto. Qed.

(** The whole way: two points, the first fetched while the task runs, the second after it. *)
Definition ex_full : list rlabel :=
  J 0 4 ++ D 0 8 ++ J 0 3 ++ D 2 9 ++ J 2 2 ++ G 4 ++ J 2 2 ++ D 4 11 ++ J 2 3 ++ G 4 ++ J 4 3 ++ D 4 2 ++ G 6.
Example C93_ex1 :
  seen (run_job [ex_task 1 3 None] ex_full) = Some (Some (Ok tt), [0%nat; 1%nat], [0%nat; 1%nat], []).
Proof. vm_compute. reflexivity. Qed.
(** On the way, after the first point was received and a second one measured: one is
    received, none stored, one is still in the component. *)
Example C93_ex2 :
  option_map (fun s => (r_stored s, received (r_hist s), outstanding (r_dev s)))
    (run_job [ex_task 1 3 None] (J 0 4 ++ D 0 8 ++ J 0 3 ++ D 2 9 ++ J 2 2 ++ G 4 ++ D 4 11))
  = Some ([], [0%nat], [1%nat]).
Proof. vm_compute. reflexivity. Qed.
(** A request of somebody else takes the first point away (not excluded by [C93_order]). *)
Example C93_ex3 :
  seen (run_job [ex_task 1 3 None]
    (J 0 4 ++ D 0 8 ++ J 0 3 ++ D 2 9 ++ [RAsk AData] ++ G 4 ++ D 4 11 ++ J 1 3 ++ G 4 ++ J 4 3 ++ D 4 2 ++ G 6))
  = Some (Some (Ok tt), [1%nat], [0%nat; 1%nat], []).
Proof. vm_compute. reflexivity. Qed.

(** ** C94: the status of a component *)

(** In all executions a status request is answered with "running" exactly when an item
    has been announced and is not finished, and then it is being executed.
    Missing: the converse of the latter, see [C94_refuted]. *)
Theorem C94_partial :
  forall s, can_reach s ->
  told (d_log s) /\
  (forall it, announced (d_log s) = Some it -> busy (d_log s) = Some (Some it)).
Proof. intros s R. split; [exact (told_reach s R)|]. intros it. exact (announced_busy s it R). Qed.
Print Assumptions C94_partial.

(** The worker has taken a task and the component says that it is not running. *)
Theorem C94_refuted :
  exists s it l, can_reach s /\ d_log s = LStatus false :: l /\ busy l = Some (Some it) /\ is_task it = true.
Proof.
  eexists. exists (mkItem 0 (KTask 1 100)). eexists.
  split; [exists [Ask (AStart 1 100); Work 0 false; Work 0 false; Ask AStatus]; vm_compute; reflexivity|].
  split; [reflexivity|]. split; reflexivity.
Qed.
Print Assumptions C94_refuted.

(** Before, while and after a task runs. *)
Example C94_ex1 :
  option_map (fun s => (statuses (d_log s), measured (d_log s)))
    (dsteps ([Ask AStatus; Ask (AStart 1 1); Ask AStatus] ++ repeat (Work 0 false) 3 ++ [Ask AStatus] ++
             repeat (Work 0 false) 5 ++ repeat (Work 2 false) 10 ++ [Ask AStatus; Work 2 false; Ask AStatus]) dev_new)
  = Some ([false; false; true; true; false], [0%nat]).
Proof. vm_compute. reflexivity. Qed.
