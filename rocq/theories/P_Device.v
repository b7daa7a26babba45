(** * P_Device: properties of a component and its worker thread (C52 to C57)

    [can_reach s] ranges over all requests, all schedules of the two threads, all clock
    readings and all failures of the driver's own code. *)
From Coq Require Import List ZArith Bool Lia.
From Verif Require Import DeviceModel SpecDevice DeviceProofs DeviceProofs2 DeviceProofs3 Device20Model Device20Proofs.
Import ListNotations.
Open Scope Z_scope.

(** ** C52: tasks run one at a time in submission order *)

(** For one device object: an item is begun only when no other is being worked on; items
    are taken in the order of acceptance, each at most once; those accepted and not begun
    are waiting or were discarded by a reset.
    Missing: see [C52_refuted] (a component that is registered again). *)
Theorem C52_partial s :
  can_reach s ->
  busy (d_log s) = Some (executing s)
  /\ waiting (d_log s) = Some (d_queue s)
  /\ leaves_out (begun (d_log s) ++ map q_id (d_queue s)) (accepted (d_log s))
  /\ NoDup (accepted (d_log s)).
Proof.
  intros R. split; [exact (I_busy _ (Ictl_reach _ R))|]. split; [exact (Iqueue_reach _ R)|].
  split; [exact (waiting_order _ _ (Iqueue_reach _ R))|].
  rewrite (accepted_seq _ R). exact (seq_NoDup _ _).
Qed.
Print Assumptions C52_partial.

(** A component that is registered again consists of such objects. *)
Theorem C52_objects l c :
  csteps l comp_new = Some c -> can_reach (c_now c) /\ Forall can_reach (c_old c).
Proof.
  intros H. exact (comp_objects l comp_new c H (ex_intro _ [] eq_refl) (Forall_nil _)).
Qed.
Print Assumptions C52_objects.

(** Registering a component that is busy (passata register) starts a second worker; the
    two measure at the same time. *)
Theorem C52_refuted :
  exists l c old a b, csteps l comp_new = Some c
    /\ In old (c_old c)
    /\ (exists t0 tp n tn, d_worker old = WMeasure a t0 tp n tn)
    /\ (exists t0 tp n tn, d_worker (c_now c) = WMeasure b t0 tp n tn).
Proof.
  exists (Now (Ask (AStart 1 100)) :: map Now (to_loop 0 ++ [W 2; W 2; W 2; W 2])
          ++ Register :: Now (Ask (AStart 1 100)) :: map Now (to_loop 3 ++ [W 5; W 5; W 5; W 5])).
  eexists. eexists. eexists. eexists. split; [vm_compute; reflexivity|].
  split; [left; reflexivity|]. split; do 4 eexists; vm_compute; reflexivity.
Qed.
Print Assumptions C52_refuted.

Definition ex_two_tasks : list move :=
  [Ask (AStart 1 3); Ask (AStart 2 9)] ++ to_loop 0 ++ turn 2 ++ turn 5 ++ [W 5; W 5; W 5].
Example C52_ex1 :
  option_map (fun s => (executing s, map q_id (d_queue s), begun (d_log s), accepted (d_log s)))
    (dsteps ex_two_tasks dev_new)
  = Some (None, [1%nat], [0%nat], [0%nat; 1%nat]).
Proof. vm_compute. reflexivity. Qed.
(** ... and the second task is begun next. *)
Example C52_ex2 :
  option_map (fun s => begun (d_log s)) (dsteps (ex_two_tasks ++ [W 6; W 6]) dev_new) = Some [0%nat; 1%nat].
Proof. vm_compute. reflexivity. Qed.
(** The specification rejects other histories. *)
Example C52_ex3 :
  let a := mkItem 0 (KTask 1 1) in let b := mkItem 1 (KTask 1 1) in
  waiting [LBegin b; LAccept b; LAccept a] = None
  /\ waiting [LBegin a; LBegin a; LAccept a] = None
  /\ waiting [LBegin a; LReset; LAccept a] = None
  /\ busy [LBegin b; LBegin a] = None.
Proof. vm_compute. auto. Qed.

(** ** C53: no measured data point is duplicated or reordered *)
Theorem C53 s :
  can_reach s ->
  measured (d_log s) = settled (d_log s) ++ outstanding s
  /\ NoDup (measured (d_log s))
  /\ leaves_out (returned (d_log s)) (measured (d_log s)).
Proof.
  intros R. split; [exact (D_ledger _ (Idata_reach _ R))|].
  split; [exact (measured_nodup _ R) | exact (returned_measured _ R)].
Qed.
Print Assumptions C53.

Definition ex_get : list move := [Ask AData; Go; Go; Go; Go].
(** Two points fetched, a third one waiting. *)
Example C53_ex1 :
  option_map (fun s => (measured (d_log s), returned (d_log s), d_data s))
    (dsteps ([Ask (AStart 1 100)] ++ to_loop 0 ++ turn 2 ++ turn 3 ++ ex_get ++ turn 5) dev_new)
  = Some ([0%nat; 1%nat; 2%nat], [0%nat; 1%nat], [2%nat]).
Proof. vm_compute. reflexivity. Qed.
(** The next task drops what was not fetched. *)
Example C53_ex2 :
  option_map (fun s => (measured (d_log s), settled (d_log s), returned (d_log s), d_data s))
    (dsteps ([Ask (AStart 1 4); Ask (AStart 1 100)] ++ to_loop 0 ++ turn 2 ++ turn 5 ++ [W 5; W 5] ++ to_loop 9 ++ turn 12) dev_new)
  = Some ([0%nat; 1%nat; 2%nat], [0%nat; 1%nat], [], [2%nat]).
Proof. vm_compute. reflexivity. Qed.
(** A data request overtaken by the start of a task: what was read is returned once. *)
Example C53_ex3 :
  option_map (fun s => (measured (d_log s), settled (d_log s), returned (d_log s), d_data s))
    (dsteps ([Ask (AStart 1 4); Ask (AStart 1 100)] ++ to_loop 0 ++ turn 2 ++ turn 5 ++ [W 5; W 5]
             ++ [W 6; W 6; W 6; W 6; W 6; W 6; W 6]
             ++ [Ask AData; Go; Go] ++ [W 6] ++ [Go; Go] ++ turn 8) dev_new)
  = Some ([0%nat; 1%nat; 2%nat], [0%nat; 1%nat], [0%nat; 1%nat], [2%nat]).
Proof. vm_compute. reflexivity. Qed.

(** ** C54: sampling rate and duration *)

(** The n-th measurement is made more than n sampling intervals after the start, and
    only if no earlier measurement of the task was past the maximum duration.
    Missing: see [C54_refuted]. *)
Theorem C54_partial s : can_reach s -> sampled (d_log s).
Proof. exact (sampled_reach s). Qed.
Print Assumptions C54_partial.

(** Once the worker has read a time past the maximum duration, the task makes at most
    one more measurement and ends within nine steps of the worker. *)
Theorem C54_ends_partial s it t0 tp n tn si du l s' :
  can_reach s -> d_worker s = WDue it t0 tp n tn -> q_kind it = KTask si du -> du < tn - t0 ->
  dsteps l s = Some s' ->
  (count_meas it (d_log s') <= S (count_meas it (d_log s)))%nat
  /\ ((9 <= work l)%nat -> In (LFinish it) (d_log s')).
Proof. exact (limit_ends s it t0 tp n tn si du l s'). Qed.
Print Assumptions C54_ends_partial.

(** A measurement is made after the maximum duration has passed: the interval is
    tested before the duration. *)
Theorem C54_refuted :
  exists s it n t0 tn si du,
    can_reach s /\ In (LMeas it n t0 tn) (d_log s) /\ q_kind it = KTask si du /\ du < tn - t0.
Proof.
  eexists. exists (mkItem 0 (KTask 1 3)), 1%nat, 0, 9, 1, 3. split.
  - exists ([Ask (AStart 1 3)] ++ to_loop 0 ++ turn 9). vm_compute. reflexivity.
  - split; [right; left; reflexivity|]. split; [reflexivity | lia].
Qed.
Print Assumptions C54_refuted.

(** A late worker catches up, but never gets ahead. *)
Example C54_ex1 :
  option_map (fun s => filter (fun e => match e with LMeas _ _ _ _ => true | _ => false end) (d_log s))
    (dsteps ([Ask (AStart 2 9)] ++ to_loop 0 ++ turn 7 ++ turn 7 ++ turn 7 ++ [W 7; W 7; W 7; W 7]) dev_new)
  = Some [LMeas (mkItem 0 (KTask 2 9)) 3 0 7; LMeas (mkItem 0 (KTask 2 9)) 2 0 7; LMeas (mkItem 0 (KTask 2 9)) 1 0 7].
Proof. vm_compute. reflexivity. Qed.
Example C54_ex2 :
  ~ sampled [LMeas (mkItem 0 (KTask 2 9)) 1 0 2].
Proof. cbn. intros (_ & (si & du & E & H & _) & _). injection E as <- <-. lia. Qed.

(** ** C55: stopping a task stops it *)

(** When the worker has entered the measuring loop of the task: at most one more
    measurement begins, and the task has ended after ten steps of the worker.
    Missing: see [C55_refuted] (while the task is being prepared) and [C55_v20_refuted]. *)
Theorem C55_partial s it s1 l s2 :
  can_reach s -> in_loop s it -> dstep (Ask AStop) s = Some s1 -> dsteps l s1 = Some s2 ->
  (count_meas it (d_log s2) <= S (count_meas it (d_log s)))%nat
  /\ ((10 <= work l)%nat -> In (LFinish it) (d_log s2)).
Proof. exact (stop_in_loop s it s1 l s2). Qed.
Print Assumptions C55_partial.

(** ... and none at all unless the worker has just tested its flags. *)
Theorem C55_none_partial s it s1 l s2 :
  can_reach s -> in_loop s it -> dstep (Ask AStop) s = Some s1 -> dsteps l s1 = Some s2 ->
  (match d_worker s with WTime _ _ _ _ | WDue _ _ _ _ _ | WLock _ _ _ _ _ => False | _ => True end) ->
  count_meas it (d_log s2) = count_meas it (d_log s).
Proof. exact (stop_no_more s it s1 l s2). Qed.
Print Assumptions C55_none_partial.

(** The worker can always go on, if need be after the request that holds the lock. *)
Theorem C55_progress s c f it :
  can_reach s -> executing s = Some it ->
  (exists s', wstep c f s = Some s') \/ (d_lock s = Some HMain /\ exists s', mstep s = Some s').
Proof. exact (worker_goes s c f it). Qed.
Print Assumptions C55_progress.

(** 2.1: a stop that arrives while the running task is being prepared is answered with
    success and forgotten. *)
Theorem C55_refuted :
  exists s it s1 l s2,
    can_reach s /\ d_running s = Some it /\ dstep (Ask AStop) s = Some s1
    /\ dsteps l s1 = Some s2 /\ In (LReturn []) (d_log s2)
    /\ (2 <= count_meas it (d_log s2))%nat /\ count_meas it (d_log s) = 0%nat.
Proof.
  eexists. exists (mkItem 0 (KTask 1 100)). eexists.
  exists ([Go; Go; Go; Go] ++ [W 0; W 0; W 0; W 0] ++ turn 2 ++ turn 3). eexists.
  split; [exists (Ask (AStart 1 100) :: [W 0; W 0; W 0; W 0]); vm_compute; reflexivity|].
  split; [reflexivity|]. split; [vm_compute; reflexivity|]. split; [vm_compute; reflexivity|].
  split; [vm_compute; tauto|]. split; [vm_compute; lia | reflexivity].
Qed.
Print Assumptions C55_refuted.

(** 2.0: stop_task sets [do_run] to True: the running task makes any number of further
    measurements. *)
Theorem C55_v20_refuted n :
  exists s s' l, xsteps (started (Z.of_nat n + 2)) x_new = Some s /\ x_running s = true
    /\ xsteps l (fst (xtask_stop s)) = Some s'
    /\ length (filter (fun e => Nat.eqb (fst e) 0) (x_log s')) = n.
Proof.
  destruct (xstop_goes_on n) as (s & s' & A & B & C & D). exists s, s', (turns 0 n). auto.
Qed.
Print Assumptions C55_v20_refuted.
(** ... because the request changes nothing but the cached data. *)
Theorem C55_v20_noop s th :
  nth_error (x_threads s) (x_cur s) = Some th -> xt_run th = true ->
  fst (xtask_stop s) = mkX (x_queue s) (x_open s) (x_running s) [] (x_cur s) (x_threads s) (x_points s) (x_log s).
Proof. exact (xstop_noop s th). Qed.
Print Assumptions C55_v20_noop.

(** Stopped in the loop, between two measurements. *)
Example C55_ex1 :
  option_map (fun s => (count_meas (mkItem 0 (KTask 1 100)) (d_log s), returned (d_log s), executing s))
    (dsteps ([Ask (AStart 1 100)] ++ to_loop 0 ++ turn 2 ++ [Ask AStop; Go; Go; Go; Go] ++ [W 3; W 3]) dev_new)
  = Some (1%nat, [0%nat], None).
Proof. vm_compute. reflexivity. Qed.

(** ** C56: one-off measurements do not disturb tasks *)

(** When a one-off measurement is accepted, nothing is waiting; and what is being
    executed, if anything, was announced in [running] only after the request looked.
    Missing: see [C56_refuted]. *)
Theorem C56_partial s :
  can_reach s -> d_main s = MPut ->
  d_queue s = []
  /\ forall it, executing s = Some it -> d_worker s = WGot it \/ In (LShow it) (since_ask (d_log s)).
Proof.
  intros R M. split; [exact (put_empty s R M)|].
  intros it. exact (ask_shown s it R (or_intror M)).
Qed.
Print Assumptions C56_partial.

(** It never touches the data: its point is not among those of tasks and is never
    returned as task data, and the step that makes it changes neither the cached nor the
    returned data. *)
Theorem C56_data s p :
  can_reach s -> In (LOnce p) (d_log s) ->
  ~ In p (measured (d_log s)) /\ ~ In p (returned (d_log s)).
Proof. exact (once_not_returned s p). Qed.
Print Assumptions C56_data.
Theorem C56_data_step s it c f s' :
  can_reach s -> d_worker s = WOnce it -> wstep c f s = Some s' ->
  d_data s' = d_data s /\ measured (d_log s') = measured (d_log s)
  /\ settled (d_log s') = settled (d_log s) /\ returned (d_log s') = returned (d_log s).
Proof. exact (once_keeps_data s it c f s'). Qed.
Print Assumptions C56_data_step.

(** A one-off measurement is accepted while a task is running: it was taken from the
    queue but not yet announced when the request looked. *)
Theorem C56_refuted :
  exists s s' it, can_reach s /\ d_main s = MPut /\ mstep s = Some s'
    /\ d_running s = Some it /\ is_task it = true
    /\ exists m, In (LAccept m) (d_log s') /\ q_kind m = KOnce.
Proof.
  eexists. eexists. exists (mkItem 0 (KTask 1 100)).
  split; [exists ([Ask (AStart 1 100); W 0; W 0; Ask AMeasure; Go; W 0]); vm_compute; reflexivity|].
  split; [reflexivity|]. split; [vm_compute; reflexivity|]. split; [reflexivity|]. split; [reflexivity|].
  exists (mkItem 1 KOnce). split; [left; reflexivity | reflexivity].
Qed.
Print Assumptions C56_refuted.

(** Accepted when idle, refused while a task waits and while one runs. *)
Example C56_ex1 :
  option_map (fun s => d_queue s) (dsteps [W 0; Ask AMeasure; Go; Go] dev_new) = Some [mkItem 0 KOnce].
Proof. vm_compute. reflexivity. Qed.
Example C56_ex2 :
  option_map (fun s => hd LStop (d_log s)) (dsteps [Ask (AStart 1 1); Ask AMeasure; Go] dev_new) = Some LRefuse.
Proof. vm_compute. reflexivity. Qed.
Example C56_ex3 :
  option_map (fun s => hd LStop (d_log s))
    (dsteps ([Ask (AStart 1 9)] ++ to_loop 0 ++ [Ask AMeasure]) dev_new) = Some LRefuse.
Proof. vm_compute. reflexivity. Qed.

(** ** C57: resetting a component leaves it idle and empty *)

(** The step that completes a reset, from every reachable state. *)
Theorem C57 s b s' :
  can_reach s -> d_main s = MThread b -> mstep s = Some s' ->
  idle_empty s' /\ d_run s' = b /\ d_main s' = MIdle /\ d_lock s' = None /\ outstanding s' = [].
Proof. exact (reset_idle s b s'). Qed.
Print Assumptions C57.

(** A task that is started next is taken up by the new worker. *)
Theorem C57_accepts s s' si du c1 c2 :
  can_reach s -> d_main s = MThread true -> mstep s = Some s' ->
  exists s'', dsteps [Ask (AStart si du); Work c1 false; Work c2 false] s' = Some s''
    /\ executing s'' = Some (mkItem (d_items s) (KTask si du))
    /\ d_log s'' = [LBegin (mkItem (d_items s) (KTask si du)); LAccept (mkItem (d_items s) (KTask si du))] ++ d_log s'.
Proof. exact (reset_accepts s s' si du c1 c2). Qed.
Print Assumptions C57_accepts.

(** The reset does complete: while it waits for the worker to end, the worker can always
    step, and it has ended after at most twelve steps. *)
Theorem C57_goes s b c f :
  can_reach s -> d_main s = MJoin b ->
  (d_worker s = WEnd /\ exists s', mstep s = Some s') \/ (exists s', wstep c f s = Some s').
Proof. exact (join_goes s b c f). Qed.
Print Assumptions C57_goes.
Theorem C57_bound l s b s' :
  can_reach s -> d_main s = MJoin b -> dsteps l s = Some s' -> d_main s' = MJoin b ->
  forallb (fun m => match m with Go => false | _ => true end) l = true ->
  (work l <= 12)%nat.
Proof.
  intros R M H M' G. pose proof (join_bound l s b s' R M H M' G). pose proof (rank_max (d_worker s)). lia.
Qed.
Print Assumptions C57_bound.

(** 2.0: after a reset the component reports that it is idle and accepts a task, while
    the old thread goes on: measurements of thread 0 and thread 1 alternate. *)
Theorem C57_v20_refuted :
  exists s1 s2, xsteps (firstn 6 reset_race) x_new = Some s1 /\ x_running s1 = false /\ x_data s1 = []
    /\ x_queue s1 = []
    /\ xsteps (skipn 6 reset_race) s1 = Some s2
    /\ map fst (x_log s2) = [1%nat; 0%nat; 1%nat; 0%nat; 0%nat]
    /\ x_data s2 = [1%nat; 2%nat; 3%nat; 4%nat].
Proof.
  eexists. eexists. split; [vm_compute; reflexivity|]. do 3 (split; [reflexivity|]).
  split; [vm_compute; reflexivity|]. split; reflexivity.
Qed.
Print Assumptions C57_v20_refuted.

(** A reset of a component whose worker died in [prepare_task]. *)
Definition ex_dead : list move :=
  [Ask (AStart 1 1); Ask (AStart 1 1); W 0; W 0; W 0; W 0; Work 0 true; W 0; W 0].
Example C57_ex1 :
  option_map (fun s => (d_worker s, d_queue s)) (dsteps ex_dead dev_new)
  = Some (WEnd, [mkItem 1 (KTask 1 1)]).
Proof. vm_compute. reflexivity. Qed.
Example C57_ex2 :
  option_map (fun s => (d_worker s, d_queue s, d_main s))
    (dsteps (ex_dead ++ [Ask (AReset true); Go; Go; Go; Go; Go; Go]) dev_new)
  = Some (WTop, [], MIdle).
Proof. vm_compute. reflexivity. Qed.
