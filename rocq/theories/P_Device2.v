(** * P_Device2: accepted tasks are executed (C87); the 2.0 interface (C52, C54, C56, C87) *)
From Coq Require Import List ZArith Bool Lia Arith.
From Verif Require Import DeviceModel SpecDevice DeviceProofs DeviceProofs2 DeviceProofs3 DeviceProofs4
  Device20Model SpecDevice20 Device20Proofs Device20Proofs2 P_Device.
Import ListNotations.
Open Scope Z_scope.

(** ** C87 *)

(** A component whose worker has ended (because the driver's code raised) goes on saying
    that it is ready and accepting tasks and measurements, but in every execution without
    a reset it begins none of them and measures nothing. *)
Theorem C87_dead : forall s l s',
  can_reach s -> d_worker s = WEnd -> d_main s = MIdle -> no_reset l -> dsteps l s = Some s' ->
  exists new, d_log s' = new ++ d_log s /\
    (forall it, ~ In (LBegin it) new) /\ (forall p, ~ In (LPoint p) new) /\ (forall p, ~ In (LOnce p) new) /\
    ~ In (LStatus true) new.
Proof.
  intros s l s' R W M N H.
  destruct (dead_steps s l s s') as (_ & _ & _ & D); [|exact N|exact H|exact D].
  apply dead_now; [exact R|exact W|rewrite M; reflexivity].
Qed.
Print Assumptions C87_dead.

(** Every request to start a task is accepted all the same. *)
Theorem C87_dead_accepts : forall s si du, d_main s = MIdle ->
  exists s', dsteps [Ask (AStart si du)] s = Some s' /\
    accepted (d_log s') = accepted (d_log s) ++ [d_items s].
Proof.
  intros s si du M. eexists. cbn [dsteps dstep]. unfold begin_request. rewrite M. split; reflexivity.
Qed.
Print Assumptions C87_dead_accepts.

(** So the property is false: a component that said it was ready (the last event) accepts
    a task which is never begun. *)
Definition ex_lost : list move :=
  [Ask (AStart 1 1); W 0; W 0; W 0; W 0; Work 0 true; W 0; W 0; Ask AStatus].
Theorem C87_refuted : exists l s s1, dsteps l dev_new = Some s /\ hd_error (d_log s) = Some (LStatus false) /\
  dsteps [Ask (AStart 1 1)] s = Some s1 /\ In 1%nat (accepted (d_log s1)) /\
  (forall l' s', no_reset l' -> dsteps l' s1 = Some s' -> ~ In 1%nat (begun (d_log s'))).
Proof.
  exists ex_lost. eexists. eexists. split; [vm_compute; reflexivity|]. split; [reflexivity|].
  split; [vm_compute; reflexivity|]. split; [vm_compute; tauto|]. intros l' s' N H.
  match type of H with dsteps _ ?s = _ => destruct (C87_dead s l' s') as (new & L & B & _ & _) end;
    [exists (ex_lost ++ [Ask (AStart 1 1)]); vm_compute; reflexivity|reflexivity|reflexivity|exact N|exact H|].
  rewrite L. clear - B. induction new as [|e new IH].
  - vm_compute. intros [X|[]]. discriminate X.
  - assert (B' : forall it, ~ In (LBegin it) new) by (intros it I; apply (B it); right; exact I).
    destruct e; cbn [app begun]; try exact (IH B').
    exfalso. apply (B it). left. reflexivity.
Qed.
Print Assumptions C87_refuted.

(** If the driver's code never raised and no reset left the component without a worker,
    then whenever no request is being handled the worker, left alone, gets to the first
    waiting item, whatever it is doing.
    Missing: failures of the driver's code, see [C87_refuted]. *)
Theorem C87_taken_partial : forall l s it q,
  calm l -> dsteps l dev_new = Some s -> d_main s = MIdle -> d_queue s = it :: q ->
  exists l' s', worker_only l' /\ dsteps l' s = Some s' /\ hd_error (d_log s') = Some (LBegin it).
Proof. exact calm_takes. Qed.
Print Assumptions C87_taken_partial.

(** 2.0: after a one-off measurement that raised, the component says it is running in
    every execution without a reset; each measurement is refused, each task ends the
    driver ([thread.start()] raises), and nothing is measured. *)
Theorem C87_v20_stuck : forall s,
  (forall th, In th (x_threads s) -> xt_pc th = XNew \/ xt_pc th = XEnd) -> x_running s = false ->
  exists l s1, l = [XMeas; XWork (List.length (x_threads s)) 0; XFail (List.length (x_threads s)) 0] /\
    xsteps l s = Some s1 /\
    forall l' s' t, ~ In XReset l' -> xsteps l' s1 = Some s' ->
      x_running s' = true /\ xmeasure s' = None /\ xtask_start t s' = None.
Proof.
  intros s F R. assert (F' : Forall xidle (x_threads s)) by (apply Forall_forall; exact F).
  destruct (xfail_stuck s F' R) as (s1 & E & S). eexists. exists s1. split; [reflexivity|]. split; [exact E|].
  intros l' s' t N H. pose proof (xstuck_steps l' s1 s' N S H) as K.
  split; [exact (proj1 K)|]. destruct (xstuck_refuses s' t K). split; assumption.
Qed.
Print Assumptions C87_v20_stuck.

(** Two tasks are accepted while a third is in its loop: the worker gets to the first. *)
Example C87_ex1 :
  let l := [Ask (AStart 1 2)] ++ to_loop 0 ++ turn 2 ++ [Ask (AStart 3 4); Ask (AStart 5 6)] in
  calm l /\
  option_map (fun s => (d_main s, map q_id (d_queue s))) (dsteps l dev_new) = Some (MIdle, [1%nat; 2%nat]).
Proof.
  split; [|vm_compute; reflexivity].
  split; [intros c|]; vm_compute; intuition congruence.
Qed.
(** The dead component: status, a task, a measurement, status. *)
Example C87_ex2 :
  option_map (fun s => (statuses (d_log s), accepted (d_log s), begun (d_log s)))
    (dsteps (ex_lost ++ [Ask (AStart 1 1); Ask AStatus]) dev_new)
  = Some ([false; false], [0%nat; 1%nat], [0%nat]).
Proof. vm_compute. reflexivity. Qed.
(** 2.0: a task that fails leaves the component usable, a measurement that fails does not. *)
Example C87_ex3 :
  option_map (fun s => (x_running s, map xt_pc (x_threads s)))
    (xsteps [XTask (mkXT 1 5); XWork 0 0; XWork 0 0; XFail 0 0; XWork 0 1; XWork 0 1; XMeas; XWork 2 2; XFail 2 2] x_new)
  = Some (true, [XEnd; XNew; XEnd]) /\
  xsteps [XMeas; XWork 1 0; XFail 1 0; XTask (mkXT 1 5)] x_new = None.
Proof. split; vm_compute; reflexivity. Qed.

(** ** The 2.0 interface *)

(** C52: if resets and one-off measurements are requested only when no thread is active, at
    most one thread is, in all executions and with failures anywhere.
    Missing: see [C56_v20_refuted], [C57_v20_refuted]. *)
Theorem C52_v20_partial : forall l s i j a b, polite l x_new -> xsteps l x_new = Some s ->
  nth_error (x_threads s) i = Some a -> nth_error (x_threads s) j = Some b -> active a -> active b -> i = j.
Proof.
  intros l s i j a b P H A B Aa Ab. destruct (Isolo_steps l x_new s Isolo_new P H) as (O & _).
  destruct (Nat.eq_dec i (x_cur s)) as [->|N]; [|exfalso; exact (O i a A N Aa)].
  destruct (Nat.eq_dec j (x_cur s)) as [->|N]; [reflexivity|exfalso; exact (O j b B N Ab)].
Qed.
Print Assumptions C52_v20_partial.

(** C56: a one-off measurement requested just after a task was started, before the thread of
    the task has said that it is running, is accepted and made by a second thread; when it
    is done the component says it is ready in the middle of the task. *)
Definition ex_race20 : list xmove :=
  [XTask (mkXT 1 100); XMeas; XWork 0 0; XWork 0 0; XWork 0 0; XWork 1 0].
Theorem C56_v20_refuted : exists s s' a b, xsteps ex_race20 x_new = Some s /\
  nth_error (x_threads s) 0 = Some a /\ active a /\ nth_error (x_threads s) 1 = Some b /\ active b /\
  xsteps [XWork 1 0; XWork 0 2] s = Some s' /\ x_running s' = false /\
  map fst (x_log s') = [0%nat; 1%nat] /\ (exists s'', xtask_start (mkXT 1 100) s' = Some s'').
Proof.
  eexists. eexists. eexists. eexists. split; [vm_compute; reflexivity|]. split; [reflexivity|]. split; [exact I|].
  split; [reflexivity|]. split; [exact I|]. split; [vm_compute; reflexivity|]. split; [reflexivity|].
  split; [reflexivity|]. eexists. vm_compute. reflexivity.
Qed.
Print Assumptions C56_v20_refuted.

(** C54: in every execution the n-th measurement of a task is made more than n sampling
    intervals after its start. *)
Theorem C54_v20_spacing : forall l s i th t t0 tp c f s',
  xsteps l x_new = Some s -> nth_error (x_threads s) i = Some th -> xt_pc th = XLoop t t0 tp ->
  0 <= x_interval t -> xwork i c f s = Some s' -> x_log s' <> x_log s ->
  x_interval t * Z.of_nat (S (measured_by i (x_log s))) < c - t0.
Proof. exact x_spacing. Qed.
Print Assumptions C54_v20_spacing.

(** C87: a component that says it is ready and has no active thread takes a task, also after
    tasks that failed. *)
Theorem C87_v20_usable_partial : forall l s t, polite l x_new -> xsteps l x_new = Some s ->
  idle_now s -> x_running s = false -> exists s', xtask_start t s = Some s' /\ x_queue s' = [t].
Proof.
  intros l s t P H N R. destruct (Isolo_steps l x_new s Isolo_new P H) as (_ & [p b] & T & C).
  pose proof (N _ _ T) as A. unfold active in A. cbn in A, C. unfold xtask_start. rewrite T.
  destruct p; try (exfalso; apply A; exact I).
  - destruct C as (_ & Q & _). eexists. split; [reflexivity|]. cbn. rewrite Q. reflexivity.
  - destruct C as (C1 & _). congruence.
Qed.
Print Assumptions C87_v20_usable_partial.

(** A task whose preparation fails, a task that fails in its second measurement, a measurement. *)
Definition ex_polite : list xmove :=
  [XTask (mkXT 1 50); XWork 0 0; XWork 0 0; XFail 0 0; XWork 0 2; XWork 0 2;
   XTask (mkXT 1 50); XWork 1 3; XWork 1 3; XWork 1 3; XWork 1 4; XWork 1 5; XFail 1 7; XWork 1 8; XWork 1 8;
   XMeas; XWork 3 9; XWork 3 9; XReset; XTask (mkXT 1 50); XWork 5 10].
Example C52_v20_ex : polite ex_polite x_new /\
  option_map (fun s => (x_running s, map xt_pc (x_threads s), x_log s, x_open s)) (xsteps ex_polite x_new)
  = Some (true, [XEnd; XEnd; XNew; XEnd; XNew; XGet], [(3%nat, 1%nat); (1%nat, 0%nat)], 1%nat).
Proof.
  split; [|vm_compute; reflexivity].
  unfold ex_polite. cbn [polite].
  repeat (split; [intros [X|X]; try discriminate X; intros [|[|[|[|[|j]]]]] th T; cbn in T; try discriminate T;
                  try (destruct j; discriminate T); injection T as <-; intros A; exact A|];
          let s := fresh "s" in let E := fresh "E" in
          intros s E; vm_compute in E; injection E as <-).
  exact I.
Qed.
(** After a reset during the preparation of a task, the failure of the preparation stops the
    next task and not its own. *)
Example C57_v20_ex :
  option_map (fun s => map (fun th => (xt_pc th, xt_run th)) (x_threads s))
    (xsteps [XTask (mkXT 1 50); XWork 0 0; XWork 0 0; XReset; XTask (mkXT 1 60); XWork 1 0; XWork 1 0; XWork 1 0;
             XFail 0 1; XWork 0 3; XWork 1 3] x_new)
  = Some [(XLoop (mkXT 1 50) 1 2, true); (XDone, false)].
Proof. vm_compute. reflexivity. Qed.
