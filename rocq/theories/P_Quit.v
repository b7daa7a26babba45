(** * P_Quit: stopping the daemon stops its drivers (C97) *)
From Coq Require Import List String Ascii ZArith Bool Lia.
From Verif Require Import Base PyStr Types ConfigModel Prog ProgFacts World WorldFacts Replies CmdModel KetchupModel
  TomatoModel JobModel PipModel DrvModel SysModel SpecQueue SpecSys SpecSys2 SpecJob SpecStuck SpecQuit ExWorld SysPlay
  P_Sys P_Drv P_Dead SysProofs14 SysProofs15 SysProofs16.
Import ListNotations.
Open Scope string_scope.
Open Scope Z_scope.

(** When the driver manager leaves its loop and comes to its end, there was a moment [s1]
    such that every driver with a process number and a port in the table at that moment has
    been told to stop since; whatever else happens meanwhile. *)
Theorem C97_told_partial : forall w0 ls0 ls s s' n,
  runs ls0 (start_sys w0) = Some s -> Forall daemon_stays ls -> runs ls s = Some s' ->
  manages_drivers n s -> left_loop n s' ->
  exists ls1 ls2 s1, ls = (ls1 ++ ls2)%list /\ runs ls1 s = Some s1 /\
    forall d p, In d (w_drvs (s_world s1)) -> dv_pid d <> None -> dv_port d = Some p ->
    exists new, w_log (s_world s') = (new ++ w_log (s_world s1))%list /\ In (EvRequest p CStop) new.
Proof. exact C97_lemma. Qed.
Print Assumptions C97_told_partial.

(** Undisturbed, the manager comes to its end exactly if all drivers that have a port answer; *)
Theorem C97_exact : forall w dm, w_daemon w = Some dm -> port_pid w ->
  (fst (run exec drv_quit w) = Ok tt <-> drivers_answer w).
Proof. exact quit_exact. Qed.
Print Assumptions C97_exact.

(** each of them is then told once, in the order of the table, and nothing else is sent.  The
    table still has the ports of the drivers that were stopped. *)
Theorem C97_once : forall w dm, w_daemon w = Some dm -> port_pid w -> drivers_answer w ->
  exists w', run exec drv_quit w = (Ok tt, w') /\
    w_log w' = (rev (stops (w_drvs w)) ++ w_log w)%list /\ w_drvs w' = w_drvs w.
Proof. exact quit_run. Qed.
Print Assumptions C97_once.

(** A manager that waits for an answer for ever keeps the daemon from exiting: it can only be
    killed. *)
Theorem C97_hangs : forall k s ls s', stuck k Blocked s -> ~ In LCrash ls -> runs ls s = Some s' ->
  stuck k Blocked s' /\ step LExit s' = None.
Proof.
  intros k s ls s' S N R. destruct (waits_runs k ls s s' S N R) as [S1 _].
  split; [exact S1|]. exact (waits_no_exit k s' S1).
Qed.
Print Assumptions C97_hangs.

(** Otherwise the daemon exits: exactly when its managers were told to stop and each of them
    has left its loop or was ended by an exception. *)
Theorem C97_exit : forall s,
  (exists s', step LExit s = Some s') <->
  w_daemon (s_world s) <> None /\ s_run s = false /\
  forall t, In t (s_threads s) -> (t_kind t = KJobMgr \/ t_kind t = KPipMgr \/ t_kind t = KDrvMgr) ->
    (exists r, t_pgm t = Ret r /\ t_done t = true) \/ (exists e, t_pgm t = Raise e /\ e <> Blocked).
Proof. exact exit_exact. Qed.
Print Assumptions C97_exit.

(** The managers are told to stop, and leave their loops, only while the daemon is stopping: those
    of a daemon that is started after another one was stopped or killed go on with their passes. *)
Theorem C97_only : forall w0 ls s, runs ls (start_sys w0) = Some s ->
  (s_run s = false -> stopping s) /\
  forall t, In t (s_threads s) -> t_done t = true -> s_run s = false /\ stopping s.
Proof. exact told_lemma. Qed.
Print Assumptions C97_only.

(** A daemon that is stopping does not go back to work: no command, request or manager makes it. *)
Theorem C97_for_good : forall w0 ls0 ls s s', runs ls0 (start_sys w0) = Some s -> stopping s ->
  Forall daemon_stays ls -> runs ls s = Some s' -> stopping s'.
Proof. exact stays_lemma. Qed.
Print Assumptions C97_for_good.

(** This happens when a driver has died (its record is checked every five seconds only): the
    stop command is accepted and the daemon never exits; the drivers after the dead one are
    not told. *)
Definition c97_silent : list cue :=
  (exs_up ++ exs_cmd 6 (CmdStop 1234) ++ [At LTellStop; At (LAnswers (fun _ _ => None))]
   ++ exs_pass 3 ++ exs_pass 4 ++ exs_pass 5)%list.
Theorem C97_silent_refuted :
  exists s dm, reachable s /\ w_daemon (s_world s) = Some dm /\ dm_status dm = Dstop /\
    stuck KDrvMgr Blocked s /\
    w_log (s_world s) = [EvRequest 7001 CStop] /\ stops (w_drvs (s_world s)) = [EvRequest 7001 CStop; EvRequest 7002 CStop].
Proof.
  exists (played c97_silent exw_init). eexists.
  split; [apply plays_reachable; vm_compute; reflexivity|].
  split; [vm_compute; reflexivity|]. split; [reflexivity|].
  split; [apply raised_stuck with (n := 5%nat); vm_compute; reflexivity|].
  split; vm_compute; reflexivity.
Qed.
Print Assumptions C97_silent_refuted.

(** And a driver process that was started and has not announced itself is left alone: the
    daemon exits without a word to it, and the process waits for the daemon for ever. *)
Definition c97_left : list cue :=
  ([At (LCmd (CmdStart 1234)); Finish 0; At (LManager KJobMgr); At (LManager KPipMgr); At (LManager KDrvMgr);
    At (LTime 1000 10000000)] ++ exs_pass 3 ++ exs_cmd 4 (CmdStop 1234) ++ [At LTellStop]
   ++ exs_pass 1 ++ exs_pass 2 ++ exs_pass 3 ++ [At LExit])%list.
Theorem C97_left_refuted :
  exists s s', reachable s /\ w_daemon (s_world s) = None /\
    driver_starts "psutil" (s_world s) = [10000000] /\ (forall p, ~ In (EvRequest p CStop) (w_log (s_world s))) /\
    runs (fst (play [At (LDriver "psutil" 7002 72 "2.1" true); Finish 2] s)) s = Some s' /\
    thread_raised 2 s' = Some Blocked.
Proof.
  set (s := played c97_left exw_init).
  exists s, (on [At (LDriver "psutil" 7002 72 "2.1" true); Finish 2] s).
  split; [apply plays_reachable; vm_compute; reflexivity|].
  split; [vm_compute; reflexivity|]. split; [vm_compute; reflexivity|].
  split; [intros p; vm_compute; intros H; repeat (destruct H as [H|H]; [discriminate|]); destruct H|].
  split; [apply goes_runs; vm_compute; reflexivity|]. vm_compute. reflexivity.
Qed.
Print Assumptions C97_left_refuted.

(** Both drivers answer: both are told, and the daemon exits. *)
Definition c97_start : list cue := exs_up.
Definition c97_end : list cue :=
  (exs_cmd 6 (CmdStop 1234) ++ [At LTellStop] ++ exs_pass 3 ++ exs_pass 4 ++ exs_pass 5)%list.
Example C97_case :
  let s := played c97_start exw_init in
  let s' := on c97_end s in
  plays c97_start exw_init = true /\ goes c97_end s = true /\ manages_drivers 5 s /\ left_loop 5 s' /\
  w_log (s_world s') = [EvRequest 7002 CStop; EvRequest 7001 CStop] /\
  option_map (fun x => w_daemon (s_world x)) (step LExit s') = Some None.
Proof.
  split; [vm_compute; reflexivity|]. split; [vm_compute; reflexivity|].
  split; [eexists; split; [vm_compute; reflexivity|split; reflexivity]|].
  split; [do 2 eexists; split; [vm_compute; reflexivity|split; reflexivity]|].
  split; vm_compute; reflexivity.
Qed.
(** Killing a driver by its process number always fails: there is no such process, or the call
    of [psutil.wait_procs] with a list in a list raises TypeError.  (It is never needed: C45.) *)
Theorem C97_kill : forall w pid,
  run exec (kill_driver pid) w = (Err (if is_some (get_proc (w_procs w) pid) then TypeError else NoSuchProcess), w).
Proof. intros w pid. unfold kill_driver. rewrite run_bind, run_act. cbn [exec]. destruct (get_proc (w_procs w) pid); reflexivity. Qed.
Print Assumptions C97_kill.

(** The daemon is told to stop and its managers too; it is killed and started again: its managers
    work. *)
Definition c97_again : list cue :=
  (exs_up ++ exs_cmd 6 (CmdStop 1234) ++ [At LTellStop])%list.
Example C97_ex_only :
  let s := played c97_again exw_init in
  plays c97_again exw_init = true /\ s_run s = false /\ stopping s /\
  (forall s', step LCrash s = Some s' -> s_run s' = true /\ w_daemon (s_world s') = None) /\
  step LCrash s <> None.
Proof.
  split; [vm_compute; reflexivity|]. split; [vm_compute; reflexivity|].
  split; [eexists; vm_compute; split; reflexivity|].
  split; [|vm_compute; discriminate].
  intros s' H. vm_compute in H. injection H as <-. split; reflexivity.
Qed.
