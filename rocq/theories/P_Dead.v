(** * P_Dead: theorems about manager threads that have ended (C92) *)
From Coq Require Import List String Ascii ZArith Bool Lia.
From Verif Require Import Base PyStr Types ConfigModel Prog World Replies CmdModel KetchupModel
  TomatoModel JobModel PipModel DrvModel SysModel SpecQueue SpecSys SpecSys2 SpecJob SpecStuck ExWorld SysPlay
  P_Sys P_Drv SysProofs14 SpecDrv PassProofs3.
Import ListNotations.
Open Scope string_scope.
Open Scope Z_scope.

Lemma raised_stuck n k e s : thread_raised n s = Some e -> is_mgr k = true ->
  option_map t_kind (nth_error (s_threads s) n) = Some k -> stuck k e s.
Proof.
  unfold thread_raised. intros H Hm Hk. split; [exact Hm|].
  destruct (nth_error (s_threads s) n) as [t|] eqn:E; [|discriminate]. exists t.
  split; [apply (nth_error_In _ _ E)|]. split; [now injection Hk|].
  destruct (t_pgm t); try discriminate. now injection H as ->.
Qed.

(** ** C92 *)

(** False as stated.  A job is cancelled after its process has connected and before
    it has recorded its paths; the job manager fails to archive it and ends.  The job
    stays marked for termination, its process and its pipeline are kept, and a job
    submitted afterwards stays queued although its pipeline is ready. *)
Definition c92_cancel : list cue :=
  (exs_running 4 ++ exs_cmd 10 (CmdCancel 1234 [1]) ++ exs_pass 3)%list.
Definition c92_after : list cue := (exs_load 11 "pip-2" ++ exs_submit 13)%list.
Theorem C92_job_refuted :
  exists ls s, runs ls (start_sys exw_init) = Some s /\ Forall daemon_stays ls /\
    stuck KJobMgr AssertionError s /\ s_run s = true /\
    map (fun j => (j_id j, j_status j, j_pid j)) (w_jobs (s_world s)) = [(1, Srd, Some 100); (2, Sq, None)] /\
    map (fun p => (p_name p, p_jobid p, p_ready p)) (w_pips (s_world s)) =
      [("pip-both", None, false); ("pip-1", Some 1, false); ("pip-2", None, true)] /\
    live (s_world s) 100.
Proof.
  set (l := (c92_cancel ++ c92_after)%list).
  exists (fst (play l (start_sys exw_init))), (played l exw_init).
  split; [apply plays_runs; vm_compute; reflexivity|].
  split.
  { assert (X : forallb (fun l => match l with LCrash | LExit => false | _ => true end)
                  (fst (play l (start_sys exw_init))) = true) by (vm_compute; reflexivity).
    apply Forall_forall. intros x Hx. rewrite forallb_forall in X. specialize (X x Hx).
    split; intros ->; discriminate. }
  split; [apply raised_stuck with (n := 3%nat); vm_compute; reflexivity|].
  repeat split; try (vm_compute; reflexivity).
  eexists. split; vm_compute; reflexivity.
Qed.
Print Assumptions C92_job_refuted.

(** The pipeline manager waits for ever for the answer of a driver that does not
    answer when a pipeline has to be reset. *)
Definition c92_silent : list cue :=
  (exs_running 6 ++ [At (LKill 9); At (LProcEnd 100 false); At (LAnswers (fun _ _ => None))] ++ exs_pass 4)%list.
Theorem C92_pip_refuted :
  exists ls s p, runs ls (start_sys exw_init) = Some s /\ Forall daemon_stays ls /\
    stuck KPipMgr Blocked s /\ s_run s = true /\
    get_pip (w_pips (s_world s)) "pip-1" = Some p /\ p_jobid p = Some 1 /\ ~ live (s_world s) 100.
Proof.
  exists (fst (play c92_silent (start_sys exw_init))), (played c92_silent exw_init). eexists.
  split; [apply plays_runs; vm_compute; reflexivity|].
  split.
  { assert (X : forallb (fun l => match l with LCrash | LExit => false | _ => true end)
                  (fst (play c92_silent (start_sys exw_init))) = true) by (vm_compute; reflexivity).
    apply Forall_forall. intros x Hx. rewrite forallb_forall in X. specialize (X x Hx).
    split; intros ->; discriminate. }
  split; [apply raised_stuck with (n := 4%nat); vm_compute; reflexivity|].
  split; [vm_compute; reflexivity|]. split; [vm_compute; reflexivity|]. split; [reflexivity|].
  intros (pr & H & _). vm_compute in H. discriminate.
Qed.
Print Assumptions C92_pip_refuted.

(** A manager that has ended stays so as long as the daemon process goes on: nothing
    replaces it.  Without the job manager no job is started any more and every
    recorded process stays recorded; without the driver manager no driver is started
    any more. *)
Theorem C92_stays :
  forall w ls0 s k e ls s', runs ls0 (start_sys w) = Some s -> stuck k e s ->
  Forall daemon_stays ls -> runs ls s = Some s' ->
  stuck k e s' /\
  (k = KJobMgr -> starts (s_world s') = starts (s_world s) /\ pids_kept (s_world s) (s_world s')) /\
  (k = KDrvMgr -> forall n, driver_starts n (s_world s') = driver_starts n (s_world s)).
Proof.
  intros w ls0 s k e ls s' H0 H1 H2 H3. destruct (C92_lemma w ls0 s k e ls s' H0 H1 H2 H3) as [S U].
  split; [exact S|]. split; intros ->; exact U.
Qed.
Print Assumptions C92_stays.

(** Without the pipeline manager a pipeline that has a job keeps one unless its job
    process goes on. *)
Theorem C92_busy :
  forall w ls0 s e ls s' n p, has_char "'"%char n = false ->
  runs ls0 (start_sys w) = Some s -> stuck KPipMgr e s ->
  Forall daemon_stays ls -> runs ls s = Some s' ->
  get_pip (w_pips (s_world s)) n = Some p -> p_jobid p <> None ->
  (exists p', get_pip (w_pips (s_world s')) n = Some p' /\ p_jobid p' <> None) \/
  (exists ls1 m ls2 s1 t pid a, ls = (ls1 ++ LStep m :: ls2)%list /\ runs ls1 s = Some s1 /\
     nth_error (s_threads s1) m = Some t /\ t_kind t = KJob pid a /\ ja_pipeline a = n).
Proof. exact C92_busy_lemma. Qed.
Print Assumptions C92_busy.

(** Exactly when looking after the running jobs does not end the job manager: every
    cancelled job that still lives has its paths recorded and can be archived. *)
Theorem C92_exact_partial :
  forall w, wf_queue w ->
  (fst (run exec manage_running w) = Ok tt <->
   forall j p, In j (w_jobs w) -> j_status j = Srd -> j_pid j = Some p -> live w p ->
     j_jobpath j <> None /\ j_respath j <> None /\ w_merge w (j_id j) = None).
Proof. exact manage_running_exact. Qed.
Print Assumptions C92_exact_partial.

(** Exactly when a pass of each manager that is left alone does not end it.  The job manager:
    the drivers of all pipelines that a queued job could use answer, and all cancelled jobs that
    still live can be archived. *)
Theorem C92_job_exact :
  forall w d, w_daemon w = Some d -> wf_queue w -> NoDup (map p_name (w_pips w)) ->
  (forall p, In p (dvals (df_pipelines (dm_df d))) ->
     has_char "'"%char (pp_name p) = false /\ In (pp_name p) (dkeys (df_pipelines (dm_df d)))) ->
  (forall j, In j (w_jobs w) -> queued (j_status j) -> ~ In (st_storage (dm_settings d), j_id j) (w_dirs w)) ->
  (fst (run exec job_pass w) = Ok tt <->
   (forall j, In j (w_jobs w) -> queued (j_status j) -> relevant_answer w d (pl_method (j_payload j))) /\
   (forall j p, In j (w_jobs w) -> j_status j = Srd -> j_pid j = Some p -> live w p ->
      j_jobpath j <> None /\ j_respath j <> None /\ w_merge w (j_id j) = None)).
Proof. exact job_pass_exact. Qed.
Print Assumptions C92_job_exact.

(** The pipeline manager: the job of every pipeline exists, and if it is gone, the drivers of
    all components of the pipeline answer. *)
Theorem C92_pip_exact :
  forall w d, w_daemon w = Some d -> (forall p, In p (w_pips w) -> has_char "'"%char (p_name p) = false) ->
  (fst (run exec pip_pass w) = Ok tt <->
   (forall p i, In p (w_pips w) -> p_jobid p = Some i -> get_job (w_jobs w) i <> None) /\
   (forall p, In p (w_pips w) -> orphaned w p -> resettable w d (p_name p))).
Proof. exact pip_exact. Qed.
Print Assumptions C92_pip_exact.

(** The driver manager: every recorded driver is configured, and those that are asked for their
    status do not answer with success and without a dictionary. *)
Theorem C92_drv_exact :
  forall w dm, w_daemon w = Some dm -> (forall d, In d (w_drvs w) -> plain (dv_name d)) ->
  (fst (run exec drv_pass w) = Ok tt <->
   forall d, In d (w_drvs w) -> configured dm d /\ decent w d).
Proof. exact drv_exact. Qed.
Print Assumptions C92_drv_exact.

(** The process of job 2, which pip-1 holds, has ended.  If the drivers answer, pip-1 is released;
    if not, the manager waits.  A driver that is asked for its status and answers with success and
    without data ends the driver manager; before five seconds have passed it is not asked. *)
Example C92_case_exact :
  let dead := set_procs exw_up [] [] in
  let silent := set_answers dead (fun _ _ => None) in
  fst (run exec pip_pass dead) = Ok tt /\
  option_map p_jobid (get_pip (w_pips (snd (run exec pip_pass dead))) "pip-1") = Some None /\
  fst (run exec pip_pass silent) = Err Blocked /\ fst (run exec pip_pass (set_answers exw_up (fun _ _ => None))) = Ok tt /\
  fst (run exec drv_pass exw_up) = Ok tt /\
  fst (run exec drv_pass (set_env exw_up 1000 9999999)) = Err RuntimeError /\
  fst (run exec drv_pass (set_answers (set_env exw_up 1000 9999999) (fun _ _ => None))) = Ok tt /\
  fst (run exec job_pass exw_up) = Ok tt /\
  fst (run exec job_pass (set_answers exw_up (fun _ _ => None))) = Err Blocked.
Proof. vm_compute. repeat split; reflexivity. Qed.

(** The same cancellation two operations later is carried out. *)
Example C92_case :
  let late := (exs_running 6 ++ exs_cmd 10 (CmdCancel 1234 [1]) ++ exs_pass 3)%list in
  plays late exw_init = true /\ thread_raised 3 (played late exw_init) = None /\
  map (fun j => (j_id j, j_status j, j_pid j)) (w_jobs (s_world (played late exw_init))) = [(1, Scd, None)] /\
  thread_raised 3 (played c92_cancel exw_init) = Some AssertionError.
Proof. vm_compute. repeat split; reflexivity. Qed.

(** The execution of [C92_job_refuted] goes on; the hypotheses of [C92_stays] hold,
    and not even hours later is there a new start. *)
Example C92_case_stays :
  let s := played c92_cancel exw_init in
  let on' := (c92_after ++ [At (LTime 99999999 99999999)] ++ exs_pass 4)%list in
  goes on' s = true /\ stuck KJobMgr AssertionError s /\
  List.length (starts (s_world s)) = 1%nat /\ List.length (starts (s_world (on on' s))) = 1%nat /\
  step (LManager KJobMgr) (on on' s) = None.
Proof.
  split; [vm_compute; reflexivity|]. split; [apply raised_stuck with (n := 3%nat); vm_compute; reflexivity|].
  repeat split; vm_compute; reflexivity.
Qed.

(** The driver manager after [C46_refuted]: driver psutil vanishes and is not
    started again. *)
Example C92_case_driver :
  let s := played c46_script exw_init in
  stuck KDrvMgr ProgrammingError s /\ step (LManager KDrvMgr) s = None /\ step (LStep 5) s = None.
Proof.
  split; [apply raised_stuck with (n := 5%nat); vm_compute; reflexivity|]. split; vm_compute; reflexivity.
Qed.
