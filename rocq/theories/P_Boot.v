(** * P_Boot: theorems about the records of configured drivers and pipelines (C08, C100) *)
From Coq Require Import List String Ascii ZArith Bool Lia.
From Verif Require Import Base PyStr Types ConfigModel Prog World Replies CmdModel KetchupModel
  TomatoModel JobModel PipModel DrvModel SysModel SpecQueue SpecSys SpecSys2 SpecJob SpecStuck SpecBoot ExWorld SysPlay
  P_Drv P_Dead P_Start SysProofs17.
Import ListNotations.
Open Scope string_scope.
Open Scope Z_scope.

(** ** C100 *)

(** False as stated.  While the daemon runs, a device with a driver of its own and a
    pipeline with it are added to the configuration, which is then reloaded.  The driver
    has no record: passes of the driver manager do not start it, and the next queued job
    that could use the pipeline ends the job manager. *)
Definition c100_file : rawfile := mkRawFile
  (rf_devices exw_file ++ [ mkRawDev (Some "dev3") (Some "newdriver") (Some "addr3") (Some ["1"]) None ])%list
  (rf_pipelines exw_file ++
   [ mkRawPip (Some "third") (Some [ mkRawComp (Some "counter") (Some "dev3") (Some "1") ]) ])%list.
Definition c100_reload : list cue :=
  (exs_up ++ [At (LFiles (exw_cfg c100_file))] ++ exs_cmd 6 (CmdReload 1234) ++
   [At ready_drivers; At (LTime 1 100000000)] ++ exs_pass 5)%list.
Definition c100_job : list cue := (c100_reload ++ exs_load 7 "pip-1" ++ exs_submit 9 ++ exs_pass 3)%list.
Theorem C100_refuted :
  exists ls s d, runs ls (start_sys exw_init) = Some s /\ Forall daemon_stays ls /\ s_run s = true /\
    w_daemon (s_world s) = Some d /\ In "newdriver" (dkeys (df_drivers (dm_df d))) /\
    ~ drv_recorded (s_world s) "newdriver" /\ driver_starts "newdriver" (s_world s) = [] /\
    map (fun j => (j_id j, j_status j)) (w_jobs (s_world s)) = [(1, Sq)] /\
    stuck KJobMgr AssertionError s.
Proof.
  set (l := c100_job).
  exists (fst (play l (start_sys exw_init))), (played l exw_init).
  destruct (w_daemon (s_world (played l exw_init))) as [d|] eqn:Ed; [|vm_compute in Ed; discriminate].
  exists d. split; [apply plays_runs; vm_compute; reflexivity|].
  split.
  { assert (X : forallb (fun l => match l with LCrash | LExit => false | _ => true end)
                  (fst (play l (start_sys exw_init))) = true) by (vm_compute; reflexivity).
    apply Forall_forall. intros x Hx. rewrite forallb_forall in X. specialize (X x Hx).
    split; intros ->; discriminate X. }
  split; [vm_compute; reflexivity|]. split; [reflexivity|].
  split.
  { assert (X : option_map (fun d => dkeys (df_drivers (dm_df d))) (w_daemon (s_world (played l exw_init))) =
                  Some ["example_counter"; "psutil"; "newdriver"]) by (vm_compute; reflexivity).
    rewrite Ed in X. injection X as ->. right. right. left. reflexivity. }
  split.
  { unfold drv_recorded. assert (X : map dv_name (w_drvs (s_world (played l exw_init))) = ["example_counter"; "psutil"])
      by (vm_compute; reflexivity).
    rewrite X. intros [H|[H|[]]]; discriminate H. }
  split; [vm_compute; reflexivity|]. split; [vm_compute; reflexivity|].
  apply (raised_stuck 3); [|reflexivity|]; vm_compute; reflexivity.
Qed.
Print Assumptions C100_refuted.

(** As long as nobody reloads the configuration, every driver of the configuration in
    force has a record, whatever the configuration files and the database were at the
    start, and whatever commands, processes and failures there are. *)
Theorem C100_recorded_partial :
  forall w ls s, Forall no_reload ls -> runs ls (start_sys w) = Some s -> drvs_recorded (s_world s).
Proof. intros w ls s Hl Hs. apply (recorded_lemma w ls s Hl Hs). Qed.
Print Assumptions C100_recorded_partial.

(** Whatever happens, only drivers with records are started. *)
Theorem C100_spawned :
  forall s, reachable s -> forall n, driver_starts n (s_world s) <> [] -> drv_recorded (s_world s) n.
Proof. intros s (w & ls & Hlog & _ & Hs). apply (spawned_lemma w ls s Hlog Hs). Qed.
Print Assumptions C100_spawned.

(** A driver without a record gets one only when a daemon is started: until then it is
    not started, whatever commands are issued, reload included. *)
Theorem C100_never :
  forall s n ls s', reachable s -> no_command s -> ~ drv_recorded (s_world s) n ->
  Forall no_start ls -> runs ls s = Some s' ->
  ~ drv_recorded (s_world s') n /\ driver_starts n (s_world s') = [].
Proof.
  intros s n ls s' (w & ls0 & Hlog & Hsp & Hs) Hc Hn Hl Hr.
  destruct (never_lemma _ _ _ _ _ Hs Hc Hl Hr) as [E _].
  assert (X : ~ drv_recorded (s_world s') n) by (unfold drv_recorded in *; rewrite E; exact Hn).
  split; [exact X|]. destruct (driver_starts n (s_world s')) eqn:Ed; [reflexivity|]. exfalso. apply X.
  apply (C100_spawned s'); [|rewrite Ed; discriminate].
  exists w, (ls0 ++ ls)%list. split; [exact Hlog|]. split; [exact Hsp|]. rewrite runs_app, Hs. exact Hr.
Qed.
Print Assumptions C100_never.

(** Meanwhile, if one queued job has only roles of a pipeline with a component of such a
    driver, the job manager fails: no job is started, on whatever pipeline. *)
Theorem C100_jobs :
  forall w d j p rc cmp, w_daemon w = Some d -> wf_queue w -> In j (w_jobs w) -> queued (j_status j) ->
  In p (dvals (df_pipelines (dm_df d))) -> has_roles p (pl_method (j_payload j)) -> In rc (pp_components p) ->
  dget (df_components (dm_df d)) (snd rc) = Some cmp -> ~ drv_recorded w (c_driver cmp) ->
  exists e w', run exec job_pass w = (Err e, w') /\
    starts w' = starts w /\ w_spawned w' = w_spawned w /\ w_pips w' = w_pips w /\ w_dirs w' = w_dirs w.
Proof.
  intros w d j p rc cmp Hd Hw Hj Hq Hp Hr Hc Hk Hn. eapply C88_blocked; eauto.
  intros H. destruct (H p rc Hp Hr Hc) as (cmp' & port & r & (Hk' & dv & Hg & _) & _).
  rewrite Hk in Hk'. injection Hk' as <-. apply Hn. unfold drv_recorded.
  apply find_some in Hg as [H1 H2]. apply String.eqb_eq in H2. rewrite <- H2. apply in_map. exact H1.
Qed.
Print Assumptions C100_jobs.

(** After the start both drivers are recorded; after the reload the new driver is configured, has no record and is
    not started, although the pass of the driver manager succeeded; after the daemon was
    killed and started again it has its record. *)
Definition c100_restart : list cue := (c100_reload ++ [At LCrash; At (LCmd (CmdStart 1234)); Finish 4])%list.
Example C100_case :
  let show l := (map dv_name (w_drvs (s_world (played l exw_init))),
     option_map (fun d => dkeys (df_drivers (dm_df d))) (w_daemon (s_world (played l exw_init)))) in
  plays c100_job exw_init = true /\
  show exs_up = (["example_counter"; "psutil"], Some ["example_counter"; "psutil"]) /\
  show c100_reload = (["example_counter"; "psutil"], Some ["example_counter"; "psutil"; "newdriver"]) /\
  thread_raised 5 (played c100_reload exw_init) = None /\
  plays c100_restart exw_init = true /\
  show c100_restart = (["example_counter"; "psutil"; "newdriver"], Some ["example_counter"; "psutil"; "newdriver"]).
Proof. cbv zeta. repeat (apply conj; [vm_compute; reflexivity|]). vm_compute. reflexivity. Qed.

(** ** C08 *)

(** Without reload, every pipeline of the configuration in force has a record. *)
Theorem C08_kept :
  forall w ls s, Forall no_reload ls -> runs ls (start_sys w) = Some s -> pips_recorded (s_world s).
Proof. intros w ls s Hl Hs. apply (recorded_lemma w ls s Hl Hs). Qed.
Print Assumptions C08_kept.

(** A pipeline without a record has none until a daemon is started. *)
Theorem C08_never :
  forall s n ls s', reachable s -> no_command s -> ~ pip_recorded (s_world s) n ->
  Forall no_start ls -> runs ls s = Some s' -> ~ pip_recorded (s_world s') n.
Proof.
  intros s n ls s' (w & ls0 & _ & _ & Hs) Hc Hn Hl Hr.
  destruct (never_lemma _ _ _ _ _ Hs Hc Hl Hr) as [_ E]. unfold pip_recorded in *. rewrite E. exact Hn.
Qed.
Print Assumptions C08_never.

(** The pipeline of the reloaded configuration has no record, also after a sample was
    loaded into it and a job was submitted. *)
Example C08_case_never :
  let s := played c100_reload exw_init in
  let s' := played (c100_reload ++ exs_load 7 "third" ++ exs_submit 9)%list exw_init in
  plays (c100_reload ++ exs_load 7 "third" ++ exs_submit 9)%list exw_init = true /\
  map p_name (w_pips (s_world s)) = ["pip-both"; "pip-1"; "pip-2"] /\
  option_map (fun d => dkeys (df_pipelines (dm_df d))) (w_daemon (s_world s)) =
    Some ["pip-both"; "pip-1"; "pip-2"; "third"] /\
  map p_name (w_pips (s_world s')) = ["pip-both"; "pip-1"; "pip-2"].
Proof. cbv zeta. repeat (apply conj; [vm_compute; reflexivity|]). vm_compute. reflexivity. Qed.
