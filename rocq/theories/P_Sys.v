(** * P_Sys: properties C21, C29, C30, C45 (all executions of the whole system) *)
From Coq Require Import List String Ascii ZArith Bool Sorted.
From Verif Require Import Base PyStr Types ConfigModel Prog World Replies CmdModel KetchupModel
  TomatoModel JobModel PipModel DrvModel SysModel SpecQueue SpecSys SysProofs SysProofs2 SysProofs3
  ExWorld SysPlay.
Import ListNotations.
Open Scope string_scope.
Open Scope Z_scope.

(** ** C21 *)
Theorem C21_jobs_kept :
  forall w ls1 ls2 s1 s2, wf_queue w ->
  runs ls1 (start_sys w) = Some s1 -> runs ls2 s1 = Some s2 ->
  wf_queue (s_world s2) /\
  (forall j, In j (w_jobs (s_world s1)) -> exists j', In j' (w_jobs (s_world s2)) /\ same_job j j') /\
  (forall j j', In j (w_jobs (s_world s1)) -> In j' (w_jobs (s_world s2)) -> j_id j' = j_id j ->
     same_job j j').
Proof. exact C21_lemma. Qed.
Print Assumptions C21_jobs_kept.

(** A job is submitted, runs, is cancelled; the daemon crashes in the middle of
    an iteration, restarts, and another job is submitted. *)
Definition c21_script : list cue :=
  (exs_running 6 ++ exs_cmd 10 (CmdCancel 1234 [1]) ++ repeat (At (LStep 3)) 4 ++ [At LCrash] ++
   exs_cmd 8 (CmdStart 1234) ++ exs_submit 9)%list.
Example C21_case :
  wf_queue exw_init /\ plays c21_script exw_init = true /\
  map (fun j => (j_id j, j_status j, j_jobname j)) (w_jobs (s_world (played (exs_running 6) exw_init))) =
    [(1, Sr, Some "run")] /\
  map (fun j => (j_id j, j_status j, j_jobname j)) (w_jobs (s_world (played c21_script exw_init))) =
    [(1, Srd, Some "run"); (2, Sq, Some "run")].
Proof.
  split; [|repeat split; vm_compute; reflexivity].
  split; [|split]; vm_compute; repeat constructor; discriminate.
Qed.

(** ** C29 *)

(** As stated it is false: when the job storage is changed by a reload between
    the start of a job process and its first action, the job is started again. *)
Definition c29_files : cfgfiles :=
  mkCfg (Some (mkSettings "/jobs2" "/devices.yml" [] (st_drivers exw_settings)))
    (cf_devices (exw_cfg exw_file)).
Definition c29_script : list cue :=
  (exs_base ++ exs_pass 3 ++ [At (LFiles c29_files)] ++ exs_cmd 9 (CmdReload 1234) ++
   exs_load 10 "pip-2" ++ exs_pass 3)%list.
Theorem C29_refuted :
  exists s, reachable s /\ ~ NoDup (map ja_jobid (starts (s_world s))).
Proof.
  exists (played c29_script exw_init). split.
  - apply plays_reachable; vm_compute; reflexivity.
  - vm_compute. intros H. inversion H as [|x l H1 H2]. apply H1. now left.
Qed.
Print Assumptions C29_refuted.

(** It holds as long as the job storage is not changed. *)
Theorem C29_once_partial :
  forall stg w ls s, w_log w = [] -> files_storage stg (w_files w) -> Forall (keeps_storage stg) ls ->
  runs ls (start_sys w) = Some s -> NoDup (map ja_jobid (starts (s_world s))).
Proof. exact C29_lemma. Qed.
Print Assumptions C29_once_partial.

(** Two jobs on two pipelines. *)
Definition c29_two : list cue :=
  (exs_base ++ exs_pass 3 ++ [At (LJobStart 0 100); Finish 9] ++ exs_load 10 "pip-2" ++
   exs_submit 12 ++ exs_submit 13 ++ exs_pass 3)%list.
Example C29_case :
  plays c29_two exw_init = true /\ files_storage "/jobs" (w_files exw_init) /\
  map (fun a => (ja_jobid a, ja_pipeline a)) (starts (s_world (played c29_two exw_init))) =
    [(3, "pip-2"); (2, "pip-1"); (1, "pip-1")].
Proof.
  repeat split; try (vm_compute; reflexivity).
  intros st H. vm_compute in H. inversion H. reflexivity.
Qed.

(** ** C30 *)
Theorem C30_reserved_free :
  forall w ls s l s' n p p' i j, NoDup (map p_name (w_pips w)) ->
  runs ls (start_sys w) = Some s -> step l s = Some s' ->
  has_char "'" n = false ->
  get_pip (w_pips (s_world s)) n = Some p -> p_jobid p = Some i ->
  get_pip (w_pips (s_world s')) n = Some p' -> p_jobid p' = Some j -> i = j.
Proof. exact C30_lemma. Qed.
Print Assumptions C30_reserved_free.

(** Job 1 holds pip-1 until it has ended; then job 2 gets it. *)
Definition c30_jobs (l : list cue) : list (option Z) :=
  map p_jobid (w_pips (s_world (played l exw_init))).
Example C30_case :
  let l1 := (exs_running 6 ++ exs_submit 10 ++ exs_pass 3)%list in
  let l2 := (l1 ++ [Finish 9])%list in
  let l3 := (l2 ++ exs_pass 3)%list in
  NoDup (map p_name (w_pips exw_init)) /\ plays l3 exw_init = true /\
  c30_jobs l1 = [None; Some 1; None] /\ c30_jobs l2 = [None; None; None] /\
  c30_jobs l3 = [None; Some 2; None].
Proof. split; [vm_compute; constructor|]. repeat split; vm_compute; reflexivity. Qed.

(** ** C45 *)
Theorem C45_port_pid :
  forall w ls s, port_pid w -> runs ls (start_sys w) = Some s -> port_pid (s_world s).
Proof. exact C45_lemma. Qed.
Print Assumptions C45_port_pid.

Definition c45_script : list cue :=
  (exs_up ++ [At (LAnswers (fun _ _ => None)); At (LTime 2000 9000000)] ++ exs_pass 5)%list.
Example C45_case :
  port_pid exw_init /\ plays c45_script exw_init = true /\
  map (fun d => (dv_port d, dv_pid d)) (w_drvs (s_world (played exs_up exw_init))) =
    [(Some 7001, Some 71); (Some 7002, Some 72)] /\
  map (fun d => (dv_port d, dv_pid d)) (w_drvs (s_world (played c45_script exw_init))) =
    [(None, None); (None, None)].
Proof. split; [intros d []|]. repeat split; vm_compute; reflexivity. Qed.
