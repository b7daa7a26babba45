(** * P_Sys3: properties C77 and C78 (all executions of the whole system) *)
From Coq Require Import List String Ascii ZArith Bool.
From Verif Require Import Base PyStr Types ConfigModel Prog World Replies CmdModel KetchupModel
  TomatoModel JobModel PipModel DrvModel SysModel SpecQueue SpecJob SpecSys SpecSys2 RGFacts SysProofs
  SysProofs10 SysProofs11 ExWorld SysPlay.
Import ListNotations.
Open Scope string_scope.
Open Scope Z_scope.

(** ** C77 *)

(** The queue starts with complete records (for instance empty): then, whatever
    commands, managers and processes do and however they interleave, a job with a
    pid has a connection time, a running job has a pid, a job that completed or
    crashed has connection and completion times, and a completed one its paths. *)
Theorem C77_records_complete :
  forall w ls s, wf_queue w -> w_spawned w = [] -> (forall j, In j (w_jobs w) -> record_ok j) ->
  runs ls (start_sys w) = Some s ->
  forall j, In j (w_jobs (s_world s)) -> record_ok j.
Proof. exact C77_lemma. Qed.
Print Assumptions C77_records_complete.

(** Job 1 has completed, job 2 is running, job 3 was cancelled in the queue. *)
Definition c77_script : list cue :=
  (exs_running 6 ++ [Finish 9] ++ exs_load 10 "pip-2" ++ exs_submit 12 ++ exs_pass 3 ++
   At (LJobStart 0 101) :: repeat (At (LStep 13)) 6 ++ exs_submit 14 ++ exs_cmd 15 (CmdCancel 1234 [3]))%list.
Example C77_case :
  let s := played c77_script exw_init in
  plays c77_script exw_init = true /\ wf_queue exw_init /\ w_spawned exw_init = [] /\ w_jobs exw_init = [] /\
  map (fun j => (j_id j, j_status j, is_some (j_pid j), is_some (j_connected j), is_some (j_completed j),
                 is_some (j_respath j))) (w_jobs (s_world s)) =
  [(1, Sc, true, true, true, true); (2, Sr, true, true, false, true); (3, Scd, false, false, false, false)].
Proof.
  cbv zeta. split; [vm_compute; reflexivity|].
  split; [split; [|split]; vm_compute; repeat constructor; discriminate|].
  split; [reflexivity|]. split; [reflexivity|]. vm_compute. reflexivity.
Qed.

(** ** C78 *)

(** False as stated: the job manager has read the job as running, the process
    records 'c' and ends, the manager sees that the process is gone and records 'ce'. *)
Definition c78_script : list cue := (exs_running 6 ++ repeat (At (LStep 3)) 3 ++ [Finish 9])%list.
Definition c78_on : list cue := [At (LProcEnd 100 false); Finish 3].
Theorem C78_refuted :
  exists s ls s' j j', reachable s /\ runs ls s = Some s' /\
    In j (w_jobs (s_world s)) /\ In j' (w_jobs (s_world s')) /\ j_id j' = j_id j /\
    j_status j = Sc /\ j_status j' = Sce.
Proof.
  set (s := played c78_script exw_init).
  exists s, (fst (play c78_on s)), (on c78_on s). do 2 eexists.
  split; [apply plays_reachable; vm_compute; reflexivity|].
  split; [apply goes_runs; vm_compute; reflexivity|].
  split; [vm_compute; left; reflexivity|]. split; [vm_compute; left; reflexivity|].
  repeat split; reflexivity.
Qed.
Print Assumptions C78_refuted.

(** When the job manager is not in the middle of an iteration at a moment when the
    job is completed and its processes have written their last update, it is never
    recorded as crashed, running or queued again; only a cancel that was in
    progress can replace the status.  Missing: an iteration in progress. *)
Theorem C78_completed_partial :
  forall w0 ls0 s i ls s', wf_queue w0 -> runs ls0 (start_sys w0) = Some s ->
  (exists j, In j (w_jobs (s_world s)) /\ j_id j = i /\ past (j_status j)) ->
  rests KJobMgr s -> wrote_last i s -> runs ls s = Some s' ->
  forall j, In j (w_jobs (s_world s')) -> j_id j = i -> past (j_status j).
Proof. exact C78_lemma. Qed.
Print Assumptions C78_completed_partial.

(** A cancel has read job 1 as running; the job completes; the cancel goes on and
    marks it for termination; the next iteration records it as cancelled. *)
Definition c78_rest : list cue :=
  (exs_running 6 ++ [At (LCmd (CmdCancel 1234 [1])); At (LStep 10); At (LStep 10); Finish 9; At (LProcEnd 100 false)])%list.
Definition states (s : sys) := map (fun j => (j_id j, j_status j)) (w_jobs (s_world s)).
Lemma no_process_wrote i s : no_process i s -> wrote_last i s.
Proof.
  intros [H1 H2]. split; [exact H1|]. intros t pid a Ht Ek E. specialize (H2 t pid a Ht Ek E).
  unfold ended in H2. destruct (t_pgm t); try exact I. discriminate.
Qed.
Definition restsb (k : kind) (s : sys) : bool :=
  forallb (fun t => match k, t_kind t with KJobMgr, KJobMgr => negb (active t) | _, _ => true end) (s_threads s).
Lemma restsb_rests s : restsb KJobMgr s = true -> rests KJobMgr s.
Proof.
  unfold restsb. intros H t Ht Ek. rewrite forallb_forall in H. specialize (H t Ht). rewrite Ek in H.
  destruct (active t); [discriminate|reflexivity].
Qed.
Example C78_case :
  let s := played c78_rest exw_init in
  plays c78_rest exw_init = true /\ rests KJobMgr s /\ wrote_last 1 s /\ states s = [(1, Sc)] /\
  goes [Finish 10] s = true /\ states (on [Finish 10] s) = [(1, Srd)] /\
  goes (Finish 10 :: exs_pass 3) s = true /\ states (on (Finish 10 :: exs_pass 3) s) = [(1, Scd)].
Proof.
  split; [vm_compute; reflexivity|].
  split; [apply restsb_rests; vm_compute; reflexivity|].
  split; [apply no_process_wrote, no_processb_ok; vm_compute; reflexivity|].
  repeat split; vm_compute; reflexivity.
Qed.
