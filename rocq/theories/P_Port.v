(** * P_Port: workers whose driver has lost its port (C59) *)
From Coq Require Import List String ZArith Bool.
From Verif Require Import Base PyStr Types ConfigModel Prog World Replies CmdModel DrvModel StartModel SysModel ExWorld
  JobThreadModel SpecWorker JobThreadProofs JobThreadProofs2 JobThreadProofs3.
Import ListNotations.
Open Scope string_scope.
Open Scope Z_scope.

(** A worker that is given no port does nothing, and nobody notices. *)
Theorem C59_no_port : forall f snap ts ws s', jsteps (job_start f snap ts ws) s' ->
  Forall2 (fun w k => wk_port w = None ->
    k_events k = [] /\ k_crashed k = false /\ alive k = false) ws (s_wk s').
Proof.
  intros f snap ts ws s' H. pose proof (jobs_kinv _ _ _ _ _ H) as K. clear H.
  induction K as [|w k ws l K F IH]; constructor; [|exact IH].
  intros E. destruct (ki_noport _ _ _ K E) as [P V]. split; [exact V|]. split.
  - destruct (k_crashed k) eqn:C; [|reflexivity]. apply (ki_crash _ _ _ K) in C. rewrite V in C. destruct C.
  - unfold alive. rewrite P. reflexivity.
Qed.
Print Assumptions C59_no_port.

(** It happens when the driver manager finds a driver silent after the job process has seen
    that all drivers have ports and before it reads the driver's row again: the job is
    reported complete, nothing was sent. *)
Definition px_world : world :=
  set_answers (set_env exw_up 1000 6000000)
    (fun p c => if Z.eqb p 7001 then None else Some (mkDReply true (DdDict 1))).
Definition px_rows (w : world) : dict drvstate := map (fun d => (dv_name d, d)) (w_drvs w).
Theorem C59_port_refuted : exists w dm w1 w2 pip ws s',
  run exec (wait_drivers 1) w = (Ok dm, w1) /\ run exec drv_pass w1 = (Ok tt, w2) /\
  dget (df_pipelines (dm_df dm)) "pip-both" = Some pip /\
  distribute (dm_df dm) (px_rows w2) (plan (pl_method exw_payload)) (pp_components pip) [] = (ws, None) /\
  map (fun w => (wk_role w, map t_technique (wk_tasks w))) ws = [("counter", ["count"])] /\
  jsteps (job_start 5 None 0 ws) s' /\ s_main s' = Ret false /\
  Forall (fun k => k_events k = []) (s_wk s').
Proof.
  exists px_world. do 6 eexists.
  split; [vm_compute; reflexivity|]. split; [vm_compute; reflexivity|].
  split; [vm_compute; reflexivity|]. split; [vm_compute; reflexivity|].
  split; [vm_compute; reflexivity|].
  split; [apply (moves_steps [M 0; M 0; M 0; M 0; M 0]); vm_compute; reflexivity|].
  split; [vm_compute; reflexivity|]. vm_compute. repeat constructor.
Qed.
Print Assumptions C59_port_refuted.

(** With the driver answering, the worker gets the port. *)
Example C59_port_case : exists dm w1 w2 pip,
  run exec (wait_drivers 1) (set_answers px_world (fun _ _ => Some (mkDReply true (DdDict 1)))) = (Ok dm, w1) /\
  run exec drv_pass w1 = (Ok tt, w2) /\ dget (df_pipelines (dm_df dm)) "pip-both" = Some pip /\
  map wk_port (fst (distribute (dm_df dm) (px_rows w2) (plan (pl_method exw_payload)) (pp_components pip) [])) = [Some 7001].
Proof. do 4 eexists. repeat (split; [vm_compute; reflexivity|]). vm_compute. reflexivity. Qed.
