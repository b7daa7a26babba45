(** * P_Folder: exactly when a pass of the job manager succeeds (C34) *)
From Coq Require Import List String Ascii ZArith Bool Sorted.
From Verif Require Import Base PyStr Types ConfigModel Prog World Replies CmdModel KetchupModel
  TomatoModel JobModel PipModel DrvModel SysModel SpecQueue SpecJob SpecSys PassProofs4 SysPlay ExWorld.
Import ListNotations.
Open Scope string_scope.
Open Scope Z_scope.

(** If drivers answer and cancelled jobs can be archived, then a pass that is left alone succeeds if
    and only if none of the jobs that it is about to start has a folder; otherwise it ends with
    FileExistsError at one of these, and has started the jobs before that one and no others. *)
Theorem C34_exact : forall d w,
  w_daemon w = Some d -> wf_queue w -> NoDup (map p_name (w_pips w)) ->
  (forall p, In p (dvals (df_pipelines (dm_df d))) ->
     has_char "'"%char (pp_name p) = false /\ In (pp_name p) (dkeys (df_pipelines (dm_df d)))) ->
  (forall j, In j (w_jobs w) -> queued (j_status j) -> relevant_answer w d (pl_method (j_payload j))) ->
  (forall j p, In j (w_jobs w) -> j_status j = Srd -> j_pid j = Some p -> live w p ->
     j_jobpath j <> None /\ j_respath j <> None /\ w_merge w (j_id j) = None) ->
  exists q matched asg,
    exactly (fun j => queued (j_status j)) (w_jobs w) q /\
    Forall2 (fun j e => fst e = j_id j /\ matching w d (pl_method (j_payload j)) (snd e)) q matched /\
    greedy w matched asg /\
    (fst (run exec job_pass w) = Ok tt <->
     forall x, In x asg -> ~ In (st_storage (dm_settings d), fst x) (w_dirs w)) /\
    (fst (run exec job_pass w) <> Ok tt ->
     exists asg1 y asg2 args, asg = (asg1 ++ y :: asg2)%list /\ fst (run exec job_pass w) = Err FileExistsError /\
       In (st_storage (dm_settings d), fst y) (w_dirs w) /\
       w_spawned (snd (run exec job_pass w)) = (w_spawned w ++ args)%list /\
       Forall2 (fun x a => exists j, get_job (w_jobs w) (fst x) = Some j /\ start_args d j (snd x) a) asg1 args).
Proof. exact pass_exact_lemma. Qed.
Print Assumptions C34_exact.

(** Both conditions are necessary, whatever folders there are. *)
Theorem C34_needs : forall d w, w_daemon w = Some d -> wf_queue w ->
  fst (run exec job_pass w) = Ok tt ->
  (forall j, In j (w_jobs w) -> queued (j_status j) -> relevant_answer w d (pl_method (j_payload j))) /\
  (forall j p, In j (w_jobs w) -> j_status j = Srd -> j_pid j = Some p -> live w p ->
     j_jobpath j <> None /\ j_respath j <> None /\ w_merge w (j_id j) = None).
Proof. exact pass_needs_lemma. Qed.
Print Assumptions C34_needs.

(** Job 1 was started on pip-1 and has not connected; now pip-2 is ready for it, and job 2 is queued.
    The pass ends at job 1, and job 2 is not started.  Had pip-2 another sample, the pass would
    succeed, although the folder of job 1 exists. *)
Definition c34_again : world := s_world (played (exs_base ++ exs_pass 3 ++ exs_submit 9 ++ exs_load 10 "pip-2")%list exw_init).
Definition c34_calm : world := set_pips c34_again (upd_pips "pip-2" [PSample (Some "other")] (w_pips c34_again)).
Example C34_exact_ex :
  map (fun j => (j_id j, j_status j)) (w_jobs c34_again) = [(1, Sqw); (2, Sq)] /\ w_dirs c34_again = [("/jobs", 1)] /\
  fst (run exec job_pass c34_again) = Err FileExistsError /\
  w_spawned (snd (run exec job_pass c34_again)) = w_spawned c34_again /\
  fst (run exec job_pass c34_calm) = Ok tt.
Proof. vm_compute. repeat split. Qed.
