(** * P_Again: completed jobs do not come back (C78) *)
From Coq Require Import List String Ascii ZArith Bool.
From Verif Require Import Base PyStr Types ConfigModel Prog World Replies CmdModel KetchupModel
  TomatoModel JobModel PipModel DrvModel SysModel SpecQueue SpecJob SpecSys SpecSys2 SysProofs3 SysProofs13
  SysProofs19 ExWorld SysPlay P_Sys P_Sys3.
Import ListNotations.
Open Scope string_scope.
Open Scope Z_scope.

(** Whatever iterations, processes and commands are in progress: as long as no job is
    started twice, a job recorded as completed is never queued or running again.
    (It may still be recorded as crashed: C78_refuted, or cancelled: C78_case.) *)
Theorem C78_again_partial :
  forall w ls s ls' s' i, w_jobs w = [] -> 0 <= w_seq w -> w_spawned w = [] -> w_log w = [] ->
  runs ls (start_sys w) = Some s -> runs ls' s = Some s' ->
  NoDup (map ja_jobid (starts (s_world s'))) ->
  (exists j, In j (w_jobs (s_world s)) /\ j_id j = i /\ j_status j = Sc) ->
  forall j, In j (w_jobs (s_world s')) -> j_id j = i ->
  j_status j = Sc \/ j_status j = Sce \/ j_status j = Srd \/ j_status j = Scd.
Proof.
  intros. assert (X : out_of_queue (j_status j)) by (eapply (C78_again_lemma w ls s ls' s' i); eauto).
  destruct X as [[X|[X|X]]|X]; auto.
Qed.
Print Assumptions C78_again_partial.

(** In particular as long as the job storage is not changed. *)
Theorem C78_storage_partial :
  forall stg w ls s ls' s' i, w_jobs w = [] -> 0 <= w_seq w -> w_spawned w = [] -> w_log w = [] ->
  files_storage stg (w_files w) -> Forall (keeps_storage stg) (ls ++ ls')%list ->
  runs ls (start_sys w) = Some s -> runs ls' s = Some s' ->
  (exists j, In j (w_jobs (s_world s)) /\ j_id j = i /\ j_status j = Sc) ->
  forall j, In j (w_jobs (s_world s')) -> j_id j = i ->
  j_status j = Sc \/ j_status j = Sce \/ j_status j = Srd \/ j_status j = Scd.
Proof.
  intros stg w ls s ls' s' i Hj Hq Hsp Hl Hf Hk H1 H2. eapply C78_again_partial; eauto.
  eapply (C29_lemma stg w (ls ++ ls')%list); eauto. rewrite runs_app, H1. exact H2.
Qed.
Print Assumptions C78_storage_partial.

(** When a reload changes the storage, the job is started twice (C29_refuted): the first
    process completes it, then the second one records it as running. *)
Definition c78_twice : list cue := (c29_script ++ [At (LJobStart 0 100); Finish 12])%list.
Definition c78_second : list cue := (At (LJobStart 0 101) :: repeat (At (LStep 13)) 3)%list.
Theorem C78_again_refuted :
  exists s ls s' j j', reachable s /\ runs ls s = Some s' /\
    In j (w_jobs (s_world s)) /\ In j' (w_jobs (s_world s')) /\ j_id j' = j_id j /\
    j_status j = Sc /\ j_status j' = Sr.
Proof.
  set (s := played c78_twice exw_init).
  exists s, (fst (play c78_second s)), (on c78_second s). do 2 eexists.
  split; [apply plays_reachable; vm_compute; reflexivity|].
  split; [apply goes_runs; vm_compute; reflexivity|].
  split; [vm_compute; left; reflexivity|]. split; [vm_compute; left; reflexivity|].
  repeat split; reflexivity.
Qed.
Print Assumptions C78_again_refuted.

(** The race of C78_refuted satisfies the hypotheses: an iteration is in progress, the
    job is completed, and is then recorded as crashed. *)
Example C78_again_ex :
  let s := played c78_script exw_init in
  plays c78_script exw_init = true /\ w_jobs exw_init = [] /\ w_spawned exw_init = [] /\ w_log exw_init = [] /\
  states s = [(1, Sc)] /\ restsb KJobMgr s = false /\ goes c78_on s = true /\
  map ja_jobid (starts (s_world (on c78_on s))) = [1] /\ states (on c78_on s) = [(1, Sce)].
Proof. cbv zeta. repeat split; vm_compute; reflexivity. Qed.
