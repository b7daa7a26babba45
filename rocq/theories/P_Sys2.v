(** * P_Sys2: properties C25, C31, C32, C33, C34, C39 (all executions of the whole system) *)
From Coq Require Import List String Ascii ZArith Bool Sorted.
From Verif Require Import Base PyStr Types ConfigModel Prog World Replies CmdModel KetchupModel
  TomatoModel JobModel PipModel DrvModel SysModel SpecQueue SpecJob SpecSys SysProofs SysProofs4
  SysProofs5 SysProofs18 SysProofs6 PassProofs ExWorld SysPlay.
Import ListNotations.
Open Scope string_scope.
Open Scope Z_scope.

Definition statuses (s : sys) : list (Z * jstatus) :=
  map (fun j => (j_id j, j_status j)) (w_jobs (s_world s)).
Definition silent : label := LAnswers (fun _ _ => None).
Lemma wf_init : wf_queue exw_init.
Proof. split; [|split]; vm_compute; repeat constructor; discriminate. Qed.

(** ** C25 *)
Theorem C25_well :
  forall w ls s, NoDup (map p_name (w_pips w)) -> pips_well w ->
  along commands_apart ls (start_sys w) -> runs ls (start_sys w) = Some s -> pips_well (s_world s).
Proof. exact C25_lemma. Qed.
Print Assumptions C25_well.

(** Checking by computation. *)
Definition commands_apartb (s : sys) : bool :=
  forallb (fun t => match t_kind t with KJobMgr => negb (active t) | _ => true end) (s_threads s) ||
  forallb (fun t => match t_kind t with KCmd => negb (active t) | _ => true end) (s_threads s).
Lemma commands_apartb_ok s : commands_apartb s = true -> commands_apart s.
Proof.
  intros H. apply orb_prop in H. destruct H as [H|H]; [left|right]; intros t Ht Ek;
    rewrite forallb_forall in H; specialize (H t Ht); cbv beta in H; rewrite Ek in H;
    destruct (active t); (discriminate || reflexivity).
Qed.

(** Job 1 runs and tomato pipeline commands are tried on its pipeline, all of them in
    the middle of an iteration of the pipeline manager and of each other; then a
    scheduling pass overlaps with the rest of the iteration. *)
Definition c25_pips (l : list cue) : list (bool * option Z * option string) :=
  map (fun p => (p_ready p, p_jobid p, p_sample p)) (w_pips (s_world (played l exw_init))).
Definition c25_script : list cue :=
  (exs_running 6 ++ [At (LStep 4); At (LStep 4)] ++ exs_submit 10 ++
   [At (LCmd (CmdEject 1234 "pip-1")); At (LStep 11); At (LCmd (CmdReady 1234 "pip-1")); At (LStep 12);
    Finish 11; Finish 12] ++ exs_pass 3 ++ [Finish 4])%list.
Example C25_case :
  NoDup (map p_name (w_pips exw_init)) /\ pips_well exw_init /\
  along commands_apart (fst (play c25_script (start_sys exw_init))) (start_sys exw_init) /\
  alongb serialb (fst (play c25_script (start_sys exw_init))) (start_sys exw_init) = false /\
  plays c25_script exw_init = true /\
  c25_pips exs_base = [(false, None, None); (true, None, Some "sample-1"); (false, None, None)] /\
  c25_pips c25_script = [(false, None, None); (false, Some 1, Some "sample-1"); (false, None, None)].
Proof.
  split; [vm_compute; constructor|]. split; [intros p []|]. split.
  - eapply alongb_along; [exact commands_apartb_ok|]. vm_compute. reflexivity.
  - repeat split; vm_compute; reflexivity.
Qed.

(** The condition is needed: an eject in the middle of a scheduling pass leaves
    a pipeline that holds a job but no sample. *)
Example C25_overlap :
  exists s, reachable s /\ ~ pips_well (s_world s).
Proof.
  exists (played (exs_base ++ At (LStep 3) :: repeat (At (LStep 3)) 20 ++
            exs_cmd 9 (CmdEject 1234 "pip-1") ++ [Finish 3])%list exw_init).
  split; [apply plays_reachable; vm_compute; reflexivity|].
  intros H. specialize (H (mkPip "pip-1" false (Some 1) None)).
  destruct H with (i := 1) as (_ & j & _ & _ & X); [vm_compute; auto|reflexivity|reflexivity|].
  discriminate X.
Qed.

(** ** C31 *)

(** False as stated.  Cancelling a running job does not end its process, but
    frees its pipeline; the next job is started there. *)
Definition c31_script : list cue :=
  (exs_running 6 ++ exs_cmd 10 (CmdCancel 1234 [1]) ++ exs_pass 3 ++ exs_pass 4 ++
   exs_cmd 11 (CmdReady 1234 "pip-1") ++ exs_submit 12 ++ exs_pass 3 ++ [At (LJobStart 0 200)])%list.
Theorem C31_refuted :
  exists s n m a b, reachable s /\ job_process s n a /\ job_process s m b /\ n <> m /\
    ja_jobid a <> ja_jobid b /\ ja_pipeline a = ja_pipeline b.
Proof.
  set (s := played c31_script exw_init).
  assert (R : reachable s) by (apply plays_reachable; vm_compute; reflexivity).
  destruct (nth_error (s_threads s) 9) as [t|] eqn:E1; [|vm_compute in E1; discriminate].
  destruct (nth_error (s_threads s) 13) as [u|] eqn:E2; [|vm_compute in E2; discriminate].
  destruct (t_kind t) as [| | | |p1 a1|] eqn:K1; try (exfalso; vm_compute in E1; inversion E1; subst t; discriminate K1).
  destruct (t_kind u) as [| | | |p2 a2|] eqn:K2; try (exfalso; vm_compute in E2; inversion E2; subst u; discriminate K2).
  exists s, 9%nat, 13%nat, a1, a2. vm_compute in E1, E2. inversion E1. inversion E2. clear E1 E2. subst t u.
  cbn in K1, K2. inversion K1. inversion K2. subst.
  split; [exact R|]. split; [eexists; eexists; vm_compute; repeat split|].
  split; [eexists; eexists; vm_compute; repeat split|].
  repeat split; discriminate.
Qed.
Print Assumptions C31_refuted.

(** ** C32 *)

(** False as stated: a scheduling pass that has already looked at the job starts it. *)
Definition c32_before : list cue := (exs_base ++ At (LStep 3) :: repeat (At (LStep 3)) 10)%list.
Definition c32_after : list cue :=
  [Finish 3; At (LJobStart 0 100); At (LStep 10); At (LStep 10)].
Theorem C32_refuted :
  exists s0 s1 s2 ls1 ls2 i r, reachable s0 /\
    (exists j, In j (w_jobs (s_world s0)) /\ j_id j = i /\ waiting (j_status j)) /\
    runs (LCmd (CmdCancel 1234 [i]) :: ls1) s0 = Some s1 /\
    (exists t, nth_error (s_threads s1) (List.length (s_threads s0)) = Some t /\ t_pgm t = Ret (Some r)) /\
    r_ok r = true /\
    runs ls2 s1 = Some s2 /\
    (exists j, In j (w_jobs (s_world s2)) /\ j_id j = i /\ j_status j = Sr).
Proof.
  set (s0 := played c32_before exw_init).
  set (c := exs_cmd 9 (CmdCancel 1234 [1])).
  exists s0, (on c s0), (on c32_after (on c s0)),
    (tl (fst (play c s0))), (fst (play c32_after (on c s0))), 1.
  destruct (thread_reply 9 (on c s0)) as [r|] eqn:Er; [|vm_compute in Er; discriminate].
  exists r. split; [apply plays_reachable; vm_compute; reflexivity|].
  split.
  { eexists. split; [vm_compute; left; reflexivity|]. split; [reflexivity|left; reflexivity]. }
  split.
  { rewrite <- (goes_runs c s0) by (vm_compute; reflexivity). vm_compute. reflexivity. }
  split.
  { replace (List.length (s_threads s0)) with 9%nat by (vm_compute; reflexivity).
    unfold thread_reply in Er. destruct (nth_error (s_threads (on c s0)) 9) as [t|]; [|discriminate].
    exists t. split; [reflexivity|]. destruct (t_pgm t); try discriminate. congruence. }
  split; [vm_compute in Er; inversion Er; reflexivity|].
  split; [apply goes_runs; vm_compute; reflexivity|].
  eexists. split; [vm_compute; left; reflexivity|]. split; reflexivity.
Qed.
Print Assumptions C32_refuted.
(** Checking by computation. *)
Lemma busy_not_rest s n : match nth_error (s_threads s) n with Some t => busy t | None => false end = true -> ~ at_rest s.
Proof.
  destruct (nth_error (s_threads s) n) as [t|] eqn:E; [|discriminate]. unfold busy. intros H Hr.
  apply andb_prop in H. destruct H as [H1 H2]. apply negb_true_iff in H2.
  rewrite (Hr t (nth_error_In _ _ E) H2) in H1. discriminate.
Qed.
Definition left_aloneb (s : sys) : bool :=
  forallb (fun t => match t_kind t with KCmd | KJobMgr => negb (active t) | _ => true end) (s_threads s).
Lemma left_aloneb_ok i s : left_aloneb s = true -> left_alone i s.
Proof.
  unfold left_aloneb. intros H. rewrite forallb_forall in H. split; intros t Ht Ek; specialize (H t Ht); rewrite Ek in H.
  - destruct (active t); [discriminate|reflexivity].
  - unfold active in H. destruct (t_pgm t); try exact I. discriminate.
Qed.
Definition restsb (s : sys) : bool :=
  forallb (fun t => match t_kind t with KJobMgr => negb (active t) | _ => true end) (s_threads s).
Lemma restsb_ok s : restsb s = true -> rests KJobMgr s.
Proof.
  unfold restsb. intros H t Ht Ek. rewrite forallb_forall in H. specialize (H t Ht). rewrite Ek in H.
  destruct (active t); [discriminate|reflexivity].
Qed.
Definition at_restb (s : sys) : bool := forallb (fun t => process (t_kind t) || negb (active t)) (s_threads s).
Lemma at_restb_ok s : at_restb s = true -> at_rest s.
Proof.
  unfold at_restb. intros H t Ht Hp. rewrite forallb_forall in H. specialize (H t Ht). rewrite Hp in H.
  destruct (active t); [discriminate|reflexivity].
Qed.

(** The same happens if the pass is over and the process it has started has not connected
    yet: the job is still recorded as waiting and is cancelled as such. *)
Definition c32_connect : list cue := (exs_base ++ exs_pass 3)%list.
Definition c32_connected : list cue := [At (LJobStart 0 100); At (LStep 10); At (LStep 10)].
Lemma thread_reply_nth n s r : thread_reply n s = Some r ->
  exists t, nth_error (s_threads s) n = Some t /\ t_pgm t = Ret (Some r).
Proof.
  unfold thread_reply. destruct (nth_error (s_threads s) n) as [t|]; [|discriminate].
  intros H. exists t. split; [reflexivity|]. destruct (t_pgm t); try discriminate. congruence.
Qed.
Theorem C32_connect_refuted :
  exists s0 s1 s2 ls1 ls2 i r, reachable s0 /\ rests KJobMgr s0 /\
    (exists j, In j (w_jobs (s_world s0)) /\ j_id j = i /\ waiting (j_status j)) /\
    runs (LCmd (CmdCancel 1234 [i]) :: ls1) s0 = Some s1 /\
    (exists t, nth_error (s_threads s1) (List.length (s_threads s0)) = Some t /\ t_pgm t = Ret (Some r)) /\
    r_ok r = true /\
    runs ls2 s1 = Some s2 /\
    (exists j, In j (w_jobs (s_world s2)) /\ j_id j = i /\ j_status j = Sr).
Proof.
  set (s0 := played c32_connect exw_init).
  set (c := exs_cmd 9 (CmdCancel 1234 [1])).
  exists s0, (on c s0), (on c32_connected (on c s0)),
    (tl (fst (play c s0))), (fst (play c32_connected (on c s0))), 1.
  destruct (thread_reply 9 (on c s0)) as [r|] eqn:Er; [|
    assert (X : option_map r_ok (thread_reply 9 (on c s0)) = Some true) by (vm_compute; reflexivity);
    rewrite Er in X; discriminate X].
  exists r. split; [apply plays_reachable; vm_compute; reflexivity|].
  split; [apply restsb_ok; vm_compute; reflexivity|].
  split.
  { eexists. split; [vm_compute; left; reflexivity|]. split; [reflexivity|right; reflexivity]. }
  split.
  { replace (LCmd (CmdCancel 1234 [1]) :: tl (fst (play c s0))) with (fst (play c s0)) by (vm_compute; reflexivity).
    apply goes_runs. vm_compute. reflexivity. }
  split.
  { replace (List.length (s_threads s0)) with 9%nat by (vm_compute; reflexivity).
    apply thread_reply_nth. exact Er. }
  split.
  { assert (X : option_map r_ok (thread_reply 9 (on c s0)) = Some true) by (vm_compute; reflexivity).
    rewrite Er in X. injection X as X. exact X. }
  split; [apply goes_runs; vm_compute; reflexivity|].
  eexists. split; [vm_compute; left; reflexivity|]. split; reflexivity.
Qed.
Print Assumptions C32_connect_refuted.

(** These are the only two ways.  A job that is recorded as cancelled (or otherwise out of
    the queue) while the job manager is not in the middle of an iteration, and that has no
    process, is never started and never becomes queued or running again, whatever commands
    and processes are in progress or follow. *)
Theorem C32_never_runs :
  forall w0 ls0 s i ls s', wf_queue w0 -> runs ls0 (start_sys w0) = Some s ->
  (exists j, In j (w_jobs (s_world s)) /\ j_id j = i /\ out_of_queue (j_status j)) ->
  rests KJobMgr s -> no_process i s -> runs ls s = Some s' ->
  (forall j, In j (w_jobs (s_world s')) -> j_id j = i -> out_of_queue (j_status j)) /\
  starts_of i (s_world s') = starts_of i (s_world s).
Proof. exact out_lemma. Qed.
Print Assumptions C32_never_runs.

(** Job 1 was cancelled; a command that cancels jobs 2 and 1 while job 2 is running is in
    progress.  Job 1 is marked for termination, but not started, though pip-1 gets free. *)
Definition c32_out : list cue :=
  (exs_base ++ exs_cmd 9 (CmdCancel 1234 [1]) ++ exs_submit 10 ++ exs_pass 3 ++
   [At (LJobStart 0 100)] ++ repeat (At (LStep 11)) 6 ++ [At (LCmd (CmdCancel 1234 [2; 1])); At (LStep 12); At (LStep 12)])%list.
Definition c32_out_on : list cue :=
  ([Finish 12; Finish 11] ++ exs_cmd 13 (CmdReady 1234 "pip-1") ++ exs_pass 3 ++ exs_pass 3)%list.
Example C32_case_out :
  let s := played c32_out exw_init in
  let s' := on c32_out_on s in
  plays c32_out exw_init = true /\ rests KJobMgr s /\ ~ at_rest s /\ no_process 1 s /\ goes c32_out_on s = true /\
  statuses s = [(1, Scd); (2, Sr)] /\ statuses s' = [(1, Srd); (2, Sc)] /\
  map ja_jobid (starts (s_world s')) = [2].
Proof.
  cbv zeta. split; [vm_compute; reflexivity|].
  split; [apply restsb_ok; vm_compute; reflexivity|].
  split; [apply busy_not_rest with (n := 12%nat); vm_compute; reflexivity|].
  split; [apply no_processb_ok; vm_compute; reflexivity|].
  repeat split; vm_compute; reflexivity.
Qed.

(** The status stays as it is when, at the moment the job is recorded as cancelled, the job manager is
    not in the middle of an iteration and no other command is about to write to the
    record of the job. *)
Theorem C32_cancelled_partial :
  forall w0 ls0 s i ls s', wf_queue w0 -> runs ls0 (start_sys w0) = Some s ->
  (exists j, In j (w_jobs (s_world s)) /\ j_id j = i /\ j_status j = Scd) ->
  left_alone i s -> no_process i s -> Forall (cancels_only i) ls -> runs ls s = Some s' ->
  starts_of i (s_world s') = starts_of i (s_world s) /\
  forall j, In j (w_jobs (s_world s')) -> j_id j = i -> j_status j = Scd.
Proof. exact C32_from_settled. Qed.
Print Assumptions C32_cancelled_partial.

(** Job 1 is cancelled before the first scheduling pass, job 2 is not; the pipeline
    manager is in the middle of an iteration. *)
Definition c32_rest : list cue :=
  (exs_base ++ exs_cmd 9 (CmdCancel 1234 [1]) ++ exs_submit 10 ++ [At (LStep 4); At (LStep 4)])%list.
Definition c32_on : list cue := (exs_pass 3 ++ exs_pass 3 ++ [At (LJobStart 0 100); Finish 11; Finish 4])%list.
Example C32_case :
  let s := played c32_rest exw_init in
  let s' := on c32_on s in
  plays c32_rest exw_init = true /\ left_alone 1 s /\ ~ at_rest s /\ no_process 1 s /\
  Forall (cancels_only 1) (fst (play c32_on s)) /\ goes c32_on s = true /\
  statuses s = [(1, Scd); (2, Sq)] /\ statuses s' = [(1, Scd); (2, Sc)] /\
  map ja_jobid (starts (s_world s')) = [2].
Proof.
  split; [vm_compute; reflexivity|].
  split; [apply left_aloneb_ok; vm_compute; reflexivity|].
  split; [apply busy_not_rest with (n := 4%nat); vm_compute; reflexivity|].
  split; [apply no_processb_ok; vm_compute; reflexivity|].
  split; [apply cancels_onlyb_ok; vm_compute; reflexivity|].
  repeat split; vm_compute; reflexivity.
Qed.

(** ** C33 *)

(** False as stated: the process of a cancelled job is still alive and replaces
    'cd' by 'c' when it ends. *)
Definition c33_script : list cue :=
  (exs_running 6 ++ exs_cmd 10 (CmdCancel 1234 [1]) ++ exs_pass 3)%list.
Theorem C33_refuted :
  exists s ls s' j j', reachable s /\ runs ls s = Some s' /\
    In j (w_jobs (s_world s)) /\ In j' (w_jobs (s_world s')) /\ j_id j' = j_id j /\
    j_status j = Scd /\ j_status j' = Sc.
Proof.
  set (s := played c33_script exw_init).
  exists s, (fst (play [Finish 9] s)), (on [Finish 9] s). do 2 eexists.
  split; [apply plays_reachable; vm_compute; reflexivity|].
  split; [apply goes_runs; vm_compute; reflexivity|].
  split; [vm_compute; left; reflexivity|]. split; [vm_compute; left; reflexivity|].
  repeat split; reflexivity.
Qed.
Print Assumptions C33_refuted.

(** And when nothing is in progress, the job has no process, and it is listed as the last of
    several jobs to be cancelled: a completed job becomes cancelled. *)
Definition c33_list : list cue := (exs_running 6 ++ [Finish 9; Finish 4] ++ exs_submit 10)%list.
Theorem C33_list_refuted :
  exists s ls s' j j', reachable s /\ at_rest s /\ no_process 1 s /\ runs ls s = Some s' /\
    In j (w_jobs (s_world s)) /\ In j' (w_jobs (s_world s')) /\ j_id j = 1 /\ j_id j' = 1 /\
    j_status j = Sc /\ j_status j' = Scd.
Proof.
  set (s := played c33_list exw_init). set (c := exs_cmd 11 (CmdCancel 1234 [2; 1])).
  exists s, (fst (play c s)), (on c s). do 2 eexists.
  split; [apply plays_reachable; vm_compute; reflexivity|].
  split; [apply at_restb_ok; vm_compute; reflexivity|].
  split; [apply no_processb_ok; vm_compute; reflexivity|].
  split; [apply goes_runs; vm_compute; reflexivity|].
  split; [vm_compute; left; reflexivity|]. split; [vm_compute; left; reflexivity|].
  repeat split; reflexivity.
Qed.
Print Assumptions C33_list_refuted.

(** A final status is kept when the job has no process left, the job manager is not in
    the middle of an iteration and no command in progress is about to write to the
    record of the job. *)
Theorem C33_final_partial :
  forall w0 ls0 s i st ls s', wf_queue w0 -> runs ls0 (start_sys w0) = Some s -> finished st ->
  (exists j, In j (w_jobs (s_world s)) /\ j_id j = i /\ j_status j = st) ->
  left_alone i s -> no_process i s -> Forall (cancels_only i) ls -> runs ls s = Some s' ->
  forall j, In j (w_jobs (s_world s')) -> j_id j = i -> j_status j = st.
Proof. exact C33_from_settled. Qed.
Print Assumptions C33_final_partial.

(** Job 1 has completed; it is cancelled, the daemon crashes and is restarted. *)
Definition c33_rest : list cue := (exs_running 6 ++ [Finish 9; At (LStep 4); At (LStep 4)])%list.
Definition c33_on : list cue :=
  (exs_cmd 10 (CmdCancel 1234 [1]) ++ exs_submit 11 ++ exs_pass 3 ++ exs_pass 3 ++ [At LCrash] ++
   exs_cmd 9 (CmdStart 1234) ++ [At (LManager KJobMgr)] ++ exs_cmd 11 (CmdCancel 1234 [2]))%list.
Example C33_case :
  let s := played c33_rest exw_init in
  let s' := on c33_on s in
  plays c33_rest exw_init = true /\ left_alone 1 s /\ ~ at_rest s /\ no_process 1 s /\
  Forall (cancels_only 1) (fst (play c33_on s)) /\ goes c33_on s = true /\
  statuses s = [(1, Sc)] /\ statuses s' = [(1, Sc); (2, Scd)].
Proof.
  split; [vm_compute; reflexivity|].
  split; [apply left_aloneb_ok; vm_compute; reflexivity|].
  split; [apply busy_not_rest with (n := 4%nat); vm_compute; reflexivity|].
  split; [apply no_processb_ok; vm_compute; reflexivity|].
  split; [apply cancels_onlyb_ok; vm_compute; reflexivity|].
  repeat split; vm_compute; reflexivity.
Qed.

(** ** C34 *)

(** False as stated: a job that was started and has not connected yet is started
    again on the next ready pipeline, which fails as its folder exists; the job
    manager dies. *)
Definition c34_script : list cue := (exs_base ++ exs_pass 3 ++ exs_load 9 "pip-2" ++ exs_pass 3)%list.
Theorem C34_refuted :
  exists s t e, reachable s /\ In t (s_threads s) /\ t_kind t = KJobMgr /\ t_pgm t = Raise e.
Proof.
  set (s := played c34_script exw_init).
  destruct (nth_error (s_threads s) 3) as [t|] eqn:E; [|vm_compute in E; discriminate].
  assert (X : thread_raised 3 s = Some FileExistsError) by (vm_compute; reflexivity).
  exists s, t, FileExistsError. split; [apply plays_reachable; vm_compute; reflexivity|].
  split; [apply (nth_error_In _ _ E)|].
  unfold thread_raised in X. rewrite E in X. split; [vm_compute in E; inversion E; reflexivity|].
  clear E. destruct (t_pgm t) as [r|e|o k]; [discriminate X|injection X as ->; reflexivity|discriminate X].
Qed.
Print Assumptions C34_refuted.

(** A pass succeeds when the drivers of all pipelines with the roles of a queued
    job answer, archives of jobs to be cancelled
    can be written, and no queued job has a folder. *)
Theorem C34_pass_partial :
  forall d w, w_daemon w = Some d -> wf_queue w -> NoDup (map p_name (w_pips w)) ->
  (forall p, In p (dvals (df_pipelines (dm_df d))) ->
     plain (pp_name p) /\ In (pp_name p) (dkeys (df_pipelines (dm_df d)))) ->
  (forall j, In j (w_jobs w) -> queued (j_status j) -> relevant_answer w d (pl_method (j_payload j))) ->
  (forall j p, In j (w_jobs w) -> j_status j = Srd -> j_pid j = Some p -> live w p ->
     j_jobpath j <> None /\ j_respath j <> None /\ w_merge w (j_id j) = None) ->
  (forall j, In j (w_jobs w) -> queued (j_status j) ->
     ~ In (st_storage (dm_settings d), j_id j) (w_dirs w)) ->
  fst (run exec job_pass w) = Ok tt.
Proof. exact C34_lemma. Qed.
Print Assumptions C34_pass_partial.

(** Four jobs, two of them queued, one running. *)
Example C34_case :
  w_daemon exw_up = Some exw_daemon /\ wf_queue exw_up /\ NoDup (map p_name (w_pips exw_up)) /\
  all_reachable exw_up exw_daemon /\
  (forall j, In j (w_jobs exw_up) -> queued (j_status j) ->
     ~ In (st_storage (dm_settings exw_daemon), j_id j) (w_dirs exw_up)) /\
  fst (run exec job_pass exw_up) = Ok tt /\
  map ja_jobid (starts (snd (run exec job_pass exw_up))) = [3].
Proof.
  split; [reflexivity|]. split; [split; [|split]; vm_compute; repeat constructor; discriminate|].
  split; [vm_compute; repeat constructor; intros H; repeat (destruct H as [H|H]; [discriminate|]); destruct H|].
  split.
  { intros p rc Hp Hrc. vm_compute in Hp.
    repeat (destruct Hp as [<-|Hp]; [vm_compute in Hrc;
      repeat (destruct Hrc as [<-|Hrc]; [
        eexists _, _, _; split; [split; [vm_compute; reflexivity|eexists; split; vm_compute; reflexivity]|
          vm_compute; reflexivity]|]); destruct Hrc|]).
    destruct Hp. }
  split; [intros j _ _ H; vm_compute in H; destruct H|].
  split; vm_compute; reflexivity.
Qed.

(** ** C39 *)

(** False as stated: a scheduling pass in progress goes on starting jobs. *)
Definition c39_before : list cue :=
  (exs_base ++ At (LStep 3) :: repeat (At (LStep 3)) 10 ++ exs_cmd 9 (CmdStop 1234))%list.
Theorem C39_refuted :
  exists s ls s' d a, reachable s /\ w_daemon (s_world s) = Some d /\ dm_status d = Dstop /\
    runs ls s = Some s' /\ starts (s_world s) = [] /\ starts (s_world s') = [a].
Proof.
  set (s := played c39_before exw_init).
  exists s, (fst (play [At LTellStop; Finish 3] s)), (on [At LTellStop; Finish 3] s). do 2 eexists.
  split; [apply plays_reachable; vm_compute; reflexivity|].
  split; [vm_compute; reflexivity|]. split; [reflexivity|].
  split; [apply goes_runs; vm_compute; reflexivity|].
  split; vm_compute; reflexivity.
Qed.
Print Assumptions C39_refuted.

(** From the moment the managers have been told to stop and the pass in
    progress is over, no job is started until a new daemon starts its manager. *)
Theorem C39_stopped_partial :
  forall w0 ls0 s ls s', runs ls0 (start_sys w0) = Some s -> s_run s = false -> rests KJobMgr s ->
  ~ In (LManager KJobMgr) ls -> runs ls s = Some s' -> starts (s_world s') = starts (s_world s).
Proof. exact C39_lemma. Qed.
Print Assumptions C39_stopped_partial.

Definition c39_rest : list cue := (exs_base ++ exs_cmd 9 (CmdStop 1234) ++ [At LTellStop])%list.
Definition c39_on : list cue := (exs_pass 3 ++ exs_pass 4 ++ exs_pass 5 ++ exs_submit 10 ++ [At LExit])%list.
Example C39_case :
  let s := played c39_rest exw_init in
  let s' := on c39_on s in
  plays c39_rest exw_init = true /\ s_run s = false /\ rests KJobMgr s /\
  ~ In (LManager KJobMgr) (fst (play c39_on s)) /\ goes c39_on s = true /\
  statuses s = [(1, Sq)] /\ starts (s_world s') = [] /\ w_daemon (s_world s') = None.
Proof.
  split; [vm_compute; reflexivity|]. split; [vm_compute; reflexivity|].
  split; [apply no_active_rests; vm_compute; reflexivity|].
  split; [|repeat split; vm_compute; reflexivity].
  vm_compute. intros H. repeat (destruct H as [H|H]; [discriminate|]). destruct H.
Qed.
