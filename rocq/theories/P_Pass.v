(** * P_Pass: a queued job that can run is run (C99) *)
From Coq Require Import List String Ascii ZArith Bool Sorted Lia.
From Verif Require Import Base PyStr Types ConfigModel Prog ProgFacts World Replies CmdModel KetchupModel JobModel
  SysModel SpecQueue SpecJob SpecSys ExWorld SysPlay PassProofs PassProofs2.
Import ListNotations.
Open Scope string_scope.
Open Scope Z_scope.

(** A pass of the job manager comes to its end; it starts a process for each of the jobs that are
    assigned to pipelines in the order of the queue, reserves these pipelines and notes the time. *)
Theorem C99_pass : forall d w, pass_ready w d ->
  exists w' q matched asg args, run exec job_pass w = (Ok tt, w') /\
    exactly (fun j => queued (j_status j)) (w_jobs w) q /\
    Forall2 (fun j e => fst e = j_id j /\ matching w d (pl_method (j_payload j)) (snd e)) q matched /\
    greedy w matched asg /\ w_spawned w' = (w_spawned w ++ args)%list /\
    Forall2 (fun x a => exists j, get_job (w_jobs w) (fst x) = Some j /\ start_args d j (snd x) a) asg args /\
    (forall pn, get_pip (w_pips w') pn =
       match assigned_to asg pn with
       | Some i => option_map (fun ps => mkPip (p_name ps) false (Some i) (p_sample ps)) (get_pip (w_pips w) pn)
       | None => get_pip (w_pips w) pn
       end) /\
    (forall x j, In x asg -> get_job (w_jobs w) (fst x) = Some j ->
       get_job (w_jobs w') (fst x) = Some (launched_row j (w_now w))).
Proof. exact pass_lemma. Qed.
Print Assumptions C99_pass.

(** So a queued job for which a pipeline is free, ready and holds its sample is started in the
    next pass, unless an older job is started on that pipeline; *)
Theorem C99_starts : forall d w j p, pass_ready w d -> In j (w_jobs w) -> queued (j_status j) ->
  In p (dvals (df_pipelines (dm_df d))) -> can_run w d (pl_method (j_payload j)) p -> open_for w j (pp_name p) ->
  exists w' args a, run exec job_pass w = (Ok tt, w') /\ w_spawned w' = (w_spawned w ++ args)%list /\ In a args /\
    (ja_jobid a = j_id j \/ ja_jobid a < j_id j /\ ja_pipeline a = pp_name p).
Proof. exact starts_lemma. Qed.
Print Assumptions C99_starts.

(** a younger job is not started on a pipeline that an older one could use, unless the older one
    is started too. *)
Theorem C99_order : forall d w w' args j1 j2 a2 p, pass_ready w d -> run exec job_pass w = (Ok tt, w') ->
  w_spawned w' = (w_spawned w ++ args)%list ->
  In j1 (w_jobs w) -> queued (j_status j1) -> j_id j1 < j_id j2 ->
  In p (dvals (df_pipelines (dm_df d))) -> can_run w d (pl_method (j_payload j1)) p -> open_for w j1 (pp_name p) ->
  In a2 args -> ja_jobid a2 = j_id j2 -> ja_pipeline a2 = pp_name p ->
  exists a1, In a1 args /\ ja_jobid a1 = j_id j1.
Proof. exact order_lemma. Qed.
Print Assumptions C99_order.

(** A job process comes to its end exactly if its record exists, its output folder can be used,
    its main loop ends, its data can be archived, and the crate, if it needs one, can be made. *)
Theorem C99_process : forall pid a w, has_char "'"%char (ja_pipeline a) = false ->
  (fst (run exec (tomato_job pid a) w) = Ok tt <->
   (exists j, get_job (w_jobs w) (ja_jobid a) = Some j) /\
   (exists out, pl_outpath (ja_payload a) = Some out /\ w_outdir w out = None) /\
   (exists ok, w_main w (ja_jobid a) = Ok ok) /\ w_merge w (ja_jobid a) = None /\
   (ja_repos a = [] \/ w_crate w (ja_jobid a) = None)).
Proof. exact job_exact. Qed.
Print Assumptions C99_process.

(** The whole life of the oldest queued job: the job manager makes a pass, a process starts and
    runs, and the job is complete, or failed if its main loop says so; its pipeline is free again,
    still holds the sample, and is ready if the payload says so. *)
Theorem C99_life : forall s n r d j p out ok pid,
  nth_error (s_threads s) n = Some (mkThread KJobMgr (Ret r) false) -> s_run s = true ->
  pass_ready (s_world s) d -> In j (w_jobs (s_world s)) -> queued (j_status j) ->
  (forall j', In j' (w_jobs (s_world s)) -> queued (j_status j') -> j_id j <= j_id j') ->
  In p (dvals (df_pipelines (dm_df d))) -> can_run (s_world s) d (pl_method (j_payload j)) p ->
  open_for (s_world s) j (pp_name p) ->
  pl_outpath (j_payload j) = Some out -> w_outdir (s_world s) out = None ->
  w_main (s_world s) (j_id j) = Ok ok -> w_merge (s_world s) (j_id j) = None ->
  w_crate (s_world s) (j_id j) = None -> get_proc (w_procs (s_world s)) pid = None ->
  exists ls s' p' j', runs ls s = Some s' /\
    (forall l, In l ls -> l = LStep n \/ (exists i, l = LJobStart i pid) \/ l = LStep (List.length (s_threads s))) /\
    In p' (dvals (df_pipelines (dm_df d))) /\ can_run (s_world s) d (pl_method (j_payload j)) p' /\
    open_for (s_world s) j (pp_name p') /\
    get_job (w_jobs (s_world s')) (j_id j) = Some j' /\
    j_status j' = (if ok then Sc else Sce) /\ j_payload j' = j_payload j /\
    j_launched j' <> None /\ j_connected j' <> None /\ j_completed j' <> None /\
    get_pip (w_pips (s_world s')) (pp_name p') =
      Some (mkPip (pp_name p') (pl_unlock (j_payload j)) None (Some (pl_sample (j_payload j)))).
Proof. exact life_lemma. Qed.
Print Assumptions C99_life.

(** The conditions hold after a job was submitted and a sample was loaded; two jobs want the
    pipeline and the older one gets it. *)
Lemma c99_reachable w d : all_reachable w d -> forall j, relevant_answer w d (pl_method (j_payload j)).
Proof. intros H j p rc Hp _ Hrc. exact (H p rc Hp Hrc). Qed.
Definition c99_queue : list cue := (exs_base ++ exs_submit 9)%list.
Definition c99_state : sys := played c99_queue exw_init.
Definition c99_world : world := Eval vm_compute in s_world c99_state.
Definition c99_daemon : daemon :=
  Eval vm_compute in match w_daemon c99_world with Some d => d | None => exw_daemon end.
Example C99_ex_ready :
  plays c99_queue exw_init = true /\ s_world c99_state = c99_world /\ pass_ready c99_world c99_daemon /\
  s_run c99_state = true /\ nth_error (s_threads c99_state) 3 = Some (mkThread KJobMgr (Ret None) false) /\
  map (fun j => (j_id j, j_status j)) (w_jobs c99_world) = [(1, Sq); (2, Sq)] /\
  (forall j, In j (w_jobs c99_world) -> open_for c99_world j "pip-1") /\
  fst (run exec job_pass c99_world) = Ok tt /\
  map (fun a => (ja_jobid a, ja_pipeline a)) (w_spawned (snd (run exec job_pass c99_world))) = [(1, "pip-1")].
Proof.
  split; [vm_compute; reflexivity|]. split; [vm_compute; reflexivity|]. split.
  { split; [reflexivity|]. split; [split; [|split]; cbn; repeat constructor; discriminate|].
    split; [cbn; repeat constructor; intros H; repeat (destruct H as [H|H]; [discriminate|]); destruct H|].
    split; [intros p H; cbn in H; repeat (destruct H as [<-|H]; [split; [reflexivity|cbn; auto]|]); destruct H|].
    split.
    { intros j _ _. apply c99_reachable. intros p rc Hp Hrc. cbn in Hp.
      repeat (destruct Hp as [<-|Hp]; [cbn in Hrc;
        repeat (destruct Hrc as [<-|Hrc]; [
          eexists _, _, _; split; [split; [reflexivity|eexists; split; reflexivity]|reflexivity]|]); destruct Hrc|]).
      destruct Hp. }
    split; [intros j q H S; cbn in H; repeat (destruct H as [<-|H]; [discriminate S|]); destruct H|].
    intros j _ _ H. destruct H. }
  split; [vm_compute; reflexivity|]. split; [vm_compute; reflexivity|]. split; [reflexivity|].
  split.
  { intros j H. cbn in H. repeat (destruct H as [<-|H]; [eexists; repeat split|]); destruct H. }
  split; vm_compute; reflexivity.
Qed.
Example C99_ex_life :
  let s' := on (exs_pass 3 ++ [At (LJobStart 0 100); Finish 10])%list c99_state in
  goes (exs_pass 3 ++ [At (LJobStart 0 100); Finish 10])%list c99_state = true /\
  map (fun j => (j_id j, j_status j, j_pid j)) (w_jobs (s_world s')) = [(1, Sc, Some 100); (2, Sqw, None)] /\
  get_pip (w_pips (s_world s')) "pip-1" =
    Some (mkPip "pip-1" (pl_unlock exw_payload) None (Some "sample-1")).
Proof. split; [|split]; vm_compute; reflexivity. Qed.
