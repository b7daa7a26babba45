(** * P_Job: properties C26-C28, C35-C37, C64 (matching, starting, supervising) *)
From Coq Require Import List String Ascii ZArith Bool Sorted Lia.
From Verif Require Import Base BaseFacts ProgFacts WorldFacts KetchupProofs PyStr Types ConfigModel Prog World Replies CmdModel KetchupModel
  JobModel PipModel SpecQueue SpecJob MatchProofs JobProofs SuperProofs P_JobFacts ExWorld.
Import ListNotations.
Open Scope string_scope.
Open Scope Z_scope.

(** ** C26 *)
Theorem C26_matching :
  forall d method w x w', run exec (find_matching_pipelines d method) w = (x, w') ->
  (exists es, w' = add_events w es) /\
  (forall l, x = Ok l -> matching w d method l) /\
  (all_reachable w d -> exists l, x = Ok l).
Proof. exact find_matching_spec. Qed.
Print Assumptions C26_matching.

Definition c26_two : list task :=
  [exw_task; mkTask "psutil" "random" None None None None 1 10].
Example C26_case :
  all_reachable exw_up exw_daemon /\
  fst (run exec (find_matching_pipelines exw_daemon [exw_task]) exw_up) = Ok ["pip-both"; "pip-1"; "pip-2"] /\
  fst (run exec (find_matching_pipelines exw_daemon c26_two) exw_up) = Ok ["pip-both"] /\
  fst (run exec (find_matching_pipelines exw_daemon [exw_task]) exw_down) = Ok ["pip-both"] /\
  fst (run exec (find_matching_pipelines exw_daemon [exw_task]) exw_busy) = Err ZMQError.
Proof.
  split; [|repeat split; vm_compute; reflexivity].
  intros p rc Hp Hrc. vm_compute in Hp.
  repeat (destruct Hp as [<-|Hp]; [vm_compute in Hrc;
    repeat (destruct Hrc as [<-|Hrc]; [eexists _, _, _; split;
      [split; [vm_compute; reflexivity|eexists; split; vm_compute; reflexivity]|vm_compute; reflexivity]|]); destruct Hrc|]).
  destruct Hp.
Qed.

(** ** C27 *)
Theorem C27_check :
  forall d w x w', wf_queue w -> run exec (check_queued d) w = (x, w') ->
  (exists es jobs', w' = add_events (set_jobs w jobs' (w_seq w)) es /\
     Forall2 (fun j j' => j' = j \/
                (j_status j = Sq /\ some_match w d j /\ j' = with_jstatus j Sqw)) (w_jobs w) jobs' /\
     (forall m, x = Ok m ->
        Forall2 (fun j j' => j_status j = Sq -> some_match w d j -> j' = with_jstatus j Sqw)
          (w_jobs w) jobs')) /\
  (forall m, x = Ok m -> exists q, exactly (fun j => queued (j_status j)) (w_jobs w) q /\
     Forall2 (fun j e => fst e = j_id j /\ matching w d (pl_method (j_payload j)) (snd e)) q m) /\
  (all_reachable w d -> exists m, x = Ok m).
Proof. exact check_queued_spec. Qed.
Print Assumptions C27_check.

Example C27_case :
  wf_queue exw_up /\
  map j_status (w_jobs exw_up) = [Sc; Sr; Sq; Sqw] /\
  map j_status (w_jobs (snd (run exec (check_queued exw_daemon) exw_up))) = [Sc; Sr; Sqw; Sqw] /\
  fst (run exec (check_queued exw_daemon) exw_up) =
    Ok [(3, ["pip-both"; "pip-1"; "pip-2"]); (5, ["pip-both"; "pip-1"; "pip-2"])].
Proof.
  split; [|repeat split; vm_compute; reflexivity].
  split; [|split]; vm_compute; repeat constructor; discriminate.
Qed.

(** ** C28 *)
Theorem C28_start :
  forall d matched w x w',
  NoDup (map p_name (w_pips w)) -> NoDup (map fst matched) ->
  (forall m, In m matched -> exists j, get_job (w_jobs w) (fst m) = Some j) ->
  (forall m pn, In m matched -> In pn (snd m) ->
     has_char "'" pn = false /\ In pn (dkeys (df_pipelines (dm_df d)))) ->
  run exec (action_queued d matched) w = (x, w') ->
  exists asg, greedy w matched asg /\
  ((x = Ok tt /\ started d asg w w' /\
    (forall y, In y asg -> ~ In (st_storage (dm_settings d), fst y) (w_dirs w))) \/
   (exists asg1 y asg2, asg = (asg1 ++ y :: asg2)%list /\ x = Err FileExistsError /\
      In (st_storage (dm_settings d), fst y) (w_dirs w) /\ started d asg1 w w')).
Proof. exact action_queued_spec. Qed.
Print Assumptions C28_start.

(** Two jobs want the same sample; only pip-both holds it and is free and ready. *)
Example C28_case :
  let m := [(5, ["pip-both"; "pip-1"; "pip-2"]); (3, ["pip-1"; "pip-both"])] in
  let w' := snd (run exec (action_queued exw_daemon m) exw_up) in
  fst (run exec (action_queued exw_daemon m) exw_up) = Ok tt /\
  map (fun a => (ja_jobid a, ja_pipeline a, ja_dir a)) (w_spawned w') = [(3, "pip-both", ("/jobs", 3))] /\
  get_pip (w_pips w') "pip-both" = Some (mkPip "pip-both" false (Some 3) (Some "sample-1")) /\
  fst (run exec (action_queued exw_daemon m) (set_dirs exw_up [("/jobs", 3)])) = Err FileExistsError.
Proof. repeat split; vm_compute; reflexivity. Qed.

(** ** C35 *)
Theorem C35_reconcile :
  forall w x w', wf_queue w -> run exec manage_running w = (x, w') ->
  exists es jobs', w' = add_events (set_jobs w jobs' (w_seq w)) es /\
    Forall2 (fun j j' => j' = j \/ reconciled w j j') (w_jobs w) jobs' /\
    (x = Ok tt -> Forall2 (reconciled w) (w_jobs w) jobs') /\
    ((forall j p, In j (w_jobs w) -> j_status j = Srd -> j_pid j = Some p -> live w p ->
        j_jobpath j <> None /\ j_respath j <> None /\ w_merge w (j_id j) = None) ->
     x = Ok tt).
Proof.
  intros w x w' Hw H. destruct (manage_running_spec w x w' Hw H) as (es & js & H1 & H2 & H3 & _ & H4).
  exists es, js. auto.
Qed.
Print Assumptions C35_reconcile.

Example C35_case :
  wf_queue exw_down /\
  map (fun j => (j_status j, j_pid j, j_completed j)) (w_jobs exw_down) =
    [(Sc, Some 11, None); (Sr, Some 12, None); (Sq, None, None); (Sqw, None, None)] /\
  map (fun j => (j_status j, j_pid j, j_completed j)) (w_jobs (snd (run exec manage_running exw_down))) =
    [(Sc, Some 11, None); (Sce, None, Some 1000); (Sq, None, None); (Sqw, None, None)] /\
  w_jobs (snd (run exec manage_running exw_up)) = w_jobs exw_up.
Proof.
  split; [|repeat split; vm_compute; reflexivity].
  split; [|split]; vm_compute; repeat constructor; discriminate.
Qed.

(** A job marked for termination without a recorded process stays so. *)
Example C35_no_process :
  let w := set_jobs exw_up [exw_job 1 None Srd None] 1 in
  run exec manage_running w = (Ok tt, w).
Proof. vm_compute. reflexivity. Qed.

(** ** C36 *)
Theorem C36_free :
  forall d w x w', w_daemon w = Some d -> NoDup (map p_name (w_pips w)) ->
  (forall p, In p (w_pips w) -> has_char "'" (p_name p) = false) ->
  run exec pip_pass w = (x, w') ->
  exists pips' es, w' = add_events (set_pips w pips') es /\
    Forall2 (fun p p' => p' = p \/
      (orphaned w p /\ p' = freed p /\
       exists pl, dget (df_pipelines (dm_df d)) (p_name p) = Some pl /\
         forall rc, In rc (pp_components pl) -> exists cmp port, component_port w d (snd rc) cmp port /\
           In (EvRequest port (CReset (c_address cmp) (c_channel cmp))) es)) (w_pips w) pips' /\
    (forall e, In e es -> exists p, In p (w_pips w) /\ orphaned w p /\ reset_request w d (p_name p) e) /\
    (x = Ok tt -> Forall2 (fun p p' => orphaned w p -> p' = freed p) (w_pips w) pips') /\
    ((forall p i, In p (w_pips w) -> p_jobid p = Some i -> get_job (w_jobs w) i <> None) ->
     (forall p, In p (w_pips w) -> orphaned w p -> resettable w d (p_name p)) -> x = Ok tt).
Proof. exact pip_pass_spec. Qed.
Print Assumptions C36_free.

Example C36_case :
  w_daemon exw_down = Some exw_daemon /\
  w_pips exw_down =
    [mkPip "pip-both" true None (Some "sample-1"); mkPip "pip-1" false (Some 2) (Some "sample-1");
     mkPip "pip-2" false None None] /\
  w_pips (snd (run exec pip_pass exw_down)) =
    [mkPip "pip-both" true None (Some "sample-1"); mkPip "pip-1" false None (Some "sample-1");
     mkPip "pip-2" false None None] /\
  w_log (snd (run exec pip_pass exw_down)) = EvRequest 7001 (CReset "addr1" "1") :: w_log exw_down /\
  run exec pip_pass exw_up = (Ok tt, exw_up).
Proof. repeat split; vm_compute; reflexivity. Qed.

(** ** C37 *)

(** As stated it is false: a job launched eleven seconds ago that never
    connected is neither freed nor marked. *)
Theorem C37_refuted :
  exists d w j l, w_daemon w = Some d /\ wf_queue w /\ NoDup (map p_name (w_pips w)) /\
  all_reachable w d /\
  In j (w_jobs w) /\ j_pid j = None /\ j_connected j = None /\ j_launched j = Some l /\
  w_now w - l > 10 * 1000000 /\
  (exists p, In p (w_pips w) /\ p_jobid p = Some (j_id j)) /\
  run exec pip_pass w = (Ok tt, w) /\ run exec manage_running w = (Ok tt, w).
Proof. exact c37_refuted. Qed.
Print Assumptions C37_refuted.

(** What holds: the pipeline of such a job is freed once more than ten days have
    passed, not before; the job itself is never marked. *)
Theorem C37_partial :
  forall d w p i j l, w_daemon w = Some d -> wf_queue w -> NoDup (map p_name (w_pips w)) ->
  (forall q, In q (w_pips w) -> has_char "'" (p_name q) = false) ->
  (forall q k, In q (w_pips w) -> p_jobid q = Some k -> get_job (w_jobs w) k <> None) ->
  (forall q, In q (w_pips w) -> orphaned w q -> resettable w d (p_name q)) ->
  In p (w_pips w) -> p_jobid p = Some i -> get_job (w_jobs w) i = Some j ->
  j_pid j = None -> j_connected j = None -> j_launched j = Some l ->
  fst (run exec pip_pass w) = Ok tt /\
  get_pip (w_pips (snd (run exec pip_pass w))) (p_name p) =
    Some (if Z.ltb (10 * 24 * 3600 * 1000000) (w_now w - l)
          then mkPip (p_name p) false None (p_sample p) else p) /\
  In j (w_jobs (snd (run exec manage_running w))).
Proof. exact c37_partial. Qed.
Print Assumptions C37_partial.

(** The code that is there for such a job (job.py:167-175) does the right thing after ten
    seconds and not before, except that the job is marked as cancelled and not as failed.
    It is only applied to jobs that have a process, so it is never reached (the last line
    of [C37_partial]). *)
Theorem C37_unreached :
  forall w j l, get_job (w_jobs w) (j_id j) = Some j ->
  j_pid j = None -> j_connected j = None -> j_launched j = Some l ->
  fst (run exec (manage_one tt j) w) = Ok tt /\
  (w_now w - l <= 10 * 1000000 -> snd (run exec (manage_one tt j) w) = w) /\
  (w_now w - l > 10 * 1000000 ->
   exists j', get_job (w_jobs (snd (run exec (manage_one tt j) w))) (j_id j) = Some j' /\
     j_status j' = Scd /\ j_pid j' = None /\ j_completed j' = Some (w_now w) /\
     j_payload j' = j_payload j /\
     forall i, i <> j_id j ->
       get_job (w_jobs (snd (run exec (manage_one tt j) w))) i = get_job (w_jobs w) i).
Proof.
  intros w j l Hj Hp Hc Hl. unfold manage_one. rewrite Hp, Hc, Hl.
  rewrite run_bind, run_act. cbn [exec]. unfold max_job_nopid.
  destruct (Z.ltb_spec 10000000 (w_now w - l)) as [L|L].
  - unfold reconcile, finish_cancelled. rewrite run_bind. cbn [run].
    rewrite run_bind. cbn [run]. rewrite run_bind, run_act. cbn [exec].
    rewrite run_bind, run_update_job_id, get_job_upd, Z.eqb_refl, Hj. cbn [option_map run fst snd].
    split; [reflexivity|]. split; [lia|]. intros _. cbn [w_jobs set_jobs]. eexists.
    split; [rewrite get_job_upd, Z.eqb_refl, Hj; reflexivity|]. repeat (split; [reflexivity|]).
    intros i Hi. rewrite get_job_upd. destruct (Z.eqb_spec i (j_id j)); [contradiction | reflexivity].
  - cbn [run fst snd]. split; [reflexivity|]. split; [reflexivity | lia].
Qed.
Print Assumptions C37_unreached.

Example C37_case :
  let w t := mkWorld (w_jobs exw_lost) (w_seq exw_lost) (w_pips exw_lost) (w_drvs exw_lost)
    (w_daemon exw_lost) (w_files exw_lost) (w_dirs exw_lost) (w_jobdata exw_lost) (w_spawned exw_lost)
    (w_procs exw_lost) (w_driver exw_lost) (w_main exw_lost) (w_merge exw_lost) (w_crate exw_lost)
    (w_outdir exw_lost) t (w_perf exw_lost) (w_log exw_lost) in
  get_pip (w_pips (snd (run exec pip_pass (w 1000)))) "pip-2" = Some (mkPip "pip-2" false (Some 7) (Some "sample-1")) /\
  get_pip (w_pips (snd (run exec pip_pass (w 900000000000)))) "pip-2" = Some (mkPip "pip-2" false None (Some "sample-1")).
Proof. split; vm_compute; reflexivity. Qed.

Example C37_case_branch :
  let j t := mkJob 7 exw_payload None None Sqw 100 (Some (1000 - t)) None None None None None in
  let after t := option_map (fun k => (j_status k, j_completed k))
    (get_job (w_jobs (snd (run exec (manage_one tt (j t)) (set_jobs exw_up [j t] 7)))) 7) in
  after 10000000 = Some (Sqw, None) /\ after 10000001 = Some (Scd, Some 1000).
Proof. split; vm_compute; reflexivity. Qed.

(** ** C64 *)
Theorem C64_outcome :
  forall pid a w w', has_char "'" (ja_pipeline a) = false ->
  run exec (tomato_job pid a) w = (Ok tt, w') ->
  exists ok j j', w_main w (ja_jobid a) = Ok ok /\
    get_job (w_jobs w) (ja_jobid a) = Some j /\
    get_job (w_jobs w') (ja_jobid a) = Some j' /\
    (j_status j' = Sc <-> ok = true) /\ (j_status j' = Sce <-> ok = false) /\
    j_completed j' = Some (w_now w) /\ j_pid j' = Some pid /\ j_payload j' = j_payload j /\
    (forall i, i <> ja_jobid a -> get_job (w_jobs w') i = get_job (w_jobs w) i) /\
    (forall p, get_pip (w_pips w) (ja_pipeline a) = Some p ->
       get_pip (w_pips w') (ja_pipeline a) =
         Some (mkPip (p_name p) (pl_unlock (j_payload j)) None (p_sample p))) /\
    (forall n, n <> ja_pipeline a -> get_pip (w_pips w') n = get_pip (w_pips w) n) /\
    (exists path, j_respath j' = Some path /\ w_log w' = EvArchive path j' :: w_log w).
Proof. exact c64_outcome. Qed.
Print Assumptions C64_outcome.

Example C64_case :
  let a := mkArgs "pip-1" exw_payload [] 2 ("/jobs", 2) in
  let w' := snd (run exec (tomato_job 12 a) exw_up) in
  fst (run exec (tomato_job 12 a) exw_up) = Ok tt /\
  option_map (fun j => (j_status j, j_completed j, j_respath j)) (get_job (w_jobs w') 2) =
    Some (Sc, Some 1000, Some "/out/results.2.nc") /\
  get_pip (w_pips w') "pip-1" = Some (mkPip "pip-1" true None (Some "sample-1")).
Proof. repeat split; vm_compute; reflexivity. Qed.
