(** * P_Cmd: properties C06-C09, C38, C73 (reload, start and stop) *)
From Coq Require Import List String ZArith Bool.
From Verif Require Import Base PyStr Types ConfigModel Prog World Replies CmdModel TomatoModel
  SpecCmd CmdProofs CmdProofs2 ExWorld.
Import ListNotations.
Open Scope string_scope.
Open Scope Z_scope.

(** ** C06 *)
Theorem C06_reload_keeps_running_jobs :
  forall port w d r w',
  w_daemon w = Some d -> configured d -> wf_files (w_files w) ->
  run exec (tomato_reload port) w = (Ok r, w') -> r_ok r = true ->
  exists d', w_daemon w' = Some d' /\ keeps (w_pips w) (dm_df d) (dm_df d').
Proof. exact reload_keeps. Qed.
Print Assumptions C06_reload_keeps_running_jobs.

(** Reloading files with one more pipeline while a job occupies pip-1. *)
Definition ex_reload : world := set_files exw_busy (exw_cfg exw_file2).

Example C06_case : exists d r w',
  w_daemon ex_reload = Some d /\ configured d /\ wf_files (w_files ex_reload) /\
  run exec (tomato_reload 1234) ex_reload = (Ok r, w') /\ r_ok r = true /\
  existsb (fun p => is_some (p_jobid p)) (w_pips ex_reload) = true.
Proof.
  eexists. eexists. eexists. split; [reflexivity|]. split; [|split].
  - exists (exw_cfg exw_file). split; [|reflexivity].
    intros st Hst. injection Hst as <-. intros tbl Ht. injection Ht as <-. split.
    + repeat constructor; cbn; intuition discriminate.
    + intros n t. cbn. destruct (String.eqb n "psutil"); [|discriminate].
      intros E; injection E as <-. repeat constructor; cbn; intuition.
  - intros st Hst. injection Hst as <-. intros tbl Ht. injection Ht as <-. split.
    + repeat constructor; cbn; intuition discriminate.
    + intros n t. cbn. destruct (String.eqb n "psutil"); [|discriminate].
      intros E; injection E as <-. repeat constructor; cbn; intuition.
  - split; [vm_compute; reflexivity|]. split; reflexivity.
Qed.

(** Removing the occupied pipeline is refused. *)
Example C06_case_refused :
  match run exec (tomato_reload 1234)
          (set_files exw_busy (exw_cfg (mkRawFile (rf_devices exw_file) []))) with
  | (Ok r, _) => r_ok r = false /\ r_msg r = MDeletePip
  | _ => False
  end.
Proof. vm_compute. auto. Qed.

(** ** C07 *)
Theorem C07_failed_reload_changes_nothing :
  forall port w x w',
  run exec (tomato_reload port) w = (x, w') ->
  (forall r, x = Ok r -> r_ok r = false) -> w' = w.
Proof. exact reload_failed. Qed.
Print Assumptions C07_failed_reload_changes_nothing.

Theorem C07_successful_reload_is_exact :
  forall port w r w',
  run exec (tomato_reload port) w = (Ok r, w') -> r_ok r = true ->
  exists d nd, w_daemon w = Some d /\
    load_daemon (w_files w) (dm_status d) (dm_port d) = Ok nd /\
    w' = set_daemon w (Some nd).
Proof. exact reload_succeeded. Qed.
Print Assumptions C07_successful_reload_is_exact.

Theorem C07_compatible_reload_succeeds :
  forall port w d nd,
  w_daemon w = Some d -> configured d -> wf_files (w_files w) ->
  load_daemon (w_files w) (dm_status d) (dm_port d) = Ok nd ->
  keeps (w_pips w) (dm_df d) (dm_df nd) ->
  exists r, run exec (tomato_reload port) w = (Ok r, set_daemon w (Some nd)) /\ r_ok r = true.
Proof. exact reload_accepts. Qed.
Print Assumptions C07_compatible_reload_succeeds.

(** The reply to a refused reload names what would be lost or changed, and a job uses it. *)
Theorem C07_reason :
  forall port w d r w', w_daemon w = Some d -> configured d -> wf_files (w_files w) ->
  run exec (tomato_reload port) w = (Ok r, w') -> r_ok r = false ->
  (r = mkReply false MNoSettings RNone /\ cf_settings (w_files w) = None) \/
  (r = mkReply false MParseError RNone /\
   exists e, load_daemon (w_files w) (dm_status d) (dm_port d) = Err e) \/
  (exists nd, load_daemon (w_files w) (dm_status d) (dm_port d) = Ok nd /\
     refusal (w_pips w) (dm_df d) (dm_df nd) r).
Proof. exact reload_refused. Qed.
Print Assumptions C07_reason.

(** Files without the pipeline that has the job; without settings. *)
Example C07_case_refused :
  match run exec (tomato_reload 1234) (set_files exw_busy (exw_cfg (mkRawFile (rf_devices exw_file) []))) with
  | (Ok (mkReply false MDeletePip (RPipeline p)), _) => pp_name p = "pip-1"
  | _ => False
  end /\
  fst (run exec (tomato_reload 1234) (set_files exw_busy (mkCfg None (fun _ => None)))) =
    Ok (mkReply false MNoSettings RNone).
Proof. vm_compute. auto. Qed.

(** The hypotheses are those of [C06_case]: its reload succeeds, so that
    [keeps] holds for it by C06. *)
Example C07_case : exists d nd,
  w_daemon ex_reload = Some d /\
  load_daemon (w_files ex_reload) (dm_status d) (dm_port d) = Ok nd /\
  keeps (w_pips ex_reload) (dm_df d) (dm_df nd).
Proof.
  destruct C06_case as (d & r & w' & H1 & H2 & H3 & H4 & H5 & _).
  destruct (C06_reload_keeps_running_jobs _ _ _ _ _ H1 H2 H3 H4 H5) as (d' & K1 & K2).
  destruct (C07_successful_reload_is_exact _ _ _ _ H4 H5) as (d0 & nd & L1 & L2 & ->).
  exists d, nd. rewrite H1 in L1. injection L1 as <-.
  cbn in K1. injection K1 as <-. auto.
Qed.

(** ** C08: false, because reload creates no records for new pipelines. *)
Theorem C08_refuted :
  exists w0 w1 cf r w2 d pn,
    run exec (daemon_start 1234) w0 = (Ok tt, w1) /\
    run exec (tomato_reload 1234) (set_files w1 cf) = (Ok r, w2) /\ r_ok r = true /\
    w_daemon w2 = Some d /\ In pn (dkeys (df_pipelines (dm_df d))) /\
    get_pip (w_pips w2) pn = None /\
    (* loading a sample into it reports success but has no effect *)
    exists r', run exec (pipeline_load 1234 pn "s") w2 = (Ok r', w2) /\ r_ok r' = true.
Proof.
  exists exw_init. eexists. exists (exw_cfg exw_file2). eexists. eexists. eexists. exists "extra".
  split; [vm_compute; reflexivity|]. split; [vm_compute; reflexivity|].
  split; [reflexivity|]. split; [reflexivity|]. split; [vm_compute; auto|].
  split; [reflexivity|]. eexists. split; [vm_compute; reflexivity|reflexivity].
Qed.
Print Assumptions C08_refuted.

Theorem C08_kept_pipelines_partial :
  forall port w r w', run exec (tomato_reload port) w = (Ok r, w') ->
  forall pn p, get_pip (w_pips w) pn = Some p -> get_pip (w_pips w') pn = Some p.
Proof. exact reload_keeps_records. Qed.
Print Assumptions C08_kept_pipelines_partial.

(** ** C09 *)
Theorem C09_start_completes_records :
  forall port w, w_daemon w = None ->
  match load_daemon (w_files w) Dbootstrap port with
  | Err e => run exec (daemon_start port) w = (Err e, w)
  | Ok d => exists drvs' pips',
      run exec (daemon_start port) w =
        (Ok tt, set_daemon (set_pips (set_drvs w drvs') pips') (Some (with_status d Drunning))) /\
      completed dv_name drv_default (dkeys (df_drivers (dm_df d))) (w_drvs w) drvs' /\
      completed p_name pip_default (dkeys (df_pipelines (dm_df d))) (w_pips w) pips'
  end.
Proof. exact start_spec. Qed.
Print Assumptions C09_start_completes_records.

(** A restart with an occupied pipeline and a pipeline that is no longer configured. *)
Example C09_case :
  let w := set_pips (set_daemon exw_busy None)
             [mkPip "pip-1" false (Some 2) (Some "sample-1"); mkPip "old" true None (Some "x")] in
  w_daemon w = None /\
  w_pips (snd (run exec (daemon_start 1234) w)) =
    [mkPip "pip-1" false (Some 2) (Some "sample-1"); mkPip "old" true None (Some "x");
     pip_default "pip-both"; pip_default "pip-2"].
Proof. vm_compute. auto. Qed.

(** ** C38 *)
Theorem C38_stop_iff_idle :
  forall port w,
  exists r w', run exec (tomato_stop port) w = (Ok r, w') /\
  (r_ok r = true <-> (exists d, w_daemon w = Some d) /\
                     (forall ps, In ps (w_pips w) -> p_jobid ps = None)) /\
  (r_ok r = true -> exists d, w_daemon w = Some d /\
                     w' = set_daemon w (Some (with_status d Dstop))) /\
  (r_ok r = false -> w' = w /\
     (w_daemon w <> None ->
      exists l, r_data r = RPips l /\
        forall ps, In ps l <-> In ps (w_pips w) /\ exists id, p_jobid ps = Some id)).
Proof. exact stop_spec. Qed.
Print Assumptions C38_stop_iff_idle.

Example C38_case :
  (exists w', run exec (tomato_stop 1234) exw_busy =
     (Ok (mkReply false (MJobsRunning 1) (RPips [mkPip "pip-1" false (Some 2) (Some "sample-1")])), w')) /\
  (exists w', run exec (tomato_stop 1234) exw_started = (Ok (mkReply true (MClosed 1234) RNone), w')).
Proof. split; eexists; vm_compute; reflexivity. Qed.

(** ** C73: a reload request may end the daemon. *)
Theorem C73_refuted :
  exists w w1 cf,
    (* a job was running on pip-1 when the daemon was killed *)
    w_daemon w = None /\ get_pip (w_pips w) "pip-1" = Some (mkPip "pip-1" false (Some 2) (Some "s")) /\
    (* the daemon is started with a devices file without pip-1 *)
    run exec (daemon_start 1234) (set_files w cf) = (Ok tt, w1) /\
    (* any reload, even of the same files, raises KeyError in the daemon *)
    run exec (tomato_reload 1234) w1 = (Err KeyError, w1).
Proof.
  exists (set_pips exw_init [mkPip "pip-1" false (Some 2) (Some "s")]). eexists.
  exists (exw_cfg (mkRawFile (rf_devices exw_file)
    [ mkRawPip (Some "p") (Some [ mkRawComp (Some "counter") (Some "dev1") (Some "2")])])).
  split; [reflexivity|]. split; [reflexivity|]. split; vm_compute; reflexivity.
Qed.
Print Assumptions C73_refuted.

Theorem C73_reload_is_answered_partial :
  forall port w d,
  w_daemon w = Some d -> configured d -> occupied_configured (w_pips w) (dm_df d) ->
  exists r w', run exec (tomato_reload port) w = (Ok r, w').
Proof. exact reload_answers. Qed.
Print Assumptions C73_reload_is_answered_partial.

(** A reload request raises exactly when the files can be loaded and, in the order of the
    records, a pipeline that holds a job and is not configured comes before every pipeline for
    which the reload would be refused; what is raised is KeyError. *)
Theorem C73_raises_iff :
  forall port w d e, w_daemon w = Some d -> configured d -> wf_files (w_files w) ->
  (fst (run exec (tomato_reload port) w) = Err e <->
   (e = KeyError /\ exists nd, load_daemon (w_files w) (dm_status d) (dm_port d) = Ok nd /\
      stumbles (w_pips w) (dm_df d) (dm_df nd))).
Proof. exact reload_raises. Qed.
Print Assumptions C73_raises_iff.

Example C73_case : exists d, w_daemon exw_busy = Some d /\ occupied_configured (w_pips exw_busy) (dm_df d).
Proof.
  eexists. split; [reflexivity|]. intros ps id H. cbn in H.
  destruct H as [<-|[<-|[<-|[]]]]; cbn; intros E; try discriminate. tauto.
Qed.
(** A record with a job of a pipeline that is not configured: the reload raises if it comes
    first, and is refused if a pipeline with a job that would change comes first. *)
Example C73_case_iff :
  let gone := mkPip "gone" false (Some 9) None in
  let old := match w_daemon exw_busy with Some d => dm_df d | None => mkDF [] [] [] [] end in
  let w1 := set_pips exw_busy (gone :: w_pips exw_busy) in
  let w2 := set_pips exw_busy (w_pips exw_busy ++ [gone]) in
  let cf := exw_cfg (mkRawFile (rf_devices exw_file) []) in
  stumbles (w_pips w1) old old /\
  fst (run exec (tomato_reload 1234) (set_files w1 cf)) = Err KeyError /\
  (exists r, fst (run exec (tomato_reload 1234) (set_files w2 cf)) = Ok r /\ r_ok r = false).
Proof.
  cbv zeta. split; [|split; [vm_compute; reflexivity|eexists; split; vm_compute; reflexivity]].
  exists [], (mkPip "gone" false (Some 9) None), (w_pips exw_busy), 9.
  split; [reflexivity|]. split; [reflexivity|]. split; [vm_compute; reflexivity|]. intros q i [].
Qed.
