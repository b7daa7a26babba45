(** * SysOps: which operations each kind of thread may ever execute *)
From Coq Require Import List String ZArith Bool.
From Verif Require Import Base PyStr Types ConfigModel Prog ProgFacts World Replies CmdModel
  KetchupModel TomatoModel JobModel PipModel DrvModel SysModel RGFacts.
Import ListNotations.

(** Operations that do not change the world except for the log of requests and
    archives. *)
Definition reads (o : op) : Prop :=
  match o with
  | OJobIdAt _ | OJobGet _ | OJobsWhere _ | OPipGet _ | OPipsWhere _ | ODrvGet _ | ODrvsAll
  | ODmGet | OReadSettings | OReadDevices _ | OArchive _ _ | OCrate _ | OOutdir _
  | OPidExists _ | OPidZombie _ | OMainLoop _ _ | ODriver _ _ | ODriverT _ _ | ODriverLpp _ _
  | ONow | OPerf | ODrvDel _ => True
  | _ => False
  end.

(** The changes made by commands, other than setting the configuration. *)
Definition writes_cmd (o : op) : Prop :=
  match o with
  | OJobInsert j => exists p n t, j = new_job p n t
  | OJobUpdate _ cs => cs = [JStatus Scd] \/ cs = [JStatus Srd]
  | OPipInsert p => exists n, p = pip_default n
  | OPipUpdate _ cs => (exists s, cs = [PSample (Some s); PReady false]) \/
                       cs = [PSample None; PReady false] \/ cs = [PReady true]
  | ODrvInsert d => exists n, d = drv_default n
  | ODmSetStatus s => s = Dstop
  | _ => False
  end.
Definition calm (o : op) : Prop := reads o \/ writes_cmd o.

(** The changes made by each kind of thread. *)
Definition writes (k : kind) (o : op) : Prop :=
  match k with
  | KCmd =>
      match o with
      | ODmBind _ | ODmSetConfig _ _ => True
      | _ => writes_cmd o
      end
  | KJobMgr =>
      match o with
      | OJobUpdate _ cs => (exists s t, (s = Scd \/ s = Sce) /\
                              cs = [JStatus s; JPid None; JCompleted (Some t)]) \/
                           cs = [JStatus Sqw] \/ (exists t, cs = [JLaunched (Some t)])
      | OPipUpdate _ cs => exists id, cs = [PJobid (Some id); PReady false]
      | OMkdir _ | OWriteJobdata _ _ | OSpawnJob _ => True
      | _ => False
      end
  | KPipMgr =>
      match o with
      | OPipUpdate _ cs => cs = [PJobid None; PReady false]
      | _ => False
      end
  | KDrvMgr =>
      match o with
      | ODrvUpdate _ cs => cs = drv_reset \/ (exists t, cs = [DHeartbeat t]) \/
                           (exists t n, cs = [DSpawnTime t; DSpawnCount n])
      | OSpawnDriver _ _ => True
      | _ => False
      end
  | KJob pid a =>
      match o with
      | OJobUpdate _ cs => (exists t, cs = [JPid (Some pid); JStatus Sr; JConnected (Some t)]) \/
          (exists r s p, cs = [JRespath (Some r); JSnappath (Some s); JJobpath (Some p)]) \/
          (exists s t, (s = Sc \/ s = Sce) /\ cs = [JStatus s; JCompleted (Some t)])
      | OPipUpdate n cs => n = ja_pipeline a /\ exists b, cs = [PJobid None; PReady b]
      | _ => False
      end
  | KDriver n =>
      match o with
      | ODrvUpdate m cs => m = n /\ exists port ver pid,
          cs = [DPort (Some port); DVersion (Some ver); DPid (Some pid); DHeartbeat 0]
      | _ => False
      end
  end.

Definition may (k : kind) (o : op) : Prop := reads o \/ writes k o.
Lemma calm_may o : calm o -> may KCmd o.
Proof. intros [H|H]; [left; exact H|right]. destruct o; try exact H; contradiction. Qed.

(** Decomposes a program into its operations. *)
Ltac ops_step :=
  lazymatch goal with
  | |- all_ops _ (bind _ _) => apply all_ops_bind; [|intros]
  | |- all_ops ?P (act ?o) => refine (all_ops_do P o _)
  | |- all_ops ?P (do ?o) => refine (all_ops_do P o _)
  | |- all_ops _ (lift _) => apply all_ops_lift
  | |- all_ops _ (assertP _) => apply all_ops_assert
  | |- all_ops _ (forP _ _ _) => apply all_ops_forP; intros
  | |- all_ops _ (forB _ _ _) => apply all_ops_forB; intros
  | |- all_ops _ (catch _ _) => apply all_ops_catch; [|intros]
  | |- all_ops _ (Ret _) => exact I
  | |- all_ops _ (Raise _) => exact I
  | |- all_ops _ (match ?x with _ => _ end) => destruct x eqn:?
  end.
Ltac fin := solve [left; exact I | right; cbn; eauto 12 | auto].

Section Ops.
  Ltac ops := repeat (ops_step; cbv beta zeta).

  Lemma ops_update_job k id cs : may k (OJobUpdate id cs) -> all_ops (may k) (update_job_id id cs).
  Proof. intros H. unfold update_job_id. ops; [exact H|fin]. Qed.
  Lemma ops_update_pip k n cs : may k (OPipUpdate n cs) -> all_ops (may k) (update_pip n cs).
  Proof. intros H. unfold update_pip. ops; [exact H|fin]. Qed.
  Lemma ops_update_drv k n cs : may k (ODrvUpdate n cs) -> all_ops (may k) (update_drv n cs).
  Proof. intros H. unfold update_drv. ops; [exact H|fin]. Qed.
  Lemma ops_del_drv k n : all_ops (may k) (del_drv n).
  Proof. unfold del_drv. ops; fin. Qed.
  Lemma ops_merge k j b : all_ops (may k) (merge_netcdfs j b).
  Proof. unfold merge_netcdfs. ops; fin. Qed.
  Lemma ops_driver_of k d n : all_ops (may k) (driver_of d n).
  Proof. unfold driver_of. ops; fin. Qed.
  Lemma ops_read_daemon k s p : all_ops (may k) (read_daemon s p).
  Proof. unfold read_daemon. ops; fin. Qed.

  (** Commands *)
  Lemma ops_with_daemon port f :
    (forall d, all_ops (calm) (f d)) -> all_ops (calm) (with_daemon port f).
  Proof. intros H. unfold with_daemon. ops; [fin|apply H]. Qed.

  Lemma calm_update_pip n cs : calm (OPipUpdate n cs) -> all_ops calm (update_pip n cs).
  Proof. intros H. unfold update_pip. ops; [exact H|fin]. Qed.
  Lemma calm_merge j b : all_ops calm (merge_netcdfs j b).
  Proof. unfold merge_netcdfs. ops; fin. Qed.

  Lemma ops_start port : all_ops (may KCmd) (daemon_start port).
  Proof.
    unfold daemon_start, bootstrap, boot_driver, boot_pipeline, insert_drv, insert_pip.
    ops; try fin. apply ops_read_daemon.
  Qed.

  Lemma ops_reload port : all_ops (may KCmd) (tomato_reload port).
  Proof.
    unfold tomato_reload. unfold with_daemon, cmd_reload. ops; try fin. apply ops_read_daemon.
  Qed.

  Lemma ops_stop port : all_ops calm (tomato_stop port).
  Proof. unfold tomato_stop, cmd_stop. apply ops_with_daemon. intros d. ops; fin. Qed.

  Lemma ops_load port p s : all_ops calm (pipeline_load port p s).
  Proof.
    unfold pipeline_load. apply ops_with_daemon. intros d.
    ops; try fin; apply calm_update_pip; right; cbn; eauto 8.
  Qed.
  Lemma ops_eject port p : all_ops calm (pipeline_eject port p).
  Proof.
    unfold pipeline_eject. apply ops_with_daemon. intros d.
    ops; try fin; apply calm_update_pip; right; cbn; eauto 8.
  Qed.
  Lemma ops_ready port p : all_ops calm (pipeline_ready port p).
  Proof.
    unfold pipeline_ready. apply ops_with_daemon. intros d.
    ops; try fin; apply calm_update_pip; right; cbn; eauto 8.
  Qed.

  Lemma ops_submit port f cwd n : all_ops calm (ketchup_submit port f cwd n).
  Proof.
    unfold ketchup_submit. apply ops_with_daemon. intros d. unfold submit, insert_job.
    ops; fin.
  Qed.
  Lemma ops_status port ids : all_ops calm (ketchup_status port ids).
  Proof. unfold ketchup_status. apply ops_with_daemon. intros d. unfold jobs_status. ops; fin. Qed.
  Lemma ops_search port t : all_ops calm (ketchup_search port t).
  Proof. unfold ketchup_search. apply ops_with_daemon. intros d. unfold search. ops; fin. Qed.
  Lemma ops_snapshot port ids : all_ops calm (ketchup_snapshot port ids).
  Proof.
    unfold ketchup_snapshot. apply ops_with_daemon. intros d. unfold snapshot, snapshot_one.
    ops; try fin. apply calm_merge.
  Qed.
  (** The variable [params] of cancel only ever holds 'cd' or 'rd'. *)
  Lemma ops_cancel_loop last jobs : forall ps data,
    (ps = None \/ ps = Some Scd \/ ps = Some Srd) ->
    all_ops calm (forP (cancel_one last) (ps, data) jobs).
  Proof.
    induction jobs as [|j jobs IH]; intros ps data Hps; cbn [forP]; [exact I|].
    assert (X : forall x y, (y = None \/ y = Some Scd \/ y = Some Srd) -> (x = Scd \/ x = Srd) ->
      all_ops calm
        (bind (bind (update_job_id last [JStatus x]) (fun j' => Ret (y, data ++ [j'])%list))
           (fun s' => forP (cancel_one last) s' jobs))).
    { intros x y Hy Hx. cbn [bind update_job_id act do all_ops]. split.
      - right. cbn. destruct Hx as [-> | ->]; auto.
      - intros [u|e]; cbn [bind act do all_ops]; [|exact I]. split; [left; exact I|].
        intros [j'|e]; cbn [bind]; [|exact I]. apply IH. exact Hy. }
    unfold cancel_one at 1.
    destruct (j_status j); cbn [bind]; try (apply IH; exact Hps); try (apply X; auto).
    destruct Hps as [-> | [-> | ->]]; cbn [bind]; [exact I| |]; apply X; auto.
  Qed.
  Lemma ops_cancel port ids : all_ops calm (ketchup_cancel port ids).
  Proof.
    unfold ketchup_cancel. apply ops_with_daemon. intros d. unfold cancel.
    ops_step; [ops; fin|]. cbv beta. destruct (find _ ids); [exact I|].
    ops_step; [apply ops_cancel_loop; auto|]. ops.
  Qed.

  (** Commands that do not set the configuration. *)
  Definition plain_cmd (c : command) : Prop :=
    match c with CmdStart _ | CmdReload _ => False | _ => True end.
  Lemma calm_cmd c : plain_cmd c -> all_ops calm (cmd_pgm c).
  Proof.
    destruct c; cbn [cmd_pgm]; intros Hc; try contradiction;
      unfold some_reply, no_reply; apply all_ops_bind; intros; try exact I.
    - apply ops_stop. - apply ops_load. - apply ops_eject.
    - apply ops_ready. - apply ops_submit. - apply ops_status. - apply ops_cancel.
    - apply ops_snapshot. - apply ops_search.
  Qed.
  Lemma ops_cmd c : all_ops (may KCmd) (cmd_pgm c).
  Proof.
    assert (H : plain_cmd c \/ (exists p, c = CmdStart p) \/ exists p, c = CmdReload p).
    { destruct c; cbn; eauto. }
    destruct H as [H|[(p & ->)|(p & ->)]].
    - eapply all_ops_weaken; [apply calm_may|apply calm_cmd; exact H].
    - cbn [cmd_pgm]. unfold no_reply. apply all_ops_bind; [apply ops_start|intros; exact I].
    - cbn [cmd_pgm]. unfold some_reply. apply all_ops_bind; [apply ops_reload|intros; exact I].
  Qed.

  (** Managers *)
  (** manage_running and check_queued only change the queue. *)
  Definition quiet (o : op) : Prop :=
    match o with OJobUpdate _ _ => writes KJobMgr o | _ => reads o end.

  Lemma quiet_may o : quiet o -> may KJobMgr o.
  Proof. destruct o; cbn; intros H; try (left; exact H); right; exact H. Qed.

  Ltac qfin := solve [exact I | cbn; eauto 12 | auto].
  Lemma quiet_update id cs : quiet (OJobUpdate id cs) -> all_ops quiet (update_job_id id cs).
  Proof. intros H. unfold update_job_id. ops; [exact H|qfin]. Qed.
  Lemma quiet_merge j b : all_ops quiet (merge_netcdfs j b).
  Proof. unfold merge_netcdfs. ops; qfin. Qed.
  Lemma quiet_driver_of d n : all_ops quiet (driver_of d n).
  Proof. unfold driver_of. ops; qfin. Qed.
  Lemma quiet_finish s j t : (s = Scd \/ s = Sce) ->
    all_ops quiet (update_job_id (j_id j) [JStatus s; JPid None; JCompleted (Some t)]).
  Proof. intros H. apply quiet_update. cbn. left. eauto 8. Qed.

  Lemma quiet_manage : all_ops quiet manage_running.
  Proof.
    unfold manage_running, manage_one, reconcile, finish_cancelled, finish_crashed.
    ops; try qfin; try (apply quiet_finish; auto); apply quiet_merge.
  Qed.

  (** Looking for matching pipelines changes nothing. *)
  Lemma reads_driver_of d n : all_ops reads (driver_of d n).
  Proof. unfold driver_of. ops; exact I. Qed.
  Lemma reads_validate d m p : all_ops reads (method_validate d m p).
  Proof.
    unfold method_validate, validate_task, validate_role. ops; try exact I; apply reads_driver_of.
  Qed.
  Lemma reads_match d m : all_ops reads (find_matching_pipelines d m).
  Proof.
    unfold find_matching_pipelines, match_pipeline, add_capabs.
    ops; try exact I; try apply reads_driver_of; apply reads_validate.
  Qed.
  Lemma reads_quiet o : reads o -> quiet o.
  Proof. destruct o; cbn; auto; contradiction. Qed.

  Lemma quiet_check d : all_ops quiet (check_queued d).
  Proof.
    unfold check_queued, check_one. ops; try qfin;
      try (eapply all_ops_weaken; [apply reads_quiet|apply reads_match]);
      apply quiet_update; cbn; auto.
  Qed.

  Lemma ops_launch d j p : all_ops (may KJobMgr) (launch d j p).
  Proof.
    unfold launch. ops; try fin.
    - apply ops_update_pip. right. cbn. eauto.
    - apply ops_update_job. right. cbn. eauto 8.
  Qed.
  Lemma ops_action d m : all_ops (may KJobMgr) (action_queued d m).
  Proof. unfold action_queued, action_one, try_pip. ops; try fin; apply ops_launch. Qed.
  Lemma ops_job_pass : all_ops (may KJobMgr) job_pass.
  Proof.
    unfold job_pass. ops; try fin; [| |apply ops_action];
      (eapply all_ops_weaken; [apply quiet_may|]); [apply quiet_manage|apply quiet_check].
  Qed.

  Lemma ops_pip_pass : all_ops (may KPipMgr) pip_pass.
  Proof.
    unfold pip_pass, pip_one, gone, release, reset_component.
    ops; try fin; try apply ops_driver_of; apply ops_update_pip; right; reflexivity.
  Qed.

  Lemma ops_drv_pass : all_ops (may KDrvMgr) drv_pass.
  Proof.
    unfold drv_pass. ops; try fin. unfold drv_one, stop_driver.
    ops; try fin; try apply ops_del_drv.
    - unfold drv_checked. (* the columns are the heartbeat or the reset *)
      unfold drv_check. cbn [bind catch act do all_ops]. split; [left; exact I|].
      assert (Y : forall cs, (cs = drv_reset \/ exists t, cs = [DHeartbeat t]) ->
        all_ops (may KDrvMgr) (bind (update_drv (dv_name a1) cs) (fun _ => Ret tt))).
      { intros cs H. ops. apply ops_update_drv. right. cbn. destruct H as [H|H]; auto. }
      intros [r|e]; cbn [bind catch].
      + destruct (dr_ok r); cbn [bind catch lift].
        * destruct (data_len (dr_data r)) as [n|e]; cbn [bind catch lift].
          -- destruct (Z.eqb n 0); cbn [bind catch act do all_ops].
             ++ split; [left; exact I|]. intros [u|e]; cbn [bind catch]; [apply Y; eauto|].
                destruct e; cbn [bind catch all_ops]; try exact I. apply Y; auto.
             ++ apply Y; eauto.
          -- destruct e; cbn [bind catch all_ops]; try exact I. apply Y; auto.
        * apply Y; eauto.
      + destruct e; cbn [bind catch all_ops]; try exact I. apply Y; auto.
    - apply ops_update_drv. right. cbn. eauto 8.
  Qed.
  Lemma ops_drv_quit : all_ops (may KDrvMgr) drv_quit.
  Proof. unfold drv_quit, drv_quit_one, kill_driver, stop_driver. ops; fin. Qed.

  Lemma ops_mgr k p : mgr_pass k = Some p -> all_ops (may k) (no_reply p).
  Proof.
    intros H. unfold no_reply. apply all_ops_bind; [|intros; exact I].
    destruct k; inversion H; [apply ops_job_pass|apply ops_pip_pass|apply ops_drv_pass].
  Qed.
  Lemma ops_quit : all_ops (may KDrvMgr) (no_reply drv_quit).
  Proof. unfold no_reply. apply all_ops_bind; [apply ops_drv_quit|intros; exact I]. Qed.

  (** Processes *)
  Lemma ops_job pid a : all_ops (may (KJob pid a)) (no_reply (tomato_job pid a)).
  Proof.
    unfold no_reply, tomato_job. ops; try fin.
    - apply ops_update_job. right. cbn. eauto 8.
    - apply ops_update_job. right. cbn. eauto 12.
    - apply ops_merge.
    - apply ops_update_job. right. cbn. right. right. eexists _, _. split; [|reflexivity].
      match goal with |- (if ?b then _ else _) = _ \/ _ => destruct b; auto end.
    - apply ops_update_pip. right. cbn. eauto.
  Qed.
  Lemma ops_driver n port pid ver ok :
    all_ops (may (KDriver n)) (no_reply (driver_connect n port pid ver ok)).
  Proof.
    unfold no_reply, driver_connect. ops; try fin. apply ops_update_drv. right. cbn. eauto 8.
  Qed.
End Ops.
