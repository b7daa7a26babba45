(** * P_Start: properties C88, C89 (drivers that are, or are not, available) *)
From Coq Require Import List String Ascii ZArith Bool Sorted Lia.
From Verif Require Import Base PyStr BaseFacts Types ConfigModel Prog ProgFacts World WorldFacts Replies
  CmdModel KetchupModel TomatoModel JobModel PipModel DrvModel SysModel SysPlay StartModel
  SpecQueue SpecJob SpecSys SpecStart MatchProofs2 PassProofs StartProofs ExWorld.
Import ListNotations.
Open Scope list_scope.
Open Scope string_scope.
Open Scope Z_scope.

(** ** C88 *)

(** Looking for the pipelines of a job completes exactly when the drivers of all
    pipelines that have its roles answer, not only those of one that can run it. *)
Theorem C88_matching_exact :
  forall w d method,
  (exists l, fst (run exec (find_matching_pipelines d method) w) = Ok l) <-> relevant_answer w d method.
Proof. intros. apply find_matching_exact. Qed.
Print Assumptions C88_matching_exact.

(** If this fails for one queued job, the job manager fails, whatever the other jobs
    are: no process is started, no folder is made and no pipeline is reserved. *)
Theorem C88_blocked :
  forall w d j, w_daemon w = Some d -> wf_queue w -> In j (w_jobs w) -> queued (j_status j) ->
  ~ relevant_answer w d (pl_method (j_payload j)) ->
  exists e w', run exec job_pass w = (Err e, w') /\
    starts w' = starts w /\ w_spawned w' = w_spawned w /\ w_pips w' = w_pips w /\ w_dirs w' = w_dirs w.
Proof.
  intros w d j Hd Hw Hj Hq Hn. destruct (pass_blocked d w j Hd Hw Hj Hq Hn) as [[e He] Ho].
  destruct (run exec job_pass w) as [x w']. cbn in *. subst x. exists e, w'. split; [reflexivity|].
  unfold outward in Ho. injection Ho as -> -> -> ->. auto.
Qed.
Print Assumptions C88_blocked.

(** With the other conditions for a pass, this decides whether it completes. *)
Theorem C88_pass_exact :
  forall d w, w_daemon w = Some d -> wf_queue w -> NoDup (map p_name (w_pips w)) ->
  (forall p, In p (dvals (df_pipelines (dm_df d))) ->
     plain (pp_name p) /\ In (pp_name p) (dkeys (df_pipelines (dm_df d)))) ->
  (forall j p, In j (w_jobs w) -> j_status j = Srd -> j_pid j = Some p -> live w p ->
     j_jobpath j <> None /\ j_respath j <> None /\ w_merge w (j_id j) = None) ->
  (forall j, In j (w_jobs w) -> queued (j_status j) ->
     ~ In (st_storage (dm_settings d), j_id j) (w_dirs w)) ->
  (fst (run exec job_pass w) = Ok tt <->
   ~ exists j, In j (w_jobs w) /\ queued (j_status j) /\ ~ relevant_answer w d (pl_method (j_payload j))).
Proof.
  intros d w Hd Hw Hn Hp Hm Hf. split.
  - intros E (j & H1 & H2 & H3). destruct (pass_blocked d w j Hd Hw H1 H2 H3) as [[e He] _]. congruence.
  - intros K. apply (C34_lemma d); auto. intros j H1 H2.
    destruct (find_matching_exact d (pl_method (j_payload j)) w) as [A _]. apply A.
    destruct (fst (run exec (find_matching_pipelines d (pl_method (j_payload j))) w)) as [l|e] eqn:E; [eauto|].
    elim K. exists j. split; [exact H1|]. split; [exact H2|]. intros R. apply find_matching_exact in R as [l R].
    congruence.
Qed.
Print Assumptions C88_pass_exact.

(** The property itself is false: driver psutil has not started; job 3 could run on
    pip-2, whose driver answers.  It is started if the configuration does not have
    the pipeline that uses psutil; with that pipeline the pass fails. *)
Definition c88_up : world :=
  set_pips (set_drvs exw_up [exw_drv "example_counter" 7001; drv_default "psutil"])
    (upd_pips "pip-2" [PSample (Some "sample-1"); PReady true] (w_pips exw_up)).
Definition c88_less (d : daemon) : daemon :=
  let df := dm_df d in
  mkDaemon (dm_status d) (dm_port d) (dm_settings d)
    (mkDF (df_components df) (df_devices df) (df_drivers df)
       (filter (fun kv => negb (String.eqb (fst kv) "pip-both")) (df_pipelines df))).
Definition c88_less_up : world := set_daemon c88_up (option_map c88_less (w_daemon c88_up)).
Theorem C88_refuted :
  exists w d, w_daemon w = Some d /\ wf_queue w /\
    (* without the pipeline of the missing driver *)
    fst (run exec job_pass (set_daemon w (Some (c88_less d)))) = Ok tt /\
    map (fun a => (ja_jobid a, ja_pipeline a)) (starts (snd (run exec job_pass (set_daemon w (Some (c88_less d)))))) =
      [(3, "pip-2")] /\
    (* with it *)
    fst (run exec job_pass w) = Err ZMQError /\ starts (snd (run exec job_pass w)) = [].
Proof.
  exists c88_up, exw_daemon. split; [reflexivity|].
  split; [split; [|split]; vm_compute; repeat constructor; discriminate|].
  repeat split; vm_compute; reflexivity.
Qed.
Print Assumptions C88_refuted.

(** Before its work, a job process looks at the drivers again and again; it goes on
    at the first look at which all recorded drivers have a port. *)
Theorem C88_wait_exact :
  forall fuel ws dm, observe (wait_drivers fuel) ws 0 = Ok dm <->
  exists n, (n < fuel)%nat /\
    (forall m, (m < n)%nat -> w_daemon (ws (2 * m)%nat) <> None /\
       exists v, In v (w_drvs (ws (2 * m + 1)%nat)) /\ dv_port v = None) /\
    w_daemon (ws (2 * n)%nat) = Some dm /\
    forall v, In v (w_drvs (ws (2 * n + 1)%nat)) -> dv_port v <> None.
Proof. intros. apply (wait_exact fuel ws 0 dm). Qed.
Print Assumptions C88_wait_exact.

(** The driver appears at the third look. *)
Definition c88_ws (i : nat) : world := if Nat.ltb i 5 then c88_up else exw_up.
Example C88_wait_case :
  observe (wait_drivers 3) c88_ws 0 = Ok exw_daemon /\ observe (wait_drivers 2) c88_ws 0 = Err OutOfFuel /\
  observe (wait_drivers 3) (fun i => if Nat.eqb i 2 then set_daemon c88_up None else c88_up) 0 = Err SystemExit.
Proof. repeat split; vm_compute; reflexivity. Qed.

(** In every execution in which no process of driver [n] gets as far as creating its
    interface, a recorded driver [n] stays without a port ... *)
Theorem C88_never_port :
  forall n ls w s, runs ls (start_sys w) = Some s -> Forall (never_serves n) ls ->
  without_port w n -> without_port (s_world s) n.
Proof. intros n ls w s Hr Hl Hw. eapply never_port; eauto. Qed.
Print Assumptions C88_never_port.

(** ... so that no job process, on whatever pipeline, ever begins its work. *)
Theorem C88_never_works :
  forall n w ws,
  recorded w n -> without_port w n ->
  (forall i, exists ls s, runs ls (start_sys w) = Some s /\ Forall (never_serves n) ls /\ ws i = s_world s) ->
  forall fuel dm, observe (wait_drivers fuel) ws 0 <> Ok dm.
Proof.
  intros n w ws Hrec Hw Hws fuel. apply wait_never. intros k.
  destruct (Hws k) as (ls & s & Hr & Hl & ->).
  pose proof (never_port n ls w s Hl Hw Hr) as Hp.
  destruct (runs_recorded n ls _ _ Hr Hrec) as (v & Hv & Ev). exists v. auto.
Qed.
Print Assumptions C88_never_works.

(** The daemon is started again and again, the driver is started and fails. *)
Definition c88_cues : list cue :=
  [ At (LCmd (CmdStart 1234)); Finish 0; At (LManager KDrvMgr); At (LStep 1); Finish 1;
    At (LDriver "example_counter" 7001 71 "2.1" true); Finish 2;
    At (LDriver "psutil" 7002 72 "2.1" false); Finish 3 ].
Example C88_never_case :
  plays c88_cues exw_init = true /\
  Forall (never_serves "psutil") (fst (play c88_cues (start_sys exw_init))) /\
  map (fun v => (dv_name v, dv_port v)) (w_drvs (s_world (played c88_cues exw_init))) =
    [("example_counter", Some 7001); ("psutil", None)].
Proof.
  split; [vm_compute; reflexivity|]. split; [|vm_compute; reflexivity].
  assert (X : forall l, forallb (fun x => match x with LDriver m _ _ _ ok => negb (opt_eqb String.eqb (sql_lit m) (Some "psutil")) || negb ok | _ => true end) l = true ->
    Forall (never_serves "psutil") l).
  { intros l H. apply Forall_forall. intros x Hx. rewrite forallb_forall in H. specialize (H x Hx).
    destruct x; try exact I. cbn. intros E. rewrite E in H. cbn in H. destruct ok; [discriminate|reflexivity]. }
  apply X. vm_compute. reflexivity.
Qed.

(** ** C89 *)

(** A driver process writes its row and, if the driver is recorded, serves requests,
    exactly when the module of its name has a class that can be created with the
    settings of this driver.  Otherwise it changes nothing. *)
Theorem C89_start :
  forall imports n port pid w x w', run exec (tomato_driver imports n port pid) w = (x, w') ->
  (exists c n', serves imports n w c n' /\ Forall2 (served_row c n' port pid) (w_drvs w) (w_drvs w') /\
     exists b, x = Ok b /\ (b = true <-> recorded w n)) \/
  ((forall c n', ~ serves imports n w c n') /\ w' = w /\ x <> Ok true).
Proof. exact driver_start_lemma. Qed.
Print Assumptions C89_start.

Definition c89_class : dclass := mkClass "2.1" (fun s => match dget s "broken" with Some _ => Err ValueError | None => Ok tt end).
Definition c89_imports (m : string) : imported :=
  if String.eqb m "tomato_example_counter" then IModule (Some c89_class)
  else if String.eqb m "tomato_my_driver" then IModule None else IMissing.
Example C89_start_case :
  let r := run exec (tomato_driver c89_imports "example_counter" 7005 75) c88_up in
  fst r = Ok true /\
  map (fun v => (dv_name v, dv_port v, dv_pid v, dv_version v)) (w_drvs (snd r)) =
    [("example_counter", Some 7005, Some 75, Some "2.1"); ("psutil", None, None, None)] /\
  run exec (tomato_driver c89_imports "psutil" 7006 76) c88_up = (Ok false, c88_up) /\
  run exec (tomato_driver c89_imports "my-driver" 7007 77) c88_up = (Ok false, c88_up) /\
  run exec (tomato_driver (fun _ => IModule (Some c89_class)) "other" 7008 78) c88_up = (Err KeyError, c88_up) /\
  run exec (tomato_driver (fun _ => IModule (Some (mkClass "2.1" (fun _ => Err ValueError)))) "psutil" 7009 79) c88_up
    = (Err RuntimeError, c88_up) /\
  run exec (tomato_driver (fun _ => IModule (Some (mkClass "2.1" (fun _ => Err SystemExit)))) "psutil" 7009 79) c88_up
    = (Err SystemExit, c88_up) /\
  run exec (tomato_driver (fun _ => IRaises ValueError) "psutil" 7009 79) c88_up = (Err ValueError, c88_up) /\
  run exec (tomato_driver c89_imports "example_counter" 7005 75) (set_daemon c88_up None)
    = (Err Blocked, set_daemon c88_up None).
Proof. repeat split; vm_compute; reflexivity. Qed.

(** The processes of the system model ([driver_connect]) change the world in the same way. *)
Theorem C89_process :
  forall imports n port pid w, exists ver ok,
  snd (run exec (tomato_driver imports n port pid) w) = snd (run exec (driver_connect n port pid ver ok) w).
Proof.
  intros imports n port pid w. unfold tomato_driver, driver_to_interface.
  rewrite run_bind, run_lift.
  assert (F : forall ver, snd (run exec (driver_connect n port pid ver false) w) = w).
  { intros ver. unfold driver_connect. rewrite run_bind, run_act. cbn [exec].
    destruct (w_daemon w); [|reflexivity]. rewrite run_bind, run_lift. destruct (need _); reflexivity. }
  destruct (imports (modname n)) as [|e|[c|]]; try (exists "", false; rewrite F; reflexivity).
  destruct (w_daemon w) as [dm|] eqn:Ed.
  2:{ exists "", false. rewrite F. cbv beta iota. rewrite run_bind, run_act. cbn [exec]. rewrite Ed. reflexivity. }
  cbv beta iota. rewrite run_bind, run_act. cbn [exec]. rewrite Ed. rewrite run_bind, run_lift.
  destruct (need _) as [drv|e] eqn:En; [|exists "", false; rewrite F; reflexivity].
  rewrite run_bind, run_lift. destruct (construct c (dr_settings drv)) as [[]|e]; [|exists "", false; rewrite F; reflexivity].
  exists (cl_version c), true. unfold driver_connect. rewrite !run_bind, run_act. cbn [exec]. rewrite Ed.
  rewrite run_bind, run_lift, En. rewrite run_bind, run_ret, run_bind.
  destruct (run exec (update_drv n _) w) as [[v|e] w']; reflexivity.
Qed.
Print Assumptions C89_process.

(** Every driver has one module; drivers whose names have no dash have different ones. *)
Theorem C89_modules_partial :
  forall a, (exists m, module_of a m) /\
  (forall m m', module_of a m -> module_of a m' -> m = m') /\
  (forall b m, (forall c, In c (list_ascii_of_string a ++ list_ascii_of_string b)%list -> c <> "-"%char) ->
     module_of a m -> module_of b m -> a = b).
Proof.
  intros a. split; [exists (modname a); now apply module_of_iff|]. split.
  - intros m m' H1 H2. apply module_of_iff in H1, H2. congruence.
  - intros b m Hc H1 H2. apply module_of_iff in H1, H2. subst m. unfold modname in H2. cbn in H2.
    injection H2 as H2. rewrite !underscores_plain in H2; [exact H2| |]; intros c Hin; apply Hc, in_or_app; auto.
Qed.
Print Assumptions C89_modules_partial.

(** False for other names: two different drivers of the configuration are served by
    one module. *)
Theorem C89_refuted :
  exists a b m, a <> b /\ module_of a m /\ module_of b m.
Proof.
  exists "my-driver", "my_driver", "tomato_my_driver". split; [discriminate|].
  split; apply module_of_iff; reflexivity.
Qed.
Print Assumptions C89_refuted.
