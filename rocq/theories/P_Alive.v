(** * P_Alive: managers that are served go on, however threads interleave (C104) *)
From Coq Require Import List String Ascii ZArith Bool Lia.
From Verif Require Import Base BaseFacts PyStr Types ConfigModel SpecConfig ConfigProofs Prog World Replies CmdModel KetchupModel
  TomatoModel JobModel PipModel DrvModel SysModel SpecQueue SpecSys SpecSys2 SpecStuck ExWorld SysPlay
  JobProofs P_SysJob P_Dead SpecAlive AliveProofs.
Import ListNotations.
Open Scope string_scope.
Open Scope Z_scope.

(** ** C104 *)

(** In every execution, whatever commands, jobs, drivers and managers do between each
    other's operations: a manager that is served whenever it asks for something has
    not ended with an exception, nor does it wait for ever ([Raise Blocked]). *)
Theorem C104_lives :
  forall df w ls s k e, sound_file df -> wf_queue w -> rows_sound df w ->
  along (same_file df) ls (start_sys w) -> each_step (serving df) ls (start_sys w) ->
  runs ls (start_sys w) = Some s -> ~ broken s k e.
Proof. intros df w ls s k e Hs. exact (C104_lemma df Hs w ls s k e). Qed.
Print Assumptions C104_lives.

(** What a devices file gives is sound, if no pipeline has an apostrophe in its name. *)
Theorem C104_file :
  forall rf df, load_devicefile rf = Ok df ->
  (forall n, In n (dkeys (df_pipelines df)) -> has_char "'"%char n = false) -> sound_file df.
Proof.
  intros rf df H Hn n p Hin.
  destruct (load_closed rf df H) as (Hc & _ & _ & Nd & _).
  assert (E : dget (df_pipelines df) n = Some p) by (apply In_dget; assumption).
  split; [apply (proj2 (load_pipelines rf df H n) p E)|].
  split; [apply Hn; unfold dkeys; apply in_map_iff; exists (n, p); auto|].
  destruct (load_pipelines rf df H n) as [_ X]. destruct (X p E) as (_ & rp & _ & Hm).
  assert (Ndm : NoDup (dkeys (pp_components p))).
  { destruct Hm as (n0 & cs & _ & _ & [(_ & Y & _)|(_ & rc & dev & ch & role & _ & _ & _ & _ & _ & ->)]); [exact Y|].
    constructor; [intros []|constructor]. }
  intros cn Hcn. apply (In_dvals _ _ Ndm) in Hcn. destruct Hcn as [r Hr].
  destruct (Hc n p r cn E Hr) as [c Ec]. congruence.
Qed.
Print Assumptions C104_file.

(** Checking the conditions by computation. *)
Definition servedb (df : devicefile) (k : kind) (o : op) (w : world) : bool :=
  match k, o with
  | KJobMgr, ODrvGet n | KPipMgr, ODrvGet n =>
      match get_drv (w_drvs w) n with Some v => is_some (dv_port v) | None => false end
  | KJobMgr, ODriver (Some p) c | KPipMgr, ODriver (Some p) c => is_some (w_driver w p c)
  | KJobMgr, OMkdir dir => negb (has_dir (w_dirs w) dir)
  | KJobMgr, OArchive _ j => negb (is_some (w_merge w (j_id j)))
  | KJobMgr, OJobsWhere WPid => forallb (fun j => negb (jstatus_eqb (j_status j) Srd) || negb (is_some (j_pid j)) ||
      (is_some (j_jobpath j) && is_some (j_respath j))) (w_jobs w)
  | KDrvMgr, ODrvsAll => forallb (fun v => mem (dv_name v) (dkeys (df_drivers df)) &&
      negb (has_char "'"%char (dv_name v))) (w_drvs w)
  | KDrvMgr, ODriverT (Some p) CStatus =>
      match w_driver w p CStatus with
      | Some r => negb (dr_ok r) || match dr_data r with DdNone | DdVal _ => false | _ => true end
      | None => true
      end
  | _, _ => true
  end.
Lemma is_some_ok {A} (x : option A) : is_some x = true -> x <> None.
Proof. destruct x; [discriminate|]. intros H. discriminate H. Qed.
Lemma servedb_ok df k o w : servedb df k o w = true -> served df k o w.
Proof.
  assert (D : forall n, match get_drv (w_drvs w) n with Some v => is_some (dv_port v) | None => false end = true ->
    exists v p, get_drv (w_drvs w) n = Some v /\ dv_port v = Some p).
  { intros n. destruct (get_drv (w_drvs w) n) as [v|]; [|discriminate]. destruct (dv_port v) as [p|] eqn:E; [|discriminate]. eauto. }
  unfold servedb, served. intros H. destruct k; auto; destruct o; auto.
  all: try (apply D; exact H).
  all: try match goal with x : option Z |- _ => destruct x; [|exact I] end.
  all: try (apply is_some_ok; exact H).
  - destruct c; auto. intros j Hj Es Ep. rewrite forallb_forall in H. specialize (H j Hj). rewrite Es in H.
    destruct (j_pid j); [|congruence]. cbn in H. apply andb_prop in H. destruct H as [H1 H2].
    split; apply is_some_ok; assumption.
  - intros X. apply has_dir_In in X. rewrite X in H. discriminate.
  - destruct (w_merge w (j_id j)); [discriminate|reflexivity].
  - intros v Hv. rewrite forallb_forall in H. specialize (H v Hv). apply andb_prop in H. destruct H as [H1 H2].
    split; [apply mem_In; exact H1|]. destruct (has_char _ _); [discriminate|reflexivity].
  - destruct c; auto. intros r Er Eo. rewrite Er, Eo in H. cbn in H.
    destruct (dr_data r); auto; discriminate.
Qed.
Definition servingb (df : devicefile) (l : label) (s : sys) : bool :=
  match l with
  | LStep n =>
      match nth_error (s_threads s) n with
      | Some t => match t_pgm t with Op o _ => negb (is_mgr (t_kind t)) || servedb df (t_kind t) o (s_world s) | _ => true end
      | None => true
      end
  | LProcEnd pid false =>
      forallb (fun t => negb (is_mgr (t_kind t)) ||
        match t_pgm t with Op (OPidZombie p) _ => negb (Z.eqb p pid) | _ => true end) (s_threads s)
  | _ => true
  end.
Lemma servingb_ok df l s : servingb df l s = true -> serving df l s.
Proof.
  destruct l; cbn; auto.
  - intros H t o c En Em Ep. rewrite En, Ep, Em in H. apply servedb_ok. exact H.
  - destruct zombie; auto. intros H t c Hin Em Ep. rewrite forallb_forall in H. specialize (H t Hin).
    rewrite Em, Ep, Z.eqb_refl in H. discriminate.
Qed.
Lemma each_stepb_ok (b : label -> sys -> bool) (P : label -> sys -> Prop) : (forall l s, b l s = true -> P l s) ->
  forall ls s, each_stepb b ls s = true -> each_step P ls s.
Proof.
  intros Hb. induction ls as [|l ls IH]; intros s H; cbn -[step] in *; auto. apply andb_prop in H. destruct H as [H1 H2].
  split; [auto|destruct (step l s); auto].
Qed.
Definition keys_dec : forall x y : list string, {x = y} + {x <> y} := list_eq_dec string_dec.
Definition same_fileb (df : devicefile) (s : sys) : bool :=
  match w_daemon (s_world s) with
  | Some d => (if pips_dec (df_pipelines (dm_df d)) (df_pipelines df) then true else false) &&
              (if comps_dec (df_components (dm_df d)) (df_components df) then true else false) &&
              (if keys_dec (dkeys (df_drivers (dm_df d))) (dkeys (df_drivers df)) then true else false)
  | None => true
  end.
Lemma same_fileb_ok df s : same_fileb df s = true -> same_file df s.
Proof.
  unfold same_fileb, same_file. intros H d E. rewrite E in H.
  destruct (pips_dec _ _) as [E1|]; [|discriminate]. destruct (comps_dec _ _) as [E2|]; [|discriminate].
  destruct (keys_dec _ _) as [E3|]; [auto|discriminate].
Qed.

(** Answers that suit all managers: capabilities for the job manager, a list of
    components for the driver manager. *)
Definition helpful : label := LAnswers (fun _ c => Some (mkDReply true (match c with
  | CCapabilities _ _ => DdCaps ["count"; "random"]
  | CCmpStatus _ _ => DdRunning false
  | CStatus => DdDict 1
  | _ => DdNone
  end))).
(** All three managers take turns after every operation, while the job of pip-1 is
    started, runs, is cancelled, is marked as ended and its pipeline released. *)
Definition turn : list cue := [At (LStep 3); At (LStep 4); At (LStep 5)].
Fixpoint turns (n : nat) : list cue := match n with O => [] | S n => (turn ++ turns n)%list end.
Definition c104_script : list cue :=
  (exs_up ++ At helpful :: exs_load 6 "pip-1" ++ exs_submit 8 ++ At (LTime 1001 100000000) :: turns 29 ++
   At (LJobStart 0 100) :: repeat (At (LStep 9)) 6 ++ turns 9 ++ exs_cmd 10 (CmdCancel 1234 [1]) ++ turns 18)%list.
Lemma alive_conditions sc rf : plays sc (world_of rf) = true ->
  alongb (same_fileb (df_of rf)) (fst (play sc (start_sys (world_of rf)))) (start_sys (world_of rf)) = true ->
  each_stepb (servingb (df_of rf)) (fst (play sc (start_sys (world_of rf)))) (start_sys (world_of rf)) = true ->
  wf_queue (world_of rf) /\ rows_sound (df_of rf) (world_of rf) /\
  along (same_file (df_of rf)) (fst (play sc (start_sys (world_of rf)))) (start_sys (world_of rf)) /\
  each_step (serving (df_of rf)) (fst (play sc (start_sys (world_of rf)))) (start_sys (world_of rf)) /\
  runs (fst (play sc (start_sys (world_of rf)))) (start_sys (world_of rf)) = Some (played sc (world_of rf)).
Proof.
  intros H1 H2 H3. split; [split; [|split]; vm_compute; repeat constructor; discriminate|].
  split; [intros p i []|].
  split; [eapply alongb_along; [apply same_fileb_ok|exact H2]|].
  split; [eapply each_stepb_ok; [apply servingb_ok|exact H3]|]. apply plays_runs. exact H1.
Qed.
Lemma exw_sound : sound_file (df_of exw_file).
Proof.
  apply C104_file with (rf := exw_file); [reflexivity|].
  assert (X : forallb (fun n => negb (has_char "'"%char n)) (dkeys (df_pipelines (df_of exw_file))) = true) by (vm_compute; reflexivity).
  intros n Hn. rewrite forallb_forall in X. specialize (X n Hn). destruct (has_char _ n); [discriminate|reflexivity].
Qed.
Example C104_case : let s := played c104_script (world_of exw_file) in
  (forall k e, ~ broken s k e) /\
  map (fun j => (j_id j, j_status j, j_pid j)) (w_jobs (s_world s)) = [(1, Scd, None)] /\
  map (fun p => (p_name p, p_jobid p)) (w_pips (s_world s)) = [("pip-both", None); ("pip-1", None); ("pip-2", None)] /\
  map (fun n => option_map active (nth_error (s_threads s) n)) [3%nat; 4%nat; 5%nat] = [Some true; Some true; Some false].
Proof.
  cbv zeta. split; [|vm_compute; auto]. intros k e.
  destruct (alive_conditions c104_script exw_file) as (H1 & H2 & H3 & H4 & H5); try (vm_compute; reflexivity).
  exact (C104_lives _ _ _ _ k e exw_sound H1 H2 H3 H4 H5).
Qed.

(** The condition on vanishing processes cannot be left out.  The pipeline manager has
    read that pip-1 holds job 1 and found its process; the job completes, its process
    ends, and the look-up of its state raises NoSuchProcess.  Nobody cancelled or
    killed anything and every request was answered, but the pipeline manager is gone
    for good (C92_stays). *)
Definition c104_vanish : list cue :=
  (exs_running 6 ++ repeat (At (LStep 4)) 5 ++ [Finish 9; At (LProcEnd 100 false); At (LStep 4)])%list.
Theorem C104_vanish_refuted :
  exists ls s, runs ls (start_sys exw_init) = Some s /\ Forall daemon_stays ls /\
    Forall (fun l => forall n, l <> LKill n) ls /\ along (same_file (df_of exw_file)) ls (start_sys exw_init) /\
    each_step (fun l s => l <> LProcEnd 100 false -> serving (df_of exw_file) l s) ls (start_sys exw_init) /\
    stuck KPipMgr NoSuchProcess s /\ s_run s = true /\
    map (fun j => (j_id j, j_status j)) (w_jobs (s_world s)) = [(1, Sc)] /\
    map (fun p => (p_name p, p_jobid p, p_ready p)) (w_pips (s_world s)) =
      [("pip-both", None, false); ("pip-1", None, true); ("pip-2", None, false)].
Proof.
  exists (fst (play c104_vanish (start_sys exw_init))), (played c104_vanish exw_init).
  split; [apply plays_runs; vm_compute; reflexivity|].
  assert (X : forallb (fun l => match l with LCrash | LExit | LKill _ => false | _ => true end)
                (fst (play c104_vanish (start_sys exw_init))) = true) by (vm_compute; reflexivity).
  rewrite forallb_forall in X.
  split; [apply Forall_forall; intros x Hx; specialize (X x Hx); split; intros ->; discriminate|].
  split; [apply Forall_forall; intros x Hx; specialize (X x Hx); intros n ->; discriminate|].
  split; [eapply alongb_along; [apply same_fileb_ok|vm_compute; reflexivity]|].
  split.
  { apply each_stepb_ok with (b := fun l s =>
      match l with LProcEnd p false => Z.eqb p 100 || servingb (df_of exw_file) l s | _ => servingb (df_of exw_file) l s end);
      [|vm_compute; reflexivity].
    intros l s H Hl. destruct l; try (apply servingb_ok; exact H). destruct zombie; [exact I|].
    destruct (Z.eqb_spec pid 100) as [->|]; [congruence|]. apply servingb_ok. exact H. }
  split; [apply raised_stuck with (n := 4%nat); vm_compute; reflexivity|].
  repeat split; vm_compute; reflexivity.
Qed.
Print Assumptions C104_vanish_refuted.

(** The same happens to the job manager, which looks at every running job. *)
Definition c104_vanish_job : list cue :=
  (exs_running 6 ++ repeat (At (LStep 3)) 4 ++ [Finish 9; At (LProcEnd 100 false); At (LStep 3)])%list.
Example C104_case_job : let s := played c104_vanish_job exw_init in
  plays c104_vanish_job exw_init = true /\ stuck KJobMgr NoSuchProcess s /\
  map (fun j => (j_id j, j_status j)) (w_jobs (s_world s)) = [(1, Sc)].
Proof.
  cbv zeta. split; [vm_compute; reflexivity|]. split; [apply raised_stuck with (n := 3%nat); vm_compute; reflexivity|].
  vm_compute. reflexivity.
Qed.

(** If the process ends as a zombie, as children of the daemon do, nothing happens. *)
Definition c104_zombie : list cue :=
  (exs_running 6 ++ repeat (At (LStep 4)) 5 ++ [Finish 9; At (LProcEnd 100 true); At helpful] ++ turns 12)%list.
Example C104_case_zombie : forall k e, ~ broken (played c104_zombie (world_of exw_file)) k e.
Proof.
  intros k e.
  destruct (alive_conditions c104_zombie exw_file) as (H1 & H2 & H3 & H4 & H5); try (vm_compute; reflexivity).
  exact (C104_lives _ _ _ _ k e exw_sound H1 H2 H3 H4 H5).
Qed.
