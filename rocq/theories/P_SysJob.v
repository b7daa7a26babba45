(** * P_SysJob: properties C31, C102 and C103 under stated conditions (all executions of
    the whole system) *)
From Coq Require Import List String Ascii ZArith Bool.
From Verif Require Import Base PyStr Types ConfigModel Prog World Replies CmdModel KetchupModel
  TomatoModel JobModel PipModel DrvModel SysModel SpecQueue SpecJob SpecSys SpecSys2 RGY SysProofs
  SysProofs7 SysProofs8 SysProofs9 ExWorld SysPlay.
Import ListNotations.
Open Scope string_scope.
Open Scope Z_scope.

(** ** C31 *)

(** A pipeline whose name has no apostrophe is used by one job process at a time,
    and its row names the job of that process, when iterations of the job manager and
    of the pipeline manager do not overlap, no job is marked for termination while its
    process exists, a started process connects within ten days and the clock does
    not reach the tenth day of a job in the middle of an iteration of the pipeline
    manager.  Commands, the driver manager, drivers and processes run at any time.
    Missing: executions in which a job is cancelled while it runs (then the property
    is false), overlapping iterations of the two managers (false as well, see below)
    and a process that is slower. *)
Theorem C31_one_partial :
  forall stg w ls s, ordinary stg w ls s -> along managers_apart ls (start_sys w) ->
  forall n a, uses s n a -> plain (ja_pipeline a) ->
  (exists p, get_pip (w_pips (s_world s)) (ja_pipeline a) = Some p /\ p_jobid p = Some (ja_jobid a)) /\
  (forall m b, uses s m b -> ja_pipeline a = ja_pipeline b -> n = m).
Proof.
  intros stg w ls s H1 H2 n a Hn Hp.
  assert (H3 : along (fun s => forall d, w_daemon (s_world s) = Some d -> True) ls (start_sys w)).
  { apply along_inv; auto. }
  destruct (C31_inv stg (fun _ => True) w ls s H1 H2 H3) as [Hi Ho].
  destruct (C31_uses stg _ s n a Hi Hn) as (t & pid & _ & _ & _ & _ & Hr).
  split; [exact (Hr Hp)|]. intros m b Hm E. exact (C31_lemma stg _ s n m a b Hi Ho Hn Hm Hp E).
Qed.
Print Assumptions C31_one_partial.

(** Checking the conditions by computation. *)
Definition no_rdb (s : sys) : bool :=
  forallb (fun j => negb (jstatus_eqb (j_status j) Srd)) (w_jobs (s_world s)).
Lemma no_rdb_ok s : no_rdb s = true -> undisturbed (s_world s).
Proof.
  unfold no_rdb. intros H pid a j _ Hj _ E. rewrite forallb_forall in H. specialize (H j Hj).
  rewrite E in H. discriminate.
Qed.
Definition in_time (now : Z) (j : job) : bool :=
  match j_launched j with Some l => Z.leb (now - l) ten_days | None => true end.
Definition promptb (s : sys) : bool := forallb (in_time (w_now (s_world s))) (w_jobs (s_world s)).
Lemma in_time_ok now l j t : forallb (in_time now) l = true -> In j l -> j_launched j = Some t -> now - t <= ten_days.
Proof.
  intros H Hj El. rewrite forallb_forall in H. specialize (H j Hj). unfold in_time in H.
  rewrite El in H. apply Z.leb_le. exact H.
Qed.
Lemma promptb_ok s : promptb s = true -> prompt (s_world s).
Proof. intros H a j l _ Hj _ _ El. eapply in_time_ok; eauto. Qed.
Definition steadyb (l : label) (s : sys) : bool :=
  match l with LTime now _ => forallb (in_time now) (w_jobs (s_world s)) | LFiles _ => false | _ => true end.
Fixpoint each_stepb (b : label -> sys -> bool) (ls : list label) (s : sys) : bool :=
  match ls with
  | [] => true
  | l :: r => b l s && match step l s with Some s' => each_stepb b r s' | None => true end
  end.
Lemma each_stepb_steady ls : forall s, each_stepb steadyb ls s = true -> each_step steady ls s.
Proof.
  induction ls as [|l ls IH]; intros s H; cbn -[step] in *; auto. apply andb_prop in H. destruct H as [H1 H2].
  split; [|destruct (step l s); auto]. destruct l; cbn in *; auto.
  right. intros a j t _ Hj _ El. left. eapply in_time_ok; eauto.
Qed.
Definition no_files (l : label) : bool := match l with LFiles _ => false | _ => true end.
Lemma no_files_keeps stg ls : forallb no_files ls = true -> Forall (keeps_storage stg) ls.
Proof.
  intros H. apply Forall_forall. intros l Hl. rewrite forallb_forall in H. specialize (H l Hl).
  destruct l; cbn in *; auto. discriminate.
Qed.
Definition restsb (f : kind -> bool) (s : sys) : bool := forallb (fun t => negb (f (t_kind t) && active t)) (s_threads s).
Definition apartb (s : sys) : bool :=
  restsb (fun k => mgr_eqb k KJobMgr) s || restsb (fun k => mgr_eqb k KPipMgr) s.
Lemma apartb_ok s : apartb s = true -> managers_apart s.
Proof.
  unfold apartb, restsb. intros H. apply orb_prop in H. destruct H as [H|H]; [left|right];
    intros t Ht Ek; rewrite forallb_forall in H; specialize (H t Ht); rewrite Ek in H; cbn in H;
    destruct (active t); auto; discriminate.
Qed.

(** The world of [exw_init] with another devices file; a script is ordinary if the
    conditions compute to [true]. *)
Definition world_of (rf : rawfile) : world := set_files exw_init (exw_cfg rf).
Definition ordinaryb (sc : list cue) (w : world) : bool :=
  let ls := fst (play sc (start_sys w)) in
  plays sc w && forallb no_files ls && each_stepb steadyb ls (start_sys w) &&
  alongb no_rdb ls (start_sys w) && alongb promptb ls (start_sys w).
Lemma ordinaryb_ok sc rf : ordinaryb sc (world_of rf) = true ->
  ordinary "/jobs" (world_of rf) (fst (play sc (start_sys (world_of rf)))) (played sc (world_of rf)).
Proof.
  unfold ordinaryb. cbv zeta. intros H. repeat (apply andb_prop in H; destruct H as [H ?]).
  split; [reflexivity|]. split; [reflexivity|].
  split; [split; [|split]; vm_compute; repeat constructor; discriminate|].
  split; [constructor|]. split; [intros p []|]. split; [intros j []|].
  split; [intros st Hs; cbn in Hs; inversion Hs; reflexivity|].
  split; [apply no_files_keeps; assumption|]. split; [apply each_stepb_steady; assumption|].
  split; [eapply alongb_along; [apply no_rdb_ok|assumption]|].
  split; [eapply alongb_along; [apply promptb_ok|assumption]|]. apply plays_runs. exact H.
Qed.
Lemma uses_at s n : match nth_error (s_threads s) n with
    | Some t => match t_kind t, t_pgm t with KJob _ _, Op (OPipGet _) _ => false | KJob _ _, Op _ _ => true | _, _ => false end
    | None => false end = true ->
  exists a, uses s n a /\ Some (ja_pipeline a, ja_jobid a) =
    match nth_error (s_threads s) n with
    | Some t => match t_kind t with KJob _ a => Some (ja_pipeline a, ja_jobid a) | _ => None end
    | None => None
    end.
Proof.
  destruct (nth_error (s_threads s) n) as [t|] eqn:E; [|discriminate].
  destruct (t_kind t) as [| | | |pid a|] eqn:Ek; try discriminate.
  destruct (t_pgm t) as [r|e|o c] eqn:Ep; try discriminate. intros H. exists a. split; [|reflexivity].
  exists t, pid, o, c. repeat split; auto. intros ->. discriminate.
Qed.

(** Job 1 runs on pip-1 and job 2 on pip-2; the sample in pip-2 is loaded and the
    second job submitted in the middle of an iteration of the job manager, and the
    clock advances in the middle of an iteration of the pipeline manager. *)
Definition c31_two : list cue :=
  (exs_running 6 ++ [At (LStep 3); At (LStep 3)] ++ exs_load 10 "pip-2" ++ exs_submit 12 ++ [Finish 3] ++ exs_pass 3 ++
   At (LJobStart 0 101) :: repeat (At (LStep 13)) 6 ++
   [At (LStep 4); At (LStep 4); At (LTime 90000 60)] ++ exs_cmd 14 (CmdReload 1234) ++ [Finish 4])%list.
Definition not_3_10 (s : sys) : bool :=
  match nth_error (s_threads s) 3, nth_error (s_threads s) 10 with
  | Some a, Some b => negb (busy a && busy b)
  | _, _ => true
  end.
Lemma along_alongb (b : sys -> bool) (P : sys -> Prop) ls : (forall s, P s -> b s = true) -> forall s,
  along P ls s -> alongb b ls s = true.
Proof.
  intros H. induction ls as [|l ls IH]; intros s Hs; cbn -[step] in *; [auto|]. destruct Hs as [H1 H2].
  rewrite (H s H1). cbn [andb]. destruct (step l s); auto.
Qed.
Example C31_case :
  let s := played c31_two exw_init in
  let ls := fst (play c31_two (start_sys exw_init)) in
  ordinary "/jobs" exw_init ls s /\ along managers_apart ls (start_sys exw_init) /\
  ~ along serial ls (start_sys exw_init) /\
  (exists a, uses s 9 a /\ ja_pipeline a = "pip-1" /\ ja_jobid a = 1) /\
  (exists b, uses s 13 b /\ ja_pipeline b = "pip-2" /\ ja_jobid b = 2).
Proof.
  cbv zeta.
  split; [apply (ordinaryb_ok c31_two exw_file); vm_compute; reflexivity|].
  split; [eapply alongb_along; [apply apartb_ok|]; vm_compute; reflexivity|].
  split.
  { intros H. apply (along_alongb not_3_10) in H; [revert H; vm_compute; discriminate|].
    intros s0 Hs. unfold not_3_10. destruct (nth_error (s_threads s0) 3) as [a|] eqn:E1; [|reflexivity].
    destruct (nth_error (s_threads s0) 10) as [b|] eqn:E2; [|reflexivity].
    destruct (busy a && busy b) eqn:Eb; [|reflexivity]. exfalso. unfold busy in Eb.
    apply andb_prop in Eb. destruct Eb as [Ea Eb]. apply andb_prop in Ea. apply andb_prop in Eb.
    destruct Ea as [A1 P1], Eb as [A2 P2]. apply negb_true_iff in P1. apply negb_true_iff in P2.
    discriminate (Hs 3%nat 10%nat a b E1 E2 A1 A2 P1 P2). }
  split.
  - destruct (uses_at (played c31_two exw_init) 9) as (a & Hu & E); [vm_compute; reflexivity|].
    assert (F : Some (ja_pipeline a, ja_jobid a) = Some ("pip-1", 1)) by (rewrite E; vm_compute; reflexivity).
    exists a. split; [exact Hu|]. inversion F. auto.
  - destruct (uses_at (played c31_two exw_init) 13) as (a & Hu & E); [vm_compute; reflexivity|].
    assert (F : Some (ja_pipeline a, ja_jobid a) = Some ("pip-2", 2)) by (rewrite E; vm_compute; reflexivity).
    exists a. split; [exact Hu|]. inversion F. auto.
Qed.

(** False if iterations of the two managers overlap, in an otherwise ordinary
    execution in which no job is ever cancelled.  The pipeline manager reads the rows
    of the pipelines at the start of its iteration (pip.py:47), while job 1 runs on
    pip-1.  Job 1 ends, and job 2 is started on pip-1.  The pipeline manager then
    finds that the process of job 1 is gone and resets pip-1, and job 3 is started
    there as well. *)
Definition c31_stale : list cue :=
  (exs_running 6 ++ [At (LStep 4); At (LStep 4); At (LStep 4)] ++ [Finish 9; At (LProcEnd 100 false)] ++
   exs_cmd 10 (CmdReady 1234 "pip-1") ++ exs_submit 11 ++ exs_pass 3 ++
   At (LJobStart 0 200) :: repeat (At (LStep 12)) 6)%list.
Definition c31_race : list cue :=
  (c31_stale ++ Finish 4 :: exs_cmd 13 (CmdReady 1234 "pip-1") ++ exs_submit 14 ++ exs_pass 3 ++
   At (LJobStart 0 300) :: repeat (At (LStep 15)) 6)%list.
Theorem C31_race_refuted :
  exists stg w ls s n m a b, ordinary stg w ls s /\ uses s n a /\ uses s m b /\ n <> m /\
    ja_pipeline a = ja_pipeline b /\ plain (ja_pipeline a) /\ ja_jobid a <> ja_jobid b.
Proof.
  exists "/jobs", exw_init, (fst (play c31_race (start_sys exw_init))), (played c31_race exw_init), 12%nat, 15%nat.
  destruct (uses_at (played c31_race exw_init) 12) as (a & Ha & Ea); [vm_compute; reflexivity|].
  destruct (uses_at (played c31_race exw_init) 15) as (b & Hb & Eb); [vm_compute; reflexivity|].
  exists a, b.
  assert (Fa : Some (ja_pipeline a, ja_jobid a) = Some ("pip-1", 2)) by (rewrite Ea; vm_compute; reflexivity).
  assert (Fb : Some (ja_pipeline b, ja_jobid b) = Some ("pip-1", 3)) by (rewrite Eb; vm_compute; reflexivity).
  injection Fa as E1 E2. injection Fb as E3 E4.
  split; [apply (ordinaryb_ok c31_race exw_file); vm_compute; reflexivity|].
  split; [exact Ha|]. split; [exact Hb|]. split; [discriminate|]. split; [rewrite E1, E3; reflexivity|].
  split; [rewrite E1; reflexivity|]. rewrite E2, E4. discriminate.
Qed.
Print Assumptions C31_race_refuted.

(** ** C102 *)

(** Thread [n] is the pipeline manager and its next operation is a request to a driver. *)
Definition sends (s : sys) (n : nat) (c : dcmd) : Prop :=
  exists t port f, nth_error (s_threads s) n = Some t /\ t_kind t = KPipMgr /\ t_pgm t = Op (ODriver port c) f.

(** Every request of the pipeline manager to a driver resets a component that is not
    part of the pipeline of a job process, when no component is part of two pipelines,
    iterations of the job manager and of the pipeline manager do not overlap, and the
    conditions of C31 hold.  Missing: the cases shown to be false below, and executions
    in which the devices file changes. *)
Theorem C102_left_alone_partial :
  forall stg df w ls s, ordinary stg w ls s -> along managers_apart ls (start_sys w) ->
  along (configured df) ls (start_sys w) -> own_components df ->
  forall k c, sends s k c ->
  exists cn, reset_of df cn c /\
    forall n a, uses s n a -> plain (ja_pipeline a) -> ~ part_of df (ja_pipeline a) cn.
Proof.
  intros stg df w ls s H1 H2 H3 Hown k c (t & port & f & En & Ek & Ep).
  destruct (C31_inv stg (fun d => df_pipelines (dm_df d) = df_pipelines df /\ df_components (dm_df d) = df_components df) w ls s H1 H2 H3) as [Hi Ho].
  pose proof (rgy_next _ _ _ R31_refl _ _ _ _ _ Hi En Ep) as (_ & _ & Hx). rewrite Ek in Hx. cbn in Hx.
  destruct Hx as (d & n & [Ed1 Ed2] & (cn & Hp & Hr) & Hu). unfold part_of in Hp. unfold reset_of in Hr.
  rewrite Ed1 in Hp. rewrite Ed2 in Hr. exists cn. split; [exact Hr|].
  intros m a Ha Hpl Hc. destruct (C31_uses stg _ s m a Hi Ha) as (u & pid & _ & _ & _ & Hl & Hres).
  apply (Hu a); [right; eauto|auto|]. eapply Hown; eauto.
Qed.
Print Assumptions C102_left_alone_partial.

(** Checking by computation. *)
Definition pips_dec : forall x y : dict pipeline, {x = y} + {x <> y}.
Proof. repeat decide equality. Defined.
Definition comps_dec : forall x y : dict component, {x = y} + {x <> y}.
Proof. repeat decide equality. Defined.
Definition configuredb (df : devicefile) (s : sys) : bool :=
  match w_daemon (s_world s) with
  | Some d => (if pips_dec (df_pipelines (dm_df d)) (df_pipelines df) then true else false) &&
              (if comps_dec (df_components (dm_df d)) (df_components df) then true else false)
  | None => true
  end.
Lemma configuredb_ok df s : configuredb df s = true -> configured df s.
Proof.
  unfold configuredb, configured. intros H d E. rewrite E in H.
  destruct (pips_dec _ _) as [E1|]; [|discriminate]. destruct (comps_dec _ _) as [E2|]; [auto|discriminate].
Qed.
Definition sendsb (s : sys) (n : nat) : option dcmd :=
  match nth_error (s_threads s) n with
  | Some t => match t_kind t, t_pgm t with KPipMgr, Op (ODriver _ c) _ => Some c | _, _ => None end
  | None => None
  end.
Lemma sendsb_ok s n c : sendsb s n = Some c -> sends s n c.
Proof.
  unfold sendsb. destruct (nth_error (s_threads s) n) as [t|] eqn:E; [|discriminate].
  destruct (t_kind t) eqn:Ek; try discriminate. destruct (t_pgm t) as [|e|o f] eqn:Ep; try discriminate.
  destruct o; try discriminate. intros H. inversion H. subst. exists t. eauto 10.
Qed.
Definition parts (df : devicefile) (n : string) : list string :=
  match dget (df_pipelines df) n with Some p => dvals (pp_components p) | None => [] end.
Lemma parts_of df n cn : part_of df n cn <-> In cn (parts df n).
Proof.
  unfold part_of, parts. destruct (dget (df_pipelines df) n) as [p|].
  - split; [intros (q & E & H); inversion E; subst; exact H|eauto].
  - split; [intros (q & E & _); discriminate|intros []].
Qed.

(** Every pipeline of [own_file] has a component of its own. *)
Definition own_file : rawfile := mkRawFile (rf_devices exw_file) (skipn 1 (rf_pipelines exw_file)).
Definition df_of (rf : rawfile) : devicefile :=
  match load_devicefile rf with Ok df => df | Err _ => mkDF [] [] [] [] end.
Lemma own_ok : own_components (df_of own_file).
Proof.
  assert (X : forall k cn, In cn (parts (df_of own_file) k) ->
    (k = "pip-1" /\ cn = "example_counter:(addr1,1)") \/ (k = "pip-2" /\ cn = "example_counter:(addr1,2)")).
  { intros k cn. unfold parts.
    assert (E : df_pipelines (df_of own_file) =
      [("pip-1", mkPipeline "pip-1" [("counter", "example_counter:(addr1,1)")]);
       ("pip-2", mkPipeline "pip-2" [("counter", "example_counter:(addr1,2)")])]) by (vm_compute; reflexivity).
    rewrite E. cbn [dget]. destruct (String.eqb_spec k "pip-1") as [->|]; [|destruct (String.eqb_spec k "pip-2") as [->|]];
      cbn; intuition. }
  intros n m cn H1 H2. apply parts_of in H1. apply parts_of in H2. apply X in H1. apply X in H2.
  destruct H1 as [[-> ->]|[-> ->]], H2 as [[-> E]|[-> E]]; try reflexivity; discriminate.
Qed.

(** Job 1 runs on pip-1; the process of job 2 on pip-2 was killed and its component
    is about to be reset. *)
Definition c102_reset : list cue :=
  (exs_running 6 ++ exs_load 10 "pip-2" ++ exs_submit 12 ++ exs_pass 3 ++
   At (LJobStart 0 101) :: repeat (At (LStep 13)) 6 ++ [At (LKill 13); At (LProcEnd 101 false)] ++
   repeat (At (LStep 4)) 9)%list.
Example C102_case :
  let w := world_of own_file in
  let ls := fst (play c102_reset (start_sys w)) in
  let s := played c102_reset w in
  ordinary "/jobs" w ls s /\ along managers_apart ls (start_sys w) /\
  along (configured (df_of own_file)) ls (start_sys w) /\ own_components (df_of own_file) /\
  sends s 4 (CReset "addr1" "2") /\ (exists a, uses s 9 a /\ ja_pipeline a = "pip-1").
Proof.
  cbv zeta.
  split; [apply ordinaryb_ok; vm_compute; reflexivity|].
  split; [eapply alongb_along; [apply apartb_ok|]; vm_compute; reflexivity|].
  split; [eapply alongb_along; [apply configuredb_ok|]; vm_compute; reflexivity|].
  split; [exact own_ok|]. split; [apply sendsb_ok; vm_compute; reflexivity|].
  destruct (uses_at (played c102_reset (world_of own_file)) 9) as (a & Ha & Ea); [vm_compute; reflexivity|].
  assert (F : Some (ja_pipeline a, ja_jobid a) = Some ("pip-1", 1)) by (rewrite Ea; vm_compute; reflexivity).
  exists a. split; [exact Ha|]. inversion F. reflexivity.
Qed.

(** False if iterations of the two managers overlap: the iteration of
    [C31_race_refuted] resets the component of pip-1 while job 2 uses it. *)
Definition c102_race : list cue := (c31_stale ++ repeat (At (LStep 4)) 3)%list.
Theorem C102_race_refuted :
  exists stg df w ls s k c n a cn, ordinary stg w ls s /\ along (configured df) ls (start_sys w) /\
    own_components df /\ sends s k c /\ reset_of df cn c /\
    uses s n a /\ plain (ja_pipeline a) /\ part_of df (ja_pipeline a) cn.
Proof.
  set (w := world_of own_file).
  exists "/jobs", (df_of own_file), w, (fst (play c102_race (start_sys w))), (played c102_race w), 4%nat,
    (CReset "addr1" "1"), 12%nat.
  destruct (uses_at (played c102_race w) 12) as (a & Ha & Ea); [vm_compute; reflexivity|].
  assert (F : Some (ja_pipeline a, ja_jobid a) = Some ("pip-1", 2)) by (rewrite Ea; vm_compute; reflexivity).
  injection F as E1 E2. exists a, "example_counter:(addr1,1)".
  split; [apply ordinaryb_ok; vm_compute; reflexivity|].
  split; [eapply alongb_along; [apply configuredb_ok|]; vm_compute; reflexivity|].
  split; [exact own_ok|]. split; [apply sendsb_ok; vm_compute; reflexivity|].
  split; [eexists; vm_compute; split; reflexivity|]. split; [exact Ha|].
  split; [rewrite E1; reflexivity|]. rewrite E1. apply parts_of. vm_compute. auto.
Qed.
Print Assumptions C102_race_refuted.

(** False if two pipelines share a component: job 1 runs on pip-both and job 2 on
    pip-2, and both have the second counter.  The process of job 1 is killed and the
    counter is reset while job 2 uses it. *)
Definition c103_both : list cue :=
  (exs_up ++ exs_load 6 "pip-both" ++ exs_load 8 "pip-2" ++ exs_submit 10 ++ exs_submit 11 ++ exs_pass 3 ++
   [At (LJobStart 0 100); At (LJobStart 0 101)] ++ repeat (At (LStep 12)) 6 ++ repeat (At (LStep 13)) 6)%list.
Definition c102_shared : list cue :=
  (c103_both ++ [At (LKill 12); At (LProcEnd 100 false)] ++ repeat (At (LStep 4)) 6)%list.
Theorem C102_shared_refuted :
  exists stg df w ls s k c n a cn, ordinary stg w ls s /\ along managers_apart ls (start_sys w) /\
    along (configured df) ls (start_sys w) /\ sends s k c /\ reset_of df cn c /\
    uses s n a /\ plain (ja_pipeline a) /\ part_of df (ja_pipeline a) cn.
Proof.
  set (w := world_of exw_file).
  exists "/jobs", (df_of exw_file), w, (fst (play c102_shared (start_sys w))), (played c102_shared w), 4%nat,
    (CReset "addr1" "2"), 13%nat.
  destruct (uses_at (played c102_shared w) 13) as (a & Ha & Ea); [vm_compute; reflexivity|].
  assert (F : Some (ja_pipeline a, ja_jobid a) = Some ("pip-2", 2)) by (rewrite Ea; vm_compute; reflexivity).
  injection F as E1 E2. exists a, "example_counter:(addr1,2)".
  split; [apply ordinaryb_ok; vm_compute; reflexivity|].
  split; [eapply alongb_along; [apply apartb_ok|]; vm_compute; reflexivity|].
  split; [eapply alongb_along; [apply configuredb_ok|]; vm_compute; reflexivity|].
  split; [apply sendsb_ok; vm_compute; reflexivity|].
  split; [eexists; vm_compute; split; reflexivity|]. split; [exact Ha|].
  split; [rewrite E1; reflexivity|]. rewrite E1. apply parts_of. vm_compute. auto.
Qed.
Print Assumptions C102_shared_refuted.

(** ** C103 *)

(** False as stated: nothing keeps two pipelines from having the same component, and
    jobs run on both at the same time. *)
Theorem C103_refuted :
  exists stg df w ls s n m a b cn, ordinary stg w ls s /\ along serial ls (start_sys w) /\
    along (configured df) ls (start_sys w) /\ uses s n a /\ uses s m b /\ n <> m /\
    part_of df (ja_pipeline a) cn /\ part_of df (ja_pipeline b) cn.
Proof.
  set (w := world_of exw_file).
  exists "/jobs", (df_of exw_file), w, (fst (play c103_both (start_sys w))), (played c103_both w), 12%nat, 13%nat.
  destruct (uses_at (played c103_both w) 12) as (a & Ha & Ea); [vm_compute; reflexivity|].
  destruct (uses_at (played c103_both w) 13) as (b & Hb & Eb); [vm_compute; reflexivity|].
  assert (F : Some (ja_pipeline a, ja_jobid a) = Some ("pip-both", 1)) by (rewrite Ea; vm_compute; reflexivity).
  assert (F' : Some (ja_pipeline b, ja_jobid b) = Some ("pip-2", 2)) by (rewrite Eb; vm_compute; reflexivity).
  injection F as E1 E2. injection F' as E3 E4. exists a, b, "example_counter:(addr1,2)".
  split; [apply ordinaryb_ok; vm_compute; reflexivity|].
  split; [eapply alongb_along; [apply serialb_serial|]; vm_compute; reflexivity|].
  split; [eapply alongb_along; [apply configuredb_ok|]; vm_compute; reflexivity|].
  split; [exact Ha|]. split; [exact Hb|]. split; [discriminate|].
  rewrite E1, E3. split; apply parts_of; vm_compute; auto.
Qed.
Print Assumptions C103_refuted.

(** A component is used by one job process at a time when it is part of one pipeline
    only and the conditions of C31 hold. *)
Theorem C103_one_partial :
  forall stg df w ls s, ordinary stg w ls s -> along managers_apart ls (start_sys w) ->
  forall cn, (forall n m, part_of df n cn -> part_of df m cn -> n = m) ->
  forall n m a b, uses s n a -> uses s m b -> plain (ja_pipeline a) ->
  part_of df (ja_pipeline a) cn -> part_of df (ja_pipeline b) cn -> n = m.
Proof.
  intros stg df w ls s H1 H2 cn Hown n m a b Ha Hb Hp H3 H4.
  destruct (C31_one_partial stg w ls s H1 H2 n a Ha Hp) as [_ H]. apply (H m b Hb). auto.
Qed.
Print Assumptions C103_one_partial.

(** The counter that job 1 uses in the execution of [C102_case] is part of pip-1 only. *)
Example C103_case :
  let w := world_of own_file in
  let ls := fst (play c102_reset (start_sys w)) in
  ordinary "/jobs" w ls (played c102_reset w) /\ along managers_apart ls (start_sys w) /\
  (forall n m, part_of (df_of own_file) n "example_counter:(addr1,1)" ->
     part_of (df_of own_file) m "example_counter:(addr1,1)" -> n = m) /\
  exists a, uses (played c102_reset w) 9 a /\ part_of (df_of own_file) (ja_pipeline a) "example_counter:(addr1,1)".
Proof.
  cbv zeta. pose proof C102_case as H. cbv zeta in H. destruct H as (H1 & H2 & _ & H3 & _ & a & Ha & Ea).
  split; [exact H1|]. split; [exact H2|]. split; [intros n m; apply H3|].
  exists a. split; [exact Ha|]. rewrite Ea. apply parts_of. left. vm_compute. reflexivity.
Qed.
