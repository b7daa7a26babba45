(** * P_SysJob2: property C102 when the devices file changes (all executions of the whole
    system) *)
From Coq Require Import List String Ascii ZArith Bool.
From Verif Require Import Base PyStr Types ConfigModel Prog World Replies CmdModel KetchupModel
  TomatoModel JobModel PipModel DrvModel SysModel SpecQueue SpecJob SpecSys SpecSys2 RGY SysProofs
  SysProofs7 SysProofs8 SysProofs9 ExWorld SysPlay P_SysJob.
Import ListNotations.
Open Scope string_scope.
Open Scope Z_scope.

(** In the devices file of the daemon, whichever one it has loaded, every component of
    a pipeline belongs to the pipeline that [own] gives. *)
Definition owned (own : string -> string) (df : devicefile) : Prop :=
  forall n cn, part_of df n cn -> own cn = n.
Definition owned_now (own : string -> string) (s : sys) : Prop :=
  forall d, w_daemon (s_world s) = Some d -> owned own (dm_df d).

(** As C102_left_alone_partial, but the devices file may change, and the daemon may
    reload it or be stopped and started, as long as no component moves from one
    pipeline to another: the component that the pipeline manager is about to reset is
    one of a devices file the daemon had, and its pipeline is not that of a job process.
    Missing: the cases shown to be false in P_SysJob. *)
Theorem C102_changing_partial :
  forall stg own w ls s, ordinary stg w ls s -> along managers_apart ls (start_sys w) ->
  along (owned_now own) ls (start_sys w) ->
  forall k c, sends s k c ->
  exists df cn, owned own df /\ reset_of df cn c /\ part_of df (own cn) cn /\
    forall n a, uses s n a -> plain (ja_pipeline a) -> ja_pipeline a <> own cn.
Proof.
  intros stg own w ls s H1 H2 H3 k c (t & port & f & En & Ek & Ep).
  destruct (C31_inv stg (fun d => owned own (dm_df d)) w ls s H1 H2 H3) as [Hi Ho].
  pose proof (rgy_next _ _ _ R31_refl _ _ _ _ _ Hi En Ep) as (_ & _ & Hx). rewrite Ek in Hx. cbn in Hx.
  destruct Hx as (d & n & Hd & (cn & Hp & Hr) & Hu).
  exists (dm_df d), cn. split; [exact Hd|]. split; [exact Hr|].
  rewrite (Hd n cn Hp). split; [exact Hp|].
  intros m a Ha Hpl E. destruct (C31_uses stg _ s m a Hi Ha) as (u & pid & _ & _ & _ & Hl & Hres).
  apply (Hu a); [right; eauto|auto|exact E].
Qed.
Print Assumptions C102_changing_partial.

(** Checking the conditions by computation. *)
Definition storage_is (stg : string) (l : label) : bool :=
  match l with
  | LFiles f => match cf_settings f with Some st => String.eqb (st_storage st) stg | None => true end
  | _ => true
  end.
Lemma storage_is_keeps stg ls : forallb (storage_is stg) ls = true -> Forall (keeps_storage stg) ls.
Proof.
  intros H. apply Forall_forall. intros l Hl. rewrite forallb_forall in H. specialize (H l Hl).
  destruct l; cbn in *; auto. intros st E. rewrite E in H. apply String.eqb_eq. exact H.
Qed.
Definition steadyb2 (l : label) (s : sys) : bool :=
  match l with LTime now _ => forallb (in_time now) (w_jobs (s_world s)) | _ => true end.
Lemma each_stepb_steady2 ls : forall s, each_stepb steadyb2 ls s = true -> each_step steady ls s.
Proof.
  induction ls as [|l ls IH]; intros s H; cbn -[step] in *; auto. apply andb_prop in H. destruct H as [H1 H2].
  split; [|destruct (step l s); auto]. destruct l; cbn in *; auto.
  right. intros a j t _ Hj _ El. left. eapply in_time_ok; eauto.
Qed.
Definition ordinaryb2 (sc : list cue) (w : world) : bool :=
  let ls := fst (play sc (start_sys w)) in
  plays sc w && forallb (storage_is "/jobs") ls && each_stepb steadyb2 ls (start_sys w) &&
  alongb no_rdb ls (start_sys w) && alongb promptb ls (start_sys w).
Lemma ordinaryb2_ok sc rf : ordinaryb2 sc (world_of rf) = true ->
  ordinary "/jobs" (world_of rf) (fst (play sc (start_sys (world_of rf)))) (played sc (world_of rf)).
Proof.
  unfold ordinaryb2. cbv zeta. intros H. repeat (apply andb_prop in H; destruct H as [H ?]).
  split; [reflexivity|]. split; [reflexivity|].
  split; [split; [|split]; vm_compute; repeat constructor; discriminate|].
  split; [constructor|]. split; [intros p []|]. split; [intros j []|].
  split; [intros st Hs; cbn in Hs; inversion Hs; reflexivity|].
  split; [apply storage_is_keeps; assumption|]. split; [apply each_stepb_steady2; assumption|].
  split; [eapply alongb_along; [apply no_rdb_ok|assumption]|].
  split; [eapply alongb_along; [apply promptb_ok|assumption]|]. apply plays_runs. exact H.
Qed.
Definition ownedb (own : string -> string) (s : sys) : bool :=
  match w_daemon (s_world s) with
  | Some d => forallb (fun kp => forallb (fun cn => String.eqb (own cn) (fst kp)) (dvals (pp_components (snd kp))))
                      (df_pipelines (dm_df d))
  | None => true
  end.
Lemma dget_in {A} (d : dict A) k v : dget d k = Some v -> In (k, v) d.
Proof.
  induction d as [|[k' v'] d IH]; cbn; [discriminate|]. destruct (String.eqb_spec k k') as [->|]; auto.
  intros E. inversion E. auto.
Qed.
Lemma ownedb_ok own s : ownedb own s = true -> owned_now own s.
Proof.
  unfold ownedb, owned_now, owned, part_of. intros H d E n cn (p & Ep & Hc). rewrite E in H.
  rewrite forallb_forall in H. apply dget_in in Ep. specialize (H _ Ep). cbn in H.
  rewrite forallb_forall in H. apply String.eqb_eq. auto.
Qed.

(** The devices file of C102_case, and then the same with one more pipeline. *)
Definition own_file2 : rawfile := mkRawFile (rf_devices own_file)
  (rf_pipelines own_file ++
   [ mkRawPip (Some "extra") (Some [ mkRawComp (Some "psutil") (Some "dev2") (Some "10") ]) ])%list.
Definition own_map (cn : string) : string :=
  if String.eqb cn "example_counter:(addr1,1)" then "pip-1"
  else if String.eqb cn "example_counter:(addr1,2)" then "pip-2" else "extra".

(** Job 1 runs on pip-1; the devices file is changed and reloaded; the process of job 2
    on pip-2 was killed and its component is about to be reset. *)
Definition c102_changed : list cue :=
  (exs_running 6 ++ At (LFiles (exw_cfg own_file2)) :: exs_cmd 10 (CmdReload 1234) ++
   exs_load 11 "pip-2" ++ exs_submit 13 ++ exs_pass 3 ++
   At (LJobStart 0 101) :: repeat (At (LStep 14)) 6 ++ [At (LKill 14); At (LProcEnd 101 false)] ++
   repeat (At (LStep 4)) 9)%list.
Example C102_changed_ex :
  let w := world_of own_file in
  let ls := fst (play c102_changed (start_sys w)) in
  let s := played c102_changed w in
  ordinary "/jobs" w ls s /\ along managers_apart ls (start_sys w) /\
  along (owned_now own_map) ls (start_sys w) /\ ~ along (configured (df_of own_file)) ls (start_sys w) /\
  sends s 4 (CReset "addr1" "2") /\ (exists a, uses s 9 a /\ ja_pipeline a = "pip-1").
Proof.
  cbv zeta.
  split; [apply ordinaryb2_ok; vm_compute; reflexivity|].
  split; [eapply alongb_along; [apply apartb_ok|]; vm_compute; reflexivity|].
  split; [eapply alongb_along; [apply ownedb_ok|]; vm_compute; reflexivity|].
  split.
  { intros H. apply (along_alongb (configuredb (df_of own_file))) in H; [revert H; vm_compute; discriminate|].
    intros s Hs. unfold configuredb. destruct (w_daemon (s_world s)) as [d|] eqn:E; [|reflexivity].
    destruct (Hs d E) as [E1 E2]. destruct (pips_dec _ _) as [|Hn]; [|destruct (Hn E1)].
    destruct (comps_dec _ _) as [|Hn]; [reflexivity|destruct (Hn E2)]. }
  split; [apply sendsb_ok; vm_compute; reflexivity|].
  destruct (uses_at (played c102_changed (world_of own_file)) 9) as (a & Ha & Ea); [vm_compute; reflexivity|].
  assert (F : Some (ja_pipeline a, ja_jobid a) = Some ("pip-1", 1)) by (rewrite Ea; vm_compute; reflexivity).
  exists a. split; [exact Ha|]. inversion F. reflexivity.
Qed.
