(** * P_Force: where the configuration of the daemon comes from (C117) *)
From Coq Require Import List String Ascii ZArith Bool.
From Verif Require Import Base PyStr Types ConfigModel ConfigProofs Prog World Replies CmdModel KetchupModel
  TomatoModel JobModel PipModel DrvModel SysModel SpecQueue SpecConfig SpecSys SpecSys2 SpecForce SysProofs SysProofs25
  SysPlay ExWorld P_SysJob P_SysJob2.
Import ListNotations.
Open Scope string_scope.
Open Scope Z_scope.

(** ** C117: the configuration in force was read from the configuration files *)

(** In every execution, whatever is started, stopped, reloaded, edited or killed in between. *)
Theorem C117_read : forall w ls s d, runs ls (start_sys w) = Some s -> w_daemon (s_world s) = Some d ->
  from_files w ls d.
Proof. intros w ls s d H. exact (C117_lemma w ls s H d). Qed.
Print Assumptions C117_read.

(** Hence it is always closed in the sense of C01. *)
Theorem C117_closed : forall w ls s d, runs ls (start_sys w) = Some s -> w_daemon (s_world s) = Some d ->
  closed_config (dm_df d).
Proof.
  intros w ls s d H E. destruct (C117_read w ls s d H E) as ((f1 & f2 & rf & df0 & _ & _ & _ & _ & L & S) & _).
  eapply settings_closed; [eapply load_closed; exact L|exact S].
Qed.
Print Assumptions C117_closed.

(** If the files are never edited, it is always the one that these files give. *)
Theorem C117_fixed : forall w ls s d, runs ls (start_sys w) = Some s -> w_daemon (s_world s) = Some d ->
  (forall f, ~ In (LFiles f) ls) ->
  exists st port d0, load_daemon (w_files w) st port = Ok d0 /\ dm_settings d = dm_settings d0 /\ dm_df d = dm_df d0.
Proof.
  intros w ls s d H E N. destruct (C117_read w ls s d H E) as ((f1 & f2 & rf & df0 & V1 & V2 & E1 & E2 & E3 & E4) & _).
  destruct V1 as [->|V1]; [|elim (N _ V1)]. destruct V2 as [->|V2]; [|elim (N _ V2)].
  exists Drunning, 0, (mkDaemon Drunning 0 (dm_settings d) (dm_df d)). split; [|auto].
  unfold load_daemon. rewrite E1, E2, E3, E4. reflexivity.
Qed.
Print Assumptions C117_fixed.

Lemma along_runs (P : sys -> Prop) s0 : forall ls pre s, runs pre s0 = Some s ->
  (forall ls1 ls2 s1, ls = (ls1 ++ ls2)%list -> runs (pre ++ ls1) s0 = Some s1 -> P s1) -> along P ls s.
Proof.
  induction ls as [|l ls IH]; intros pre s Hr HP; cbn [along].
  - apply (HP [] []); [reflexivity|]. rewrite app_nil_r. exact Hr.
  - split; [apply (HP [] (l :: ls)); [reflexivity|rewrite app_nil_r; exact Hr]|].
    destruct (step l s) as [s1|] eqn:E; [|exact I]. apply (IH (pre ++ [l])%list).
    + revert Hr. generalize s0. clear - E. induction pre as [|x pre IH]; intros s0 Hr; cbn [app runs] in *.
      * injection Hr as ->. rewrite E. reflexivity.
      * destruct (step x s0); [auto|discriminate].
    + intros ls1 ls2 s2 -> H. apply (HP (l :: ls1) ls2); [reflexivity|]. rewrite <- app_assoc in H. exact H.
Qed.

(** C102 for executions in which the files are not edited: what they say about components is all
    that has to be known. *)
Theorem C102_fixed_partial :
  forall stg st port d0 w ls s, ordinary stg w ls s -> along managers_apart ls (start_sys w) ->
  (forall f, ~ In (LFiles f) ls) -> load_daemon (w_files w) st port = Ok d0 -> own_components (dm_df d0) ->
  forall k c, sends s k c ->
  exists cn, reset_of (dm_df d0) cn c /\
    forall n a, uses s n a -> plain (ja_pipeline a) -> ~ part_of (dm_df d0) (ja_pipeline a) cn.
Proof.
  intros stg st port d0 w ls s H1 H2 N L Hown. eapply C102_left_alone_partial; eauto.
  apply (along_runs _ (start_sys w) ls [] (start_sys w)); [reflexivity|].
  intros ls1 ls2 s1 -> Hr d E. cbn [app] in Hr.
  destruct (C117_fixed w ls1 s1 d Hr E) as (st' & port' & d1 & L1 & _ & Ed).
  { intros f Hf. apply (N f), in_or_app. now left. }
  rewrite Ed. apply load_daemon_inv in L as (x1 & x2 & x3 & x4 & A1 & A2 & A3 & A4 & ->).
  apply load_daemon_inv in L1 as (y1 & y2 & y3 & y4 & B1 & B2 & B3 & B4 & ->).
  rewrite A1 in B1. injection B1 as <-. rewrite A2 in B2. injection B2 as <-. rewrite A3 in B3. injection B3 as <-.
  split; reflexivity.
Qed.
Print Assumptions C102_fixed_partial.

(** In the execution of C102_changed_ex the daemon has the configuration of the edited file, which was not
    there at the beginning. *)
Example C117_ex :
  let w := world_of own_file in
  exists d, runs (fst (play c102_changed (start_sys w))) (start_sys w) = Some (played c102_changed w) /\
    w_daemon (s_world (played c102_changed w)) = Some d /\
    dkeys (df_pipelines (dm_df d)) = ["pip-1"; "pip-2"; "extra"] /\
    dkeys (df_pipelines (df_of own_file)) = ["pip-1"; "pip-2"].
Proof.
  cbv zeta. destruct (w_daemon (s_world (played c102_changed (world_of own_file)))) as [d|] eqn:E.
  - exists d. split; [apply plays_runs; vm_compute; reflexivity|]. split; [reflexivity|].
    split; [|vm_compute; reflexivity].
    assert (X : option_map (fun d => dkeys (df_pipelines (dm_df d))) (Some d) = Some ["pip-1"; "pip-2"; "extra"])
      by (rewrite <- E; vm_compute; reflexivity).
    injection X as X. exact X.
  - exfalso. assert (X : option_map dm_port (None : option daemon) = Some 1234) by (rewrite <- E; vm_compute; reflexivity).
    discriminate.
Qed.

(** The two files are read one after the other: the settings of the daemon may be those of an earlier version
    than its devices file. *)
Definition c117_between : list cue :=
  [ At (LCmd (CmdStart 1234)); At (LStep 0);
    At (LFiles (mkCfg None (fun p => if String.eqb p "/devices.yml" then Some own_file2 else None))); Finish 0 ].
Example C117_ex_between :
  plays c117_between (world_of own_file) = true /\
  option_map (fun d => (st_storage (dm_settings d), dkeys (df_pipelines (dm_df d))))
    (w_daemon (s_world (played c117_between (world_of own_file)))) = Some ("/jobs", ["pip-1"; "pip-2"; "extra"]).
Proof. vm_compute. split; reflexivity. Qed.
