(** * SysProofs25: where the configuration of the daemon comes from (C117) *)
From Coq Require Import List String Ascii ZArith Bool Lia.
From Verif Require Import Base PyStr BaseFacts Types ConfigModel ConfigProofs Prog ProgFacts World WorldFacts Replies
  CmdModel KetchupModel TomatoModel JobModel PipModel DrvModel SysModel RGFacts SysOps
  SpecQueue SpecConfig SpecSys SpecForce SysProofs SysProofs2.
Import ListNotations.
Open Scope list_scope.
Open Scope Z_scope.

Section Force.
  Context (w0 : world) (LS : list label).

  Definition I117 (w : world) : Prop :=
    version w0 LS (w_files w) /\ forall d, w_daemon w = Some d -> from_files w0 LS d.
  Definition R117 (k : kind) (w w' : world) : Prop := True.
  Definition fine_dm (o : op) : Prop :=
    match o with
    | ODmBind d => from_files w0 LS d
    | ODmSetConfig st df => read_from w0 LS st df
    | ODmSetStatus s => s = Dstop /\ exists port, In (LCmd (CmdStop port)) LS
    | _ => True
    end.
  Definition G117 (k : kind) (o : op) (w : world) : Prop := fine_dm o.

  Lemma I117_exec k o w : I117 w -> G117 k o w -> I117 (snd (exec o w)).
  Proof.
    intros [Hv Hd] Hg. unfold G117 in Hg.
    assert (D : (w_daemon (snd (exec o w)) = w_daemon w /\ w_files (snd (exec o w)) = w_files w) \/
      (exists d, o = ODmBind d) \/ (exists s, o = ODmSetStatus s) \/ (exists st df, o = ODmSetConfig st df)).
    { destruct o; eauto 8; left; cbn [exec snd fst]; unfold ask;
        repeat match goal with |- context [match ?x with _ => _ end] => destruct x eqn:?; cbn [snd fst] end; split; reflexivity. }
    destruct D as [[E1 E2]|[(d & ->)|[(s & ->)|(st & df & ->)]]].
    - split; [rewrite E2; exact Hv|rewrite E1; exact Hd].
    - cbn [exec]. destruct (w_daemon w) eqn:E; cbn [snd]; [split; [exact Hv|rewrite E; exact Hd]|].
      split; [exact Hv|]. cbn. intros x X. injection X as <-. exact Hg.
    - cbn [exec]. destruct (w_daemon w) as [d|] eqn:E; cbn [snd]; [|split; [exact Hv|rewrite E; exact Hd]].
      split; [exact Hv|]. cbn. intros x X. injection X as <-. destruct (Hd d eq_refl) as (A & B & _).
      destruct Hg as [-> P]. split; [exact A|]. split; [exact B|]. right. auto.
    - cbn [exec]. destruct (w_daemon w) as [d|] eqn:E; cbn [snd]; [|split; [exact Hv|rewrite E; exact Hd]].
      split; [exact Hv|]. cbn. intros x X. injection X as <-. destruct (Hd d eq_refl) as (A & B & C).
      split; [exact Hg|]. split; [exact B|exact C].
  Qed.

  Lemma ok117 {A} (p : pgm A) k : forall w, all_ops fine_dm p -> okp exec (rely I117 R117 k) (G117 k) p w.
  Proof.
    induction p as [a|e|o f IH]; intros w H; cbn; auto.
    destruct H as [H1 K1]. intros w1 _. split; [exact H1|]. destruct (exec o w1) as [r w2]. apply IH; auto.
  Qed.
  Lemma ok117_other k {A} (p : pgm A) w : match k with KCmd => False | _ => True end ->
    all_ops (may k) p -> okp exec (rely I117 R117 k) (G117 k) p w.
  Proof.
    intros Hk H. apply ok117. eapply all_ops_weaken; [|exact H].
    intros o [X|X]; destruct o; try exact I; try contradiction; destruct k; contradiction.
  Qed.
  Ltac ops := repeat (ops_step; cbv beta zeta).

  Definition loads (c : command) : Prop := match c with CmdStart _ | CmdReload _ => True | _ => False end.
  Lemma ops117 c : In (LCmd c) LS -> ~ loads c -> all_ops fine_dm (cmd_pgm c).
  Proof.
    intros Hin Hl. destruct c; try (elim Hl; exact I); clear Hl;
    cbn [cmd_pgm]; unfold some_reply, no_reply; (apply all_ops_bind; [|intros; exact I]);
    unfold tomato_stop, pipeline_load, pipeline_eject, pipeline_ready, ketchup_submit,
      ketchup_status, ketchup_cancel, ketchup_snapshot, ketchup_search, with_daemon, 
      cmd_stop, update_pip, jobs_status, search, snapshot, snapshot_one,
      submit, insert_job, merge_netcdfs, cancel, cancel_one, update_job_id; ops; try exact I.
    split; [reflexivity|eauto].
  Qed.

  Let R := rely I117 R117 KCmd.
  Let G := G117 KCmd.
  Let E := fun _ : world => True.
  Lemma ok117_read s port w : okq exec R G E (read_daemon s port)
    (fun x _ => forall d, x = Ok d -> read_from w0 LS (dm_settings d) (dm_df d) /\ dm_port d = port /\ dm_status d = s) w.
  Proof.
    unfold read_daemon. q_bind. apply okq_act. intros w1 [[Hv1 _] _]. split; [exact I|]. cbn [exec].
    destruct (cf_settings (w_files w1)) as [st|] eqn:E1.
    - q_bind. apply okq_act. intros w2 [[Hv2 _] _]. split; [exact I|]. cbn [exec].
      intros d Hd. unfold load_daemon in Hd. cbn [cf_settings cf_devices] in Hd.
      destruct (cf_devices (w_files w2) (st_devcfg st)) as [rf|] eqn:E2; [|discriminate].
      destruct (load_devicefile rf) as [df0|] eqn:E3; [|discriminate].
      destruct (device_settings st df0) as [df|] eqn:E4; [|discriminate]. injection Hd as <-. cbn.
      split; [|auto]. exists (w_files w1), (w_files w2), rf, df0. auto 8.
    - intros d Hd. discriminate.
  Qed.
  Lemma plain117 {A} (p : pgm A) : forall w, all_ops fine_dm p -> okq exec R G E p (fun _ _ => True) w.
  Proof.
    induction p as [a|e|o f IH]; intros w H; cbn; [exact I|exact I|].
    destruct H as [H1 K1]. intros w1 _. split; [exact H1|]. destruct (exec o w1) as [r w2]. apply IH; auto.
  Qed.
  Lemma ok117_start port w : In (LCmd (CmdStart port)) LS ->
    okq exec R G E (daemon_start port) (fun _ _ => True) w.
  Proof.
    intros Hin. unfold daemon_start. q_bind. eapply okq_weaken; [|apply ok117_read]. intros x w1 Hx. cbv beta.
    q_bind. apply okq_lift; [exact I|]. intros d Ed. destruct (Hx d Ed) as (H1 & H2 & H3). unfold bootstrap.
    q_bind. q_bind. eapply okq_weaken; [|apply plain117].
    2: { unfold boot_driver, insert_drv. ops; exact I. }
    intros _ w2 _. cbv beta. q_bind. eapply okq_weaken; [|apply plain117].
    2: { unfold boot_pipeline, insert_pip. ops; exact I. }
    intros _ w3 _. cbv beta. cbn [okq]. apply okq_act. intros w4 _. split.
    - split; [exact H1|]. split; [cbn; rewrite H2; exact Hin|left; reflexivity].
    - destruct (exec _ w4) as [[]]; exact I.
  Qed.
  Lemma ok117_reload port w : okq exec R G E (tomato_reload port) (fun _ _ => True) w.
  Proof.
    unfold tomato_reload. q_bind. apply okq_act. intros w1 _. split; [exact I|]. cbn [exec].
    destruct (cf_settings (w_files w1)); [|exact I].
    unfold with_daemon. q_bind. apply okq_act. intros w2 _. split; [exact I|]. cbn [exec].
    destruct (w_daemon w2) as [d2|]; [|exact I].
    q_bind. apply okq_act. intros w3 _. split; [exact I|]. cbn [exec].
    destruct (w_daemon w3) as [d|]; [|exact I].
    q_bind. unfold cmd_reload. q_bind. eapply okq_weaken; [|apply ok117_read]. intros x w4 Hx. cbv beta.
    destruct x as [nd|e]; [|exact I]. destruct (Hx nd eq_refl) as (H1 & H2 & H3).
    q_bind. apply okq_act. intros w5 _. split; [exact I|]. cbn [exec].
    q_bind. apply okq_lift; [exact I|]. intros c _. destruct c as [r|].
    - cbn [okq]. destruct (r_ok r); exact I.
    - q_bind. apply okq_act. intros w6 _. split; [exact H1|].
      destruct (exec _ w6) as [[]]; exact I.
  Qed.
  Lemma ok117_cmd c w : In (LCmd c) LS -> okp exec R G (cmd_pgm c) w.
  Proof.
    intros Hin.
    assert (D : loads c \/ ~ loads c) by (destruct c; cbn; auto).
    destruct D as [D|D]; [|apply ok117, ops117; auto].
    eapply okq_okp with (Q := fun _ _ => True). destruct c; try contradiction; cbn [cmd_pgm].
    - unfold no_reply. q_bind. eapply okq_weaken; [|apply ok117_start; exact Hin]. intros; exact I.
    - unfold some_reply. q_bind. eapply okq_weaken; [|apply ok117_reload]. intros; exact I.
  Qed.

  Lemma inv117 ls s s' : (forall l, In l ls -> In l LS) ->
    rg_inv I117 R117 G117 s -> runs ls s = Some s' -> rg_inv I117 R117 G117 s'.
  Proof.
    intros Hls Hi Hr. eapply rg_steps with (okl := fun l => In l LS) (R := R117); try exact Hr; try exact Hi.
    - intros k w. exact I.
    - intros k x y z _ _. exact I.
    - intros k o w. apply I117_exec.
    - intros k k' o w _ _ _. exact I.
    - intros l s0 s1 Hl Hn Hs [Hv Hd]. destruct (step_env _ _ _ Hn Hs) as (_ & Ed & Ef & _).
      split; [|intros; exact I]. split.
      + assert (D : (exists f, l = LFiles f) \/ forall f, l <> LFiles f) by (destruct l; try (right; congruence); left; eauto).
        destruct D as [(f & ->)|D]; [|rewrite (Ef D); exact Hv].
        cbn in Hs. injection Hs as <-. right. exact Hl.
      + destruct Ed as [Ed|Ed]; rewrite Ed; [exact Hd|discriminate].
    - intros c w Hc _. apply ok117_cmd. exact Hc.
    - intros k p w Hp _. destruct k; try discriminate; (apply ok117_other; [exact I|apply ops_mgr; exact Hp]).
    - intros w _. apply ok117_other; [exact I|apply ops_quit].
    - intros w i pid a _ _ _. apply ok117_other; [exact I|apply ops_job].
    - intros n port pid ver ok w Hin _. apply ok117_other; [exact I|apply ops_driver].
    - apply Forall_forall. exact Hls.
  Qed.
End Force.

Lemma C117_lemma w ls s : runs ls (start_sys w) = Some s ->
  forall d, w_daemon (s_world s) = Some d -> from_files w ls d.
Proof.
  intros Hr.
  assert (Hi : rg_inv (I117 w ls) R117 (G117 w ls) (start_sys w)).
  { apply rg_start. split; [left; reflexivity|]. cbn. discriminate. }
  destruct (inv117 w ls ls _ _ ltac:(auto) Hi Hr) as ([_ H] & _). exact H.
Qed.

Lemma dkeys_dset_same {A} (d : dict A) k v : dget d k <> None -> dkeys (dset d k v) = dkeys d.
Proof.
  unfold dkeys. induction d as [|[k' v'] d IH]; cbn; intros H; [elim H; reflexivity|].
  destruct (String.eqb_spec k k') as [->|N]; cbn; [reflexivity|]. now rewrite IH.
Qed.
Lemma settings_closed st df0 df : closed_config df0 -> device_settings st df0 = Ok df -> closed_config df.
Proof.
  unfold device_settings. destruct (st_drivers st) as [tbl|]; [|discriminate]. intros H E. injection E as <-.
  set (P := fun drvs : dict driver => dkeys drvs = dkeys (df_drivers df0) /\
    forall dn d, dget (df_drivers df0) dn = Some d -> exists d', dget drvs dn = Some d' /\ dr_name d' = dr_name d).
  assert (X : P (fold_left merge_driver tbl (df_drivers df0))).
  { assert (S : forall l drvs, P drvs -> P (fold_left merge_driver l drvs)).
    { induction l as [|[n v] l IH]; intros drvs Hd; cbn; [exact Hd|]. apply IH. unfold merge_driver. cbn [fst snd].
      destruct (dget drvs n) as [d|] eqn:En; [|exact Hd]. destruct Hd as [K1 K2]. split.
      - rewrite <- K1. apply dkeys_dset_same. congruence.
      - intros dn x Hx. destruct (K2 dn x Hx) as (d' & E1 & E2). rewrite dget_dset.
        destruct (String.eqb_spec dn n) as [->|]; [|eauto]. rewrite En in E1. injection E1 as ->. eexists. split; [reflexivity|exact E2]. }
    apply S. split; [reflexivity|]. eauto. }
  destruct X as [X1 X2]. destruct H as (A1 & A2 & A3 & A4 & A5 & A6 & A7).
  unfold closed_config, with_drivers. cbn [df_pipelines df_components df_devices df_drivers]. rewrite X1.
  split; [exact A1|]. split; [|split; [exact A3|auto]].
  intros cn c Hc. destruct (A2 cn c Hc) as (B1 & B2 & d & B3 & B4). split; [exact B1|]. split; [exact B2|].
  destruct (X2 _ _ B3) as (d' & E1 & E2). exists d'. split; [exact E1|congruence].
Qed.

