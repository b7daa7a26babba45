(** * SysProofs17: records of configured drivers and pipelines (C08, C100) *)
From Coq Require Import List String Ascii ZArith Bool Sorted Lia.
From Verif Require Import Base PyStr BaseFacts Types ConfigModel Prog ProgFacts World WorldFacts Replies
  CmdModel KetchupModel TomatoModel JobModel PipModel DrvModel SysModel RGFacts SysOps
  SpecQueue SpecSys SpecBoot SysProofs SysProofs2 SysProofs3 SysProofs16.
Import ListNotations.
Open Scope list_scope.
Open Scope Z_scope.

(** ** Records never disappear *)
Definition more (w w' : world) : Prop :=
  (forall n, drv_recorded w n -> drv_recorded w' n) /\ (forall n, pip_recorded w n -> pip_recorded w' n).
Lemma more_refl w : more w w.
Proof. split; auto. Qed.
Lemma more_trans a b c : more a b -> more b c -> more a c.
Proof. intros [H1 H2] [H3 H4]. split; auto. Qed.
Lemma more_eq w w' : w_drvs w' = w_drvs w -> w_pips w' = w_pips w -> more w w'.
Proof. intros E1 E2. unfold more, drv_recorded, pip_recorded. rewrite E1, E2. auto. Qed.
Lemma more_exec o w : more w (snd (exec o w)).
Proof.
  op_cases o; try (apply more_eq; reflexivity); unfold more, drv_recorded, pip_recorded; cbn;
    rewrite ?upd_pips_names, ?upd_drvs_names, ?map_app; (split; [|]); intros ? H; try exact H;
    apply in_or_app; now left.
Qed.
Lemma more_env l s s' : (forall n, l <> LStep n) -> step l s = Some s' -> more (s_world s) (s_world s').
Proof. intros Hn Hs. destruct (step_env _ _ _ Hn Hs) as ((_ & _ & E1 & E2 & _) & _). apply more_eq; assumption. Qed.

(** ** Without reload every configured driver and pipeline is recorded *)
Definition I_rec (w : world) : Prop := drvs_recorded w /\ pips_recorded w.
Definition R_more (k : kind) (w w' : world) : Prop := more w w'.
Definition G_rec (k : kind) (o : op) (w : world) : Prop :=
  match o with
  | ODmBind d => (forall n, In n (dkeys (df_drivers (dm_df d))) -> drv_recorded w n) /\
                 (forall n, In n (dkeys (df_pipelines (dm_df d))) -> pip_recorded w n)
  | ODmSetConfig _ _ => False
  | _ => True
  end.
Definition harmless (o : op) : Prop := match o with ODmBind _ | ODmSetConfig _ _ => False | _ => True end.

Lemma I_rec_more w w' : more w w' -> w_daemon w' = w_daemon w -> I_rec w -> I_rec w'.
Proof.
  intros [M1 M2] E [H1 H2]. split; intros d Hd n Hn; rewrite E in Hd; [apply M1|apply M2]; eauto.
Qed.
Lemma I_rec_exec k o w : I_rec w -> G_rec k o w -> I_rec (snd (exec o w)).
Proof.
  intros Hi Hg. destruct o; try (apply (I_rec_more w); [apply more_exec|apply daemon_other; congruence|exact Hi]; fail).
  - cbn [exec]. destruct (w_daemon w) eqn:E; [exact Hi|]. cbn in Hg. split; intros d0 H0 n Hn; cbn in H0;
      injection H0 as <-; apply Hg; exact Hn.
  - cbn [exec]. destruct (w_daemon w) as [d|] eqn:E; [|exact Hi].
    destruct Hi as [H1 H2]. split; intros d0 H0 n Hn; cbn in H0; injection H0 as <-; [eapply H1|eapply H2]; eauto.
  - destruct Hg.
Qed.
Lemma rec_harmless k (p : pgm (option reply)) w : all_ops harmless p -> okp exec (rely I_rec R_more k) (G_rec k) p w.
Proof.
  intros H. eapply all_ops_okp; [|exact H]. intros w0 w1 o _ Ho. destruct o; try exact I; destruct Ho.
Qed.
Lemma harmless_may k o : may k o -> (k <> KCmd) -> harmless o.
Proof. intros [H|H] Hk; destruct o; try exact I; try destruct H. destruct k; try (destruct H; fail); congruence.
  destruct k; try (destruct H; fail); congruence. Qed.

Section Boot.
  Let R := rely I_rec R_more KCmd.
  Let G := G_rec KCmd.
  Let E := fun _ : world => True.

  Lemma boot_op (P : world -> Prop) o (Q : resp o -> world -> Prop) w :
    harmless o -> (forall a b, more a b -> P a -> P b) -> P w ->
    (forall x w1 w2, P w1 -> exec o w1 = (Ok x, w2) -> P w2 -> Q x w2) ->
    okq exec R G E (act o) Q w.
  Proof.
    intros Ho HP Hw HQ. apply okq_act. intros w1 [_ Hm]. split; [destruct o; try exact I; destruct Ho|].
    pose proof (more_exec o w1) as M. destruct (exec o w1) as [[x|e] w2] eqn:Ee; [|exact I].
    apply (HQ x w1 w2); auto; [eapply HP; eauto|]. eapply HP; [exact M|]. eapply HP; eauto.
  Qed.

  Lemma boot_drv (P : world -> Prop) n w : (forall a b, more a b -> P a -> P b) -> P w ->
    okq exec R G E (boot_driver tt n) (fun _ w' => P w' /\ drv_recorded w' n) w.
  Proof.
    intros HP Hw. unfold boot_driver. q_bind. apply (boot_op P); auto; [exact I|].
    intros x w1 w2 _ Ex Hw2. q_bind. destruct x as [d|].
    - cbn [okq]. apply okq_assert; [exact I|]. intros _. split; [exact Hw2|]. cbn in Ex. injection Ex as Ex <-.
      unfold drv_recorded. apply find_some in Ex as [Ex1 Ex2]. apply String.eqb_eq in Ex2. rewrite <- Ex2.
      apply in_map. exact Ex1.
    - unfold insert_drv. q_bind. apply (boot_op P); auto; [exact I|].
      intros [] w3 w4 _ Ey Hw4. apply (boot_op P); auto; [exact I|].
      intros y w5 w6 _ Ez Hw6. apply okq_assert; [exact I|]. intros Hy. split; [exact Hw6|].
      cbn in Ez. injection Ez as Ez <-. destruct y as [d|]; [|discriminate Hy].
      unfold drv_recorded. apply find_some in Ez as [Ex1 Ex2]. apply String.eqb_eq in Ex2. cbn in Ex2. rewrite <- Ex2.
      apply in_map. exact Ex1.
  Qed.
  Lemma boot_pip (P : world -> Prop) n w : (forall a b, more a b -> P a -> P b) -> P w ->
    okq exec R G E (boot_pipeline tt n) (fun _ w' => P w' /\ pip_recorded w' n) w.
  Proof.
    intros HP Hw. unfold boot_pipeline. q_bind. apply (boot_op P); auto; [exact I|].
    intros x w1 w2 _ Ex Hw2. q_bind. destruct x as [d|].
    - cbn [okq]. apply okq_assert; [exact I|]. intros _. split; [exact Hw2|]. cbn in Ex. injection Ex as Ex <-.
      unfold pip_recorded. apply find_some in Ex as [Ex1 Ex2]. apply String.eqb_eq in Ex2. rewrite <- Ex2.
      apply in_map. exact Ex1.
    - unfold insert_pip. q_bind. apply (boot_op P); auto; [exact I|].
      intros [] w3 w4 _ Ey Hw4. apply (boot_op P); auto; [exact I|].
      intros y w5 w6 _ Ez Hw6. apply okq_assert; [exact I|]. intros Hy. split; [exact Hw6|].
      cbn in Ez. injection Ez as Ez <-. destruct y as [d|]; [|discriminate Hy].
      unfold pip_recorded. apply find_some in Ez as [Ex1 Ex2]. apply String.eqb_eq in Ex2. cbn in Ex2. rewrite <- Ex2.
      apply in_map. exact Ex1.
  Qed.

  Lemma rec_start port w : okq exec R G E (daemon_start port) (fun _ _ => True) w.
  Proof.
    unfold daemon_start. q_bind.
    eapply okq_weaken with (Q := fun _ _ => True).
    2:{ unfold read_daemon. q_bind. apply (boot_op (fun _ => True)); auto; [exact I|].
        intros [st|] w1 w2 _ _ _; [|exact I]. q_bind. apply (boot_op (fun _ => True)); auto. exact I. }
    intros x w1 _. q_bind. apply okq_lift; [exact I|]. intros d _. q_bind. unfold bootstrap. q_bind.
    set (kd := dkeys (df_drivers (dm_df d))). set (kp := dkeys (df_pipelines (dm_df d))).
    eapply okq_weaken with (Q := fun _ w' => forall n, In n kd -> In n [] \/ drv_recorded w' n).
    2:{ apply (okq_forP _ _ _ _ _ (fun r _ w' => forall n, In n kd -> In n r \/ drv_recorded w' n)).
        - intros n Hn. now left.
        - intros n r [] w2 Hr.
          eapply okq_weaken; [|apply (boot_drv (fun w' => forall m, In m kd -> In m (n :: r) \/ drv_recorded w' m))].
          + intros [] w3 [H1 H2] m Hm. destruct (H1 m Hm) as [[<-|H]|H]; auto.
          + intros a b [M _] H m Hm. destruct (H m Hm); auto.
          + exact Hr. }
    intros [] w2 H2. q_bind.
    eapply okq_weaken with (Q := fun _ w' => (forall n, In n kd -> drv_recorded w' n) /\
       (forall n, In n kp -> In n [] \/ pip_recorded w' n)).
    2:{ apply (okq_forP _ _ _ _ _ (fun r _ w' => (forall n, In n kd -> drv_recorded w' n) /\
          (forall n, In n kp -> In n r \/ pip_recorded w' n))).
        - split; [|intros n Hn; now left]. intros n Hn. destruct (H2 n Hn) as [[]|H]; exact H.
        - intros n r [] w3 Hr.
          eapply okq_weaken; [|apply (boot_pip (fun w' => (forall m, In m kd -> drv_recorded w' m) /\
             forall m, In m kp -> In m (n :: r) \/ pip_recorded w' m))].
          + intros [] w4 [[H0 H1] H3]. split; [exact H0|]. intros m Hm. destruct (H1 m Hm) as [[<-|H]|H]; auto.
          + intros a b [M1 M2] [H0 H]. split; [auto|]. intros m Hm. destruct (H m Hm); auto.
          + exact Hr. }
    intros [] w3 [H3 H4]. cbn [okq]. intros w4 [_ [M1 M2]]. split.
    - cbn. split; [intros n Hn; apply M1, H3, Hn|]. intros n Hn. apply M2. destruct (H4 n Hn) as [[]|H]; exact H.
    - destruct (exec _ w4) as [[x'|e] w5]; exact I.
  Qed.
End Boot.

Lemma harmless_cmd c : (forall p, c <> CmdStart p) -> (forall p, c <> CmdReload p) -> all_ops harmless (cmd_pgm c).
Proof.
  intros H1 H2. eapply all_ops_weaken; [|apply calm_cmd].
  - intros o [Ho|Ho]; destruct o; try exact I; destruct Ho.
  - destruct c; cbn; try exact I; [elim (H1 port)|elim (H2 port)]; reflexivity.
Qed.

Lemma recorded_lemma w ls s : Forall no_reload ls -> runs ls (start_sys w) = Some s -> I_rec (s_world s).
Proof.
  intros Hl Hs. assert (X : rg_inv I_rec R_more G_rec s); [|apply X].
  eapply rg_steps with (okl := no_reload) (R := R_more); [..|exact Hs].
  - intros k x. apply more_refl.
  - intros k x y z. apply more_trans.
  - intros k o x. apply I_rec_exec.
  - intros k k' o x _ _ _. apply more_exec.
  - intros l s0 s1 _ Hn Hst [H1 H2]. pose proof (more_env _ _ _ Hn Hst) as M. split; [|intros; exact M].
    destruct (step_env _ _ _ Hn Hst) as (_ & [D|D] & _).
    + eapply I_rec_more; [exact M|exact D|]. split; assumption.
    + split; intros d Hd; rewrite D in Hd; discriminate Hd.
  - intros c x Hc _. destruct c; try (apply rec_harmless, harmless_cmd; congruence).
    + cbn [cmd_pgm]. eapply okq_okp with (Q := fun _ _ => True). unfold no_reply. q_bind.
      eapply okq_weaken; [|apply rec_start]. intros; exact I.
    + elim (Hc port). reflexivity.
  - intros k p x Hp _. apply rec_harmless. eapply all_ops_weaken; [|apply ops_mgr; exact Hp].
    intros o Ho. eapply harmless_may; [exact Ho|]. destruct k; discriminate.
  - intros x _. apply rec_harmless. eapply all_ops_weaken; [|apply ops_quit].
    intros o Ho. eapply harmless_may; [exact Ho|]. discriminate.
  - intros x i pid a _ _ _. apply rec_harmless. eapply all_ops_weaken; [|apply ops_job].
    intros o Ho. eapply harmless_may; [exact Ho|]. discriminate.
  - intros n port pid ver ok x _ _. apply rec_harmless. eapply all_ops_weaken; [|apply ops_driver].
    intros o Ho. eapply harmless_may; [exact Ho|]. discriminate.
  - exact Hl.
  - apply rg_start. split; intros d Hd; discriminate Hd.
Qed.

(** ** Only recorded drivers are started *)
Definition I_sp (w : world) : Prop := forall n, driver_starts n w <> [] -> drv_recorded w n.
Definition G_sp (k : kind) (o : op) (w : world) : Prop :=
  match o with OSpawnDriver n _ => drv_recorded w n | _ => True end.
Definition spawnless (o : op) : Prop := match o with OSpawnDriver _ _ => False | _ => True end.

Lemma starts_exec o w n : spawnless o -> driver_starts n (snd (exec o w)) = driver_starts n w.
Proof. op_cases o; intros H; try reflexivity; try contradiction. Qed.
Lemma I_sp_exec k o w : I_sp w -> G_sp k o w -> I_sp (snd (exec o w)).
Proof.
  intros Hi Hg n Hn. apply (more_exec o w).
  destruct o; try (rewrite starts_exec in Hn by exact I; apply Hi; exact Hn).
  cbn in Hg. cbn in Hn. unfold driver_starts in Hn. cbn in Hn.
  destruct (String.eqb_spec n0 n) as [Eq|Ne]; [rewrite <- Eq; exact Hg|]. apply Hi. exact Hn.
Qed.
Lemma sp_less k (p : pgm (option reply)) w : all_ops spawnless p -> okp exec (rely I_sp R_more k) (G_sp k) p w.
Proof.
  intros H. eapply all_ops_okp; [|exact H]. intros w0 w1 o _ Ho. destruct o; try exact I; destruct Ho.
Qed.
Lemma less_may k o : may k o -> k <> KDrvMgr -> spawnless o.
Proof. intros [H|H] Hk; destruct o; try exact I; try destruct H. destruct k; try (destruct H; fail); congruence. Qed.

Section Pass.
  Let R := rely I_sp R_more KDrvMgr.
  Let G := G_sp KDrvMgr.
  Let E := fun _ : world => True.
  Lemma sp_all {A} (P : world -> Prop) (p : pgm A) w : (forall a b, more a b -> P a -> P b) ->
    all_ops spawnless p -> P w -> okq exec R G E p (fun _ w' => P w') w.
  Proof.
    intros HP Ho Hw. apply (okq_all_ops R G E spawnless P); auto.
    - intros a b Ha [_ Hm]. eapply HP; eauto.
    - intros o a Ha Hs. split; [destruct o; try exact I; destruct Hs|]. eapply HP; [apply more_exec|exact Ha].
    - intros; exact I.
  Qed.
  Lemma sp_one dm d (P : world -> Prop) w : (forall a b, more a b -> P a -> P b) -> P w ->
    (forall a, P a -> drv_recorded a (dv_name d)) ->
    okq exec R G E (drv_one dm tt d) (fun _ w' => P w') w.
  Proof.
    intros HP Hw Hd. unfold drv_one. q_bind.
    eapply okq_weaken; [|apply (sp_all P (act OPerf)); auto; split; [exact I|intros []; exact I]].
    intros tN w1 H1. cbv beta.
    destruct (negb _).
    { apply sp_all; auto. unfold stop_driver, del_drv. repeat (ops_step; cbv beta zeta); exact I. }
    destruct (dv_port d) as [p|].
    { destruct (_ || _)%bool; [|exact H1]. apply sp_all; auto. unfold drv_checked, drv_check, update_drv.
      repeat (ops_step; cbv beta zeta); try exact I. destruct e; inversion H; repeat (ops_step; cbv beta zeta); exact I. }
    destruct (_ && _)%bool; [|exact H1]. q_bind. apply okq_act. intros w2 [_ Hm].
    assert (H2 : P w2) by (eapply HP; eauto). split; [apply Hd; exact H2|].
    pose proof (more_exec (OSpawnDriver (dv_name d) tN) w2) as M.
    destruct (exec (OSpawnDriver (dv_name d) tN) w2) as [[x|e] w3]; [|exact I]. cbn [snd] in M.
    apply sp_all; [exact HP| |eapply HP; eauto]. unfold update_drv. repeat (ops_step; cbv beta zeta); exact I.
  Qed.
  Lemma sp_pass w : okq exec R G E drv_pass (fun _ _ => True) w.
  Proof.
    unfold drv_pass. q_bind. apply okq_act. intros w1 _. split; [exact I|]. cbn [exec].
    destruct (w_daemon w1) as [dm|]; [|exact I]. q_bind. apply okq_act. intros w2 _. split; [exact I|]. cbn [exec].
    eapply okq_weaken with (Q := fun _ w' => forall d, In d [] -> drv_recorded w' (dv_name d)); [intros; exact I|].
    apply (okq_forP _ _ _ _ _ (fun r _ w' => forall d, In d r -> drv_recorded w' (dv_name d))).
    - intros d Hd. unfold drv_recorded. apply in_map. exact Hd.
    - intros d r [] w3 H3.
      eapply okq_weaken; [|apply (sp_one dm d (fun w' => forall x, In x (d :: r) -> drv_recorded w' (dv_name x)))].
      + intros [] w4 H4 x Hx. apply H4. now right.
      + intros a b [M _] Ha x Hx. apply M, Ha, Hx.
      + exact H3.
      + intros a Ha. apply Ha. now left.
  Qed.
End Pass.

Lemma spawned_lemma w ls s : w_log w = [] -> runs ls (start_sys w) = Some s -> I_sp (s_world s).
Proof.
  intros Hlog Hs. assert (X : rg_inv I_sp R_more G_sp s); [|apply X].
  eapply rg_steps with (okl := fun _ => True) (R := R_more); [..|exact Hs].
  - intros k x. apply more_refl.
  - intros k x y z. apply more_trans.
  - intros k o x. apply I_sp_exec.
  - intros k k' o x _ _ _. apply more_exec.
  - intros l s0 s1 _ Hn Hst H1. pose proof (more_env _ _ _ Hn Hst) as M. split; [|intros; exact M].
    destruct (step_env _ _ _ Hn Hst) as ((_ & _ & _ & _ & _ & _ & L) & _).
    intros n Hs1. apply M, H1. unfold driver_starts in *. rewrite L in Hs1. exact Hs1.
  - intros c x _ _. apply sp_less. eapply all_ops_weaken; [|apply ops_cmd].
    intros o Ho. eapply less_may; [exact Ho|discriminate].
  - intros k p x Hp _. destruct k; inversion Hp.
    + apply sp_less. eapply all_ops_weaken; [|apply (ops_mgr KJobMgr); reflexivity].
      intros o Ho. eapply less_may; [exact Ho|discriminate].
    + apply sp_less. eapply all_ops_weaken; [|apply (ops_mgr KPipMgr); reflexivity].
      intros o Ho. eapply less_may; [exact Ho|discriminate].
    + eapply okq_okp with (Q := fun _ _ => True). unfold no_reply. q_bind.
      eapply okq_weaken; [|apply sp_pass]. intros; exact I.
  - intros x _. apply sp_less. unfold no_reply, drv_quit, drv_quit_one, stop_driver, kill_driver. repeat (ops_step; cbv beta zeta); exact I.
  - intros x i pid a _ _ _. apply sp_less. eapply all_ops_weaken; [|apply ops_job].
    intros o Ho. eapply less_may; [exact Ho|discriminate].
  - intros n port pid ver ok x _ _. apply sp_less. eapply all_ops_weaken; [|apply ops_driver].
    intros o Ho. eapply less_may; [exact Ho|discriminate].
  - apply Forall_forall. intros; exact I.
  - apply rg_start. intros n Hn. unfold driver_starts in Hn. cbn in Hn. rewrite Hlog in Hn. now elim Hn.
Qed.

(** ** Only starting a daemon adds records *)
Definition insertless (o : op) : Prop := match o with ODrvInsert _ | OPipInsert _ => False | _ => True end.
Definition G_ins (k : kind) (o : op) (w : world) : Prop := insertless o.
Lemma ins_okp k (p : pgm (option reply)) w : all_ops insertless p -> okp exec (rely anyw any k) (G_ins k) p w.
Proof. intros H. eapply all_ops_okp; [|exact H]. intros w0 w1 o _ Ho. exact Ho. Qed.
Lemma ins_may k o : may k o -> k <> KCmd -> insertless o.
Proof.
  intros [H|H] Hk; destruct o; try exact I; try destruct H; destruct k; try (destruct H; fail); congruence.
Qed.
Lemma ins_cancel last jobs : forall s, all_ops insertless (forP (cancel_one last) s jobs).
Proof.
  intros s. apply all_ops_forP. intros [ps data] j. unfold cancel_one, update_job_id.
  repeat (ops_step; cbv beta zeta); first [exact I|reflexivity].
Qed.
Lemma ins_cmd c : (forall p, c <> CmdStart p) -> all_ops insertless (cmd_pgm c).
Proof.
  intros H0.
  destruct c; cbn [cmd_pgm] in *; try (exfalso; eapply H0; reflexivity);
    unfold no_reply, some_reply; (apply all_ops_bind; [|intros; exact I]).
  - unfold tomato_stop, with_daemon, cmd_stop. repeat (ops_step; cbv beta zeta); exact I.
  - unfold tomato_reload, with_daemon, cmd_reload, read_daemon. repeat (ops_step; cbv beta zeta); exact I.
  - unfold pipeline_load, with_daemon, update_pip. repeat (ops_step; cbv beta zeta); exact I.
  - unfold pipeline_eject, with_daemon, update_pip. repeat (ops_step; cbv beta zeta); exact I.
  - unfold pipeline_ready, with_daemon, update_pip. repeat (ops_step; cbv beta zeta); exact I.
  - unfold ketchup_submit, with_daemon, submit, insert_job. repeat (ops_step; cbv beta zeta); exact I.
  - unfold ketchup_status, with_daemon, jobs_status. repeat (ops_step; cbv beta zeta); exact I.
  - unfold ketchup_cancel, with_daemon, cancel. ops_step; [ops_step; exact I|]. destruct a; [|exact I].
    ops_step; [repeat (ops_step; cbv beta zeta); exact I|]. cbv beta. destruct (find _ _); [exact I|].
    ops_step; [apply ins_cancel|]. repeat (ops_step; cbv beta zeta).
  - unfold ketchup_snapshot, with_daemon, snapshot, snapshot_one, merge_netcdfs. repeat (ops_step; cbv beta zeta); exact I.
  - unfold ketchup_search, with_daemon, search. repeat (ops_step; cbv beta zeta); exact I.
Qed.
Lemma names_exec o w : insertless o ->
  map dv_name (w_drvs (snd (exec o w))) = map dv_name (w_drvs w) /\
  map p_name (w_pips (snd (exec o w))) = map p_name (w_pips w).
Proof.
  op_cases o; intros H; try contradiction; cbn; rewrite ?upd_pips_names, ?upd_drvs_names; split; reflexivity.
Qed.

Lemma ins_step l s s' : no_start l -> rg_inv anyw any G_ins s -> step l s = Some s' -> rg_inv anyw any G_ins s'.
Proof.
  intros Hl Hi Hs. eapply rg_step with (okl := no_start) (R := any); [..|exact Hl|exact Hi|exact Hs].
  - intros; exact I.
  - intros; exact I.
  - intros; exact I.
  - intros; exact I.
  - intros. split; [exact I|intros; exact I].
  - intros c w Hc _. apply ins_okp, ins_cmd. intros p ->. elim (Hc p). reflexivity.
  - intros k p w Hp _. apply ins_okp. eapply all_ops_weaken; [|apply ops_mgr; exact Hp].
    intros o Ho. eapply ins_may; [exact Ho|]. destruct k; discriminate.
  - intros w _. apply ins_okp. eapply all_ops_weaken; [|apply ops_quit].
    intros o Ho. eapply ins_may; [exact Ho|]. discriminate.
  - intros w i pid a _ _ _. apply ins_okp. eapply all_ops_weaken; [|apply ops_job].
    intros o Ho. eapply ins_may; [exact Ho|]. discriminate.
  - intros n port pid ver ok w _ _. apply ins_okp. eapply all_ops_weaken; [|apply ops_driver].
    intros o Ho. eapply ins_may; [exact Ho|]. discriminate.
Qed.
Lemma names_steps ls : forall s s', Forall no_start ls -> rg_inv anyw any G_ins s -> runs ls s = Some s' ->
  map dv_name (w_drvs (s_world s')) = map dv_name (w_drvs (s_world s)) /\
  map p_name (w_pips (s_world s')) = map p_name (w_pips (s_world s)).
Proof.
  induction ls as [|l ls IH]; intros s s' Hl Hi Hs; cbn in Hs.
  - injection Hs as <-. split; reflexivity.
  - inversion Hl. subst. destruct (step l s) as [s1|] eqn:E; [|discriminate].
    destruct (IH s1 s' H2 (ins_step _ _ _ H1 Hi E) Hs) as [E1 E2]. rewrite E1, E2.
    assert (X : (forall n, l <> LStep n) -> map dv_name (w_drvs (s_world s1)) = map dv_name (w_drvs (s_world s)) /\
      map p_name (w_pips (s_world s1)) = map p_name (w_pips (s_world s))).
    { intros Hn. destruct (step_env _ _ _ Hn E) as ((_ & _ & P & D & _) & _). rewrite P, D. split; reflexivity. }
    destruct l; try (apply X; intros ?; discriminate).
    destruct (rg_guar _ _ _ ltac:(intros; exact I) _ _ _ Hi E) as [W|(t & o & k & _ & _ & M & W)]; rewrite W;
      [split; reflexivity|]. apply names_exec. exact M.
Qed.

Lemma never_lemma w ls s ls' s' : runs ls (start_sys w) = Some s -> no_command s ->
  Forall no_start ls' -> runs ls' s = Some s' ->
  map dv_name (w_drvs (s_world s')) = map dv_name (w_drvs (s_world s)) /\
  map p_name (w_pips (s_world s')) = map p_name (w_pips (s_world s)).
Proof.
  intros Hs Hc Hl Hs'. eapply names_steps; eauto.
  assert (X : rg_inv anyw any maygr s) by (eapply maygr_inv; [|exact Hs]; apply rg_start; exact I).
  destruct X as (_ & X2 & X3). split; [exact I|]. split; [exact X2|]. intros t Ht. specialize (X3 t Ht).
  destruct (t_kind t) eqn:Ek.
  1:{ specialize (Hc t Ht Ek). unfold ended in Hc. destruct (t_pgm t); try exact I. discriminate Hc. }
  all: revert X3; generalize (s_world s); generalize (t_pgm t); intros p; induction p as [a0|e|o k IH]; intros w0 X3;
    cbn; try exact I; intros w1 Hr; destruct (X3 w1 Hr) as [M K]; (split; [eapply ins_may; [exact M|discriminate]|]);
    destruct (exec o w1) as [r w2]; apply IH; exact K.
Qed.
