(** * SysProofs26: whom requests are sent to (C118) *)
From Coq Require Import List String Ascii ZArith Bool Lia.
From Verif Require Import Base PyStr BaseFacts Types ConfigModel Prog ProgFacts World WorldFacts Replies
  CmdModel KetchupModel TomatoModel JobModel PipModel DrvModel SysModel RGFacts SysOps
  SpecQueue SpecSys SpecAnnounce SpecForce SpecWhom SysProofs SysProofs2 SysProofs24 SysProofs25.
Import ListNotations.
Open Scope list_scope.
Open Scope Z_scope.

(** Two guarantees of one program, the second relying on more. *)
Lemma okp_both (R1 R2 : world -> world -> Prop) (G1 G2 : op -> world -> Prop) {A} (p : pgm A) : forall w,
  (forall a b, R2 a b -> R1 a b) -> okp exec R1 G1 p w -> okp exec R2 G2 p w ->
  okp exec R2 (fun o w => G1 o w /\ G2 o w) p w.
Proof.
  induction p as [a|e|o k IH]; intros w HR; cbn; auto.
  intros H1 H2 w1 Hr. destruct (H1 w1 (HR _ _ Hr)) as [A1 B1]. destruct (H2 w1 Hr) as [A2 B2].
  split; [auto|]. destruct (exec o w1) as [r w2]. apply IH; auto.
Qed.

Section Whom.
  Context (w0 : world) (LS : list label).

  Definition log118 (w : world) : Prop := forall port c,
    In (EvRequest port c) (w_log w) -> In (EvRequest port c) (w_log w0) \/ proper w0 LS w port c.
  Definition I118 (w : world) : Prop := I117 w0 LS w /\ I116 w0 LS false w /\ log118 w.
  Definition R118 (k : kind) (w w' : world) : Prop := jobs_kept w w'.
  Definition asks118 (o : op) (w : world) : Prop :=
    match o with
    | ODriver (Some p) c | ODriverT (Some p) c | ODriverLpp (Some p) c => proper w0 LS w p c
    | _ => True
    end.
  Definition G118 (k : kind) (o : op) (w : world) : Prop :=
    G117 w0 LS k o w /\ (G116 LS false k o w /\ asks118 o w).

  Lemma proper_kept w w' port c : jobs_kept w w' -> proper w0 LS w port c -> proper w0 LS w' port c.
  Proof.
    intros K H. destruct c; try exact H. destruct H as [H (j & Hj & Ht)]. split; [exact H|].
    destruct (K j Hj) as (j' & Hj' & E). exists j'. split; [exact Hj'|]. destruct E as (_ & E & _). congruence.
  Qed.
  Lemma log_op o w : w_log (snd (exec o w)) = w_log w \/
    exists e, w_log (snd (exec o w)) = e :: w_log w /\
      forall port c, e = EvRequest port c -> o = ODriver (Some port) c \/ o = ODriverT (Some port) c \/ o = ODriverLpp (Some port) c.
  Proof.
    destruct o; cbn [exec snd fst]; unfold ask;
      repeat match goal with |- context [match ?x with _ => _ end] => destruct x eqn:?; cbn [snd fst] end;
      try (left; reflexivity); right; eexists; (split; [reflexivity|]); intros ? ? X; try discriminate;
      injection X as <- <-; auto.
  Qed.
  Lemma I118_exec k o w : I118 w -> G118 k o w -> I118 (snd (exec o w)).
  Proof.
    intros (H1 & H2 & H3) (G1 & G2 & G3).
    split; [eapply I117_exec; eauto|]. split; [eapply I116_exec; eauto|].
    pose proof (may_kept k o w (proj1 G2)) as K. intros port c Hin.
    destruct (log_op o w) as [E|(e & E & He)]; rewrite E in Hin.
    - destruct (H3 port c Hin) as [X|X]; [left; exact X|right; eapply proper_kept; eauto].
    - destruct Hin as [->|Hin].
      + right. eapply proper_kept; [exact K|]. destruct (He port c eq_refl) as [ -> | [ -> | -> ] ]; exact G3.
      + destruct (H3 port c Hin) as [X|X]; [left; exact X|right; eapply proper_kept; eauto].
  Qed.

  (** ** Threads without requests *)
  Definition mute (o : op) : Prop := match o with ODriver _ _ | ODriverT _ _ | ODriverLpp _ _ => False | _ => True end.
  Lemma mute_asks o w : mute o -> asks118 o w.
  Proof. destruct o; try (intros; exact I); contradiction. Qed.
  Definition A118 (o : op) (w : world) : Prop := asks118 o w.
  Lemma ok118_mute k {A} (p : pgm A) : forall w, all_ops mute p -> okp exec (rely I118 R118 k) A118 p w.
  Proof.
    induction p as [a|e|o f IH]; intros w H; cbn; auto.
    destruct H as [H1 K1]. intros w1 _. split; [apply mute_asks; exact H1|].
    destruct (exec o w1) as [r w2]. apply IH; auto.
  Qed.
  Ltac ops := repeat (ops_step; cbv beta zeta).
  Lemma mute_cmd c : all_ops mute (cmd_pgm c).
  Proof.
    destruct c; cbn [cmd_pgm]; unfold some_reply, no_reply; (apply all_ops_bind; [|intros; exact I]);
    unfold daemon_start, bootstrap, boot_driver, boot_pipeline, insert_drv, insert_pip, tomato_reload, cmd_reload, read_daemon,
      tomato_stop, pipeline_load, pipeline_eject, pipeline_ready, ketchup_submit,
      ketchup_status, ketchup_cancel, ketchup_snapshot, ketchup_search, with_daemon, 
      cmd_stop, update_pip, jobs_status, search, snapshot, snapshot_one,
      submit, insert_job, merge_netcdfs, cancel, cancel_one, update_job_id; ops; exact I.
  Qed.
  Lemma mute_job pid a : all_ops mute (no_reply (tomato_job pid a)).
  Proof. unfold no_reply, tomato_job, update_job_id, update_pip, merge_netcdfs. ops; exact I. Qed.
  Lemma mute_driver n port pid ver ok : all_ops mute (no_reply (driver_connect n port pid ver ok)).
  Proof. unfold no_reply, driver_connect, update_drv. ops; exact I. Qed.

  (** ** Managers *)
  Section Mgr.
  Context (k : kind).
  Let R := rely I118 R118 k.
  Let G := A118.
  Let E := fun _ : world => True.

  Lemma quiet118 {A} (p : pgm A) : forall w, all_ops mute p -> okq exec R G E p (fun _ _ => True) w.
  Proof.
    induction p as [a|e|o f IH]; intros w H; cbn; [exact I|exact I|].
    destruct H as [H1 K1]. intros w1 _. split; [apply mute_asks; exact H1|].
    destruct (exec o w1) as [r w2]. apply IH; auto.
  Qed.
  Lemma told_port d port : told w0 LS d -> dv_port d = Some port -> port_of w0 LS (dv_name d) port.
  Proof.
    intros [(X & _)|[(d0 & H0 & E1 & E2 & _)|(n & p & pid & ver & Hin & El & E1 & _)]] Hp.
    - congruence.
    - left. exists d0. split; [exact H0|]. split; congruence.
    - right. assert (p = port) by congruence. subst p. eauto.
  Qed.
  Lemma drv_in l n d : get_drv l n = Some d -> In d l /\ dv_name d = n.
  Proof. intros H. apply find_some in H. destruct H as [H X]. apply String.eqb_eq in X. auto. Qed.

  (** The component named by a pipeline of the configuration in force, and its driver. *)
  Definition from_conf (d : daemon) : Prop := read_from w0 LS (dm_settings d) (dm_df d).
  Lemma ok118_driver_of d cn w : okq exec R G E (driver_of d cn)
    (fun x _ => dget (df_components (dm_df d)) cn = Some (fst x) /\
       forall port, dv_port (snd x) = Some port -> port_of w0 LS (c_driver (fst x)) port) w.
  Proof.
    unfold driver_of. q_bind. apply okq_lift; [exact I|]. intros c Ec.
    assert (Ec' : dget (df_components (dm_df d)) cn = Some c)
      by (destruct (dget (df_components (dm_df d)) cn); [injection Ec as <-; reflexivity|discriminate]).
    q_bind. apply okq_act. intros w1 [Hi _]. split; [exact I|]. cbn [exec].
    destruct (get_drv (w_drvs w1) (c_driver c)) as [dv|] eqn:Eg; [|exact I]. cbn.
    split; [exact Ec'|]. intros port Hp. apply drv_in in Eg. destruct Eg as [Hin En].
    rewrite <- En. apply told_port; [|exact Hp]. destruct Hi as (_ & Hi & _). apply (Hi dv Hin).
  Qed.
  Lemma ok118_ask (o : op) (Q : resp o -> world -> Prop) w :
    (forall w1, R w w1 -> asks118 o w1) -> (forall x w1, Q x w1) -> okq exec R G E (act o) Q w.
  Proof.
    intros H HQ. apply okq_act. intros w1 Hr. split; [apply H; exact Hr|].
    destruct (exec o w1) as [[x|e] w2]; [apply HQ|exact I].
  Qed.
  Lemma is_about d pn pip role cn c (P : string -> Prop) port : from_conf d ->
    In (pn, pip) (df_pipelines (dm_df d)) -> In (role, cn) (pp_components pip) -> P role ->
    dget (df_components (dm_df d)) cn = Some c -> port_of w0 LS (c_driver c) port ->
    about w0 LS P (c_address c) (c_channel c) port.
  Proof. intros. exists (dm_settings d), (dm_df d), pn, pip, role, cn, c. auto 10. Qed.

  (** *** The pipeline manager *)
  Lemma in_vals {A} (l : dict A) v : In v (dvals l) -> exists r, In (r, v) l.
  Proof. unfold dvals. intros H. apply in_map_iff in H. destruct H as ([r x] & <- & H). eauto. Qed.
  Lemma ok118_reset d pn pip cn w : from_conf d -> In (pn, pip) (df_pipelines (dm_df d)) -> In cn (dvals (pp_components pip)) ->
    okq exec R G E (reset_component d tt cn) (fun _ _ => True) w.
  Proof.
    intros Hd Hp Hc. apply in_vals in Hc. destruct Hc as [r Hc]. unfold reset_component.
    q_bind. eapply okq_weaken; [|apply ok118_driver_of]. intros x w1 [Ec Hx]. cbv beta. q_bind. apply ok118_ask.
    - intros w2 _. cbn [asks118]. destruct (dv_port (snd x)) as [port|]; [|exact I]. eapply is_about; eauto.
    - intros. exact I.
  Qed.
  Lemma need_some {A} (x : option A) a : need x = Ok a -> x = Some a.
  Proof. destruct x; cbn; congruence. Qed.
  Lemma ok118_release d n w : from_conf d -> okq exec R G E (release d n) (fun _ _ => True) w.
  Proof.
    intros Hd. unfold release. q_bind. apply okq_lift; [exact I|]. intros p Ep. apply need_some in Ep. apply dget_In in Ep.
    q_bind. eapply okq_weaken; [|eapply okq_forP with (J := fun l _ _ => forall cn, In cn l -> In cn (dvals (pp_components p)))].
    - intros _ w1 _. cbv beta. apply quiet118. unfold update_pip. ops; exact I.
    - auto.
    - intros cn r [] w1 HJ. eapply okq_weaken; [|eapply ok118_reset; eauto]. { intros _ w2 _ c Hc. apply HJ. now right. }
      apply HJ. now left.
  Qed.
  Lemma ok118_pip w : okq exec R G E (no_reply pip_pass) (fun _ _ => True) w.
  Proof.
    unfold no_reply, pip_pass. q_bind. q_bind. apply okq_act. intros w1 [Hi _]. cbn [exec]. split; [exact I|].
    destruct (w_daemon w1) as [d|] eqn:Ed; [|exact I].
    assert (Hd : from_conf d) by (destruct Hi as ((_ & Hi) & _); apply (Hi d Ed)).
    q_bind. apply okq_act. intros w2 _. cbn [exec]. split; [exact I|].
    eapply okq_weaken; [|eapply okq_forP with (J := fun _ _ _ => True)].
    - intros; exact I.
    - exact I.
    - intros ps r [] w3 _. unfold pip_one. destruct (p_jobid ps) as [id|]; [|exact I].
      q_bind. apply ok118_ask; [intros; exact I|]. intros j w4. q_bind.
      eapply okq_weaken; [|apply quiet118; unfold gone; ops; exact I]. intros g w5 _. cbv beta.
      destruct g; [apply ok118_release; exact Hd|exact I].
  Qed.

  (** *** The job manager *)
  Definition held (m : list task) (w : world) : Prop := exists j, In j (w_jobs w) /\ pl_method (j_payload j) = m.
  Lemma held_kept m w w' : jobs_kept w w' -> held m w -> held m w'.
  Proof.
    intros K (j & Hj & Em). destruct (K j Hj) as (j' & Hj' & E'). exists j'. split; [exact Hj'|].
    destruct E' as (_ & E' & _). congruence.
  Qed.
  Lemma held_op o m w : may KJobMgr o -> held m w -> held m (snd (exec o w)).
  Proof. intros H. apply held_kept. eapply may_kept; exact H. Qed.
  Lemma held_frame {A} (p : pgm A) Q m : forall w, all_ops (may KJobMgr) p -> held m w ->
    okq exec R G E p Q w -> okq exec R G E p (fun x w' => Q x w' /\ held m w') w.
  Proof.
    induction p as [a|e|o f IH]; intros w; cbn; auto.
    intros [Ho Hf] Hh H w1 Hr. destruct (H w1 Hr) as [H1 H2]. split; [exact H1|].
    pose proof (held_op o m w1 Ho (held_kept m _ _ (proj2 Hr) Hh)) as X.
    destruct (exec o w1) as [r w2]. apply IH; auto.
  Qed.
  Lemma ok118_role d pn pip m t rc w : from_conf d -> In (pn, pip) (df_pipelines (dm_df d)) -> In rc (pp_components pip) ->
    In t m -> held m w ->
    okq exec R G E (validate_role d t tt rc) (fun _ w' => held m w') w.
  Proof.
    intros Hd Hp Hc Ht Hh. unfold validate_role. destruct (String.eqb_spec (t_role t) (fst rc)) as [Er|]; [|exact Hh].
    q_bind. eapply okq_weaken; [|apply held_frame; [apply ops_driver_of|exact Hh|apply ok118_driver_of]].
    intros x w1 ((Ec & Hx) & Hh1). cbv beta. q_bind. apply okq_act. intros w2 Hr.
    pose proof (held_kept m _ _ (proj2 Hr) Hh1) as Hh2. split.
    - unfold G, A118. cbn [asks118]. destruct (dv_port (snd x)) as [port|]; [|exact I]. split.
      + destruct rc as [role cn]. cbn in *. eapply is_about; eauto.
      + destruct Hh2 as (j & Hj & <-). eauto.
    - match goal with |- context [exec ?o w2] => pose proof (held_op o m w2 ltac:(left; exact I) Hh2) as X; destruct (exec o w2) as [[r|e] w3] end; [|exact I].
      destruct (dr_ok r); exact X.
  Qed.
  Lemma ok118_task d pn pip m t w : from_conf d -> In (pn, pip) (df_pipelines (dm_df d)) -> In t m -> held m w ->
    okq exec R G E (validate_task d pip tt t) (fun _ w' => held m w') w.
  Proof.
    intros Hd Hp Ht Hh. unfold validate_task. q_bind.
    eapply okq_weaken; [|eapply okq_forB with (K := fun _ w' => held m w')
      (J := fun l _ w' => held m w' /\ forall rc, In rc l -> In rc (pp_components pip))].
    - intros [[]|[]] w1 H1; cbn [okq]; [apply H1|exact H1].
    - auto.
    - intros rc r [] w1 [H1 HJ]. eapply okq_weaken; [|eapply ok118_role; eauto; apply HJ; now left].
      intros [[]|[]] w2 H2; [|exact H2]. split; [exact H2|]. intros c Hc. apply HJ. now right.
  Qed.
  Lemma ok118_validate d pn pip m w : from_conf d -> In (pn, pip) (df_pipelines (dm_df d)) -> held m w ->
    okq exec R G E (method_validate d m pip) (fun _ w' => held m w') w.
  Proof.
    intros Hd Hp Hh. unfold method_validate. q_bind.
    eapply okq_weaken; [|eapply okq_forB with (K := fun _ w' => held m w')
      (J := fun l _ w' => held m w' /\ forall t, In t l -> In t m)].
    - intros [[]|[]] w1 H1; cbn [okq]; [apply H1|exact H1].
    - auto.
    - intros t r [] w1 [H1 HJ]. eapply okq_weaken; [|eapply ok118_task; eauto; apply HJ; now left].
      intros [[]|[]] w2 H2; [|exact H2]. split; [exact H2|]. intros c Hc. apply HJ. now right.
  Qed.
  Lemma ok118_capabs d pn pip acc cn w : from_conf d -> In (pn, pip) (df_pipelines (dm_df d)) -> In cn (dvals (pp_components pip)) ->
    okq exec R G E (add_capabs d acc cn) (fun _ _ => True) w.
  Proof.
    intros Hd Hp Hc. apply in_vals in Hc. destruct Hc as [r Hc]. unfold add_capabs.
    q_bind. eapply okq_weaken; [|apply ok118_driver_of]. intros x w1 [Ec Hx]. cbv beta. q_bind. apply ok118_ask.
    - intros w2 _. cbn [asks118]. destruct (dv_port (snd x)) as [port|]; [|exact I]. eapply is_about; eauto.
    - intros y w2. destruct (dr_ok y), (dr_data y); exact I.
  Qed.
  Lemma ops_capabs d acc cn : all_ops (may KJobMgr) (add_capabs d acc cn).
  Proof. unfold add_capabs. ops; try fin. apply ops_driver_of. Qed.
  Lemma ok118_match d pn pip m cands w : from_conf d -> In (pn, pip) (df_pipelines (dm_df d)) -> held m w ->
    okq exec R G E (match_pipeline d m cands pip) (fun _ w' => held m w') w.
  Proof.
    intros Hd Hp Hh. unfold match_pipeline. destruct (negb _); [exact Hh|].
    q_bind. eapply okq_weaken; [|eapply okq_forP with
      (J := fun l _ w' => held m w' /\ forall cn, In cn l -> In cn (dvals (pp_components pip)))].
    - intros caps w1 [H1 _]. cbv beta. destruct (subset _ _); [|exact H1].
      q_bind. eapply okq_weaken; [|eapply ok118_validate; eauto]. intros [] w2 H2; exact H2.
    - auto.
    - intros cn r acc w1 [H1 HJ].
      eapply okq_weaken; [|apply held_frame with (m := m) (Q := fun _ _ => True); [apply ops_capabs|exact H1|eapply ok118_capabs; eauto; apply HJ; now left]].
      intros a w2 [_ H2]. split; [exact H2|]. intros c Hc. apply HJ. now right.
  Qed.
  Lemma ok118_find d m w : from_conf d -> held m w ->
    okq exec R G E (find_matching_pipelines d m) (fun _ _ => True) w.
  Proof.
    intros Hd Hh. unfold find_matching_pipelines.
    eapply okq_weaken; [|eapply okq_forP with
      (J := fun l _ w' => held m w' /\ forall p, In p l -> In p (dvals (df_pipelines (dm_df d))))].
    - intros; exact I.
    - auto.
    - intros p r acc w1 [H1 HJ]. destruct (in_vals _ _ (HJ p (or_introl eq_refl))) as [pn Hp].
      eapply okq_weaken; [|eapply ok118_match; eauto].
      intros a w2 H2. split; [exact H2|]. intros c Hc. apply HJ. now right.
  Qed.
  Lemma ops_find d m : all_ops (may KJobMgr) (find_matching_pipelines d m).
  Proof.
    unfold find_matching_pipelines, match_pipeline, method_validate, validate_task, validate_role.
    ops; try fin; first [apply ops_capabs|apply ops_driver_of].
  Qed.
  Definition holds (l : list job) (w : world) : Prop := forall j, In j l -> held (pl_method (j_payload j)) w.
  Lemma holds_kept l w w' : jobs_kept w w' -> holds l w -> holds l w'.
  Proof. intros K H j Hj. eapply held_kept; [exact K|]. apply H. exact Hj. Qed.
  Lemma holds_frame {A} (p : pgm A) Q l : forall w, all_ops (may KJobMgr) p -> holds l w ->
    okq exec R G E p Q w -> okq exec R G E p (fun x w' => Q x w' /\ holds l w') w.
  Proof.
    induction p as [a|e|o f IH]; intros w; cbn; auto.
    intros [Ho Hf] Hh H w1 Hr. destruct (H w1 Hr) as [H1 H2]. split; [exact H1|].
    pose proof (holds_kept l _ _ (may_kept _ o w1 Ho) (holds_kept l _ _ (proj2 Hr) Hh)) as X.
    destruct (exec o w1) as [r w2]. apply IH; auto.
  Qed.
  Lemma ok118_check_one d acc j w : from_conf d -> held (pl_method (j_payload j)) w ->
    okq exec R G E (check_one d acc j) (fun _ _ => True) w.
  Proof.
    intros Hd Hh. unfold check_one. q_bind. eapply okq_weaken; [|apply ok118_find; eauto]. intros pips w1 _. cbv beta.
    apply quiet118. unfold update_job_id. ops; exact I.
  Qed.
  Lemma ops_check_one d acc j : all_ops (may KJobMgr) (check_one d acc j).
  Proof.
    unfold check_one. apply all_ops_bind; [apply ops_find|]. intros pips. ops; try fin.
    apply ops_update_job. right. cbn. auto.
  Qed.
  Lemma ok118_check d w : from_conf d -> okq exec R G E (check_queued d) (fun _ _ => True) w.
  Proof.
    intros Hd. unfold check_queued. q_bind. apply okq_act. intros w1 _. split; [exact I|]. cbn [exec].
    eapply okq_weaken; [|eapply okq_forP with (J := fun l _ w' => holds l w')].
    - intros; exact I.
    - intros j Hj. exists j. split; [|reflexivity]. cbn in Hj. apply filter_In in Hj. apply Hj.
    - intros j r acc w2 HJ. eapply okq_weaken; [|apply holds_frame with (l := r) (Q := fun _ _ => True);
        [apply ops_check_one| |apply ok118_check_one; [exact Hd|apply HJ; now left]]].
      + intros a w3 [_ H]. exact H.
      + intros x Hx. apply HJ. now right.
  Qed.
  Lemma ok118_job w : okq exec R G E (no_reply job_pass) (fun _ _ => True) w.
  Proof.
    unfold no_reply, job_pass. q_bind. q_bind. apply okq_act. intros w1 [Hi _]. cbn [exec]. split; [exact I|].
    destruct (w_daemon w1) as [d|] eqn:Ed; [|exact I].
    assert (Hd : from_conf d) by (destruct Hi as ((_ & Hi) & _); apply (Hi d Ed)).
    q_bind. eapply okq_weaken; [|apply quiet118]. intros _ w2 _. cbv beta.
    - q_bind. eapply okq_weaken; [|apply ok118_check; exact Hd]. intros mt w3 _. cbv beta.
      eapply okq_weaken; [|apply quiet118]. { intros; exact I. }
      unfold action_queued, action_one, try_pip, launch, update_pip, update_job_id. ops; exact I.
    - unfold manage_running, manage_one, reconcile, finish_cancelled, finish_crashed, merge_netcdfs, update_job_id. ops; exact I.
  Qed.

  (** *** The driver manager *)
  Definition asks_port (port : Z) (o : op) : Prop :=
    match o with
    | ODriver (Some p) c | ODriverT (Some p) c | ODriverLpp (Some p) c => p = port /\ (c = CStatus \/ c = CRegister \/ c = CStop)
    | _ => True
    end.
  Lemma ok118_port n port {A} (p : pgm A) : port_of w0 LS n port -> forall w, all_ops (asks_port port) p ->
    okq exec R G E p (fun _ _ => True) w.
  Proof.
    intros Hp. induction p as [a|e|o f IH]; intros w H; cbn; [exact I|exact I|].
    destruct H as [H1 K1]. intros w1 _. split.
    - unfold G, A118. destruct o; try exact I; cbn in *; destruct port0 as [q|]; try exact I; destruct H1 as [-> X];
        (destruct X as [ -> | [ -> | -> ] ]; exists n; exact Hp).
    - destruct (exec o w1) as [r w2]. apply IH; auto.
  Qed.
  Lemma ok118_one dm d w : told w0 LS d -> okq exec R G E (drv_one dm tt d) (fun _ _ => True) w.
  Proof.
    intros Ht. destruct (dv_port d) as [port|] eqn:Ep.
    - eapply ok118_port; [eapply told_port; eassumption|].
      unfold drv_one, stop_driver, del_drv, drv_checked, drv_check, update_drv. rewrite Ep. ops; try exact I; try solve [cbn; auto].
      destruct e; inversion H; exact I.
    - apply quiet118. unfold drv_one, del_drv, update_drv. rewrite Ep. ops; exact I.
  Qed.
  Lemma ok118_quit_one d w : told w0 LS d -> okq exec R G E (drv_quit_one tt d) (fun _ _ => True) w.
  Proof.
    intros Ht. destruct (dv_port d) as [port|] eqn:Ep.
    - eapply ok118_port; [eapply told_port; eassumption|].
      unfold drv_quit_one, stop_driver, kill_driver. rewrite Ep. ops; try exact I; cbn; auto.
    - apply quiet118. unfold drv_quit_one, kill_driver. rewrite Ep. ops; exact I.
  Qed.
  Lemma ok118_all (f : unit -> drvstate -> pgm unit) :
    (forall d w, told w0 LS d -> okq exec R G E (f tt d) (fun _ _ => True) w) -> forall w,
    okq exec R G E (bind (act ODrvsAll) (fun l => forP f tt l)) (fun _ _ => True) w.
  Proof.
    intros Hf w. q_bind. apply okq_act. intros w2 [(_ & Hi & _) _]. cbn [exec]. split; [exact I|].
    eapply okq_weaken; [|eapply okq_forP with (J := fun l _ _ => Forall (told w0 LS) l)].
    - intros; exact I.
    - apply Forall_forall. intros d Hd. apply (Hi d Hd).
    - intros d r [] w3 HJ. inversion HJ; subst. eapply okq_weaken; [|apply Hf; assumption]. intros; assumption.
  Qed.
  Lemma ok118_drv w : okq exec R G E (no_reply drv_pass) (fun _ _ => True) w.
  Proof.
    unfold no_reply, drv_pass. q_bind. q_bind. apply okq_act. intros w1 _. cbn [exec]. split; [exact I|].
    destruct (w_daemon w1) as [dm|]; [|exact I].
    eapply okq_weaken; [|apply ok118_all; intros; apply ok118_one; assumption]. intros; exact I.
  Qed.
  Lemma ok118_quit w : okq exec R G E (no_reply drv_quit) (fun _ _ => True) w.
  Proof.
    unfold no_reply, drv_quit. q_bind. q_bind. apply okq_act. intros w1 _. cbn [exec]. split; [exact I|].
    destruct (w_daemon w1) as [dm|]; [|exact I].
    eapply okq_weaken; [|apply ok118_all; intros; apply ok118_quit_one; assumption]. intros; exact I.
  Qed.
  End Mgr.

  Lemma ok118 k {A} (p : pgm A) w : okp exec (rely (I117 w0 LS) R117 k) (G117 w0 LS k) p w ->
    okp exec (rely (I116 w0 LS false) R116 k) (G116 LS false k) p w ->
    okp exec (rely I118 R118 k) A118 p w -> okp exec (rely I118 R118 k) (G118 k) p w.
  Proof.
    intros H1 H2 H3. unfold G118. eapply (okp_both _ _ (G117 w0 LS k)); [|exact H1|eapply (okp_both _ _ (G116 LS false k)); [|exact H2|exact H3]].
    - intros a b ((X & _) & _). split; [exact X|exact I].
    - intros a b ((_ & X & _) & _). split; [exact X|exact I].
  Qed.

  Lemma inv118 ls s s' : (forall l, In l ls -> In l LS) ->
    rg_inv I118 R118 G118 s -> runs ls s = Some s' -> rg_inv I118 R118 G118 s'.
  Proof.
    intros Hls Hi Hr. eapply rg_steps with (okl := fun l => In l LS) (R := R118); try exact Hr; try exact Hi.
    - intros k w. apply kept_refl.
    - intros k x y z. apply kept_trans.
    - intros k o w. apply I118_exec.
    - intros k k' o w _ (_ & (Hm & _) & _) _. eapply may_kept; exact Hm.
    - intros l s0 s1 Hl Hn Hs (H1 & H2 & H3). 
      destruct (step_env _ _ _ Hn Hs) as ((E1 & E2 & E3 & E4 & E5 & E6 & E7) & Ed & Ef & _).
      assert (K : jobs_kept (s_world s0) (s_world s1)) by (apply kept_eq; congruence).
      split; [|intros; exact K]. split; [|split].
      + destruct H1 as [Hv Hd]. split.
        * assert (D : (exists f, l = LFiles f) \/ forall f, l <> LFiles f) by (destruct l; try (right; congruence); left; eauto).
          destruct D as [(f & ->)|D]; [|rewrite (Ef D); exact Hv].
          cbn in Hs. injection Hs as <-. right. exact Hl.
        * destruct Ed as [Ed|Ed]; rewrite Ed; [exact Hd|discriminate].
      + unfold I116. rewrite ?E1, ?E2, ?E3, ?E4, ?E5, ?E6. exact H2.
      + intros port c Hin. rewrite ?E1, ?E2, ?E3, ?E4, ?E5, ?E6, ?E7 in Hin.
        destruct (H3 port c Hin) as [X|X]; [left; exact X|right; eapply proper_kept; eauto].
    - intros c w Hc _. apply ok118; [apply ok117_cmd; exact Hc|apply ok116_other; [exact I|apply ops_cmd]|].
      apply ok118_mute, mute_cmd.
    - intros k p w Hp _. apply ok118.
      + destruct k; try discriminate; (apply ok117_other; [exact I|apply ops_mgr; exact Hp]).
      + destruct k; try discriminate.
        * apply ok116_other; [exact I|apply ops_mgr; exact Hp].
        * apply ok116_other; [exact I|apply ops_mgr; exact Hp].
        * injection Hp as <-. eapply okq_okp. apply ok116_pass.
      + destruct k; try discriminate; injection Hp as <-; eapply okq_okp; [apply ok118_job|apply ok118_pip|apply ok118_drv].
    - intros w _. apply ok118; [apply ok117_other; [exact I|apply ops_quit]|apply ok116_quit|].
      eapply okq_okp. apply ok118_quit.
    - intros w i pid a _ _ _. apply ok118.
      + apply ok117_other; [exact I|apply ops_job].
      + apply ok116_other; [exact I|apply ops_job].
      + apply ok118_mute, mute_job.
    - intros n port pid ver ok w Hin _. apply ok118.
      + apply ok117_other; [exact I|apply ops_driver].
      + apply ok116_driver. exact Hin.
      + apply ok118_mute, mute_driver.
    - apply Forall_forall. exact Hls.
  Qed.
End Whom.

Lemma C118_lemma w ls s : runs ls (start_sys w) = Some s ->
  forall port c, In (EvRequest port c) (w_log (s_world s)) ->
  In (EvRequest port c) (w_log w) \/ proper w ls (s_world s) port c.
Proof.
  intros Hr.
  assert (Hi : rg_inv (I118 w ls) R118 (G118 w ls) (start_sys w)).
  { apply rg_start. split; [|split].
    - split; [left; reflexivity|]. cbn. discriminate.
    - intros d Hd. split; [|discriminate]. right. left. exists d. cbn in Hd. repeat split; auto.
    - intros port c Hin. left. exact Hin. }
  destruct (inv118 w ls ls _ _ ltac:(auto) Hi Hr) as ((_ & _ & H) & _). exact H.
Qed.
