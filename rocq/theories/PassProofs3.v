(** * PassProofs3: exactly when the passes of the pipeline and driver managers come to their end (C92) *)
From Coq Require Import List String Ascii ZArith Bool Sorted Lia.
From Verif Require Import Base PyStr BaseFacts Types ConfigModel Prog ProgFacts World WorldFacts Replies
  CmdModel KetchupModel JobModel PipModel DrvModel SysModel RGFacts SysOps SpecQueue SpecJob SpecSys SpecDrv
  KetchupProofs MatchProofs JobProofs PipCmdProofs SuperProofs SysProofs DrvProofs PassProofs MatchProofs2 SysProofs14.
Import ListNotations.
Open Scope list_scope.
Open Scope Z_scope.

Lemma forP_iff {A} (f : unit -> A -> pgm unit) (J : world -> Prop) (C : A -> Prop) : forall l w, J w ->
  (forall a w, In a l -> J w -> J (snd (run exec (f tt a) w)) /\ (fst (run exec (f tt a) w) = Ok tt <-> C a)) ->
  (fst (run exec (forP f tt l) w) = Ok tt <-> forall a, In a l -> C a).
Proof.
  induction l as [|a l IH]; intros w HJ H.
  - cbn. split; [intros _ a []|reflexivity].
  - rewrite run_forP_cons. destruct (H a w (or_introl eq_refl) HJ) as [H1 H2].
    destruct (run exec (f tt a) w) as [[[]|e] w1] eqn:E; cbn [fst snd] in *.
    + rewrite (IH w1 H1) by (intros; apply H; [now right|assumption]).
      split; [intros K b [<-|Hb]; [now apply H2|auto]|]. intros K b Hb. apply K. now right.
    + split; [discriminate|]. intros K. assert (X : @Err unit e = Ok tt) by (apply H2, K; now left). discriminate X.
Qed.

Ltac ops := repeat (ops_step; cbv beta zeta).
(** What no operation changes. *)
Lemma run_steady {A} (p : pgm A) : forall w,
  w_perf (snd (run exec p w)) = w_perf w /\ w_driver (snd (run exec p w)) = w_driver w /\
  w_procs (snd (run exec p w)) = w_procs w /\ w_now (snd (run exec p w)) = w_now w.
Proof.
  induction p as [a|e|o k IH]; intros w; [repeat split|repeat split|]. cbn [run].
  assert (X : w_perf (snd (exec o w)) = w_perf w /\ w_driver (snd (exec o w)) = w_driver w /\
              w_procs (snd (exec o w)) = w_procs w /\ w_now (snd (exec o w)) = w_now w).
  { clear. op_cases o; repeat split; reflexivity. }
  destruct (exec o w) as [r w1]. cbn [snd] in X. destruct (IH r w1) as (B1 & B2 & B3 & B4).
  destruct X as (X1 & X2 & X3 & X4). rewrite B1, B2, B3, B4. auto.
Qed.
(** What the pipeline manager does not change. *)
Definition pip_only (o : op) : Prop := may KPipMgr o.
Lemma pip_only_keeps o w : pip_only o -> w_jobs (snd (exec o w)) = w_jobs w /\ w_drvs (snd (exec o w)) = w_drvs w.
Proof. intros H. destruct H as [H|H]; revert H; op_cases o; intros H; try contradiction; split; reflexivity. Qed.
Lemma run_pip_only {A} (p : pgm A) : forall w, all_ops pip_only p ->
  w_jobs (snd (run exec p w)) = w_jobs w /\ w_drvs (snd (run exec p w)) = w_drvs w.
Proof.
  induction p as [a|e|o k IH]; intros w H; [split; reflexivity|split; reflexivity|].
  cbn in H. destruct H as [Ho Hk]. cbn [run]. pose proof (pip_only_keeps o w Ho) as [X1 X2].
  destruct (exec o w) as [r w1]. cbn [snd] in X1, X2. destruct (IH r w1 (Hk r)) as [B1 B2]. rewrite B1, B2. auto.
Qed.
Lemma ops_pip_one d p : all_ops pip_only (pip_one d tt p).
Proof.
  unfold pip_only, pip_one, gone, release, reset_component.
  ops; try fin; try apply ops_driver_of; apply ops_update_pip; right; reflexivity.
Qed.

Definition can_reset (w : world) (d : daemon) (cn : string) : Prop :=
  exists cmp port r, component_port w d cn cmp port /\
    w_driver w port (CReset (c_address cmp) (c_channel cmp)) = Some r.
Lemma reset_exact w d cn : fst (run exec (reset_component d tt cn) w) = Ok tt <-> can_reset w d cn.
Proof.
  unfold reset_component, driver_of, can_reset, component_port. rewrite run_bind, run_bind, run_lift.
  destruct (dget (df_components (dm_df d)) cn) as [cmp|]; cbn [need].
  2:{ cbn. split; [discriminate|]. intros (c & p & r & (H & _) & _). discriminate H. }
  rewrite run_bind, run_act. cbn [exec]. destruct (get_drv (w_drvs w) (c_driver cmp)) as [dv|] eqn:G.
  2:{ cbn. split; [discriminate|]. intros (c & p & r & (H & dv & K & _) & _). injection H as <-. congruence. }
  cbn [run fst snd]. rewrite run_bind, run_act. cbn [exec fst snd]. unfold ask.
  destruct (dv_port dv) as [port|] eqn:P.
  2:{ cbn. split; [discriminate|]. intros (c & p & r & (H & dv' & K & L) & _). injection H as <-. congruence. }
  destruct (w_driver w port _) as [r|] eqn:W; cbn.
  - split; [|reflexivity]. intros _. exists cmp, port, r. split; [|exact W]. split; [reflexivity|]. eauto.
  - split; [discriminate|]. intros (c & p & r & (H & dv' & K & L) & M). injection H as <-. congruence.
Qed.
Lemma run_reset_keeps w d cn : w_drvs (snd (run exec (reset_component d tt cn) w)) = w_drvs w.
Proof.
  apply (run_pip_only (reset_component d tt cn)). unfold pip_only, reset_component.
  ops; try fin; apply ops_driver_of.
Qed.
Lemma release_exact w d n : has_char "'"%char n = false ->
  (fst (run exec (release d n) w) = Ok tt <-> resettable w d n).
Proof.
  intros Q. unfold release, resettable. rewrite run_bind, run_lift.
  destruct (dget (df_pipelines (dm_df d)) n) as [p|]; cbn [need].
  2:{ cbn. split; [discriminate|]. intros (_ & p & H & _). discriminate H. }
  rewrite run_bind.
  assert (X : fst (run exec (forP (reset_component d) tt (dvals (pp_components p))) w) = Ok tt <->
              forall cn, In cn (dvals (pp_components p)) -> can_reset w d cn).
  { apply (forP_iff _ (fun w1 => w_drvs w1 = w_drvs w /\ w_driver w1 = w_driver w)); [auto|].
    intros cn w1 _ [E1 E2]. rewrite run_reset_keeps. destruct (run_steady (reset_component d tt cn) w1) as (_ & K & _).
    rewrite K. split; [auto|]. rewrite reset_exact. unfold can_reset, component_port. rewrite E1, E2. reflexivity. }
  destruct (run exec (forP (reset_component d) tt (dvals (pp_components p))) w) as [[[]|e] w1]; cbn [fst] in X.
  - rewrite run_bind, run_update_pip by exact Q. cbn [run fst]. split; [|reflexivity]. intros _.
    split; [exact Q|]. exists p. split; [reflexivity|]. intros rc Hrc. apply X; [reflexivity|].
    unfold dvals. apply in_map. exact Hrc.
  - cbn [fst]. split; [discriminate|]. intros (_ & p' & H & K). injection H as <-.
    assert (Y : @Err unit e = Ok tt).
    { apply X. intros cn Hcn. unfold dvals in Hcn. apply in_map_iff in Hcn. destruct Hcn as (rc & <- & Hrc).
      exact (K rc Hrc). }
    discriminate Y.
Qed.

Lemma pip_exact w d : w_daemon w = Some d -> (forall p, In p (w_pips w) -> has_char "'"%char (p_name p) = false) ->
  (fst (run exec pip_pass w) = Ok tt <->
   (forall p i, In p (w_pips w) -> p_jobid p = Some i -> get_job (w_jobs w) i <> None) /\
   (forall p, In p (w_pips w) -> orphaned w p -> resettable w d (p_name p))).
Proof.
  intros Hd Hq. unfold pip_pass. rewrite run_bind, run_act. cbn [exec]. rewrite Hd.
  rewrite run_bind, run_act. cbn [exec].
  rewrite (forP_iff _ (fun w1 => w_jobs w1 = w_jobs w /\ w_drvs w1 = w_drvs w /\ w_driver w1 = w_driver w /\
                                 w_procs w1 = w_procs w /\ w_now w1 = w_now w)
             (fun p => (forall i, p_jobid p = Some i -> get_job (w_jobs w) i <> None) /\
                       (orphaned w p -> resettable w d (p_name p)))).
  - split.
    + intros H. split.
      * intros p i Hp Ep. apply (proj1 (H p ltac:(apply filter_In; split; [exact Hp|rewrite Ep; reflexivity])) i Ep).
      * intros p Hp Op. apply H; [|exact Op]. apply filter_In. split; [exact Hp|].
        destruct Op as (i & j & E & _). rewrite E. reflexivity.
    + intros [H1 H2] p Hp. apply filter_In in Hp. destruct Hp as [Hp _]. split; [intros i E; eapply H1; eauto|auto].
  - repeat split.
  - intros p w1 Hp (E1 & E2 & E3 & E4 & E5). apply filter_In in Hp. destruct Hp as [Hp _].
    destruct (run_pip_only (pip_one d tt p) w1 (ops_pip_one d p)) as [K1 K2].
    destruct (run_steady (pip_one d tt p) w1) as (_ & K3 & K4 & K5).
    rewrite K1, K2, K3, K4, K5. split; [auto|].
    unfold pip_one, orphaned. destruct (p_jobid p) as [i|] eqn:Ei.
    2:{ cbn. split; [|reflexivity]. intros _. split; [discriminate|]. intros (i & j & H & _). discriminate H. }
    rewrite run_bind, run_act. cbn [exec]. rewrite E1. destruct (get_job (w_jobs w) i) as [j|] eqn:Gj.
    2:{ cbn. split; [discriminate|]. intros [H _]. now elim (H i). }
    rewrite run_bind, run_gone.
    assert (Eo : overb w1 j = overb w j). { unfold overb, liveb. rewrite E4, E5. reflexivity. }
    rewrite Eo.
    assert (N : forall i0, Some i = Some i0 -> get_job (w_jobs w) i0 <> None) by (intros i0 H; injection H as <-; congruence).
    destruct (overb w j) eqn:Ov.
    + apply overb_over in Ov. rewrite release_exact by (apply Hq; exact Hp).
      assert (Er : resettable w1 d (p_name p) <-> resettable w d (p_name p)).
      { unfold resettable, component_port. rewrite E2, E3. reflexivity. }
      rewrite Er. split; [intros H; split; [exact N|intros _; exact H]|]. intros [_ H]. apply H. exists i, j. auto.
    + cbn. split; [|reflexivity]. intros _. split; [exact N|].
      intros (i' & j' & H & G & O). injection H as <-. rewrite Gj in G. injection G as <-.
      apply overb_over in O. congruence.
Qed.

(** ** The driver manager *)
Lemma row_exact w dm d : plain (dv_name d) ->
  (fst (run exec (drv_one dm tt d) w) = Ok tt <-> configured dm d /\ decent w d).
Proof.
  intros Pl. destruct (dhas (df_drivers (dm_df dm)) (dv_name d)) eqn:Hc.
  2:{ assert (N : ~ configured dm d).
      { intros C. assert (X : dhas (df_drivers (dm_df dm)) (dv_name d) = true) by (apply dhas_true, dget_Some_key; exact C).
        congruence. }
      destruct (one_unconfigured dm d w N) as (e & w' & E & _). rewrite E. cbn.
      split; [discriminate|]. intros [C _]. contradiction. }
  assert (C : configured dm d) by (apply dget_Some_key, dhas_true; exact Hc).
  destruct (dv_port d) as [p|] eqn:Ep.
  2:{ destruct (row_one dm w d C) as (cs & w' & E & _).
      { split; [exact Pl|]. intros p r K. congruence. }
      rewrite E. cbn. split; [|reflexivity]. intros _. split; [exact C|]. intros p r K. congruence. }
  destruct ((Z.ltb heartbeat (w_perf w - dv_heartbeat d)
           || (Z.eqb (dv_heartbeat d) 0 && Z.ltb spawn_delay (w_perf w - dv_spawn_time d)))%bool) eqn:Du.
  - assert (Due := proj1 (due_iff _ _) Du).
    destruct (w_driver w p CStatus) as [r|] eqn:W.
    2:{ destruct (row_one dm w d C) as (cs & w' & E & _).
        { split; [exact Pl|]. intros p' r' K. rewrite Ep in K. injection K as <-. congruence. }
        rewrite E. cbn. split; [|reflexivity]. intros _. split; [exact C|].
        intros p' r' K. rewrite Ep in K. injection K as <-. congruence. }
    assert (Dec : (dr_ok r = true -> sized (dr_data r)) -> proper w d).
    { intros S. split; [exact Pl|]. intros p' r' K L. rewrite Ep in K. injection K as <-. rewrite W in L.
      injection L as <-. exact S. }
    destruct (dr_ok r) eqn:O.
    + assert (Sz : sized (dr_data r) \/ ~ sized (dr_data r)) by (destruct (dr_data r); cbn; auto).
      destruct Sz as [Sz|Sz].
      * destruct (row_one dm w d C (Dec (fun _ => Sz))) as (cs & w' & E & _). rewrite E. cbn.
        split; [|reflexivity]. intros _. split; [exact C|]. intros p' r' K _ L _. rewrite Ep in K. injection K as <-.
        rewrite W in L. injection L as <-. exact Sz.
      * split.
        -- unfold drv_one. rewrite run_bind. cbn [run act do exec]. rewrite Hc. cbn [negb]. rewrite Ep, Du.
           unfold drv_checked, drv_check. cbn. rewrite W. cbn. rewrite O. cbn.
           destruct (dr_data r); cbn in Sz; try (elim Sz; exact I); cbn; discriminate.
        -- intros [_ H]. elim Sz. exact (H p r Ep Due W O).
    + destruct (row_one dm w d C (Dec ltac:(discriminate))) as (cs & w' & E & _). rewrite E. cbn.
      split; [|reflexivity]. intros _. split; [exact C|]. intros p' r' K _ L. rewrite Ep in K. injection K as <-.
      rewrite W in L. injection L as <-. congruence.
  - split.
    + intros _. split; [exact C|]. intros p' r' _ K. apply due_iff in K. congruence.
    + intros _. unfold drv_one. rewrite run_bind. cbn [run act do exec]. rewrite Hc. cbn [negb]. rewrite Ep, Du.
      reflexivity.
Qed.

Lemma drv_exact w dm : w_daemon w = Some dm -> (forall d, In d (w_drvs w) -> plain (dv_name d)) ->
  (fst (run exec drv_pass w) = Ok tt <->
   forall d, In d (w_drvs w) -> configured dm d /\ decent w d).
Proof.
  intros Hd Hq. unfold drv_pass. rewrite run_bind, run_act. cbn [exec]. rewrite Hd.
  rewrite run_bind, run_act. cbn [exec].
  apply (forP_iff _ (fun w1 => w_perf w1 = w_perf w /\ w_driver w1 = w_driver w)); [auto|].
  intros d w1 Hin [E1 E2]. destruct (run_steady (drv_one dm tt d) w1) as (K1 & K2 & _). rewrite K1, K2.
  split; [auto|]. rewrite row_exact by (apply Hq; exact Hin). unfold decent. rewrite E1, E2. reflexivity.
Qed.

(** ** The job manager *)
Lemma job_pass_exact w d : w_daemon w = Some d -> wf_queue w -> NoDup (map p_name (w_pips w)) ->
  (forall p, In p (dvals (df_pipelines (dm_df d))) ->
     has_char "'"%char (pp_name p) = false /\ In (pp_name p) (dkeys (df_pipelines (dm_df d)))) ->
  (forall j, In j (w_jobs w) -> queued (j_status j) -> ~ In (st_storage (dm_settings d), j_id j) (w_dirs w)) ->
  (fst (run exec job_pass w) = Ok tt <->
   (forall j, In j (w_jobs w) -> queued (j_status j) -> relevant_answer w d (pl_method (j_payload j))) /\
   (forall j p, In j (w_jobs w) -> j_status j = Srd -> j_pid j = Some p -> live w p ->
      j_jobpath j <> None /\ j_respath j <> None /\ w_merge w (j_id j) = None)).
Proof.
  intros Hd Hw Hn Hp Hf. split.
  2:{ intros [H1 H2]. destruct (pass_lemma d w) as (w' & q & m & asg & args & E & _).
      { repeat split; auto; try (apply Hw); try (apply Hp; assumption); eapply H2; eauto. }
      rewrite E. reflexivity. }
  intros H. unfold job_pass in H. rewrite run_bind in H. cbn [run act do exec] in H. rewrite Hd in H.
  rewrite run_bind in H. pose proof (manage_running_exact w Hw) as X.
  destruct (run exec manage_running w) as [x1 w1] eqn:E1.
  destruct (manage_running_spec w x1 w1 Hw E1) as (es1 & jobs1 & W1 & _ & R1 & _ & _). cbn [fst] in X.
  destruct x1 as [[]|e]; [|discriminate H]. specialize (R1 eq_refl). split; [|now apply X].
  rewrite run_bind in H. pose proof (check_queued_exact d w1) as Y.
  destruct (run exec (check_queued d) w1) as [[m|e] w2] eqn:E2; [|discriminate H]. cbn [fst] in Y.
  assert (Hj1 : w_jobs w1 = jobs1) by (subst w1; rewrite ae_jobs; reflexivity).
  assert (Dv1 : w_drvs w1 = w_drvs w) by (subst w1; rewrite ae_drvs; reflexivity).
  assert (Da1 : w_driver w1 = w_driver w) by (subst w1; rewrite ae_driver; reflexivity).
  intros j Hin Hq. eapply relevant_same; [symmetry; exact Dv1|symmetry; exact Da1|].
  apply (proj1 Y (ex_intro _ m eq_refl)); [|exact Hq]. rewrite Hj1.
  assert (Z0 := F2_get _ _ _ (j_id j) R1 (fun a b => reconciled_id w a b)).
  rewrite (In_get_job _ _ (wf_NoDup w Hw) Hin) in Z0.
  destruct (get_job jobs1 (j_id j)) as [j'|] eqn:G; [|contradiction].
  apply reconciled_queued in Z0; [|now right]. subst j'. apply (get_job_row _ _ _ G).
Qed.
