(** * SysProofs21: what job processes execute was submitted (C113) *)
From Coq Require Import List String Ascii ZArith Bool Sorted Lia.
From Verif Require Import Base PyStr BaseFacts Types ConfigModel Prog ProgFacts World WorldFacts Replies
  CmdModel KetchupModel TomatoModel JobModel PipModel DrvModel SysModel RGFacts SysOps
  SpecQueue SpecSys SpecAsked KetchupProofs SysProofs SysProofs2.
Import ListNotations.
Open Scope list_scope.
Open Scope Z_scope.

Lemma recorded_kept a w w' : jobs_kept w w' -> recorded a w -> recorded a w'.
Proof.
  intros K (j & Hj & E1 & E2 & Hr). destruct (K j Hj) as (j' & Hj' & (S1 & S2 & S3 & S4)).
  exists j'. split; [exact Hj'|]. split; [congruence|]. split; [congruence|].
  intros r H. replace (j_payload j') with (j_payload j) by congruence. auto.
Qed.

Section Asked.
  Context (w0 : world) (LS : list label).

  Definition I113 (w : world) : Prop :=
    wf_queue w /\ (forall j, In j (w_jobs w) -> comes_from w0 LS j) /\
    (forall a, In a (w_spawned w) -> recorded a w) /\ (forall a, In a (starts w) -> recorded a w).
  Definition R113 (k : kind) (w w' : world) : Prop := jobs_kept w w'.
  Definition G113 (k : kind) (o : op) (w : world) : Prop :=
    may k o /\
    match o with
    | OJobInsert j => asked LS (j_payload j) (j_jobname j)
    | OSpawnJob a => recorded a w
    | _ => True
    end.

  Lemma starts_same o w : (forall a, o <> OSpawnJob a) ->
    starts (snd (exec o w)) = starts w /\ w_spawned (snd (exec o w)) = w_spawned w.
  Proof.
    intros H0. unfold starts.
    op_cases o; try (split; reflexivity).
    elim (H0 a). reflexivity.
  Qed.

  Lemma I113_exec k o w : I113 w -> G113 k o w -> I113 (snd (exec o w)).
  Proof.
    intros (Hw & Hj & Hs & Hl) [Hm Hg]. pose proof (may_kept k o w Hm) as K.
    split; [apply wf_exec; exact Hw|]. split.
    - op_cases o; try exact Hj.
      + intros x Hx. cbn [set_jobs w_jobs] in Hx. apply in_app_iff in Hx. destruct Hx as [Hx|[<-|[]]]; [auto|].
        right. exact Hg.
      + intros x Hx. cbn [set_jobs w_jobs] in Hx. unfold upd_jobs in Hx. apply in_map_iff in Hx.
        destruct Hx as (y & <- & Hy). destruct (Z.eqb (j_id y) id); [|auto].
        assert (S : same_job y (set_jcols cs y)) by (apply same_cols; eapply may_update; eauto).
        destruct (Hj y Hy) as [(j0 & H0 & S0)|H].
        * left. exists j0. split; [exact H0|]. eapply same_trans; eauto.
        * right. destruct S as (S1 & S2 & S3 & S4). rewrite S2, S3. exact H.
    - assert (D : (exists a, o = OSpawnJob a) \/ forall a, o <> OSpawnJob a).
      { destruct o; try (right; congruence). left. eauto. }
      destruct D as [(a & ->)|D].
      + split; intros x Hx; (apply (recorded_kept x w); [exact K|]).
        * cbn in Hx. apply in_app_iff in Hx. destruct Hx as [Hx|[<-|[]]]; [auto|exact Hg].
        * unfold starts in Hx. cbn in Hx.
          destruct Hx as [<-|Hx]; [exact Hg|apply Hl; exact Hx].
      + destruct (starts_same o w D) as [E1 E2]. rewrite E1, E2.
        split; intros x Hx; (apply (recorded_kept x w); [exact K|]); auto.
  Qed.

  (** Operations that neither insert jobs nor start processes. *)
  Definition plain (o : op) : Prop :=
    match o with OJobInsert _ | OSpawnJob _ => False | _ => True end.
  Lemma plain_ok k o w : may k o -> plain o -> G113 k o w.
  Proof. intros H P. split; [exact H|]. destruct o; try exact I; destruct P. Qed.
  Lemma may_plain k o : k <> KCmd -> k <> KJobMgr -> may k o -> plain o.
  Proof. intros H1 H2 [H|H]; destruct o; try exact I; try contradiction; destruct k; try contradiction; congruence. Qed.
  Lemma ok113_plain k {A} (p : pgm A) w : k <> KCmd -> k <> KJobMgr ->
    all_ops (may k) p -> okp exec (rely I113 R113 k) (G113 k) p w.
  Proof.
    intros H1 H2. eapply all_ops_okp. intros a b o _ Ho. apply plain_ok; [exact Ho|eapply may_plain; eauto].
  Qed.

  (** ** Commands *)
  Definition asks (o : op) : Prop :=
    match o with
    | OJobInsert j => asked LS (j_payload j) (j_jobname j)
    | OSpawnJob _ => False
    | _ => True
    end.
  Ltac ops := repeat (ops_step; cbv beta zeta).
  Lemma asks_submit port f cwd name : In (LCmd (CmdSubmit port f cwd name)) LS ->
    all_ops asks (ketchup_submit port f cwd name).
  Proof.
    intros Hin. unfold ketchup_submit, with_daemon. ops; try exact I.
    unfold submit, insert_job. destruct f as [| |e|v]; try exact I. ops; try exact I.
    cbn. exists port, v, (upgrade v), cwd. split; [exact Hin|]. split; [apply upgrade_spec|apply fill_paths_spec].
  Qed.
  Lemma asks_cmd c : In (LCmd c) LS -> all_ops asks (cmd_pgm c).
  Proof.
    intros Hin. destruct c; cbn [cmd_pgm]; unfold some_reply, no_reply; (apply all_ops_bind; [|intros; exact I]).
    7:{ apply asks_submit. exact Hin. }
    all: unfold daemon_start, tomato_reload, tomato_stop, pipeline_load, pipeline_eject, pipeline_ready,
      ketchup_status, ketchup_cancel, ketchup_snapshot, ketchup_search, with_daemon, bootstrap, boot_driver, boot_pipeline,
      insert_drv, insert_pip, cmd_reload, cmd_stop, update_pip, jobs_status, search, snapshot, snapshot_one,
      merge_netcdfs, cancel, cancel_one, update_job_id, read_daemon; ops; exact I.
  Qed.
  Lemma ok113_cmd c w : In (LCmd c) LS -> okp exec (rely I113 R113 KCmd) (G113 KCmd) (cmd_pgm c) w.
  Proof.
    intros Hin. generalize (ops_cmd c) (asks_cmd c Hin). generalize (cmd_pgm c). intros p. revert w.
    induction p as [x|e|o f IH]; intros w; cbn; auto.
    intros [H1 K1] [H2 K2] w1 _. split.
    - split; [exact H1|]. destruct o; try exact I; [exact H2|destruct H2].
    - destruct (exec o w1) as [r w2]. apply IH; auto.
  Qed.

  (** ** The job manager *)
  Let R := rely I113 R113 KJobMgr.
  Let G := G113 KJobMgr.
  Let E := fun _ : world => True.
  Lemma stable113 (P : world -> Prop) {A} (p : pgm A) : forall w,
    (forall a b, jobs_kept a b -> P a -> P b) -> all_ops (may KJobMgr) p -> all_ops plain p -> P w ->
    okq exec R G E p (fun _ => P) w.
  Proof.
    induction p as [a|e|o f IH]; intros w HP H1 H2 Hw; cbn; auto.
    destruct H1 as [H1 K1], H2 as [H2 K2]. intros w1 [_ Hr]. split; [apply plain_ok; auto|].
    pose proof (may_kept _ o w1 H1) as Hg. destruct (exec o w1) as [r w2]. apply IH; auto.
    eapply HP; [exact Hg|]. eapply HP; eauto.
  Qed.

  (** The record that was read is still there. *)
  Definition read_row (j : job) (w : world) : Prop := exists j', In j' (w_jobs w) /\ same_job j j'.
  Lemma row_kept j a b : jobs_kept a b -> read_row j a -> read_row j b.
  Proof. intros K (j1 & H1 & S1). destruct (K j1 H1) as (j2 & H2 & S2). exists j2. split; [exact H2|eapply same_trans; eauto]. Qed.

  Lemma row_recorded d j pn w : read_row j w -> recorded (job_args d j pn) w.
  Proof.
    intros (j' & H' & (S1 & S2 & S3 & S4)). exists j'. split; [exact H'|]. cbn. split; [congruence|]. split; [congruence|].
    intros r Hr. apply filter_In in Hr. destruct Hr as [_ Hr]. rewrite S2. apply mem_In. exact Hr.
  Qed.

  Lemma ok113_launch d j pn w : read_row j w -> okq exec R G E (launch d j pn) (fun _ _ => True) w.
  Proof.
    intros Hw.
    assert (S : forall {A} (p : pgm A) w0, read_row j w0 -> all_ops (may KJobMgr) p -> all_ops plain p ->
      okq exec R G E p (fun _ => read_row j) w0).
    { intros A p w1 H0 H1 H2. apply stable113; auto. intros x y. apply row_kept. }
    unfold launch. q_bind. eapply okq_weaken; [|apply S; [exact Hw|ops; fin|ops; exact I]].
    intros xw1 w1 H1. cbv beta. q_bind. eapply okq_weaken; [|apply S; [exact H1|ops; fin|ops; exact I]].
    intros xw2 w2 H2. cbv beta. q_bind. eapply okq_weaken; [|apply S; [exact H2|ops; fin|ops; exact I]].
    intros xw3 w3 H3. cbv beta. q_bind.
    eapply okq_weaken; [|apply S; [exact H3|apply ops_update_pip; right; cbn; eauto|unfold update_pip; ops; exact I]].
    intros xw4 w4 H4. cbv beta. q_bind. apply okq_act. intros w5 [_ Hr].
    split; [split; [right; exact I|]|].
    { apply row_recorded. eapply row_kept; eauto. }
    cbn [exec]. eapply okq_weaken with (Q := fun _ => fun _ => True); [intros; exact I|].
    eapply okq_weaken; [|apply stable113 with (P := fun _ => True)]; auto.
    - unfold update_job_id. ops; try fin; right; cbn; eauto 8.
    - unfold update_job_id. ops; exact I.
  Qed.
  Lemma ok113_action d m w : okq exec R G E (action_queued d m) (fun _ _ => True) w.
  Proof.
    unfold action_queued. q_bind. apply okq_act. intros w1 _. cbn [exec].
    split; [apply plain_ok; [left; exact I|exact I]|]. q_bind.
    eapply okq_weaken; [|eapply okq_forP with (J := fun _ _ _ => True)]; [intros; exact I|exact I|].
    intros [i l] r av w2 _. unfold action_one. q_bind. apply okq_act. intros w3 _. cbn [exec fst snd].
    split; [apply plain_ok; [left; exact I|exact I]|].
    destruct (get_job (w_jobs w3) i) as [j|] eqn:Ej; [|exact I].
    assert (Hj : read_row j w3).
    { exists j. split; [eapply get_job_In; eauto|apply same_refl]. }
    q_bind. eapply okq_weaken; [|eapply okq_forB with (J := fun _ _ => read_row j) (K := fun _ _ => True)].
    - intros [x|x] w4 _; exact I.
    - exact Hj.
    - intros pn r' av' w4 H4. unfold try_pip. destruct (dget av' pn); [|exact H4].
      destruct (_ && _)%bool; [|exact H4]. q_bind. eapply okq_weaken; [|apply ok113_launch; exact H4].
      intros; exact I.
  Qed.
  Lemma quiet_plain o : quiet o -> plain o.
  Proof. destruct o; cbn; auto. Qed.
  Lemma ok113_quiet {A} (p : pgm A) w : all_ops quiet p -> okq exec R G E p (fun _ _ => True) w.
  Proof.
    intros H. apply stable113 with (P := fun _ => True); auto.
    - eapply all_ops_weaken; [apply quiet_may|exact H].
    - eapply all_ops_weaken; [apply quiet_plain|exact H].
  Qed.
  Lemma ok113_pass w : okq exec R G E (no_reply job_pass) (fun _ _ => True) w.
  Proof.
    unfold no_reply, job_pass. q_bind. q_bind. apply okq_act. intros w1 _. cbn [exec].
    split; [apply plain_ok; [left; exact I|exact I]|].
    destruct (w_daemon w1) as [d|]; [|exact I].
    q_bind. eapply okq_weaken; [|apply ok113_quiet, quiet_manage].
    intros _ w2 _. cbv beta. q_bind. eapply okq_weaken; [|apply ok113_quiet, quiet_check].
    intros m w3 _. eapply okq_weaken; [|apply ok113_action]. intros; exact I.
  Qed.

  Lemma inv113 ls s s' : (forall l, In l ls -> In l LS) ->
    rg_inv I113 R113 G113 s -> runs ls s = Some s' -> rg_inv I113 R113 G113 s'.
  Proof.
    intros Hls Hi Hr. eapply rg_steps with (okl := fun l => In l LS) (R := R113); try exact Hr; try exact Hi.
    - intros k w. apply kept_refl.
    - intros k a b c. apply kept_trans.
    - intros k o w. apply I113_exec.
    - intros k k' o w _ [Hm _] _. eapply may_kept; eauto.
    - intros l s0 s1 _ Hn Hs (H1 & H2 & H3 & H4). destruct (step_env _ _ _ Hn Hs) as ((E1 & E2 & E3 & E4 & E5 & E6 & E7) & _ & _ & Esp).
      assert (K : jobs_kept (s_world s0) (s_world s1)) by (apply kept_eq; exact E1).
      split; [|intros; exact K]. split; [eapply wf_jobs_eq; eauto|]. split; [rewrite E1; exact H2|].
      split; intros a Ha; (eapply recorded_kept; [exact K|]); [apply H3; auto|].
      apply H4. unfold starts in *. rewrite <- E7. exact Ha.
    - intros c w Hin _. apply ok113_cmd. exact Hin.
    - intros k p w Hp _. destruct k; try discriminate.
      + injection Hp as <-. eapply okq_okp. apply ok113_pass.
      + apply ok113_plain; [congruence|congruence|apply ops_mgr; exact Hp].
      + apply ok113_plain; [congruence|congruence|apply ops_mgr; exact Hp].
    - intros w _. apply ok113_plain; [congruence|congruence|apply ops_quit].
    - intros w i pid a _ _ _. apply ok113_plain; [congruence|congruence|apply ops_job].
    - intros n port pid ver ok w _ _. apply ok113_plain; [congruence|congruence|apply ops_driver].
    - apply Forall_forall. exact Hls.
  Qed.

  (** The threads of job processes come from the processes that were started. *)
  Lemma thread_origin l s s' t pid a : step l s = Some s' -> In t (s_threads s') -> t_kind t = KJob pid a ->
    In a (w_spawned (s_world s)) \/ exists t0, In t0 (s_threads s) /\ t_kind t0 = KJob pid a.
  Proof.
    assert (S : forall n t0 t1 (l0 : list thread), nth_error l0 n = Some t0 -> t_kind t1 = t_kind t0 ->
      In t (set_nth n t1 l0) -> t_kind t = KJob pid a -> exists x, In x l0 /\ t_kind x = KJob pid a).
    { intros n t0 t1 l0 Hn Hk Ht E0. apply In_nth_error in Ht. destruct Ht as [m Hm].
      apply nth_set_nth in Hm. destruct Hm as [[-> ->]|[_ Hm]].
      - exists t0. split; [eapply nth_error_In; eauto|congruence].
      - exists t. split; [eapply nth_error_In; eauto|exact E0]. }
    intros Hs Ht Ek. destruct l; cbn in Hs; unfold step_thread in Hs;
      repeat match type of Hs with
             | match ?x with _ => _ end = _ => destruct x eqn:?; try discriminate
             end;
      injection Hs as <-; cbn in Ht;
      try (right; eauto; fail);
      try (apply in_app_iff in Ht; destruct Ht as [Ht|[<-|[]]]; [right; eauto|cbn in Ek]; try discriminate);
      try (right; eapply S; eauto; cbn; auto; fail);
      try (apply filter_In in Ht; destruct Ht as [Ht _]; right; eauto; fail).
    1-4: right; match goal with H : nth_error (s_threads _) _ = Some _ |- _ => eapply S; [exact H| |exact Ht|exact Ek]; reflexivity end.
    - rewrite Ek in *. discriminate.
    - injection Ek as <- <-. left. eapply nth_error_In; eauto.
  Qed.
End Asked.

Lemma C113_lemma w LS : forall ls s s',
  (forall l, In l ls -> In l LS) -> rg_inv (I113 w LS) R113 (G113 LS) s ->
  (forall a, process_of s a -> recorded a (s_world s)) -> runs ls s = Some s' ->
  rg_inv (I113 w LS) R113 (G113 LS) s' /\ forall a, process_of s' a -> recorded a (s_world s').
Proof.
  induction ls as [|l ls IH]; intros s s' Hls Hi Hp Hr; cbn in Hr.
  - injection Hr as <-. auto.
  - destruct (step l s) as [s1|] eqn:E; [|discriminate].
    assert (Hi1 : rg_inv (I113 w LS) R113 (G113 LS) s1).
    { eapply (inv113 w LS [l] s s1); [|exact Hi|cbn; rewrite E; reflexivity].
      intros x [<-|[]]. apply Hls. now left. }
    eapply (IH s1 s'); auto; [intros x Hx; apply Hls; now right|].
    intros a [Ha|[Ha|(t & pid & Ht & Ek)]]; [destruct Hi1 as ((_ & _ & _ & X) & _); auto|destruct Hi1 as ((_ & _ & X & _) & _); auto|].
    assert (K : jobs_kept (s_world s) (s_world s1)).
    { destruct l;
        try (pose proof (fun H => step_env _ _ _ H E) as X; destruct X as [(E1 & _) _];
             [congruence|apply kept_eq; exact E1]).
      destruct (rg_guar _ _ _ ltac:(intros; apply kept_refl) _ _ _ Hi E) as [X|(t1 & o & k & _ & _ & [Hm _] & X)].
      - apply kept_eq. rewrite X. reflexivity.
      - rewrite X. eapply may_kept; eauto. }
    eapply recorded_kept; [exact K|]. apply Hp.
    destruct (thread_origin _ _ _ _ _ _ E Ht Ek) as [X|(t0 & H0 & E0)]; [right; left; exact X|].
    right; right. eauto.
Qed.

Lemma C113_init w LS : wf_queue w -> starts w = [] -> w_spawned w = [] ->
  rg_inv (I113 w LS) R113 (G113 LS) (start_sys w) /\ forall a, process_of (start_sys w) a -> recorded a (s_world (start_sys w)).
Proof.
  intros Hw Hl Hsp. assert (Hl' : starts (set_daemon w None) = []) by exact Hl.
  split.
  - apply rg_start. split; [exact Hw|]. split.
    + intros j Hj. left. exists j. split; [exact Hj|apply same_refl].
    + split; intros a Ha; [cbn in Ha; rewrite Hsp in Ha|rewrite Hl' in Ha]; destruct Ha.
  - intros a [Ha|[Ha|(t & pid & [] & _)]]; [change (In a (starts w)) in Ha; rewrite Hl in Ha|cbn in Ha; rewrite Hsp in Ha]; destruct Ha.
Qed.

Lemma C113_records_lemma w ls s : wf_queue w -> starts w = [] -> w_spawned w = [] ->
  runs ls (start_sys w) = Some s ->
  (forall j, In j (w_jobs (s_world s)) -> comes_from w ls j) /\
  (forall a, process_of s a -> recorded a (s_world s)).
Proof.
  intros Hw Hl Hsp Hr. destruct (C113_init w ls Hw Hl Hsp) as [Hi Hp].
  destruct (C113_lemma w ls ls _ _ ltac:(auto) Hi Hp Hr) as [(H & _) Hp']. split; [apply H|exact Hp'].
Qed.
