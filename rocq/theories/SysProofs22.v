(** * SysProofs22: why a job has the status it has (C114) *)
From Coq Require Import List String Ascii ZArith Bool Sorted Lia.
From Verif Require Import Base PyStr BaseFacts Types ConfigModel Prog ProgFacts World WorldFacts Replies
  CmdModel KetchupModel TomatoModel JobModel PipModel DrvModel SysModel RGFacts SysOps
  SpecQueue SpecSys SpecWho SysProofs SysProofs2.
Import ListNotations.
Open Scope list_scope.
Open Scope Z_scope.

Definition begun_status (s : jstatus) : Prop := s = Sr \/ s = Sc \/ s = Sce.
Definition ended_status (s : jstatus) : Prop := s = Srd \/ s = Scd.

Lemma cols_status cs : forall j, j_status (set_jcols cs j) = j_status j \/ In (JStatus (j_status (set_jcols cs j))) cs.
Proof.
  unfold set_jcols. induction cs as [|c cs IH]; intros j; cbn; [now left|].
  destruct (IH (set_jcol j c)) as [E|H]; [|right; right; exact H].
  rewrite E. destruct c; cbn; auto.
Qed.
Lemma cols_pid cs : forall j, j_pid (set_jcols cs j) = j_pid j \/ In (JPid (j_pid (set_jcols cs j))) cs.
Proof.
  unfold set_jcols. induction cs as [|c cs IH]; intros j; cbn; [now left|].
  destruct (IH (set_jcol j c)) as [E|H]; [|right; right; exact H].
  rewrite E. destruct c; cbn; auto.
Qed.

Section Who.
  Context (w0 : world) (LS : list label).
  Definition canc (i : Z) : Prop := before w0 i says_cancelled \/ cancel_asked LS i.
  Definition ran (i : Z) (w : world) : Prop := before w0 i says_begun \/ was_started i w.
  Definition more (w w' : world) : Prop := forall i, was_started i w -> was_started i w'.
  Lemma ran_more i w w' : more w w' -> ran i w -> ran i w'.
  Proof. intros H [X|X]; [left; exact X|right; auto]. Qed.

  Definition I114 (w : world) : Prop :=
    wf_queue w /\
    (forall j, In j (w_jobs w) -> (says_cancelled j -> canc (j_id j)) /\ (says_begun j -> ran (j_id j) w)) /\
    (forall a, In a (w_spawned w) -> was_started (ja_jobid a) w).
  Definition R114 (k : kind) (w w' : world) : Prop := more w w'.
  Definition fine (id : Z) (cs : list jcol) (w : world) : Prop :=
    (forall s, In (JStatus s) cs -> ended_status s -> canc id) /\
    (forall s, In (JStatus s) cs -> begun_status s -> ran id w) /\
    (forall p, In (JPid p) cs -> p <> None -> ran id w).
  Definition G114 (k : kind) (o : op) (w : world) : Prop :=
    may k o /\ match o with OJobUpdate id cs => fine id cs w | _ => True end.

  Lemma more_exec o w : more w (snd (exec o w)).
  Proof. intros i H. unfold was_started, starts in *. op_cases o; cbn; auto. Qed.
  Lemma spawned_exec o w a : In a (w_spawned (snd (exec o w))) ->
    In a (w_spawned w) \/ In a (starts (snd (exec o w))).
  Proof.
    assert (D : (exists a, o = OSpawnJob a) \/ forall a, o <> OSpawnJob a).
    { destruct o; try (right; congruence). left. eauto. }
    destruct D as [(b & ->)|D].
    - cbn. intros H. apply in_app_iff in H. destruct H as [H|[<-|[]]]; auto. 
    - intros H. left. revert H. op_cases o; auto. elim (D a0). reflexivity.
  Qed.

  Lemma rows_op o : (exists j, o = OJobInsert j) \/ (exists id cs, o = OJobUpdate id cs) \/
      ((forall j, o <> OJobInsert j) /\ forall id cs, o <> OJobUpdate id cs).
  Proof. destruct o; try (right; right; split; congruence); eauto. Qed.
  Lemma rows_same o w : (forall j, o <> OJobInsert j) -> (forall id cs, o <> OJobUpdate id cs) ->
    w_jobs (snd (exec o w)) = w_jobs w.
  Proof. intros H1 H2. op_cases o; try reflexivity; [elim (H1 j)|elim (H2 id cs)]; reflexivity. Qed.

  Lemma I114_exec k o w : I114 w -> G114 k o w -> I114 (snd (exec o w)).
  Proof.
    intros (Hw & Hj & Hs) [Hm Hg]. pose proof (more_exec o w) as M.
    split; [apply wf_exec; exact Hw|]. split.
    - assert (X : forall j, In j (w_jobs w) ->
        (says_cancelled j -> canc (j_id j)) /\ (says_begun j -> ran (j_id j) (snd (exec o w)))).
      { intros j H. destruct (Hj j H) as [H1 H2]. split; [exact H1|]. intros B. eapply ran_more; eauto. }
      destruct (rows_op o) as [(j1 & ->)|[(id & cs & ->)|[D1 D2]]];
        [| |rewrite (rows_same o w D1 D2); exact X].
      + intros x Hx. cbn [exec snd set_jobs w_jobs] in Hx. apply in_app_iff in Hx. destruct Hx as [Hx|[<-|[]]]; [auto|].
        destruct Hm as [[]|Hm]. destruct k; try contradiction. destruct Hm as (p & n & t & ->).
        split; [intros [H|H]|intros [H|[H|[H|H]]]]; cbn in H; congruence.
      + intros x Hx. cbn [exec snd set_jobs w_jobs] in Hx. unfold upd_jobs in Hx. apply in_map_iff in Hx.
        destruct Hx as (y & <- & Hy). destruct (X y Hy) as [Y1 Y2].
        destruct (Z.eqb_spec (j_id y) id) as [E|E]; [|auto].
        destruct Hg as (F1 & F2 & F3). rewrite set_jcols_id.
        assert (M' : ran id w -> ran (j_id y) (snd (exec (OJobUpdate id cs) w))).
        { intros H. rewrite E. eapply ran_more; eauto. }
        split.
        * intros B. destruct (cols_status cs y) as [E1|H1].
          -- apply Y1. unfold says_cancelled in *. rewrite <- E1. exact B.
          -- rewrite E. eapply F1; [exact H1|exact B].
        * intros [B|B].
          -- destruct (cols_pid cs y) as [E1|H1]; [apply Y2; left; congruence|]. apply M'. eapply F3; eauto.
          -- destruct (cols_status cs y) as [E1|H1].
             ++ apply Y2. right. rewrite <- E1. exact B.
             ++ apply M'. eapply F2; [exact H1|exact B].
    - intros a Ha. apply spawned_exec in Ha as [Ha|Ha]; [apply M; auto|].
      unfold was_started. apply in_map_iff. eauto.
  Qed.

  (** Updates without conditions. *)
  Definition calm114 (o : op) : Prop :=
    match o with
    | OJobUpdate _ cs => (forall s, In (JStatus s) cs -> ~ ended_status s /\ ~ begun_status s) /\
                         (forall p, In (JPid p) cs -> p = None)
    | _ => True
    end.
  Lemma calm_ok k o w : may k o -> calm114 o -> G114 k o w.
  Proof.
    intros H C. split; [exact H|]. destruct o; try exact I. destruct C as [C1 C2].
    split; [|split].
    - intros s Hs E. elim (proj1 (C1 s Hs)). exact E.
    - intros s Hs E. elim (proj2 (C1 s Hs)). exact E.
    - intros p Hp E. elim E. auto.
  Qed.
  Lemma may_calm k o : match k with KPipMgr | KDrvMgr | KDriver _ => True | _ => False end -> may k o -> calm114 o.
  Proof. intros Hk [H|H]; destruct o; try exact I; try contradiction; destruct k; contradiction. Qed.
  Lemma ok114_calm k {A} (p : pgm A) w : all_ops (may k) p -> all_ops calm114 p ->
    okp exec (rely I114 R114 k) (G114 k) p w.
  Proof.
    intros H1 H2. revert w. induction p as [a|e|o f IH]; intros w; cbn; auto.
    destruct H1 as [H1 K1], H2 as [H2 K2]. intros w1 _. split; [apply calm_ok; auto|].
    destruct (exec o w1) as [r w2]. apply IH; auto.
  Qed.
  Lemma ok114_other k {A} (p : pgm A) w : match k with KPipMgr | KDrvMgr | KDriver _ => True | _ => False end ->
    all_ops (may k) p -> okp exec (rely I114 R114 k) (G114 k) p w.
  Proof.
    intros Hk H. apply ok114_calm; [exact H|]. eapply all_ops_weaken; [|exact H].
    intros o. apply may_calm. exact Hk.
  Qed.
  Ltac ops := repeat (ops_step; cbv beta zeta).

  (** ** Commands *)
  Definition named (ids : list Z) (o : op) : Prop :=
    match o with OJobUpdate id _ => In id ids | _ => True end.
  Lemma named_ok ids port o w : In (LCmd (CmdCancel port ids)) LS -> may KCmd o -> named ids o -> G114 KCmd o w.
  Proof.
    intros Hin Hm Hn. split; [exact Hm|]. destruct o; try exact I. cbn in Hn.
    destruct Hm as [[]|Hm]. split; [|split].
    - intros s _ _. right. exists port, ids. auto.
    - intros s Hs B. destruct Hm as [-> | ->]; destruct Hs as [E|[]]; injection E as <-; destruct B as [B|[B|B]]; discriminate.
    - intros p Hp. destruct Hm as [-> | ->]; destruct Hp as [E|[]]; discriminate.
  Qed.
  Lemma last_In (ids : list Z) : ids <> [] -> In (last ids 0) ids.
  Proof.
    induction ids as [|x ids IH]; [congruence|]. intros _. destruct ids as [|y ids]; [left; reflexivity|].
    right. apply IH. discriminate.
  Qed.
  Lemma ok114_named ids port {A} (p : pgm A) w : In (LCmd (CmdCancel port ids)) LS ->
    all_ops (may KCmd) p -> all_ops (named ids) p -> okp exec (rely I114 R114 KCmd) (G114 KCmd) p w.
  Proof.
    intros Hin H1 H2. revert w. induction p as [a|e|o f IH]; intros w; cbn; auto.
    destruct H1 as [H1 K1], H2 as [H2 K2]. intros w1 _. split; [eapply named_ok; eauto|].
    destruct (exec o w1) as [r w2]. apply IH; auto.
  Qed.
  Lemma ok114_cancel ids port w : In (LCmd (CmdCancel port ids)) LS ->
    okp exec (rely I114 R114 KCmd) (G114 KCmd) (cmd_pgm (CmdCancel port ids)) w.
  Proof.
    intros Hin. destruct ids as [|i ids].
    - cbn. intros w1 _. split; [apply calm_ok; [left; exact I|exact I]|].
      destruct (w_daemon w1) as [d|]; [|exact I]. cbn. intros w2 _.
      split; [apply calm_ok; [left; exact I|exact I]|].
      assert (F : filter (fun _ : job => false) (w_jobs w2) = []) by (induction (w_jobs w2); auto).
      rewrite F. exact I.
    - eapply ok114_named; [exact Hin|apply ops_cmd|]. cbn [cmd_pgm]. unfold some_reply.
      apply all_ops_bind; [|intros; exact I]. unfold ketchup_cancel, with_daemon, cancel, cancel_one, update_job_id.
      ops; try exact I; (apply last_In; discriminate).
  Qed.
  Lemma calm114_cmd c : (forall port ids, c <> CmdCancel port ids) -> all_ops calm114 (cmd_pgm c).
  Proof.
    intros H. destruct c; cbn [cmd_pgm]; unfold some_reply, no_reply; (apply all_ops_bind; [|intros; exact I]);
    try (elim (H port ids); reflexivity);
    unfold daemon_start, tomato_reload, tomato_stop, pipeline_load, pipeline_eject, pipeline_ready, ketchup_submit,
      ketchup_status, ketchup_snapshot, ketchup_search, with_daemon, bootstrap, boot_driver, boot_pipeline,
      insert_drv, insert_pip, cmd_reload, cmd_stop, update_pip, jobs_status, search, snapshot, snapshot_one,
      submit, insert_job, merge_netcdfs, read_daemon; ops; exact I.
  Qed.
  Lemma ok114_cmd c w : In (LCmd c) LS -> okp exec (rely I114 R114 KCmd) (G114 KCmd) (cmd_pgm c) w.
  Proof.
    intros Hin. assert (D : (exists port ids, c = CmdCancel port ids) \/ forall port ids, c <> CmdCancel port ids).
    { destruct c; try (right; congruence). left. eauto. }
    destruct D as [(port & ids & ->)|D]; [apply ok114_cancel; exact Hin|].
    apply ok114_calm; [apply ops_cmd|apply calm114_cmd; exact D].
  Qed.

  (** ** The job manager *)
  Let R := rely I114 R114 KJobMgr.
  Let G := G114 KJobMgr.
  Let E := fun _ : world => True.
  Lemma stable114 (P : world -> Prop) {A} (p : pgm A) : forall w,
    (forall a b, more a b -> P a -> P b) -> all_ops (may KJobMgr) p -> all_ops calm114 p -> P w ->
    okq exec R G E p (fun _ => P) w.
  Proof.
    induction p as [a|e|o f IH]; intros w HP H1 H2 Hw; cbn; auto.
    destruct H1 as [H1 K1], H2 as [H2 K2]. intros w1 [_ Hr]. split; [apply calm_ok; auto|].
    pose proof (more_exec o w1) as Hg. destruct (exec o w1) as [r w2]. apply IH; auto.
    eapply HP; [exact Hg|]. eapply HP; eauto.
  Qed.
  (** What the manager knows of the jobs it has read. *)
  Definition J114 (l : list job) (w : world) : Prop :=
    forall j, In j l -> j_pid j <> None /\ (j_status j = Srd -> canc (j_id j)) /\ ran (j_id j) w.
  Lemma J114_more l a b : more a b -> J114 l a -> J114 l b.
  Proof. intros M H j Hj. destruct (H j Hj) as (H1 & H2 & H3). split; [exact H1|]. split; [exact H2|]. eapply ran_more; eauto. Qed.
  Lemma J114_tl j l w : J114 (j :: l) w -> J114 l w.
  Proof. intros H x Hx. apply H. now right. Qed.

  Lemma ok114_finish j s t l w : J114 (j :: l) w -> (s = Sce \/ (s = Scd /\ j_status j = Srd)) ->
    okq exec R G E (update_job_id (j_id j) [JStatus s; JPid None; JCompleted (Some t)]) (fun _ => J114 l) w.
  Proof.
    intros HJ Hs. unfold update_job_id. q_bind. apply okq_act. intros w1 [_ Hr].
    assert (H1 : J114 (j :: l) w1) by (eapply J114_more; eauto).
    destruct (H1 j (or_introl eq_refl)) as (P1 & P2 & P3).
    split.
    - split; [right; cbn; left; exists s, t; split; [destruct Hs as [->|[-> _]]; auto|reflexivity]|].
      split; [|split].
      + intros x [Ex|[Ex|[Ex|[]]]] B; try discriminate. injection Ex as <-.
        destruct Hs as [->|[-> Hs]]; [destruct B; discriminate|auto].
      + intros x _ _. exact P3.
      + intros p [Ex|[Ex|[Ex|[]]]] B; try discriminate. injection Ex as <-. congruence.
    - pose proof (more_exec (OJobUpdate (j_id j) [JStatus s; JPid None; JCompleted (Some t)]) w1) as M.
      destruct (exec _ w1) as [[x|e] w2]; [|exact I]. cbn [snd] in M.
      eapply okq_weaken; [|apply stable114 with (P := J114 l)].
      + auto. + intros a b. apply J114_more. + refine (all_ops_do _ _ _). left; exact I.
      + refine (all_ops_do _ _ _). exact I. + eapply J114_more; [exact M|]. apply J114_tl in H1. exact H1.
  Qed.
  Lemma calm_step {A} (p : pgm A) l w : all_ops (may KJobMgr) p -> all_ops calm114 p -> J114 l w ->
    okq exec R G E p (fun _ => J114 l) w.
  Proof. intros. apply stable114; auto. intros a b. apply J114_more. Qed.
  Lemma ok114_one j l w : J114 (j :: l) w -> okq exec R G E (manage_one tt j) (fun _ => J114 l) w.
  Proof.
    intros HJ. destruct (HJ j (or_introl eq_refl)) as (P1 & _). unfold manage_one.
    destruct (j_pid j) as [p|] eqn:Ep; [|congruence].
    q_bind. eapply okq_weaken; [|apply calm_step; [refine (all_ops_do _ _ _); left; exact I|refine (all_ops_do _ _ _); exact I|exact HJ]].
    intros e w1 H1. cbv beta. unfold reconcile. q_bind.
    eapply okq_weaken; [|apply calm_step; [ops; fin|ops; exact I|exact H1]].
    intros alive w2 H2. cbv beta. destruct (j_status j) eqn:Es; try (exact (J114_tl _ _ _ H2)).
    - destruct alive; [exact (J114_tl _ _ _ H2)|]. unfold finish_crashed. q_bind.
      eapply okq_weaken; [|apply calm_step; [ops; fin|ops; exact I|exact H2]].
      intros t w3 H3. cbv beta. q_bind. eapply okq_weaken; [|apply ok114_finish; [exact H3|auto]].
      intros x w4 H4. exact H4.
    - unfold finish_cancelled. q_bind.
      eapply okq_weaken; [|apply calm_step; [unfold merge_netcdfs; ops; fin|unfold merge_netcdfs; ops; exact I|exact H2]].
      intros u w3 H3. cbv beta. q_bind.
      eapply okq_weaken; [|apply calm_step; [ops; fin|ops; exact I|exact H3]].
      intros t w4 H4. cbv beta. q_bind. eapply okq_weaken; [|apply ok114_finish; [exact H4|auto]].
      intros x w5 H5. exact H5.
  Qed.
  Lemma ok114_pass w : okq exec R G E (no_reply job_pass) (fun _ _ => True) w.
  Proof.
    assert (S : forall {A} (p : pgm A) w1, all_ops (may KJobMgr) p -> all_ops calm114 p ->
      okq exec R G E p (fun _ _ => True) w1).
    { intros A p w1 H1 H2. apply stable114 with (P := fun _ => True); auto. }
    assert (C : forall id s, s = Sqw -> calm114 (OJobUpdate id [JStatus s])).
    { intros id s ->. split; [|intros p [X|[]]; discriminate].
      intros x [X|[]]. injection X as <-. split; [intros [X|X]|intros [X|[X|X]]]; discriminate. }
    unfold no_reply, job_pass. q_bind. q_bind. apply okq_act. intros w1 _. cbn [exec].
    split; [apply calm_ok; [left; exact I|exact I]|].
    destruct (w_daemon w1) as [d|]; [|exact I].
    q_bind. eapply okq_weaken with (Q := fun _ _ => True).
    - intros _ w2 _. cbv beta. q_bind. eapply okq_weaken; [|apply S].
      + intros m w3 _. cbv beta. eapply okq_weaken; [|apply S]; [intros; exact I|apply ops_action|].
        unfold action_queued, action_one, try_pip, launch, update_pip, update_job_id. ops; try exact I.
        cbn. split; [intros ? [X|[]]; discriminate|intros ? [X|[]]; discriminate].
      + eapply all_ops_weaken; [apply quiet_may|apply quiet_check].
      + unfold check_queued, check_one, update_job_id. ops; try exact I; [|apply C; reflexivity].
        eapply all_ops_weaken; [|apply reads_match]. intros o Ho. destruct o; try exact I; destruct Ho.
    - unfold manage_running. q_bind. apply okq_act. intros w2 [Hi _]. cbn [exec jobs_where].
      split; [apply calm_ok; [left; exact I|exact I]|].
      eapply okq_weaken; [|eapply okq_forP with (J := fun r _ w => J114 r w)].
      + intros; exact I.
      + intros j Hj. apply filter_In in Hj. destruct Hj as [Hj Hp]. destruct Hi as (_ & Hi & _).
        destruct (Hi j Hj) as [H1 H2].
        assert (P1 : j_pid j <> None) by (destruct (j_pid j); [discriminate|inversion Hp]).
        split; [exact P1|]. split; [intros X; apply H1; left; exact X|apply H2; left; exact P1].
      + intros j r [] w3 HJ. apply ok114_one. exact HJ.
  Qed.

  (** ** The job process *)
  Lemma ok114_own pid a {A} (p : pgm A) : forall w, was_started (ja_jobid a) w ->
    all_ops (may (KJob pid a)) p -> okp exec (fun _ _ => True) (fun o _ => own_row (KJob pid a) o) p w ->
    okp exec (rely I114 R114 (KJob pid a)) (G114 (KJob pid a)) p w.
  Proof.
    induction p as [x|e|o f IH]; intros w Hw; cbn; auto.
    intros [H1 K1] H2 w1 [_ Hr]. destruct (H2 w1 I) as [Ho Hn].
    assert (Hw1 : was_started (ja_jobid a) w1) by (apply Hr; exact Hw).
    split.
    - split; [exact H1|]. destruct o; try exact I. cbn in Ho. subst id.
      assert (Hran : ran (ja_jobid a) w1) by (right; exact Hw1).
      split; [|split; intros; exact Hran].
      intros s Hs B. destruct H1 as [[]|H1].
      destruct H1 as [(t & ->)|[(r & y & q & ->)|(y & t & Hy & ->)]]; cbn in Hs;
        repeat (destruct Hs as [Hs|Hs]; [try discriminate; injection Hs as <-|]); try contradiction;
        destruct B as [B|B]; try discriminate; try (destruct Hy; congruence).
    - pose proof (more_exec o w1) as M. destruct (exec o w1) as [r w2]. apply IH; auto.
  Qed.

  Lemma inv114 ls s s' : (forall l, In l ls -> In l LS) ->
    rg_inv I114 R114 G114 s -> runs ls s = Some s' -> rg_inv I114 R114 G114 s'.
  Proof.
    intros Hls Hi Hr. eapply rg_steps with (okl := fun l => In l LS) (R := R114); try exact Hr; try exact Hi.
    - intros k w i H. exact H.
    - intros k a b c H1 H2 i H. auto.
    - intros k o w. apply I114_exec.
    - intros k k' o w _ _ _. apply more_exec.
    - intros l s0 s1 _ Hn Hs (H1 & H2 & H3). destruct (step_env _ _ _ Hn Hs) as ((E1 & E2 & E3 & E4 & E5 & E6 & E7) & _ & _ & Esp).
      assert (S : starts (s_world s1) = starts (s_world s0)) by (unfold starts; rewrite E7; reflexivity).
      assert (K : more (s_world s0) (s_world s1)) by (intros i; unfold was_started; rewrite S; auto).
      split; [|intros; exact K]. split; [eapply wf_jobs_eq; eauto|]. split.
      + rewrite E1. intros j Hj. destruct (H2 j Hj) as [X Y]. split; [exact X|]. intros B. eapply ran_more; eauto.
      + intros a Ha. apply K. auto.
    - intros c w Hin _. apply ok114_cmd. exact Hin.
    - intros k p w Hp _. destruct k; try discriminate.
      + injection Hp as <-. eapply okq_okp. apply ok114_pass.
      + apply ok114_other; [exact I|apply ops_mgr; exact Hp].
      + apply ok114_other; [exact I|apply ops_mgr; exact Hp].
    - intros w _. apply ok114_other; [exact I|apply ops_quit].
    - intros w i pid a _ (_ & _ & Hs) Hn. apply ok114_own; [|apply ops_job|apply own_job].
      apply nth_error_In in Hn. exact (Hs a Hn).
    - intros n port pid ver ok w _ _. apply ok114_other; [exact I|apply ops_driver].
    - apply Forall_forall. exact Hls.
  Qed.
End Who.

Lemma C114_lemma w ls s : wf_queue w -> w_spawned w = [] -> runs ls (start_sys w) = Some s ->
  forall j, In j (w_jobs (s_world s)) ->
  (says_cancelled j -> before w (j_id j) says_cancelled \/ cancel_asked ls (j_id j)) /\
  (says_begun j -> before w (j_id j) says_begun \/ was_started (j_id j) (s_world s)).
Proof.
  intros Hw Hsp Hr.
  assert (Hi : rg_inv (I114 w ls) R114 (G114 w ls) (start_sys w)).
  { apply rg_start. split; [exact Hw|]. split.
    - intros j Hj. split; intros B; left; exists j; auto.
    - intros a Ha. cbn in Ha. rewrite Hsp in Ha. destruct Ha. }
  destruct (inv114 w ls ls _ _ ltac:(auto) Hi Hr) as ((_ & H & _) & _). exact H.
Qed.
