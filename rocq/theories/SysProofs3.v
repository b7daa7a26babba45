(** * SysProofs3: every job is started at most once (C29) *)
From Coq Require Import List String Ascii ZArith Bool Sorted Lia.
From Verif Require Import Base PyStr BaseFacts Types ConfigModel Prog ProgFacts World WorldFacts Replies
  CmdModel KetchupModel TomatoModel JobModel PipModel DrvModel SysModel RGFacts SysOps
  SpecQueue SpecSys SysProofs SysProofs2.
Import ListNotations.
Open Scope list_scope.
Open Scope Z_scope.

(** The log of started jobs only grows by [OSpawnJob]. *)
Lemma starts_log w w' : w_log w' = w_log w -> starts w' = starts w.
Proof. unfold starts. intros ->. reflexivity. Qed.
Lemma starts_other o w : (forall a, o <> OSpawnJob a) -> starts (snd (exec o w)) = starts w.
Proof. intros H. op_cases o; try reflexivity. elim (H a). reflexivity. Qed.
Lemma dirs_other o w : (forall d, o <> OMkdir d) -> w_dirs (snd (exec o w)) = w_dirs w.
Proof. intros H. op_cases o; try reflexivity. elim (H d). reflexivity. Qed.
Lemma daemon_other o w : (forall d, o <> ODmBind d) -> (forall s, o <> ODmSetStatus s) ->
  (forall s df, o <> ODmSetConfig s df) -> w_daemon (snd (exec o w)) = w_daemon w.
Proof.
  intros H1 H2 H3. op_cases o; try reflexivity.
  all: first [eelim H1; reflexivity | eelim H2; reflexivity | eelim H3; reflexivity].
Qed.
Lemma files_exec o w : w_files (snd (exec o w)) = w_files w.
Proof. op_cases o; reflexivity. Qed.

Section C29.
  Variable stg : string.

  Definition daemon_storage (w : world) : Prop :=
    forall d, w_daemon w = Some d -> st_storage (dm_settings d) = stg.
  Definition I29 (w : world) : Prop :=
    daemon_storage w /\ files_storage stg (w_files w) /\
    (forall a, In a (starts w) -> ja_dir a = (stg, ja_jobid a) /\ In (ja_dir a) (w_dirs w)) /\
    NoDup (map ja_jobid (starts w)).
  Definition R29 (k : kind) (w w' : world) : Prop :=
    match k with
    | KJobMgr => (forall d, In d (w_dirs w) -> In d (w_dirs w')) /\ starts w' = starts w
    | _ => True
    end.
  Definition fresh (dir : jobdir) (w : world) : Prop :=
    In dir (w_dirs w) /\ forall a, In a (starts w) -> ja_dir a <> dir.
  Definition G29 (k : kind) (o : op) (w : world) : Prop :=
    may k o /\
    match o with
    | ODmBind d => st_storage (dm_settings d) = stg
    | ODmSetConfig st _ => st_storage st = stg
    | OSpawnJob a => ja_dir a = (stg, ja_jobid a) /\ fresh (ja_dir a) w
    | _ => True
    end.

  Lemma I29_exec k o w : I29 w -> G29 k o w -> I29 (snd (exec o w)).
  Proof.
    intros (Hd & Hf & Ha & Hn) [_ Hg].
    assert (Hf' : files_storage stg (w_files (snd (exec o w)))) by (rewrite files_exec; exact Hf).
    assert (X : daemon_storage (snd (exec o w))).
    { destruct o; try (unfold daemon_storage; rewrite daemon_other by congruence; exact Hd);
        cbn; destruct (w_daemon w) as [d0|] eqn:Ew; cbn; intros d1 H1; try (apply Hd; congruence);
        inversion H1; subst; cbn; auto. }
    destruct o;
      try (split; [exact X|]; split; [exact Hf'|];
           rewrite starts_other by congruence; rewrite dirs_other by congruence; auto; fail).
    - (* OMkdir *)
      split; [exact X|]. split; [exact Hf'|]. cbn. destruct (has_dir (w_dirs w) d); cbn; auto.
      split; [|exact Hn]. intros a Hin. destruct (Ha a Hin) as [H1 H2]. split; cbn; auto.
    - (* OSpawnJob *)
      split; [exact X|]. split; [exact Hf'|]. cbn.
      destruct Hg as (H1 & H2 & H3). split.
      + intros a0 [<-|Hin]; auto.
      + constructor; [|exact Hn]. intros Hin. apply in_map_iff in Hin.
        destruct Hin as (a' & Hid & Hin). apply (H3 a' Hin). destruct (Ha a' Hin) as [E _]. congruence.
  Qed.

  Lemma others29 k k' o w : may k o -> mgr_eqb k k' = false -> R29 k' w (snd (exec o w)).
  Proof.
    intros Hm Hk. destruct k'; try exact I. cbn.
    destruct Hm as [Hm|Hm].
    - rewrite dirs_other, starts_other; [auto|intros; intros ->; contradiction|intros; intros ->; contradiction].
    - destruct k; try discriminate;
        (rewrite dirs_other, starts_other; [auto|intros; intros ->; contradiction|intros; intros ->; contradiction]).
  Qed.

  (** ** Commands that set the configuration *)
  Section Cmd.
    Let R := rely I29 R29 KCmd.
    Let G := G29 KCmd.
    Let E := fun _ : world => True.

    Lemma calm29 {A} (p : pgm A) (Q : A -> world -> Prop) w :
      all_ops calm p -> (forall a w', Q a w') -> okq exec R G E p Q w.
    Proof.
      intros Hp HQ. eapply okq_weaken; [intros; apply HQ|].
      eapply okq_all_ops with (J := fun _ => True) (P := calm); try (intros; exact I); [|exact Hp].
      intros o a _ Ho. split; [|exact I]. split; [apply calm_may; exact Ho|].
      destruct o; try exact I; destruct Ho as [[]|[]].
    Qed.

    Lemma ok29_read s port w :
      okq exec R G E (read_daemon s port)
        (fun x _ => forall d, x = Ok d -> st_storage (dm_settings d) = stg) w.
    Proof.
      unfold read_daemon. apply okq_bind. apply okq_act. intros w1 [H1 _].
      split; [split; [left; exact I|exact I]|]. cbn [exec].
      destruct (cf_settings (w_files w1)) as [st|] eqn:Ef.
      - apply okq_bind. apply okq_act. intros w2 _. split; [split; [left; exact I|exact I]|]. cbn [exec].
        cbn. intros d Hd. unfold load_daemon in Hd. cbn in Hd.
        destruct (cf_devices (w_files w2) (st_devcfg st)); [|discriminate].
        destruct (load_devicefile _); [|discriminate]. destruct (device_settings _ _); [|discriminate].
        inversion Hd. cbn. destruct H1 as (_ & Hf & _). apply Hf. exact Ef.
      - cbn. intros d Hd. discriminate.
    Qed.

    Lemma ok29_start port w : okq exec R G E (daemon_start port) (fun _ _ => True) w.
    Proof.
      unfold daemon_start. q_bind. eapply okq_weaken; [|apply ok29_read]. cbn. intros x w1 Hx.
      q_bind. apply okq_lift; [exact I|]. intros d Hd. specialize (Hx d Hd).
      unfold bootstrap. q_bind. q_bind. apply calm29.
      { apply all_ops_forP. intros u n. unfold boot_driver, insert_drv. repeat (ops_step; cbv beta); fin. }
      intros _ w2. q_bind. apply calm29.
      { apply all_ops_forP. intros u n. unfold boot_pipeline, insert_pip. repeat (ops_step; cbv beta); fin. }
      intros _ w3. cbn [okq]. intros w4 _. split; [split; [right; exact I|exact Hx]|].
      destruct (exec _ w4) as [[x'|e] w5]; exact I.
    Qed.

    Lemma ok29_reload port w : okq exec R G E (tomato_reload port) (fun _ _ => True) w.
    Proof.
      unfold tomato_reload. q_bind. apply calm29.
      { ops_step. fin. }
      intros [st|] w1; [|exact I]. unfold with_daemon. q_bind. apply calm29.
      { ops_step. fin. }
      intros [d0|] w2; [|exact I]. q_bind. apply calm29.
      { ops_step. fin. }
      intros [d|] w3; [|exact I]. q_bind. unfold cmd_reload. q_bind.
      eapply okq_weaken; [|apply ok29_read]. cbn beta. intros x w4 Hx.
      destruct x as [nd|e]; [|exact I]. specialize (Hx nd eq_refl).
      q_bind. apply calm29. { ops_step. fin. }
      intros rp w5. q_bind. apply okq_lift; [exact I|]. intros c _.
      destruct c as [r|]; [cbn; destruct (r_ok r); exact I|].
      q_bind. cbn [okq]. intros w6 _. split; [split; [right; exact I|exact Hx]|].
      destruct (exec _ w6) as [[x'|e] w7]; cbn; exact I.
    Qed.

    Lemma ok29_cmd c w : okp exec R G (cmd_pgm c) w.
    Proof.
      eapply okq_okp with (E := E) (Q := fun _ _ => True).
      destruct c; try (apply calm29; [apply calm_cmd; exact I|intros; exact I]); cbn [cmd_pgm];
        unfold no_reply, some_reply; q_bind; (eapply okq_weaken; [intros; exact I|]);
        [apply ok29_start|apply ok29_reload].
    Qed.
  End Cmd.

  (** ** The job manager *)
  Section Mgr.
    Let R := rely I29 R29 KJobMgr.
    Let G := G29 KJobMgr.
    Let E := fun _ : world => True.

    Definition plain29 (o : op) : Prop :=
      match o with ODmBind _ | ODmSetConfig _ _ | OSpawnJob _ => False | _ => True end.

    Lemma q29 (o : op) (Q : resp o -> world -> Prop) (J : world -> Prop) w :
      may KJobMgr o -> plain29 o ->
      (forall w, J w -> J (snd (exec o w))) ->
      (forall a b, J a -> R a b -> J b) ->
      (forall x w', J w' -> Q x w') -> J w -> okq exec R G E (act o) Q w.
    Proof.
      intros Hm Ho Hp Hr Hq Hj. apply okq_act. intros w1 H1.
      split; [split; [exact Hm|destruct o; try exact I; contradiction]|].
      assert (Hj2 : J (snd (exec o w1))) by (apply Hp; eapply Hr; eauto).
      destruct (exec o w1) as [[x|e] w2]; [|exact I]. apply Hq. exact Hj2.
    Qed.

    Lemma fresh_stable dir a b : fresh dir a -> R a b -> fresh dir b.
    Proof. intros [H1 H2] [_ [H3 H4]]. split; [auto|]. rewrite H4. exact H2. Qed.

    Lemma fresh_exec dir o w : plain29 o -> fresh dir w -> fresh dir (snd (exec o w)).
    Proof.
      intros Ho [H1 H2]. split.
      - assert (X : (exists d, o = OMkdir d) \/ forall d, o <> OMkdir d).
        { destruct o; try (right; congruence). left; eauto. }
        destruct X as [[d ->]|X]; [|rewrite dirs_other; auto].
        cbn. destruct (has_dir (w_dirs w) d); cbn; auto.
      - rewrite starts_other; [exact H2|]. intros a ->. contradiction.
    Qed.

    Lemma ok29_launch d j pn w : st_storage (dm_settings d) = stg ->
      okq exec R G E (launch d j pn) (fun _ _ => True) w.
    Proof.
      intros Hd. unfold launch, update_pip, update_job_id.
      set (J := fresh (job_dir d (j_id j))).
      assert (Jr : forall a b, J a -> R a b -> J b) by (intros; eapply fresh_stable; eauto).
      assert (Je : forall o, plain29 o -> forall w, J w -> J (snd (exec o w))).
      { intros o Ho w0. apply fresh_exec. exact Ho. }
      q_bind. apply okq_act. intros w1 [(H1 & H2 & H3 & H4) _].
      split; [split; [right; exact I|exact I]|]. cbn [exec].
      destruct (has_dir (w_dirs w1) (job_dir d (j_id j))) eqn:Ed; [exact I|].
      assert (J1 : J (set_dirs w1 (job_dir d (j_id j) :: w_dirs w1))).
      { split; [now left|]. intros a Hin Ea.
        assert (Hin' : In a (starts w1)) by exact Hin. destruct (H3 a Hin') as [_ H5].
        rewrite Ea in H5. assert (has_dir (w_dirs w1) (job_dir d (j_id j)) = true); [|congruence].
        unfold has_dir. apply existsb_exists. exists (job_dir d (j_id j)). split; [exact H5|].
        unfold jobdir_eqb. rewrite String.eqb_refl, Z.eqb_refl. reflexivity. }
      revert J1. generalize (set_dirs w1 (job_dir d (j_id j) :: w_dirs w1)). intros w2 J2.
      q_bind. apply okq_lift; [exact I|]. intros pp _.
      q_bind. apply q29 with (J := J); [right; exact I|exact I|apply Je; exact I|exact Jr| |exact J2]. intros _ w3 J3.
      q_bind. q_bind. apply q29 with (J := J);
        [right; cbn; eauto|exact I|apply Je; exact I|exact Jr| |exact J3]. intros _ w4 J4.
      apply q29 with (J := J); [left; exact I|exact I|apply Je; exact I|exact Jr| |exact J4]. intros _ w5 J5.
      q_bind. apply okq_act. intros w6 H6. assert (J6 : J w6) by (eapply Jr; eauto).
      split.
      { split; [right; exact I|]. cbn. unfold job_dir. rewrite Hd. split; [reflexivity|].
        unfold J, job_dir in J6. rewrite Hd in J6. exact J6. }
      cbn [exec]. q_bind. apply q29 with (J := fun _ => True); auto; [left; exact I|exact I|]. intros t w7 _.
      q_bind. q_bind. apply q29 with (J := fun _ => True); auto; [right; cbn; eauto|exact I|]. intros _ w8 _.
      apply q29 with (J := fun _ => True); auto; [left; exact I|exact I].
    Qed.

    Lemma ok29_pass w : okq exec R G E job_pass (fun _ _ => True) w.
    Proof.
      unfold job_pass. q_bind. apply okq_act. intros w1 [(H1 & _) _].
      split; [split; [left; exact I|exact I]|]. cbn [exec].
      destruct (w_daemon w1) as [d|] eqn:Ed; [|exact I]. specialize (H1 d Ed).
      assert (Q : forall {A} (p : pgm A) (Q' : A -> world -> Prop) w, all_ops quiet p ->
        (forall a w', Q' a w') -> okq exec R G E p Q' w).
      { intros A p Q' w0 Hp HQ. eapply okq_weaken; [intros; apply HQ|].
        eapply okq_all_ops with (J := fun _ => True) (P := quiet); try (intros; exact I); [|exact Hp].
        intros o a _ Ho. split; [|exact I]. split; [apply quiet_may; exact Ho|].
        destruct o; try exact I; contradiction. }
      q_bind. apply Q; [apply quiet_manage|]. intros _ w2.
      q_bind. apply Q; [apply quiet_check|]. intros m w3.
      unfold action_queued. q_bind. apply q29 with (J := fun _ => True); auto; [left; exact I|exact I|].
      intros l w4 _. q_bind.
      eapply okq_weaken; [intros; exact I|].
      eapply okq_forP with (J := fun _ _ _ => True); [exact I|].
      intros [id pl] r avail w5 _. unfold action_one. cbn [fst snd].
      q_bind. apply q29 with (J := fun _ => True); auto; [left; exact I|exact I|].
      intros j w6 _. q_bind.
      eapply okq_weaken; [|eapply okq_forB with (J := fun _ _ _ => True) (K := fun _ _ => True)];
        [intros [a|a] w' H; exact I|exact I|].
      intros pn r' a w7 _. unfold try_pip. destruct (dget a pn) as [ps|]; [|exact I].
      destruct (p_ready ps && _)%bool; [|exact I]. q_bind.
      eapply okq_weaken; [|apply ok29_launch; exact H1]. intros u w' _. exact I.
    Qed.
  End Mgr.

  Lemma inv29 ls s s' : Forall (keeps_storage stg) ls ->
    rg_inv I29 R29 G29 s -> runs ls s = Some s' -> rg_inv I29 R29 G29 s'.
  Proof.
    assert (Hst : forall k (p : pgm (option reply)) w, all_ops (may k) p ->
      mgr_eqb k KJobMgr = false -> k <> KCmd -> okp exec (rely I29 R29 k) (G29 k) p w).
    { intros k p w Hp Hk Hc. eapply all_ops_okp; [|exact Hp]. intros w0 w1 o _ Ho. split; [exact Ho|].
      destruct o; try exact I; destruct Ho as [[]|Ho]; destruct k; try contradiction; try congruence; discriminate. }
    intros Hl Hi Hr. eapply rg_steps with (okl := keeps_storage stg) (R := R29); try exact Hr; try exact Hi.
    - intros k w; destruct k; try exact I. cbn. auto.
    - intros k x y z; destruct k; try (intros; exact I). intros [H1 H2] [H3 H4]. split; [auto|congruence].
    - intros k o w Hw Hg. eapply I29_exec; eauto.
    - intros k k' o w _ [Hm _] Hk. eapply others29; eauto.
    - intros l s0 s1 Hl0 Hn Hs (H1 & H2 & H3 & H4).
      destruct (step_env _ _ _ Hn Hs) as (He & Hd & Hf & _).
      destruct He as (_ & _ & _ & _ & E1 & _ & E2). split.
      + split; [|split].
        * intros d Hd'. destruct Hd as [E|E]; [apply H1; congruence|congruence].
        * destruct l; try (rewrite Hf by congruence; exact H2).
          cbn in Hs. injection Hs as <-. exact Hl0.
        * rewrite (starts_log _ _ E2), E1. auto.
      + intros k; destruct k; try exact I. cbn. rewrite E1, (starts_log _ _ E2). auto.
    - intros c w _ _. apply ok29_cmd.
    - intros k p w Hp _. destruct (mgr_eqb k KJobMgr) eqn:Ek.
      + destruct k; try discriminate. injection Hp as <-. eapply okq_okp with (E := fun _ => True) (Q := fun _ _ => True).
        unfold no_reply. q_bind. eapply okq_weaken; [|apply ok29_pass]. intros; exact I.
      + apply Hst; [apply ops_mgr; exact Hp|exact Ek|]. intros ->. discriminate.
    - intros w _. apply Hst; [apply ops_quit|reflexivity|congruence].
    - intros w i pid a _ _ _. apply Hst; [apply ops_job|reflexivity|congruence].
    - intros n port pid ver ok w _ _. apply Hst; [apply ops_driver|reflexivity|congruence].
    - exact Hl.
  Qed.

  Lemma C29_lemma w ls s :
    w_log w = [] -> files_storage stg (w_files w) -> Forall (keeps_storage stg) ls ->
    runs ls (start_sys w) = Some s -> NoDup (map ja_jobid (starts (s_world s))).
  Proof.
    intros Hl Hf Hk Hr.
    assert (B : rg_inv I29 R29 G29 s); [|apply B].
    eapply inv29; [exact Hk| |exact Hr]. apply rg_start.
    assert (E : starts (set_daemon w None) = []) by (unfold starts; cbn; rewrite Hl; reflexivity).
    split; [intros d Hd; discriminate|]. split; [exact Hf|]. rewrite E. split; [intros a []|constructor].
  Qed.
End C29.
