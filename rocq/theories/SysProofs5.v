(** * SysProofs5: jobs that have come to an end (C32, C33) *)
From Coq Require Import List String Ascii ZArith Bool Sorted Lia.
From Verif Require Import Base PyStr BaseFacts Types ConfigModel Prog ProgFacts World WorldFacts Replies
  CmdModel KetchupModel TomatoModel JobModel PipModel DrvModel SysModel RGFacts SysOps
  SpecQueue SpecSys SysProofs SysProofs2 SysProofs3.
Import ListNotations.
Open Scope list_scope.
Open Scope Z_scope.

Section Settled.
  Context (i : Z) (st : jstatus) (Hst : finished st) (L : list jobargs).

  Definition IS (w : world) : Prop :=
    wf_queue w /\ i <= w_seq w /\
    (forall j, In j (w_jobs w) -> j_id j = i -> j_status j = st) /\
    (forall a, In a (w_spawned w) -> ja_jobid a <> i) /\
    starts_of i w = L.
  Definition status_col (c : jcol) : Prop := match c with JStatus _ => True | _ => False end.
  Definition hands_off (o : op) : Prop :=
    match o with
    | OJobUpdate x cs => x = i -> forall c, In c cs -> ~ status_col c
    | OSpawnJob a => ja_jobid a <> i
    | _ => True
    end.
  Definition GS (k : kind) (o : op) (w : world) : Prop := hands_off o.

  Lemma status_keep cs : forall j, (forall c, In c cs -> ~ status_col c) -> j_status (set_jcols cs j) = j_status j.
  Proof.
    unfold set_jcols. induction cs as [|c cs IH]; intros j H; cbn; auto.
    rewrite IH by (intros; apply H; now right).
    assert (~ status_col c) by (apply H; now left). destruct c; cbn in *; tauto.
  Qed.

  Lemma IS_exec o w : IS w -> hands_off o -> IS (snd (exec o w)).
  Proof.
    intros (Hw & Hi & Hj & Hs & Hl) Ho. split; [apply wf_exec; exact Hw|].
    assert (X : forall w', w_jobs w' = w_jobs w -> w_seq w' = w_seq w -> w_spawned w' = w_spawned w ->
      starts w' = starts w ->
      i <= w_seq w' /\ (forall j, In j (w_jobs w') -> j_id j = i -> j_status j = st) /\
      (forall a, In a (w_spawned w') -> ja_jobid a <> i) /\ starts_of i w' = L).
    { intros w' E1 E2 E3 E4. unfold starts_of. rewrite E1, E2, E3, E4. auto. }
    op_cases o; try (apply X; reflexivity).
    - cbn -[Z.add]. split; [lia|]. split; [|split; auto]. intros j0 Hin Hid. apply in_app_iff in Hin.
      destruct Hin as [Hin|[<-|[]]]; [auto|]. cbn in Hid. lia.
    - cbn. split; [exact Hi|]. split; [|split; auto]. intros j0 Hin Hid. unfold upd_jobs in Hin.
      apply in_map_iff in Hin. destruct Hin as (j1 & <- & Hin).
      destruct (Z.eqb_spec (j_id j1) id) as [E|E]; [|auto].
      rewrite set_jcols_id in Hid. rewrite status_keep; [auto|]. apply Ho. congruence.
    - cbn. split; [exact Hi|]. split; [exact Hj|]. split.
      + intros a0 Hin. apply in_app_iff in Hin. destruct Hin as [Hin|[<-|[]]]; [auto|exact Ho].
      + unfold starts_of. cbn. destruct (Z.eqb_spec (ja_jobid a) i) as [E|E]; [contradiction|exact Hl].
  Qed.

  Section Prog.
    Context (k : kind).
    Let R := rely IS any k.
    Let G := GS k.
    Let E := fun _ : world => True.

    Lemma okS_all {A} (p : pgm A) (Q : A -> world -> Prop) w :
      all_ops hands_off p -> (forall a w', Q a w') -> okq exec R G E p Q w.
    Proof.
      intros Hp HQ. eapply okq_weaken; [intros; apply HQ|].
      eapply okq_all_ops with (J := fun _ => True) (P := hands_off); try (intros; exact I); [|exact Hp].
      intros o a _ Ho. split; [exact Ho|exact I].
    Qed.
    Lemma okS_jobs c (Q : list job -> world -> Prop) w :
      (forall l w', (forall j, In j l -> j_id j = i -> j_status j = st) ->
         (forall l', w_jobs w' = l' -> jobs_where c l' = Ok l) -> Q l w') ->
      okq exec R G E (act (OJobsWhere c)) Q w.
    Proof.
      intros H. apply okq_act. intros w1 [(_ & _ & Hj & _) _]. split; [exact I|]. cbn [exec].
      destruct (jobs_where c (w_jobs w1)) as [l|e] eqn:Ew; [|exact I]. apply H; [|congruence].
      intros j Hin. apply Hj. clear - Ew Hin. destruct c; cbn in Ew; try (inversion Ew; subst; apply filter_In in Hin; apply Hin).
      - inversion Ew. subst. exact Hin.
      - destruct (sql_lit t); inversion Ew. subst. apply filter_In in Hin; apply Hin.
    Qed.
  End Prog.

  Ltac ops := repeat (ops_step; cbv beta zeta).
  Lemma off_update x cs : (x = i -> forall c, In c cs -> ~ status_col c) ->
    all_ops hands_off (update_job_id x cs).
  Proof. intros H. unfold update_job_id. ops; [exact H|exact I]. Qed.

  Lemma off_manage j : (j_id j = i -> j_status j = st) -> j_pid j <> None -> all_ops hands_off (manage_one tt j).
  Proof.
    intros Hj Hp. destruct (j_pid j) as [p|] eqn:Ep; [|congruence]. unfold manage_one. rewrite Ep.
    ops; [exact I|]. unfold reconcile. rewrite Ep.
    assert (H : j_id j = i \/ j_id j <> i) by lia. destruct H as [H|H].
    - rewrite (Hj H). destruct Hst as [->|[->| ->]]; ops; exact I.
    - unfold finish_cancelled, finish_crashed, merge_netcdfs. rewrite Ep.
      ops; try exact I; try (apply off_update; congruence).
  Qed.
  Lemma off_check d m j : j_id j <> i -> all_ops hands_off (check_one d m j).
  Proof.
    intros H. unfold check_one. ops; try (apply off_update; congruence).
    eapply all_ops_weaken; [|apply reads_match]. intros o. destruct o; cbn; auto; contradiction.
  Qed.
  Lemma off_launch d j pn : j_id j <> i -> all_ops hands_off (launch d j pn).
  Proof. intros H. unfold launch, update_pip. ops; try exact I; [exact H|apply off_update; congruence]. Qed.

  Lemma insert_sorted_in x l y : In y (insert_sorted x l) -> y = x \/ In y l.
  Proof.
    induction l as [|z l IH]; cbn; [intros [->|[]]; auto|].
    destruct (Z.leb (fst x) (fst z)); cbn; intros [->|H]; auto. destruct (IH H); auto.
  Qed.
  Lemma sort_jobs_in l y : In y (sort_jobs l) -> In y l.
  Proof.
    induction l as [|x l IH]; cbn; [auto|]. intros H. apply insert_sorted_in in H. destruct H as [->|H]; auto.
  Qed.

  Lemma okS_pass w : okq exec (rely IS any KJobMgr) (GS KJobMgr) (fun _ => True) job_pass (fun _ _ => True) w.
  Proof.
    unfold job_pass. q_bind. apply okS_all; [ops; exact I|]. intros [d|] w1; [|exact I].
    q_bind. unfold manage_running. q_bind. apply okS_jobs. intros l w2 Hl Hp.
    specialize (Hp _ eq_refl). cbn in Hp. injection Hp as Hp.
    assert (Hpid : forall j, In j l -> j_pid j <> None).
    { intros j Hin. rewrite <- Hp in Hin. apply filter_In in Hin. destruct Hin as [_ Hb].
      destruct (j_pid j); [congruence|discriminate]. }
    clear Hp. eapply okq_weaken; [|apply okS_all with (Q := fun _ _ => True); [|intros; exact I]].
    2:{ clear - Hl Hpid Hst. induction l as [|j l IH]; [exact I|]. cbn [forP].
        apply all_ops_bind; [apply off_manage; [apply Hl; now left|apply Hpid; now left]|].
        intros []. apply IH; [intros; apply Hl; auto; now right|intros; apply Hpid; now right]. }
    intros _ w3 _. q_bind. unfold check_queued. q_bind. apply okS_jobs. intros q w4 Hq Hw.
    specialize (Hw _ eq_refl). cbn in Hw. injection Hw as Hw.
    assert (Hid : forall j, In j q -> j_id j <> i).
    { intros j Hin Hji. specialize (Hq j Hin Hji). rewrite <- Hw in Hin. apply filter_In in Hin.
      destruct Hin as [_ Hb]. rewrite Hq in Hb. destruct Hst as [E|[E|E]]; rewrite E in Hb; discriminate. }
    clear Hw Hq.
    eapply okq_weaken; [|eapply okq_forP with
      (J := fun r m _ => (forall j, In j r -> j_id j <> i) /\ forall e, In e m -> fst e <> i)].
    2:{ split; [exact Hid|intros e []]. }
    2:{ intros j r m w5 [H1 H2]. assert (Hji : j_id j <> i) by (apply H1; now left).
        unfold check_one. q_bind. apply okS_all.
        { eapply all_ops_weaken; [|apply reads_match]. intros o. destruct o; cbn; auto; contradiction. }
        intros pips w6. q_bind. apply okS_all.
        { ops; try exact I; apply off_update; congruence. }
        intros [] w7. split; [intros; apply H1; now right|].
        intros e He. apply in_app_iff in He. destruct He as [He|[<-|[]]]; auto. }
    cbn beta. intros m w5 [_ Hm]. unfold action_queued. q_bind. apply okS_all; [ops; exact I|].
    intros free w6. q_bind. eapply okq_weaken; [|eapply okq_forP with
      (J := fun r _ _ => forall e, In e r -> fst e <> i)].
    - intros; exact I.
    - intros e He. apply Hm. apply sort_jobs_in. exact He.
    - intros e r a w7 H. unfold action_one. q_bind. apply okq_act. intros w8 _. split; [exact I|]. cbn [exec].
      destruct (get_job (w_jobs w8) (fst e)) as [j|] eqn:Eg; [|exact I].
      apply get_job_In in Eg. destruct Eg as [_ Eg].
      assert (Hji : j_id j <> i) by (rewrite Eg; apply H; now left).
      apply okS_all.
      + ops. unfold try_pip. ops. apply off_launch; exact Hji.
      + intros a0 w' e' He'. apply H. now right.
  Qed.

  (** Cancelling. *)
  Lemma okS_cancel ids d w : (last ids 0 = i -> forall x, In x ids -> x = i) ->
    okq exec (rely IS any KCmd) (GS KCmd) (fun _ => True) (cancel ids d) (fun _ _ => True) w.
  Proof.
    intros Hc. unfold cancel. q_bind. apply okS_jobs. intros l w1 Hl Hw.
    specialize (Hw _ eq_refl). cbn in Hw. injection Hw as Hw.
    destruct (find _ ids); [exact I|]. apply okS_all; [|intros; exact I].
    apply all_ops_bind; [|intros; ops; exact I].
    assert (X : last ids 0 <> i \/ (forall j, In j l -> j_status j = st)).
    { assert (H : last ids 0 = i \/ last ids 0 <> i) by lia. destruct H as [H|H]; [right|left; exact H].
      intros j Hin. apply Hl; [exact Hin|]. apply (Hc H). rewrite <- Hw in Hin. apply filter_In in Hin.
      apply memZ_In. apply Hin. }
    clear Hl Hw Hc w1.
    assert (Y : forall s, all_ops hands_off (forP (cancel_one (last ids 0)) s l)); [|apply Y].
    induction l as [|j l IH]; intros s; [exact I|]. cbn [forP]. apply all_ops_bind.
    - destruct X as [X|X].
      + unfold cancel_one. ops; apply off_update; congruence.
      + unfold cancel_one. rewrite (X j (or_introl eq_refl)). destruct Hst as [->|[->| ->]]; ops; exact I.
    - intros s'. apply IH. destruct X as [X|X]; [left; exact X|right; intros; apply X; now right].
  Qed.

  Lemma okS_cmd c w : cancels_only i (LCmd c) ->
    okq exec (rely IS any KCmd) (GS KCmd) (fun _ => True) (cmd_pgm c) (fun _ _ => True) w.
  Proof.
    intros Hc.
    assert (H : (exists port ids, c = CmdCancel port ids) \/ forall port ids, c <> CmdCancel port ids).
    { destruct c; try (right; congruence). left; eauto. }
    destruct H as [(port & ids & ->)|H].
    - cbn [cmd_pgm]. unfold some_reply. q_bind. unfold ketchup_cancel, with_daemon. q_bind.
      apply okS_all; [ops; exact I|]. intros [d|] w1; [|exact I].
      eapply okq_weaken; [|apply okS_cancel; exact Hc]. intros; exact I.
    - apply okS_all; [|intros; exact I].
      destruct c; try (elim (H port ids); reflexivity); cbn [cmd_pgm]; unfold some_reply, no_reply; clear Hc H;
      unfold daemon_start, bootstrap, boot_driver, boot_pipeline, insert_drv, insert_pip,
        tomato_stop, tomato_reload, cmd_stop, cmd_reload, ketchup_submit, submit, insert_job,
        ketchup_status, jobs_status, ketchup_search, search, ketchup_snapshot, snapshot, snapshot_one,
        merge_netcdfs, pipeline_load, pipeline_eject, pipeline_ready, update_pip, with_daemon, update_job_id, read_daemon;
      repeat (ops_step; cbv beta zeta); exact I.
  Qed.

  (** A process of another job. *)
  Lemma basic_hands_off pid a o w : ja_jobid a <> i -> basic (KJob pid a) o w -> hands_off o.
  Proof.
    intros Ha [Hm Ho]. destruct o; try exact I.
    - cbn in Ho. intros ->. congruence.
    - destruct Hm as [[]|[]].
  Qed.

  Lemma rgS_steps ls s s' : Forall (cancels_only i) ls ->
    rg_inv IS any GS s -> runs ls s = Some s' -> rg_inv IS any GS s'.
  Proof.
    assert (Hall : forall k (p : pgm (option reply)) w, all_ops hands_off p ->
      okp exec (rely IS any k) (GS k) p w).
    { intros k p w Hp. eapply all_ops_okp; [|exact Hp]. intros w0 w1 o _ Ho. exact Ho. }
    assert (Hm : forall k (p : pgm (option reply)) w, all_ops (may k) p ->
      match k with KPipMgr | KDrvMgr | KDriver _ => True | _ => False end -> okp exec (rely IS any k) (GS k) p w).
    { intros k p w Hp Hk. apply Hall. eapply all_ops_weaken; [|exact Hp]. intros o Ho.
      destruct o; try exact I; destruct Ho as [[]|Ho]; destruct k; contradiction. }
    intros Hl Hi Hr. eapply rg_steps with (okl := cancels_only i) (R := any); try exact Hr; try exact Hi.
    - intros; exact I.
    - intros; exact I.
    - intros k o w Hw Hg. apply IS_exec; auto.
    - intros; exact I.
    - intros l s0 s1 _ Hn Hs (Hw & Hs0 & Hj & Ha & HL). split; [|intros; exact I].
      destruct (step_env _ _ _ Hn Hs) as ((E1 & E2 & _ & _ & _ & _ & E7) & _ & _ & Hsp).
      split; [eapply wf_jobs_eq; eauto|]. split; [rewrite E2; exact Hs0|].
      split; [rewrite E1; exact Hj|]. split; [auto|]. unfold starts_of. rewrite (starts_log _ _ E7). exact HL.
    - intros c w Hc _. eapply okq_okp. apply okS_cmd. exact Hc.
    - intros k p w Hp _. destruct k; try discriminate.
      + injection Hp as <-. eapply okq_okp with (E := fun _ => True) (Q := fun _ _ => True).
        unfold no_reply. q_bind. eapply okq_weaken; [|apply okS_pass]. intros; exact I.
      + apply Hm; [apply ops_mgr; exact Hp|exact I].
      + apply Hm; [apply ops_mgr; exact Hp|exact I].
    - intros w _. apply Hm; [apply ops_quit|exact I].
    - intros w n pid a _ (_ & _ & _ & Hsp & _) Hn.
      assert (Ha : ja_jobid a <> i) by (apply Hsp; eapply nth_error_In; eauto).
      eapply okp_mono; [| |eapply okp_and_static; [apply (ops_job pid a)|apply (own_job pid a)]].
      + intros; exact I.
      + intros o x y _ Ho. exact (basic_hands_off pid a o x Ha Ho).
    - intros n port pid ver ok w _ _. apply Hm; [apply ops_driver|exact I].
    - exact Hl.
  Qed.
End Settled.

Lemma starts_of_env i w w' : w_log w' = w_log w -> starts_of i w' = starts_of i w.
Proof. intros E. unfold starts_of. rewrite (starts_log _ _ E). reflexivity. Qed.

Lemma settled_lemma w0 ls0 s i st ls s' :
  wf_queue w0 -> runs ls0 (start_sys w0) = Some s ->
  finished st -> (exists j, In j (w_jobs (s_world s)) /\ j_id j = i /\ j_status j = st) ->
  left_alone i s -> no_process i s -> Forall (cancels_only i) ls -> runs ls s = Some s' ->
  (forall j', In j' (w_jobs (s_world s')) -> j_id j' = i -> j_status j' = st) /\
  starts_of i (s_world s') = starts_of i (s_world s).
Proof.
  intros Hw H0 Hst (j & Hj & Hid & Hs) [Hrest Hcmd] [Hsp Hth] Hl Hr.
  assert (B : rg_inv wf_queue any basic s) by (eapply basic_inv; [apply basic_init; exact Hw|exact H0]).
  assert (X : rg_inv (IS i st (starts_of i (s_world s))) any (GS i) s').
  { eapply rgS_steps; [exact Hst|exact Hl| |exact Hr].
    destruct B as (Bw & Bu & Bt). split; [|split; [exact Bu|]].
    - split; [exact Bw|]. split.
      { destruct Bw as (_ & Hf & _). rewrite Forall_forall in Hf. specialize (Hf j Hj). lia. }
      split; [|split; [exact Hsp|reflexivity]].
      intros j' Hj' Hid'. rewrite <- Hs. f_equal.
      eapply same_id_same_job; [apply NoDup_SS; apply Bw|exact Hj'|exact Hj|congruence].
    - assert (Hquiet : forall t, In t (s_threads s) ->
        match t_kind t with KPipMgr | KDrvMgr | KDriver _ => True | _ => False end ->
        okp exec (rely (IS i st (starts_of i (s_world s))) any (t_kind t)) (GS i (t_kind t)) (t_pgm t) (s_world s)).
      { intros t Hin Hk. eapply okp_mono; [| |exact (Bt t Hin)].
        - intros x y [(Hx & _) _]. split; [exact Hx|exact I].
        - intros o x y _ [Ho _]. destruct o; try exact I; destruct Ho as [[]|Ho];
            destruct (t_kind t); contradiction. }
      intros t Hin. specialize (Hquiet t Hin).
      destruct (t_kind t) as [| | | |pid a|n] eqn:Ek; try (apply Hquiet; exact I).
      + specialize (Bt t Hin). rewrite Ek in Bt.
        eapply okp_mono; [| |eapply okp_and_static; [exact (Hcmd t Hin Ek)|exact Bt]].
        * intros x y [(Hx & _) _]. split; [exact Hx|exact I].
        * intros o x y _ [Ho [Hm _]]. destruct o; try exact I; [intros E; contradiction|].
          destruct Hm as [[]|[]].
      + specialize (Hrest t Hin Ek). unfold active in Hrest. destruct (t_pgm t); try exact I. discriminate.
      + specialize (Bt t Hin). rewrite Ek in Bt.
        assert (Hd : ja_jobid a = i \/ ja_jobid a <> i) by lia. destruct Hd as [Hd|Hd].
        * specialize (Hth t pid a Hin Ek Hd). unfold ended in Hth.
          destruct (t_pgm t); try exact I. discriminate.
        * eapply okp_mono; [| |exact Bt].
          -- intros x y [(Hx & _) _]. split; [exact Hx|exact I].
          -- intros o x y _ Ho. eapply basic_hands_off; eauto. }
  destruct X as ((_ & _ & X1 & _ & X2) & _). auto.
Qed.

Lemma C33_from_settled w0 ls0 s i st ls s' : wf_queue w0 -> runs ls0 (start_sys w0) = Some s -> finished st ->
  (exists j, In j (w_jobs (s_world s)) /\ j_id j = i /\ j_status j = st) ->
  left_alone i s -> no_process i s -> Forall (cancels_only i) ls -> runs ls s = Some s' ->
  forall j, In j (w_jobs (s_world s')) -> j_id j = i -> j_status j = st.
Proof. intros H1 H2 H3 H4 H5 H6 H7 H8. exact (proj1 (settled_lemma w0 ls0 s i st ls s' H1 H2 H3 H4 H5 H6 H7 H8)). Qed.
Lemma C32_from_settled w0 ls0 s i ls s' : wf_queue w0 -> runs ls0 (start_sys w0) = Some s ->
  (exists j, In j (w_jobs (s_world s)) /\ j_id j = i /\ j_status j = Scd) ->
  left_alone i s -> no_process i s -> Forall (cancels_only i) ls -> runs ls s = Some s' ->
  starts_of i (s_world s') = starts_of i (s_world s) /\
  forall j, In j (w_jobs (s_world s')) -> j_id j = i -> j_status j = Scd.
Proof.
  intros H1 H2 H4 H5 H6 H7 H8.
  destruct (settled_lemma w0 ls0 s i Scd ls s' H1 H2 (or_intror (or_introl eq_refl)) H4 H5 H6 H7 H8). auto.
Qed.
