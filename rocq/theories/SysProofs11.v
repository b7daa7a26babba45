(** * SysProofs11: completed jobs are not reported as crashed (C78) *)
From Coq Require Import List String Ascii ZArith Bool Sorted Lia.
From Verif Require Import Base PyStr BaseFacts Types ConfigModel Prog ProgFacts World WorldFacts Replies
  CmdModel KetchupModel TomatoModel JobModel PipModel DrvModel SysModel RGFacts SysOps
  SpecQueue SpecSys SpecSys2 SysProofs SysProofs2 SysProofs3 SysProofs5.
Import ListNotations.
Open Scope list_scope.
Open Scope Z_scope.

Section Past.
  Context (i : Z).

  Definition IP (w : world) : Prop :=
    wf_queue w /\ i <= w_seq w /\
    (forall j, In j (w_jobs w) -> j_id j = i -> past (j_status j)) /\
    (forall a, In a (w_spawned w) -> ja_jobid a <> i).
  Definition gentle_col (c : jcol) : Prop := match c with JStatus s => past s | _ => True end.
  Definition gentle (o : op) : Prop :=
    match o with
    | OJobUpdate x cs => x = i -> forall c, In c cs -> gentle_col c
    | OSpawnJob a => ja_jobid a <> i
    | _ => True
    end.
  Definition GP (k : kind) (o : op) (w : world) : Prop := gentle o.

  Lemma past_keep cs : forall j, (forall c, In c cs -> gentle_col c) -> past (j_status j) -> past (j_status (set_jcols cs j)).
  Proof.
    unfold set_jcols. induction cs as [|c cs IH]; intros j H Hj; cbn; auto.
    apply IH; [intros; apply H; now right|].
    assert (X : gentle_col c) by (apply H; now left). destruct c; cbn in *; auto.
  Qed.

  Lemma IP_exec o w : IP w -> gentle o -> IP (snd (exec o w)).
  Proof.
    intros (Hw & Hi & Hj & Hs) Ho. split; [apply wf_exec; exact Hw|].
    assert (X : forall w', w_jobs w' = w_jobs w -> w_seq w' = w_seq w -> w_spawned w' = w_spawned w ->
      i <= w_seq w' /\ (forall j, In j (w_jobs w') -> j_id j = i -> past (j_status j)) /\
      (forall a, In a (w_spawned w') -> ja_jobid a <> i)).
    { intros w' E1 E2 E3. rewrite E1, E2, E3. auto. }
    op_cases o; try (apply X; reflexivity).
    - cbn -[Z.add]. split; [lia|]. split; [|auto]. intros j0 Hin Hid. apply in_app_iff in Hin.
      destruct Hin as [Hin|[<-|[]]]; [auto|]. cbn in Hid. lia.
    - cbn. split; [exact Hi|]. split; [|auto]. intros j0 Hin Hid. unfold upd_jobs in Hin.
      apply in_map_iff in Hin. destruct Hin as (j1 & <- & Hin).
      destruct (Z.eqb_spec (j_id j1) id) as [E|E]; [|auto].
      rewrite set_jcols_id in Hid. apply past_keep; [|auto]. apply Ho. congruence.
    - cbn. split; [exact Hi|]. split; [exact Hj|].
      intros a0 Hin. apply in_app_iff in Hin. destruct Hin as [Hin|[<-|[]]]; [auto|exact Ho].
  Qed.

  Section Prog.
    Context (k : kind).
    Let R := rely IP any k.
    Let G := GP k.
    Let E := fun _ : world => True.

    Lemma okP_all {A} (p : pgm A) (Q : A -> world -> Prop) w :
      all_ops gentle p -> (forall a w', Q a w') -> okq exec R G E p Q w.
    Proof.
      intros Hp HQ. eapply okq_weaken; [intros; apply HQ|].
      eapply okq_all_ops with (J := fun _ => True) (P := gentle); try (intros; exact I); [|exact Hp].
      intros o a _ Ho. split; [exact Ho|exact I].
    Qed.
    Lemma okP_jobs c (Q : list job -> world -> Prop) w :
      (forall l w', (forall j, In j l -> j_id j = i -> past (j_status j)) ->
         (forall l', w_jobs w' = l' -> jobs_where c l' = Ok l) -> Q l w') ->
      okq exec R G E (act (OJobsWhere c)) Q w.
    Proof.
      intros H. apply okq_act. intros w1 [(_ & _ & Hj & _) _]. split; [exact I|]. cbn [exec].
      destruct (jobs_where c (w_jobs w1)) as [l|e] eqn:Ew; [|exact I]. apply H; [|congruence].
      intros j Hin. apply Hj. clear - Ew Hin. destruct c; cbn in Ew; try (inversion Ew; subst; apply filter_In in Hin; apply Hin).
      - inversion Ew. subst. exact Hin.
      - destruct (sql_lit t); inversion Ew. subst. apply filter_In in Hin; apply Hin.
    Qed.
  End Prog.

  Ltac ops := repeat (ops_step; cbv beta zeta).
  Lemma gentle_update x cs : (x = i -> forall c, In c cs -> gentle_col c) -> all_ops gentle (update_job_id x cs).
  Proof. intros H. unfold update_job_id. ops; [exact H|exact I]. Qed.

  Lemma gentle_manage j : (j_id j = i -> past (j_status j)) -> j_pid j <> None -> all_ops gentle (manage_one tt j).
  Proof.
    intros Hj Hp. destruct (j_pid j) as [p|] eqn:Ep; [|congruence]. unfold manage_one. rewrite Ep.
    ops; [exact I|]. unfold reconcile. rewrite Ep.
    assert (C : forall al, all_ops gentle (finish_cancelled j al)).
    { intros al. unfold finish_cancelled, merge_netcdfs. rewrite Ep. ops; try exact I.
      apply gentle_update. intros _ c [<-|[<-|[<-|[]]]]; cbn; auto. right; right; reflexivity. }
    assert (H : j_id j = i \/ j_id j <> i) by lia. destruct H as [H|H].
    - destruct (Hj H) as [->|[->| ->]]; ops; try exact I; apply C.
    - unfold finish_crashed. ops; try exact I; try (apply gentle_update; congruence); apply C.
  Qed.
  Lemma gentle_launch d j pn : j_id j <> i -> all_ops gentle (launch d j pn).
  Proof. intros H. unfold launch, update_pip. ops; try exact I; [exact H|apply gentle_update; congruence]. Qed.

  Lemma okP_pass w : okq exec (rely IP any KJobMgr) (GP KJobMgr) (fun _ => True) job_pass (fun _ _ => True) w.
  Proof.
    unfold job_pass. q_bind. apply okP_all; [ops; exact I|]. intros [d|] w1; [|exact I].
    q_bind. unfold manage_running. q_bind. apply okP_jobs. intros l w2 Hl Hp.
    specialize (Hp _ eq_refl). cbn in Hp. injection Hp as Hp.
    assert (Hpid : forall j, In j l -> j_pid j <> None).
    { intros j Hin. rewrite <- Hp in Hin. apply filter_In in Hin. destruct Hin as [_ Hb].
      destruct (j_pid j); [congruence|discriminate]. }
    clear Hp. eapply okq_weaken; [|apply okP_all with (Q := fun _ _ => True); [|intros; exact I]].
    2:{ clear - Hl Hpid. induction l as [|j l IH]; [exact I|]. cbn [forP].
        apply all_ops_bind; [apply gentle_manage; [apply Hl; now left|apply Hpid; now left]|].
        intros []. apply IH; [intros; apply Hl; auto; now right|intros; apply Hpid; now right]. }
    intros _ w3 _. q_bind. unfold check_queued. q_bind. apply okP_jobs. intros q w4 Hq Hw.
    specialize (Hw _ eq_refl). cbn in Hw. injection Hw as Hw.
    assert (Hid : forall j, In j q -> j_id j <> i).
    { intros j Hin Hji. specialize (Hq j Hin Hji). rewrite <- Hw in Hin. apply filter_In in Hin.
      destruct Hin as [_ Hb]. destruct Hq as [E|[E|E]]; rewrite E in Hb; discriminate. }
    clear Hw Hq.
    eapply okq_weaken; [|eapply okq_forP with
      (J := fun r m _ => (forall j, In j r -> j_id j <> i) /\ forall e, In e m -> fst e <> i)].
    2:{ split; [exact Hid|intros e []]. }
    2:{ intros j r m w5 [H1 H2]. assert (Hji : j_id j <> i) by (apply H1; now left).
        unfold check_one. q_bind. apply okP_all.
        { eapply all_ops_weaken; [|apply reads_match]. intros o. destruct o; cbn; auto; contradiction. }
        intros pips w6. q_bind. apply okP_all.
        { ops; try exact I; apply gentle_update; congruence. }
        intros [] w7. split; [intros; apply H1; now right|].
        intros e He. apply in_app_iff in He. destruct He as [He|[<-|[]]]; auto. }
    cbn beta. intros m w5 [_ Hm]. unfold action_queued. q_bind. apply okP_all; [ops; exact I|].
    intros free w6. q_bind. eapply okq_weaken; [|eapply okq_forP with
      (J := fun r _ _ => forall e, In e r -> fst e <> i)].
    - intros; exact I.
    - intros e He. apply Hm. apply sort_jobs_in. exact He.
    - intros e r a w7 H. unfold action_one. q_bind. apply okq_act. intros w8 _. split; [exact I|]. cbn [exec].
      destruct (get_job (w_jobs w8) (fst e)) as [j|] eqn:Eg; [|exact I].
      apply get_job_In in Eg. destruct Eg as [_ Eg].
      assert (Hji : j_id j <> i) by (rewrite Eg; apply H; now left).
      apply okP_all.
      + ops. unfold try_pip. ops. apply gentle_launch; exact Hji.
      + intros a0 w' e' He'. apply H. now right.
  Qed.

  Lemma may_gentle k o : match k with KJobMgr | KJob _ _ => False | _ => True end -> may k o -> gentle o.
  Proof.
    intros Hk Ho. destruct o; try exact I; destruct Ho as [[]|Ho]; destruct k; try contradiction.
    cbn in Ho. intros _ c Hc. destruct Ho as [-> | ->]; destruct Hc as [<-|[]]; unfold gentle_col, past; auto.
  Qed.
  Lemma other_gentle pid a o w : ja_jobid a <> i -> basic (KJob pid a) o w -> gentle o.
  Proof.
    intros Ha [Hm Ho]. destruct o; try exact I.
    - cbn in Ho. intros ->. congruence.
    - destruct Hm as [[]|[]].
  Qed.

  Lemma rgP_steps ls s s' : rg_inv IP any GP s -> runs ls s = Some s' -> rg_inv IP any GP s'.
  Proof.
    assert (Hm : forall k (p : pgm (option reply)) w, all_ops (may k) p ->
      match k with KJobMgr | KJob _ _ => False | _ => True end -> okp exec (rely IP any k) (GP k) p w).
    { intros k p w Hp Hk. eapply all_ops_okp; [|exact Hp]. intros w0 w1 o _ Ho. exact (may_gentle k o Hk Ho). }
    intros Hi Hr. eapply rg_steps with (okl := fun _ => True) (R := any); try exact Hr; try exact Hi.
    - intros; exact I.
    - intros; exact I.
    - intros k o w Hw Hg. apply IP_exec; auto.
    - intros; exact I.
    - intros l s0 s1 _ Hn Hs (Hw & Hs0 & Hj & Ha). split; [|intros; exact I].
      destruct (step_env _ _ _ Hn Hs) as ((E1 & E2 & _) & _ & _ & Hsp).
      split; [eapply wf_jobs_eq; eauto|]. split; [rewrite E2; exact Hs0|].
      split; [rewrite E1; exact Hj|auto].
    - intros c w _ _. apply Hm; [apply ops_cmd|exact I].
    - intros k p w Hp _. destruct k; try discriminate.
      + injection Hp as <-. eapply okq_okp with (E := fun _ => True) (Q := fun _ _ => True).
        unfold no_reply. q_bind. eapply okq_weaken; [|apply okP_pass]. intros; exact I.
      + apply Hm; [apply ops_mgr; exact Hp|exact I].
      + apply Hm; [apply ops_mgr; exact Hp|exact I].
    - intros w _. apply Hm; [apply ops_quit|exact I].
    - intros w n pid a _ (_ & _ & _ & Hsp) Hn.
      assert (Ha : ja_jobid a <> i) by (apply Hsp; eapply nth_error_In; eauto).
      eapply okp_mono; [| |eapply okp_and_static; [apply (ops_job pid a)|apply (own_job pid a)]].
      + intros; exact I.
      + intros o x y _ Ho. exact (other_gentle pid a o x Ha Ho).
    - intros n port pid ver ok w _ _. apply Hm; [apply ops_driver|exact I].
    - apply Forall_forall. intros; exact I.
  Qed.
End Past.

(** Programs that neither write to the queue nor start a job. *)
Lemma okp_static_G {A} (p : pgm A) (P : op -> Prop) I0 R0 (G1 G2 : op -> world -> Prop) w :
  (forall o x, G1 o x -> P o -> G2 o x) -> okp exec (rely I0 any R0) G1 p w -> all_ops P p ->
  okp exec (rely I0 any R0) G2 p w.
Proof.
  intros H. revert w. induction p as [a|e|o f IH]; intros w Hp Ho; cbn in *; auto.
  destruct Ho as [Ho Hf]. intros w1 Hr. destruct (Hp w1 Hr) as [Hg Hk]. split; [auto|].
  destruct (exec o w1) as [r w2]. apply IH; auto.
Qed.

Lemma C78_lemma w0 ls0 s i ls s' :
  wf_queue w0 -> runs ls0 (start_sys w0) = Some s ->
  (exists j, In j (w_jobs (s_world s)) /\ j_id j = i /\ past (j_status j)) ->
  rests KJobMgr s -> wrote_last i s -> runs ls s = Some s' ->
  forall j, In j (w_jobs (s_world s')) -> j_id j = i -> past (j_status j).
Proof.
  intros Hw H0 (j & Hj & Hid & Hs) Hrest [Hsp Hth] Hr.
  assert (B : rg_inv wf_queue any basic s) by (eapply basic_inv; [apply basic_init; exact Hw|exact H0]).
  assert (X : rg_inv (IP i) any (GP i) s'); [|apply X].
  eapply rgP_steps; [|exact Hr].
  destruct B as (Bw & Bu & Bt). split; [|split; [exact Bu|]].
  - split; [exact Bw|]. split.
    { destruct Bw as (_ & Hf & _). rewrite Forall_forall in Hf. specialize (Hf j Hj). lia. }
    split; [|exact Hsp].
    intros j' Hj' Hid'. replace j' with j; [exact Hs|].
    eapply same_id_same_job; [apply NoDup_SS; apply Bw|exact Hj|exact Hj'|congruence].
  - intros t Hin. specialize (Bt t Hin).
    assert (Bt' : okp exec (rely (IP i) any (t_kind t)) (basic (t_kind t)) (t_pgm t) (s_world s)).
    { eapply okp_mono; [| |exact Bt]; [|auto]. intros x y [(Hx & _) _]. split; [exact Hx|exact I]. }
    clear Bt. destruct (t_kind t) as [| | | |pid a|n] eqn:Ek;
      try (eapply okp_mono; [| |exact Bt']; [auto|]; intros o x y _ [Ho _]; eapply may_gentle; [|exact Ho]; exact I).
    + specialize (Hrest t Hin Ek). unfold active in Hrest. destruct (t_pgm t); try exact I. discriminate.
    + assert (Hd : ja_jobid a = i \/ ja_jobid a <> i) by lia. destruct Hd as [Hd|Hd].
      * eapply okp_static_G; [|exact Bt'|exact (Hth t pid a Hin Ek Hd)].
        intros o x [Ho _] Hn. destruct o; try exact I; [destruct Hn|destruct Ho as [[]|[]]].
      * eapply okp_mono; [| |exact Bt']; [auto|]. intros o x y _ Ho. eapply other_gentle; eauto.
Qed.
