(** * SysProofs18: jobs that have left the queue do not come back (C32) *)
From Coq Require Import List String Ascii ZArith Bool Sorted Lia.
From Verif Require Import Base PyStr BaseFacts Types ConfigModel Prog ProgFacts World WorldFacts Replies
  CmdModel KetchupModel TomatoModel JobModel PipModel DrvModel SysModel RGFacts SysOps
  SpecQueue SpecSys SysProofs SysProofs2 SysProofs3 SysProofs5.
Import ListNotations.
Open Scope list_scope.
Open Scope Z_scope.

Lemma out_cd : out_of_queue Scd. Proof. left. right. left. reflexivity. Qed.
Lemma out_ce : out_of_queue Sce. Proof. left. right. right. reflexivity. Qed.
Lemma out_rd : out_of_queue Srd. Proof. right. reflexivity. Qed.

Section Out.
  Context (i : Z) (L : list jobargs).

  Definition IO (w : world) : Prop :=
    wf_queue w /\ i <= w_seq w /\
    (forall j, In j (w_jobs w) -> j_id j = i -> out_of_queue (j_status j)) /\
    (forall a, In a (w_spawned w) -> ja_jobid a <> i) /\
    starts_of i w = L.
  Definition fine (c : jcol) : Prop := match c with JStatus s => out_of_queue s | _ => True end.
  Definition hands_off (o : op) : Prop :=
    match o with
    | OJobUpdate x cs => x = i -> forall c, In c cs -> fine c
    | OSpawnJob a => ja_jobid a <> i
    | _ => True
    end.
  Definition GO (k : kind) (o : op) (w : world) : Prop := hands_off o.

  Lemma out_keep cs : forall j, (forall c, In c cs -> fine c) -> out_of_queue (j_status j) ->
    out_of_queue (j_status (set_jcols cs j)).
  Proof.
    unfold set_jcols. induction cs as [|c cs IH]; intros j H Hj; cbn; auto.
    apply IH; [intros; apply H; now right|].
    assert (fine c) by (apply H; now left). destruct c; cbn in *; auto.
  Qed.

  Lemma IO_exec o w : IO w -> hands_off o -> IO (snd (exec o w)).
  Proof.
    intros (Hw & Hi & Hj & Hs & Hl) Ho. split; [apply wf_exec; exact Hw|].
    assert (X : forall w', w_jobs w' = w_jobs w -> w_seq w' = w_seq w -> w_spawned w' = w_spawned w ->
      starts w' = starts w ->
      i <= w_seq w' /\ (forall j, In j (w_jobs w') -> j_id j = i -> out_of_queue (j_status j)) /\
      (forall a, In a (w_spawned w') -> ja_jobid a <> i) /\ starts_of i w' = L).
    { intros w' E1 E2 E3 E4. unfold starts_of. rewrite E1, E2, E3, E4. auto. }
    op_cases o; try (apply X; reflexivity).
    - cbn -[Z.add]. split; [lia|]. split; [|split; auto]. intros j0 Hin Hid. apply in_app_iff in Hin.
      destruct Hin as [Hin|[<-|[]]]; [auto|]. cbn in Hid. lia.
    - cbn. split; [exact Hi|]. split; [|split; auto]. intros j0 Hin Hid. unfold upd_jobs in Hin.
      apply in_map_iff in Hin. destruct Hin as (j1 & <- & Hin).
      destruct (Z.eqb_spec (j_id j1) id) as [E|E]; [|auto].
      rewrite set_jcols_id in Hid. apply out_keep; [apply Ho; congruence|auto].
    - cbn. split; [exact Hi|]. split; [exact Hj|]. split.
      + intros a0 Hin. apply in_app_iff in Hin. destruct Hin as [Hin|[<-|[]]]; [auto|exact Ho].
      + unfold starts_of. cbn. destruct (Z.eqb_spec (ja_jobid a) i) as [E|E]; [contradiction|exact Hl].
  Qed.

  Section Prog.
    Context (k : kind).
    Let R := rely IO any k.
    Let G := GO k.
    Let E := fun _ : world => True.

    Lemma okO_all {A} (p : pgm A) (Q : A -> world -> Prop) w :
      all_ops hands_off p -> (forall a w', Q a w') -> okq exec R G E p Q w.
    Proof.
      intros Hp HQ. eapply okq_weaken; [intros; apply HQ|].
      eapply okq_all_ops with (J := fun _ => True) (P := hands_off); try (intros; exact I); [|exact Hp].
      intros o a _ Ho. split; [exact Ho|exact I].
    Qed.
    Lemma okO_jobs c (Q : list job -> world -> Prop) w :
      (forall l w', (forall j, In j l -> j_id j = i -> out_of_queue (j_status j)) ->
         (forall l', w_jobs w' = l' -> jobs_where c l' = Ok l) -> Q l w') ->
      okq exec R G E (act (OJobsWhere c)) Q w.
    Proof.
      intros H. apply okq_act. intros w1 [(_ & _ & Hj & _) _]. split; [exact I|]. cbn [exec].
      destruct (jobs_where c (w_jobs w1)) as [l|e] eqn:Ew; [|exact I]. apply H; [|congruence].
      intros j Hin. apply Hj. clear - Ew Hin. destruct c; cbn in Ew; try (inversion Ew; subst; apply filter_In in Hin; apply Hin).
      - inversion Ew. subst. exact Hin.
      - destruct (sql_lit t); inversion Ew. subst. apply filter_In in Hin; apply Hin.
    Qed.
  End Prog.

  Ltac ops := repeat (ops_step; cbv beta zeta).
  Lemma off_update x cs : (x = i -> forall c, In c cs -> fine c) ->
    all_ops hands_off (update_job_id x cs).
  Proof. intros H. unfold update_job_id. ops; [exact H|exact I]. Qed.

  Lemma off_manage j : all_ops hands_off (manage_one tt j).
  Proof.
    assert (X : forall st t, st = Scd \/ st = Sce ->
      all_ops hands_off (update_job_id (j_id j) [JStatus st; JPid None; JCompleted t])).
    { intros st t H. apply off_update. intros _ c [<-|[<-|[<-|[]]]]; cbn; try exact I.
      destruct H as [->| ->]; [exact out_cd|exact out_ce]. }
    unfold manage_one, reconcile, finish_cancelled, finish_crashed, merge_netcdfs.
    ops; try exact I; apply X; auto.
  Qed.
  Lemma off_check d m j : j_id j <> i -> all_ops hands_off (check_one d m j).
  Proof.
    intros H. unfold check_one. ops; try (apply off_update; congruence).
    eapply all_ops_weaken; [|apply reads_match]. intros o. destruct o; cbn; auto; contradiction.
  Qed.
  Lemma off_launch d j pn : j_id j <> i -> all_ops hands_off (launch d j pn).
  Proof. intros H. unfold launch, update_pip. ops; try exact I; [exact H|apply off_update; congruence]. Qed.

  Lemma insert_sorted_in x l y : In y (insert_sorted x l) -> y = x \/ In y l.
  Proof.
    induction l as [|z l IH]; cbn; [intros [->|[]]; auto|].
    destruct (Z.leb (fst x) (fst z)); cbn; intros [->|H]; auto. destruct (IH H); auto.
  Qed.
  Lemma sort_jobs_in l y : In y (sort_jobs l) -> In y l.
  Proof.
    induction l as [|x l IH]; cbn; [auto|]. intros H. apply insert_sorted_in in H. destruct H as [->|H]; auto.
  Qed.

  Lemma okO_pass w : okq exec (rely IO any KJobMgr) (GO KJobMgr) (fun _ => True) job_pass (fun _ _ => True) w.
  Proof.
    unfold job_pass. q_bind. apply okO_all; [ops; exact I|]. intros [d|] w1; [|exact I].
    q_bind. unfold manage_running. q_bind. apply okO_jobs. intros l w2 Hl Hp.
    clear Hp. eapply okq_weaken; [|apply okO_all with (Q := fun _ _ => True); [|intros; exact I]].
    2:{ clear. induction l as [|j l IH]; [exact I|]. cbn [forP].
        apply all_ops_bind; [apply off_manage|]. intros []. exact IH. }
    intros _ w3 _. q_bind. unfold check_queued. q_bind. apply okO_jobs. intros q w4 Hq Hw.
    specialize (Hw _ eq_refl). cbn in Hw. injection Hw as Hw.
    assert (Hid : forall j, In j q -> j_id j <> i).
    { intros j Hin Hji. specialize (Hq j Hin Hji). rewrite <- Hw in Hin. apply filter_In in Hin.
      destruct Hin as [_ Hb]. destruct Hq as [[E|[E|E]]|E]; rewrite E in Hb; discriminate. }
    clear Hw Hq.
    eapply okq_weaken; [|eapply okq_forP with
      (J := fun r m _ => (forall j, In j r -> j_id j <> i) /\ forall e, In e m -> fst e <> i)].
    2:{ split; [exact Hid|intros e []]. }
    2:{ intros j r m w5 [H1 H2]. assert (Hji : j_id j <> i) by (apply H1; now left).
        unfold check_one. q_bind. apply okO_all.
        { eapply all_ops_weaken; [|apply reads_match]. intros o. destruct o; cbn; auto; contradiction. }
        intros pips w6. q_bind. apply okO_all.
        { ops; try exact I; apply off_update; congruence. }
        intros [] w7. split; [intros; apply H1; now right|].
        intros e He. apply in_app_iff in He. destruct He as [He|[<-|[]]]; auto. }
    cbn beta. intros m w5 [_ Hm]. unfold action_queued. q_bind. apply okO_all; [ops; exact I|].
    intros free w6. q_bind. eapply okq_weaken; [|eapply okq_forP with
      (J := fun r _ _ => forall e, In e r -> fst e <> i)].
    - intros; exact I.
    - intros e He. apply Hm. apply sort_jobs_in. exact He.
    - intros e r a w7 H. unfold action_one. q_bind. apply okq_act. intros w8 _. split; [exact I|]. cbn [exec].
      destruct (get_job (w_jobs w8) (fst e)) as [j|] eqn:Eg; [|exact I].
      apply get_job_In in Eg. destruct Eg as [_ Eg].
      assert (Hji : j_id j <> i) by (rewrite Eg; apply H; now left).
      apply okO_all.
      + ops. unfold try_pip. ops. apply off_launch; exact Hji.
      + intros a0 w' e' He'. apply H. now right.
  Qed.

  Lemma cmd_hands_off o : may KCmd o -> hands_off o.
  Proof.
    intros [H|H]; destruct o; try exact I; try contradiction. cbn in H.
    intros _ c Hc. destruct H as [-> | ->]; destruct Hc as [<-|[]]; [exact out_cd|exact out_rd].
  Qed.

  (** A process of another job. *)
  Lemma basic_hands_off pid a o w : ja_jobid a <> i -> basic (KJob pid a) o w -> hands_off o.
  Proof.
    intros Ha [Hm Ho]. destruct o; try exact I.
    - cbn in Ho. intros ->. congruence.
    - destruct Hm as [[]|[]].
  Qed.

  Lemma rgO_steps ls s s' : rg_inv IO any GO s -> runs ls s = Some s' -> rg_inv IO any GO s'.
  Proof.
    assert (Hall : forall k (p : pgm (option reply)) w, all_ops hands_off p ->
      okp exec (rely IO any k) (GO k) p w).
    { intros k p w Hp. eapply all_ops_okp; [|exact Hp]. intros w0 w1 o _ Ho. exact Ho. }
    assert (Hm : forall k (p : pgm (option reply)) w, all_ops (may k) p ->
      match k with KPipMgr | KDrvMgr | KDriver _ => True | _ => False end -> okp exec (rely IO any k) (GO k) p w).
    { intros k p w Hp Hk. apply Hall. eapply all_ops_weaken; [|exact Hp]. intros o Ho.
      destruct o; try exact I; destruct Ho as [[]|Ho]; destruct k; contradiction. }
    intros Hi Hr. eapply rg_steps with (okl := fun _ => True) (R := any); try exact Hr; try exact Hi.
    - intros; exact I.
    - intros; exact I.
    - intros k o w Hw Hg. apply IO_exec; auto.
    - intros; exact I.
    - intros l s0 s1 _ Hn Hs (Hw & Hs0 & Hj & Ha & HL). split; [|intros; exact I].
      destruct (step_env _ _ _ Hn Hs) as ((E1 & E2 & _ & _ & _ & _ & E7) & _ & _ & Hsp).
      split; [eapply wf_jobs_eq; eauto|]. split; [rewrite E2; exact Hs0|].
      split; [rewrite E1; exact Hj|]. split; [auto|]. unfold starts_of. rewrite (starts_log _ _ E7). exact HL.
    - intros c w _ _. apply Hall. eapply all_ops_weaken; [|apply ops_cmd]. exact cmd_hands_off.
    - intros k p w Hp _. destruct k; try discriminate.
      + injection Hp as <-. eapply okq_okp with (E := fun _ => True) (Q := fun _ _ => True).
        unfold no_reply. q_bind. eapply okq_weaken; [|apply okO_pass]. intros; exact I.
      + apply Hm; [apply ops_mgr; exact Hp|exact I].
      + apply Hm; [apply ops_mgr; exact Hp|exact I].
    - intros w _. apply Hm; [apply ops_quit|exact I].
    - intros w n pid a _ (_ & _ & _ & Hsp & _) Hn.
      assert (Ha : ja_jobid a <> i) by (apply Hsp; eapply nth_error_In; eauto).
      eapply okp_mono; [| |eapply okp_and_static; [apply (ops_job pid a)|apply (own_job pid a)]].
      + intros; exact I.
      + intros o x y _ Ho. exact (basic_hands_off pid a o x Ha Ho).
    - intros n port pid ver ok w _ _. apply Hm; [apply ops_driver|exact I].
    - apply Forall_forall. intros; exact I.
  Qed.
End Out.

Lemma out_lemma w0 ls0 s i ls s' :
  wf_queue w0 -> runs ls0 (start_sys w0) = Some s ->
  (exists j, In j (w_jobs (s_world s)) /\ j_id j = i /\ out_of_queue (j_status j)) ->
  rests KJobMgr s -> no_process i s -> runs ls s = Some s' ->
  (forall j', In j' (w_jobs (s_world s')) -> j_id j' = i -> out_of_queue (j_status j')) /\
  starts_of i (s_world s') = starts_of i (s_world s).
Proof.
  intros Hw H0 (j & Hj & Hid & Hs) Hrest [Hsp Hth] Hr.
  assert (B : rg_inv wf_queue any basic s) by (eapply basic_inv; [apply basic_init; exact Hw|exact H0]).
  assert (X : rg_inv (IO i (starts_of i (s_world s))) any (GO i) s').
  { eapply rgO_steps; [|exact Hr].
    destruct B as (Bw & Bu & Bt). split; [|split; [exact Bu|]].
    - split; [exact Bw|]. split.
      { destruct Bw as (_ & Hf & _). rewrite Forall_forall in Hf. specialize (Hf j Hj). lia. }
      split; [|split; [exact Hsp|reflexivity]].
      intros j' Hj' Hid'. replace j' with j; [exact Hs|].
      eapply same_id_same_job; [apply NoDup_SS; apply Bw|exact Hj|exact Hj'|congruence].
    - assert (Hquiet : forall t, In t (s_threads s) ->
        match t_kind t with KCmd | KPipMgr | KDrvMgr | KDriver _ => True | _ => False end ->
        okp exec (rely (IO i (starts_of i (s_world s))) any (t_kind t)) (GO i (t_kind t)) (t_pgm t) (s_world s)).
      { intros t Hin Hk. eapply okp_mono; [| |exact (Bt t Hin)].
        - intros x y [(Hx & _) _]. split; [exact Hx|exact I].
        - intros o x y _ [Ho _]. destruct (t_kind t) eqn:Ek; try contradiction; [apply cmd_hands_off; exact Ho| | |];
            destruct o; try exact I; destruct Ho as [[]|Ho]; contradiction. }
      intros t Hin. specialize (Hquiet t Hin).
      destruct (t_kind t) as [| | | |pid a|n] eqn:Ek; try (apply Hquiet; exact I).
      + specialize (Hrest t Hin Ek). unfold active in Hrest. destruct (t_pgm t); try exact I. discriminate.
      + specialize (Bt t Hin). rewrite Ek in Bt.
        assert (Hd : ja_jobid a = i \/ ja_jobid a <> i) by lia. destruct Hd as [Hd|Hd].
        * specialize (Hth t pid a Hin Ek Hd). unfold ended in Hth.
          destruct (t_pgm t); try exact I. discriminate.
        * eapply okp_mono; [| |exact Bt].
          -- intros x y [(Hx & _) _]. split; [exact Hx|exact I].
          -- intros o x y _ Ho. eapply basic_hands_off; eauto. }
  destruct X as ((_ & _ & X1 & X3 & X2) & _). split; [exact X1|exact X2].
Qed.
