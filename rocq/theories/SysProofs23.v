(** * SysProofs23: why a pipeline is in the state it is in (C115) *)
From Coq Require Import List String Ascii ZArith Bool Sorted Lia.
From Verif Require Import Base PyStr BaseFacts Types ConfigModel Prog ProgFacts World WorldFacts Replies
  CmdModel KetchupModel TomatoModel JobModel PipModel DrvModel SysModel RGFacts SysOps
  SpecQueue SpecSys SpecHold SysProofs SysProofs2.
Import ListNotations.
Open Scope list_scope.
Open Scope Z_scope.

Lemma pcols_sample cs : forall p, p_sample (set_pcols cs p) = p_sample p \/ In (PSample (p_sample (set_pcols cs p))) cs.
Proof.
  unfold set_pcols. induction cs as [|c cs IH]; intros p; cbn; [now left|].
  destruct (IH (set_pcol p c)) as [E|H]; [|right; right; exact H]. rewrite E. destruct c; cbn; auto.
Qed.
Lemma pcols_ready cs : forall p, p_ready (set_pcols cs p) = p_ready p \/ In (PReady (p_ready (set_pcols cs p))) cs.
Proof.
  unfold set_pcols. induction cs as [|c cs IH]; intros p; cbn; [now left|].
  destruct (IH (set_pcol p c)) as [E|H]; [|right; right; exact H]. rewrite E. destruct c; cbn; auto.
Qed.
Lemma pcols_jobid cs : forall p, p_jobid (set_pcols cs p) = p_jobid p \/ In (PJobid (p_jobid (set_pcols cs p))) cs.
Proof.
  unfold set_pcols. induction cs as [|c cs IH]; intros p; cbn; [now left|].
  destruct (IH (set_pcol p c)) as [E|H]; [|right; right; exact H]. rewrite E. destruct c; cbn; auto.
Qed.

Section Hold.
  Context (w0 : world) (LS : list label).

  Definition why_sample (m x : string) : Prop := held w0 m (fun p => p_sample p = Some x) \/ load_asked LS m x.
  Definition why_ready (m : string) (w : world) : Prop :=
    held w0 m (fun p => p_ready p = true) \/ ready_asked LS m \/ unlocking m w.
  Definition there (i : Z) (w : world) : Prop := exists j, In j (w_jobs w) /\ j_id j = i.
  Definition why_jobid (m : string) (i : Z) (w : world) : Prop := held w0 m (fun p => p_jobid p = Some i) \/ there i w.

  Definition onwards (w w' : world) : Prop :=
    jobs_kept w w' /\ forall a, In a (starts w) -> In a (starts w').
  Lemma on_refl w : onwards w w.
  Proof. split; [apply kept_refl|auto]. Qed.
  Lemma on_trans a b c : onwards a b -> onwards b c -> onwards a c.
  Proof. intros [A1 A2] [B1 B2]. split; [eapply kept_trans; eauto|auto]. Qed.
  Lemma there_on i w w' : onwards w w' -> there i w -> there i w'.
  Proof. intros [K _] (j & Hj & E). destruct (K j Hj) as (j' & Hj' & (S & _)). exists j'. split; [exact Hj'|congruence]. Qed.
  Lemma unlocking_on m w w' : onwards w w' -> unlocking m w -> unlocking m w'.
  Proof.
    intros [K S] (a & j & Ha & El & Hj & E & U). destruct (K j Hj) as (j' & Hj' & (S1 & S2 & _)).
    exists a, j'. split; [auto|]. split; [exact El|]. split; [exact Hj'|]. split; congruence.
  Qed.
  Lemma ready_on m w w' : onwards w w' -> why_ready m w -> why_ready m w'.
  Proof. intros H [X|[X|X]]; [left; exact X|right; left; exact X|right; right; eapply unlocking_on; eauto]. Qed.
  Lemma jobid_on m i w w' : onwards w w' -> why_jobid m i w -> why_jobid m i w'.
  Proof. intros H [X|X]; [left; exact X|right; eapply there_on; eauto]. Qed.

  Definition explained (p : pipstate) (w : world) : Prop :=
    (forall x, p_sample p = Some x -> why_sample (p_name p) x) /\
    (p_ready p = true -> why_ready (p_name p) w) /\
    (forall i, p_jobid p = Some i -> why_jobid (p_name p) i w).
  Lemma explained_on p w w' : onwards w w' -> explained p w -> explained p w'.
  Proof.
    intros H (E1 & E2 & E3). split; [exact E1|]. split; [intros X; eapply ready_on; eauto|].
    intros i X. eapply jobid_on; eauto.
  Qed.

  Definition moved (m : string) : Prop := (exists x, load_asked LS m x) \/ eject_asked LS m.
  Definition I115 (w : world) : Prop :=
    (forall p, In p (w_pips w) -> explained p w) /\ (forall a, In a (w_spawned w) -> In a (starts w)) /\
    (forall p0, In p0 (w_pips w0) -> exists p, In p (w_pips w) /\ p_name p = p_name p0 /\
       (p_sample p = p_sample p0 \/ moved (p_name p0))).
  Definition R115 (k : kind) (w w' : world) : Prop := onwards w w'.
  Definition fine_pip (m : string) (cs : list pcol) (w : world) : Prop :=
    (forall x, In (PSample (Some x)) cs -> why_sample m x) /\
    (In (PReady true) cs -> why_ready m w) /\
    (forall i, In (PJobid (Some i)) cs -> why_jobid m i w) /\
    (forall v, In (PSample v) cs -> moved m).
  Definition G115 (k : kind) (o : op) (w : world) : Prop :=
    may k o /\
    match o with OPipUpdate n cs => forall m, sql_lit n = Some m -> fine_pip m cs w | _ => True end.

  Lemma on_exec k o w : may k o -> onwards w (snd (exec o w)).
  Proof.
    intros Hm. split; [eapply may_kept; eauto|]. intros a Ha. unfold starts in *. op_cases o; cbn; auto.
  Qed.
  Lemma spawned_starts o w a : In a (w_spawned (snd (exec o w))) ->
    In a (w_spawned w) \/ In a (starts (snd (exec o w))).
  Proof.
    assert (D : (exists a, o = OSpawnJob a) \/ forall a, o <> OSpawnJob a).
    { destruct o; try (right; congruence). left. eauto. }
    destruct D as [(b & ->)|D].
    - cbn. intros H. apply in_app_iff in H. destruct H as [H|[<-|[]]]; auto.
    - intros H. left. revert H. op_cases o; auto. elim (D a0). reflexivity.
  Qed.
  Lemma pips_op o : (exists p, o = OPipInsert p) \/ (exists n cs, o = OPipUpdate n cs) \/
      ((forall p, o <> OPipInsert p) /\ forall n cs, o <> OPipUpdate n cs).
  Proof. destruct o; try (right; right; split; congruence); eauto. Qed.
  Lemma pips_same o w : (forall p, o <> OPipInsert p) -> (forall n cs, o <> OPipUpdate n cs) ->
    w_pips (snd (exec o w)) = w_pips w.
  Proof. intros H1 H2. op_cases o; try reflexivity; [elim (H1 p)|elim (H2 n cs)]; reflexivity. Qed.

  Lemma I115_exec k o w : I115 w -> G115 k o w -> I115 (snd (exec o w)).
  Proof.
    intros (Hp & Hs & Hk) [Hm Hg]. pose proof (on_exec k o w Hm) as O. split; [|split].
    - assert (X : forall p, In p (w_pips w) -> explained p (snd (exec o w))).
      { intros p H. eapply explained_on; eauto. }
      destruct (pips_op o) as [(p & ->)|[(n & cs & ->)|[D1 D2]]];
        [| |rewrite (pips_same o w D1 D2); exact X].
      + intros x Hx. cbn [exec] in *. destruct (get_pip (w_pips w) (p_name p)); cbn [snd] in *; [auto|].
        cbn [set_pips w_pips] in Hx. apply in_app_iff in Hx. destruct Hx as [Hx|[<-|[]]]; [auto|].
        destruct Hm as [[]|Hm]. destruct k; try contradiction. destruct Hm as (n & ->).
        split; [cbn; discriminate|]. split; cbn; discriminate.
      + intros x Hx. cbn [exec] in *. destruct (sql_lit n) as [m|] eqn:El; cbn [snd] in *; [|auto].
        cbn [set_pips w_pips] in Hx. unfold upd_pips in Hx. apply in_map_iff in Hx.
        destruct Hx as (y & <- & Hy). destruct (X y Hy) as (Y1 & Y2 & Y3).
        destruct (String.eqb_spec (p_name y) m) as [E|E]; [|split; [exact Y1|split; [exact Y2|exact Y3]]].
        destruct (Hg m eq_refl) as (F1 & F2 & F3 & F4). unfold explained. rewrite set_pcols_name. split; [|split].
        * intros v B. destruct (pcols_sample cs y) as [E1|H1]; [apply Y1; congruence|].
          rewrite B in H1. rewrite E. auto.
        * intros B. destruct (pcols_ready cs y) as [E1|H1]; [apply Y2; congruence|].
          rewrite B in H1. rewrite E. eapply ready_on; [exact O|]. auto.
        * intros i B. destruct (pcols_jobid cs y) as [E1|H1]; [apply Y3; congruence|].
          rewrite B in H1. rewrite E. eapply jobid_on; [exact O|]. auto.
    - intros a Ha. apply spawned_starts in Ha as [Ha|Ha]; [apply O; auto|exact Ha].
    - intros p0 H0. destruct (Hk p0 H0) as (p & Hp1 & En & Hq).
      destruct (pips_op o) as [(q & ->)|[(n & cs & ->)|[D1 D2]]];
        [| |rewrite (pips_same o w D1 D2); eauto].
      + exists p. split; [|auto]. cbn [exec]. destruct (get_pip (w_pips w) (p_name q)); cbn [snd]; [exact Hp1|].
        cbn [set_pips w_pips]. apply in_app_iff. auto.
      + cbn [exec]. destruct (sql_lit n) as [m|] eqn:El; cbn [snd]; [|eauto].
        cbn [set_pips w_pips]. unfold upd_pips.
        exists (if p_name p =? m then set_pcols cs p else p)%string.
        split; [apply in_map_iff; exists p; auto|].
        destruct (String.eqb_spec (p_name p) m) as [E|E]; [|auto]. rewrite set_pcols_name. split; [exact En|].
        destruct (pcols_sample cs p) as [E1|H1]; [rewrite E1; exact Hq|right].
        rewrite <- En, E. destruct (Hg m eq_refl) as (_ & _ & _ & F4). eauto.
  Qed.

  (** Updates without conditions. *)
  Definition calm115 (o : op) : Prop :=
    match o with
    | OPipUpdate _ cs => (forall x, ~ In (PSample x) cs) /\ ~ In (PReady true) cs /\ (forall i, ~ In (PJobid (Some i)) cs)
    | _ => True
    end.
  Lemma calm115_ok k o w : may k o -> calm115 o -> G115 k o w.
  Proof.
    intros H C. split; [exact H|]. destruct o; try exact I. destruct C as (C1 & C2 & C3). intros m _.
    split; [|split; [|split]]; [intros x X; elim (C1 _ X)|intros X; elim (C2 X)|intros i X; elim (C3 i X)|intros v X; elim (C1 _ X)].
  Qed.
  Lemma ok115_calm k {A} (p : pgm A) w : all_ops (may k) p -> all_ops calm115 p ->
    okp exec (rely I115 R115 k) (G115 k) p w.
  Proof.
    intros H1 H2. revert w. induction p as [a|e|o f IH]; intros w; cbn; auto.
    destruct H1 as [H1 K1], H2 as [H2 K2]. intros w1 _. split; [apply calm115_ok; auto|].
    destruct (exec o w1) as [r w2]. apply IH; auto.
  Qed.
  Lemma may_calm115 k o : match k with KPipMgr | KDrvMgr | KDriver _ => True | _ => False end -> may k o -> calm115 o.
  Proof.
    intros Hk [H|H]; destruct o; try exact I; try contradiction; destruct k; try contradiction.
    cbn in H. subst cs. cbn. repeat split; intuition discriminate.
  Qed.
  Lemma ok115_other k {A} (p : pgm A) w : match k with KPipMgr | KDrvMgr | KDriver _ => True | _ => False end ->
    all_ops (may k) p -> okp exec (rely I115 R115 k) (G115 k) p w.
  Proof.
    intros Hk H. apply ok115_calm; [exact H|]. eapply all_ops_weaken; [|exact H].
    intros o. apply may_calm115. exact Hk.
  Qed.
  Ltac ops := repeat (ops_step; cbv beta zeta).

  (** ** Commands *)
  Definition meant (o : op) : Prop :=
    match o with
    | OPipUpdate n cs => forall m, sql_lit n = Some m ->
        (forall x, In (PSample (Some x)) cs -> load_asked LS m x) /\
        (In (PReady true) cs -> ready_asked LS m) /\ (forall i, ~ In (PJobid (Some i)) cs) /\
        (forall v, In (PSample v) cs -> moved m)
    | _ => True
    end.
  Lemma meant_cmd c : In (LCmd c) LS -> all_ops meant (cmd_pgm c).
  Proof.
    intros Hin. destruct c; cbn [cmd_pgm]; unfold some_reply, no_reply; (apply all_ops_bind; [|intros; exact I]);
    unfold daemon_start, tomato_reload, tomato_stop, pipeline_load, pipeline_eject, pipeline_ready, ketchup_submit,
      ketchup_status, ketchup_cancel, ketchup_snapshot, ketchup_search, with_daemon, bootstrap, boot_driver, boot_pipeline,
      insert_drv, insert_pip, cmd_reload, cmd_stop, update_pip, jobs_status, search, snapshot, snapshot_one,
      submit, insert_job, merge_netcdfs, cancel, cancel_one, update_job_id, read_daemon; ops; try exact I;
    intros m Hm; (split; [|split; [|split]]).
    all: try (intros x [X|[X|[]]]; try discriminate; injection X as <-; exists port, pip; auto).
    all: try (intros [X|[X|[]]]; discriminate).
    all: try (intros i [X|[X|[]]]; discriminate).
    all: try (intros [X|[]]; exists port, pip; auto).
    all: try (intros i [X|[]]; discriminate).
    all: intros v _; first [left; exists sample, port, pip; auto|right; exists port, pip; auto].
  Qed.
  Lemma ok115_cmd c w : In (LCmd c) LS -> okp exec (rely I115 R115 KCmd) (G115 KCmd) (cmd_pgm c) w.
  Proof.
    intros Hin. generalize (ops_cmd c) (meant_cmd c Hin). generalize (cmd_pgm c). intros p. revert w.
    induction p as [x|e|o f IH]; intros w; cbn; auto.
    intros [H1 K1] [H2 K2] w1 _. split.
    - split; [exact H1|]. destruct o; try exact I. intros m Hm. destruct (H2 m Hm) as (A1 & A2 & A3 & A4).
      split; [intros v Hv; right; auto|]. split; [intros X; right; left; auto|].
      split; [intros i X; elim (A3 i X)|exact A4].
    - destruct (exec o w1) as [r w2]. apply IH; auto.
  Qed.

  Section Kind.
    Context (k : kind).
    Let R := rely I115 R115 k.
    Let G := G115 k.
    Let E := fun _ : world => True.
    Lemma stable115 (P : world -> Prop) {A} (p : pgm A) : forall w,
      (forall a b, onwards a b -> P a -> P b) -> all_ops (may k) p -> all_ops calm115 p -> P w ->
      okq exec R G E p (fun _ => P) w.
    Proof.
      induction p as [a|e|o f IH]; intros w HP H1 H2 Hw; cbn; auto.
      destruct H1 as [H1 K1], H2 as [H2 K2]. intros w1 [_ Hr]. split; [apply calm115_ok; auto|].
      pose proof (on_exec _ o w1 H1) as Hg. destruct (exec o w1) as [r w2]. apply IH; auto.
      eapply HP; [exact Hg|]. eapply HP; eauto.
    Qed.
  End Kind.

  (** ** The job manager *)
  Let R := rely I115 R115 KJobMgr.
  Let G := G115 KJobMgr.
  Let E := fun _ : world => True.
  Lemma ok115_launch d j pn w : there (j_id j) w -> okq exec R G E (launch d j pn) (fun _ _ => True) w.
  Proof.
    intros Hw.
    assert (S : forall {A} (p : pgm A) w1, there (j_id j) w1 -> all_ops (may KJobMgr) p -> all_ops calm115 p ->
      okq exec R G E p (fun _ => there (j_id j)) w1).
    { intros A p w1 H0 H1 H2. apply stable115; auto. intros x y. apply there_on. }
    unfold launch. q_bind. eapply okq_weaken; [|apply S; [exact Hw|ops; fin|ops; exact I]].
    intros xw1 w1 H1. cbv beta. q_bind. eapply okq_weaken; [|apply S; [exact H1|ops; fin|ops; exact I]].
    intros xw2 w2 H2. cbv beta. q_bind. eapply okq_weaken; [|apply S; [exact H2|ops; fin|ops; exact I]].
    intros xw3 w3 H3. cbv beta. q_bind. unfold update_pip. q_bind. apply okq_act. intros w4 [_ Hr].
    split; [split; [right; cbn; eauto|]|].
    { intros m _. split; [intros x [X|[X|[]]]; discriminate|]. split; [intros [X|[X|[]]]; discriminate|].
      split; [|intros v [X|[X|[]]]; discriminate].
      intros i [X|[X|[]]]; [|discriminate]. injection X as <-. right. eapply there_on; eauto. }
    destruct (exec _ w4) as [[x|e] w5]; [|exact I].
    eapply okq_weaken; [|apply stable115 with (P := fun _ => True)]; auto.
    - intros y w6 _. cbv beta. eapply okq_weaken; [|apply stable115 with (P := fun _ => True)]; auto.
      + unfold update_job_id. ops; try fin; right; cbn; eauto 8.
      + unfold update_job_id. ops; exact I.
    - ops; fin.
    - ops; exact I.
  Qed.
  Lemma ok115_action d m w : okq exec R G E (action_queued d m) (fun _ _ => True) w.
  Proof.
    unfold action_queued. q_bind. apply okq_act. intros w1 _. cbn [exec].
    split; [apply calm115_ok; [left; exact I|exact I]|]. q_bind.
    eapply okq_weaken; [|eapply okq_forP with (J := fun _ _ _ => True)]; [intros; exact I|exact I|].
    intros [i l] r av w2 _. unfold action_one. q_bind. apply okq_act. intros w3 _. cbn [exec fst snd].
    split; [apply calm115_ok; [left; exact I|exact I]|].
    destruct (get_job (w_jobs w3) i) as [j|] eqn:Ej; [|exact I].
    assert (Hj : there (j_id j) w3).
    { exists j. split; [eapply get_job_In; eauto|reflexivity]. }
    q_bind. eapply okq_weaken; [|eapply okq_forB with (J := fun _ _ => there (j_id j)) (K := fun _ _ => True)].
    - intros [x|x] w4 _; exact I.
    - exact Hj.
    - intros pn r' av' w4 H4. unfold try_pip. destruct (dget av' pn); [|exact H4].
      destruct (_ && _)%bool; [|exact H4]. q_bind. eapply okq_weaken; [|apply ok115_launch; exact H4].
      intros; exact I.
  Qed.
  Lemma quiet_calm o : quiet o -> calm115 o.
  Proof. destruct o; cbn; auto; contradiction. Qed.
  Lemma ok115_quiet {A} (p : pgm A) w : all_ops quiet p -> okq exec R G E p (fun _ _ => True) w.
  Proof.
    intros H. apply stable115 with (P := fun _ => True); auto.
    - eapply all_ops_weaken; [apply quiet_may|exact H].
    - eapply all_ops_weaken; [apply quiet_calm|exact H].
  Qed.
  Lemma ok115_pass w : okq exec R G E (no_reply job_pass) (fun _ _ => True) w.
  Proof.
    unfold no_reply, job_pass. q_bind. q_bind. apply okq_act. intros w1 _. cbn [exec].
    split; [apply calm115_ok; [left; exact I|exact I]|].
    destruct (w_daemon w1) as [d|]; [|exact I].
    q_bind. eapply okq_weaken; [|apply ok115_quiet, quiet_manage].
    intros _ w2 _. cbv beta. q_bind. eapply okq_weaken; [|apply ok115_quiet, quiet_check].
    intros m w3 _. eapply okq_weaken; [|apply ok115_action]. intros; exact I.
  Qed.

  (** ** The job process *)
  Section Job.
    Context (pid : Z) (a : jobargs).
    Let Rj := rely I115 R115 (KJob pid a).
    Let Gj := G115 (KJob pid a).
    Let id := ja_jobid a.
    Definition begun (w : world) : Prop := In a (starts w).
    Lemma begun_on w w' : onwards w w' -> begun w -> begun w'.
    Proof. intros [_ H]. apply H. Qed.
    (** One operation. *)
    Lemma one115 (o : op) (Q : resp o -> world -> Prop) w : may (KJob pid a) o -> calm115 o -> begun w ->
      (forall x w1 w2, exec o w1 = (Ok x, w2) -> begun w2 -> Q x w2) -> okq exec Rj Gj E (act o) Q w.
    Proof.
      intros Hm Hc Hw HQ. apply okq_act. intros w1 [_ Hr]. split; [apply calm115_ok; auto|].
      pose proof (on_exec _ o w1 Hm) as O. destruct (exec o w1) as [[x|e] w2] eqn:Ee; [|exact I].
      eapply HQ; [exact Ee|]. eapply begun_on; [exact O|]. eapply begun_on; eauto.
    Qed.
    Lemma upd115 i cs w : may (KJob pid a) (OJobUpdate i cs) -> begun w ->
      okq exec Rj Gj E (update_job_id i cs) (fun j w' => begun w' /\ j_id j = i /\ In j (w_jobs w')) w.
    Proof.
      intros Hm Hw. unfold update_job_id. q_bind. apply one115; [exact Hm|exact I|exact Hw|].
      intros u _ w1 _ H1. apply one115; [left; exact I|exact I|exact H1|].
      intros j w2 w3 Ee H3. cbn in Ee. destruct (get_job (w_jobs w2) i) as [j1|] eqn:Eg; inversion Ee. subst.
      apply get_job_In in Eg. destruct Eg. auto.
    Qed.
    Lemma ok115_job w : begun w -> okq exec Rj Gj E (no_reply (tomato_job pid a)) (fun _ _ => True) w.
    Proof.
      intros Hw. unfold no_reply, tomato_job. fold id. q_bind. q_bind.
      apply one115; [left; exact I|exact I|exact Hw|]. intros t _ w1 _ H1. q_bind.
      eapply okq_weaken; [|apply upd115; [right; cbn; eauto|exact H1]].
      intros j0 w2 (H2 & _). cbv beta. destruct (pl_outpath (ja_payload a)) as [out|]; [|exact I].
      q_bind. apply one115; [left; exact I|exact I|exact H2|]. intros u _ w3 _ H3. q_bind.
      eapply okq_weaken; [|apply upd115; [right; cbn; eauto 12|exact H3]].
      intros j w4 (H4 & Ej & _). cbv beta. q_bind.
      apply one115; [left; exact I|exact I|exact H4|]. intros ok _ w5 _ H5. q_bind.
      apply one115; [left; exact I|exact I|exact H5|]. intros t' _ w6 _ H6. q_bind.
      unfold merge_netcdfs. q_bind. apply okq_assert; [exact I|]. intros _.
      match goal with |- okq _ _ _ _ (match ?x with _ => _ end) _ _ => destruct x; [|exact I] end.
      apply one115; [left; exact I|exact I|exact H6|]. intros v _ w7 _ H7. q_bind.
      eapply okq_weaken with (Q := fun _ => begun).
      - intros _ w8 H8. q_bind.
        eapply okq_weaken; [|apply upd115; [right; cbn; right; right; eexists _, _; split; [|reflexivity]; destruct ok; auto|exact H8]].
        intros j' w9 (H9 & Ej' & Hin). cbv beta. unfold update_pip. q_bind. q_bind. apply okq_act. intros w10 [_ Hr].
        split; [split; [right; cbn; eauto|]|].
        + intros m Hm. split; [intros x [X|[X|[]]]; discriminate|]. split; [|split; [intros i [X|[X|[]]]; discriminate|intros v0 [X|[X|[]]]; discriminate]].
          intros [X|[X|[]]]; [discriminate|]. injection X as X. right. right. eapply unlocking_on; [exact Hr|].
          exists a, j'. split; [exact H9|]. split; [exact Hm|]. split; [exact Hin|]. split; [first [exact (eq_trans Ej' Ej)|exact Ej']|exact X].
        + destruct (exec _ w10) as [[x|e] w11]; [|exact I].
          eapply okq_weaken; [|apply stable115 with (P := fun _ => True)]; auto.
          * ops; fin.
          * ops; exact I.
      - destruct (ja_repos a); [exact H7|]. apply one115; [left; exact I|exact I|exact H7|]. auto.
    Qed.
  End Job.

  Lemma inv115 ls s s' : (forall l, In l ls -> In l LS) ->
    rg_inv I115 R115 G115 s -> runs ls s = Some s' -> rg_inv I115 R115 G115 s'.
  Proof.
    intros Hls Hi Hr. eapply rg_steps with (okl := fun l => In l LS) (R := R115); try exact Hr; try exact Hi.
    - intros k w. apply on_refl.
    - intros k x y z. apply on_trans.
    - intros k o w. apply I115_exec.
    - intros k k' o w _ [Hm _] _. eapply on_exec; eauto.
    - intros l s0 s1 _ Hn Hs (H1 & H2 & H3). destruct (step_env _ _ _ Hn Hs) as ((E1 & E2 & E3 & E4 & E5 & E6 & E7) & _ & _ & Esp).
      assert (S : starts (s_world s1) = starts (s_world s0)) by (unfold starts; rewrite E7; reflexivity).
      assert (K : onwards (s_world s0) (s_world s1)).
      { split; [apply kept_eq; exact E1|]. intros a. rewrite S. auto. }
      split; [|intros; exact K]. split.
      + rewrite E3. intros p Hp. eapply explained_on; eauto.
      + split; [intros a Ha; rewrite S; auto|rewrite E3; exact H3].
    - intros c w Hin _. apply ok115_cmd. exact Hin.
    - intros k p w Hp _. destruct k; try discriminate.
      + injection Hp as <-. eapply okq_okp. apply ok115_pass.
      + apply ok115_other; [exact I|apply ops_mgr; exact Hp].
      + apply ok115_other; [exact I|apply ops_mgr; exact Hp].
    - intros w _. apply ok115_other; [exact I|apply ops_quit].
    - intros w i pid a _ (_ & Hs & _) Hn. eapply okq_okp. apply ok115_job.
      apply nth_error_In in Hn. exact (Hs a Hn).
    - intros n port pid ver ok w _ _. apply ok115_other; [exact I|apply ops_driver].
    - apply Forall_forall. exact Hls.
  Qed.
End Hold.

Lemma C115_lemma w ls s : w_spawned w = [] -> runs ls (start_sys w) = Some s ->
  (forall p, In p (w_pips (s_world s)) -> explained w ls p (s_world s)) /\
  (forall p0, In p0 (w_pips w) -> exists p, In p (w_pips (s_world s)) /\ p_name p = p_name p0 /\
     (p_sample p = p_sample p0 \/ moved ls (p_name p0))).
Proof.
  intros Hsp Hr.
  assert (Hi : rg_inv (I115 w ls) R115 (G115 w ls) (start_sys w)).
  { apply rg_start. split.
    - intros p Hp. split; [|split].
      + intros x X. left. exists p. auto.
      + intros X. left. exists p. auto.
      + intros i X. left. exists p. auto.
    - split; [intros a Ha; cbn in Ha; rewrite Hsp in Ha; destruct Ha|]. intros p0 H0. exists p0. auto. }
  destruct (inv115 w ls ls _ _ ltac:(auto) Hi Hr) as ((H & _ & H') & _). split; [exact H|exact H'].
Qed.
