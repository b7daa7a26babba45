(** * AliveProofs: managers that are served never end in the middle of their work (C104) *)
From Coq Require Import List String Ascii ZArith Bool Lia.
From Verif Require Import Base BaseFacts PyStr Types ConfigModel Prog ProgFacts World WorldFacts Replies CmdModel
  KetchupModel TomatoModel JobModel PipModel DrvModel SysModel RGFacts SysOps SpecSys SpecSys2 SpecQueue
  SysProofs SysProofs7 SpecAlive.
Import ListNotations.
Open Scope list_scope.
Open Scope Z_scope.

Definition has (i : Z) (w : world) : Prop := exists j, In j (w_jobs w) /\ j_id j = i.
Lemma has_kept i w w' : jobs_kept w w' -> has i w -> has i w'.
Proof. intros K (j & Hj & E). destruct (K j Hj) as (j' & Hj' & E' & _). exists j'. split; [auto|congruence]. Qed.
Lemma has_get i w : has i w -> exists j, get_job (w_jobs w) i = Some j /\ j_id j = i.
Proof.
  intros (j & Hj & E). unfold get_job.
  destruct (find (fun j => Z.eqb (j_id j) i) (w_jobs w)) as [x|] eqn:F.
  - exists x. split; [reflexivity|]. apply find_some in F. apply Z.eqb_eq. apply F.
  - exfalso. pose proof (find_none _ _ F j Hj) as X. cbn in X. rewrite E, Z.eqb_refl in X. discriminate.
Qed.

Section Live.
  Context (df : devicefile).

  Definition file_of (d : daemon) : Prop :=
    df_pipelines (dm_df d) = df_pipelines df /\ df_components (dm_df d) = df_components df /\
    dkeys (df_drivers (dm_df d)) = dkeys (df_drivers df).
  Definition good (w : world) : Prop :=
    rows_sound df w /\ forall d, w_daemon w = Some d -> file_of d.
  (** What stays while a manager is about to execute [o]. *)
  Definition stays (o : op) (w w1 : world) : Prop :=
    jobs_kept w w1 /\
    match o with
    | OPidZombie pid => get_proc (w_procs w) pid <> None -> get_proc (w_procs w1) pid <> None
    | _ => True
    end.
  (** Reservations are for jobs that exist and pipelines of the file. *)
  Definition careful (o : op) (w : world) : Prop :=
    match o with
    | OPipUpdate n cs => forall i, In (PJobid (Some i)) cs ->
        has i w /\ In n (dkeys (df_pipelines df)) /\ has_char "'"%char n = false
    | _ => True
    end.

  Fixpoint live (k : kind) {A : Type} (p : pgm A) (Q : A -> world -> Prop) (w : world) : Prop :=
    match p with
    | Ret a => Q a w
    | Raise _ => False
    | Op o c => forall w1, stays o w w1 -> good w1 -> served df k o w1 ->
        careful o w1 /\ (let (r, w2) := exec o w1 in live k (c r) Q w2)
    end.

  Lemma live_weaken k {A} (p : pgm A) (Q Q' : A -> world -> Prop) : forall w,
    (forall a w', Q a w' -> Q' a w') -> live k p Q w -> live k p Q' w.
  Proof.
    induction p as [a|e|o c IH]; intros w HQ; cbn; auto.
    intros H w1 H1 H2 H3. destruct (H w1 H1 H2 H3) as [Hc Hk]. split; [exact Hc|].
    destruct (exec o w1) as [r w2]. apply IH; auto.
  Qed.
  Lemma live_bind k {A B} (p : pgm A) (f : A -> pgm B) Q : forall w,
    live k p (fun a w' => live k (f a) Q w') w -> live k (bind p f) Q w.
  Proof.
    induction p as [a|e|o c IH]; intros w; cbn; auto.
    intros H w1 H1 H2 H3. destruct (H w1 H1 H2 H3) as [Hc Hk]. split; [exact Hc|].
    destruct (exec o w1) as [r w2]. apply IH; auto.
  Qed.
  Lemma live_do k o (Q : resp o -> world -> Prop) w :
    (forall w1, stays o w w1 -> good w1 -> served df k o w1 -> careful o w1 /\
       match exec o w1 with (Ok x, w2) => Q x w2 | (Err _, _) => False end) -> live k (act o) Q w.
  Proof.
    intros H w1 H1 H2 H3. destruct (H w1 H1 H2 H3) as [Hc Hk]. split; [exact Hc|].
    destruct (exec o w1) as [[x|e] w2]; exact Hk.
  Qed.
  (** Facts that survive as long as jobs do. *)
  Lemma live_frame k {A} (F : world -> Prop) (p : pgm A) (Q : A -> world -> Prop) :
    (forall w w', jobs_kept w w' -> F w -> F w') -> all_ops (may k) p ->
    forall w, F w -> live k p Q w -> live k p (fun a w' => Q a w' /\ F w') w.
  Proof.
    intros HF. induction p as [a|e|o c IH]; intros Hm w Hw; cbn; auto.
    destruct Hm as [Ho Hm]. intros H w1 H1 H2 H3. destruct (H w1 H1 H2 H3) as [Hc Hk]. split; [exact Hc|].
    pose proof (may_kept k o w1 Ho) as K. destruct (exec o w1) as [r w2]. apply IH; auto.
    eapply HF; [exact K|]. eapply HF; [apply H1|exact Hw].
  Qed.
  Lemma live_loop k {S A} (f : S -> A -> pgm S) (ok : A -> world -> Prop) (J : S -> world -> Prop) l :
    (forall a w w', jobs_kept w w' -> ok a w -> ok a w') ->
    (forall s a, all_ops (may k) (f s a)) ->
    (forall a s w, ok a w -> J s w -> live k (f s a) J w) ->
    forall s w, J s w -> (forall a, In a l -> ok a w) -> live k (forP f s l) J w.
  Proof.
    intros Hs Hm Hf. induction l as [|a l IH]; intros s w Hj Ha; cbn [forP]; [exact Hj|].
    apply live_bind. eapply live_weaken with (Q := fun s' w' => J s' w' /\ forall x, In x l -> ok x w').
    { intros s' w' [H1 H2]. apply IH; auto. }
    apply live_frame with (F := fun w' => forall x, In x l -> ok x w'); auto.
    - intros w1 w2 K H x Hx. eapply Hs; [exact K|auto].
    - intros x Hx. apply Ha. right. exact Hx.
    - apply Hf; [apply Ha; left; reflexivity|exact Hj].
  Qed.
  Lemma live_loop_pure k {S A} (f : S -> A -> pgm S) (ok : A -> Prop) l :
    (forall a s w, ok a -> live k (f s a) (fun _ _ => True) w) ->
    forall s w, (forall a, In a l -> ok a) -> live k (forP f s l) (fun _ _ => True) w.
  Proof.
    intros Hf. induction l as [|a l IH]; intros s w Ha; cbn [forP]; [exact I|].
    apply live_bind. eapply live_weaken; [|apply Hf; apply Ha; left; reflexivity].
    intros s' w' _. apply IH. intros x Hx. apply Ha. right. exact Hx.
  Qed.
  Lemma live_loopB k {S A X} (f : S -> A -> pgm (S + X)) (ok : A -> world -> Prop) (J : S + X -> world -> Prop) l :
    (forall a w w', jobs_kept w w' -> ok a w -> ok a w') ->
    (forall s a, all_ops (may k) (f s a)) ->
    (forall a s w, ok a w -> J (inl s) w -> live k (f s a) J w) ->
    forall s w, J (inl s) w -> (forall a, In a l -> ok a w) -> live k (forB f s l) J w.
  Proof.
    intros Hs Hm Hf. induction l as [|a l IH]; intros s w Hj Ha; cbn [forB]; [exact Hj|].
    apply live_bind. eapply live_weaken with (Q := fun s' w' => J s' w' /\ forall x, In x l -> ok x w').
    { intros [s'|y] w' [H1 H2]; [apply IH; auto|exact H1]. }
    apply live_frame with (F := fun w' => forall x, In x l -> ok x w'); auto.
    - intros w1 w2 K H x Hx. eapply Hs; [exact K|auto].
    - intros x Hx. apply Ha. right. exact Hx.
    - apply Hf; [apply Ha; left; reflexivity|exact Hj].
  Qed.

  Definition any_q {A : Type} (_ : A) (_ : world) : Prop := True.

  (** Operations that cannot fail. *)
  Ltac easy_op := apply live_do; intros w1 [Kj _] Hg Hs; split; [exact I|cbn [exec]; unfold ask; cbv beta iota zeta].

  Lemma live_now k (Q : Z -> world -> Prop) w :
    (forall t w1, jobs_kept w w1 -> Q t w1) -> live k (act ONow) Q w.
  Proof. intros H. easy_op. apply H. exact Kj. Qed.
  Lemma live_get k i w (Q : job -> world -> Prop) : has i w ->
    (forall j w1, jobs_kept w w1 -> j_id j = i -> has i w1 -> Q j w1) -> live k (act (OJobGet i)) Q w.
  Proof.
    intros Hi H. easy_op. pose proof (has_kept _ _ _ Kj Hi) as H1. destruct (has_get _ _ H1) as (j & E & Ei).
    rewrite E. apply H; auto.
  Qed.
  Lemma live_update k i cs w : may k (OJobUpdate i cs) -> has i w -> live k (update_job_id i cs) any_q w.
  Proof.
    intros Hm Hi. unfold update_job_id. apply live_bind. apply live_do. intros w1 [Kj _] Hg Hs. split; [exact I|].
    pose proof (may_kept k _ w1 Hm) as K2. cbn [exec snd] in *. apply live_get; [|intros; exact I].
    eapply has_kept; [exact K2|]. eapply has_kept; eauto.
  Qed.
  Lemma live_update_pip k n cs w : has_char "'"%char n = false ->
    (forall w1, jobs_kept w w1 -> careful (OPipUpdate n cs) w1) -> live k (update_pip n cs) any_q w.
  Proof.
    intros Hn Hc. unfold update_pip. apply live_bind. apply live_do. intros w1 [Kj _] Hg Hs.
    split; [apply Hc; exact Kj|]. cbn [exec]. rewrite (sql_lit_id n Hn). apply live_do. intros; split; exact I.
  Qed.

  (** Drivers *)
  Lemma live_driver_of k d cn w (Q : component * drvstate -> world -> Prop) :
    (k = KJobMgr \/ k = KPipMgr) -> file_of d -> dget (df_components df) cn <> None ->
    (forall c v p w1, jobs_kept w w1 -> dv_port v = Some p -> Q (c, v) w1) -> live k (driver_of d cn) Q w.
  Proof.
    intros Hk Hd Hc HQ. unfold driver_of. destruct Hd as (_ & E & _). rewrite E.
    destruct (dget (df_components df) cn) as [c|]; [|elim Hc; reflexivity]. cbn [need lift bind].
    apply live_bind. apply live_do. intros w1 [Kj _] Hg Hs. split; [exact I|].
    assert (S : exists v p, get_drv (w_drvs w1) (c_driver c) = Some v /\ dv_port v = Some p)
      by (destruct Hk as [-> | ->]; exact Hs).
    destruct S as (v & p & Ev & Ep). cbn [exec]. rewrite Ev. apply (HQ c v p); auto.
  Qed.
  Lemma live_ask k p c w (Q : dreply -> world -> Prop) : (k = KJobMgr \/ k = KPipMgr) ->
    (forall r w1, jobs_kept w w1 -> Q r w1) -> live k (act (ODriver (Some p) c)) Q w.
  Proof.
    intros Hk HQ. apply live_do. intros w1 [Kj _] Hg Hs. split; [exact I|].
    assert (S : w_driver w1 p c <> None) by (destruct Hk as [-> | ->]; exact Hs).
    cbn [exec]. unfold ask. destruct (w_driver w1 p c); [|elim S; reflexivity]. apply HQ. exact Kj.
  Qed.

  (** ** The pipeline manager *)
  Definition row_ok (ps : pipstate) (w : world) : Prop :=
    forall i, p_jobid ps = Some i -> has i w /\ In (p_name ps) (dkeys (df_pipelines df)).

  Context (Hsound : sound_file df).

  Lemma keys_dget n : In n (dkeys (df_pipelines df)) -> exists p, dget (df_pipelines df) n = Some p /\ In (n, p) (df_pipelines df).
  Proof.
    intros H. destruct (dget (df_pipelines df) n) as [p|] eqn:E.
    - exists p. split; [reflexivity|apply dget_In; exact E].
    - exfalso. apply dget_None in E. contradiction.
  Qed.

  Lemma live_release d n w : file_of d -> In n (dkeys (df_pipelines df)) -> live KPipMgr (release d n) any_q w.
  Proof.
    intros Hd Hn. unfold release. destruct (keys_dget n Hn) as (p & E & Hin).
    destruct (Hsound n p Hin) as (_ & Hq & Hc). pose proof Hd as (Ep & _). rewrite Ep, E. cbn [need lift bind].
    apply live_bind. eapply live_weaken; [|apply live_loop with (ok := fun cn _ => dget (df_components df) cn <> None) (J := any_q)].
    - intros _ w1 _. cbv beta. apply live_bind. eapply live_weaken; [|apply live_update_pip; [exact Hq|]].
      + intros; exact I.
      + intros w2 _ i Hi. destruct Hi as [Hi|[Hi|[]]]; discriminate.
    - auto.
    - intros s a. unfold reset_component. repeat (ops_step; cbv beta zeta); try fin. apply ops_driver_of.
    - intros cn s w1 Hcn _. unfold reset_component. apply live_bind. apply live_driver_of; auto.
      intros c v q w2 _ Ev. cbn [fst snd]. apply live_bind. rewrite Ev. apply live_ask; auto. intros; exact I.
    - exact I.
    - intros cn Hcn. apply Hc. exact Hcn.
  Qed.

  Lemma live_gone j w (Q : bool -> world -> Prop) : (forall b w1, Q b w1) -> live KPipMgr (gone j) Q w.
  Proof.
    intros HQ. unfold gone. destruct (j_pid j) as [p|].
    - apply live_bind. easy_op. destruct (get_proc (w_procs w1) p) eqn:E; cbn [is_some].
      + apply live_bind. apply live_do. intros w2 [_ Kp] _ _. split; [exact I|].
        cbn [exec]. destruct (get_proc (w_procs w2) p) eqn:E2; [apply HQ|].
        elim Kp; [congruence|reflexivity].
      + apply HQ.
    - destruct (j_connected j); [apply HQ|]. destruct (j_launched j); [|apply HQ].
      apply live_bind. apply live_now. intros; apply HQ.
  Qed.

  Lemma live_pip_pass w : live KPipMgr pip_pass any_q w.
  Proof.
    unfold pip_pass. apply live_bind. easy_op. destruct (w_daemon w1) as [d|] eqn:Ed; [|exact I].
    destruct Hg as [_ Hf]. specialize (Hf d Ed).
    apply live_bind. apply live_do. intros w9 _ [Hr _] _. split; [exact I|]. cbn [exec]; unfold ask; cbv beta iota zeta.
    apply live_loop with (ok := row_ok); [| | |exact I|].
    - intros ps a b K H i Hi. destruct (H i Hi) as [H1 H2]. split; [eapply has_kept; eauto|exact H2].
    - intros s ps. unfold pip_one, gone, release, reset_component, update_pip.
      repeat (ops_step; cbv beta zeta); try fin; apply ops_driver_of.
    - intros ps s w2 Hok _. unfold pip_one. destruct (p_jobid ps) as [i|] eqn:Ei; [|exact I].
      destruct (Hok i Ei) as [Hi Hn]. apply live_bind. apply live_get; [exact Hi|]. intros j w3 _ _ _.
      apply live_bind. apply live_gone. intros b w4. destruct b; [|exact I]. apply live_release; auto.
    - intros ps Hps i Hi. apply filter_In in Hps. destruct Hps as [Hps _].
      destruct (Hr ps i Hps Hi) as [H1 H2]. split; [exact H2|exact H1].
  Qed.

  (** ** The driver manager *)
  Lemma live_update_drv k n cs w : has_char "'"%char n = false -> live k (update_drv n cs) any_q w.
  Proof.
    intros Hn. unfold update_drv. apply live_bind. apply live_do. intros w1 _ _ _. split; [exact I|].
    cbn [exec]. rewrite (sql_lit_id n Hn). apply live_do. intros; split; exact I.
  Qed.

  Lemma live_drv_pass w : live KDrvMgr drv_pass any_q w.
  Proof.
    unfold drv_pass. apply live_bind. easy_op. destruct (w_daemon w1) as [d|] eqn:Ed; [|exact I].
    destruct Hg as [_ Hf]. specialize (Hf d Ed).
    apply live_bind. apply live_do. clear Hs. intros w9 _ _ Hs. split; [exact I|]. cbn [exec]; unfold ask; cbv beta iota zeta.
    apply live_loop_pure with (ok := fun v => In (dv_name v) (dkeys (df_drivers df)) /\ has_char "'"%char (dv_name v) = false);
      [|exact Hs].
    - intros v s w2 [Hn Hq]. unfold drv_one. apply live_bind. apply live_do. intros w3 _ _ _. split; [exact I|]. cbn [exec].
      assert (Hh : dhas (df_drivers (dm_df d)) (dv_name v) = true).
      { destruct Hf as (_ & _ & Hf). apply dhas_true. destruct (dget (df_drivers (dm_df d)) (dv_name v)) eqn:X; [eauto|].
        apply dget_None in X. rewrite Hf in X. contradiction. }
      rewrite Hh. cbn [negb]. destruct (dv_port v) as [p|].
      + destruct (_ || _); [|exact I]. unfold drv_checked, drv_check. apply live_bind.
        assert (U : forall cs w, live KDrvMgr (bind (update_drv (dv_name v) cs) (fun _ => Ret tt)) any_q w).
        { intros cs w8. apply live_bind. eapply live_weaken; [|apply live_update_drv; exact Hq]. intros; exact I. }
        unfold act, do. cbn [catch bind live]. intros w4 _ _ H4. split; [exact I|]. cbn [exec]. unfold ask.
        cbn [served] in H4. destruct (w_driver w4 p CStatus) as [r|] eqn:Er; cbn [catch bind live]; [|apply U].
        destruct (dr_ok r) eqn:Ek; [|cbn [catch bind live]; apply U]. specialize (H4 r eq_refl Ek).
        assert (Y : exists n, data_len (dr_data r) = Ok n) by (destruct (dr_data r); try contradiction; cbn; eauto).
        destruct Y as [n ->]. cbn [lift bind catch]. destruct (Z.eqb n 0); cbn [catch bind live]; [|apply U].
        intros w5 _ _ _. split; [exact I|]. cbn [exec]. unfold ask.
        destruct (w_driver w5 p CRegister); cbn [catch bind live]; apply U.
      + destruct (_ && _); [|exact I]. apply live_bind. apply live_do. intros w4 _ _ _. split; [exact I|]. cbn [exec]. apply live_bind.
        eapply live_weaken; [|apply live_update_drv; exact Hq]. intros; exact I.
  Qed.

  (** ** The job manager *)
  Lemma live_merge j w : j_jobpath j <> None -> j_respath j <> None ->
    live KJobMgr (merge_netcdfs j false) any_q w.
  Proof.
    intros H1 H2. unfold merge_netcdfs. destruct (j_jobpath j); [|elim H1; reflexivity].
    destruct (j_respath j); [|elim H2; reflexivity]. cbn [is_some assertP bind].
    apply live_do. intros w1 _ _ Hs. split; [exact I|]. cbn in Hs. cbn [exec]. rewrite Hs. exact I.
  Qed.

  Definition job_ok (j : job) (w : world) : Prop :=
    has (j_id j) w /\ (j_status j = Srd -> j_pid j <> None -> j_jobpath j <> None /\ j_respath j <> None).
  Lemma job_ok_kept j w w' : jobs_kept w w' -> job_ok j w -> job_ok j w'.
  Proof. intros K [H1 H2]. split; [eapply has_kept; eauto|exact H2]. Qed.

  Lemma live_final j s w : (s = Scd \/ s = Sce) -> has (j_id j) w ->
    live KJobMgr (bind (act ONow) (fun t => bind (update_job_id (j_id j) [JStatus s; JPid None; JCompleted (Some t)]) (fun _ => Ret tt))) any_q w.
  Proof.
    intros Hs Hi. apply live_bind. apply live_now. intros t w1 K. apply live_bind.
    eapply live_weaken; [|apply live_update; [right; cbn; left; exists s, t; auto|eapply has_kept; eauto]].
    intros; exact I.
  Qed.

  Lemma live_manage j w : job_ok j w -> live KJobMgr (manage_one tt j) any_q w.
  Proof.
    intros Hj. unfold manage_one.
    assert (R0 : forall s w, job_ok j w -> (s = j_status j \/ j_pid j = None) ->
              live KJobMgr (reconcile j s false) any_q w).
    { intros s w0 [Hi _] _. unfold reconcile. cbn [bind]. destruct s; try exact I.
      - unfold finish_crashed. apply live_final; auto.
      - unfold finish_cancelled. cbn [bind]. apply live_final; auto. }
    destruct (j_pid j) as [p|] eqn:Ep.
    - apply live_bind. easy_op. pose proof (job_ok_kept _ _ _ Kj Hj) as Hj1.
      destruct (get_proc (w_procs w1) p) eqn:E; cbn [is_some]; [|apply R0; auto].
      unfold reconcile. rewrite Ep. apply live_bind. apply live_bind. apply live_do.
      intros w2 [K2 Kp] _ _. split; [exact I|]. cbn [exec]; unfold ask; cbv beta iota zeta.
      assert (E2 : get_proc (w_procs w2) p <> None) by (apply Kp; congruence).
      destruct (get_proc (w_procs w2) p) as [pr|] eqn:E3; [|elim E2; reflexivity].
      pose proof (job_ok_kept _ _ _ K2 Hj1) as [Hi Hp].
      destruct (j_status j) eqn:Es; try exact I.
      + destruct (negb (pr_zombie pr)); [exact I|]. unfold finish_crashed. apply live_final; auto.
      + unfold finish_cancelled. rewrite Ep. destruct (negb (pr_zombie pr)); [|cbn [bind]; apply live_final; auto].
        destruct Hp as [Hp1 Hp2]; [reflexivity|congruence|].
        apply live_bind. apply live_weaken with (Q := fun _ w' => any_q tt w' /\ has (j_id j) w').
        { intros _ w3 [_ H3]. apply live_final; auto. }
        apply live_frame with (F := has (j_id j)); [intros a b; apply has_kept| |exact Hi|].
        * apply all_ops_bind; [|intros; apply ops_merge]. apply (all_ops_do (may KJobMgr) (OPidZombie p)). fin.
        * apply live_bind. apply live_do. intros w3 [_ K3] _ _. split; [exact I|]. cbn [exec]; unfold ask; cbv beta iota zeta.
          assert (E4 : get_proc (w_procs w3) p <> None) by (apply K3; congruence).
          destruct (get_proc (w_procs w3) p); [|elim E4; reflexivity]. apply live_merge; auto.
    - destruct (j_connected j); [apply R0; auto|]. destruct (j_launched j) as [l|]; [|exact I].
      apply live_bind. apply live_now. intros t w1 K. destruct (Z.ltb _ _); [|exact I].
      apply R0; [eapply job_ok_kept; eauto|auto].
  Qed.

  Lemma live_running w : live KJobMgr manage_running any_q w.
  Proof.
    unfold manage_running. apply live_bind. apply live_do. intros w1 _ _ Hs. split; [exact I|]. cbn [exec]; unfold ask; cbv beta iota zeta.
    apply live_loop with (ok := job_ok); [exact job_ok_kept| | |exact I|].
    - intros s j. unfold manage_one, reconcile, finish_cancelled, finish_crashed, update_job_id.
      repeat (ops_step; cbv beta zeta); try fin; try apply ops_merge; right; cbn; left; eauto.
    - intros j [] w2 Hj _. apply live_manage. exact Hj.
    - intros j Hj. apply filter_In in Hj. destruct Hj as [Hj _]. split; [exists j; auto|]. intros E1 E2. apply Hs; auto.
  Qed.

  Definition named (n : string) : Prop := In n (dkeys (df_pipelines df)) /\ has_char "'"%char n = false.
  Lemma live_caps d (p : pipeline) w : file_of d ->
    (forall cn, In cn (dvals (pp_components p)) -> dget (df_components df) cn <> None) ->
    live KJobMgr (forP (add_capabs d) [] (dvals (pp_components p))) any_q w.
  Proof.
    intros Hd Hc. apply live_loop with (ok := fun cn _ => dget (df_components df) cn <> None); auto.
    - intros s cn. unfold add_capabs. repeat (ops_step; cbv beta zeta); try fin. apply ops_driver_of.
    - intros cn s w1 Hcn _. unfold add_capabs. apply live_bind. apply live_driver_of; auto.
      intros c v q w2 _ Ev. cbn [fst snd]. apply live_bind. rewrite Ev. apply live_ask; auto.
      intros r w3 _. destruct (dr_ok r); [destruct (dr_data r)|]; exact I.
    - exact I.
  Qed.

  Lemma live_role d t rc w : file_of d -> dget (df_components df) (snd rc) <> None ->
    live KJobMgr (validate_role d t tt rc) any_q w.
  Proof.
    intros Hd Hc. unfold validate_role. destruct (String.eqb _ _); [|exact I].
    apply live_bind. apply live_driver_of; auto. intros c v q w2 _ Ev. cbn [fst snd]. rewrite Ev.
    apply live_bind. apply live_do. intros w3 _ _ _. split; [exact I|]. cbn [exec]; unfold ask; cbv beta iota zeta.
    destruct (w_driver w3 q _) as [r|]; [destruct (dr_ok r)|]; exact I.
  Qed.

  Lemma dvals_In {V} (d : dict V) k (v : V) : In (k, v) d -> In v (dvals d).
  Proof. intros H. unfold dvals. apply in_map_iff. exists (k, v). auto. Qed.

  Lemma live_validate d m (p : pipeline) w : file_of d ->
    (forall cn, In cn (dvals (pp_components p)) -> dget (df_components df) cn <> None) ->
    live KJobMgr (method_validate d m p) any_q w.
  Proof.
    intros Hd Hc. unfold method_validate. apply live_bind.
    apply live_weaken with (Q := any_q); [intros [[]|[]] w1 _; exact I|].
    apply live_loopB with (ok := fun _ _ => True) (J := any_q); auto.
    - intros s t. unfold validate_task, validate_role. repeat (ops_step; cbv beta zeta); try fin; apply ops_driver_of.
    - intros t s w1 _ _. unfold validate_task. apply live_bind.
      apply live_weaken with (Q := any_q); [intros [[]|[]] w2 _; exact I|].
      apply live_loopB with (ok := fun rc _ => dget (df_components df) (snd rc) <> None) (J := any_q); auto.
      + intros s' rc. unfold validate_role. repeat (ops_step; cbv beta zeta); try fin; apply ops_driver_of.
      + intros rc [] w2 Hrc _. apply live_role; auto.
      + exact I.
      + intros [r cn] Hin. apply Hc. eapply dvals_In. exact Hin.
    - exact I.
  Qed.

  Lemma live_match d m w : file_of d ->
    live KJobMgr (find_matching_pipelines d m) (fun l _ => Forall named l) w.
  Proof.
    intros Hd. unfold find_matching_pipelines. pose proof Hd as (Ep & _). rewrite Ep.
    apply live_loop with (ok := fun p _ => exists n, In (n, p) (df_pipelines df)); auto.
    - intros s p. unfold match_pipeline, add_capabs, method_validate, validate_task, validate_role.
      repeat (ops_step; cbv beta zeta); try fin; apply ops_driver_of.
    - intros p l w1 (n & Hin) Hl. destruct (Hsound n p Hin) as (En & Hq & Hc).
      unfold match_pipeline. destruct (negb _); [exact Hl|]. apply live_bind.
      eapply live_weaken; [|apply live_caps; auto]. intros caps w2 _. cbv beta.
      destruct (subset _ _); [|exact Hl]. apply live_bind.
      eapply live_weaken; [|apply live_validate; auto]. intros v w3 _. destruct v; [|exact Hl]. cbn [live].
      apply Forall_app. split; [exact Hl|]. constructor; [|constructor]. rewrite En. split; [|exact Hq].
      unfold dkeys. apply in_map_iff. exists (n, p). auto.
    - intros p Hp. unfold dvals in Hp. apply in_map_iff in Hp. destruct Hp as ([n q] & <- & Hin). eauto.
  Qed.

  Definition pair_ok (m : Z * list string) (w : world) : Prop := has (fst m) w /\ Forall named (snd m).
  Lemma pair_ok_kept m w w' : jobs_kept w w' -> pair_ok m w -> pair_ok m w'.
  Proof. intros K [H1 H2]. split; [eapply has_kept; eauto|exact H2]. Qed.

  Lemma ops_match d m : all_ops (may KJobMgr) (find_matching_pipelines d m).
  Proof.
    unfold find_matching_pipelines, match_pipeline, add_capabs, method_validate, validate_task, validate_role.
    repeat (ops_step; cbv beta zeta); try fin; apply ops_driver_of.
  Qed.

  Lemma live_check d w : file_of d ->
    live KJobMgr (check_queued d) (fun l w' => forall m, In m l -> pair_ok m w') w.
  Proof.
    intros Hd. unfold check_queued. apply live_bind. apply live_do. intros w1 _ _ _. split; [exact I|]. cbn [exec]; unfold ask; cbv beta iota zeta.
    apply live_loop with (ok := fun j => has (j_id j)) (J := fun l w' => forall m, In m l -> pair_ok m w').
    - intros j a b. apply has_kept.
    - intros s j. unfold check_one, update_job_id. apply all_ops_bind; [apply ops_match|]. intros l.
      repeat (ops_step; cbv beta zeta); try fin.
    - intros j acc w2 Hj Hacc. unfold check_one. apply live_bind.
      set (F := fun w' => has (j_id j) w' /\ forall m, In m acc -> pair_ok m w').
      assert (HF : forall a b, jobs_kept a b -> F a -> F b).
      { intros a b K [H1 H2]. split; [eapply has_kept; eauto|]. intros m Hm. eapply pair_ok_kept; eauto. }
      eapply live_weaken; [|apply live_frame with (F := F); [exact HF|apply ops_match|split; auto|apply live_match; exact Hd]].
      intros pips w3 [Hp H3]. cbv beta.
      assert (Fin : forall w, F w -> forall m, In m (acc ++ [(j_id j, pips)]) -> pair_ok m w).
      { intros w0 [H1 H2] m Hm. apply in_app_iff in Hm. destruct Hm as [Hm|[<-|[]]]; [auto|]. split; auto. }
      apply live_bind. apply live_weaken with (Q := fun _ w' => any_q tt w' /\ F w').
      { intros _ w4 [_ H4]. cbn [live]. apply Fin. exact H4. }
      apply live_frame with (F := F); [exact HF| |exact H3|].
      + unfold update_job_id. repeat (ops_step; cbv beta zeta); try fin.
      + destruct pips; [exact I|]. destruct (j_status j); try exact I. apply live_bind.
        eapply live_weaken; [|apply live_update; [right; cbn; auto|apply H3]]. intros; exact I.
    - intros m [].
    - intros j Hj. apply filter_In in Hj. exists j. split; [apply Hj|reflexivity].
  Qed.

  Lemma live_launch d j n w : file_of d -> has (j_id j) w -> named n -> live KJobMgr (launch d j n) any_q w.
  Proof.
    intros Hd Hj [Hn Hq]. unfold launch. apply live_bind. apply live_do. intros w1 [K1 _] _ Hs. split; [exact I|].
    pose proof (has_kept _ _ _ K1 Hj) as H1. cbn [exec]. cbn in Hs.
    destruct (has_dir (w_dirs w1) (job_dir d (j_id j))) eqn:E.
    { exfalso. apply Hs. unfold has_dir in E. apply existsb_exists in E. destruct E as (x & Hx & Ex).
      unfold jobdir_eqb in Ex. apply andb_prop in Ex. destruct Ex as [E1 E2].
      apply String.eqb_eq in E1. apply Z.eqb_eq in E2. destruct x, (job_dir d (j_id j)). cbn in *. subst. exact Hx. }
    assert (H1' : has (j_id j) (set_dirs w1 (job_dir d (j_id j) :: w_dirs w1))) by exact H1.
    destruct (keys_dget n Hn) as (p & E2 & _). pose proof Hd as (Ep & _). rewrite Ep, E2. cbn [need lift bind].
    apply live_bind. apply live_do. intros w2 [K2 _] _ _. split; [exact I|].
    pose proof (has_kept _ _ _ K2 H1') as H2. cbn [exec].
    assert (H2' : has (j_id j) (set_jobdata w2 ((job_dir d (j_id j), job_args d j n) :: w_jobdata w2))) by exact H2.
    apply live_bind. apply live_weaken with (Q := fun _ w' => any_q tt w' /\ has (j_id j) w').
    { intros _ w3 [_ H3]. cbv beta. apply live_bind. apply live_do. intros w4 [K4 _] _ _. split; [exact I|].
      pose proof (has_kept _ _ _ K4 H3) as H4. cbn [exec].
      apply live_bind. apply live_now. intros t w5 K5. apply live_bind.
      eapply live_weaken; [|apply live_update; [right; cbn; eauto|eapply has_kept; [exact K5|exact H4]]]. intros; exact I. }
    apply live_frame with (F := has (j_id j)); [intros a b; apply has_kept| |exact H2'|].
    - apply ops_update_pip. right. cbn. eauto.
    - eapply live_weaken; [|apply live_update_pip; [exact Hq|]]; [intros; exact I|].
      intros w3 K3 i Hi. destruct Hi as [Hi|[Hi|[]]]; [|discriminate]. inversion Hi. subst i.
      split; [eapply has_kept; [exact K3|exact H2']|]. split; auto.
  Qed.

  Lemma sort_In x l : In x (sort_jobs l) -> In x l.
  Proof.
    assert (X : forall y l, In x (insert_sorted y l) -> x = y \/ In x l).
    { intros y. induction l0 as [|z l0 IH]; cbn; [intuition|]. destruct (Z.leb _ _); cbn; [intuition|].
      intros [H|H]; [auto|]. destruct (IH H); auto. }
    induction l as [|y l IH]; cbn; [auto|]. intros H. apply X in H. destruct H as [->|H]; auto.
  Qed.

  Lemma live_action d l w : file_of d -> (forall m, In m l -> pair_ok m w) ->
    live KJobMgr (action_queued d l) any_q w.
  Proof.
    intros Hd Hl. unfold action_queued. apply live_bind. apply live_do. intros w1 [K1 _] _ _. split; [exact I|]. cbn [exec]; unfold ask; cbv beta iota zeta.
    apply live_bind. apply live_weaken with (Q := any_q); [intros; exact I|].
    apply live_loop with (ok := pair_ok); [exact pair_ok_kept| | |exact I|].
    - intros s m. unfold action_one, try_pip, launch, update_pip, update_job_id.
      repeat (ops_step; cbv beta zeta); try fin.
    - intros m s w2 [Hi Hn] _. unfold action_one. apply live_bind. apply live_get; [exact Hi|].
      intros j w3 K3 Ej H3. apply live_bind. apply live_weaken with (Q := any_q).
      { intros [a|a] w4 _; exact I. }
      apply live_loopB with (ok := fun n w' => named n /\ has (j_id j) w') (J := any_q).
      + intros n a b K [H1 H2]. split; [exact H1|eapply has_kept; eauto].
      + intros a n. unfold try_pip, launch, update_pip, update_job_id. repeat (ops_step; cbv beta zeta); try fin.
      + intros n a w4 [H4 H5] _. unfold try_pip. destruct (dget a n); [|exact I].
        destruct (_ && _); [|exact I]. apply live_bind. eapply live_weaken; [|apply live_launch; eauto]. intros; exact I.
      + exact I.
      + intros n Hin. rewrite Forall_forall in Hn. split; [auto|]. rewrite Ej. exact H3.
    - intros m Hm. eapply pair_ok_kept; [exact K1|]. apply Hl. apply sort_In. exact Hm.
  Qed.

  Lemma live_job_pass w : live KJobMgr job_pass any_q w.
  Proof.
    unfold job_pass. apply live_bind. easy_op. destruct (w_daemon w1) as [d|] eqn:Ed; [|exact I].
    destruct Hg as [_ Hf]. specialize (Hf d Ed).
    apply live_bind. eapply live_weaken; [|apply live_running]. intros _ w2 _. cbv beta.
    apply live_bind. eapply live_weaken; [|apply live_check; exact Hf]. intros l w3 Hl. cbv beta.
    apply live_action; auto.
  Qed.
End Live.

(** ** The system *)
Section Sys.
  Context (df : devicefile) (Hsound : sound_file df).

  Lemma rows_exec k o w : may k o -> (k = KJobMgr -> careful df o w) -> rows_sound df w ->
    rows_sound df (snd (exec o w)).
  Proof.
    intros Hm Hc Hr. pose proof (may_kept k o w Hm) as K.
    assert (X : forall p i, In p (w_pips (snd (exec o w))) -> p_jobid p = Some i ->
      (exists q, In q (w_pips w) /\ p_name p = p_name q /\ p_jobid q = Some i) \/
      (has i w /\ In (p_name p) (dkeys (df_pipelines df)))).
    { intros p i. revert K. op_cases o; intros K; try (intros Hp Hi; left; exists p; auto; fail).
      - unfold set_pips. cbn. intros Hp Hi. apply in_app_iff in Hp. destruct Hp as [Hp|[<-|[]]]; [left; exists p; auto|].
        destruct Hm as [[]|Hm]. destruct k; try contradiction. destruct Hm as [m ->]. discriminate.
      - unfold set_pips, upd_pips. cbn. intros Hp Hi. apply in_map_iff in Hp. destruct Hp as (q & <- & Hq).
        destruct (String.eqb (p_name q) s) eqn:En; [|left; exists q; auto].
        apply String.eqb_eq in En. destruct Hm as [[]|Hm]. destruct k; cbn in Hm; try contradiction.
        + left. exists q. split; [exact Hq|]. destruct Hm as [(x & ->)|[-> | ->]]; auto.
        + destruct Hm as [i' ->]. destruct (Hc eq_refl i') as (H1 & H2 & H3); [left; reflexivity|].
          cbn in Hi. inversion Hi. subst i'. right. split; [exact H1|]. cbn. rewrite (sql_lit_id n H3) in Heqo.
          inversion Heqo. congruence.
        + subst cs. discriminate.
        + destruct Hm as [_ [b ->]]. discriminate. }
    intros p i Hp Hi. destruct (X p i Hp Hi) as [(q & Hq & En & Eq)|[H1 H2]].
    - destruct (Hr q i Hq Eq) as [H1 H2]. rewrite En. split; [exact H1|]. eapply has_kept; eauto.
    - split; [exact H2|]. eapply has_kept; eauto.
  Qed.

  Lemma live_stays k (p : pgm (option reply)) Q w w' :
    match p with Op o _ => stays o w w' | _ => True end ->
    live df k p (fun a _ => Q a) w -> live df k p (fun a _ => Q a) w'.
  Proof.
    destruct p as [a|e|o c]; cbn; auto. intros [S1 S2] H w1 [T1 T2]. apply H. split; [eapply kept_trans; eauto|].
    destruct o; auto.
  Qed.

  Lemma proc_stays l s s' pid : step l s = Some s' -> l <> LProcEnd pid false ->
    get_proc (w_procs (s_world s)) pid <> None -> get_proc (w_procs (s_world s')) pid <> None.
  Proof.
    intros Hs Hl Hp.
    assert (A : forall x (l : list proc), get_proc l pid <> None -> get_proc (x :: l) pid <> None).
    { intros x l0 H. unfold get_proc. cbn. destruct (Z.eqb (pr_pid x) pid); [discriminate|exact H]. }
    destruct l; cbn in Hs;
      try (repeat match type of Hs with
             | match ?x with _ => _ end = _ => destruct x eqn:?; try discriminate
             end; injection Hs as <-; exact Hp).
    - destruct (nth_error (s_threads s) n) as [t|]; [|discriminate]. unfold step_thread in Hs.
      destruct (t_pgm t) as [a|e|o c]; [|discriminate|].
      + destruct (mgr_pass (t_kind t)); [|discriminate]. destruct (t_done t); [discriminate|].
        destruct (s_run s); injection Hs as <-; exact Hp.
      + pose proof (procs_exec o (s_world s)) as E. destruct (exec o (s_world s)) as [r w]. injection Hs as <-.
        cbn in *. rewrite E. exact Hp.
    - destruct (nth_error (w_spawned (s_world s)) i); [|discriminate].
      destruct (get_proc (w_procs (s_world s)) pid0); [discriminate|]. injection Hs as <-. cbn [s_world w_procs set_procs].
      apply A. exact Hp.
    - destruct (existsb _ _); [discriminate|]. injection Hs as <-. cbn [s_world w_procs set_procs set_world].
      destruct zombie.
      + revert Hp. unfold get_proc. induction (w_procs (s_world s)) as [|x l0 IH]; cbn; [auto|].
        destruct (Z.eqb (pr_pid x) pid0) eqn:E; cbn.
        * apply Z.eqb_eq in E. rewrite E. destruct (Z.eqb pid0 pid); [discriminate|exact IH].
        * destruct (Z.eqb (pr_pid x) pid); [discriminate|exact IH].
      + assert (Hne : pid0 <> pid) by congruence. revert Hp. unfold get_proc.
        induction (w_procs (s_world s)) as [|x l0 IH]; cbn; [auto|].
        destruct (Z.eqb (pr_pid x) pid0) eqn:E; cbn.
        * apply Z.eqb_eq in E. destruct (Z.eqb (pr_pid x) pid) eqn:E2; [apply Z.eqb_eq in E2; congruence|exact IH].
        * destruct (Z.eqb (pr_pid x) pid); [discriminate|exact IH].
    - destruct (get_proc (w_procs (s_world s)) pid0); [discriminate|]. injection Hs as <-. cbn [s_world w_procs set_procs set_world].
      apply A. exact Hp.
  Qed.

  Definition in_loop (t : thread) : Prop := is_mgr (t_kind t) = true /\ (t_kind t = KDrvMgr -> t_done t = false).
  Definition alive_inv (s : sys) : Prop := rows_sound df (s_world s) /\
    forall t, In t (s_threads s) -> in_loop t -> live df (t_kind t) (t_pgm t) (fun _ _ => True) (s_world s).

  Lemma live_pass k p w : mgr_pass k = Some p -> live df k (no_reply p) (fun _ _ => True) w.
  Proof.
    intros Hp. unfold no_reply. apply live_bind. eapply live_weaken with (Q := any_q); [intros; exact I|].
    destruct k; inversion Hp; subst p; [apply live_job_pass|apply live_pip_pass|apply live_drv_pass]; exact Hsound.
  Qed.

  Lemma alive_step l s s' : rg_inv wf_queue any basic s -> same_file df s -> serving df l s ->
    alive_inv s -> step l s = Some s' -> alive_inv s'.
  Proof.
    intros Hb Hf Hl [Hr Ht] Hs. pose proof (basic_step_kept _ _ _ Hb Hs) as Kj.
    assert (Hold : (forall n, l <> LStep n) -> rows_sound df (s_world s') /\
      forall t, In t (s_threads s) -> in_loop t -> live df (t_kind t) (t_pgm t) (fun _ _ => True) (s_world s')).
    { intros Hn. destruct (step_env _ _ _ Hn Hs) as [(E1 & E2 & E3 & _) _]. split.
      - intros p i. rewrite E3, E1. apply Hr.
      - intros t Hin Hil. eapply live_stays with (Q := fun _ => True); [|apply Ht; auto].
        destruct (t_pgm t) as [a|e|o c] eqn:Ep; auto. split; [exact Kj|]. destruct o; auto.
        eapply proc_stays; [exact Hs|]. intros ->. apply (Hl t c Hin); [apply Hil|exact Ep]. }
    assert (Hadd : forall w ts r t, (forall n, l <> LStep n) -> s' = mkSys w ts r ->
      ts = (s_threads s ++ [t])%list -> (in_loop t -> exists a, t_pgm t = Ret a) -> alive_inv s').
    { intros w ts r t Hn -> -> Hnew. destruct (Hold Hn) as [H1 H2]. split; [exact H1|].
      cbn in *. intros x Hx Hil. apply in_app_iff in Hx. destruct Hx as [Hx|[<-|[]]]; [auto|].
      destruct (Hnew Hil) as [a ->]. exact I. }
    assert (Hsame : (forall n, l <> LStep n) -> (forall t, In t (s_threads s') -> In t (s_threads s)) -> alive_inv s').
    { intros Hn He. destruct (Hold Hn) as [H1 H2]. split; [exact H1|]. auto. }
    destruct l; cbn in Hs;
      try (repeat match type of Hs with
             | match ?x with _ => _ end = _ => destruct x eqn:?; try discriminate
             end; injection Hs as Hs'; apply Hsame; [congruence|];
           rewrite <- Hs'; cbn; intros x Hx; try apply filter_In in Hx; tauto).
    - injection Hs as Hs'. eapply Hadd; [congruence|symmetry; exact Hs'|reflexivity|]. intros [X _]. discriminate.
    - clear Hold Hadd Hsame. destruct (nth_error (s_threads s) n) as [t|] eqn:En; [|discriminate].
      pose proof (nth_error_In _ _ En) as Hin. unfold step_thread in Hs.
      destruct (t_pgm t) as [a|e|o c] eqn:Ep; [|discriminate|].
      + destruct (mgr_pass (t_kind t)) as [p|] eqn:Em; [|discriminate]. destruct (t_done t); [discriminate|].
        assert (X : forall q b, (in_loop (mkThread (t_kind t) q b) -> live df (t_kind t) q (fun _ _ => True) (s_world s)) ->
          alive_inv (set_threads s (set_nth n (mkThread (t_kind t) q b) (s_threads s)))).
        { intros q b Hq. split; [exact Hr|]. cbn. intros x Hx Hil. apply In_nth_error in Hx. destruct Hx as [m Hx].
          apply nth_set_nth in Hx. destruct Hx as [[-> ->]|[_ Hx]]; [apply Hq; exact Hil|].
          apply Ht; [eapply nth_error_In; eauto|exact Hil]. }
        destruct (s_run s); injection Hs as <-; apply X.
        * intros _. apply live_pass. exact Em.
        * intros [Hm Hd]. cbn in Hd. destruct (t_kind t); try exact I. discriminate (Hd eq_refl).
      + assert (Hmay : may (t_kind t) o).
        { destruct Hb as (Hw & _ & Hall). specialize (Hall t Hin). rewrite Ep in Hall. cbn in Hall.
          destruct (Hall (s_world s)) as [[Hm _] _]; [split; [exact Hw|exact I]|exact Hm]. }
        assert (Hown : in_loop t -> careful df o (s_world s) /\
           (let (r, w2) := exec o (s_world s) in live df (t_kind t) (c r) (fun _ _ => True) w2)).
        { intros Hil. pose proof (Ht t Hin Hil) as X. rewrite Ep in X. apply X.
          - split; [apply kept_refl|]. destruct o; auto.
          - split; [exact Hr|]. intros d Ed. apply Hf. exact Ed.
          - eapply Hl; eauto. apply Hil. }
        assert (Hr' : rows_sound df (snd (exec o (s_world s)))).
        { eapply rows_exec; [exact Hmay| |exact Hr]. intros Ek. apply Hown. split; [rewrite Ek; reflexivity|]. rewrite Ek. intros X. discriminate X. }
        pose proof (procs_exec o (s_world s)) as Epr.
        destruct (exec o (s_world s)) as [r w2] eqn:Ee. cbn in Hr', Epr. injection Hs as <-. split; [exact Hr'|].
        cbn in *. intros x Hx Hil. apply In_nth_error in Hx. destruct Hx as [m Hx].
        apply nth_set_nth in Hx. destruct Hx as [[-> ->]|[_ Hx]]; [apply Hown; exact Hil|].
        eapply live_stays with (Q := fun _ => True); [|apply Ht; [eapply nth_error_In; eauto|exact Hil]].
        destruct (t_pgm x) as [a|e|o' c']; auto. split; [exact Kj|]. destruct o'; auto. rewrite Epr. auto.
    - destruct (nth_error (s_threads s) n) as [t|] eqn:En; [|discriminate].
      destruct (is_mgr (t_kind t)) eqn:Em; [discriminate|]. injection Hs as <-. destruct (Hold ltac:(congruence)) as [H1 H2].
      split; [exact H1|]. cbn in *. intros x Hx Hil. apply In_nth_error in Hx. destruct Hx as [m Hx].
      apply nth_set_nth in Hx. destruct Hx as [[-> ->]|[_ Hx]]; [destruct Hil as [Hil _]; cbn in Hil; congruence|].
      apply H2; [eapply nth_error_In; eauto|exact Hil].
    - destruct (w_daemon (s_world s)); [|discriminate]. destruct (mgr_pass k) eqn:Em; [|discriminate].
      destruct (has_kind k s); [discriminate|]. injection Hs as Hs'.
      eapply Hadd; [congruence|symmetry; exact Hs'|reflexivity|]. cbn. eauto.
    - destruct (nth_error (w_spawned (s_world s)) i); [|discriminate].
      destruct (get_proc (w_procs (s_world s)) pid); [discriminate|]. injection Hs as Hs'.
      eapply Hadd; [congruence|symmetry; exact Hs'|reflexivity|]. intros [X _]. discriminate.
    - injection Hs as Hs'. eapply Hadd; [congruence|symmetry; exact Hs'|reflexivity|]. intros [X _]. discriminate.
  Qed.

  Lemma alive_runs ls : forall s s', rg_inv wf_queue any basic s -> along (same_file df) ls s ->
    each_step (serving df) ls s -> alive_inv s -> runs ls s = Some s' -> alive_inv s'.
  Proof.
    induction ls as [|l ls IH]; intros s s' Hb Ha He Hi Hr; cbn in *.
    - inversion Hr. subst. exact Hi.
    - destruct (step l s) as [s1|] eqn:E; [|discriminate]. destruct Ha as [Ha1 Ha2]. destruct He as [He1 He2].
      assert (Hb1 : rg_inv wf_queue any basic s1) by (apply (basic_inv [l] s s1 Hb); cbn; rewrite E; reflexivity).
      exact (IH s1 s' Hb1 Ha2 He2 (alive_step l s s1 Hb Ha1 He1 Hi E) Hr).
  Qed.

  Lemma C104_lemma w ls s k e : wf_queue w -> rows_sound df w ->
    along (same_file df) ls (start_sys w) -> each_step (serving df) ls (start_sys w) ->
    runs ls (start_sys w) = Some s -> ~ broken s k e.
  Proof.
    intros Hw Hr Ha He Hs [Hk (t & Hin & <- & Ep & Hd)].
    assert (A : alive_inv s).
    { eapply alive_runs; [apply basic_init; exact Hw|exact Ha|exact He| |exact Hs]. split; [exact Hr|intros t' []]. }
    destruct A as [_ A]. specialize (A t Hin (conj Hk Hd)). rewrite Ep in A. exact A.
  Qed.
End Sys.
