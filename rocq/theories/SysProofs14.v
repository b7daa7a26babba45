(** * SysProofs14: managers that have ended (C92) *)
From Coq Require Import List String Ascii ZArith Bool Sorted Lia.
From Verif Require Import Base PyStr BaseFacts Types ConfigModel Prog ProgFacts World WorldFacts Replies
  CmdModel KetchupModel TomatoModel JobModel PipModel DrvModel SysModel RGFacts SysOps
  SpecQueue SpecSys SpecSys2 SpecStuck SysProofs SysProofs2 SysProofs3 SysProofs6 SpecJob SuperProofs.
Import ListNotations.
Open Scope list_scope.
Open Scope Z_scope.

Lemma mgr_eqb_refl k : is_mgr k = true -> mgr_eqb k k = true.
Proof. destruct k; auto; discriminate. Qed.
Lemma mgr_eqb_eq k k' : mgr_eqb k k' = true -> k = k'.
Proof. destruct k, k'; cbn; congruence. Qed.

Lemma stuck_step l s s' k e : daemon_stays l -> stuck k e s -> step l s = Some s' -> stuck k e s'.
Proof.
  intros [L1 L2] (Hm & t & Hin & Hk & Hp) Hs. split; [exact Hm|].
  assert (A : forall ts, s_threads s' = s_threads s ++ ts -> exists t0, In t0 (s_threads s') /\ t_kind t0 = k /\ t_pgm t0 = Raise e).
  { intros ts E. exists t. rewrite E. split; [apply in_app_iff; now left|auto]. }
  assert (A0 : s_threads s' = s_threads s -> exists t0, In t0 (s_threads s') /\ t_kind t0 = k /\ t_pgm t0 = Raise e).
  { intros E. apply (A []). rewrite app_nil_r. exact E. }
  assert (B : forall n t0 t1 w r, nth_error (s_threads s) n = Some t0 -> t_kind t0 <> k \/ t_pgm t0 <> Raise e ->
    s' = mkSys w (set_nth n t1 (s_threads s)) r -> exists t0, In t0 (s_threads s') /\ t_kind t0 = k /\ t_pgm t0 = Raise e).
  { intros n t0 t1 w r En Hd ->. exists t. split; [|auto]. cbn.
    apply In_nth_error in Hin. destruct Hin as [m Em].
    assert (m <> n) by (intros ->; rewrite En in Em; inversion Em; subst; tauto).
    clear - Em H. revert n m Em H. induction (s_threads s) as [|x l IH]; intros [|n] [|m] Em H; cbn in *; try discriminate; auto.
    - congruence.
    - right. eapply nth_error_In; eauto.
    - left. congruence.
    - right. eapply IH; eauto. }
  destruct l; cbn in Hs;
    repeat match type of Hs with (match ?x with _ => _ end) = _ => destruct x eqn:?; try discriminate end;
    try congruence;
    try (injection Hs as <-; apply A0; reflexivity);
    try (injection Hs as <-; eapply A; reflexivity).
  - unfold step_thread in Hs. destruct (t_pgm t0) as [a|e0|o c] eqn:Ep; [|discriminate|].
    + destruct (mgr_pass (t_kind t0)); [|discriminate]. destruct (t_done t0); [discriminate|].
      destruct (s_run s); injection Hs as Hs'; (eapply B; [exact Heqo|right; rewrite Ep; discriminate|symmetry; exact Hs']).
    + destruct (exec o (s_world s)) as [r w2]. injection Hs as Hs'.
      eapply B; [exact Heqo|right; rewrite Ep; discriminate|symmetry; exact Hs'].
  - injection Hs as Hs'. eapply B; [exact Heqo|left; intros E; congruence|symmetry; exact Hs'].
Qed.

(** No other thread does the work of an ended manager. *)
Lemma stuck_op k e s n t o c : one_each (s_threads s) -> stuck k e s ->
  nth_error (s_threads s) n = Some t -> t_pgm t = Op o c -> t_kind t <> k.
Proof.
  intros Hu (Hm & t0 & Hin & Hk & Hp) En Ep E.
  apply In_nth_error in Hin. destruct Hin as [m Em].
  assert (X : n = m). { apply (Hu n m t t0 En Em). rewrite E, Hk. apply mgr_eqb_refl. exact Hm. }
  subst. rewrite En in Em. inversion Em. subst. rewrite Hp in Ep. discriminate.
Qed.

(** What is only done by manager [k]. *)
Definition undone (k : kind) (w w' : world) : Prop :=
  match k with
  | KJobMgr => starts w' = starts w /\ pids_kept w w'
  | KDrvMgr => forall n, driver_starts n w' = driver_starts n w
  | _ => True
  end.
Lemma pids_refl w : pids_kept w w.
Proof. intros i j H Hp. eauto. Qed.
Lemma pids_eq w w' : w_jobs w' = w_jobs w -> pids_kept w w'.
Proof. unfold pids_kept. intros ->. eauto. Qed.
Lemma undone_refl k w : undone k w w.
Proof. destruct k; cbn; auto. split; [reflexivity|apply pids_refl]. Qed.
Lemma undone_trans k a b c : undone k a b -> undone k b c -> undone k a c.
Proof.
  destruct k; cbn; auto.
  - intros [E1 P1] [E2 P2]. split; [congruence|]. intros i j H Hp.
    destruct (P1 i j H Hp) as (j1 & H1 & Hp1). destruct (P2 i j1 H1 Hp1) as (j2 & H2 & Hp2). eauto.
  - intros H1 H2 n. rewrite H2. apply H1.
Qed.
Lemma undone_eq k w w' : w_jobs w' = w_jobs w -> w_log w' = w_log w -> undone k w w'.
Proof.
  intros E1 E2. destruct k; cbn; auto.
  - unfold starts, pids_kept. rewrite E1, E2. split; [reflexivity|eauto].
  - intros n. unfold driver_starts. rewrite E2. reflexivity.
Qed.
Lemma may_undone k k' o w : is_mgr k = true -> may k' o -> k' <> k -> undone k w (snd (exec o w)).
Proof.
  intros Hm Ho Hk. destruct k; try discriminate; cbn.
  - split; [eapply starts_may; eauto|]. op_cases o; try (apply pids_eq; reflexivity).
    + intros i j0 H Hp. exists j0. split; [|exact Hp]. cbn [set_jobs w_jobs]. rewrite get_job_app, H. reflexivity.
    + intros i j0 H Hp. cbn [set_jobs w_jobs]. rewrite get_job_upd, H. cbn [option_map].
      destruct (Z.eqb i id); eexists; (split; [reflexivity|]); [|exact Hp].
      destruct Ho as [[]|Ho]. destruct k'; cbn in Ho; try contradiction; try congruence.
      * destruct Ho as [-> | ->]; exact Hp.
      * destruct Ho as [(t & ->)|[(r & s & p & ->)|(s & t & _ & ->)]]; cbn; try exact Hp; discriminate.
  - exact I.
  - intros n. op_cases o; try reflexivity. destruct Ho as [[]|Ho]. destruct k'; cbn in Ho; try contradiction; congruence.
Qed.

Lemma C92_lemma w ls0 s k e ls s' : runs ls0 (start_sys w) = Some s -> stuck k e s ->
  Forall daemon_stays ls -> runs ls s = Some s' ->
  stuck k e s' /\ undone k (s_world s) (s_world s').
Proof.
  intros H0 Hst Hl H. pose proof (may_inv _ _ _ H0) as B. clear H0. revert s B Hst H.
  induction ls as [|l ls IH]; intros s B Hst H; cbn in H.
  - inversion H. subst. split; [exact Hst|apply undone_refl].
  - inversion Hl as [|x y Hl1 Hl2]. subst. destruct (step l s) as [s1|] eqn:E; [|discriminate].
    destruct (IH Hl2 s1 (may_step _ _ _ B E) (stuck_step _ _ _ _ _ Hl1 Hst E) H) as [S1 U1].
    split; [exact S1|]. eapply undone_trans; [|exact U1].
    assert (D : (exists n, l = LStep n) \/ forall n, l <> LStep n).
    { destruct l; try (right; congruence). left. eauto. }
    destruct D as [(n & ->)|Hn].
    + destruct (rg_guar _ _ _ (fun _ _ => I) _ _ _ B E) as [Ew|(t & o & c & En & Ep & Hm & Ew)]; rewrite Ew.
      * apply undone_refl.
      * eapply may_undone; [apply Hst|exact Hm|]. refine (stuck_op _ _ _ _ _ _ _ (proj1 (proj2 B)) Hst En Ep).
    + destruct (step_env _ _ _ Hn E) as ((E1 & _ & _ & _ & _ & _ & E2) & _). apply undone_eq; assumption.
Qed.

(** A pipeline with a job keeps it unless its job process goes on. *)
Lemma may_busy k' o w n p : has_char "'" n = false -> may k' o -> k' <> KPipMgr -> get_pip (w_pips w) n = Some p -> p_jobid p <> None ->
  (exists p', get_pip (w_pips (snd (exec o w))) n = Some p' /\ p_jobid p' <> None) \/
  (exists pid a, k' = KJob pid a /\ ja_pipeline a = n).
Proof.
  intros Hq Ho Hk Hp Hj.
  assert (S : forall w', w_pips w' = w_pips w -> exists p', get_pip (w_pips w') n = Some p' /\ p_jobid p' <> None).
  { intros w' ->. eauto. }
  op_cases o; try (left; apply S; reflexivity).
  - left. exists p. cbn [set_pips w_pips]. rewrite get_pip_app, Hp. auto.
  - cbn [set_pips w_pips]. rewrite get_pip_upd, Hp. cbn [option_map].
    match goal with |- context [String.eqb n ?m] => destruct (String.eqb_spec n m) as [<-|Hn]; [|left; eauto] end.
    assert (n0 = n) by (eapply sql_lit_plain; eauto). subst n0.
    destruct Ho as [[]|Ho]. destruct k'; cbn in Ho; try contradiction; try congruence.
    + left. eexists. split; [reflexivity|]. destruct Ho as [(s & ->)|[-> | ->]]; exact Hj.
    + left. eexists. split; [reflexivity|]. destruct Ho as (id & ->). discriminate.
    + right. destruct Ho as [-> _]. eauto.
Qed.

Lemma C92_busy_lemma w ls0 s e ls s' n p : has_char "'" n = false -> runs ls0 (start_sys w) = Some s -> stuck KPipMgr e s ->
  Forall daemon_stays ls -> runs ls s = Some s' ->
  get_pip (w_pips (s_world s)) n = Some p -> p_jobid p <> None ->
  (exists p', get_pip (w_pips (s_world s')) n = Some p' /\ p_jobid p' <> None) \/
  (exists ls1 m ls2 s1 t pid a, ls = (ls1 ++ LStep m :: ls2)%list /\ runs ls1 s = Some s1 /\
     nth_error (s_threads s1) m = Some t /\ t_kind t = KJob pid a /\ ja_pipeline a = n).
Proof.
  intros Hq H0 Hst Hl H. pose proof (may_inv _ _ _ H0) as B. clear H0. revert s p B Hst H.
  induction ls as [|l ls IH]; intros s p B Hst H Hp Hj; cbn in H.
  - inversion H. subst. left. eauto.
  - inversion Hl as [|x y Hl1 Hl2]. subst. destruct (step l s) as [s1|] eqn:E; [|discriminate].
    assert (N : (exists p', get_pip (w_pips (s_world s1)) n = Some p' /\ p_jobid p' <> None) \/
       exists m t pid a, l = LStep m /\ nth_error (s_threads s) m = Some t /\ t_kind t = KJob pid a /\ ja_pipeline a = n).
    { assert (D : (exists n, l = LStep n) \/ forall n, l <> LStep n).
      { destruct l; try (right; congruence). left. eauto. }
      destruct D as [(m & ->)|Hn].
      - destruct (rg_guar _ _ _ (fun _ _ => I) _ _ _ B E) as [Ew|(t & o & c & En & Ep & Hm & Ew)]; rewrite Ew; [left; eauto|].
        destruct (may_busy (t_kind t) o (s_world s) n p Hq Hm) as [Y|(pid & a & Y1 & Y2)]; auto.
        { refine (stuck_op _ _ _ _ _ _ _ (proj1 (proj2 B)) Hst En Ep). }
        right. exists m, t, pid, a. auto.
      - destruct (step_env _ _ _ Hn E) as ((_ & _ & E2 & _) & _). rewrite E2. left. eauto. }
    destruct N as [(p' & Hp' & Hj')|(m & t & pid & a & -> & En & Ek & Ea)].
    + destruct (IH Hl2 s1 p' (may_step _ _ _ B E) (stuck_step _ _ _ _ _ Hl1 Hst E) H Hp' Hj')
        as [Y|(ls1 & m & ls2 & s2 & t & pid & a & -> & R & Y)]; [now left|right].
      exists (l :: ls1), m, ls2, s2, t, pid, a. split; [reflexivity|]. split; [cbn; rewrite E; exact R|exact Y].
    + right. exists [], m, ls, s, t, pid, a. repeat split; auto.
Qed.

(** What makes a pass over the running jobs fail. *)
Definition same_procs (w0 w : world) : Prop := w_procs w = w_procs w0 /\ w_merge w = w_merge w0.
Lemma may_procs o w0 w : may KJobMgr o -> same_procs w0 w -> same_procs w0 (snd (exec o w)).
Proof.
  intros Ho H. op_cases o; try exact H; destruct Ho as [[]|[]].
Qed.
Lemma run_procs {A} (p : pgm A) w0 : all_ops (may KJobMgr) p -> forall w, same_procs w0 w -> same_procs w0 (snd (run exec p w)).
Proof.
  induction p as [a|e|o k IH]; intros Ha w Hw; [exact Hw|exact Hw|].
  destruct Ha as [Ho Hk]. pose proof (may_procs o w0 w Ho Hw) as H1.
  cbn [run]. destruct (exec o w) as [r w1]. apply IH; [apply Hk|exact H1].
Qed.
Lemma ops_manage_one j : all_ops (may KJobMgr) (manage_one tt j).
Proof.
  unfold manage_one, reconcile, finish_cancelled, finish_crashed.
  repeat (ops_step; cbv beta zeta);
    first [fin | apply ops_merge | apply ops_update_job; right; cbn; eauto 8].
Qed.
Lemma manage_one_needs j p w w' : run exec (manage_one tt j) w = (Ok tt, w') ->
  j_status j = Srd -> j_pid j = Some p -> live w p -> archivable w j.
Proof.
  intros H Hs Hp (pr & Hpr & Hz). unfold manage_one in H. rewrite Hp, run_bind, run_act in H.
  cbn [exec] in H. rewrite Hpr in H. cbn [is_some] in H. unfold reconcile in H.
  rewrite Hp, Hs, !run_bind, run_act in H. cbn [exec] in H. rewrite Hpr, run_ret, Hz in H. cbn [negb] in H.
  cbv beta iota in H. unfold finish_cancelled in H. rewrite Hp, !run_bind, run_act in H. cbn [exec] in H.
  rewrite Hpr in H. cbv beta iota in H. unfold merge_netcdfs in H. rewrite run_bind, run_assert in H.
  unfold archivable. destruct (j_jobpath j); cbn [is_some] in H; [|discriminate].
  destruct (j_respath j); [|discriminate].
  rewrite run_archive in H. destruct (w_merge w (j_id j)); [discriminate|].
  repeat split; congruence.
Qed.
Lemma manage_loop_needs w0 q : forall w w', same_procs w0 w -> run exec (forP manage_one tt q) w = (Ok tt, w') ->
  forall j p, In j q -> j_status j = Srd -> j_pid j = Some p -> live w0 p -> archivable w0 j.
Proof.
  induction q as [|j0 q IH]; intros w w' Hw H j p Hin; [contradiction|].
  rewrite run_forP_cons in H. destruct (run exec (manage_one tt j0) w) as [[[]|e] w1] eqn:E; [|discriminate].
  intros Hs Hp Hl. destruct Hin as [->|Hin].
  - destruct Hw as [E1 E2]. assert (L : live w p) by (unfold live; now rewrite E1).
    pose proof (manage_one_needs j p w w1 E Hs Hp L) as A. unfold archivable in *. rewrite <- E2. exact A.
  - refine (IH w1 w' _ H j p Hin Hs Hp Hl). pose proof (run_procs (manage_one tt j0) w0 (ops_manage_one j0) w Hw) as X. rewrite E in X. exact X.
Qed.
Lemma manage_running_exact w : wf_queue w ->
  (fst (run exec manage_running w) = Ok tt <->
   forall j p, In j (w_jobs w) -> j_status j = Srd -> j_pid j = Some p -> live w p -> archivable w j).
Proof.
  intros Hwf. split.
  - intros H. destruct (run exec manage_running w) as [x w'] eqn:E. cbn in H. subst x.
    unfold manage_running in E. rewrite run_bind, run_act in E. cbn [exec jobs_where] in E.
    intros j p Hin Hs Hp Hl. eapply (manage_loop_needs w _ w w'); [split; reflexivity|exact E| |exact Hs|exact Hp|exact Hl].
    apply filter_In. split; [exact Hin|]. rewrite Hp. reflexivity.
  - intros H. destruct (run exec manage_running w) as [x w'] eqn:E.
    destruct (manage_running_spec w x w' Hwf E) as (_ & _ & _ & _ & _ & _ & K). apply K. exact H.
Qed.
