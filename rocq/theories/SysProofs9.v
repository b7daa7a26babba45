(** * SysProofs9: a pipeline is used by one job process at a time (C31), the programs *)
From Coq Require Import List String Ascii ZArith Bool Sorted Lia.
From Verif Require Import Base PyStr BaseFacts Types ConfigModel Prog ProgFacts World WorldFacts Replies
  CmdModel KetchupModel TomatoModel JobModel PipModel DrvModel SysModel RGFacts SysOps
  SpecQueue SpecSys SpecSys2 RGY SysProofs SysProofs2 SysProofs3 SysProofs7 SysProofs8.
Import ListNotations.
Open Scope list_scope.
Open Scope Z_scope.

Lemma del_nth_In {A} (l : list A) : forall i a, In a (del_nth i l) -> In a l.
Proof.
  induction l as [|x l IH]; intros [|i] a H; cbn in *; auto. destruct H as [H|H]; [auto|right; eauto].
Qed.
Lemma del_nth_NoDup {A} (l : list A) : forall i, NoDup l -> NoDup (del_nth i l).
Proof.
  induction l as [|x l IH]; intros [|i] H; cbn; auto; inversion H; subst; auto.
  constructor; auto. intros Hin. apply del_nth_In in Hin. contradiction.
Qed.
Lemma del_nth_gone {A} (l : list A) : forall i a, NoDup l -> nth_error l i = Some a -> ~ In a (del_nth i l).
Proof.
  induction l as [|x l IH]; intros [|i] a H E; cbn in *; try discriminate; inversion H; subst.
  - inversion E. subst. auto.
  - intros [->|Hin]; [|eapply IH; eauto]. apply H2. eapply nth_error_In; eauto.
Qed.

Lemma all_ops_forP_In {S A} (P : op -> Prop) (f : S -> A -> pgm S) l : forall s,
  (forall s a, In a l -> all_ops P (f s a)) -> all_ops P (forP f s l).
Proof.
  induction l as [|a l IH]; intros s H; cbn; [exact I|].
  apply all_ops_bind; [apply H; now left|]. intros s'. apply IH. intros s1 b Hb. apply H. now right.
Qed.

Section C31.
  Variable stg : string.
  Variable cfg : daemon -> Prop.

  (** How the process table changes by itself. *)
  Definition proc_step (w w' : world) : Prop :=
    (w_spawned w' = w_spawned w /\ w_procs w' = w_procs w) \/
    (exists i a pid, nth_error (w_spawned w) i = Some a /\ get_proc (w_procs w) pid = None /\
       w_spawned w' = del_nth i (w_spawned w) /\ w_procs w' = mkProc pid false (Some a) :: w_procs w) \/
    (exists i, w_spawned w' = del_nth i (w_spawned w) /\ w_procs w' = w_procs w) \/
    (exists pid, w_spawned w' = w_spawned w /\
       w_procs w' = map (fun p => if Z.eqb (pr_pid p) pid then mkProc pid true (pr_job p) else p) (w_procs w)) \/
    (exists pid, w_spawned w' = w_spawned w /\
       w_procs w' = filter (fun p => negb (Z.eqb (pr_pid p) pid)) (w_procs w)) \/
    (exists pid, get_proc (w_procs w) pid = None /\ w_spawned w' = w_spawned w /\
       w_procs w' = mkProc pid false None :: w_procs w).

  Lemma step_procs l s s' : (forall n, l <> LStep n) -> step l s = Some s' -> proc_step (s_world s) (s_world s').
  Proof.
    intros Hn Hs. unfold proc_step. destruct l; cbn in Hs; try (elim (Hn n); reflexivity);
      repeat match type of Hs with
             | match ?x with _ => _ end = _ => destruct x eqn:?; try discriminate
             end; injection Hs as <-;
      cbn [s_world set_world set_threads add_thread set_procs w_procs w_spawned set_env set_answers set_files set_outcome set_daemon];
      eauto 12.
    destruct zombie; eauto 12.
  Qed.

  (** A process with a job was there before, or has just begun to run. *)
  Lemma proc_back w w' q pr a : proc_step w w' -> get_proc (w_procs w') q = Some pr -> pr_job pr = Some a ->
    (exists pr0, get_proc (w_procs w) q = Some pr0 /\ pr_job pr0 = Some a /\ (pr_zombie pr = false -> pr0 = pr)) \/
    (get_proc (w_procs w) q = None /\ exists i, nth_error (w_spawned w) i = Some a /\ w_spawned w' = del_nth i (w_spawned w) /\
       w_procs w' = mkProc q false (Some a) :: w_procs w).
  Proof.
    intros [[E1 E2]|[(i & b & pid & H1 & H2 & E1 & E2)|[(i & E1 & E2)|[(pid & E1 & E2)|[(pid & E1 & E2)|(pid & H1 & E1 & E2)]]]]] Hq Hj;
      rewrite E2 in Hq.
    - left. eauto.
    - rewrite get_proc_cons in Hq. cbn in Hq. destruct (Z.eqb_spec pid q) as [<-|E]; [|left; eauto].
      inversion Hq. subst pr. cbn in Hj. inversion Hj. subst b. right. split; [exact H2|]. exists i. auto.
    - left. eauto.
    - left. rewrite get_proc_zombie in Hq. destruct (get_proc (w_procs w) q) as [p0|]; [|discriminate].
      cbn in Hq. inversion Hq. subst pr. exists p0. split; [reflexivity|].
      destruct (Z.eqb (pr_pid p0) pid); cbn in *; [|auto]. split; [exact Hj|discriminate].
    - left. rewrite get_proc_filter in Hq. destruct (Z.eqb q pid); [discriminate|eauto].
    - left. rewrite get_proc_cons in Hq. cbn in Hq. destruct (Z.eqb_spec pid q) as [<-|E]; [|eauto].
      inversion Hq. subst pr. discriminate.
  Qed.

  Lemma proc_spawned w w' : proc_step w w' -> forall a, In a (w_spawned w') -> In a (w_spawned w).
  Proof.
    intros [[E1 E2]|[(i & b & pid & H1 & H2 & E1 & E2)|[(i & E1 & E2)|[(pid & E1 & E2)|[(pid & E1 & E2)|(pid & H1 & E1 & E2)]]]]];
      rewrite E1; auto; intros a; apply del_nth_In.
  Qed.
  Lemma proc_nodup w w' : proc_step w w' -> NoDup (w_spawned w) -> NoDup (w_spawned w').
  Proof.
    intros [[E1 E2]|[(i & b & pid & H1 & H2 & E1 & E2)|[(i & E1 & E2)|[(pid & E1 & E2)|[(pid & E1 & E2)|(pid & H1 & E1 & E2)]]]]];
      rewrite E1; auto; apply del_nth_NoDup.
  Qed.
  Lemma proc_LR w w' : proc_step w w' -> LR w w'.
  Proof.
    intros H. split; [apply proc_spawned; exact H|]. intros q a Hl.
    destruct (proc_back _ _ _ _ _ H Hl eq_refl) as [(p0 & H1 & H2 & H3)|(_ & i & H1 & _)].
    - left. unfold listed. rewrite <- (H3 eq_refl). exact H1.
    - right. eapply nth_error_In; eauto.
  Qed.

  Lemma K31_env w w' : K31 stg w -> I29 stg w' -> env_same w w' -> proc_step w w' -> K31 stg w'.
  Proof.
    intros (A1 & A2 & A3 & A4 & A5 & A6 & A7 & A8 & A9 & A10 & A11) H29 (E1 & E2 & E3 & _ & _ & _ & E7) Hp.
    assert (Et : starts w' = starts w) by (apply starts_log; exact E7).
    pose proof (proc_spawned _ _ Hp) as Hs.
    assert (Er : forall n i, row n i w -> row n i w') by (unfold row; rewrite E3; auto).
    split; [unfold pip_names; rewrite E3; exact A1|]. split; [eapply wf_jobs_eq; eauto|]. split; [exact H29|].
    split; [rewrite Et; auto|]. split; [eapply proc_nodup; eauto|]. split; [|split; [|split; [|split; [|split]]]].
    - intros q pr a Hq Hj. rewrite Et.
      destruct (proc_back _ _ _ _ _ Hp Hq Hj) as [(p0 & H1 & H2 & _)|(_ & i & H1 & H2 & _)].
      + destruct (A6 q p0 a H1 H2). auto.
      + split; [apply A4; eapply nth_error_In; eauto|]. rewrite H2. apply del_nth_gone; auto.
    - intros q q' pr pr' a Hq Hj Hq' Hj'.
      destruct (proc_back _ _ _ _ _ Hp Hq Hj) as [(p0 & H1 & H2 & _)|(_ & i & H1 & H2 & H3)];
      destruct (proc_back _ _ _ _ _ Hp Hq' Hj') as [(p0' & H1' & H2' & _)|(_ & i' & H1' & H2' & H3')].
      + eapply A7; eauto.
      + exfalso. destruct (A6 q p0 a H1 H2) as [_ X]. apply X. eapply nth_error_In; eauto.
      + exfalso. destruct (A6 q' p0' a H1' H2') as [_ X]. apply X. eapply nth_error_In; eauto.
      + rewrite H3 in H3'. inversion H3'. reflexivity.
    - intros a Ha Hpl. apply Er. apply A8; auto.
    - intros a Ha. unfold unborn. rewrite E1. apply A9; auto.
    - rewrite E1. intros q a j Hl Hj Hid. destruct (proc_LR _ _ Hp) as [_ H]. destruct (H q a Hl) as [H1|H1].
      + eapply A10; eauto.
      + right. eapply A9; eauto.
    - unfold unstarted. rewrite E1, Et. exact A11.
  Qed.

  Lemma env31 l s s' : keeps_storage stg l -> steady l s -> (ok31 cfg) s -> (ok31 cfg) s' -> (forall n, l <> LStep n) ->
    step l s = Some s' -> I31 stg cfg (s_world s) ->
    I31 stg cfg (s_world s') /\
    forall t, In t (s_threads s) -> active t = true -> R31 (t_kind t) (s_world s) (s_world s').
  Proof.
    intros Hl0 Hst ([P1 _] & _) (_ & _ & Hu' & Hp' & Hc') Hn Hs (HK & _).
    pose proof HK as (_ & _ & (H1 & H2 & H3 & H4) & _).
    pose proof (step_procs _ _ _ Hn Hs) as Hp.
    destruct (step_env _ _ _ Hn Hs) as (He & Hd & Hf & _). pose proof He as (E1 & E2 & E3 & _ & E5 & _ & E7).
    assert (Et : starts (s_world s') = starts (s_world s)) by (apply starts_log; exact E7).
    split.
    - split; [|auto]. eapply K31_env; eauto. split; [|split].
      + intros d Hd'. destruct Hd as [E|E]; [apply H1; congruence|congruence].
      + destruct l; try (rewrite Hf by congruence; exact H2). cbn in Hs. injection Hs as <-. exact Hl0.
      + rewrite Et, E5. auto.
    - intros t Hin Ha. destruct (t_kind t) as [| | | |pid a|nm] eqn:Ek; try exact I; cbn.
      + split; [rewrite E5, Et; auto|]. split; [apply proc_LR; exact Hp|].
        unfold free, row, unborn. rewrite E3, E1. auto.
      + split; [|split; [apply proc_LR; exact Hp|unfold row; rewrite E3; auto]].
        pose proof (same_launch_jobs _ _ E1) as Hsl.
        destruct l; cbn in Hs; try (elim (Hn n); reflexivity);
          repeat match type of Hs with
                 | match ?x with _ => _ end = _ => destruct x eqn:?; try discriminate
                 end; injection Hs as <-; try (apply clock_now; [reflexivity|exact Hsl]).
        split; [exact Hsl|]. destruct Hst as [E|E]; [|exact E]. rewrite (E t Hin Ek) in Ha. discriminate.
      + split; [unfold reserved, row; rewrite E3; auto|]. intros _. eapply listed_env; eauto.
  Qed.

  (** ** Job processes *)
  Section Job.
    Variables (pid : Z) (a : jobargs).
    Let R := rely (I31 stg cfg) R31 (KJob pid a).
    Let G := X31 cfg (KJob pid a).
    Let E := fun _ : world => True.
    Let J := fun w => listed w pid a /\ (plain (ja_pipeline a) -> reserved a w).

    Lemma J_stable w w' : J w -> R w w' -> J w'.
    Proof. intros [H1 H2] [_ [H3 H4]]. split; auto. Qed.

    Lemma j31 (o : op) (Q : resp o -> world -> Prop) w :
      match o with OPipUpdate _ _ | OPipInsert _ => False | _ => True end ->
      (forall x w', J w' -> Q x w') -> J w -> okq exec R G E (act o) Q w.
    Proof.
      intros Ho Hq Hj. apply okq_act. intros w1 H1. pose proof (J_stable _ _ Hj H1) as J1.
      split; [split; [apply J1|intros _; apply J1]|].
      assert (J2 : J (snd (exec o w1))).
      { destruct J1 as [J1 J2]. split; [unfold listed; rewrite procs_exec; exact J1|].
        intros Hp. specialize (J2 Hp). revert J2. unfold reserved, row.
        assert (X : w_pips (snd (exec o w1)) = w_pips w1).
        { revert Ho. clear. intros Ho. op_cases o; try reflexivity; contradiction. }
        rewrite X. auto. }
      destruct (exec o w1) as [[x|e] w2]; [|exact I]. apply Hq. exact J2.
    Qed.

    Lemma ok31_job w : J w -> okp exec R G (no_reply (tomato_job pid a)) w.
    Proof.
      intros Hj. eapply okq_okp with (E := E) (Q := fun _ _ => True).
      unfold no_reply, tomato_job, update_job_id, update_pip, merge_netcdfs. cbv zeta.
      q_bind. q_bind. apply j31; [exact I| |exact Hj]. intros t w1 J1.
      q_bind. q_bind. apply j31; [exact I| |exact J1]. intros _ w2 J2.
      apply j31; [exact I| |exact J2]. intros _ w3 J3.
      destruct (pl_outpath (ja_payload a)) as [out|]; [|exact I].
      q_bind. apply j31; [exact I| |exact J3]. intros _ w4 J4.
      q_bind. q_bind. apply j31; [exact I| |exact J4]. intros _ w5 J5.
      apply j31; [exact I| |exact J5]. intros j w6 J6.
      q_bind. apply j31; [exact I| |exact J6]. intros ok w7 J7.
      q_bind. apply j31; [exact I| |exact J7]. intros t' w8 J8.
      q_bind. q_bind. apply okq_assert; [exact I|]. intros _.
      match goal with |- okq _ _ _ _ (match ?x with _ => _ end) _ _ => destruct x; [|exact I] end.
      apply j31; [exact I| |exact J8]. intros _ w9 J9.
      q_bind.
      assert (F : forall w, J w -> okq exec R G E
        (bind (bind (act (OJobUpdate (j_id j) [JStatus (if ok : bool then Sc else Sce); JCompleted (Some t')]))
            (fun _ => act (OJobGet (j_id j))))
          (fun j' => bind (bind (act (OPipUpdate (ja_pipeline a) [PJobid None; PReady (pl_unlock (j_payload j'))]))
            (fun _ => act (OPipGet (ja_pipeline a)))) (fun _ => Ret tt)))%prog
        (fun _ w' => okq exec R G E (Ret (None : option reply)) (fun _ _ => True) w') w).
      { intros w0 J0. q_bind. q_bind. apply j31; [exact I| |exact J0]. intros _ w10 J10.
        apply j31; [exact I| |exact J10]. intros j' w11 J11.
        q_bind. q_bind. apply okq_act. intros w12 H12. pose proof (J_stable _ _ J11 H12) as J12.
        split; [split; [apply J12|intros _; apply J12]|].
        assert (L : listed (snd (exec (OPipUpdate (ja_pipeline a) [PJobid None; PReady (pl_unlock (j_payload j'))]) w12)) pid a).
        { unfold listed. rewrite procs_exec. apply J12. }
        destruct (exec _ w12) as [[x|e] w13]; [|exact I].
        cbn in L. apply okq_act. intros w14 [_ [_ H14]]. split; [|destruct (exec _ w14) as [[y|e] w15]; exact I].
        split; [apply H14; exact L|]. intros X. elim X. reflexivity. }
      destruct (ja_repos a); [apply F; exact J9|].
      apply j31; [exact I| |exact J9]. intros _ w10 J10. apply F. exact J10.
    Qed.
  End Job.

  (** ** The pipeline manager *)
  Section Pip.
    Let R := rely (I31 stg cfg) R31 KPipMgr.
    Let G := X31 cfg KPipMgr.
    Let E := fun _ : world => True.

    (** What job holds pipeline [n], if its process is under way. *)
    Definition holder (n : string) (i : Z) (w : world) : Prop :=
      forall a, under_way w a -> reserved a w -> ja_pipeline a = n -> ja_jobid a = i.

    Lemma holder_stable n i a b : holder n i a -> R a b -> holder n i b.
    Proof.
      intros H [_ (_ & H1 & H2)] x Hu Hr Hn. apply H; auto; [eapply LR_under; eauto|apply H2; exact Hr].
    Qed.
    Lemma unclaimed_stable n a b : unclaimed n a -> R a b -> unclaimed n b.
    Proof.
      intros H [_ (_ & H1 & H2)] x Hu Hr. apply H; auto; [eapply LR_under; eauto|apply H2; exact Hr].
    Qed.
    Lemma holder_eq n i w w' : w_pips w' = w_pips w -> w_spawned w' = w_spawned w -> w_procs w' = w_procs w ->
      holder n i w -> holder n i w'.
    Proof.
      intros E1 E2 E3 H x Hu Hr. unfold reserved, row in Hr. rewrite E1 in Hr. apply H; [eapply under_eq; eauto|exact Hr].
    Qed.
    Lemma unclaimed_eq n w w' : w_pips w' = w_pips w -> w_spawned w' = w_spawned w -> w_procs w' = w_procs w ->
      unclaimed n w -> unclaimed n w'.
    Proof.
      intros E1 E2 E3 H x Hu Hr. unfold reserved, row in Hr. rewrite E1 in Hr. apply H; [eapply under_eq; eauto|exact Hr].
    Qed.

    Lemma reads_same o w : reads o -> w_pips (snd (exec o w)) = w_pips w /\
      w_spawned (snd (exec o w)) = w_spawned w /\ w_procs (snd (exec o w)) = w_procs w.
    Proof. intros Ho. op_cases o; try (repeat split; reflexivity); contradiction. Qed.

    (** A reading operation keeps a fact about pipelines and processes. *)
    Lemma q31 (o : op) (Q : resp o -> world -> Prop) (J : world -> Prop) w :
      reads o ->
      (forall w w', w_pips w' = w_pips w -> w_spawned w' = w_spawned w -> w_procs w' = w_procs w -> J w -> J w') ->
      (forall a b, J a -> R a b -> J b) -> (forall p c, o <> ODriver p c) ->
      (forall x w', J w' -> Q x w') -> J w -> okq exec R G E (act o) Q w.
    Proof.
      intros Ho Je Jr Hn Hq Hj. apply okq_act. intros w1 H1. pose proof (Jr _ _ Hj H1) as J1.
      split; [destruct o; try exact I; try contradiction; eelim Hn; reflexivity|].
      destruct (reads_same o w1 Ho) as (E1 & E2 & E3).
      pose proof (Je _ _ E1 E2 E3 J1) as J2.
      destruct (exec o w1) as [[x|e] w2]; [|exact I]. apply Hq. exact J2.
    Qed.

    Let J (l : list pipstate) (w : world) : Prop :=
      forall ps i, In ps l -> p_jobid ps = Some i -> holder (p_name ps) i w.
    Lemma Je l w w' : w_pips w' = w_pips w -> w_spawned w' = w_spawned w -> w_procs w' = w_procs w -> J l w -> J l w'.
    Proof. intros E1 E2 E3 H ps i Hin Hi. eapply holder_eq; eauto. Qed.
    Lemma Jr l a b : J l a -> R a b -> J l b.
    Proof. intros H Hr ps i Hin Hi. eapply holder_stable; eauto. Qed.

    Lemma pip_update_rows n w m i : row m i (snd (exec (OPipUpdate n [PJobid None; PReady false]) w)) -> row m i w.
    Proof.
      cbn [exec]. destruct (sql_lit n) as [n'|]; cbn [snd]; [|auto].
      intros H. destruct (string_dec m n') as [->|Hne].
      - exfalso. destruct H as (p & Hp & Hi). cbn [set_pips w_pips] in Hp. rewrite get_pip_upd, String.eqb_refl in Hp.
        destruct (get_pip (w_pips w) n'); [|discriminate]. cbn in Hp. inversion Hp. subst p. discriminate.
      - exact (proj1 (row_upd_other w n' _ m i Hne) H).
    Qed.

    Lemma ok31_release d n l w : cfg d -> unclaimed n w -> J l w ->
      okq exec R G E (release d n) (fun _ w' => J l w') w.
    Proof.
      intros Hd Hu Hj. unfold release, update_pip. q_bind. apply okq_lift; [exact I|]. intros p Hp.
      set (K := fun w => unclaimed n w /\ J l w).
      assert (Ke : forall w w', w_pips w' = w_pips w -> w_spawned w' = w_spawned w -> w_procs w' = w_procs w -> K w -> K w').
      { intros w0 w1 E1 E2 E3 [H1 H2]. split; [eapply unclaimed_eq; eauto|eapply Je; eauto]. }
      assert (Kr : forall a b, K a -> R a b -> K b).
      { intros w0 w1 [H1 H2] Hr. split; [eapply unclaimed_stable; eauto|eapply Jr; eauto]. }
      q_bind. eapply okq_weaken; [|eapply okq_all_ops with (J := K) (P := fun o => reads o /\ match o with ODriver _ c => resets (dm_df d) n c | _ => True end)].
      - intros u w1 K1. cbv beta in K1. q_bind. q_bind. apply okq_act. intros w2 H2. pose proof (Kr _ _ K1 H2) as [U2 J2].
        split; [exact U2|].
        assert (J3 : J l (snd (exec (OPipUpdate n [PJobid None; PReady false]) w2))).
        { intros ps i Hin Hi a Ha Hr. apply (J2 ps i Hin Hi a).
          - eapply under_eq; [| |exact Ha]; [apply spawned_exec; congruence|apply procs_exec].
          - apply (pip_update_rows n). exact Hr. }
        destruct (exec _ w2) as [[x|e] w3]; [|exact I]. cbn in J3.
        apply q31 with (J := J l); [exact I|apply Je|apply Jr|discriminate|intros; assumption|exact J3].
      - exact Kr.
      - intros o w0 K0 [Ho Hc]. split.
        + destruct o; try exact I; try contradiction. exists d, n. split; [exact Hd|]. split; [exact Hc|apply K0].
        + destruct (reads_same o w0 Ho) as (E1 & E2 & E3). eapply Ke; eauto.
      - intros; exact I.
      - apply all_ops_forP_In. intros u cn Hcn. unfold reset_component, driver_of.
        destruct (dget (df_components (dm_df d)) cn) as [cmp|] eqn:Ec; [|exact I]. cbn.
        split; [split; exact I|]. intros [[dv|]|e]; try exact I. cbn.
        split; [|intros [r|e]; exact I]. split; [exact I|].
        exists cn. split; [exists p; split; [|exact Hcn]|exists cmp; auto].
        destruct (dget (df_pipelines (dm_df d)) n); cbn in Hp; congruence.
      - split; auto.
    Qed.

    Lemma none_unclaimed n i w : holder n i w -> none i w -> unclaimed n w.
    Proof. intros H Hn a Ha Hr E'. apply (Hn a); [eapply H; eauto|exact Ha]. Qed.

    Lemma read_only w j p : K31 stg w -> In j (w_jobs w) -> j_pid j = Some p -> only (j_id j) p w.
    Proof.
      intros (A1 & A2 & A3 & A4 & A5 & A6 & A7 & A8 & A9 & A10 & A11) Hj Hp a Ha. split.
      - intros Hin. destruct (A9 a Hin j Hj (eq_sym Ha)) as [H _]. congruence.
      - intros q Hq. destruct (A10 q a j Hq Hj (eq_sym Ha)) as [H|[H _]]; congruence.
    Qed.
    Lemma only_gone i p w : only i p w -> get_proc (w_procs w) p = None -> none i w.
    Proof.
      intros H Hp a Ha [Hin|[q Hq]]; destruct (H a Ha) as [H1 H2]; [contradiction|].
      pose proof (H2 q Hq). subst q. unfold listed in Hq. congruence.
    Qed.
    Lemma only_zombie i p pr w : only i p w -> get_proc (w_procs w) p = Some pr -> pr_zombie pr = true -> none i w.
    Proof.
      intros H Hp Hz a Ha [Hin|[q Hq]]; destruct (H a Ha) as [H1 H2]; [contradiction|].
      pose proof (H2 q Hq). subst q. unfold listed in Hq. rewrite Hp in Hq. inversion Hq. subst pr. discriminate.
    Qed.

    Lemma ok31_gone i j l w w0 : R w w0 -> In j (w_jobs w0) -> j_id j = i -> J l w0 ->
      okq exec R G E (gone j) (fun g w' => J l w' /\ (g = true -> none i w')) w0.
    Proof.
      intros [(HK & _ & Hpr & _) _] Hj Hid Hl. unfold gone.
      assert (LRr : forall a b, R a b -> LR a b) by (intros x y [_ (_ & H & _)]; exact H).
      destruct (j_pid j) as [p|] eqn:Ep.
      - pose proof (read_only _ _ _ HK Hj Ep) as Ho. rewrite Hid in Ho.
        set (K := fun w => only i p w /\ J l w).
        assert (Kr : forall a b, K a -> R a b -> K b).
        { intros a b [H1 H2] Hr. split; [eapply LR_only; eauto|eapply Jr; eauto]. }
        q_bind. apply okq_act. intros w1 H1. destruct (Kr _ _ (conj Ho Hl) H1) as [O1 L1].
        split; [exact I|]. cbn [exec].
        destruct (get_proc (w_procs w1) p) as [pr|] eqn:Eg; cbn [is_some].
        + q_bind. apply okq_act. intros w2 H2. destruct (Kr _ _ (conj O1 L1) H2) as [O2 L2].
          split; [exact I|]. cbn [exec]. destruct (get_proc (w_procs w2) p) as [pr2|] eqn:Eg2; [|exact I].
          cbn. split; [exact L2|]. intros Hz. eapply only_zombie; eauto.
        + cbn. split; [exact L1|]. intros _. eapply only_gone; eauto.
      - pose proof HK as (A1 & A2 & A3 & A4 & A5 & A6 & A7 & A8 & A9 & A10 & A11).
        destruct (j_connected j) as [c|] eqn:Ec.
        + cbn. split; [exact Hl|]. intros _ a Ha [Hin|[q Hq]].
          * destruct (A9 a Hin j Hj) as [_ H]; congruence.
          * destruct (A10 q a j Hq Hj) as [H|[_ H]]; congruence.
        + destruct (j_launched j) as [la|] eqn:El; [|cbn; split; [exact Hl|discriminate]].
          q_bind. apply okq_act. intros w1 H1. split; [exact I|]. cbn.
          split; [eapply Jr; eauto|]. intros Hlt. apply Z.ltb_lt in Hlt.
          intros a Ha Hu. pose proof (LR_under _ _ _ (LRr _ _ H1) Hu) as Hu0.
          assert (X : w_now w0 - la <= ten_days) by (eapply Hpr; eauto; congruence).
          destruct H1 as [_ ((_ & Hc) & _)]. destruct (Hc a j la Hu Hj) as [H2|H2]; [congruence|exact El| |];
            unfold ten_days in *; lia.
    Qed.

    Lemma ok31_pip w : okq exec R G E pip_pass (fun _ _ => True) w.
    Proof.
      unfold pip_pass. q_bind. apply okq_act. intros w1 [(_ & _ & _ & Hc) _]. split; [exact I|]. cbn [exec].
      destruct (w_daemon w1) as [d|]; [|exact I]. pose proof (Hc d eq_refl) as Hd.
      q_bind. apply okq_act. intros w2 [[HK _] _]. split; [exact I|]. cbn [exec].
      eapply okq_weaken; [|apply okq_forP with (J := fun l _ w => J l w)]; [intros; exact I| |].
      - intros ps i Hin Hi a Hu Hr Hn. apply filter_In in Hin. destruct Hin as [Hin _].
        destruct HK as (A1 & _). pose proof (In_get_pip _ _ A1 Hin) as Hg.
        destruct Hr as (p & Hp & Hpi). rewrite Hn, Hg in Hp. congruence.
      - intros ps l u w3 J3. unfold pip_one. assert (Jl : J l w3) by (intros x i Hx; apply J3; now right).
        destruct (p_jobid ps) as [id|] eqn:Ei; [|exact Jl].
        q_bind. apply okq_act. intros w4 H4. split; [exact I|]. cbn [exec].
        destruct (get_job (w_jobs w4) id) as [j|] eqn:Eg; [|exact I].
        apply get_job_In in Eg. destruct Eg as [Hj Hid].
        q_bind. eapply okq_weaken; [|eapply (ok31_gone id j (ps :: l) w3 w4); eauto; eapply Jr; eauto].
        cbn. intros g w5 [J5 Hg]. assert (Jl5 : J l w5) by (intros x i Hx; apply J5; now right).
        destruct g; [|exact Jl5]. apply ok31_release; [exact Hd| |exact Jl5].
        eapply none_unclaimed; [|apply Hg; reflexivity]. apply J5; [now left|exact Ei].
    Qed.
  End Pip.

  (** ** The job manager *)
  Section Mgr.
    Let R := rely (I31 stg cfg) R31 KJobMgr.
    Let G := X31 cfg KJobMgr.
    Let E := fun _ : world => True.

    Lemma mgr_LR w w' : R w w' -> LR w w'.
    Proof. intros [_ (_ & H & _)]. exact H. Qed.

    (** Operations that start nothing keep facts about processes. *)
    Lemma m31 (o : op) (Q : resp o -> world -> Prop) (J : world -> Prop) w :
      (forall a, o <> OSpawnJob a) -> (forall w, J w -> G o w) ->
      (forall a b, LR a b -> J a -> J b) ->
      (forall x w', J w' -> Q x w') -> J w -> okq exec R G E (act o) Q w.
    Proof.
      intros Ho Hg Jr Hq Hj. apply okq_act. intros w1 H1. pose proof (Jr _ _ (mgr_LR _ _ H1) Hj) as J1.
      split; [apply Hg; exact J1|].
      assert (J2 : J (snd (exec o w1))).
      { eapply Jr; [|exact J1]. apply LR_eq; [apply spawned_exec; exact Ho|apply procs_exec]. }
      destruct (exec o w1) as [[x|e] w2]; [|exact I]. apply Hq. exact J2.
    Qed.

    Section Running.
      Variable l : list job.
      (** Job [j] as read from the queue. *)
      Definition known (j : job) (w : world) : Prop :=
        exists p, j_pid j = Some p /\ only (j_id j) p w /\ (j_status j = Srd -> none (j_id j) w).
      Let J (w : world) : Prop := forall j, In j l -> known j w.
      Lemma known_LR j a b : LR a b -> known j a -> known j b.
      Proof.
        intros H (p & H1 & H2 & H3). exists p. split; [exact H1|]. split; [eapply LR_only; eauto|].
        intros Hs. eapply LR_none; eauto.
      Qed.
      Lemma J_LR a b : LR a b -> J a -> J b.
      Proof. intros H Hj j Hin. eapply known_LR; eauto. Qed.

      Lemma ok31_finish s i t w : (s = Scd \/ s = Sce) -> none i w -> J w ->
        okq exec R G E (update_job_id i [JStatus s; JPid None; JCompleted (Some t)]) (fun _ w' => J w') w.
      Proof.
        intros Hs Hn Hj. unfold update_job_id. set (K := fun w => none i w /\ J w).
        assert (Kr : forall a b, LR a b -> K a -> K b).
        { intros a b H [H1 H2]. split; [eapply LR_none; eauto|eapply J_LR; eauto]. }
        q_bind. apply m31 with (J := K); [congruence| |exact Kr| |split; auto].
        - intros w0 [H0 _]. cbn. split; [intros _; exact H0|]. destruct Hs as [-> | ->]; discriminate.
        - intros _ w1 K1. apply m31 with (J := K); [congruence|intros; exact I|exact Kr| |exact K1].
          intros x w2 K2. apply K2.
      Qed.

      Lemma ok31_reconcile j e w : known j w -> (e = false -> none (j_id j) w) -> J w ->
        okq exec R G E (reconcile j (j_status j) e) (fun _ w' => J w') w.
      Proof.
        intros (p & Hp & Ho & Hrd) He Hj. unfold reconcile. rewrite Hp.
        set (K := fun w => only (j_id j) p w /\ (j_status j = Srd -> none (j_id j) w) /\ J w).
        assert (Kr : forall a b, LR a b -> K a -> K b).
        { intros a b H (H1 & H2 & H3). split; [eapply LR_only; eauto|]. split; [|eapply J_LR; eauto].
          intros Hs. eapply LR_none; eauto. }
        assert (F : forall w alive, K w -> (alive = false -> none (j_id j) w) ->
          okq exec R G E (match j_status j with
            | Srd => finish_cancelled j alive
            | Sr => if alive then Ret tt else finish_crashed j
            | _ => Ret tt end) (fun _ w' => J w') w).
        { clear w Ho Hrd He Hj. intros w alive (H1 & H2 & H3) Ha. destruct (j_status j) eqn:Es; try exact H3.
          - destruct alive; [exact H3|]. unfold finish_crashed. specialize (Ha eq_refl).
            set (N := fun w => none (j_id j) w /\ J w).
            assert (Nr : forall a b, LR a b -> N a -> N b).
            { intros a b H [Ha' Hb']. split; [eapply LR_none; eauto|eapply J_LR; eauto]. }
            q_bind. apply m31 with (J := N); [congruence|intros; exact I|exact Nr| |split; auto].
            intros t w1 [N1 J1]. q_bind. eapply okq_weaken; [|apply ok31_finish; auto]. intros x w2 H; exact H.
          - specialize (H2 eq_refl). unfold finish_cancelled.
            set (N := fun w => none (j_id j) w /\ J w).
            assert (Nr : forall a b, LR a b -> N a -> N b).
            { intros a b H [Ha' Hb']. split; [eapply LR_none; eauto|eapply J_LR; eauto]. }
            assert (F2 : forall w, N w -> okq exec R G E
              (bind (act ONow) (fun t => bind (update_job_id (j_id j) [JStatus Scd; JPid None; JCompleted (Some t)]) (fun _ => Ret tt)))
              (fun _ w' => J w') w).
            { intros w0 N0. q_bind. apply m31 with (J := N); [congruence|intros; exact I|exact Nr| |exact N0].
              intros t w1 [N1 J1]. q_bind. eapply okq_weaken; [|apply ok31_finish; auto]. intros x w2 H; exact H. }
            q_bind. destruct alive; [|apply F2; split; auto]. rewrite Hp.
            q_bind. apply m31 with (J := N); [congruence|intros; exact I|exact Nr| |split; auto].
            intros _ w1 N1. unfold merge_netcdfs. q_bind. apply okq_assert; [exact I|]. intros _.
            match goal with |- okq _ _ _ _ (match ?x with _ => _ end) _ _ => destruct x; [|exact I] end.
            apply m31 with (J := N); [congruence|intros; exact I|exact Nr| |exact N1].
            intros _ w2 N2. apply F2. exact N2. }
        q_bind. destruct e.
        - q_bind. apply okq_act. intros w1 H1. split; [exact I|].
          destruct (Kr _ _ (mgr_LR _ _ H1) (conj Ho (conj Hrd Hj))) as (O1 & N1 & J1). cbn [exec].
          destruct (get_proc (w_procs w1) p) as [pr|] eqn:Eg; [|exact I].
          cbn [okq]. apply F; [exact (conj O1 (conj N1 J1))|]. intros Hz. eapply only_zombie; [exact O1|exact Eg|].
          apply negb_false_iff. exact Hz.
        - apply (F w false); [exact (conj Ho (conj Hrd Hj))|exact He].
      Qed.
    End Running.

    Lemma ok31_manage w : okq exec R G E manage_running (fun _ _ => True) w.
    Proof.
      unfold manage_running. q_bind. apply okq_act. intros w1 [(HK & Hu & _) _]. split; [exact I|]. cbn [exec jobs_where].
      eapply okq_weaken; [|apply okq_forP with (J := fun l _ w => forall j, In j l -> known j w)]; [intros; exact I| |].
      - intros j Hin. apply filter_In in Hin. destruct Hin as [Hin Hp].
        destruct (j_pid j) as [p|] eqn:Ep; [|discriminate]. exists p. split; [exact Ep|].
        assert (O : only (j_id j) p w1) by (eapply read_only; eauto). split; [exact O|].
        intros Hs a Ha [Hsp|[q Hq]]; [apply (O a Ha); exact Hsp|]. apply (Hu q a j Hq Hin); auto.
      - intros j l u w2 H2. assert (Hkn : known j w2) by (apply H2; now left).
        assert (Hl : forall x, In x l -> known x w2) by (intros; apply H2; now right).
        unfold manage_one. pose proof Hkn as (p & Ep & O2 & _). rewrite Ep.
        q_bind. apply okq_act. intros w3 H3. split; [exact I|]. cbn [exec].
        pose proof (mgr_LR _ _ H3) as L3.
        apply (ok31_reconcile l).
        + eapply known_LR; eauto.
        + intros He. eapply only_gone; [eapply LR_only; eauto|]. destruct (get_proc (w_procs w3) p); [discriminate|reflexivity].
        + eapply J_LR; eauto.
    Qed.

    (** ** Waiting jobs *)
    Definition new (i : Z) (w : world) : Prop := unstarted i w -> unborn i w.

    Lemma new_stable i a b : new i a -> R a b -> new i b.
    Proof.
      intros H [_ ((_ & Es) & _ & _ & _ & _ & Hb)] Hu.
      assert (Hu0 : unstarted i a) by (intros x Hx; apply Hu; rewrite Es; exact Hx). auto.
    Qed.
    Lemma starts_grow o w i : unstarted i (snd (exec o w)) -> unstarted i w.
    Proof. intros H a Ha. apply H. op_cases o; try exact Ha. cbn. now right. Qed.
    Lemma own_unborn o w i : may KJobMgr o -> unborn i w -> unborn i (snd (exec o w)).
    Proof.
      intros Hm H. op_cases o; try exact H.
      - destruct Hm as [[]|[]].
      - intros j Hj Hid. cbn in Hj. unfold upd_jobs in Hj. apply in_map_iff in Hj. destruct Hj as (j0 & <- & Hj0).
        destruct (Z.eqb_spec (j_id j0) id); [|apply H; auto]. rewrite set_jcols_id in Hid.
        destruct (H j0 Hj0 Hid) as [H1 H2]. destruct Hm as [[]|Hm]. cbn in Hm.
        destruct Hm as [(s & t & _ & ->)|[->|(t & ->)]]; cbn; auto.
    Qed.
    Lemma new_own o w i : may KJobMgr o -> new i w -> new i (snd (exec o w)).
    Proof. intros Hm H Hu. apply own_unborn; [exact Hm|]. apply H. eapply starts_grow; eauto. Qed.

    Lemma ok31_check d w : okq exec R G E (check_queued d)
      (fun matched w' => forall m, In m matched -> new (fst m) w') w.
    Proof.
      unfold check_queued. q_bind. apply okq_act. intros w1 [(HK & _) _]. split; [exact I|]. cbn [exec jobs_where].
      set (J := fun (l : list job) (ms : list (Z * list string)) w =>
        (forall j, In j l -> new (j_id j) w) /\ forall m, In m ms -> new (fst m) w).
      eapply okq_weaken; [|apply okq_forP with (J := J)].
      - intros ms w' [_ H]. exact H.
      - destruct HK as (A1 & A2 & A3 & A4 & A5 & A6 & A7 & A8 & A9 & A10 & A11).
        split; [|intros m []]. intros j Hin Hu j' Hj' Hid. apply filter_In in Hin. destruct Hin as [Hin Hs].
        assert (j' = j) by (eapply same_id_same_job; [apply NoDup_SS; apply A2|exact Hj'|exact Hin|exact Hid]).
        subst j'. apply A11; auto. unfold waiting. destruct (j_status j); try discriminate; auto.
      - intros j r ms w2 [H2 H2']. unfold check_one.
        set (K := fun w => J (j :: r) ms w).
        assert (Kr : forall a b, K a -> R a b -> K b).
        { intros a b [Ha Hb] Hr. split; intros x Hx; (eapply new_stable; [|exact Hr]); [apply Ha|apply Hb]; exact Hx. }
        assert (Ke : forall o w, may KJobMgr o -> K w -> K (snd (exec o w))).
        { intros o w0 Hm [Ha Hb]. split; intros x Hx; apply new_own; auto. }
        assert (Kend : forall pips w, K w -> J r (ms ++ [(j_id j, pips)]) w).
        { intros pips w0 [Ha Hb]. split; [intros x Hx; apply Ha; now right|].
          intros m Hm. apply in_app_iff in Hm. destruct Hm as [Hm|[<-|[]]]; [auto|]. cbn. apply Ha. now left. }
        q_bind. eapply okq_weaken; [|eapply okq_all_ops with (J := K) (P := reads)].
        + intros pips w3 K3. cbv beta in K3. q_bind.
          assert (F : forall w, K w -> okq exec R G E
            (Ret (ms ++ [(j_id j, pips)]) : pgm (list (Z * list string))) (fun s' w' => J r s' w') w).
          { intros w0 K0. apply Kend. exact K0. }
          destruct pips as [|pn ps]; [apply F; exact K3|].
          destruct (j_status j); try (apply F; exact K3).
          unfold update_job_id. q_bind. q_bind. apply okq_act. intros w4 H4. pose proof (Kr _ _ K3 H4) as K4.
          split.
          { cbn. split; [intros [X|[]]; discriminate|]. intros _. apply K4. now left. }
          assert (K5 : K (snd (exec (OJobUpdate (j_id j) [JStatus Sqw]) w4))).
          { apply Ke; [right; cbn; auto|exact K4]. }
          cbn [exec] in *. cbn [snd] in K5. apply okq_act. intros w6 H6. pose proof (Kr _ _ K5 H6) as K6.
          split; [exact I|]. cbn [exec]. destruct (get_job (w_jobs w6) (j_id j)); [|exact I]. apply F. exact K6.
        + exact Kr.
        + intros o w0 K0 Ho. split; [destruct o; try exact I; contradiction|]. apply Ke; [left; exact Ho|exact K0].
        + intros; exact I.
        + apply reads_match.
        + split; auto.
    Qed.

    (** ** Starting jobs *)
    Definition there (avail : dict pipstate) (w : world) : Prop :=
      forall n p, dget avail n = Some p -> get_pip (w_pips w) n <> None.
    Definition base (avail : dict pipstate) (l : list (Z * list string)) (w : world) : Prop :=
      avail_free avail w /\ there avail w /\ forall m, In m l -> new (fst m) w.
    Lemma base_stable avail l a b : base avail l a -> R a b -> base avail l b.
    Proof.
      intros (H1 & H2 & H3) Hr. pose proof Hr as [_ (_ & _ & Hf & Hg & _)]. split; [|split].
      - eapply avail_pips; eauto.
      - intros n p Hd. apply Hg. eapply H2; eauto.
      - intros m Hm. eapply new_stable; eauto.
    Qed.
    Lemma base_own avail l o w : may KJobMgr o -> (forall n cs, o <> OPipUpdate n cs) ->
      base avail l w -> base avail l (snd (exec o w)).
    Proof.
      intros Hm Ho (H1 & H2 & H3).
      assert (Ep : w_pips (snd (exec o w)) = w_pips w).
      { revert Hm Ho. clear. intros Hm Ho. op_cases o; try reflexivity.
        - destruct Hm as [[]|[]].
        - eelim Ho; reflexivity. }
      split; [|split].
      - eapply avail_pips; [|exact H1]. intros n. apply free_pips_eq. exact Ep.
      - unfold there. rewrite Ep. exact H2.
      - intros m Hin. apply new_own; auto.
    Qed.

    Lemma ok31_launch d j pn avail l w : st_storage (dm_settings d) = stg ->
      base avail l w -> new (j_id j) w -> dget avail pn <> None ->
      okq exec R G E (launch d j pn) (fun _ w' => base (ddel avail pn) l w') w.
    Proof.
      intros Hd Hb Hn Hpn. unfold launch, update_pip, update_job_id.
      set (id := j_id j) in *.
      set (K := fun w => base avail l w /\ unstarted id w /\ unborn id w).
      set (L := fun w => base (ddel avail pn) l w /\ unstarted id w /\ unborn id w /\ (plain pn -> row pn id w)).
      assert (Kr : forall a b, K a -> R a b -> K b).
      { intros a b (H1 & H2 & H3) Hr. split; [eapply base_stable; eauto|].
        destruct Hr as [_ ((_ & Es) & _ & _ & _ & _ & Hu)]. split; [|auto]. unfold unstarted. rewrite Es. exact H2. }
      assert (Lr : forall a b, L a -> R a b -> L b).
      { intros a b (H1 & H2 & H3 & H4) Hr. split; [eapply base_stable; eauto|].
        destruct Hr as [_ ((_ & Es) & _ & _ & _ & Hrow & Hu)]. split; [unfold unstarted; rewrite Es; exact H2|]. auto. }
      q_bind. apply okq_act. intros w1 H1. split; [exact I|]. cbn [exec].
      destruct (has_dir (w_dirs w1) (job_dir d id)) eqn:Ed; [exact I|].
      assert (U1 : unstarted id w1).
      { destruct H1 as [(HK & _) _]. destruct HK as (_ & _ & (_ & _ & H3 & _) & _).
        intros a Hin Ea. destruct (H3 a Hin) as [H4 H5]. rewrite H4, Ea in H5.
        assert (has_dir (w_dirs w1) (job_dir d id) = true); [|congruence].
        unfold has_dir. apply existsb_exists. exists (stg, id). split; [exact H5|].
        unfold jobdir_eqb, job_dir. rewrite Hd. cbn. rewrite String.eqb_refl, Z.eqb_refl. reflexivity. }
      pose proof (base_stable _ _ _ _ Hb H1) as B1. pose proof (new_stable _ _ _ Hn H1 U1) as N1.
      assert (K2 : K (set_dirs w1 (job_dir d id :: w_dirs w1))).
      { split; [|split; [exact U1|exact N1]].
        assert (X : base avail l (snd (exec (OMkdir (job_dir d id)) w1))).
        { apply base_own; [right; exact I|congruence|exact B1]. }
        cbn in X. rewrite Ed in X. exact X. }
      revert K2. generalize (set_dirs w1 (job_dir d id :: w_dirs w1)). intros w2 K2.
      q_bind. apply okq_lift; [exact I|]. intros pp _.
      q_bind. apply okq_act. intros w3 H3. pose proof (Kr _ _ K2 H3) as K3. split; [exact I|].
      assert (K4 : K (snd (exec (OWriteJobdata (job_dir d id) (job_args d j pn)) w3))).
      { destruct K3 as (Ka & Kb & Kc). split; [apply base_own; [right; exact I|congruence|exact Ka]|]. split; [exact Kb|exact Kc]. }
      cbn [exec] in *. cbn [snd] in K4. revert K4.
      generalize (set_jobdata w3 ((job_dir d id, job_args d j pn) :: w_jobdata w3)). intros w4 K4.
      q_bind. q_bind. apply okq_act. intros w5 H5. pose proof (Kr _ _ K4 H5) as ((B5 & T5 & N5) & U5 & V5).
      destruct (dget avail pn) as [ps|] eqn:Eps; [|congruence].
      split; [cbn; intros Hp; eapply (proj2 B5); eauto|]. cbn [exec].
      destruct (sql_lit pn) as [pn'|] eqn:El; [|exact I].
      assert (L6 : L (set_pips w5 (upd_pips pn' [PJobid (Some id); PReady false] (w_pips w5)))).
      { split; [split; [|split]|split; [exact U5|split; [exact V5|]]].
        - split; [apply NoDup_ddel; apply B5|].
          intros n p Hpl Hdg q Hq Hqn. unfold set_pips, upd_pips in Hq. cbn in Hq. apply in_map_iff in Hq.
          destruct Hq as (q0 & <- & Hq0).
          rewrite dget_ddel in Hdg by apply B5.
          destruct (String.eqb_spec n pn) as [Ex|Hnpn]; [discriminate|].
          destruct (String.eqb_spec (p_name q0) pn') as [Eq|Eq].
          + cbn in Hqn. subst n. subst pn'. elim Hnpn. symmetry. eapply sql_lit_plain; eauto.
          + eapply (proj2 B5); eauto.
        - intros n p Hdg. cbn [set_pips w_pips]. apply pip_exists_upd.
          rewrite dget_ddel in Hdg by apply B5. destruct (String.eqb n pn); [discriminate|]. eapply T5; eauto.
        - exact N5.
        - intros Hpl. rewrite (sql_lit_id _ Hpl) in El. inversion El. subst pn'.
          unfold row. cbn [set_pips w_pips]. rewrite get_pip_upd, String.eqb_refl.
          destruct (get_pip (w_pips w5) pn) as [q|] eqn:Eq; [|elim (T5 pn ps Eps); exact Eq].
          cbn. eauto. }
      revert L6. generalize (set_pips w5 (upd_pips pn' [PJobid (Some id); PReady false] (w_pips w5))). intros w6 L6.
      apply okq_act. intros w7 H7. pose proof (Lr _ _ L6 H7) as L7. split; [exact I|]. cbn [exec].
      q_bind. apply okq_act. intros w8 H8. pose proof (Lr _ _ L7 H8) as (B8 & U8 & V8 & R8).
      split; [split; [exact R8|exact V8]|].
      set (D := base (ddel avail pn) l).
      assert (D9 : D (snd (exec (OSpawnJob (job_args d j pn)) w8))).
      { apply base_own; [right; exact I|congruence|exact B8]. }
      cbn [exec] in *. cbn [snd] in D9. revert D9.
      generalize (add_event (set_procs w8 (w_spawned w8 ++ [job_args d j pn]) (w_procs w8)) (EvSpawn (job_args d j pn))).
      intros w9 D9.
      assert (Dr : forall a b, D a -> R a b -> D b) by (intros; eapply base_stable; eauto).
      q_bind. apply okq_act. intros w10 H10. pose proof (Dr _ _ D9 H10) as D10. split; [exact I|]. cbn [exec].
      q_bind. q_bind. apply okq_act. intros w11 H11. pose proof (Dr _ _ D10 H11) as D11.
      split; [cbn; split; [intros [X|[]]; discriminate|discriminate]|].
      assert (D12 : D (snd (exec (OJobUpdate id [JLaunched (Some (w_now w10))]) w11))).
      { apply base_own; [right; cbn; eauto|congruence|exact D11]. }
      cbn [exec] in *. cbn [snd] in D12.
      apply okq_act. intros w13 H13. pose proof (Dr _ _ D12 H13) as D13. split; [exact I|]. cbn [exec].
      destruct (get_job (w_jobs w13) id); [exact D13|exact I].
    Qed.

    Lemma sort_jobs_In l m : In m (sort_jobs l) -> In m l.
    Proof.
      assert (X : forall x l m, In m (insert_sorted x l) -> m = x \/ In m l).
      { intros x l0. induction l0 as [|y l0 IH]; intros m0 H; cbn in H.
        - destruct H as [H|[]]; auto.
        - destruct (Z.leb (fst x) (fst y)); cbn in H; destruct H as [H|H]; cbn; auto.
          destruct (IH m0 H); auto. }
      induction l as [|x l IH]; cbn; intros H; [auto|]. destruct (X _ _ _ H) as [->|H']; auto.
    Qed.

    Lemma ok31_pass w : okq exec R G E job_pass (fun _ _ => True) w.
    Proof.
      unfold job_pass. q_bind. apply okq_act. intros w1 [(HK & _) _]. split; [exact I|]. cbn [exec].
      destruct (w_daemon w1) as [d|] eqn:Ed; [|exact I].
      assert (Hd : st_storage (dm_settings d) = stg).
      { destruct HK as (_ & _ & (H & _) & _). apply H. exact Ed. }
      q_bind. eapply okq_weaken; [|apply ok31_manage]. intros _ w2 _.
      q_bind. eapply okq_weaken; [|apply ok31_check]. intros ms w3 H3. cbv beta in H3.
      unfold action_queued. q_bind. apply okq_act. intros w4 H4. split; [exact I|]. cbn [exec].
      q_bind. eapply okq_weaken; [intros a w' _; exact I|].
      eapply okq_forP with (J := fun l a w => base a l w).
      - pose proof H4 as [(HK4 & _) _]. destruct HK4 as (A1 & _).
        assert (B : forall n p, dget (by_name (filter (fun p => Bool.eqb (is_some (p_jobid p)) false) (w_pips w4))) n = Some p ->
          In p (w_pips w4) /\ p_name p = n /\ p_jobid p = None).
        { intros n p Hdg. apply by_name_In in Hdg. destruct Hdg as [[Hp Hpn]|Hdg]; [|discriminate].
          apply filter_In in Hp. destruct Hp as [Hp Hb]. split; [exact Hp|]. split; [exact Hpn|].
          destruct (p_jobid p); [discriminate|reflexivity]. }
        split; [|split].
        + split; [apply NoDup_by_name; constructor|]. intros n p Hpl Hdg q Hq Hqn.
          destruct (B n p Hdg) as (Hp & Hpn & Hj). replace q with p; [exact Hj|].
          pose proof (In_get_pip _ _ A1 Hp). pose proof (In_get_pip _ _ A1 Hq). congruence.
        + intros n p Hdg. destruct (B n p Hdg) as (Hp & Hpn & _).
          pose proof (In_get_pip _ _ A1 Hp) as X. rewrite Hpn in X. congruence.
        + intros m Hm. apply sort_jobs_In in Hm. eapply new_stable; eauto.
      - intros [id pl] r avail w5 H5. unfold action_one. cbn [fst snd].
        q_bind. apply okq_act. intros w6 H6. split; [exact I|]. cbn [exec].
        destruct (get_job (w_jobs w6) id) as [j|] eqn:Eg; [|exact I].
        apply get_job_In in Eg. destruct Eg as [_ Hid].
        pose proof (base_stable _ _ _ _ H5 H6) as B6.
        q_bind.
        eapply okq_weaken; [|eapply okq_forB with (J := fun _ a w => base a ((id, pl) :: r) w) (K := fun a w => base a r w)].
        + intros [a|a] w' H; [|exact H]. destruct H as (Ha & Hb & Hc). split; [exact Ha|]. split; [exact Hb|].
          intros m Hm. apply Hc. now right.
        + exact B6.
        + intros pn r' a w7 H7. unfold try_pip. destruct (dget a pn) as [ps|] eqn:Edg; [|exact H7].
          destruct (p_ready ps && _)%bool; [|exact H7]. q_bind.
          eapply okq_weaken; [|apply (ok31_launch d j pn a r); [exact Hd| | |congruence]].
          * intros u w' H'. exact H'.
          * destruct H7 as (Ha & Hb & Hc). split; [exact Ha|]. split; [exact Hb|]. intros m Hm. apply Hc. now right.
          * rewrite Hid. destruct H7 as (_ & _ & Hc). apply (Hc (id, pl)). now left.
    Qed.
  End Mgr.

  (** ** All executions *)
  Definition okl31 (l : label) (s : sys) : Prop := keeps_storage stg l /\ steady l s.

  Lemma inv31 ls s s' : each_step okl31 ls s -> along (ok31 cfg) ls s ->
    rgy_inv (I31 stg cfg) R31 (G31 stg cfg) s -> runs ls s = Some s' -> rgy_inv (I31 stg cfg) R31 (G31 stg cfg) s'.
  Proof.
    assert (HR29 : forall k a b, rely (I31 stg cfg) R31 k a b -> rely (I29 stg) R29 k a b).
    { intros k a b [(HK & _) Hr]. split; [apply HK|]. destruct k; try exact I. apply Hr. }
    assert (Hst : forall k (p : pgm (option reply)) w, all_ops (may k) p ->
      mgr_eqb k KJobMgr = false -> mgr_eqb k KPipMgr = false -> k <> KCmd -> (forall pid a, k <> KJob pid a) ->
      okp exec (rely (I31 stg cfg) R31 k) (G31 stg cfg k) p w).
    { intros k p w Hp Hk Hk' Hc Hj. eapply all_ops_okp; [|exact Hp]. intros w0 w1 o _ Ho. split; [split; [exact Ho|]|].
      - destruct o; try exact I; destruct Ho as [[]|Ho]; destruct k; try contradiction; try congruence; discriminate.
      - split; destruct k; try exact I; try discriminate; eelim Hj; reflexivity. }
    assert (H29 : forall k (p : pgm (option reply)) w, all_ops (may k) p ->
      mgr_eqb k KJobMgr = false -> k <> KCmd -> forall R, okp exec R (G29 stg k) p w).
    { intros k p w Hp Hk Hc R. eapply all_ops_okp; [|exact Hp]. intros w0 w1 o _ Ho. split; [exact Ho|].
      destruct o; try exact I; destruct Ho as [[]|Ho]; destruct k; try contradiction; try congruence; discriminate. }
    intros Hl Ha Hi Hr. eapply rgy_steps with (okl := okl31) (okst := (ok31 cfg)); try exact Hr; try exact Hi; try exact Hl; try exact Ha.
    - apply R31_refl.
    - apply R31_trans.
    - intros k o s0 s1 _ (_ & _ & Hu & Hp & Hc) Ew (HK & _) Hg. split; [|auto]. rewrite Ew. eapply K31_exec; eauto.
    - intros s0 n m a b o c Hok H0 H1 H2 H3 H4 H5 H6 H7. exact (others31 stg cfg s0 n m a b o c Hok H0 H1 H2 H3 H4 H5 H6 H7).
    - intros l s0 s1 [H1 H2] H3 H4 H5 H6 H7. eapply env31; eauto.
    - intros c s0 _ _. eapply okp_mono; [apply (HR29 KCmd)| |apply ok29_cmd].
      intros o a b _ H. split; [exact H|]. split; exact I.
    - intros k p s0 Hp _ _. destruct k; try discriminate; injection Hp as <-.
      + eapply okp_mono with (R := rely (I31 stg cfg) R31 KJobMgr); [auto| |apply okp_and].
        * intros o a b _ [Ha' Hb']. split; [exact Ha'|]. split; [exact I|exact Hb'].
        * eapply okp_mono; [apply (HR29 KJobMgr)| |].
          -- intros o a b _ H. exact H.
          -- eapply okq_okp with (E := fun _ => True) (Q := fun _ _ => True).
             unfold no_reply. q_bind. eapply okq_weaken; [|apply ok29_pass]. intros; exact I.
        * eapply okq_okp with (E := fun _ => True) (Q := fun _ _ => True).
          unfold no_reply. q_bind. eapply okq_weaken; [|apply ok31_pass]. intros; exact I.
      + eapply okp_mono with (R := rely (I31 stg cfg) R31 KPipMgr); [auto| |apply okp_and].
        * intros o a b _ [Ha' Hb']. split; [exact Ha'|]. split; [exact I|exact Hb'].
        * apply H29; [apply (ops_mgr KPipMgr); reflexivity|reflexivity|congruence].
        * eapply okq_okp with (E := fun _ => True) (Q := fun _ _ => True).
          unfold no_reply. q_bind. eapply okq_weaken; [|apply ok31_pip]. intros; exact I.
      + apply Hst; [apply (ops_mgr KDrvMgr); reflexivity|reflexivity|reflexivity|congruence|congruence].
    - intros s0 _ _. apply Hst; [apply ops_quit|reflexivity|reflexivity|congruence|congruence].
    - intros s0 s1 i pid a _ _ (HK & _) _ Hs Ha'.
      assert (Hn : forall n, LJobStart i pid <> LStep n) by congruence.
      destruct (step_env _ _ _ Hn Hs) as ((_ & _ & E3 & _) & _).
      cbn in Hs. rewrite Ha' in Hs. destruct (get_proc (w_procs (s_world s0)) pid) eqn:Eg; [discriminate|].
      injection Hs as <-. cbn [s_world].
      eapply okp_mono with (R := rely (I31 stg cfg) R31 (KJob pid a)); [auto| |apply okp_and; [|apply okp_and]].
      + intros o x y _ (H1 & H2 & H3). split; [exact H1|]. split; [exact H2|exact H3].
      + apply H29; [apply ops_job|reflexivity|congruence].
      + eapply okp_mono; [| |apply own_job]; [intros; exact I|]. intros o x y _ H. exact H.
      + apply ok31_job. split.
        * unfold listed. cbn. rewrite Z.eqb_refl. reflexivity.
        * intros Hpl. destruct HK as (_ & _ & _ & _ & _ & _ & _ & A8 & _).
          apply (A8 a); [eapply nth_error_In; eauto|exact Hpl].
    - intros n port pid ver ok s0 _ _. apply Hst; [apply ops_driver|reflexivity|reflexivity|congruence|congruence].
  Qed.

  Lemma each_step_and (P : label -> Prop) (Q : label -> sys -> Prop) ls : forall s,
    Forall P ls -> each_step Q ls s -> each_step (fun l s => P l /\ Q l s) ls s.
  Proof.
    induction ls as [|l ls IH]; intros s Hf Hq; cbn -[step] in *; auto.
    inversion Hf. subst. destruct Hq as [H3 H4]. split; [auto|]. destruct (step l s); auto.
  Qed.

  Lemma C31_inv w ls s :
    ordinary stg w ls s -> along managers_apart ls (start_sys w) ->
    along (fun s => forall d, w_daemon (s_world s) = Some d -> cfg d) ls (start_sys w) ->
    rgy_inv (I31 stg cfg) R31 (G31 stg cfg) s /\ procs_ok s.
  Proof.
    intros (Hlog & Hsp & Hwf & Hnd & Hpr & Hwn & Hfs & Hks & Hst & Hun & Hpm & Hr) Hser Hcf.
    assert (Hpo : along procs_ok ls (start_sys w)).
    { apply along_inv; [intros; eapply procs_ok_step; eauto|apply procs_ok_start]. }
    split; [|eapply along_end; eauto].
    assert (Hal : along (ok31 cfg) ls (start_sys w)).
    { apply (along_and procs_ok); [exact Hpo|]. apply (along_and managers_apart); [exact Hser|].
      apply (along_and (fun s => undisturbed (s_world s))); [exact Hun|].
      apply (along_and (fun s => prompt (s_world s))); [exact Hpm|exact Hcf]. }
    eapply inv31; [apply each_step_and; eauto|exact Hal| |exact Hr].
    apply rgy_start.
    assert (Es : starts (set_daemon w None) = []) by (unfold starts; cbn; rewrite Hlog; reflexivity).
    assert (Hnp : forall q pr a, get_proc (w_procs w) q = Some pr -> pr_job pr <> Some a).
    { intros q pr a Hq. apply find_some in Hq. destruct Hq as [Hq _]. rewrite (Hpr pr Hq). discriminate. }
    assert (H0 : (ok31 cfg) (start_sys w)) by (destruct ls; [exact Hal|apply Hal]).
    split; [|exact (proj2 (proj2 H0))].
    split; [exact Hnd|]. split; [exact Hwf|]. split.
    { split; [intros d Hd; discriminate|]. split; [exact Hfs|]. rewrite Es. split; [intros a []|constructor]. }
    cbn [w_spawned w_procs set_daemon]. rewrite Hsp.
    split; [intros a []|]. split; [constructor|].
    split; [intros q pr a Hq Hj; elim (Hnp q pr a Hq Hj)|].
    split; [intros q q' pr pr' a Hq Hj; elim (Hnp q pr a Hq Hj)|].
    split; [intros a []|]. split; [intros a []|].
    split; [intros q a j Hq; elim (Hnp q _ a Hq eq_refl)|].
    intros j Hj Hw _. apply Hwn; auto.
  Qed.

  Lemma C31_uses s n a : rgy_inv (I31 stg cfg) R31 (G31 stg cfg) s -> uses s n a ->
    exists t pid, nth_error (s_threads s) n = Some t /\ t_kind t = KJob pid a /\ active t = true /\
      listed (s_world s) pid a /\ (plain (ja_pipeline a) -> reserved a (s_world s)).
  Proof.
    intros Hi (t & pid & o & c & En & Ek & Ep & Ho).
    pose proof (rgy_next _ _ _ R31_refl _ _ _ _ _ Hi En Ep) as (_ & _ & Hx). rewrite Ek in Hx. destruct Hx as [H1 H2].
    exists t, pid. repeat split; auto. unfold active. rewrite Ep. reflexivity.
  Qed.

  Lemma C31_lemma s n m a b : rgy_inv (I31 stg cfg) R31 (G31 stg cfg) s -> procs_ok s ->
    uses s n a -> uses s m b -> plain (ja_pipeline a) -> ja_pipeline a = ja_pipeline b -> n = m.
  Proof.
    intros Hi [_ Hnd] Ha Hb Hp E.
    destruct (C31_uses s n a Hi Ha) as (t & pid & H1 & H2 & H3 & H4 & H5).
    destruct (C31_uses s m b Hi Hb) as (t' & pid' & H1' & H2' & H3' & H4' & H5').
    destruct Hi as ((HK & _) & _). destruct HK as (_ & _ & A3 & _ & _ & A6 & A7 & _).
    specialize (H5 Hp). rewrite E in Hp. specialize (H5' Hp). unfold reserved in H5, H5'. rewrite E in H5.
    assert (a = b).
    { eapply same_start; [exact A3|exact (proj1 (A6 _ _ _ H4 eq_refl))|exact (proj1 (A6 _ _ _ H4' eq_refl))|eapply row_fun; eauto]. }
    subst b. assert (pid = pid') by exact (A7 _ _ _ _ _ H4 eq_refl H4' eq_refl). subst pid'.
    eapply job_pids_distinct; eauto; eapply job_thread_pid; eauto.
  Qed.
End C31.
