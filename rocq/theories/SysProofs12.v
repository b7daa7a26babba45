(** * SysProofs12: the times in job records (C91) *)
From Coq Require Import List String Ascii ZArith Bool Sorted Lia.
From Verif Require Import Base PyStr BaseFacts Types ConfigModel Prog ProgFacts World WorldFacts Replies
  CmdModel KetchupModel TomatoModel JobModel PipModel DrvModel SysModel RGFacts RGX RGY SysOps
  SpecQueue SpecSys SpecSys2 SpecTime SysProofs SysProofs2 SysProofs6 SysProofs10.
Import ListNotations.
Open Scope list_scope.
Open Scope Z_scope.

(** The clock goes on and rows stay, with the time of their submission. *)
Definition ages (w w' : world) : Prop :=
  w_now w <= w_now w' /\
  forall i j, get_job (w_jobs w) i = Some j ->
    exists j', get_job (w_jobs w') i = Some j' /\ j_submitted j' = j_submitted j.
Lemma ages_refl w : ages w w.
Proof. split; [lia|]. intros i j H. eauto. Qed.
Lemma ages_trans a b c : ages a b -> ages b c -> ages a c.
Proof.
  intros [N1 H1] [N2 H2]. split; [lia|]. intros i j H. destruct (H1 i j H) as (j1 & E1 & K1).
  destruct (H2 i j1 E1) as (j2 & E2 & K2). exists j2. split; [exact E2|congruence].
Qed.
Lemma now_exec o w : w_now (snd (exec o w)) = w_now w.
Proof. op_cases o; reflexivity. Qed.
Lemma may_submitted k id cs j : may k (OJobUpdate id cs) -> j_submitted (set_jcols cs j) = j_submitted j.
Proof.
  intros [[]|H]. destruct k; cbn in H; try contradiction.
  - destruct H as [-> | ->]; reflexivity.
  - destruct H as [(s & t & _ & ->)|[->|(t & ->)]]; reflexivity.
  - destruct H as [(t & ->)|[(r & s & p & ->)|(s & t & _ & ->)]]; reflexivity.
Qed.
Lemma may_ages k o w : may k o -> ages w (snd (exec o w)).
Proof.
  intros Hm. split; [rewrite now_exec; lia|].
  op_cases o; try (intros i j0 H; exists j0; split; [exact H|reflexivity]).
  - intros i j0 H. exists j0. split; [|reflexivity]. cbn [set_jobs w_jobs]. rewrite get_job_app, H. reflexivity.
  - intros i j0 H. cbn [set_jobs w_jobs]. rewrite get_job_upd, H. cbn [option_map].
    destruct (Z.eqb i id); eexists; (split; [reflexivity|]); [eapply may_submitted; eauto|reflexivity].
Qed.

(** The row of job [i] exists; and [t] is between its submission and now. *)
Definition here (i : Z) (w : world) : Prop := exists j, get_job (w_jobs w) i = Some j /\ j_submitted j <= w_now w.
Definition timely (i t : Z) (w : world) : Prop :=
  exists j, get_job (w_jobs w) i = Some j /\ j_submitted j <= t <= w_now w.
Lemma here_ages i a b : ages a b -> here i a -> here i b.
Proof. intros [N H] (j & E & L). destruct (H i j E) as (j' & E' & K). exists j'. split; [exact E'|lia]. Qed.
Lemma timely_ages i t a b : ages a b -> timely i t a -> timely i t b.
Proof. intros [N H] (j & E & L). destruct (H i j E) as (j' & E' & K). exists j'. split; [exact E'|lia]. Qed.

(** The times written by an update. *)
Definition times (c : jcol) : list Z :=
  match c with
  | JLaunched (Some t) | JConnected (Some t) | JCompleted (Some t) => [t]
  | _ => []
  end.
Definition col_times (cs : list jcol) : list Z := flat_map times cs.

Lemma stamps_set c j t : In t (stamps (set_jcol j c)) -> In t (stamps j) \/ In t (times c).
Proof.
  destruct c; cbn; auto; unfold stamps; cbn; rewrite ?in_app_iff; try destruct t0; cbn; tauto.
Qed.
Lemma stamps_sets cs : forall j t, In t (stamps (set_jcols cs j)) -> In t (stamps j) \/ In t (col_times cs).
Proof.
  induction cs as [|c cs IH]; intros j t H; [auto|]. cbn [set_jcols fold_left] in H.
  destruct (IH _ _ H) as [H1|H1].
  - destruct (stamps_set _ _ _ H1); [auto|]. right. cbn. apply in_app_iff. auto.
  - right. cbn. apply in_app_iff. auto.
Qed.

Definition I91 (w : world) : Prop :=
  wf_queue w /\ (forall j, In j (w_jobs w) -> dated (w_now w) j) /\
  forall a, In a (w_spawned w) -> here (ja_jobid a) w.
Definition R91 (k : kind) (w w' : world) : Prop := ages w w'.
Definition G91 (k : kind) (o : op) (w : world) : Prop :=
  may k o /\
  match o with
  | OJobInsert j => j_submitted j <= w_now w
  | OJobUpdate id cs => forall t, In t (col_times cs) -> timely id t w
  | OSpawnJob a => here (ja_jobid a) w
  | _ => True
  end.

Lemma I91_exec k o w : I91 w -> G91 k o w -> I91 (snd (exec o w)).
Proof.
  intros (Hw & Hr & Hsp) [Hm Hg]. split; [apply wf_exec; exact Hw|]. split.
  2:{ intros a Ha. apply (here_ages _ w); [eapply may_ages; eauto|].
      destruct o; try (rewrite spawned_other in Ha by congruence; apply Hsp; exact Ha).
      cbn in Ha. apply in_app_iff in Ha. destruct Ha as [Ha|[<-|[]]]; [apply Hsp; exact Ha|exact Hg]. }
  rewrite now_exec. op_cases o; try exact Hr.
  - intros j0 Hj. cbn [set_jobs w_jobs] in Hj. apply in_app_iff in Hj. destruct Hj as [Hj|[<-|[]]]; [auto|].
    destruct Hm as [[]|Hm]. destruct k; try contradiction. destruct Hm as (p & n & t & ->).
    split; [exact Hg|intros t' []].
  - intros j0 Hj. cbn [set_jobs w_jobs] in Hj. unfold upd_jobs in Hj. apply in_map_iff in Hj.
    destruct Hj as (j1 & <- & Hj). destruct (Z.eqb_spec (j_id j1) id) as [E|E]; [|auto].
    pose proof (may_submitted _ _ _ j1 Hm) as Es. destruct (Hr j1 Hj) as [D1 D2].
    split; [rewrite Es; exact D1|]. intros t Ht. rewrite Es.
    destruct (stamps_sets _ _ _ Ht) as [H|H]; [auto|].
    destruct (Hg t H) as (j2 & E2 & L2). rewrite <- E in E2.
    rewrite (In_get_job _ _ (wf_nodup _ Hw) Hj) in E2. injection E2 as <-. exact L2.
Qed.

(** Operations that record no time, add no row and start nothing. *)
Definition plain91 (o : op) : Prop :=
  match o with
  | OJobInsert _ | OSpawnJob _ => False
  | OJobUpdate _ cs => col_times cs = []
  | _ => True
  end.
Lemma plain91_ok k o w : may k o -> plain91 o -> G91 k o w.
Proof. intros Hm Ho. split; [exact Hm|]. destruct o; try exact I; try contradiction. cbn in Ho. rewrite Ho. intros t []. Qed.
Lemma ok91_plain k {A} (p : pgm A) w :
  all_ops (may k) p -> all_ops plain91 p -> okp exec (rely I91 R91 k) (G91 k) p w.
Proof.
  intros H1 H2. revert w. induction p as [a|e|o f IH]; intros w; cbn; auto.
  destruct H1 as [H1 K1], H2 as [H2 K2]. intros w1 _. split; [apply plain91_ok; auto|].
  destruct (exec o w1) as [r w2]. apply IH; auto.
Qed.

Section Any.
  Context (k : kind).
  Let R := rely I91 R91 k.
  Let G := G91 k.
  Let E := fun _ : world => True.

  Lemma st91 (P : world -> Prop) {A} (p : pgm A) : forall w,
    (forall a b, ages a b -> P a -> P b) -> all_ops (may k) p -> all_ops plain91 p -> P w ->
    okq exec R G E p (fun _ => P) w.
  Proof.
    induction p as [a|e|o f IH]; intros w HP H1 H2 Hw; cbn; [exact Hw|exact I|].
    destruct H1 as [H1 K1], H2 as [H2 K2]. intros w1 [_ Hr]. split; [apply plain91_ok; auto|].
    pose proof (may_ages _ o w1 H1) as Hg. destruct (exec o w1) as [r w2]. apply IH; auto.
    eapply HP; [exact Hg|]. eapply HP; eauto.
  Qed.
  (** Reading the clock for a job that exists. *)
  Lemma now91 i (P : world -> Prop) w : (forall a b, ages a b -> P a -> P b) -> P w -> here i w ->
    okq exec R G E (act ONow) (fun t w' => timely i t w' /\ P w') w.
  Proof.
    intros HP Hw Hi. apply okq_act. intros w1 [_ Hr].
    split; [apply plain91_ok; [left; exact I|exact I]|]. cbn [exec].
    split; [|eapply HP; eauto]. destruct (here_ages _ _ _ Hr Hi) as (j & Ej & L). exists j. split; [exact Ej|lia].
  Qed.
  (** Writing a time. *)
  Lemma upd91 id cs (P : world -> Prop) w : (forall a b, ages a b -> P a -> P b) -> P w ->
    may k (OJobUpdate id cs) -> (forall t, In t (col_times cs) -> timely id t w) ->
    okq exec R G E (update_job_id id cs) (fun j w' => j_id j = id /\ P w') w.
  Proof.
    intros HP Hw Hm Ht. unfold update_job_id. q_bind. apply okq_act. intros w1 [_ Hr].
    split; [split; [exact Hm|intros t H; eapply timely_ages; eauto]|].
    pose proof (may_ages _ _ w1 Hm) as Hg.
    destruct (exec (OJobUpdate id cs) w1) as [[x|e] w2]; [|exact I]. cbn [snd] in Hg.
    apply okq_act. intros w3 [_ Hr3]. split; [apply plain91_ok; [left; exact I|exact I]|]. cbn [exec].
    destruct (get_job (w_jobs w3) id) as [j|] eqn:Ej; [|exact I].
    split; [eapply get_job_In; eauto|]. eapply HP; [exact Hr3|]. eapply HP; [exact Hg|]. eapply HP; eauto.
  Qed.
End Any.

Lemma plain_match d m : all_ops plain91 (find_matching_pipelines d m).
Proof. eapply all_ops_weaken; [|apply reads_match]. intros o Ho. destruct o; try exact I; destruct Ho. Qed.
Lemma True_ages (a b : world) : ages a b -> True -> True.
Proof. auto. Qed.

(** ** The job manager *)
Section Mgr.
  Let R := rely I91 R91 KJobMgr.
  Let G := G91 KJobMgr.
  Let E := fun _ : world => True.
  Ltac ops := repeat (ops_step; cbv beta zeta).

  Definition J91 (l : list job) (w : world) : Prop := forall j, In j l -> here (j_id j) w.
  Lemma J91_ages l a b : ages a b -> J91 l a -> J91 l b.
  Proof. intros Hg H j Hj. eapply here_ages; eauto. Qed.
  Lemma J91_skip j l w : J91 (j :: l) w -> J91 l w.
  Proof. intros H x Hx. apply H. now right. Qed.

  Lemma ok91_finish s j l w : s = Scd \/ s = Sce -> J91 (j :: l) w ->
    okq exec R G E (bind (act ONow) (fun t => bind (update_job_id (j_id j) [JStatus s; JPid None; JCompleted (Some t)])
      (fun _ => Ret tt))) (fun _ => J91 l) w.
  Proof.
    intros Hs HJ. q_bind.
    eapply okq_weaken; [|apply now91 with (i := j_id j) (P := J91 l); [apply J91_ages|eapply J91_skip; eauto|apply HJ; now left]].
    intros t w1 [Ht H1]. cbv beta. q_bind.
    eapply okq_weaken; [|apply upd91 with (P := J91 l); [apply J91_ages|exact H1| |]].
    - intros j' w2 [_ H2]. exact H2.
    - right. cbn. left. eauto.
    - intros t' [<-|[]]. exact Ht.
  Qed.
  Lemma ok91_reconcile j s e l w : J91 (j :: l) w -> okq exec R G E (reconcile j s e) (fun _ => J91 l) w.
  Proof.
    intros HJ. unfold reconcile. q_bind.
    eapply okq_weaken; [|apply st91 with (P := J91 (j :: l)); [apply J91_ages|ops; fin|ops; exact I|exact HJ]].
    intros alive w1 H1. cbv beta. destruct s; try (exact (J91_skip _ _ _ H1)).
    - destruct alive; [exact (J91_skip _ _ _ H1)|]. apply ok91_finish; auto.
    - unfold finish_cancelled. q_bind.
      eapply okq_weaken; [|apply st91 with (P := J91 (j :: l)); [apply J91_ages| | |exact H1]].
      + intros u w2 H2. apply ok91_finish; auto.
      + unfold merge_netcdfs. ops; fin.
      + unfold merge_netcdfs. ops; exact I.
  Qed.
  Lemma ok91_one j l w : J91 (j :: l) w -> okq exec R G E (manage_one tt j) (fun _ => J91 l) w.
  Proof.
    intros HJ. unfold manage_one. destruct (j_pid j) as [p|].
    - q_bind. eapply okq_weaken; [|apply st91 with (P := J91 (j :: l)); [apply J91_ages|ops; fin|ops; exact I|exact HJ]].
      intros e w1 H1. apply ok91_reconcile. exact H1.
    - destruct (j_connected j) as [c|]; [apply ok91_reconcile; exact HJ|].
      destruct (j_launched j) as [t|]; [|exact (J91_skip _ _ _ HJ)].
      q_bind. eapply okq_weaken; [|apply st91 with (P := J91 (j :: l)); [apply J91_ages|ops; fin|ops; exact I|exact HJ]].
      intros now w1 H1. cbv beta. destruct (Z.ltb _ _); [|exact (J91_skip _ _ _ H1)].
      apply ok91_reconcile; exact H1.
  Qed.

  Lemma ok91_launch d j pn w : here (j_id j) w -> okq exec R G E (launch d j pn) (fun _ _ => True) w.
  Proof.
    intros Hw. unfold launch.
    assert (S : forall {A} (p : pgm A) w0, here (j_id j) w0 -> all_ops (may KJobMgr) p -> all_ops plain91 p ->
      okq exec R G E p (fun _ => here (j_id j)) w0).
    { intros A p w0 H0 H1 H2. apply st91; auto. intros x y. apply here_ages. }
    q_bind. eapply okq_weaken; [|apply S; [exact Hw|ops; fin|ops; exact I]].
    intros x1 w1 H1. cbv beta. q_bind. eapply okq_weaken; [|apply S; [exact H1|ops; fin|ops; exact I]].
    intros x2 w2 H2. cbv beta. q_bind. eapply okq_weaken; [|apply S; [exact H2|ops; fin|ops; exact I]].
    intros x3 w3 H3. cbv beta. q_bind.
    eapply okq_weaken; [|apply S; [exact H3|apply ops_update_pip; right; cbn; eauto|unfold update_pip; ops; exact I]].
    intros x4 w4 H4. cbv beta. q_bind. apply okq_act. intros w5 [_ Hr].
    assert (H5 : here (j_id j) w5) by (eapply here_ages; eauto).
    assert (Hm : may KJobMgr (OSpawnJob (job_args d j pn))) by (right; exact I).
    split; [split; [exact Hm|exact H5]|].
    pose proof (may_ages _ _ w5 Hm) as Hg. destruct (exec (OSpawnJob (job_args d j pn)) w5) as [[x|e] w6]; [|exact I].
    cbn [snd] in Hg. q_bind.
    eapply okq_weaken; [|apply now91 with (i := j_id j) (P := fun _ => True); [auto|exact I|eapply here_ages; eauto]].
    intros t w7 [Ht _]. cbv beta. q_bind.
    eapply okq_weaken; [|apply upd91 with (P := fun _ => True); [auto|exact I| |]].
    - intros j' w8 _. exact I.
    - right. cbn. eauto.
    - intros t' [<-|[]]. exact Ht.
  Qed.
  Lemma row_here w i j : I91 w -> get_job (w_jobs w) i = Some j -> here i w.
  Proof. intros (_ & H & _) Ej. exists j. split; [exact Ej|]. exact (proj1 (H j (proj1 (get_job_In _ _ _ Ej)))). Qed.
  Lemma ok91_action d m w : okq exec R G E (action_queued d m) (fun _ _ => True) w.
  Proof.
    unfold action_queued. q_bind. apply okq_act. intros w1 _. cbn [exec].
    split; [apply plain91_ok; [left; exact I|exact I]|]. q_bind.
    eapply okq_weaken; [|eapply okq_forP with (J := fun _ _ _ => True)]; [intros; exact I|exact I|].
    intros [i l] r av w2 _. unfold action_one. q_bind. apply okq_act. intros w3 [Hi _]. cbn [exec fst snd].
    split; [apply plain91_ok; [left; exact I|exact I]|].
    destruct (get_job (w_jobs w3) i) as [j|] eqn:Ej; [|exact I].
    assert (Hj : here (j_id j) w3).
    { rewrite (proj2 (get_job_In _ _ _ Ej)). eapply row_here; eauto. }
    q_bind. eapply okq_weaken; [|eapply okq_forB with (J := fun _ _ => here (j_id j)) (K := fun _ _ => True)].
    - intros [x|x] w4 _; exact I.
    - exact Hj.
    - intros pn r' av' w4 H4. unfold try_pip. destruct (dget av' pn); [|exact H4].
      destruct (_ && _)%bool; [|exact H4]. q_bind. eapply okq_weaken; [|apply ok91_launch; exact H4].
      intros; exact I.
  Qed.
  Lemma ok91_pass w : okq exec R G E (no_reply job_pass) (fun _ _ => True) w.
  Proof.
    unfold no_reply, job_pass. q_bind. q_bind. apply okq_act. intros w1 _. cbn [exec].
    split; [apply plain91_ok; [left; exact I|exact I]|].
    destruct (w_daemon w1) as [d|]; [|exact I].
    q_bind. eapply okq_weaken with (Q := fun _ _ => True).
    - intros _ w2 _. cbv beta. q_bind.
      eapply okq_weaken; [|apply st91 with (P := fun _ => True); auto].
      + intros m w3 _. eapply okq_weaken; [|apply ok91_action]. intros; exact I.
      + eapply all_ops_weaken; [apply quiet_may|apply quiet_check].
      + unfold check_queued, check_one, update_job_id. ops; try exact I; [apply plain_match|reflexivity].
    - unfold manage_running. q_bind. apply okq_act. intros w2 [Hi _]. cbn [exec jobs_where].
      split; [apply plain91_ok; [left; exact I|exact I]|].
      eapply okq_weaken; [|eapply okq_forP with (J := fun r _ w => J91 r w)].
      + intros; exact I.
      + intros j Hj. apply filter_In in Hj. destruct Hj as [Hj _].
        eapply row_here; [exact Hi|]. apply In_get_job; [apply wf_nodup; apply Hi|exact Hj].
      + intros j r [] w3 HJ. apply ok91_one. exact HJ.
  Qed.
End Mgr.

(** ** The job process *)
Section Job.
  Context (pid : Z) (a : jobargs).
  Let R := rely I91 R91 (KJob pid a).
  Let G := G91 (KJob pid a).
  Let E := fun _ : world => True.
  Let id := ja_jobid a.
  Ltac ops := repeat (ops_step; cbv beta zeta).

  Lemma ok91_job w : here id w -> okq exec R G E (no_reply (tomato_job pid a)) (fun _ _ => True) w.
  Proof.
    intros Hw. unfold no_reply, tomato_job. fold id.
    assert (S : forall {A} (P : world -> Prop) (p : pgm A) w0, (forall a b, ages a b -> P a -> P b) ->
      P w0 -> all_ops (may (KJob pid a)) p -> all_ops plain91 p -> okq exec R G E p (fun _ => P) w0).
    { intros A P p w0 HP H0 H1 H2. apply st91; auto. }
    q_bind. q_bind.
    eapply okq_weaken; [|apply now91 with (i := id) (P := here id); [apply here_ages|exact Hw|exact Hw]].
    intros t w1 [Ht H1]. cbv beta. q_bind.
    eapply okq_weaken; [|apply upd91 with (P := here id); [apply here_ages|exact H1|right; cbn; eauto|intros t' [<-|[]]; exact Ht]].
    intros j0 w2 [_ H2]. cbv beta. destruct (pl_outpath (ja_payload a)) as [out|]; [|exact I].
    q_bind. eapply okq_weaken; [|apply S with (P := here id); [apply here_ages|exact H2|ops; fin|ops; exact I]].
    intros x w3 H3. cbv beta. q_bind.
    eapply okq_weaken; [|apply upd91 with (P := here id); [apply here_ages|exact H3|right; cbn; eauto 12|intros t' []]].
    intros j w4 [Ej H4]. cbv beta. rewrite Ej. q_bind.
    eapply okq_weaken; [|apply S with (P := here id); [apply here_ages|exact H4|ops; fin|ops; exact I]].
    intros ok w5 H5. cbv beta. q_bind.
    eapply okq_weaken; [|apply now91 with (i := id) (P := here id); [apply here_ages|exact H5|exact H5]].
    intros t2 w6 [Ht2 _]. cbv beta. q_bind.
    eapply okq_weaken; [|apply S with (P := timely id t2); [intros u v; apply timely_ages|exact Ht2|unfold merge_netcdfs; ops; fin|unfold merge_netcdfs; ops; exact I]].
    intros x7 w7 H7. cbv beta. q_bind.
    eapply okq_weaken; [|apply S with (P := timely id t2); [intros u v; apply timely_ages|exact H7|ops; fin|ops; exact I]].
    intros x8 w8 H8. cbv beta. q_bind.
    eapply okq_weaken; [|apply upd91 with (P := fun _ => True); [auto|exact I| |]].
    - intros j' w9 _. cbv beta. q_bind.
      eapply okq_weaken; [|apply S with (P := fun _ => True); [auto|exact I| |]].
      + intros; exact I.
      + apply ops_update_pip. right. cbn. eauto.
      + unfold update_pip. ops; exact I.
    - right. cbn. right. right. eexists _, _. split; [|reflexivity]. destruct ok; auto.
    - destruct ok; intros t' [<-|[]]; exact H8.
  Qed.
End Job.

(** ** Commands *)
Lemma ok91_submit port f cwd n w :
  okq exec (rely I91 R91 KCmd) (G91 KCmd) (fun _ => True) (some_reply (ketchup_submit port f cwd n)) (fun _ _ => True) w.
Proof.
  unfold some_reply, ketchup_submit, with_daemon. q_bind. q_bind. apply okq_act. intros w1 _. cbn [exec].
  split; [apply plain91_ok; [left; exact I|exact I]|].
  destruct (w_daemon w1) as [d|]; [|exact I].
  unfold submit. destruct f as [| |e|v]; try exact I. cbv zeta.
  destruct (unknown_repo _ _) as [r|]; [exact I|].
  q_bind. apply okq_act. intros w2 _. cbn [exec]. split; [apply plain91_ok; [left; exact I|exact I]|].
  q_bind. unfold insert_job. q_bind. apply okq_act. intros w3 [_ [N _]].
  split; [split; [right; cbn; eauto|exact N]|].
  match goal with |- context [exec ?o ?w] => destruct (exec o w) as [[x|e] w4]; [|exact I] end.
  eapply okq_weaken; [|apply st91 with (P := fun _ => True); [auto| | |exact I]].
  - intros; exact I.
  - repeat (ops_step; cbv beta zeta); fin.
  - repeat (ops_step; cbv beta zeta); exact I.
Qed.
Lemma plain_cancel_loop last jobs : forall s, all_ops plain91 (forP (cancel_one last) s jobs).
Proof.
  intros s. apply all_ops_forP. intros [ps data] j. unfold cancel_one, update_job_id.
  repeat (ops_step; cbv beta zeta); first [exact I|reflexivity].
Qed.
Lemma plain_cmd91 c : (forall port f cwd n, c <> CmdSubmit port f cwd n) -> all_ops plain91 (cmd_pgm c).
Proof.
  intros H0.
  destruct c; cbn [cmd_pgm] in *; try (exfalso; eapply H0; reflexivity);
    unfold no_reply, some_reply; (apply all_ops_bind; [|intros; exact I]).
  - unfold daemon_start, bootstrap, boot_driver, boot_pipeline, insert_drv, insert_pip, read_daemon.
    repeat (ops_step; cbv beta zeta); exact I.
  - unfold tomato_stop, with_daemon, cmd_stop. repeat (ops_step; cbv beta zeta); exact I.
  - unfold tomato_reload, with_daemon, cmd_reload, read_daemon. repeat (ops_step; cbv beta zeta); exact I.
  - unfold pipeline_load, with_daemon, update_pip. repeat (ops_step; cbv beta zeta); exact I.
  - unfold pipeline_eject, with_daemon, update_pip. repeat (ops_step; cbv beta zeta); exact I.
  - unfold pipeline_ready, with_daemon, update_pip. repeat (ops_step; cbv beta zeta); exact I.
  - unfold ketchup_status, with_daemon, jobs_status. repeat (ops_step; cbv beta zeta); exact I.
  - unfold ketchup_cancel, with_daemon, cancel. ops_step; [ops_step; exact I|]. destruct a; [|exact I].
    ops_step; [repeat (ops_step; cbv beta zeta); exact I|]. cbv beta. destruct (find _ _); [exact I|].
    ops_step; [apply plain_cancel_loop|]. repeat (ops_step; cbv beta zeta).
  - unfold ketchup_snapshot, with_daemon, snapshot, snapshot_one, merge_netcdfs. repeat (ops_step; cbv beta zeta); exact I.
  - unfold ketchup_search, with_daemon, search. repeat (ops_step; cbv beta zeta); exact I.
Qed.
Lemma ok91_cmd c w : okp exec (rely I91 R91 KCmd) (G91 KCmd) (cmd_pgm c) w.
Proof.
  assert (P : all_ops plain91 (cmd_pgm c) -> okp exec (rely I91 R91 KCmd) (G91 KCmd) (cmd_pgm c) w).
  { intros H. apply ok91_plain; [apply ops_cmd|exact H]. }
  pose proof (plain_cmd91 c) as H.
  destruct c; try (apply P; apply H; congruence). cbn [cmd_pgm]. eapply okq_okp. apply ok91_submit.
Qed.

Lemma may_plain91 k o : (k = KPipMgr \/ k = KDrvMgr \/ exists n, k = KDriver n) -> may k o -> plain91 o.
Proof.
  intros Hk Ho. destruct o; try exact I; destruct Ho as [[]|Ho]; destruct Hk as [->|[->|(n & ->)]]; destruct Ho.
Qed.

Lemma env_ages l s s' : forward l s -> (forall n, l <> LStep n) -> step l s = Some s' ->
  ages (s_world s) (s_world s').
Proof.
  intros Hl Hn Hs. split.
  - destruct l; cbn in Hs, Hl;
      repeat match type of Hs with (match ?x with _ => _ end) = _ => destruct x eqn:?; try discriminate end;
      try (inversion Hs; subst s'; cbn; lia).
    elim (Hn n). reflexivity.
  - destruct (step_env _ _ _ Hn Hs) as ((E1 & _) & _). intros i j H. exists j. rewrite E1. auto.
Qed.

Lemma I91_env w w' : ages w w' -> env_same w w' -> (forall a, In a (w_spawned w') -> In a (w_spawned w)) ->
  I91 w -> I91 w'.
Proof.
  intros A (E1 & E2 & _) Hs (H1 & H2 & H3). split; [eapply wf_jobs_eq; eauto|]. split.
  - rewrite E1. intros j Hj. destruct (H2 j Hj) as [D1 D2]. destruct A as [A _]. split; [lia|].
    intros t Ht. specialize (D2 t Ht). lia.
  - intros a Ha. apply (here_ages _ w); auto.
Qed.

Lemma I91_runs w ls s : wf_queue w -> w_spawned w = [] -> (forall j, In j (w_jobs w) -> dated (w_now w) j) ->
  each_step forward ls (start_sys w) -> runs ls (start_sys w) = Some s -> I91 (s_world s).
Proof.
  intros Hw Hsp Hr Hf Hs.
  assert (X : rgy_inv I91 R91 G91 s); [|apply X].
  eapply rgy_steps with (okl := forward) (okst := fun _ => True) (R := R91);
    [..|exact Hf|apply along_true| |exact Hs].
  - intros k x. apply ages_refl.
  - intros k x y z. apply ages_trans.
  - intros k o x y _ _ -> Hi Hg. eapply I91_exec; eauto.
  - intros x n m a b o c _ _ _ _ _ _ _ _ [Hm _]. eapply may_ages; eauto.
  - intros l s0 s1 Hl _ _ Hn Hst Hi. destruct (step_env _ _ _ Hn Hst) as (He & _ & _ & Hsub).
    pose proof (env_ages _ _ _ Hl Hn Hst) as A. split; [eapply I91_env; eauto|]. intros t _ _. exact A.
  - intros c x _ _. apply ok91_cmd.
  - intros k p x Hp _ _. destruct k; inversion Hp.
    + eapply okq_okp. apply ok91_pass.
    + apply ok91_plain; [apply ops_mgr; reflexivity|]. eapply all_ops_weaken; [intros o; apply (may_plain91 KPipMgr); auto|apply ops_mgr; reflexivity].
    + apply ok91_plain; [apply ops_mgr; reflexivity|]. eapply all_ops_weaken; [intros o; apply (may_plain91 KDrvMgr); auto|apply ops_mgr; reflexivity].
  - intros x _ _. apply ok91_plain; [apply ops_quit|]. eapply all_ops_weaken; [intros o; apply (may_plain91 KDrvMgr); auto|apply ops_quit].
  - intros x x' i pid a _ _ (_ & _ & Hi) _ Hst Ha. eapply okq_okp. apply ok91_job.
    apply (here_ages _ (s_world x)); [|apply Hi; eapply nth_error_In; eauto].
    apply (env_ages (LJobStart i pid)); [exact I|congruence|exact Hst].
  - intros n port pid ver ok x _ _. apply ok91_plain; [apply ops_driver|].
    eapply all_ops_weaken; [intros o; apply (may_plain91 (KDriver n)); eauto|apply ops_driver].
  - apply rgy_start. split; [exact Hw|]. split; [exact Hr|]. cbn. rewrite Hsp. intros a [].
Qed.

Lemma C91_lemma w ls s : wf_queue w -> w_spawned w = [] -> (forall j, In j (w_jobs w) -> dated (w_now w) j) ->
  each_step forward ls (start_sys w) -> runs ls (start_sys w) = Some s ->
  forall j, In j (w_jobs (s_world s)) -> dated (w_now (s_world s)) j.
Proof. intros Hw Hsp Hr Hf Hs. apply (I91_runs _ _ _ Hw Hsp Hr Hf Hs). Qed.

(** ** Nothing recorded is erased *)
Lemma may_stamped k id cs j : may k (OJobUpdate id cs) -> still_stamped j (set_jcols cs j).
Proof.
  intros [[]|H]. destruct k; cbn in H; try contradiction.
  - destruct H as [-> | ->]; unfold still_stamped; cbn; auto.
  - destruct H as [(s & t & _ & ->)|[->|(t & ->)]]; unfold still_stamped; cbn; repeat split; auto; discriminate.
  - destruct H as [(t & ->)|[(r & s & p & ->)|(s & t & _ & ->)]]; unfold still_stamped; cbn; repeat split; auto; discriminate.
Qed.
Lemma still_refl j : still_stamped j j.
Proof. unfold still_stamped. auto. Qed.
Lemma still_trans a b c : still_stamped a b -> still_stamped b c -> still_stamped a c.
Proof. unfold still_stamped. intros (?&?&?) (?&?&?). auto 10. Qed.
Definition stays (w w' : world) : Prop :=
  forall i j, get_job (w_jobs w) i = Some j ->
  exists j', get_job (w_jobs w') i = Some j' /\ j_submitted j' = j_submitted j /\ still_stamped j j'.
Lemma stays_eq w w' : w_jobs w' = w_jobs w -> stays w w'.
Proof. intros E i j H. exists j. rewrite E. split; [exact H|]. split; [reflexivity|apply still_refl]. Qed.
Lemma may_stays k o w : may k o -> stays w (snd (exec o w)).
Proof.
  intros Hm. op_cases o; try (apply stays_eq; reflexivity).
  - intros i j0 H. exists j0. split; [|split; [reflexivity|apply still_refl]].
    cbn [set_jobs w_jobs]. rewrite get_job_app, H. reflexivity.
  - intros i j0 H. cbn [set_jobs w_jobs]. rewrite get_job_upd, H. cbn [option_map].
    destruct (Z.eqb i id); eexists; (split; [reflexivity|]);
      [split; [eapply may_submitted; eauto|eapply may_stamped; eauto]|split; [reflexivity|apply still_refl]].
Qed.
Lemma step_stays l s s' : rg_inv (fun _ => True) any some_may s -> step l s = Some s' ->
  stays (s_world s) (s_world s').
Proof.
  intros Hi Hs.
  assert (D : (exists n, l = LStep n) \/ forall n, l <> LStep n).
  { destruct l; try (right; congruence). left. eauto. }
  destruct D as [(n & ->)|Hn].
  - destruct (rg_guar _ _ _ (fun _ _ => I) _ _ _ Hi Hs) as [E|(t & o & c & _ & _ & Hm & E)].
    + apply stays_eq. rewrite E. reflexivity.
    + rewrite E. eapply may_stays. exact Hm.
  - destruct (step_env _ _ _ Hn Hs) as ((E1 & _) & _). apply stays_eq. exact E1.
Qed.
Lemma C91_stays_lemma w ls0 s ls s' i j : runs ls0 (start_sys w) = Some s -> runs ls s = Some s' ->
  get_job (w_jobs (s_world s)) i = Some j ->
  exists j', get_job (w_jobs (s_world s')) i = Some j' /\ j_submitted j' = j_submitted j /\ still_stamped j j'.
Proof.
  intros H0 H Hj. pose proof (may_inv _ _ _ H0) as B. clear H0. revert s j B H Hj.
  induction ls as [|l ls IH]; intros s j B H Hj; cbn in H.
  - inversion H. subst. exists j. split; [exact Hj|]. split; [reflexivity|apply still_refl].
  - destruct (step l s) as [s1|] eqn:E; [|discriminate].
    destruct (step_stays _ _ _ B E i j Hj) as (j1 & E1 & S1 & T1).
    destruct (IH s1 j1 (may_step _ _ _ B E) H E1) as (j2 & E2 & S2 & T2).
    exists j2. split; [exact E2|]. split; [congruence|eapply still_trans; eauto].
Qed.
