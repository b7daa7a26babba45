(** * SysProofs10: job records are complete (C77) *)
From Coq Require Import List String Ascii ZArith Bool Sorted Lia.
From Verif Require Import Base PyStr BaseFacts Types ConfigModel Prog ProgFacts World WorldFacts Replies
  CmdModel KetchupModel TomatoModel JobModel PipModel DrvModel SysModel RGFacts SysOps
  SpecQueue SpecSys SpecSys2 SysProofs SysProofs2.
Import ListNotations.
Open Scope list_scope.
Open Scope Z_scope.

(** What is never erased. *)
Definition keeps (j j' : job) : Prop :=
  (j_connected j <> None -> j_connected j' <> None) /\ (j_jobpath j <> None -> j_jobpath j' <> None) /\
  (j_respath j <> None -> j_respath j' <> None) /\ (j_snappath j <> None -> j_snappath j' <> None).
Definition grows (w w' : world) : Prop :=
  forall i j, get_job (w_jobs w) i = Some j -> exists j', get_job (w_jobs w') i = Some j' /\ keeps j j'.
Lemma keeps_refl j : keeps j j.
Proof. unfold keeps. auto. Qed.
Lemma keeps_trans a b c : keeps a b -> keeps b c -> keeps a c.
Proof. unfold keeps. intros (?&?&?&?) (?&?&?&?). auto 10. Qed.
Lemma grows_refl w : grows w w.
Proof. intros i j H. exists j. split; [exact H|apply keeps_refl]. Qed.
Lemma grows_trans a b c : grows a b -> grows b c -> grows a c.
Proof.
  intros H1 H2 i j H. destruct (H1 i j H) as (j1 & E1 & K1). destruct (H2 i j1 E1) as (j2 & E2 & K2).
  exists j2. split; [exact E2|eapply keeps_trans; eauto].
Qed.
Lemma grows_eq w w' : w_jobs w' = w_jobs w -> grows w w'.
Proof. intros E i j H. exists j. rewrite E. split; [exact H|apply keeps_refl]. Qed.

Lemma may_keeps k id cs j : may k (OJobUpdate id cs) -> keeps j (set_jcols cs j).
Proof.
  intros [[]|H]. destruct k; cbn in H; try contradiction.
  - destruct H as [-> | ->]; unfold keeps; cbn; auto.
  - destruct H as [(s & t & _ & ->)|[->|(t & ->)]]; unfold keeps; cbn; auto.
  - destruct H as [(t & ->)|[(r & s & p & ->)|(s & t & _ & ->)]]; unfold keeps; cbn; repeat split; auto; discriminate.
Qed.
Lemma may_grows k o w : may k o -> grows w (snd (exec o w)).
Proof.
  intros Hm. op_cases o; try (apply grows_eq; reflexivity).
  - intros i j0 H. exists j0. split; [|apply keeps_refl]. cbn [set_jobs w_jobs]. rewrite get_job_app, H. reflexivity.
  - intros i j0 H. cbn [set_jobs w_jobs]. rewrite get_job_upd, H. cbn [option_map].
    destruct (Z.eqb i id); eexists; (split; [reflexivity|]); [eapply may_keeps; eauto|apply keeps_refl].
Qed.

(** The row of job [i] has [P]. *)
Definition known (i : Z) (P : job -> Prop) (w : world) : Prop :=
  exists j, get_job (w_jobs w) i = Some j /\ P j.
Lemma known_grows i (P : job -> Prop) w w' : (forall a b, keeps a b -> P a -> P b) -> grows w w' -> known i P w -> known i P w'.
Proof. intros HP Hg (j & E & H). destruct (Hg i j E) as (j' & E' & K). exists j'. split; [exact E'|eauto]. Qed.
Definition there (i : Z) : world -> Prop := known i (fun _ => True).
Lemma there_grows i w w' : grows w w' -> there i w -> there i w'.
Proof. apply known_grows. auto. Qed.

Definition I77 (w : world) : Prop :=
  wf_queue w /\ (forall j, In j (w_jobs w) -> record_ok j) /\
  forall a, In a (w_spawned w) -> there (ja_jobid a) w.
Definition R77 (k : kind) (w w' : world) : Prop := grows w w'.
Definition G77 (k : kind) (o : op) (w : world) : Prop :=
  may k o /\
  match o with
  | OJobUpdate id cs => forall j, get_job (w_jobs w) id = Some j -> record_ok j -> record_ok (set_jcols cs j)
  | OSpawnJob a => there (ja_jobid a) w
  | _ => True
  end.

Lemma I77_row w i j : I77 w -> get_job (w_jobs w) i = Some j -> record_ok j.
Proof. intros (_ & H & _) E. apply H. eapply get_job_In; eauto. Qed.
Lemma wf_nodup w : wf_queue w -> NoDup (map j_id (w_jobs w)).
Proof. intros (H & _). apply NoDup_SS. exact H. Qed.

Lemma spawned_other o w : (forall a, o <> OSpawnJob a) -> w_spawned (snd (exec o w)) = w_spawned w.
Proof. intros H0. op_cases o; try reflexivity. elim (H0 a). reflexivity. Qed.
Lemma I77_exec k o w : I77 w -> G77 k o w -> I77 (snd (exec o w)).
Proof.
  intros (Hw & Hr & Hsp) [Hm Hg]. split; [apply wf_exec; exact Hw|]. split.
  2:{ intros a Ha. apply (there_grows _ w); [eapply may_grows; eauto|].
      destruct o; try (rewrite spawned_other in Ha by congruence; apply Hsp; exact Ha).
      cbn in Ha. apply in_app_iff in Ha. destruct Ha as [Ha|[<-|[]]]; [apply Hsp; exact Ha|exact Hg]. }
  op_cases o; try exact Hr.
  - intros j0 Hj. cbn [set_jobs w_jobs] in Hj. apply in_app_iff in Hj. destruct Hj as [Hj|[<-|[]]]; [auto|].
    destruct Hm as [[]|Hm]. destruct k; try contradiction. destruct Hm as (p & n & t & ->).
    unfold record_ok. cbn. split; [congruence|]. split; [discriminate|]. split; [intros [X|X]; discriminate|discriminate].
  - intros j0 Hj. cbn [set_jobs w_jobs] in Hj. unfold upd_jobs in Hj. apply in_map_iff in Hj.
    destruct Hj as (j1 & <- & Hj). destruct (Z.eqb_spec (j_id j1) id) as [E|E]; [|auto].
    apply Hg; [|auto]. rewrite <- E. apply In_get_job; [apply wf_nodup; exact Hw|exact Hj].
Qed.

(** Updates that never harm a record. *)
Definition mild (o : op) : Prop :=
  match o with
  | OJobUpdate _ cs => cs = [JStatus Scd] \/ cs = [JStatus Srd] \/ cs = [JStatus Sqw] \/
      (exists t, cs = [JLaunched (Some t)]) \/ (exists t, cs = [JStatus Scd; JPid None; JCompleted (Some t)])
  | OSpawnJob _ => False
  | _ => True
  end.
Lemma mild_ok k o w : may k o -> mild o -> G77 k o w.
Proof.
  intros Hm Ho. split; [exact Hm|]. destruct o; try exact I; [|destruct Ho]. intros j _ (H1 & H2 & H3 & H4).
  destruct Ho as [->|[->|[->|[(t & ->)|(t & ->)]]]]; unfold record_ok; cbn;
    (split; [|split; [|split]]); auto; try congruence; try (intros [X|X]; discriminate).
Qed.
Lemma ok77_mild k {A} (p : pgm A) w :
  all_ops (may k) p -> all_ops mild p -> okp exec (rely I77 R77 k) (G77 k) p w.
Proof.
  intros H1 H2. revert w. induction p as [a|e|o f IH]; intros w; cbn; auto.
  destruct H1 as [H1 K1], H2 as [H2 K2]. intros w1 _. split; [apply mild_ok; auto|].
  destruct (exec o w1) as [r w2]. apply IH; auto.
Qed.

Definition conn (j : job) : Prop := j_connected j <> None.
Definition filed (j : job) : Prop :=
  j_connected j <> None /\ j_jobpath j <> None /\ j_respath j <> None /\ j_snappath j <> None.
Lemma conn_keeps a b : keeps a b -> conn a -> conn b.
Proof. intros (H & _). exact H. Qed.
Lemma filed_keeps a b : keeps a b -> filed a -> filed b.
Proof. unfold keeps, filed. tauto. Qed.

(** ** The job manager *)
Section Mgr.
  Let R := rely I77 R77 KJobMgr.
  Let G := G77 KJobMgr.
  Let E := fun _ : world => True.

  Lemma mgr_stable (P : world -> Prop) {A} (p : pgm A) : forall w,
    (forall a b, grows a b -> P a -> P b) -> all_ops (may KJobMgr) p -> all_ops mild p -> P w ->
    okq exec R G E p (fun _ => P) w.
  Proof.
    induction p as [a|e|o f IH]; intros w HP H1 H2 Hw; cbn; auto.
    destruct H1 as [H1 K1], H2 as [H2 K2]. intros w1 [_ Hr]. split; [apply mild_ok; auto|].
    pose proof (may_grows _ o w1 H1) as Hg. destruct (exec o w1) as [r w2]. apply IH; auto.
    eapply HP; [exact Hg|]. eapply HP; eauto.
  Qed.
  Ltac ops := repeat (ops_step; cbv beta zeta).

  (** What the manager knows of the jobs it has read. *)
  Definition J77 (l : list job) (w : world) : Prop :=
    forall j, In j l -> record_ok j /\ known (j_id j) (fun j' => conn j -> conn j') w.
  Lemma J77_grows l a b : grows a b -> J77 l a -> J77 l b.
  Proof.
    intros Hg H j Hj. destruct (H j Hj) as [H1 H2]. split; [exact H1|].
    eapply known_grows; [|exact Hg|exact H2]. cbv beta. intros x y K Hx Hc. eapply conn_keeps; eauto.
  Qed.

  Lemma ok77_crashed j l w : J77 (j :: l) w -> conn j ->
    okq exec R G E (finish_crashed j) (fun _ => J77 l) w.
  Proof.
    intros HJ Hc. unfold finish_crashed. q_bind.
    eapply okq_weaken; [|apply mgr_stable with (P := J77 (j :: l))]; cycle 1.
    { apply J77_grows. } { refine (all_ops_do _ _ _). left; exact I. } { refine (all_ops_do _ _ _). exact I. } { exact HJ. }
    intros t w1 H1. cbv beta. unfold update_job_id. q_bind. q_bind. apply okq_act. intros w2 [Hi Hr].
    assert (H2 : J77 (j :: l) w2) by (eapply J77_grows; eauto).
    assert (Hm : may KJobMgr (OJobUpdate (j_id j) [JStatus Sce; JPid None; JCompleted (Some t)])) by (right; cbn; eauto 8).
    split.
    - split; [exact Hm|]. intros j0 E0 _. destruct (H2 j (or_introl eq_refl)) as (_ & j1 & E1 & K1).
      rewrite E0 in E1. injection E1 as <-. specialize (K1 Hc). unfold conn in K1.
      unfold record_ok. cbn. repeat split; try congruence.
    - pose proof (may_grows _ _ w2 Hm) as Hg.
      destruct (exec (OJobUpdate (j_id j) [JStatus Sce; JPid None; JCompleted (Some t)]) w2) as [[x|e] w3]; [|exact I].
      cbn [snd] in Hg. assert (H3 : J77 (j :: l) w3) by (eapply J77_grows; eauto).
      eapply okq_weaken; [|apply mgr_stable with (P := J77 (j :: l))]; cycle 1.
      { apply J77_grows. } { refine (all_ops_do _ _ _). left; exact I. } { refine (all_ops_do _ _ _). exact I. } { exact H3. }
      intros j' w4 H4. cbn. intros x' Hx'. apply H4. now right.
  Qed.
  Lemma ok77_cancelled j alive l w : J77 (j :: l) w ->
    okq exec R G E (finish_cancelled j alive) (fun _ => J77 l) w.
  Proof.
    intros HJ. eapply okq_weaken; [|apply mgr_stable with (P := J77 (j :: l))].
    - intros u w' H x Hx. apply H. now right.
    - apply J77_grows.
    - unfold finish_cancelled, merge_netcdfs, update_job_id. ops; try fin; right; cbn; eauto 8.
    - unfold finish_cancelled, merge_netcdfs, update_job_id. ops; try exact I; cbn; eauto 8.
    - exact HJ.
  Qed.
  Lemma ok77_skip j l w : J77 (j :: l) w -> J77 l w.
  Proof. intros H x Hx. apply H. now right. Qed.
  Lemma ok77_reconcile j s e l w : J77 (j :: l) w -> (s = Sr -> conn j) ->
    okq exec R G E (reconcile j s e) (fun _ => J77 l) w.
  Proof.
    intros HJ Hs. unfold reconcile. q_bind.
    eapply okq_weaken; [|apply mgr_stable with (P := J77 (j :: l))]; cycle 1.
    { apply J77_grows. } { ops; fin. } { ops; exact I. } { exact HJ. }
    intros alive w1 H1. cbv beta. destruct s; try (exact (ok77_skip _ _ _ H1)).
    - destruct alive; [exact (ok77_skip _ _ _ H1)|]. apply ok77_crashed; auto.
    - apply ok77_cancelled. exact H1.
  Qed.
  Lemma ok77_one j l w : J77 (j :: l) w -> okq exec R G E (manage_one tt j) (fun _ => J77 l) w.
  Proof.
    intros HJ. destruct (HJ j (or_introl eq_refl)) as ((P1 & P2 & _) & _).
    unfold manage_one. destruct (j_pid j) as [p|] eqn:Ep.
    - q_bind. eapply okq_weaken; [|apply mgr_stable with (P := J77 (j :: l))]; cycle 1.
      { apply J77_grows. } { refine (all_ops_do _ _ _). left; exact I. } { refine (all_ops_do _ _ _). exact I. } { exact HJ. }
      intros e w1 H1. cbv beta. apply ok77_reconcile; [exact H1|]. intros _. apply P1. discriminate.
    - destruct (j_connected j) as [c|] eqn:Ec.
      + apply ok77_reconcile; [exact HJ|]. intros _. unfold conn. congruence.
      + destruct (j_launched j) as [t|]; [|exact (ok77_skip _ _ _ HJ)].
        q_bind. eapply okq_weaken; [|apply mgr_stable with (P := J77 (j :: l))]; cycle 1.
        { apply J77_grows. } { refine (all_ops_do _ _ _). left; exact I. } { refine (all_ops_do _ _ _). exact I. } { exact HJ. }
        intros now w1 H1. cbv beta. destruct (Z.ltb _ _); [|exact (ok77_skip _ _ _ H1)].
        apply ok77_reconcile; [exact H1|]. discriminate.
  Qed.

  Lemma ok77_launch d j pn w : there (j_id j) w ->
    okq exec R G E (launch d j pn) (fun _ _ => True) w.
  Proof.
    intros Hw.
    assert (S : forall {A} (p : pgm A) w0, there (j_id j) w0 -> all_ops (may KJobMgr) p -> all_ops mild p ->
      okq exec R G E p (fun _ => there (j_id j)) w0).
    { intros A p w0 H0 H1 H2. apply mgr_stable; auto. intros x y. apply there_grows. }
    unfold launch. q_bind. eapply okq_weaken; [|apply S; [exact Hw|ops; fin|ops; exact I]].
    intros xw1 w1 H1. cbv beta. q_bind. eapply okq_weaken; [|apply S; [exact H1|ops; fin|ops; exact I]].
    intros xw2 w2 H2. cbv beta. q_bind. eapply okq_weaken; [|apply S; [exact H2|ops; fin|ops; exact I]].
    intros xw3 w3 H3. cbv beta. q_bind.
    eapply okq_weaken; [|apply S; [exact H3|apply ops_update_pip; right; cbn; eauto|unfold update_pip; ops; exact I]].
    intros xw4 w4 H4. cbv beta. q_bind. apply okq_act. intros w5 [_ Hr].
    split; [split; [right; exact I|]|].
    { cbn. eapply there_grows; eauto. }
    cbn [exec]. eapply okq_weaken with (Q := fun _ => fun _ => True); [intros; exact I|].
    eapply okq_weaken; [|apply mgr_stable with (P := fun _ => True)]; auto.
    - unfold update_job_id. ops; try fin; right; cbn; eauto 8.
    - unfold update_job_id. ops; try exact I; cbn; eauto 8.
  Qed.
  Lemma ok77_action d m w : okq exec R G E (action_queued d m) (fun _ _ => True) w.
  Proof.
    unfold action_queued. q_bind. apply okq_act. intros w1 _. cbn [exec].
    split; [apply mild_ok; [left; exact I|exact I]|]. q_bind.
    eapply okq_weaken; [|eapply okq_forP with (J := fun _ _ _ => True)]; [intros; exact I|exact I|].
    intros [i l] r av w2 _. unfold action_one. q_bind. apply okq_act. intros w3 _. cbn [exec fst snd].
    split; [apply mild_ok; [left; exact I|exact I]|].
    destruct (get_job (w_jobs w3) i) as [j|] eqn:Ej; [|exact I].
    assert (Hj : there (j_id j) w3).
    { exists j. split; [|exact I]. rewrite (proj2 (get_job_In _ _ _ Ej)). exact Ej. }
    q_bind. eapply okq_weaken; [|eapply okq_forB with (J := fun _ _ => there (j_id j)) (K := fun _ _ => True)].
    - intros [x|x] w4 _; exact I.
    - exact Hj.
    - intros pn r' av' w4 H4. unfold try_pip. destruct (dget av' pn); [|exact H4].
      destruct (_ && _)%bool; [|exact H4]. q_bind. eapply okq_weaken; [|apply ok77_launch; exact H4].
      intros; exact I.
  Qed.

  Lemma ok77_pass w : okq exec R G E (no_reply job_pass) (fun _ _ => True) w.
  Proof.
    unfold no_reply, job_pass. q_bind. q_bind. apply okq_act. intros w1 _. cbn [exec].
    split; [apply mild_ok; [left; exact I|exact I]|].
    destruct (w_daemon w1) as [d|]; [|exact I].
    q_bind. eapply okq_weaken with (Q := fun _ _ => True).
    - intros _ w2 _. cbv beta. q_bind.
      eapply okq_weaken; [|apply mgr_stable with (P := fun _ => True)]; auto.
      + intros m w3 _. eapply okq_weaken; [|apply ok77_action]. intros; exact I.
      + eapply all_ops_weaken; [apply quiet_may|apply quiet_check].
      + unfold check_queued, check_one, update_job_id. ops; try exact I.
        * eapply all_ops_weaken; [|apply reads_match]. intros o Ho. destruct o; try exact I; destruct Ho.
        * cbn. auto.
    - unfold manage_running. q_bind. apply okq_act. intros w2 [Hi _]. cbn [exec jobs_where].
      split; [apply mild_ok; [left; exact I|exact I]|].
      eapply okq_weaken; [|eapply okq_forP with (J := fun r _ w => J77 r w)].
      + intros; exact I.
      + intros j Hj. apply filter_In in Hj. destruct Hj as [Hj _]. split; [apply Hi; exact Hj|].
        exists j. split; [apply In_get_job; [apply wf_nodup; apply Hi|exact Hj]|auto].
      + intros j r [] w3 HJ. apply ok77_one. exact HJ.
  Qed.
End Mgr.

(** ** The job process *)
Section Job.
  Context (pid : Z) (a : jobargs).
  Let R := rely I77 R77 (KJob pid a).
  Let G := G77 (KJob pid a).
  Let E := fun _ : world => True.
  Let id := ja_jobid a.

  (** An operation that does not update the queue. *)
  Lemma job_op (o : op) (P : world -> Prop) w (Q : resp o -> world -> Prop) :
    may (KJob pid a) o -> (forall i cs, o <> OJobUpdate i cs) -> (forall x y, grows x y -> P x -> P y) -> P w ->
    (forall x w1 w2, exec o w1 = (Ok x, w2) -> P w2 -> Q x w2) ->
    okq exec R G E (act o) Q w.
  Proof.
    intros Hm Ho HP Hw HQ. apply okq_act. intros w1 [_ Hr].
    split; [split; [exact Hm|destruct o; try exact I; solve [exfalso; eapply Ho; reflexivity|destruct Hm as [[]|[]]]]|].
    pose proof (may_grows _ o w1 Hm) as Hg. destruct (exec o w1) as [[x|e] w2] eqn:Ee; [|exact I].
    eapply HQ; [exact Ee|]. eapply HP; [exact Hg|]. eapply HP; eauto.
  Qed.
  (** An update of the row of the job, which exists. *)
  Lemma job_upd cs (P P' : job -> Prop) w :
    may (KJob pid a) (OJobUpdate id cs) ->
    (forall x y, keeps x y -> P x -> P y) -> (forall x y, keeps x y -> P' x -> P' y) ->
    (forall j, P j -> record_ok j -> record_ok (set_jcols cs j) /\ P' (set_jcols cs j)) ->
    known id P w ->
    okq exec R G E (update_job_id id cs) (fun j w' => j_id j = id /\ known id P' w') w.
  Proof.
    intros Hm HP HP' Hok Hk. unfold update_job_id. q_bind. apply okq_act. intros w1 [Hi Hr].
    assert (K1 : known id P w1) by (eapply known_grows; eauto). destruct K1 as (j1 & E1 & P1).
    split; [split; [exact Hm|]|].
    { intros j Ej Hrec. rewrite E1 in Ej. injection Ej as <-. apply Hok; auto. }
    cbn [exec].
    assert (K2 : known id P' (set_jobs w1 (upd_jobs id cs (w_jobs w1)) (w_seq w1))).
    { exists (set_jcols cs j1). cbn [set_jobs w_jobs]. rewrite get_job_upd, Z.eqb_refl, E1. split; [reflexivity|].
      apply Hok; [exact P1|eapply I77_row; eauto]. }
    eapply job_op with (P := known id P'); [left; exact I|congruence| |exact K2|].
    - intros x y. apply known_grows. exact HP'.
    - intros j w2 w3 Ee H3. split; [|exact H3]. cbn in Ee. destruct (get_job (w_jobs w2) id) eqn:Eg; inversion Ee.
      subst. eapply get_job_In; eauto.
  Qed.

  Lemma ok77_job w : there id w -> okq exec R G E (no_reply (tomato_job pid a)) (fun _ _ => True) w.
  Proof.
    intros Hw. unfold no_reply, tomato_job. fold id. q_bind. q_bind.
    eapply job_op with (P := there id); [left; exact I|congruence|apply there_grows|exact Hw|].
    intros t _ w1 _ H1. cbv beta. q_bind.
    eapply okq_weaken; [|apply job_upd with (P := fun _ => True) (P' := conn); [right; cbn; eauto| | | |exact H1]]; cycle 1.
    { auto. } { apply conn_keeps. }
    { intros j _ (Q1 & Q2 & Q3 & Q4). unfold record_ok, conn. cbn.
      split; [split; [|split; [|split]]|]; try congruence. intros [X|X]; discriminate. }
    intros j0 w2 [_ H2]. cbv beta. destruct (pl_outpath (ja_payload a)) as [out|]; [|exact I].
    q_bind. eapply job_op with (P := known id conn); [left; exact I|congruence| |exact H2|].
    { intros x y. apply known_grows, conn_keeps. }
    intros _ _ w3 _ H3. cbv beta. q_bind.
    eapply okq_weaken; [|apply job_upd with (P := conn) (P' := filed); [right; cbn; eauto 12| | | |exact H3]]; cycle 1.
    { apply conn_keeps. } { apply filed_keeps. }
    { intros j Hc (Q1 & Q2 & Q3 & Q4). unfold record_ok, conn, filed in *. cbn.
      split; [repeat split; auto; try discriminate; apply Q3; auto|repeat split; auto; discriminate]. }
    intros j w4 [Ej H4]. cbv beta. rewrite Ej.
    q_bind. eapply job_op with (P := known id filed); [left; exact I|congruence| |exact H4|].
    { intros x y. apply known_grows, filed_keeps. }
    intros ok _ w5 _ H5. cbv beta. q_bind.
    eapply job_op with (P := known id filed); [left; exact I|congruence| |exact H5|].
    { intros x y. apply known_grows, filed_keeps. }
    intros t' _ w6 _ H6. cbv beta. unfold merge_netcdfs. q_bind. q_bind. apply okq_assert; [exact I|]. intros _.
    match goal with |- okq _ _ _ _ (match ?x with _ => _ end) _ _ => destruct x; [|exact I] end.
    eapply job_op with (P := known id filed); [left; exact I|congruence| |exact H6|].
    { intros x y. apply known_grows, filed_keeps. }
    intros _ _ w7 _ H7. cbv beta. q_bind.
    assert (F : forall w, known id filed w ->
      okq exec R G E (bind (update_job_id id [JStatus (if ok : bool then Sc else Sce); JCompleted (Some t')])
        (fun j' => bind (update_pip (ja_pipeline a) [PJobid None; PReady (pl_unlock (j_payload j'))]) (fun _ => Ret tt)))
        (fun _ w' => okq exec R G E (Ret (None : option reply)) (fun _ _ => True) w') w).
    { intros w0 H0. q_bind.
      eapply okq_weaken; [|apply job_upd with (P := filed) (P' := filed); [| | | |exact H0]]; cycle 1.
      { right. cbn. right. right. eexists _, _. split; [|reflexivity]. destruct ok; auto. }
      { apply filed_keeps. } { apply filed_keeps. }
      { intros j1 (F1 & F2 & F3 & F4) (Q1 & Q2 & Q3 & Q4). unfold record_ok, filed. cbn.
        split; [|auto]. split; [exact Q1|]. split; [destruct ok; discriminate|].
        split; [intros _; split; [exact F1|discriminate]|auto]. }
      intros j1 w8 _. cbv beta. unfold update_pip. q_bind. q_bind.
      eapply job_op with (P := fun _ => True); [right; cbn; eauto|congruence|auto|exact I|].
      intros _ _ w9 _ _. eapply job_op with (P := fun _ => True); [left; exact I|congruence|auto|exact I|].
      intros _ _ w10 _ _. exact I. }
    destruct (ja_repos a); [apply F; exact H7|].
    eapply job_op with (P := known id filed); [left; exact I|congruence| |exact H7|].
    { intros x y. apply known_grows, filed_keeps. }
    intros _ _ w8 _ H8. apply F. exact H8.
  Qed.
End Job.

Lemma I77_env w w' : env_same w w' -> (forall a, In a (w_spawned w') -> In a (w_spawned w)) -> I77 w -> I77 w'.
Proof.
  intros (E1 & E2 & _) Hs (H1 & H2 & H3). split; [eapply wf_jobs_eq; eauto|]. split; [rewrite E1; exact H2|].
  intros a Ha. apply (there_grows _ w); [apply grows_eq; exact E1|auto].
Qed.

Lemma mild_cmd c : all_ops mild (cmd_pgm c).
Proof.
  assert (H : plain_cmd c \/ (exists p, c = CmdStart p) \/ exists p, c = CmdReload p).
  { destruct c; cbn; eauto. }
  destruct H as [H|[(p & ->)|(p & ->)]].
  - eapply all_ops_weaken; [|apply calm_cmd; exact H]. intros o [Ho|Ho]; destruct o; try exact I; try destruct Ho.
    + cbn. auto. + cbn. auto.
  - cbn [cmd_pgm]. unfold no_reply, daemon_start, bootstrap, boot_driver, boot_pipeline, insert_drv, insert_pip, read_daemon.
    repeat (ops_step; cbv beta zeta); exact I.
  - cbn [cmd_pgm]. unfold some_reply, tomato_reload, with_daemon, cmd_reload, read_daemon.
    repeat (ops_step; cbv beta zeta); exact I.
Qed.
Lemma may_mild k o : (k = KPipMgr \/ k = KDrvMgr \/ exists n, k = KDriver n) -> may k o -> mild o.
Proof.
  intros Hk Ho. destruct o; try exact I; destruct Ho as [[]|Ho]; destruct Hk as [->|[->|(n & ->)]]; destruct Ho.
Qed.

Lemma C77_lemma w ls s : wf_queue w -> w_spawned w = [] -> (forall j, In j (w_jobs w) -> record_ok j) ->
  runs ls (start_sys w) = Some s -> forall j, In j (w_jobs (s_world s)) -> record_ok j.
Proof.
  intros Hw Hsp Hr Hs.
  assert (X : rg_inv I77 R77 G77 s); [|apply X].
  eapply rg_steps with (okl := fun _ => True) (R := R77); [..|exact Hs].
  - intros k x. apply grows_refl.
  - intros k x y z. apply grows_trans.
  - intros k o x. apply I77_exec.
  - intros k k' o x _ [Hm _] _. eapply may_grows; eauto.
  - intros l s0 s1 _ Hn Hst Hi. destruct (step_env _ _ _ Hn Hst) as (He & _ & _ & Hsub).
    split; [eapply I77_env; eauto|]. intros k. apply grows_eq. apply He.
  - intros c x _ _. apply ok77_mild; [apply ops_cmd|apply mild_cmd].
  - intros k p x Hp _. destruct k; inversion Hp.
    + eapply okq_okp. apply ok77_pass.
    + apply ok77_mild; [apply ops_mgr; reflexivity|]. eapply all_ops_weaken; [intros o; apply (may_mild KPipMgr); auto|apply ops_mgr; reflexivity].
    + apply ok77_mild; [apply ops_mgr; reflexivity|]. eapply all_ops_weaken; [intros o; apply (may_mild KDrvMgr); auto|apply ops_mgr; reflexivity].
  - intros x _. apply ok77_mild; [apply ops_quit|]. eapply all_ops_weaken; [intros o; apply (may_mild KDrvMgr); auto|apply ops_quit].
  - intros x i pid a _ (_ & _ & Hi) Ha. eapply okq_okp. apply ok77_job.
    apply (there_grows _ x); [apply grows_eq; reflexivity|]. apply Hi. eapply nth_error_In; eauto.
  - intros n port pid ver ok x _ _. apply ok77_mild; [apply ops_driver|].
    eapply all_ops_weaken; [intros o; apply (may_mild (KDriver n)); eauto|apply ops_driver].
  - apply Forall_forall. intros; exact I.
  - apply rg_start. split; [exact Hw|]. split; [exact Hr|]. cbn. rewrite Hsp. intros a [].
Qed.
