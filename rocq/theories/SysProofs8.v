(** * SysProofs8: a pipeline is used by one job process at a time (C31) *)
From Coq Require Import List String Ascii ZArith Bool Sorted Lia.
From Verif Require Import Base PyStr BaseFacts Types ConfigModel Prog ProgFacts World WorldFacts Replies
  CmdModel KetchupModel TomatoModel JobModel PipModel DrvModel SysModel RGFacts SysOps
  SpecQueue SpecSys SpecSys2 RGY SysProofs SysProofs2 SysProofs3 SysProofs7.
Import ListNotations.
Open Scope list_scope.
Open Scope Z_scope.

Definition row (n : string) (i : Z) (w : world) : Prop :=
  exists p, get_pip (w_pips w) n = Some p /\ p_jobid p = Some i.
Definition reserved (a : jobargs) (w : world) : Prop := row (ja_pipeline a) (ja_jobid a) w.
Definition unstarted (i : Z) (w : world) : Prop := forall a, In a (starts w) -> ja_jobid a <> i.
(** Job [i] has had no process. *)
Definition unborn (i : Z) (w : world) : Prop :=
  forall j, In j (w_jobs w) -> j_id j = i -> j_pid j = None /\ j_connected j = None.
(** [p] is the only possible process of job [i]. *)
Definition only (i p : Z) (w : world) : Prop :=
  forall a, ja_jobid a = i -> ~ In a (w_spawned w) /\ forall q, listed w q a -> q = p.
Definition none (i : Z) (w : world) : Prop := forall a, ja_jobid a = i -> ~ under_way w a.

Lemma row_fun n i j w : row n i w -> row n j w -> i = j.
Proof. intros (p & H1 & H2) (q & H3 & H4). congruence. Qed.

(** Pipeline [n] is not in use. *)
Definition unclaimed (n : string) (w : world) : Prop :=
  forall a, under_way w a -> reserved a w -> ja_pipeline a <> n.
(** [c] resets a component of pipeline [n]. *)
Definition resets (df : devicefile) (n : string) (c : dcmd) : Prop :=
  exists cn, part_of df n cn /\ reset_of df cn c.

Section C31.
  Variable stg : string.
  (** What is known of the configuration. *)
  Variable cfg : daemon -> Prop.

  Definition K31 (w : world) : Prop :=
    pip_names w /\ wf_queue w /\ I29 stg w /\
    (forall a, In a (w_spawned w) -> In a (starts w)) /\
    NoDup (w_spawned w) /\
    (forall q pr a, get_proc (w_procs w) q = Some pr -> pr_job pr = Some a ->
       In a (starts w) /\ ~ In a (w_spawned w)) /\
    (forall q q' pr pr' a, get_proc (w_procs w) q = Some pr -> pr_job pr = Some a ->
       get_proc (w_procs w) q' = Some pr' -> pr_job pr' = Some a -> q = q') /\
    (forall a, In a (w_spawned w) -> plain (ja_pipeline a) -> reserved a w) /\
    (forall a, In a (w_spawned w) -> unborn (ja_jobid a) w) /\
    (forall q a j, listed w q a -> In j (w_jobs w) -> j_id j = ja_jobid a ->
       j_pid j = Some q \/ (j_pid j = None /\ j_connected j = None)) /\
    (forall j, In j (w_jobs w) -> waiting (j_status j) -> unstarted (j_id j) w ->
       j_pid j = None /\ j_connected j = None).
  Definition I31 (w : world) : Prop :=
    K31 w /\ undisturbed w /\ prompt w /\ (forall d, w_daemon w = Some d -> cfg d).

  Definition LR (w w' : world) : Prop :=
    (forall a, In a (w_spawned w') -> In a (w_spawned w)) /\
    (forall q a, listed w' q a -> listed w q a \/ In a (w_spawned w)).
  Definition same_launch (w w' : world) : Prop :=
    forall j, In j (w_jobs w) ->
    exists j', In j' (w_jobs w') /\ j_id j' = j_id j /\ j_launched j' = j_launched j.
  Definition clock (w w' : world) : Prop :=
    same_launch w w' /\
    forall a j t, under_way w' a -> In j (w_jobs w) -> j_id j = ja_jobid a -> j_launched j = Some t ->
    w_now w' - t <= ten_days \/ ten_days < w_now w - t.
  Definition R31 (k : kind) (w w' : world) : Prop :=
    match k with
    | KJobMgr =>
        R29 KJobMgr w w' /\ LR w w' /\ (forall n, free n w -> free n w') /\
        (forall n, get_pip (w_pips w) n <> None -> get_pip (w_pips w') n <> None) /\
        (forall n i, plain n -> unstarted i w -> row n i w -> row n i w') /\
        (forall i, unstarted i w -> unborn i w -> unborn i w')
    | KPipMgr => clock w w' /\ LR w w' /\ forall n i, row n i w' -> row n i w
    | KJob pid a => (plain (ja_pipeline a) -> reserved a w -> reserved a w') /\ (listed w pid a -> listed w' pid a)
    | _ => True
    end.
  Definition X31 (k : kind) (o : op) (w : world) : Prop :=
    match k with
    | KJob pid a => listed w pid a /\ (o <> OPipGet (ja_pipeline a) -> plain (ja_pipeline a) -> reserved a w)
    | KJobMgr =>
        match o with
        | OPipUpdate n _ => plain n -> free n w
        | OJobUpdate id cs => (In (JPid None) cs -> none id w) /\
                              (cs = [JStatus Sqw] -> unstarted id w -> unborn id w)
        | OSpawnJob a => (plain (ja_pipeline a) -> reserved a w) /\ unborn (ja_jobid a) w
        | _ => True
        end
    | KPipMgr =>
        match o with
        | OPipUpdate n _ => unclaimed n w
        | ODriver _ c => exists d n, cfg d /\ resets (dm_df d) n c /\ unclaimed n w
        | _ => True
        end
    | _ => True
    end.
  Definition G31 (k : kind) (o : op) (w : world) : Prop := G29 stg k o w /\ own_row k o /\ X31 k o w.

  Lemma same_start w a b : I29 stg w -> In a (starts w) -> In b (starts w) -> ja_jobid a = ja_jobid b -> a = b.
  Proof.
    intros (_ & _ & _ & Hn). generalize dependent (starts w). intros l. induction l as [|x l IH]; intros Hn Ha Hb E; [destruct Ha|].
    cbn in Hn. inversion Hn as [|? ? Hni Hnd]; subst. destruct Ha as [->|Ha], Hb as [->|Hb]; auto.
    - elim Hni. rewrite E. apply in_map. exact Hb.
    - elim Hni. rewrite <- E. apply in_map. exact Ha.
  Qed.

  Lemma LR_refl w : LR w w.
  Proof. split; auto. Qed.
  Lemma LR_trans a b c : LR a b -> LR b c -> LR a c.
  Proof.
    intros [H1 H2] [H3 H4]. split; [auto|]. intros q x H. destruct (H4 q x H) as [H5|H5]; auto.
  Qed.
  Lemma LR_eq w w' : w_spawned w' = w_spawned w -> w_procs w' = w_procs w -> LR w w'.
  Proof. intros E1 E2. unfold LR, listed. rewrite E1, E2. auto. Qed.
  Lemma LR_under w w' a : LR w w' -> under_way w' a -> under_way w a.
  Proof.
    intros [H1 H2] [H|[q H]]; [left; auto|]. destruct (H2 q a H); [right; eauto|left; auto].
  Qed.
  Lemma LR_none i w w' : LR w w' -> none i w -> none i w'.
  Proof. intros H Hn a Ha Hu. apply (Hn a Ha). eapply LR_under; eauto. Qed.
  Lemma LR_only i p w w' : LR w w' -> only i p w -> only i p w'.
  Proof.
    intros [H1 H2] Ho a Ha. destruct (Ho a Ha) as [H3 H4]. split; [auto|].
    intros q Hq. destruct (H2 q a Hq); [auto|contradiction].
  Qed.

  Lemma same_launch_jobs w w' : w_jobs w' = w_jobs w -> same_launch w w'.
  Proof. intros E j Hj. exists j. rewrite E. auto. Qed.
  Lemma clock_now w w' : w_now w' = w_now w -> same_launch w w' -> clock w w'.
  Proof. intros E H. split; [exact H|]. intros a j t _ _ _ _. rewrite E. lia. Qed.
  Lemma clock_trans a b c : LR b c -> clock a b -> clock b c -> clock a c.
  Proof.
    intros HL [A1 A2] [B1 B2]. split.
    - intros j Hj. destruct (A1 j Hj) as (j' & H1 & H2 & H3). destruct (B1 j' H1) as (k & H4 & H5 & H6).
      exists k. repeat split; congruence.
    - intros x j t Hu Hj Hi Ht. destruct (A1 j Hj) as (j' & H1 & H2 & H3).
      destruct (B2 x j' t Hu H1) as [H|H]; [congruence|congruence|auto|].
      destruct (A2 x j t (LR_under _ _ _ HL Hu) Hj Hi Ht) as [H'|H']; [lia|auto].
  Qed.
  Lemma R31_refl k w : R31 k w w.
  Proof. destruct k; cbn; auto 10 using LR_refl, clock_now, same_launch_jobs. Qed.
  Lemma R31_trans k a b c : R31 k a b -> R31 k b c -> R31 k a c.
  Proof.
    destruct k; cbn; auto.
    - intros ((A1 & A2) & A3 & A4 & A5 & A6 & A7) ((B1 & B2) & B3 & B4 & B5 & B6 & B7).
      assert (X : forall i, unstarted i a -> unstarted i b) by (unfold unstarted; rewrite A2; auto).
      split; [split; [auto|congruence]|]. split; [eapply LR_trans; eauto|]. auto 10.
    - intros (A1 & A2 & A3) (B1 & B2 & B3). split; [eapply clock_trans; eauto|]. split; [eapply LR_trans; eauto|auto].
    - intros [A1 A2] [B1 B2]. auto.
  Qed.

  (** ** Parts of the world *)
  Lemma under_eq w w' a : w_spawned w' = w_spawned w -> w_procs w' = w_procs w -> under_way w' a -> under_way w a.
  Proof. intros E1 E2. unfold under_way, listed. rewrite E1, E2. auto. Qed.

  Lemma K31_frame w w' : K31 w -> I29 stg w' -> w_pips w' = w_pips w -> w_jobs w' = w_jobs w ->
    w_seq w' = w_seq w -> starts w' = starts w -> w_spawned w' = w_spawned w -> w_procs w' = w_procs w -> K31 w'.
  Proof.
    intros (A1 & A2 & A3 & A4 & A5 & A6 & A7 & A8 & A9 & A10 & A11) H E1 E2 E3 E4 E5 E6.
    unfold K31, pip_names, wf_queue, reserved, row, unborn, unstarted, listed in *.
    rewrite E1, E2, E3, E4, E5, E6. auto 20.
  Qed.

  (** Rows of pipelines: what an update of [n] does to row [m]. *)
  Lemma row_upd_other w n' cs m i : m <> n' -> (row m i (set_pips w (upd_pips n' cs (w_pips w))) <-> row m i w).
  Proof.
    intros H. unfold row. cbn [set_pips w_pips]. split; intros (p & Hp & Hi).
    - rewrite get_pip_upd in Hp. destruct (String.eqb_spec m n'); [contradiction|]. eauto.
    - exists p. rewrite get_pip_upd. destruct (String.eqb_spec m n'); [contradiction|]. auto.
  Qed.
  Lemma row_upd_keep w n' cs m i : (forall p, p_jobid (set_pcols cs p) = p_jobid p) ->
    (row m i (set_pips w (upd_pips n' cs (w_pips w))) <-> row m i w).
  Proof.
    intros H. unfold row. cbn [set_pips w_pips]. split; intros (p & Hp & Hi).
    - rewrite get_pip_upd in Hp. destruct (String.eqb_spec m n'); [|eauto].
      destruct (get_pip (w_pips w) m) as [q|]; [|discriminate]. cbn in Hp. inversion Hp. subst p.
      exists q. rewrite H in Hi. auto.
    - rewrite get_pip_upd, Hp. destruct (String.eqb m n'); cbn; [|eauto]. eexists. split; [reflexivity|]. rewrite H. exact Hi.
  Qed.
  Lemma row_app w p m i : get_pip (w_pips w) (p_name p) = None -> p_jobid p = None ->
    (row m i (set_pips w (w_pips w ++ [p])) <-> row m i w).
  Proof.
    intros H Hn. unfold row. cbn [set_pips w_pips]. rewrite get_pip_app. split; intros (q & Hq & Hi).
    - destruct (get_pip (w_pips w) m) as [q0|]; [eauto|]. destruct (String.eqb (p_name p) m); [|discriminate].
      inversion Hq. subst q. congruence.
    - exists q. rewrite Hq. auto.
  Qed.
  Lemma free_no_row n i w : free n w -> ~ row n i w.
  Proof. intros H (p & Hp & Hi). apply get_pip_In in Hp. destruct Hp as [H1 H2]. rewrite (H p H1 H2) in Hi. discriminate. Qed.
  Lemma pip_exists_upd l n cs m : get_pip l m <> None -> get_pip (upd_pips n cs l) m <> None.
  Proof.
    rewrite get_pip_upd. destruct (String.eqb m n); auto. destruct (get_pip l m); cbn; congruence.
  Qed.

  (** An operation of thread kind [k] that changes the row of a plain pipeline. *)
  Lemma rows_exec k o w m i : K31 w -> G31 k o w -> plain m -> row m i w ->
    row m i (snd (exec o w)) \/
    (k = KPipMgr /\ exists cs, o = OPipUpdate m cs) \/
    (exists pid a, k = KJob pid a /\ m = ja_pipeline a /\ reserved a w /\ listed w pid a).
  Proof.
    intros HK ((Hm & _) & Hown & Hx) Hp Hr.
    assert (Hsame : w_pips (snd (exec o w)) = w_pips w -> row m i (snd (exec o w))).
    { intros E. unfold row. rewrite E. exact Hr. }
    destruct o; try (left; apply Hsame; op_cases OPerf; reflexivity);
      try (left; apply Hsame; cbn [exec snd]; unfold ask;
           repeat match goal with |- context [match ?x with _ => _ end] => destruct x end; reflexivity).
    - left. cbn [exec]. destruct (get_pip (w_pips w) (p_name p)) eqn:E; [exact Hr|]. cbn [snd].
      apply row_app; auto. destruct Hm as [[]|Hm]. destruct k; try contradiction. destruct Hm as [x ->]. reflexivity.
    - cbn [exec]. destruct (sql_lit n) as [n'|] eqn:El; [|left; exact Hr]. cbn [snd].
      destruct (string_dec m n') as [->|Hne]; [|left; apply row_upd_other; auto].
      assert (n = n') by (eapply sql_lit_plain; eauto). subst n'.
      destruct Hm as [[]|Hm]. destruct k; try contradiction; cbn in Hm, Hx.
      + left. apply row_upd_keep; [|exact Hr]. destruct Hm as [(x & ->)|[->| ->]]; reflexivity.
      + exfalso. eapply free_no_row; [apply Hx; exact Hp|exact Hr].
      + right. left. split; eauto.
      + right. right. destruct Hm as [-> _]. exists pid, a. destruct Hx as [Hx1 Hx2]. repeat split; auto.
        apply Hx2; auto. congruence.
  Qed.

  (** Rows of jobs after an operation. *)
  Lemma jobs_exec k o w j : G31 k o w -> In j (w_jobs (snd (exec o w))) ->
    In j (w_jobs w) \/
    (j_pid j = None /\ j_connected j = None /\ exists i, o = OJobInsert i) \/
    (exists j0 id cs, o = OJobUpdate id cs /\ In j0 (w_jobs w) /\ j_id j0 = id /\ j = set_jcols cs j0).
  Proof.
    intros ((Hm & _) & _) H.
    assert (Hsame : w_jobs (snd (exec o w)) = w_jobs w -> In j (w_jobs w)) by (intros E; rewrite <- E; exact H).
    destruct o; try (left; apply Hsame; op_cases OPerf; reflexivity);
      try (left; apply Hsame; cbn [exec snd]; unfold ask;
           repeat match goal with |- context [match ?x with _ => _ end] => destruct x end; reflexivity).
    - cbn in H. apply in_app_iff in H. destruct H as [H|[<-|[]]]; [auto|]. right. left.
      destruct Hm as [[]|Hm]. destruct k; try contradiction. destruct Hm as (p & n & t & ->). cbn. eauto.
    - cbn in H. unfold upd_jobs in H. apply in_map_iff in H. destruct H as (j0 & E & Hin).
      destruct (Z.eqb_spec (j_id j0) id); [|subst; auto]. right. right. exists j0, id, cs. auto.
  Qed.

  (** Columns [pid] and [connected] of a row. *)
  Lemma unborn_exec k o w i : K31 w -> G31 k o w -> unborn i w ->
    (forall pid a, k = KJob pid a -> ja_jobid a <> i) -> unborn i (snd (exec o w)).
  Proof.
    intros HK HG Hu Hk j Hj Hid. destruct (jobs_exec k o w j HG Hj) as [H|[H|(j0 & id & cs & -> & Hj0 & Ej0 & ->)]].
    - apply Hu; auto.
    - tauto.
    - rewrite set_jcols_id in Hid. destruct (Hu j0 Hj0 Hid) as [H1 H2].
      destruct HG as ((Hm & _) & Hown & _). destruct Hm as [[]|Hm]. destruct k; try contradiction; cbn in Hm, Hown.
      + destruct Hm as [-> | ->]; cbn; auto.
      + destruct Hm as [(s & t & _ & ->)|[->|(t & ->)]]; cbn; auto.
      + elim (Hk pid a eq_refl). congruence.
  Qed.

  Lemma spawned_exec o w : (forall a, o <> OSpawnJob a) -> w_spawned (snd (exec o w)) = w_spawned w.
  Proof. intros H. op_cases o; try reflexivity. elim (H a). reflexivity. Qed.

  Lemma K31_exec k o w : K31 w -> G31 k o w -> K31 (snd (exec o w)).
  Proof.
    intros HK HG. pose proof HK as (A1 & A2 & A3 & A4 & A5 & A6 & A7 & A8 & A9 & A10 & A11).
    pose proof HG as (HG29 & Hown & Hx).
    pose proof (procs_exec o w) as Ep.
    assert (H29 : I29 stg (snd (exec o w))) by (eapply I29_exec; eauto).
    assert (Ekey : (exists a, o = OSpawnJob a) \/ (forall a, o <> OSpawnJob a)).
    { destruct o; try (right; congruence). left; eauto. }
    assert (Hlist : forall q a, listed (snd (exec o w)) q a -> listed w q a) by (unfold listed; rewrite Ep; auto).
    assert (Hlisted : forall pid a, k = KJob pid a -> In a (starts w) /\ ~ In a (w_spawned w)).
    { intros pid a ->. destruct Hx as [Hl _]. eapply A6; [exact Hl|reflexivity]. }
    assert (Hst : forall a, In a (starts w) -> In a (starts (snd (exec o w)))).
    { destruct Ekey as [[a ->]|Ek]; [|rewrite starts_other; auto]. intros b Hb. cbn. now right. }
    assert (C10 : forall q a j, listed (snd (exec o w)) q a -> In j (w_jobs (snd (exec o w))) ->
        j_id j = ja_jobid a -> j_pid j = Some q \/ (j_pid j = None /\ j_connected j = None)).
    { intros q a j Hl Hj Hid. apply Hlist in Hl.
      destruct (jobs_exec k o w j HG Hj) as [H|[H|(j0 & id & cs & -> & Hj0 & Ej0 & ->)]].
      - eapply A10; eauto.
      - tauto.
      - rewrite set_jcols_id in Hid. pose proof (A10 q a j0 Hl Hj0 Hid) as H0.
        destruct HG29 as [Hm _]. destruct Hm as [[]|Hm]. destruct k; try contradiction; cbn in Hm, Hown, Hx.
        + destruct Hm as [-> | ->]; cbn; auto.
        + destruct Hm as [(s & t & _ & ->)|[->|(t & ->)]]; cbn; auto.
          exfalso. destruct Hx as [Hx _]. apply (Hx ltac:(right; left; reflexivity) a); [congruence|].
          right. eauto.
        + assert (E : a0 = a).
          { eapply same_start; [exact A3|apply (Hlisted pid a0 eq_refl)| |congruence].
            eapply A6; [exact Hl|reflexivity]. }
          subst a0. assert (pid = q).
          { destruct Hx as [Hx _]. eapply A7; [exact Hx|reflexivity|exact Hl|reflexivity]. }
          subst pid. destruct Hm as [(t & ->)|[(r & s & p & ->)|(s & t & _ & ->)]]; cbn; auto. }
    assert (C11 : forall j, In j (w_jobs (snd (exec o w))) -> waiting (j_status j) ->
        unstarted (j_id j) (snd (exec o w)) -> j_pid j = None /\ j_connected j = None).
    { intros j Hj Hw Hu. assert (Hu0 : unstarted (j_id j) w) by (intros a Ha; apply Hu; auto).
      destruct (jobs_exec k o w j HG Hj) as [H|[H|(j0 & id & cs & -> & Hj0 & Ej0 & ->)]].
      - apply A11; auto.
      - tauto.
      - rewrite set_jcols_id in Hu0. destruct HG29 as [Hm _]. destruct Hm as [[]|Hm].
        destruct k; try contradiction; cbn in Hm, Hown, Hx.
        + destruct Hm as [-> | ->]; cbn in Hw; destruct Hw; discriminate.
        + destruct Hm as [(s & t & Hs & ->)|[->|(t & ->)]]; cbn in Hw |- *.
          * destruct Hs as [-> | ->]; destruct Hw; discriminate.
          * destruct Hx as [_ Hx]. rewrite Ej0 in Hu0. apply (Hx eq_refl Hu0 j0 Hj0 Ej0).
          * apply A11; auto.
        + exfalso. apply (Hu0 a); [apply (Hlisted pid a eq_refl)|congruence]. }
    assert (C8 : forall a, In a (w_spawned w) -> plain (ja_pipeline a) -> reserved a (snd (exec o w))).
    { intros a Ha Hp. pose proof (A8 a Ha Hp) as Hr.
      destruct (rows_exec k o w _ _ HK HG Hp Hr) as [H|[(-> & cs & ->)|(pid & b & -> & E & Hb & Hl)]]; [exact H| |].
      - exfalso. apply (Hx a); [left; exact Ha|exact Hr|reflexivity].
      - exfalso. destruct (Hlisted pid b eq_refl) as [H1 H2]. unfold reserved in Hb, Hr. rewrite <- E in Hb.
        assert (a = b); [|subst; contradiction].
        eapply same_start; [exact A3|auto|exact H1|]. eapply row_fun; eauto. }
    assert (C9 : forall a, In a (w_spawned w) -> unborn (ja_jobid a) (snd (exec o w))).
    { intros a Ha. eapply unborn_exec; eauto. intros pid b -> E.
      destruct (Hlisted pid b eq_refl) as [H1 H2]. assert (a = b); [|subst; contradiction].
      eapply same_start; [exact A3|auto|exact H1|auto]. }
    destruct Ekey as [[a ->]|Ek].
    - destruct HG29 as (Hm & Hd & _ & Hf).
      assert (Hna : ~ In a (starts w)) by (intros Hin; apply (Hf a Hin); reflexivity).
      destruct Hm as [[]|Hm]. destruct k; try contradiction. destruct Hx as [Hx1 Hx2].
      split; [exact A1|]. split; [exact A2|]. split; [exact H29|].
      cbn [exec snd add_event set_procs w_spawned w_procs w_log w_pips w_jobs] in *.
      split; [|split; [|split; [|split; [exact A7|split; [|split; [|split; [exact C10|exact C11]]]]]]].
      + intros b Hb. apply in_app_iff in Hb. destruct Hb as [Hb|[<-|[]]]; [right; auto|now left].
      + apply NoDup_Add with (a := a) (l := w_spawned w).
        * rewrite <- (app_nil_r (w_spawned w)) at 1.
          replace (w_spawned w ++ [a]) with (w_spawned w ++ a :: []) by reflexivity. apply Add_app.
        * split; auto.
      + intros q pr b Hq Hb. destruct (A6 q pr b Hq Hb) as [H1 H2]. split; [now right|].
        intros Hin. apply in_app_iff in Hin. destruct Hin as [Hin|[<-|[]]]; auto.
      + intros b Hb Hp. apply in_app_iff in Hb. destruct Hb as [Hb|[<-|[]]]; [apply A8; auto|apply Hx1; auto].
      + intros b Hb. apply in_app_iff in Hb. destruct Hb as [Hb|[<-|[]]]; [apply A9; auto|apply Hx2].
    - pose proof (spawned_exec o w Ek) as Es. pose proof (starts_other o w Ek) as Et.
      split; [apply names_exec; exact A1|]. split; [apply wf_exec; exact A2|]. split; [exact H29|].
      rewrite Es, Et, Ep.
      split; [exact A4|]. split; [exact A5|]. split; [exact A6|]. split; [exact A7|].
      split; [exact C8|]. split; [exact C9|]. split; [exact C10|exact C11].
  Qed.

  (** ** Interference *)
  Definition ok31 (s : sys) : Prop :=
    procs_ok s /\ managers_apart s /\ undisturbed (s_world s) /\ prompt (s_world s) /\
    (forall d, w_daemon (s_world s) = Some d -> cfg d).

  Lemma job_thread_pid t pid a : t_kind t = KJob pid a -> active t = true -> job_pid t = Some pid.
  Proof. intros H1 H2. unfold job_pid. rewrite H1, H2. reflexivity. Qed.

  Lemma launch_exec k o w : may k o -> mgr_eqb k KJobMgr = false -> same_launch w (snd (exec o w)).
  Proof.
    intros Hm Hk. op_cases o; try (apply same_launch_jobs; reflexivity).
    - intros x Hx. exists x. cbn. rewrite in_app_iff. auto.
    - intros x Hx. cbn [set_jobs w_jobs]. unfold upd_jobs.
      eexists. split; [apply in_map; exact Hx|]. cbv beta.
      destruct (Z.eqb (j_id x) id); [|auto]. split; [apply set_jcols_id|].
      destruct Hm as [[]|Hm]. destruct k; try contradiction; try discriminate; cbn in Hm.
      + destruct Hm as [-> | ->]; reflexivity.
      + destruct Hm as [(t & ->)|[(r & q & p & ->)|(q & t & _ & ->)]]; reflexivity.
  Qed.

  Lemma others31 s n m a b o c : ok31 s -> one_each (s_threads s) ->
    nth_error (s_threads s) n = Some a -> nth_error (s_threads s) m = Some b -> n <> m ->
    t_pgm a = Op o c -> active b = true -> I31 (s_world s) -> G31 (t_kind a) o (s_world s) ->
    R31 (t_kind b) (s_world s) (snd (exec o (s_world s))).
  Proof.
    intros ([P1 P2] & Hap & _ & _ & _) Hone Ha Hb Hnm Eo Hact (HK & _) HG.
    set (w := s_world s) in *.
    pose proof HK as (A1 & A2 & A3 & A4 & A5 & A6 & A7 & A8 & A9 & A10 & A11).
    assert (Haa : active a = true) by (unfold active; rewrite Eo; reflexivity).
    pose proof (nth_error_In _ _ Ha) as Ia. pose proof (nth_error_In _ _ Hb) as Ib.
    pose proof (procs_exec o w) as Ep.
    assert (Hm : may (t_kind a) o) by apply HG.
    assert (Hmm : mgr_eqb (t_kind b) KJobMgr = true \/ mgr_eqb (t_kind b) KPipMgr = true ->
              mgr_eqb (t_kind a) KJobMgr = false /\ mgr_eqb (t_kind a) KPipMgr = false).
    { assert (X : forall k, is_mgr k = true -> t_kind a = k -> t_kind b = k -> False).
      { intros k Hk E1 E2. apply Hnm. eapply Hone; eauto. rewrite E1, E2. destruct k; try discriminate; reflexivity. }
      intros Hk. destruct (t_kind a) eqn:Ea; auto; exfalso; destruct (t_kind b) eqn:Eb; destruct Hk; try discriminate;
        try (apply (X KJobMgr); auto; fail); try (apply (X KPipMgr); auto; fail);
        destruct Hap as [Hap|Hap];
        first [rewrite (Hap _ Ia Ea) in Haa; discriminate | rewrite (Hap _ Ib Eb) in Hact; discriminate]. }
    assert (HLR : mgr_eqb (t_kind a) KJobMgr = false -> LR w (snd (exec o w))).
    { intros H. apply LR_eq; [apply spawned_exec|exact Ep]. intros x ->. destruct Hm as [[]|Hm].
      destruct (t_kind a); try discriminate; contradiction. }
    destruct (t_kind b) as [| | | |pid x|nm] eqn:Ekb; try exact I.
    - (* job manager *)
      destruct (Hmm (or_introl eq_refl)) as [Hneq Hnp]. cbn.
      split; [exact (others29 (t_kind a) KJobMgr o w Hm Hneq)|]. split; [apply HLR; exact Hneq|].
      split; [intros k; eapply others_free; eauto|]. split; [|split].
      + intros k Hk. op_cases o; try exact Hk; cbn [set_pips w_pips].
        * rewrite get_pip_app. destruct (get_pip (w_pips w) k); [discriminate|contradiction].
        * apply pip_exists_upd. exact Hk.
      + intros k i Hp Hu Hr. destruct (rows_exec _ o w k i HK HG Hp Hr) as [H|[(E & _)|(pid & x & E & Em & Hx & Hl)]].
        * exact H.
        * rewrite E in Hnp. discriminate.
        * exfalso. unfold reserved in Hx. rewrite <- Em in Hx.
          apply (Hu x); [eapply A6; [exact Hl|reflexivity]|]. eapply row_fun; eauto.
      + intros i Hu Hn. eapply unborn_exec; eauto. intros pid x E Ex. apply (Hu x); [|exact Ex].
        specialize (P1 a pid x Ia E Haa). eapply A6; [exact P1|reflexivity].
    - (* pipeline manager *)
      destruct (Hmm (or_intror eq_refl)) as [Hneq Hnp]. cbn.
      split; [apply clock_now; [op_cases o; reflexivity|eapply launch_exec; eauto]|]. split; [apply HLR; exact Hneq|].
      intros k i Hr. revert Hr. op_cases o; try (intros Hr; exact Hr).
      + apply row_app; auto. destruct Hm as [[]|Hm]. destruct (t_kind a); try discriminate; try contradiction.
        destruct Hm as (x & ->). reflexivity.
      + intros Hr. destruct (string_dec k s0) as [->|Hne]; [|apply (row_upd_other w s0 cs k i Hne); exact Hr].
        destruct Hr as (p & Hp & Hi). cbn [set_pips w_pips] in Hp. rewrite get_pip_upd, String.eqb_refl in Hp.
        destruct (get_pip (w_pips w) s0) as [q|] eqn:Eq; [|discriminate]. cbn in Hp. inversion Hp. subst p.
        exists q. split; [exact Eq|].
        destruct Hm as [[]|Hm]. destruct (t_kind a); try discriminate; try contradiction; cbn in Hm.
        * destruct Hm as [(x & ->)|[-> | ->]]; exact Hi.
        * exfalso. destruct Hm as (_ & bb & ->). discriminate.
    - (* job process *)
      cbn. pose proof (P1 b pid x Ib Ekb Hact) as Hlx. split.
      + intros Hp Hr. destruct (rows_exec _ o w _ _ HK HG Hp Hr) as [H|[(E & cs & ->)|(pid' & y & E & Em & Hy & Hl)]].
        * exact H.
        * exfalso. destruct HG as (_ & _ & Hx). rewrite E in Hx. cbn in Hx. apply (Hx x); auto. right. eauto.
        * exfalso. unfold reserved in Hy. rewrite <- Em in Hy.
          assert (x = y).
          { eapply same_start; [exact A3| | |eapply row_fun; eauto].
            - eapply A6; [exact Hlx|reflexivity].
            - eapply A6; [exact Hl|reflexivity]. }
          subst y. assert (pid = pid') by (eapply A7; [exact Hlx|reflexivity|exact Hl|reflexivity]).
          subst pid'. apply Hnm. eapply job_pids_distinct; [exact P2|exact Ha|exact Hb| |];
            eapply job_thread_pid; eauto.
      + unfold listed. rewrite Ep. auto.
  Qed.
End C31.
