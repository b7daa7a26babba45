(** * PassProofs4: a complete iteration of the job manager when folders exist (C34) *)
From Coq Require Import List String Ascii ZArith Bool Sorted Lia.
From Verif Require Import Base PyStr BaseFacts Types ConfigModel Prog ProgFacts World WorldFacts Replies
  CmdModel KetchupModel JobModel SpecQueue SpecJob SpecSys KetchupProofs MatchProofs JobProofs MatchProofs2 SuperProofs SysProofs PassProofs SysProofs14 PassProofs3.
Import ListNotations.
Open Scope list_scope.
Open Scope Z_scope.

(** What a pass does when drivers answer and archives can be written. *)
Lemma pass_exact_lemma d w :
  w_daemon w = Some d -> wf_queue w -> NoDup (map p_name (w_pips w)) ->
  (forall p, In p (dvals (df_pipelines (dm_df d))) ->
     has_char "'"%char (pp_name p) = false /\ In (pp_name p) (dkeys (df_pipelines (dm_df d)))) ->
  (forall j, In j (w_jobs w) -> queued (j_status j) -> relevant_answer w d (pl_method (j_payload j))) ->
  (forall j p, In j (w_jobs w) -> j_status j = Srd -> j_pid j = Some p -> live w p ->
     j_jobpath j <> None /\ j_respath j <> None /\ w_merge w (j_id j) = None) ->
  exists q matched asg,
    exactly (fun j => queued (j_status j)) (w_jobs w) q /\
    Forall2 (fun j e => fst e = j_id j /\ matching w d (pl_method (j_payload j)) (snd e)) q matched /\
    greedy w matched asg /\
    (fst (run exec job_pass w) = Ok tt <->
     forall x, In x asg -> ~ In (st_storage (dm_settings d), fst x) (w_dirs w)) /\
    (fst (run exec job_pass w) <> Ok tt ->
     exists asg1 y asg2 args, asg = asg1 ++ y :: asg2 /\ fst (run exec job_pass w) = Err FileExistsError /\
       In (st_storage (dm_settings d), fst y) (w_dirs w) /\
       w_spawned (snd (run exec job_pass w)) = w_spawned w ++ args /\
       Forall2 (fun x a => exists j, get_job (w_jobs w) (fst x) = Some j /\ start_args d j (snd x) a) asg1 args).
Proof.
  intros Hd Hw Hn Hpl Hr Hrd. unfold job_pass. rewrite run_bind. cbn [run act do exec]. rewrite Hd.
  rewrite run_bind. destruct (run exec manage_running w) as [x1 w1] eqn:E1.
  destruct (manage_running_spec w x1 w1 Hw E1) as (es1 & jobs1 & W1 & _ & R1 & _ & O1).
  specialize (O1 Hrd). subst x1. specialize (R1 eq_refl). rewrite run_bind.
  assert (Hid1 : map j_id (w_jobs w) = map j_id jobs1).
  { eapply F2_map_eq; [exact R1|]. intros a b H. symmetry. eapply reconciled_id; eauto. }
  assert (Hj1 : w_jobs w1 = jobs1) by (subst w1; rewrite ae_jobs; reflexivity).
  assert (Hs1 : w_seq w1 = w_seq w) by (subst w1; rewrite ae_seq; reflexivity).
  assert (Hw1 : wf_queue w1).
  { destruct Hw as (A & B & C). unfold wf_queue. rewrite Hj1, Hs1, <- Hid1. split; [exact A|]. split; [|exact C].
    apply Forall_forall. intros j' Hin. destruct (F2_in _ _ _ R1 j' Hin) as (j & Hjin & Hjr).
    rewrite (reconciled_id _ _ _ Hjr). rewrite Forall_forall in B. apply B. exact Hjin. }
  assert (Dv1 : w_drvs w1 = w_drvs w) by (subst w1; rewrite ae_drvs; reflexivity).
  assert (Da1 : w_driver w1 = w_driver w) by (subst w1; rewrite ae_driver; reflexivity).
  destruct (run exec (check_queued d) w1) as [x2 w2] eqn:E2.
  destruct (check_queued_spec d w1 x2 w2 Hw1 E2) as ((es2 & jobs2 & W2 & R2 & R2') & M2 & O2).
  clear O2. assert (O2 : exists m, x2 = Ok m).
  { pose proof (check_queued_exact d w1) as X. rewrite E2 in X. cbn [fst] in X. apply X.
    intros j Hin Hqj. rewrite Hj1 in Hin. destruct (F2_in _ _ _ R1 j Hin) as (j0 & H0 & H1).
    apply reconciled_queued in H1; [|now left]. subst j0.
    eapply relevant_same; [exact Dv1|exact Da1|apply (Hr j H0 Hqj)]. }
  destruct O2 as [m ->]. specialize (R2' m eq_refl).
  destruct (M2 m eq_refl) as (q & Hex & Hm). clear M2.
  assert (Hj2 : w_jobs w2 = jobs2) by (subst w2; rewrite ae_jobs; reflexivity).
  assert (Hid2 : map j_id (w_jobs w1) = map j_id jobs2).
  { eapply F2_map_eq; [exact R2|]. intros a b [->|(_ & _ & ->)]; reflexivity. }
  destruct (run exec (action_queued d m) w2) as [x3 w3] eqn:E3.
  (* the queue is the same as before *)
  assert (Hq1 : forall j, In j (w_jobs w1) /\ queued (j_status j) <-> In j (w_jobs w) /\ queued (j_status j)).
  { intros j. rewrite Hj1. split; intros [Hin Hqj].
    - destruct (F2_in _ _ _ R1 j Hin) as (j0 & H0 & H1).
      apply reconciled_queued in H1; [|now left]. subst j0. auto.
    - split; [|exact Hqj]. assert (Z0 := F2_get _ _ _ (j_id j) R1 (fun a b => reconciled_id w a b)).
      rewrite (In_get_job _ _ (wf_NoDup w Hw) Hin) in Z0.
      destruct (get_job jobs1 (j_id j)) as [j'|] eqn:G; [|contradiction].
      apply reconciled_queued in Z0; [|now right]. subst j'. apply (get_job_row _ _ _ G). }
  assert (Hex0 : exactly (fun j => queued (j_status j)) (w_jobs w) q).
  { destruct Hex as [H1 H2]. split; [|exact H2]. intros j. rewrite (H1 j). apply Hq1. }
  assert (Hm0 : Forall2 (fun j e => fst e = j_id j /\ matching w d (pl_method (j_payload j)) (snd e)) q m).
  { eapply F2_weaken; [|exact Hm]. intros a b _ _ [H1 H2]. split; [exact H1|].
    eapply matching_same; [exact Dv1|exact Da1|exact H2]. }
  (* the rows that the last part of the pass finds *)
  assert (Hg2 : forall e j2, In e m -> get_job (w_jobs w2) (fst e) = Some j2 ->
     exists j, get_job (w_jobs w) (fst e) = Some j /\ queued (j_status j) /\ In j q /\
       (j2 = j \/ j2 = with_jstatus j Sqw) /\ (snd e <> [] -> j2 = with_jstatus j Sqw)).
  { intros e j2 He G2. destruct (F2_in _ _ _ Hm e He) as (j & Jq & J1 & J2).
    pose proof (proj1 (proj1 Hex0 j) Jq) as [Jin Jqd]. pose proof (proj1 (proj1 Hex j) Jq) as [Jin1 _].
    exists j. rewrite J1 in *. split; [apply In_get_job; [apply wf_NoDup, Hw|exact Jin]|].
    split; [exact Jqd|]. split; [exact Jq|].
    assert (Z0 := F2_get _ _ _ (j_id j) (F2_and _ _ _ _ R2 R2')).
    rewrite (In_get_job _ _ (wf_NoDup w1 Hw1) Jin1), <- Hj2, G2 in Z0.
    destruct Z0 as [Z1 Z2]. { intros a b [[->|(_ & _ & ->)] _]; reflexivity. }
    split; [destruct Z1 as [->|(_ & _ & ->)]; auto|].
    intros Ne. destruct Jqd as [S|S].
    - apply Z2; [exact S|]. destruct J2 as (ps & (f & F1 & F2) & J2). destruct ps as [|p ps]; [now elim Ne|].
      assert (Ip : In p (filter f (dvals (df_pipelines (dm_df d))))) by (rewrite <- F2; now left).
      apply filter_In in Ip. destruct Ip as [Ip Fp]. exists p. split; [exact Ip|]. apply F1; auto.
    - destruct Z1 as [->|(Z1 & _)]; [|congruence]. destruct j; cbn in S; subst; reflexivity. }
  assert (Pp : w_pips w2 = w_pips w) by (subst w2; rewrite ae_pips; cbn; subst w1; rewrite ae_pips; reflexivity).
  assert (Hmx : forall e, In e m -> exists j, get_job (w_jobs w2) (fst e) = Some j).
  { intros e He. destruct (F2_in _ _ _ Hm e He) as (j & Jq & J1 & _). rewrite J1.
    apply in_get_job. rewrite Hj2, <- Hid2. apply in_map. apply (proj1 (proj1 Hex j) Jq). }
  destruct (action_queued_spec d m w2 x3 w3) as (asg & Hg & Hres); auto.
  - rewrite Pp. exact Hn.
  - assert (Em : map fst m = map j_id q) by (symmetry; eapply F2_map_eq; [exact Hm|intros a b [? _]; congruence]).
    rewrite Em. apply NoDup_SS. apply Hex.
  - intros e pn He Hpn. destruct (F2_in _ _ _ Hm e He) as (j & _ & _ & ps & Hsel & Es). rewrite Es in Hpn.
    apply in_map_iff in Hpn. destruct Hpn as (p & <- & Hp). apply Hpl.
    destruct Hsel as (f & _ & ->). apply filter_In in Hp. apply Hp.
  - assert (Hop : forall j j2 pn, (j2 = j \/ j2 = with_jstatus j Sqw) -> (open_for w j pn <-> open_for w2 j2 pn)).
    { intros j j2 pn H. unfold open_for. rewrite Pp. destruct H as [->| ->]; reflexivity. }
    assert (Hg0 : greedy w m asg).
    { destruct Hg as (G1 & G2 & G3 & G4). split; [exact G1|]. split; [exact G2|]. split.
      - intros i pn Hin. destruct (G3 i pn Hin) as (j2 & pre & post & A & B & C & D & E).
        destruct (Hg2 _ j2 A B) as (j & K1 & _ & _ & K2 & _). exists j, pre, post.
        split; [exact A|]. split; [exact K1|]. split; [apply (Hop j j2 pn K2); exact C|]. split; [exact D|].
        intros pn' H1 H2. apply E; [exact H1|]. apply (Hop j j2 pn' K2). exact H2.
      - intros i l j Hin Hj Hni pn Hpn Ho. destruct (Hmx _ Hin) as [j2 Gj2]. cbn [fst] in Gj2.
        destruct (Hg2 _ j2 Hin Gj2) as (j0 & K1 & _ & _ & K2 & _). cbn [fst] in K1.
        rewrite Hj in K1. injection K1 as <-.
        apply (G4 i l j2 Hin Gj2 Hni pn Hpn). apply (Hop j j2 pn K2). exact Ho. }
    assert (Hin_m : forall x, In x asg -> exists pre post, In (fst x, pre ++ snd x :: post) m).
    { intros [i pn] Hx. destruct Hg as (_ & _ & G3 & _). destruct (G3 i pn Hx) as (_ & pre & post & A & _). eauto. }
    assert (Dd : w_dirs w2 = w_dirs w) by (subst w2; rewrite ae_dirs; cbn; subst w1; rewrite ae_dirs; reflexivity).
    exists q, m, asg. split; [exact Hex0|]. split; [exact Hm0|]. split; [exact Hg0|]. rewrite Dd in Hres. cbn [fst snd].
    destruct Hres as [(-> & _ & Hno)|(asg1 & y & asg2 & Ea & -> & Hdir & S)].
    + split; [split; auto|]. intros N. now elim N.
    + split.
      * split; [discriminate|]. intros X. elim (X y); [rewrite Ea; apply in_or_app; right; now left|exact Hdir].
      * intros _. destruct S as ((args & Sp & Sa) & _).
        exists asg1, y, asg2, args. split; [exact Ea|]. split; [reflexivity|]. split; [exact Hdir|]. split.
        -- rewrite Sp. f_equal. subst w2. rewrite ae_spawned. cbn. subst w1. rewrite ae_spawned. reflexivity.
        -- eapply F2_weaken; [|exact Sa]. intros x a Hx _ (j2 & K & St).
           destruct (Hin_m x) as (pre & post & Hm1); [rewrite Ea; apply in_or_app; now left|].
           destruct (Hg2 _ j2 Hm1 K) as (j & K1 & _ & _ & K2 & _).
           exists j. split; [exact K1|]. destruct K2 as [->| ->]; exact St.
Qed.

(** What every pass that succeeds needs. *)
Lemma pass_needs_lemma d w : w_daemon w = Some d -> wf_queue w ->
  fst (run exec job_pass w) = Ok tt ->
  (forall j, In j (w_jobs w) -> queued (j_status j) -> relevant_answer w d (pl_method (j_payload j))) /\
  (forall j p, In j (w_jobs w) -> j_status j = Srd -> j_pid j = Some p -> live w p ->
     j_jobpath j <> None /\ j_respath j <> None /\ w_merge w (j_id j) = None).
Proof.
  intros Hd Hw.
  intros H. unfold job_pass in H. rewrite run_bind in H. cbn [run act do exec] in H. rewrite Hd in H.
  rewrite run_bind in H. pose proof (manage_running_exact w Hw) as X.
  destruct (run exec manage_running w) as [x1 w1] eqn:E1.
  destruct (manage_running_spec w x1 w1 Hw E1) as (es1 & jobs1 & W1 & _ & R1 & _ & _). cbn [fst] in X.
  destruct x1 as [[]|e]; [|discriminate H]. specialize (R1 eq_refl). split; [|now apply X].
  rewrite run_bind in H. pose proof (check_queued_exact d w1) as Y.
  destruct (run exec (check_queued d) w1) as [[m|e] w2] eqn:E2; [|discriminate H]. cbn [fst] in Y.
  assert (Hj1 : w_jobs w1 = jobs1) by (subst w1; rewrite ae_jobs; reflexivity).
  assert (Dv1 : w_drvs w1 = w_drvs w) by (subst w1; rewrite ae_drvs; reflexivity).
  assert (Da1 : w_driver w1 = w_driver w) by (subst w1; rewrite ae_driver; reflexivity).
  intros j Hin Hq. eapply relevant_same; [symmetry; exact Dv1|symmetry; exact Da1|].
  apply (proj1 Y (ex_intro _ m eq_refl)); [|exact Hq]. rewrite Hj1.
  assert (Z0 := F2_get _ _ _ (j_id j) R1 (fun a b => reconciled_id w a b)).
  rewrite (In_get_job _ _ (wf_NoDup w Hw) Hin) in Z0.
  destruct (get_job jobs1 (j_id j)) as [j'|] eqn:G; [|contradiction].
  apply reconciled_queued in Z0; [|now right]. subst j'. apply (get_job_row _ _ _ G).
Qed.
