(** * PassProofs: a complete iteration of the job manager (C34) *)
From Coq Require Import List String Ascii ZArith Bool Sorted Lia.
From Verif Require Import Base PyStr BaseFacts Types ConfigModel Prog ProgFacts World WorldFacts Replies
  CmdModel KetchupModel JobModel SpecQueue SpecJob SpecSys KetchupProofs MatchProofs JobProofs MatchProofs2 SuperProofs SysProofs.
Import ListNotations.
Open Scope list_scope.
Open Scope Z_scope.

Lemma relevant_same w w' d m : w_drvs w' = w_drvs w -> w_driver w' = w_driver w ->
  relevant_answer w d m -> relevant_answer w' d m.
Proof.
  intros E1 E2 H p rc Hp Hr Hrc. destruct (H p rc Hp Hr Hrc) as (cmp & port & r & (H1 & H2) & H3).
  exists cmp, port, r. unfold component_port. rewrite E1, E2. auto.
Qed.
(** Reconciling leaves queued jobs as they are. *)
Lemma reconciled_queued w j j' : reconciled w j j' -> queued (j_status j') \/ queued (j_status j) -> j' = j.
Proof.
  unfold reconciled, queued. intros H Hq. destruct (j_pid j); [|exact H].
  destruct H as [(E & ->)|[(E & _ & ->)|[(_ & _ & ->)|(_ & _ & ->)]]]; auto;
    exfalso; cbn in Hq; rewrite E in Hq; intuition discriminate.
Qed.
Lemma ae_spawned w es : w_spawned (add_events w es) = w_spawned w.
Proof. revert w. induction es; intros; cbn; auto. rewrite IHes. reflexivity. Qed.
Lemma ae_now w es : w_now (add_events w es) = w_now w.
Proof. revert w. induction es; intros; cbn; auto. rewrite IHes. reflexivity. Qed.
Lemma ae_dirs w es : w_dirs (add_events w es) = w_dirs w.
Proof. revert w. induction es; intros; cbn; auto. rewrite IHes. reflexivity. Qed.

Lemma F2_in {A B} (P : A -> B -> Prop) l l' : Forall2 P l l' -> forall b, In b l' -> exists a, In a l /\ P a b.
Proof.
  induction 1 as [|a b l l' H _ IH]; intros x Hx; [destruct Hx|].
  destruct Hx as [<-|Hx]; [exists a; split; [now left|exact H]|].
  destruct (IH x Hx) as (a' & H1 & H2). exists a'. split; [now right|exact H2].
Qed.
Lemma F2_map_eq {A B} (P : A -> B -> Prop) (f : A -> Z) (g : B -> Z) l l' :
  Forall2 P l l' -> (forall a b, P a b -> f a = g b) -> map f l = map g l'.
Proof. intros H E. induction H; cbn; [reflexivity|]. f_equal; auto. Qed.

Lemma with_jstatus_id j s : j_id (with_jstatus j s) = j_id j.
Proof. reflexivity. Qed.

Lemma F2_get (P : job -> job -> Prop) l l' i : Forall2 P l l' -> (forall a b, P a b -> j_id b = j_id a) ->
  match get_job l i, get_job l' i with
  | Some a, Some b => P a b
  | None, None => True
  | _, _ => False
  end.
Proof.
  intros H E. induction H as [|a b l l' H _ IH]; cbn; [exact I|]. rewrite (E a b H).
  destruct (Z.eqb (j_id a) i); [exact H|exact IH].
Qed.
Lemma F2_and {A B} (P Q : A -> B -> Prop) l l' : Forall2 P l l' -> Forall2 Q l l' ->
  Forall2 (fun a b => P a b /\ Q a b) l l'.
Proof. intros H. induction H; intros K; inversion K; subst; constructor; auto. Qed.
Lemma F2_weaken {A B} (P Q : A -> B -> Prop) l l' : (forall a b, In a l -> In b l' -> P a b -> Q a b) ->
  Forall2 P l l' -> Forall2 Q l l'.
Proof.
  intros E H. induction H; constructor; [apply E; [now left|now left|assumption]|].
  apply IHForall2. intros a b Ha Hb. apply E; now right.
Qed.
Lemma get_job_row l i j : get_job l i = Some j -> In j l /\ j_id j = i.
Proof. intros H. apply find_some in H. destruct H as [H E]. apply Z.eqb_eq in E. auto. Qed.
Lemma reconciled_id w j j' : reconciled w j j' -> j_id j' = j_id j.
Proof.
  unfold reconciled. intros H. destruct (j_pid j); [|now subst].
  destruct H as [(_ & ->)|[(_ & _ & ->)|[(_ & _ & ->)|(_ & _ & ->)]]]; reflexivity.
Qed.
Lemma offers_same w w' d cn te : w_drvs w' = w_drvs w -> w_driver w' = w_driver w ->
  offers w d cn te <-> offers w' d cn te.
Proof. intros E1 E2. unfold offers, component_port. rewrite E1, E2. reflexivity. Qed.
Lemma accepts_same w w' d cn t : w_drvs w' = w_drvs w -> w_driver w' = w_driver w ->
  accepts w d cn t <-> accepts w' d cn t.
Proof. intros E1 E2. unfold accepts, component_port. rewrite E1, E2. reflexivity. Qed.
Lemma can_run_same w w' d m p : w_drvs w' = w_drvs w -> w_driver w' = w_driver w ->
  can_run w d m p <-> can_run w' d m p.
Proof.
  intros E1 E2. unfold can_run. split; intros H t Ht; destruct (H t Ht) as ((cn & A & B) & (rc & C & D)); split.
  - exists cn. split; [exact A|]. apply (accepts_same w w'); auto.
  - exists rc. split; [exact C|]. apply (offers_same w w'); auto.
  - exists cn. split; [exact A|]. apply (accepts_same w w'); auto.
  - exists rc. split; [exact C|]. apply (offers_same w w'); auto.
Qed.
Lemma matching_same w w' d m l : w_drvs w' = w_drvs w -> w_driver w' = w_driver w ->
  matching w' d m l -> matching w d m l.
Proof.
  intros E1 E2 (ps & (f & F1 & F2) & H). exists ps. split; [|exact H]. exists f. split; [|exact F2].
  intros a Ha. rewrite (F1 a Ha). symmetry. now apply can_run_same.
Qed.

(** What a pass does. *)
Lemma pass_lemma d w : pass_ready w d ->
  exists w' q matched asg args, run exec job_pass w = (Ok tt, w') /\
    exactly (fun j => queued (j_status j)) (w_jobs w) q /\
    Forall2 (fun j e => fst e = j_id j /\ matching w d (pl_method (j_payload j)) (snd e)) q matched /\
    greedy w matched asg /\ w_spawned w' = w_spawned w ++ args /\
    Forall2 (fun x a => exists j, get_job (w_jobs w) (fst x) = Some j /\ start_args d j (snd x) a) asg args /\
    (forall pn, get_pip (w_pips w') pn =
       match assigned_to asg pn with
       | Some i => option_map (fun ps => mkPip (p_name ps) false (Some i) (p_sample ps)) (get_pip (w_pips w) pn)
       | None => get_pip (w_pips w) pn
       end) /\
    (forall x j, In x asg -> get_job (w_jobs w) (fst x) = Some j ->
       get_job (w_jobs w') (fst x) = Some (launched_row j (w_now w))).
Proof.
  intros (Hd & Hw & Hn & Hpl & Hr & Hrd & Hq). unfold job_pass. rewrite run_bind. cbn [run act do exec]. rewrite Hd.
  rewrite run_bind. destruct (run exec manage_running w) as [x1 w1] eqn:E1.
  destruct (manage_running_spec w x1 w1 Hw E1) as (es1 & jobs1 & W1 & _ & R1 & _ & O1).
  specialize (O1 Hrd). subst x1. specialize (R1 eq_refl). rewrite run_bind.
  assert (Hid1 : map j_id (w_jobs w) = map j_id jobs1).
  { eapply F2_map_eq; [exact R1|]. intros a b H. symmetry. eapply reconciled_id; eauto. }
  assert (Hj1 : w_jobs w1 = jobs1) by (subst w1; rewrite ae_jobs; reflexivity).
  assert (Hs1 : w_seq w1 = w_seq w) by (subst w1; rewrite ae_seq; reflexivity).
  assert (Hw1 : wf_queue w1).
  { destruct Hw as (A & B & C). unfold wf_queue. rewrite Hj1, Hs1, <- Hid1. split; [exact A|]. split; [|exact C].
    apply Forall_forall. intros j' Hin. destruct (F2_in _ _ _ R1 j' Hin) as (j & Hjin & Hjr).
    rewrite (reconciled_id _ _ _ Hjr). rewrite Forall_forall in B. apply B. exact Hjin. }
  assert (Dv1 : w_drvs w1 = w_drvs w) by (subst w1; rewrite ae_drvs; reflexivity).
  assert (Da1 : w_driver w1 = w_driver w) by (subst w1; rewrite ae_driver; reflexivity).
  destruct (run exec (check_queued d) w1) as [x2 w2] eqn:E2.
  destruct (check_queued_spec d w1 x2 w2 Hw1 E2) as ((es2 & jobs2 & W2 & R2 & R2') & M2 & O2).
  clear O2. assert (O2 : exists m, x2 = Ok m).
  { pose proof (check_queued_exact d w1) as X. rewrite E2 in X. cbn [fst] in X. apply X.
    intros j Hin Hqj. rewrite Hj1 in Hin. destruct (F2_in _ _ _ R1 j Hin) as (j0 & H0 & H1).
    apply reconciled_queued in H1; [|now left]. subst j0.
    eapply relevant_same; [exact Dv1|exact Da1|apply (Hr j H0 Hqj)]. }
  destruct O2 as [m ->]. specialize (R2' m eq_refl).
  destruct (M2 m eq_refl) as (q & Hex & Hm). clear M2.
  assert (Hj2 : w_jobs w2 = jobs2) by (subst w2; rewrite ae_jobs; reflexivity).
  assert (Hid2 : map j_id (w_jobs w1) = map j_id jobs2).
  { eapply F2_map_eq; [exact R2|]. intros a b [->|(_ & _ & ->)]; reflexivity. }
  destruct (run exec (action_queued d m) w2) as [x3 w3] eqn:E3.
  (* the queue is the same as before *)
  assert (Hq1 : forall j, In j (w_jobs w1) /\ queued (j_status j) <-> In j (w_jobs w) /\ queued (j_status j)).
  { intros j. rewrite Hj1. split; intros [Hin Hqj].
    - destruct (F2_in _ _ _ R1 j Hin) as (j0 & H0 & H1).
      apply reconciled_queued in H1; [|now left]. subst j0. auto.
    - split; [|exact Hqj]. assert (Z0 := F2_get _ _ _ (j_id j) R1 (fun a b => reconciled_id w a b)).
      rewrite (In_get_job _ _ (wf_NoDup w Hw) Hin) in Z0.
      destruct (get_job jobs1 (j_id j)) as [j'|] eqn:G; [|contradiction].
      apply reconciled_queued in Z0; [|now right]. subst j'. apply (get_job_row _ _ _ G). }
  assert (Hex0 : exactly (fun j => queued (j_status j)) (w_jobs w) q).
  { destruct Hex as [H1 H2]. split; [|exact H2]. intros j. rewrite (H1 j). apply Hq1. }
  assert (Hm0 : Forall2 (fun j e => fst e = j_id j /\ matching w d (pl_method (j_payload j)) (snd e)) q m).
  { eapply F2_weaken; [|exact Hm]. intros a b _ _ [H1 H2]. split; [exact H1|].
    eapply matching_same; [exact Dv1|exact Da1|exact H2]. }
  (* the rows that the last part of the pass finds *)
  assert (Hg2 : forall e j2, In e m -> get_job (w_jobs w2) (fst e) = Some j2 ->
     exists j, get_job (w_jobs w) (fst e) = Some j /\ queued (j_status j) /\ In j q /\
       (j2 = j \/ j2 = with_jstatus j Sqw) /\ (snd e <> [] -> j2 = with_jstatus j Sqw)).
  { intros e j2 He G2. destruct (F2_in _ _ _ Hm e He) as (j & Jq & J1 & J2).
    pose proof (proj1 (proj1 Hex0 j) Jq) as [Jin Jqd]. pose proof (proj1 (proj1 Hex j) Jq) as [Jin1 _].
    exists j. rewrite J1 in *. split; [apply In_get_job; [apply wf_NoDup, Hw|exact Jin]|].
    split; [exact Jqd|]. split; [exact Jq|].
    assert (Z0 := F2_get _ _ _ (j_id j) (F2_and _ _ _ _ R2 R2')).
    rewrite (In_get_job _ _ (wf_NoDup w1 Hw1) Jin1), <- Hj2, G2 in Z0.
    destruct Z0 as [Z1 Z2]. { intros a b [[->|(_ & _ & ->)] _]; reflexivity. }
    split; [destruct Z1 as [->|(_ & _ & ->)]; auto|].
    intros Ne. destruct Jqd as [S|S].
    - apply Z2; [exact S|]. destruct J2 as (ps & (f & F1 & F2) & J2). destruct ps as [|p ps]; [now elim Ne|].
      assert (Ip : In p (filter f (dvals (df_pipelines (dm_df d))))) by (rewrite <- F2; now left).
      apply filter_In in Ip. destruct Ip as [Ip Fp]. exists p. split; [exact Ip|]. apply F1; auto.
    - destruct Z1 as [->|(Z1 & _)]; [|congruence]. destruct j; cbn in S; subst; reflexivity. }
  assert (Pp : w_pips w2 = w_pips w) by (subst w2; rewrite ae_pips; cbn; subst w1; rewrite ae_pips; reflexivity).
  assert (Hmx : forall e, In e m -> exists j, get_job (w_jobs w2) (fst e) = Some j).
  { intros e He. destruct (F2_in _ _ _ Hm e He) as (j & Jq & J1 & _). rewrite J1.
    apply in_get_job. rewrite Hj2, <- Hid2. apply in_map. apply (proj1 (proj1 Hex j) Jq). }
  destruct (action_queued_spec d m w2 x3 w3) as (asg & Hg & Hres); auto.
  - rewrite Pp. exact Hn.
  - assert (Em : map fst m = map j_id q) by (symmetry; eapply F2_map_eq; [exact Hm|intros a b [? _]; congruence]).
    rewrite Em. apply NoDup_SS. apply Hex.
  - intros e pn He Hpn. destruct (F2_in _ _ _ Hm e He) as (j & _ & _ & ps & Hsel & Es). rewrite Es in Hpn.
    apply in_map_iff in Hpn. destruct Hpn as (p & <- & Hp). apply Hpl.
    destruct Hsel as (f & _ & ->). apply filter_In in Hp. apply Hp.
  - assert (Hop : forall j j2 pn, (j2 = j \/ j2 = with_jstatus j Sqw) -> (open_for w j pn <-> open_for w2 j2 pn)).
    { intros j j2 pn H. unfold open_for. rewrite Pp. destruct H as [->| ->]; reflexivity. }
    assert (Hg0 : greedy w m asg).
    { destruct Hg as (G1 & G2 & G3 & G4). split; [exact G1|]. split; [exact G2|]. split.
      - intros i pn Hin. destruct (G3 i pn Hin) as (j2 & pre & post & A & B & C & D & E).
        destruct (Hg2 _ j2 A B) as (j & K1 & _ & _ & K2 & _). exists j, pre, post.
        split; [exact A|]. split; [exact K1|]. split; [apply (Hop j j2 pn K2); exact C|]. split; [exact D|].
        intros pn' H1 H2. apply E; [exact H1|]. apply (Hop j j2 pn' K2). exact H2.
      - intros i l j Hin Hj Hni pn Hpn Ho. destruct (Hmx _ Hin) as [j2 Gj2]. cbn [fst] in Gj2.
        destruct (Hg2 _ j2 Hin Gj2) as (j0 & K1 & _ & _ & K2 & _). cbn [fst] in K1.
        rewrite Hj in K1. injection K1 as <-.
        apply (G4 i l j2 Hin Gj2 Hni pn Hpn). apply (Hop j j2 pn K2). exact Ho. }
    assert (Hin_m : forall x, In x asg -> exists pre post, In (fst x, pre ++ snd x :: post) m).
    { intros [i pn] Hx. destruct Hg as (_ & _ & G3 & _). destruct (G3 i pn Hx) as (_ & pre & post & A & _). eauto. }
    destruct Hres as [(-> & S & _)|(asg1 & y & asg2 & Ea & _ & Hdir & _)].
    + destruct S as ((args & Sp & Sa) & _ & Spip & _ & Sj & _).
      exists w3, q, m, asg, args. split; [reflexivity|]. split; [exact Hex0|]. split; [exact Hm0|].
      split; [exact Hg0|]. split; [|split; [|split]].
      * rewrite Sp. f_equal. subst w2. rewrite ae_spawned. cbn. subst w1. rewrite ae_spawned. reflexivity.
      * eapply F2_weaken; [|exact Sa]. intros x a Hx _ (j2 & K & St).
        destruct (Hin_m x Hx) as (pre & post & Hm1). destruct (Hg2 _ j2 Hm1 K) as (j & K1 & _ & _ & K2 & _).
        exists j. split; [exact K1|]. destruct K2 as [->| ->]; exact St.
      * intros pn. rewrite (Spip pn), Pp. reflexivity.
      * intros x j Hx Hj. rewrite Sj.
        destruct (Hin_m x Hx) as (pre & post & Hm1). destruct (Hmx _ Hm1) as [j2 Gj2]. cbn [fst] in Gj2.
        destruct (Hg2 _ j2 Hm1 Gj2) as (j0 & K1 & _ & _ & _ & K2). cbn [fst] in K1. rewrite Hj in K1. injection K1 as <-.
        cbn [snd] in K2. rewrite K2 in Gj2 by (destruct pre; discriminate).
        assert (Nw : w_now w2 = w_now w) by (subst w2; rewrite ae_now; cbn; subst w1; rewrite ae_now; reflexivity).
        rewrite Nw.
        revert Gj2. unfold get_job. generalize (w_jobs w2) as l. induction l as [|b l IH]; cbn [find map]; [discriminate|].
        destruct (Z.eqb_spec (j_id b) (fst x)) as [Eb|Nb].
        -- intros K. injection K as ->. cbn [j_id] in Eb.
           assert (Mz : memZ (j_id (with_jstatus j Sqw)) (map fst asg) = true).
           { apply memZ_In. rewrite Eb. apply in_map. exact Hx. }
           rewrite Mz. change (j_id (set_jcol (with_jstatus j Sqw) (JLaunched (Some (w_now w))))) with (j_id j).
           change (j_id (with_jstatus j Sqw)) with (j_id j) in Eb. cbn. destruct (Z.eqb_spec (j_id j) (fst x)); [reflexivity|contradiction].
        -- intros K. assert (Eb : j_id (if memZ (j_id b) (map fst asg)
              then set_jcol b (JLaunched (Some (w_now w))) else b) = j_id b) by (destruct (memZ _ _); reflexivity).
           rewrite Eb. destruct (Z.eqb_spec (j_id b) (fst x)); [contradiction|]. apply IH. exact K.
    + exfalso. destruct (Hin_m y) as (pre & post & A); [rewrite Ea; apply in_or_app; right; now left|].
      destruct (F2_in _ _ _ Hm _ A) as (jq & H1 & H2 & _). cbn in H2.
      destruct (proj1 (proj1 Hex0 jq) H1) as [H3 H4]. apply (Hq jq H3 H4).
      rewrite <- H2. subst w2. rewrite ae_dirs in Hdir. cbn in Hdir. subst w1. rewrite ae_dirs in Hdir. exact Hdir.
Qed.

Lemma C34_lemma d w :
  w_daemon w = Some d -> wf_queue w -> NoDup (map p_name (w_pips w)) ->
  (forall p, In p (dvals (df_pipelines (dm_df d))) ->
     plain (pp_name p) /\ In (pp_name p) (dkeys (df_pipelines (dm_df d)))) ->
  (forall j, In j (w_jobs w) -> queued (j_status j) -> relevant_answer w d (pl_method (j_payload j))) ->
  (forall j p, In j (w_jobs w) -> j_status j = Srd -> j_pid j = Some p -> live w p ->
     j_jobpath j <> None /\ j_respath j <> None /\ w_merge w (j_id j) = None) ->
  (forall j, In j (w_jobs w) -> queued (j_status j) ->
     ~ In (st_storage (dm_settings d), j_id j) (w_dirs w)) ->
  fst (run exec job_pass w) = Ok tt.
Proof.
  intros H1 H2 H3 H4 H5 H6 H7. destruct (pass_lemma d w) as (w' & q & m & asg & args & R & _).
  - repeat split; try assumption; try apply H2; try (apply H4; assumption); intros; eapply H6; eassumption.
  - rewrite R. reflexivity.
Qed.
