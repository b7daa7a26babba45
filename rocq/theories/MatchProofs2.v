(** * MatchProofs2: exactly when matching completes *)
From Coq Require Import List String Ascii ZArith Bool Lia Sorted.
From Verif Require Import Base BaseFacts PyStr Types ConfigModel Prog ProgFacts World WorldFacts
  Replies CmdModel KetchupModel JobModel SpecQueue SpecJob KetchupProofs CmdProofs MatchProofs JobProofs.
Import ListNotations.
Open Scope list_scope.
Open Scope Z_scope.

Lemma foldM_ok_all {S A} (g : S -> A -> res S) l : forall s s', foldM g s l = Ok s' ->
  forall a, In a l -> exists s1 s2, g s1 a = Ok s2.
Proof.
  induction l as [|b l IH]; intros s s' H a Ha; [destruct Ha|]. cbn [foldM] in H.
  destruct (g s b) as [s1|e] eqn:E; [|discriminate]. destruct Ha as [<-|Ha]; [eauto|]. eapply IH; eauto.
Qed.
Lemma foldM_all_ok {S A} (g : S -> A -> res S) l : (forall a, In a l -> forall s, exists s', g s a = Ok s') ->
  forall s, exists s', foldM g s l = Ok s'.
Proof.
  induction l as [|b l IH]; intros H s; cbn [foldM]; [eauto|].
  destruct (H b (or_introl eq_refl) s) as [s1 ->]. apply IH. intros a Ha. apply H. now right.
Qed.

Section Exact.
  Context (w : world) (d : daemon).
  Let rows := w_drvs w.
  Let dr := w_driver w.

  Lemma add_capabsR_exact cn caps : (exists c, add_capabsR rows dr d caps cn = Ok c) <-> answers w d cn.
  Proof.
    unfold add_capabsR, answers, component_port. split.
    - intros [c H]. destruct (driver_ofR rows d cn) as [[cmp dv]|e] eqn:Ed; [|discriminate].
      apply driver_ofR_ok in Ed as [E1 E2]. cbn [rbind fst snd] in H. unfold askR in H.
      destruct (dv_port dv) as [p|] eqn:Ep; [|discriminate].
      destruct (dr p _) as [r|] eqn:Er; [|discriminate]. exists cmp, p, r. split; [eauto|exact Er].
    - intros (cmp & port & r & (E1 & dv & E2 & E3) & E4).
      assert (Ed : driver_ofR rows d cn = Ok (cmp, dv)) by (apply driver_ofR_ok; auto).
      rewrite Ed. cbn [rbind fst snd]. unfold askR. rewrite E3. unfold dr. rewrite E4. cbn [rbind].
      destruct (dr_ok r); [destruct (dr_data r)|]; eauto.
  Qed.

  Lemma has_roles_iff p method : subset (set_of (map t_role method)) (set_of (dkeys (pp_components p))) = true <->
    has_roles p method.
  Proof.
    rewrite subset_spec. unfold has_roles. split.
    - intros H t Ht. assert (In (t_role t) (set_of (dkeys (pp_components p)))) as K.
      { apply H. apply set_of_In. now apply in_map. }
      apply (proj1 (set_of_In _ _)) in K. apply in_map_iff in K as ([r cn] & E & K). cbn in E. subst r. eauto.
    - intros H r Hr. apply (proj1 (set_of_In _ _)) in Hr. apply in_map_iff in Hr as (t & <- & Ht).
      destruct (H t Ht) as [cn K]. apply set_of_In. apply (in_map fst) in K. exact K.
  Qed.

  Lemma validateR_total method p : (forall rc, In rc (pp_components p) -> answers w d (snd rc)) ->
    exists v, method_validateR rows dr d method p = Ok v.
  Proof.
    intros Hd. unfold method_validateR.
    assert (E : forall s e, forR (validate_taskR rows dr d p) s method <> Err e).
    { apply forR_no_err. intros s t e _ E. unfold validate_taskR in E.
      destruct (forR _ tt (pp_components p)) as [[[]|[]]|e'] eqn:E2; try discriminate.
      revert E2. apply forR_no_err. intros u rc e2 Hrc E3. unfold validate_roleR in E3.
      destruct (String.eqb _ _); [|discriminate].
      destruct (Hd rc Hrc) as (cmp & port & r0 & (E4 & dv & E5 & E6) & _).
      assert (Ed : driver_ofR rows d (snd rc) = Ok (cmp, dv)) by (apply driver_ofR_ok; auto).
      rewrite Ed in E3. cbn [rbind fst snd] in E3. unfold askR in E3. rewrite E6 in E3.
      destruct (dr port _) as [r'|]; cbn [rbind] in E3; [destruct (dr_ok r')|]; discriminate. }
    destruct (forR _ tt method) as [[[]|[]]|e] eqn:E1; [cbn; eauto|cbn; eauto|].
    now apply E in E1.
  Qed.

  Lemma match_pipelineR_exact method cands p :
    (exists l, match_pipelineR rows dr d method cands p = Ok l) <->
    (has_roles p method -> forall rc, In rc (pp_components p) -> answers w d (snd rc)).
  Proof.
    unfold match_pipelineR. rewrite <- has_roles_iff.
    destruct (subset (set_of (map t_role method)) _) eqn:Er; cbn [negb].
    2:{ split; [discriminate|]. eauto. }
    split.
    - intros [l H] _ rc Hrc. destruct (foldM _ [] _) as [caps|e] eqn:Ec; [|discriminate].
      destruct (foldM_ok_all _ _ _ _ Ec (snd rc)) as (s1 & s2 & E); [unfold dvals; now apply in_map|].
      apply (proj1 (add_capabsR_exact _ _) (ex_intro _ _ E)).
    - intros H. specialize (H eq_refl).
      destruct (foldM_all_ok (add_capabsR rows dr d) (dvals (pp_components p))) with (s := @nil string) as [caps ->].
      { intros cn Hcn s. apply add_capabsR_exact. apply in_map_iff in Hcn as (rc & <- & Hrc). auto. }
      cbn [rbind]. destruct (subset _ caps); [|eauto].
      destruct (validateR_total method p H) as [v ->]. cbn [rbind]. destruct v; eauto.
  Qed.

  Lemma find_matchingR_exact method :
    (exists l, find_matchingR rows dr d method = Ok l) <-> relevant_answer w d method.
  Proof.
    unfold find_matchingR, relevant_answer. split.
    - intros [l H] p rc Hp Hr Hrc. destruct (foldM_ok_all _ _ _ _ H p Hp) as (s1 & s2 & E).
      exact (proj1 (match_pipelineR_exact _ _ _) (ex_intro _ _ E) Hr rc Hrc).
    - intros H. apply foldM_all_ok. intros p Hp s. apply match_pipelineR_exact. intros Hr rc. now apply H.
  Qed.
End Exact.

Lemma find_matching_exact d method w :
  (exists l, fst (run exec (find_matching_pipelines d method) w) = Ok l) <-> relevant_answer w d method.
Proof.
  destruct (query_find_matching (w_drvs w) (w_driver w) d method w eq_refl eq_refl) as [es E].
  rewrite E. cbn [fst]. apply find_matchingR_exact.
Qed.

(** The loop of check_queued. *)
Lemma check_loop_exact w0 d q : forall acc w x w',
  w_drvs w = w_drvs w0 -> w_driver w = w_driver w0 ->
  (forall j, In j q -> In (j_id j) (map j_id (w_jobs w))) ->
  run exec (forP (check_one d) acc q) w = (x, w') ->
  ((exists m, x = Ok m) <-> forall j, In j q -> relevant_answer w0 d (pl_method (j_payload j))).
Proof.
  induction q as [|j q IH]; intros acc w x w' E1 E2 Hq H.
  - rewrite run_forP_nil in H. injection H as <- <-. split; [intros _ j []|eauto].
  - rewrite run_forP_cons in H. unfold check_one in H at 1. rewrite run_bind in H.
    destruct (query_find_matching (w_drvs w0) (w_driver w0) d (pl_method (j_payload j)) w E1 E2) as [es R].
    rewrite R in H. destruct (find_matchingR _ _ _ _) as [pips|e] eqn:Ef.
    2:{ injection H as <- <-. split; [intros [m K]; discriminate|]. intros K.
        destruct (proj2 (find_matchingR_exact w0 d _) (K j (or_introl eq_refl))) as [l El].
        rewrite Ef in El. discriminate. }
    assert (Hj : relevant_answer w0 d (pl_method (j_payload j))) by (apply find_matchingR_exact; eauto).
    rewrite run_bind in H.
    assert (S : exists w1, run exec (match pips, j_status j with
         | _ :: _, Sq => bind (update_job_id (j_id j) [JStatus Sqw]) (fun _ => Ret tt)
         | _, _ => Ret tt end) (add_events w es) = (Ok tt, w1) /\
         w_drvs w1 = w_drvs w0 /\ w_driver w1 = w_driver w0 /\ map j_id (w_jobs w1) = map j_id (w_jobs w)).
    { assert (N : exists w1, run exec (Ret tt) (add_events w es) = (Ok tt, w1) /\
         w_drvs w1 = w_drvs w0 /\ w_driver w1 = w_driver w0 /\ map j_id (w_jobs w1) = map j_id (w_jobs w)).
      { eexists. split; [reflexivity|]. rewrite ae_drvs, ae_driver, ae_jobs. auto. }
      destruct pips as [|pn pips]; [exact N|]. destruct (j_status j); try exact N.
      rewrite run_bind, run_update_job_id.
      destruct (in_get_job (upd_jobs (j_id j) [JStatus Sqw] (w_jobs (add_events w es))) (j_id j)) as [j1 ->].
      { rewrite upd_jobs_ids, ae_jobs. apply Hq. now left. }
      eexists. split; [reflexivity|]. cbn [set_jobs w_drvs w_driver w_jobs].
      rewrite ae_drvs, ae_driver, upd_jobs_ids, ae_jobs. auto. }
    destruct S as (w1 & S & S1 & S2 & S3). rewrite S in H. cbv beta iota in H. rewrite run_ret in H.
    apply (IH _ w1 x w') in H; auto.
    2:{ intros j' Hj'. rewrite S3. apply Hq. now right. }
    rewrite H. split.
    + intros K j' [<-|Hj']; auto.
    + intros K j' Hj'. apply K. now right.
Qed.

Lemma check_queued_exact d w :
  (exists m, fst (run exec (check_queued d) w) = Ok m) <->
  forall j, In j (w_jobs w) -> queued (j_status j) -> relevant_answer w d (pl_method (j_payload j)).
Proof.
  destruct (run exec (check_queued d) w) as [x w'] eqn:H. cbn [fst].
  unfold check_queued in H. rewrite run_bind, run_act in H. cbn [exec jobs_where] in H.
  apply (check_loop_exact w d) in H; auto.
  2:{ intros j Hj. apply filter_In in Hj as [Hj _]. now apply in_map. }
  rewrite H. split.
  - intros K j Hj Hq. apply K. apply filter_In. split; [exact Hj|]. destruct Hq as [->| ->]; reflexivity.
  - intros K j Hj. apply filter_In in Hj as [Hj Hq]. apply K; [exact Hj|]. unfold queued.
    destruct (j_status j); try discriminate; auto.
Qed.
