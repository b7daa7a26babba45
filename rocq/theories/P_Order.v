(** * P_Order: queued jobs are started in the order of submission (C126) *)
From Coq Require Import List String ZArith Bool Lia Sorting.Sorted Sorting.Permutation.
From Verif Require Import Base BaseFacts Types ConfigModel Prog ProgFacts World WorldFacts CmdModel KetchupModel JobModel
  SysModel SpecJob SpecQueue SpecSys JobProofs RGFacts SysPlay SysProofs SysProofs2 SysProofs10 P_Sys SpecOrder OrderProofs
  OrderProofs2 OrderProofs3 ExWorld.
Import ListNotations.
Open Scope string_scope.
Open Scope list_scope.
Open Scope Z_scope.

Lemma filter_ids : forall (f : job -> bool) l, NoDup (map j_id l) -> NoDup (map j_id (filter f l)).
Proof.
  intros f l. induction l as [|a l IH]; intros H; cbn in *; [constructor|]. inversion H; subst.
  destruct (f a); auto. cbn. constructor; auto. intros K. apply in_map_iff in K as (b & K1 & K2).
  apply filter_In in K2 as [K2 _]. apply H2. rewrite <- K1. now apply in_map.
Qed.

(** A pass of the job manager, whatever the rest of the system does between its operations.
    If it starts a process then there is one moment [wq] at which it has read the queue and one
    later moment [w0] at which it has read the free pipelines, and for every job that was in the
    queue a list of pipelines it was found to match in this pass.  Processes are started in the
    order of the job numbers.  If job [k] is started on pipeline [pn], then every job with a
    smaller number that was found to match [pn] and wants the sample that was in [pn] is started
    by this pass, too. *)
Theorem C126_pass_partial : forall env n w tr r s, among env job_pass n w = (tr, r, s) -> starts tr <> [] ->
  exists d wq w0 matched before after,
    tr = (before ++ (OPipsWhere false, w0) :: after)%list /\
    In (OJobsWhere WQueued, wq) before /\ starts before = [] /\
    (forall i, In i (map fst matched) <-> exists j, In j (w_jobs wq) /\ j_id j = i /\ in_queue j) /\
    (forall i l, In (i, l) matched -> exists j, In j (w_jobs wq) /\ j_id j = i /\
       found env (find_matching_pipelines d (pl_method (j_payload j))) l before) /\
    (NoDup (map j_id (w_jobs wq)) -> NoDup (map p_name (w_pips w0)) ->
      StronglySorted Z.lt (map fst (starts tr)) /\
      forall k pn, In (k, pn) (starts tr) ->
        (exists p, get_pip (w_pips w0) pn = Some p /\ p_jobid p = None /\ p_ready p = true) /\
        forall i l x, In (i, l) matched -> In pn l -> i < k -> wants tr i x -> holds_sample w0 pn x ->
          In i (map fst (starts tr))).
Proof.
  intros env n w tr r s H NE. unfold job_pass in H. rewrite among_bind, among_act in H. cbn [exec fst snd] in H.
  unfold ask in H. cbn [fst snd] in H. set (wd := env n w) in *.
  destruct (w_daemon wd) as [d|]; [|exfalso; cbn in H; injection H as <- _ _; apply NE; reflexivity].
  rewrite among_bind in H.
  match type of H with context [among env manage_running ?a ?b] =>
    destruct (among env manage_running a b) as [[t1 r1] [n1 w1]] eqn:E1 end.
  pose proof (quiet_among _ _ _ quiet_manage _ _ _ _ _ E1) as Q1.
  destruct r1 as [u|e]; [|exfalso; injection H as <- _ _; apply NE; exact Q1].
  rewrite among_bind in H.
  destruct (among env (check_queued d) n1 w1) as [[t2 r2] [n2 w2]] eqn:E2.
  pose proof (quiet_among _ _ _ (quiet_check d) _ _ _ _ _ E2) as Q2.
  destruct r2 as [matched|e].
  2:{ exfalso. injection H as <- _ _. apply NE. unfold starts in *. cbn [flat_map fst app]. rewrite flat_map_app, Q1. exact Q2. }
  destruct (among env (action_queued d matched) n2 w2) as [[t3 r3] s3] eqn:E3.
  injection H as TR <- <-.
  unfold check_queued in E2. rewrite among_bind, among_act in E2. cbn [exec fst snd] in E2.
  set (wq := env n1 w1) in *. cbn [jobs_where fst snd] in E2.
  match type of E2 with context [forP (check_one d) [] ?q] => set (queue := q) in E2 end.
  match type of E2 with context [among env ?p ?a ?b] => destruct (among env p a b) as [[t2' r2'] s2'] eqn:E2' end.
  injection E2 as <- -> ->.
  destruct (check_loop _ _ _ _ _ _ _ _ _ E2') as (m2 & EM & IDS & FD). cbn [app] in EM. subst m2.
  assert (QI : forall j, In j queue <-> In j (w_jobs wq) /\ in_queue j).
  { intros j. unfold queue. rewrite filter_In. unfold in_queue.
    destruct (j_status j); intuition congruence. }
  assert (T3 : exists w0 rest, t3 = (OPipsWhere false, w0) :: rest).
  { pose proof E3 as E3'. unfold action_queued in E3'. rewrite among_bind, among_act in E3'. cbn [exec] in E3'. unfold ask in E3'.
    cbn [fst snd] in E3'. match type of E3' with context [among env ?p ?a ?b] => destruct (among env p a b) as [[x y] z] end.
    injection E3' as <- _ _. eauto. }
  destruct T3 as (w0 & rest & T3).
  exists d, wq, w0, matched, ((ODmGet, wd) :: t1 ++ (OJobsWhere WQueued, wq) :: t2'), rest.
  assert (SB : starts ((ODmGet, wd) :: t1 ++ (OJobsWhere WQueued, wq) :: t2') = []).
  { unfold starts in *. cbn [flat_map fst app]. rewrite flat_map_app, Q1. exact Q2. }
  assert (EQ : tr = ((ODmGet, wd) :: t1 ++ (OJobsWhere WQueued, wq) :: t2') ++ t3).
  { rewrite <- TR. cbn [app]. rewrite <- app_assoc. reflexivity. }
  split; [rewrite <- T3; exact EQ|].
  split; [right; apply in_or_app; right; left; reflexivity|].
  split; [exact SB|].
  split.
  { intros i. rewrite IDS. rewrite in_map_iff. split.
    - intros (j & A & B). apply QI in B. exists j. tauto.
    - intros (j & A & B & C). exists j. split; [exact B|]. apply QI. auto. }
  split.
  { intros i l I. destruct (FD i l I) as (j & A & B & C). apply QI in A. exists j. split; [tauto|]. split; [exact B|].
    pose proof (found_app _ _ _ _ ((ODmGet, wd) :: t1 ++ [(OJobsWhere WQueued, wq)]) _ [] C) as X.
    rewrite (app_nil_r t2') in X. cbn [app] in X. rewrite <- app_assoc in X. exact X. }
  intros ND1 ND0.
  assert (NDm : NoDup (map fst matched)) by (rewrite IDS; unfold queue; apply filter_ids; exact ND1).
  destruct (action_starts env d matched n2 w2 t3 r3 s3 E3 NDm) as (w0' & rest' & T3' & AS).
  rewrite T3 in T3'. injection T3' as <- <-. specialize (AS ND0) as (A1 & A2 & A3).
  rewrite EQ, starts_app, SB. cbn [app].
  split; [exact A1|].
  intros k pn K. split; [exact (A2 k pn K)|].
  intros i l x I P LT W HS. apply (A3 i l k pn x I P K LT); [|exact HS].
  intros w' j J. apply (W w' j). right. apply in_or_app. right. exact J.
Qed.
Print Assumptions C126_pass_partial.

(** The same for executions of the whole system, with any number of user commands, daemon
    restarts, job processes and failures before and during the pass, and also for passes cut
    off by the end of the daemon: in every pass of the job manager, processes are started in the order of
    the job numbers, and no job is overtaken on a pipeline it was found to match and which held
    its sample when the pass read the free pipelines. *)
Theorem C126_system_partial : forall w ls0 s0 n t ls s',
  wf_queue w -> NoDup (map p_name (w_pips w)) ->
  runs ls0 (start_sys w) = Some s0 -> runs ls s0 = Some s' ->
  nth_error (s_threads s0) n = Some t -> t_kind t = KJobMgr -> t_pgm t = no_reply job_pass ->
  let tr := pass_ops n ls s0 in
  StronglySorted Z.lt (map fst (SpecOrder.starts tr)) /\
  forall k pn, In (k, pn) (SpecOrder.starts tr) ->
    exists env d wq w0 matched before after,
      tr = (before ++ (OPipsWhere false, w0) :: after)%list /\ In (OJobsWhere WQueued, wq) before /\
      (forall i, In i (map fst matched) <-> exists j, In j (w_jobs wq) /\ j_id j = i /\ in_queue j) /\
      (forall i l, In (i, l) matched -> exists j, In j (w_jobs wq) /\ j_id j = i /\
         found env (find_matching_pipelines d (pl_method (j_payload j))) l before) /\
      (exists p, get_pip (w_pips w0) pn = Some p /\ p_jobid p = None /\ p_ready p = true) /\
      forall i l j, In (i, l) matched -> In pn l -> i < k -> In j (w_jobs wq) -> j_id j = i ->
        holds_sample w0 pn (pl_sample (j_payload j)) -> In i (map fst (SpecOrder.starts tr)).
Proof.
  intros w ls0 s0 n t ls s' WF NN R0 R1 T K P. cbn zeta.
  destruct (SpecOrder.starts (pass_ops n ls s0)) as [|st0 sts] eqn:ST; [split; [constructor|intros k pn []]|].
  rewrite <- ST. assert (NE : SpecOrder.starts (pass_ops n ls s0) <> []) by (rewrite ST; discriminate). clear ST.
  destruct (covered n ls s0 t 0%nat w T) as (env & rest & r & st & E & JL); [rewrite K; reflexivity|].
  set (tr := pass_ops n ls s0) in *.
  assert (MOM : forall o u, In (o, u) tr -> exists ls1 ls2 s1, ls = ls1 ++ ls2 /\ runs ls1 s0 = Some s1 /\ u = s_world s1)
    by (intros o u; apply pass_moment).
  rewrite P in E. unfold no_reply in E. rewrite among_bind in E.
  destruct (among env job_pass 0%nat w) as [[tr' r'] st'] eqn:EJ.
  assert (E' : tr' = tr ++ rest).
  { destruct r'; cbn in E; [|injection E as <- _ _; reflexivity]. destruct st'. cbn in E. injection E as E _ _. rewrite app_nil_r in E. exact E. }
  clear E. subst tr'.
  assert (NE' : SpecOrder.starts (tr ++ rest) <> []).
  { rewrite starts_app. destruct (SpecOrder.starts tr); [congruence|discriminate]. }
  destruct (C126_pass_partial _ _ _ _ _ _ EJ NE') as (d & wq & w0 & matched & before & after & TR & IQ & SB & IDS & FD & MAIN).
  assert (SPLIT : exists after', tr = before ++ (OPipsWhere false, w0) :: after').
  { apply app_eq_app in TR as (l & [[A B]|[A B]]).
    - destruct l as [|x l].
      + exfalso. rewrite app_nil_r in A. subst. congruence.
      + cbn in B. injection B as <- B. exists l. exact A.
    - exfalso. subst before. rewrite starts_app in SB. apply app_eq_nil in SB as [SB _]. congruence. }
  destruct SPLIT as (after' & SPLIT).
  assert (REACH : forall o u, In (o, u) tr -> wf_queue u /\ NoDup (map p_name (w_pips u)) /\
            forall j, In j (w_jobs u) -> exists j', In j' (w_jobs (s_world s')) /\ same_job j j').
  { intros o u I. destruct (MOM _ _ I) as (a & b & s1 & -> & RA & ->).
    assert (RB : runs b s1 = Some s') by (rewrite runs_app, RA in R1; exact R1).
    assert (RC : runs (ls0 ++ a) (start_sys w) = Some s1) by (rewrite runs_app, R0; exact RA).
    split; [exact (proj1 (C21_jobs_kept w ls0 a s0 s1 WF R0 RA))|]. split.
    - assert (B : rg_inv pip_names R30 G30 s1) by (eapply inv30; [apply rg_start; exact NN|exact RC]). apply B.
    - exact (proj1 (proj2 (C21_jobs_kept w (ls0 ++ a) b s1 s' WF RC RB))). }
  assert (IQT : In (OJobsWhere WQueued, wq) tr) by (rewrite SPLIT; apply in_or_app; left; exact IQ).
  assert (I0T : In (OPipsWhere false, w0) tr) by (rewrite SPLIT; apply in_or_app; right; left; reflexivity).
  destruct (REACH _ _ IQT) as (WQ & _ & KQ). destruct (REACH _ _ I0T) as (_ & N0 & _).
  destruct (MAIN (wf_nodup _ WQ) N0) as (SS & NO). clear MAIN.
  rewrite starts_app, map_app in SS. apply sorted_app in SS as (SA & SL).
  split; [exact SA|]. intros k pn IK.
  assert (IK' : In (k, pn) (SpecOrder.starts (tr ++ rest))) by (rewrite starts_app; apply in_or_app; left; exact IK).
  destruct (NO k pn IK') as (PP & OV).
  exists env, d, wq, w0, matched, before, after'.
  split; [exact SPLIT|]. split; [exact IQ|]. split; [exact IDS|]. split; [exact FD|]. split; [exact PP|].
  intros i l j IM IP LT IJ EI HS.
  assert (W : wants (tr ++ rest) i (pl_sample (j_payload j))).
  { intros u ji I G. apply in_app_or in I as [I|I].
    2:{ rewrite (JL _ _ I) in G. discriminate. }
    destruct (REACH _ _ I) as (_ & _ & KU).
    assert (GI : In ji (w_jobs u) /\ j_id ji = i).
    { unfold get_job in G. apply find_some in G as [G1 G2]. split; [exact G1|]. apply Z.eqb_eq in G2. congruence. }
    destruct GI as [G1 G2]. destruct (KU _ G1) as (j1 & X1 & Y1 & Z1 & _). destruct (KQ _ IJ) as (j2 & X2 & Y2 & Z2 & _).
    assert (j1 = j2).
    { pose proof (wf_nodup _ (proj1 (C21_jobs_kept w ls0 ls s0 s' WF R0 R1))) as ND.
      assert (EQ : j_id j1 = j_id j2) by congruence. clear - ND X1 X2 EQ.
      induction (w_jobs (s_world s')) as [|x xs IH]; [destruct X1|]. cbn in ND. inversion ND as [|? ? N1 N2]; subst.
      destruct X1 as [->|X1], X2 as [->|X2]; auto.
      - exfalso. apply N1. rewrite EQ. now apply in_map.
      - exfalso. apply N1. rewrite <- EQ. now apply in_map. }
    subst j2. congruence. }
  pose proof (OV i l _ IM IP LT W HS) as X. rewrite starts_app, map_app in X. apply in_app_or in X as [X|X]; [exact X|].
  exfalso. assert (IKF : In k (map fst (SpecOrder.starts tr))) by (apply in_map_iff; exists (k, pn); auto).
  pose proof (SL k i IKF X). lia.
Qed.
Print Assumptions C126_system_partial.

(** Two jobs started by one pass; a third job is submitted in the middle of the pass. *)
Definition exo_before : list cue :=
  (exs_base ++ exs_pass 3 ++ [At (LJobStart 0 100); Finish 9] ++ exs_load 10 "pip-2" ++
   exs_submit 12 ++ exs_submit 13 ++ [At (LStep 3)])%list.
Definition exo_during : list cue := (repeat (At (LStep 3)) 5 ++ exs_submit 14 ++ [Finish 3])%list.
Example C126_ex_system :
  let s0 := played exo_before exw_init in
  plays (exo_before ++ exo_during) exw_init = true /\
  option_map t_kind (nth_error (s_threads s0) 3) = Some KJobMgr /\
  SpecOrder.starts (pass_ops 3 (fst (play exo_during s0)) s0) = [(2, "pip-1"); (3, "pip-2")] /\
  map j_id (w_jobs (s_world (played (exo_before ++ exo_during) exw_init))) = [1; 2; 3; 4].
Proof. vm_compute. repeat split. Qed.

(** In the example, drivers that know no technique before operation [lim] of the pass; nothing
    else is changed by the rest of the system. *)
Definition exo_none : Z -> dcmd -> option dreply := fun _ _ => Some (mkDReply true (DdCaps [])).
Definition exo_env (lim : nat) (n : nat) (w : world) : world :=
  set_answers w (if Nat.ltb n lim then exo_none else w_driver exw_up).
Definition exo_pass (lim : nat) := among (exo_env lim) job_pass 0 exw_up.

(** With drivers that answer alike all the time the job submitted first gets the pipeline. *)
Example C126_ex : let '(tr, r, (_, w')) := exo_pass 0 in
  starts tr = [(3, "pip-both")] /\ r = Ok tt /\
  map (fun j => (j_id j, j_status j)) (w_jobs w') = [(1, Sc); (2, Sr); (3, Sqw); (5, Sqw)] /\
  (get_job (w_jobs exw_up) 3 = Some (exw_job 3 (Some "beta RUN") Sq None) /\
   get_job (w_jobs exw_up) 5 = Some (exw_job 5 (Some "gamma") Sqw None)).
Proof. vm_compute. repeat split. Qed.

Lemma by_snd : forall A B (p : A * B) b, snd p = b -> p = (fst p, b).
Proof. intros A B [x y] b E. cbn in *. subst. reflexivity. Qed.

(** A job can be overtaken by a later one with the same payload, although the pipeline suits
    both: the pass asks the drivers anew for every job, and a driver that comes up in between
    is in time for the later job only. *)
Theorem C126_refuted : exists env w tr w' i k ji jk pn,
  (forall n u, w_jobs (env n u) = w_jobs u /\ w_pips (env n u) = w_pips u /\ w_drvs (env n u) = w_drvs u /\
               w_daemon (env n u) = w_daemon u) /\
  fst (among env job_pass 0 w) = (tr, Ok tt) /\ snd (snd (among env job_pass 0 w)) = w' /\
  i < k /\ get_job (w_jobs w) i = Some ji /\ get_job (w_jobs w) k = Some jk /\
  in_queue ji /\ in_queue jk /\ j_submitted ji < j_submitted jk /\ j_payload ji = j_payload jk /\
  starts tr = [(k, pn)] /\ holds_sample w pn (pl_sample (j_payload ji)) /\
  (exists j', get_job (w_jobs w') i = Some j' /\ in_queue j' /\ j_launched j' = None).
Proof.
  exists (exo_env 12), exw_up, (fst (fst (among (exo_env 12) job_pass 0 exw_up))),
    (snd (snd (among (exo_env 12) job_pass 0 exw_up))), 3, 5,
    (exw_job 3 (Some "beta RUN") Sq None), (exw_job 5 (Some "gamma") Sqw None), "pip-both".
  split; [intros n u; repeat split|].
  split; [apply by_snd; vm_compute; reflexivity|]. split; [apply eq_refl|]. split; [reflexivity|]. split; [vm_compute; reflexivity|]. split; [vm_compute; reflexivity|].
  split; [left; reflexivity|]. split; [right; reflexivity|]. split; [vm_compute; reflexivity|].
  split; [reflexivity|]. split; [vm_compute; reflexivity|].
  split; [eexists; split; [vm_compute; reflexivity|reflexivity]|].
  eexists. split; [vm_compute; reflexivity|]. split; [right; reflexivity|reflexivity].
Qed.
Print Assumptions C126_refuted.
