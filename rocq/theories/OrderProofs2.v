(** * OrderProofs2: a pass of the job manager among others (C126) *)
From Coq Require Import List String ZArith Bool Lia Sorting.Sorted Sorting.Permutation.
From Verif Require Import Base BaseFacts Types ConfigModel Prog ProgFacts World WorldFacts CmdModel KetchupModel JobModel
  SpecJob JobProofs RGFacts SysOps SpecOrder OrderProofs.
Import ListNotations.
Open Scope list_scope.
Open Scope Z_scope.

Ltac qops := repeat (first [ops_step | progress cbv beta zeta]); try exact I.

Lemma quiet_manage : all_ops no_start manage_running.
Proof.
  unfold manage_running, manage_one, reconcile, finish_cancelled, finish_crashed, update_job_id, merge_netcdfs, assertP.
  qops.
Qed.
Lemma quiet_match : forall d m, all_ops no_start (find_matching_pipelines d m).
Proof.
  intros d m. unfold find_matching_pipelines, match_pipeline, add_capabs, method_validate, validate_task, validate_role, driver_of.
  qops.
Qed.
Lemma quiet_check : forall d, all_ops no_start (check_queued d).
Proof.
  intros d. unfold check_queued, check_one, update_job_id. apply all_ops_bind; [apply all_ops_do; exact I|].
  intros q. apply all_ops_forP. intros s j. apply all_ops_bind; [apply quiet_match|]. intros l. qops.
Qed.

Lemma found_app : forall A env (p : pgm A) l a b c, found env p l b -> found env p l (a ++ b ++ c).
Proof.
  intros A env p l a b c (n & u & x & y & z & s & -> & E).
  exists n, u, (a ++ x), y, (z ++ c), s. split; [|exact E]. rewrite <- !app_assoc. reflexivity.
Qed.

Lemma check_loop : forall env d Q acc n w tr m s,
  among env (forP (check_one d) acc Q) n w = (tr, Ok m, s) ->
  exists m2, m = acc ++ m2 /\ map fst m2 = map j_id Q /\
    forall i l, In (i, l) m2 -> exists j, In j Q /\ j_id j = i /\
      found env (find_matching_pipelines d (pl_method (j_payload j))) l tr.
Proof.
  intros env d Q. induction Q as [|j Q IH]; intros acc n w tr m s H.
  - cbn in H. injection H as <- <- <-. exists []. rewrite app_nil_r. split; [reflexivity|]. split; [reflexivity|]. intros ? ? [].
  - cbn [forP] in H. rewrite among_bind in H. unfold check_one at 1 in H. rewrite among_bind in H.
    destruct (among env (find_matching_pipelines d (pl_method (j_payload j))) n w) as [[t1 r1] [n1 w1]] eqn:E1.
    destruct r1 as [pips|e]; [|discriminate]. rewrite among_bind in H.
    match type of H with context [among env ?p n1 w1] => destruct (among env p n1 w1) as [[t2 r2] [n2 w2]] eqn:E2 end.
    destruct r2 as [u|e]; [|discriminate]. cbn [among] in H.
    destruct (among env (forP (check_one d) (acc ++ [(j_id j, pips)]) Q) n2 w2) as [[t3 r3] s3] eqn:E3.
    injection H as <- -> <-. destruct (IH _ _ _ _ _ _ E3) as (m2 & -> & M & F).
    exists ((j_id j, pips) :: m2). split; [rewrite <- app_assoc; reflexivity|]. split; [cbn; rewrite M; reflexivity|].
    intros i l [I|I].
    + injection I as <- <-. exists j. split; [left; reflexivity|]. split; [reflexivity|].
      exists n, w, [], t1, (t2 ++ t3), (n1, w1). split; [|exact E1]. rewrite app_nil_r, <- app_assoc. reflexivity.
    + destruct (F i l I) as (j' & A & B & C). exists j'. split; [right; exact A|]. split; [exact B|].
      pose proof (found_app _ _ _ _ (t1 ++ t2 ++ []) _ [] C) as X. rewrite (app_nil_r t3) in X. exact X.
Qed.

Lemma wants_part : forall a b c i s, wants (a ++ b ++ c) i s -> wants b i s.
Proof. intros a b c i s H w j I. apply (H w j). apply in_or_app. right. apply in_or_app. left. exact I. Qed.

Lemma action_starts : forall env d matched n w tr r s,
  among env (action_queued d matched) n w = (tr, r, s) -> NoDup (map fst matched) ->
  exists w0 rest, tr = (OPipsWhere false, w0) :: rest /\
  (NoDup (map p_name (w_pips w0)) ->
    StronglySorted Z.lt (map fst (starts tr)) /\
    (forall k pn, In (k, pn) (starts tr) -> exists p, get_pip (w_pips w0) pn = Some p /\ p_jobid p = None /\ p_ready p = true) /\
    (forall i l k pn x, In (i, l) matched -> In pn l -> In (k, pn) (starts tr) -> i < k ->
       wants tr i x -> holds_sample w0 pn x -> In i (map fst (starts tr)))).
Proof.
  intros env d matched n w tr r s H NDm. unfold action_queued in H. rewrite among_bind, among_act in H.
  cbn [exec fst snd] in H. set (w0 := env n w) in *. unfold ask in H. cbn [fst snd] in H.
  match type of H with context [by_name ?x] => set (free := x) in H end.
  rewrite among_bind in H.
  destruct (among env (forP (action_one d) (by_name free) (sort_jobs matched)) (S n) w0) as [[t1 r1] [n1 w1]] eqn:E1.
  assert (T : exists post, tr = (OPipsWhere false, w0) :: t1 ++ post /\ post = []).
  { destruct r1; [cbn [among] in H|]; injection H as <- _ _.
    - exists []. split; reflexivity.
    - exists []. rewrite app_nil_r. split; reflexivity. }
  destruct T as (post & -> & ->). rewrite app_nil_r.
  exists w0, t1. split; [reflexivity|]. intros ND.
  assert (Hnf : NoDup (map p_name free)).
  { unfold free. clear - ND. induction (w_pips w0) as [|a l IH]; cbn in *; [constructor|]. inversion ND; subst.
    destruct (Bool.eqb _ _); auto. cbn. constructor; auto. intros K. apply in_map_iff in K as (b & K1 & K2).
    apply filter_In in K2 as [K2 _]. apply H1. rewrite <- K1. now apply in_map. }
  destruct (by_name_spec free Hnf) as [B1 B2].
  assert (GA : forall pn ps, dget (by_name free) pn = Some ps -> get_pip (w_pips w0) pn = Some ps /\ p_jobid ps = None).
  { intros pn ps D. apply B2 in D. unfold free in D. rewrite get_pip_filter in D by exact ND.
    destruct (p_jobid ps); cbn in D; intuition congruence. }
  pose proof (sort_jobs_sorted _ NDm) as SS.
  destruct (loop_starts env d (sort_jobs matched) (by_name free) (S n) w0 t1 r1 (n1, w1) B1 SS E1) as (P & A & C).
  change (starts ((OPipsWhere false, w0) :: t1)) with (starts t1).
  split; [exact (part_sorted _ _ P SS)|].
  split.
  { intros k pn K. destruct (A k pn K) as (ps & D & R). exists ps. destruct (GA pn ps D). auto. }
  intros i l k pn x I PN K LT W (p & GP & PS).
  destruct (A k pn K) as (ps & D & R). destruct (GA pn ps D) as [G1 _]. assert (ps = p) by congruence. subst ps.
  apply (C i l k pn p).
  - apply Permutation_in with (1 := Permutation_sym (sort_jobs_perm matched)). exact I.
  - exact PN.
  - exact K.
  - exact LT.
  - exact D.
  - intros y PY. assert (y = x) by congruence. subst y. intros w' j J. apply W. right. exact J.
  - congruence.
Qed.
