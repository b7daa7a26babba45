(** * P_Charge: which part of tomato changes which record (C119) *)
From Coq Require Import List String Ascii ZArith Bool.
From Verif Require Import Base PyStr Types ConfigModel Prog World Replies CmdModel KetchupModel
  TomatoModel JobModel PipModel DrvModel SysModel SpecQueue SpecSys SpecCharge SysProofs SysProofs27 SysPlay ExWorld.
Import ListNotations.
Open Scope string_scope.
Open Scope Z_scope.

(** ** C119: every change of a record is made by the part of tomato in charge of it *)

(** For every step of every execution, and every record of a job after it. *)
Theorem C119_jobs : forall w ls s l s', wf_queue w -> runs ls (start_sys w) = Some s -> step l s = Some s' ->
  in_charge w_jobs job_made job_change l s s'.
Proof. intros. eapply (proj1 (C119_lemma w ls s l s' ltac:(assumption) ltac:(assumption) ltac:(assumption))). Qed.
Print Assumptions C119_jobs.

(** The same for pipelines, *)
Theorem C119_pips : forall w ls s l s', wf_queue w -> runs ls (start_sys w) = Some s -> step l s = Some s' ->
  in_charge w_pips pip_made pip_change l s s'.
Proof. intros. eapply (proj1 (proj2 (C119_lemma w ls s l s' ltac:(assumption) ltac:(assumption) ltac:(assumption)))). Qed.
Print Assumptions C119_pips.

(** and drivers. *)
Theorem C119_drvs : forall w ls s l s', wf_queue w -> runs ls (start_sys w) = Some s -> step l s = Some s' ->
  in_charge w_drvs drv_made drv_change l s s'.
Proof. intros. eapply (proj2 (proj2 (C119_lemma w ls s l s' ltac:(assumption) ltac:(assumption) ltac:(assumption)))). Qed.
Print Assumptions C119_drvs.

(** Hence the record of a job becomes that of a running one only by a process started for this job, whose
    number is recorded, *)
Theorem C119_running : forall w ls s l s' j j', wf_queue w -> runs ls (start_sys w) = Some s -> step l s = Some s' ->
  In j (w_jobs (s_world s)) -> In j' (w_jobs (s_world s')) -> j_id j' = j_id j ->
  j_status j <> Sr -> j_status j' = Sr ->
  exists n t pid a, l = LStep n /\ nth_error (s_threads s) n = Some t /\ t_kind t = KJob pid a /\
    ja_jobid a = j_id j /\ j_pid j' = Some pid.
Proof.
  intros w ls s l s' j j' Hw Hr Hs Hj Hj' Ei N1 N2.
  assert (Hwf : wf_queue (s_world s)) by (apply (basic_inv ls _ _ (basic_init w Hw) Hr)).
  destruct (C119_jobs w ls s l s' Hw Hr Hs j' Hj') as [H|(n & t & El & Et & H)].
  { elim N1. rewrite <- (wf_same_id _ _ _ Hwf H Hj Ei). exact N2. }
  destruct H as [(_ & H & _)|(y & Hy & H)]; [congruence|].
  assert (Ey : forall z : job, j' = z -> j_id z = j_id y -> y = j)
    by (intros z E1 E2; apply (wf_same_id _ _ _ Hwf Hy Hj); congruence).
  exists n, t. destruct (t_kind t) as [| | | |pid a|] eqn:Ek; cbn in H; try contradiction.
  - destruct H as [H|H]; rewrite H in N2; discriminate.
  - destruct H as [H|[(u & H)|(st & u & Hst & H)]].
    + rewrite H in N2. discriminate.
    + elim N1. rewrite <- (Ey _ H eq_refl). rewrite H in N2. exact N2.
    + rewrite H in N2. cbn in N2. destruct Hst; congruence.
  - destruct H as [Ea [(u & H)|[(p & r & q & H)|(st & u & Hst & H)]]].
    + exists pid, a. rewrite <- (Ey _ H eq_refl), Ea. rewrite H. auto 6.
    + elim N1. rewrite <- (Ey _ H eq_refl). rewrite H in N2. exact N2.
    + rewrite H in N2. cbn in N2. destruct Hst; congruence.
Qed.
Print Assumptions C119_running.

(** the sample of a pipeline is changed by commands only, *)
Theorem C119_sample : forall w ls s l s' p', wf_queue w -> runs ls (start_sys w) = Some s -> step l s = Some s' ->
  In p' (w_pips (s_world s')) ->
  (exists p, In p (w_pips (s_world s)) /\ p_name p = p_name p' /\ p_sample p = p_sample p') \/
  exists n t, l = LStep n /\ nth_error (s_threads s) n = Some t /\ t_kind t = KCmd.
Proof.
  intros w ls s l s' p' Hw Hr Hs Hp. destruct (C119_pips w ls s l s' Hw Hr Hs p' Hp) as [H|(n & t & El & Et & H)]; [eauto|].
  destruct (t_kind t) eqn:Ek; [right; exists n, t; auto| | | | |]; left;
    (destruct H as [(H & _)|(y & Hy & H)]; [discriminate|]); exists y; (split; [exact Hy|]); cbn in H; try contradiction.
  - destruct H as (id & ->). auto.
  - rewrite H. auto.
  - destruct H as (_ & b & ->). auto.
Qed.
Print Assumptions C119_sample.

(** and a job that has left status 'q' is never in this status again, whatever happens at the same time. *)
Theorem C119_queued : forall w ls1 ls2 s1 s2 j1 j2, wf_queue w -> runs ls1 (start_sys w) = Some s1 -> runs ls2 s1 = Some s2 ->
  In j1 (w_jobs (s_world s1)) -> j_status j1 <> Sq ->
  In j2 (w_jobs (s_world s2)) -> j_id j2 = j_id j1 -> j_status j2 <> Sq.
Proof.
  intros w ls1 ls2 s1 s2 j1 j2 Hw H1 H2 Hj1 Hs Hj2 Ei.
  pose proof (basic_inv ls1 _ _ (basic_init w Hw) H1) as I1.
  destruct (dequeued_runs (j_id j1) ls2 s1 s2 I1 H2 (ex_intro _ j1 (conj Hj1 (conj eq_refl Hs)))) as (j & Hj & E & N).
  pose proof (basic_inv ls2 _ _ I1 H2) as I2. rewrite (wf_same_id _ j2 j (proj1 I2) Hj2 Hj); congruence.
Qed.
Print Assumptions C119_queued.

(** Process 100 records job 1 as running; before, the job was waiting. *)
Example C119_ex :
  plays (exs_running 3) exw_init = true /\
  map (fun j => (j_id j, j_status j, j_pid j)) (w_jobs (s_world (played (exs_running 1) exw_init))) = [(1, Sqw, None)] /\
  map (fun j => (j_id j, j_status j, j_pid j)) (w_jobs (s_world (played (exs_running 3) exw_init))) = [(1, Sr, Some 100)] /\
  exists t a, nth_error (s_threads (played (exs_running 1) exw_init)) 9 = Some t /\ t_kind t = KJob 100 a /\ ja_jobid a = 1.
Proof. split; [|split; [|split]]; try (vm_compute; reflexivity). vm_compute. eexists _, _. repeat split. Qed.
