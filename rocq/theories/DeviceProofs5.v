(** * DeviceProofs5: a component reset for good (C105) *)
From Coq Require Import List ZArith Bool Lia Arith.
From Verif Require Import DeviceModel SpecDevice DeviceProofs DeviceProofs2 DeviceProofs3 DeviceProofs4.
Import ListNotations.
Open Scope Z_scope.

(** The worker has ended or is about to. *)
Definition going_off (s : dev) : Prop :=
  d_worker s = WEnd \/ ((d_worker s = WTop \/ d_worker s = WQuit None) /\ d_run s = false).
Fixpoint quiet_off (l : list dev_event) : Prop :=
  match l with
  | [] => True
  | e :: r => (last_restart r = Some false -> ~ activity e) /\ quiet_off r
  end.
Definition Ioff (s : dev) : Prop :=
  quiet_off (d_log s) /\ (last_restart (d_log s) = Some false -> going_off s /\ d_running s = None).

Lemma off_step m s s' : can_reach s -> Ioff s -> dstep m s = Some s' -> Ioff s'.
Proof.
  intros Re [Q I] H. unfold Ioff, going_off in *.
  step_cases; devc; cbn [quiet_off last_restart activity] in *; rewrite ?Ew in *; devc;
    try (split; [auto|intros L; destruct (I L) as [G R]; clear I; rewrite ?R; intuition congruence]; fail);
    try (split; [split; [intros L; destruct (I L) as [G R]; intuition congruence|exact Q]
                |intros L; destruct (I L) as [G R]; intuition congruence]; fail).
  split; [split; [auto|exact Q]|]. intros [= ->]. split; [auto|].
  destruct (Ictl_reach _ Re) as [_ S W _ _]. rewrite Em in W. rewrite (W eq_refl) in S. exact S.
Qed.
Lemma off_reach s : can_reach s -> Ioff s.
Proof.
  apply reach_ind2; [split; [exact I|discriminate]|]. intros m a b R Ia H. exact (off_step m a b R Ia H).
Qed.
Lemma quiet_split l1 : forall e l2, quiet_off (l1 ++ e :: l2) -> last_restart l2 = Some false -> ~ activity e.
Proof.
  induction l1 as [|x l1 IH]; intros e l2 Q; [exact (proj1 Q)|]. apply IH. exact (proj2 Q).
Qed.
Lemma C105_off_lemma s l1 e l2 : can_reach s -> d_log s = l1 ++ e :: l2 -> last_restart l2 = Some false -> ~ activity e.
Proof. intros R L. apply (quiet_split l1). rewrite <- L. exact (proj1 (off_reach s R)). Qed.
(** The worker ends. *)
Lemma off_ends s : can_reach s -> last_restart (d_log s) = Some false ->
  exists l s', worker_only l /\ dsteps l s = Some s' /\ d_worker s' = WEnd /\ d_log s' = d_log s.
Proof.
  intros R L. destruct (off_reach s R) as [_ G]. destruct (G L) as [[E|[[E|E] D]] _].
  - exists [], s. repeat split; auto. intros m [].
  - exists [Work 0 false; Work 0 false]. eexists. split; [intros m [<-|[<-|[]]]; eexists; reflexivity|].
    cbn [dsteps dstep]. unfold wstep at 1. rewrite E, D. cbn. repeat split.
  - exists [Work 0 false]. eexists. split; [intros m [<-|[]]; eexists; reflexivity|].
    cbn [dsteps dstep]. unfold wstep at 1. rewrite E. cbn. repeat split.
Qed.

(** Without a further reset nothing is begun. *)
Lemma off_more m s s' : can_reach s -> not_resetting (d_main s) = true -> last_restart (d_log s) = Some false ->
  (forall b, m <> Ask (AReset b)) -> dstep m s = Some s' ->
  not_resetting (d_main s') = true /\ last_restart (d_log s') = Some false /\ begun (d_log s') = begun (d_log s) /\
  measured (d_log s') = measured (d_log s).
Proof.
  intros R M L N H. destruct (off_reach s R) as [_ I]. destruct (I L) as [G _]. clear I. unfold going_off in G.
  step_cases; try discriminate M; try (exfalso; eapply N; reflexivity); devc; cbn [last_restart] in *;
    rewrite ?Em in *; repeat split; auto;
    exfalso; intuition congruence.
Qed.
Lemma off_never l : forall s s', can_reach s -> not_resetting (d_main s) = true -> last_restart (d_log s) = Some false ->
  no_reset l -> dsteps l s = Some s' -> begun (d_log s') = begun (d_log s) /\ measured (d_log s') = measured (d_log s).
Proof.
  induction l as [|m l IH]; intros s s' R M L N H; cbn in H.
  - injection H as <-. auto.
  - destruct (dstep m s) as [s1|] eqn:E; [|discriminate H].
    destruct (off_more m s s1 R M L) as (M1 & L1 & B1 & P1); [intros b ->; apply (N b); left; reflexivity|exact E|].
    destruct (IH s1 s') as [B P]; auto; [exact (reach_step s m s1 R E)|intros b I; apply (N b); right; exact I|].
    split; congruence.
Qed.
