(** * P_Proc: which processes are announced and signalled (C127) *)
From Coq Require Import List String ZArith Bool Lia.
From Verif Require Import Base ProcModel SpecProc ProcProofs.
Import ListNotations.
Open Scope string_scope.
Open Scope Z_scope.

(** The announced process is the process itself, except on Windows below a launcher with the
    given name; then it is the nearest such launcher. *)
Theorem C127_announced : forall exe os t self, proc_table t ->
  let r := get_pid exe os t self in
  (r = self /\ (os = Posix \/ forall a, below t a self -> ~ named t a exe)) \/
  (os = Windows /\ named t r exe /\ below t r self /\
   forall a, below t a self -> named t a exe -> a = r \/ below t a r).
Proof.
  intros exe os t self (N & age & A). destruct os; cbn; [|auto].
  pose proof (climb t age exe N A (List.length t) self (older_all age _ t)) as H.
  destruct (find _ _) as [q|]; [right|left]; auto.
Qed.
Print Assumptions C127_announced.

(** Cancelling a job signals descendants of the recorded process only, not that process. *)
Theorem C127_inside : forall os t p q, proc_table t -> In q (kill_job_signals os t p) -> below t p q /\ q <> p.
Proof.
  intros os t p q W H. assert (B : below t p q).
  { destruct os.
    - apply kill_windows in H as (c & C & _ & D); [|apply W]. eapply below_more; [constructor; exact C|exact D].
    - constructor. apply children_child. exact H. }
  split; [exact B|]. intros ->. exact (below_irrefl _ _ W B).
Qed.
Print Assumptions C127_inside.

(** A job whose process is neither above nor below that of another job is cancelled without a
    signal to the process of the other job or to anything below it. *)
Theorem C127_separate : forall os t p p' q, proc_table t -> p <> p' -> ~ below t p p' -> ~ below t p' p ->
  In q (kill_job_signals os t p) -> q <> p' /\ ~ below t p' q.
Proof.
  intros os t p p' q W NE N1 N2 H. destruct (C127_inside os t p q W H) as [B _]. split.
  - intros ->. exact (N1 B).
  - intros B'. destruct (below_line t p p' q (proj1 W) B B') as [X|[X|X]]; auto.
Qed.
Print Assumptions C127_separate.

(** The job process itself is not signalled on POSIX, on Windows without a launcher, and on
    Windows if the launcher is its parent; in these cases, what it has started directly is
    signalled on POSIX and below a launcher. *)
Theorem C127_spared_partial : forall os t self, proc_table t ->
  let r := get_pid "tomato-job.exe" os t self in
  (os = Windows -> (forall a, below t a self -> ~ named t a "tomato-job.exe") \/
                   exists a, child t a self /\ named t a "tomato-job.exe") ->
  ~ In self (kill_job_signals os t r) /\
  forall q, child t self q -> ~ named t self "conhost.exe" -> os = Posix \/ r <> self -> In q (kill_job_signals os t r).
Proof.
  intros os t self W r H. pose proof (C127_announced "tomato-job.exe" os t self W) as An. cbn zeta in An. fold r in An.
  destruct An as [[E X]|(-> & NR & BR & NEAR)].
  - rewrite E in *. split.
    + intros I. destruct (C127_inside os t self self W I) as [_ C]. congruence.
    + intros q C NC [->|F]; [|congruence]. apply children_child. exact C.
  - destruct (H eq_refl) as [NO|(a & C & NA)]; [exfalso; exact (NO r BR NR)|].
    assert (a = r) as ->.
    { destruct (NEAR a (below_child _ _ _ C) NA) as [X|X]; [exact X|]. exfalso.
      inversion BR as [? D|y ? B D]; subst.
      - pose proof (child_fun _ _ _ _ (proj1 W) C D) as ->. exact (below_irrefl _ _ W X).
      - pose proof (child_fun _ _ _ _ (proj1 W) C D) as ->. exact (below_irrefl _ _ W (below_trans _ _ _ _ X B)). }
    split.
    + intros I. apply (kill_windows _ _ _ (proj1 W)) in I as (c & C1 & _ & C2).
      pose proof (child_fun _ _ _ _ (proj1 W) C C2) as <-. exact (below_irrefl _ _ W (below_child _ _ _ C1)).
    + intros q CQ NC _. apply (kill_windows _ _ _ (proj1 W)). exists self. auto.
Qed.
Print Assumptions C127_spared_partial.

(** Exactly when the job process is signalled on Windows: if there is one process, which is not
    a console, between it and its launcher. *)
Theorem C127_hit : forall t self, proc_table t ->
  In self (kill_job_signals Windows t (get_pid "tomato-job.exe" Windows t self)) <->
  exists a c, named t a "tomato-job.exe" /\ child t a c /\ child t c self /\
    ~ named t c "tomato-job.exe" /\ ~ named t c "conhost.exe".
Proof.
  intros t self W. pose proof (C127_announced "tomato-job.exe" Windows t self W) as An. cbn zeta in An.
  set (r := get_pid "tomato-job.exe" Windows t self) in *. pose proof (proj1 W) as N.
  rewrite (kill_windows _ _ _ N). split.
  - intros (c & C1 & NC & C2).
    assert (B : below t r self) by (eapply below_more; [constructor; exact C1|exact C2]).
    destruct An as [[E _]|(_ & NR & _ & NEAR)]; [rewrite E in B; elim (below_irrefl _ _ W B)|].
    exists r, c. split; [exact NR|]. split; [exact C1|]. split; [exact C2|]. split; [|exact NC].
    intros X. apply (below_irrefl _ r W). destruct (NEAR c (below_child _ _ _ C2) X) as [<-|Y]; [constructor; exact C1|].
    eapply below_trans; [constructor; exact C1|exact Y].
  - intros (a & c & NA & C1 & C2 & NX & NC).
    assert (B : below t a self) by (eapply below_more; [constructor; exact C1|exact C2]).
    destruct An as [[_ [X|X]]|(_ & NR & BR & NEAR)]; [discriminate|elim (X a B NA)|].
    exists c. split; [|auto]. destruct (NEAR a B NA) as [<-|AR]; [exact C1|]. exfalso.
    inversion BR as [? D|y ? B' D]; subst.
    + rewrite (child_fun _ _ _ _ N C2 D) in NX. contradiction.
    + rewrite <- (child_fun _ _ _ _ N C2 D) in B'. inversion B' as [? D'|z ? B'' D']; subst.
      * rewrite (child_fun _ _ _ _ N C1 D') in AR. exact (below_irrefl _ _ W AR).
      * rewrite <- (child_fun _ _ _ _ N C1 D') in B''. exact (below_irrefl _ _ W (below_trans _ _ _ _ AR B'')).
Qed.
Print Assumptions C127_hit.

(** Killing a driver signals the process that runs it exactly if it announced itself, and nobody
    if there is no such process; in every case the function ends with an exception. *)
Theorem C127_driver_partial : forall os t self, proc_table t -> present t self ->
  (forall p, ~ present t p -> kill_driver_signals t p = ([], NoSuchProcess)) /\
  let r := get_pid "tomato-driver.exe" os t self in
  kill_driver_signals t r = ([r], TypeError) /\
  (In self (fst (kill_driver_signals t r)) <->
   os = Posix \/ forall a, below t a self -> ~ named t a "tomato-driver.exe").
Proof.
  intros os t self W P. split.
  { intros p NP. unfold kill_driver_signals. destruct (lookup t p) as [i|] eqn:L; [|reflexivity].
    exfalso. apply NP. apply (lookup_in _ _ _ (proj1 W)) in L as [I E]. unfold present. rewrite <- E. now apply in_map. }
  intros r. pose proof (C127_announced "tomato-driver.exe" os t self W) as An. cbn zeta in An. fold r in An.
  assert (PR : present t r).
  { destruct An as [[E _]|(_ & (i & I & E & _) & _)]; [rewrite E; exact P|]. unfold present. rewrite <- E. now apply in_map. }
  assert (K : kill_driver_signals t r = ([r], TypeError)).
  { unfold kill_driver_signals. unfold present in PR. apply in_map_iff in PR as (i & E & I).
    assert (L : lookup t r = Some i) by (apply lookup_in; [apply W|auto]). rewrite L. reflexivity. }
  split; [exact K|]. rewrite K. cbn. destruct An as [[E X]|(-> & NR & BR & NEAR)].
  - split; [auto|]. intros _. left. exact E.
  - split.
    + intros [E|[]]. exfalso. rewrite E in BR. exact (below_irrefl _ _ W BR).
    + intros [X|X]; [discriminate|]. exfalso. exact (X r BR NR).
Qed.
Print Assumptions C127_driver_partial.

(** On Windows, as the comment in the code describes it: the launcher 10 with the job process 11
    and a console 12; the job has started 13.  Beside it a second job, 20 with 21 and 23. *)
Definition exp_two : list pinfo :=
  [ mkPinfo 1 "tomato-daemon.exe" None; mkPinfo 10 "tomato-job.exe" (Some 1); mkPinfo 11 "python.exe" (Some 10);
    mkPinfo 12 "conhost.exe" (Some 10); mkPinfo 13 "python.exe" (Some 11); mkPinfo 14 "helper.exe" (Some 12);
    mkPinfo 20 "tomato-job.exe" (Some 1); mkPinfo 21 "python.exe" (Some 20); mkPinfo 23 "python.exe" (Some 21) ].
Lemma by_age : forall t, NoDup (map pi_pid t) ->
  forallb (fun i => match pi_parent i with Some p => Nat.ltb (Z.to_nat p) (Z.to_nat (pi_pid i)) | None => true end) t = true ->
  proc_table t.
Proof.
  intros t N H. split; [exact N|]. exists Z.to_nat. intros i p I P. rewrite forallb_forall in H. specialize (H i I).
  rewrite P in H. now apply PeanoNat.Nat.ltb_lt.
Qed.
Example C127_ex : proc_table exp_two /\
  get_pid "tomato-job.exe" Windows exp_two 11 = 10 /\ get_pid "tomato-job.exe" Windows exp_two 13 = 10 /\
  get_pid "tomato-job.exe" Posix exp_two 11 = 11 /\ get_pid "tomato-job.exe" Windows exp_two 1 = 1 /\
  kill_job_signals Windows exp_two 10 = [13] /\ kill_job_signals Windows exp_two 20 = [23] /\
  kill_job_signals Posix exp_two 11 = [13] /\ kill_job_signals Posix exp_two 10 = [11; 12] /\
  kill_driver_signals exp_two 99 = ([], NoSuchProcess).
Proof.
  split; [|repeat split].
  apply by_age; [|reflexivity]. cbn. repeat constructor; cbn; intuition discriminate.
Qed.

(** Where python.exe is itself a launcher, as in a virtual environment on Windows, the grandchild
    of tomato-job.exe is the job process, and cancelling signals it instead of its tasks.
    A driver below tomato-driver.exe is not signalled when it is to be killed. *)
Theorem C127_refuted :
  (exists t self, proc_table t /\ present t self /\
     kill_job_signals Windows t (get_pid "tomato-job.exe" Windows t self) = [self] /\
     exists q, child t self q) /\
  (exists t self, proc_table t /\ present t self /\
     ~ In self (fst (kill_driver_signals t (get_pid "tomato-driver.exe" Windows t self)))).
Proof.
  split.
  - exists [ mkPinfo 10 "tomato-job.exe" None; mkPinfo 11 "python.exe" (Some 10); mkPinfo 12 "python.exe" (Some 11);
             mkPinfo 13 "python.exe" (Some 12) ], 12.
    split; [apply by_age; [cbn; repeat constructor; cbn; intuition discriminate|reflexivity]|].
    split; [cbn; auto|]. split; [reflexivity|]. exists 13. eexists. split; [cbn; right; right; right; left; reflexivity|]. split; reflexivity.
  - exists [ mkPinfo 10 "tomato-driver.exe" None; mkPinfo 11 "python.exe" (Some 10) ], 11.
    split; [apply by_age; [cbn; repeat constructor; cbn; intuition discriminate|reflexivity]|].
    split; [cbn; auto|]. cbn. intuition discriminate.
Qed.
Print Assumptions C127_refuted.
