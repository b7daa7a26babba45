(** * DeviceProofs3: stopping, time limit, one-off measurements and reset *)
From Coq Require Import List ZArith Bool Lia Arith.
From Verif Require Import DeviceModel SpecDevice DeviceProofs DeviceProofs2.
Import ListNotations.
Open Scope Z_scope.

(** ** Finished items stay finished *)
Lemma busy_last l :
  match busy l with
  | Some (Some it) => exists b, begun l = b ++ [q_id it] /\ forall i, In (LFinish i) l -> In (q_id i) b
  | Some None => forall i, In (LFinish i) l -> In (q_id i) (begun l)
  | None => True
  end.
Proof.
  induction l as [|e l IH]; [intros i []|].
  destruct e; cbn [busy begun];
    try (destruct (busy l) as [[x|]|];
         [ destruct IH as (b & E & F); exists b; split; [exact E|]; intros i [X|X]; [discriminate X | exact (F _ X)]
         | intros i [X|X]; [discriminate X | exact (IH _ X)] | exact I]).
  - destruct (busy l) as [[x|]|]; try exact I.
    exists (begun l). split; [reflexivity|]. intros i [X|X]; [discriminate X | exact (IH _ X)].
  - destruct (busy l) as [[x|]|]; try exact I.
    destruct (Nat.eqb (q_id it) (q_id x)) eqn:E; [|exact I]. apply Nat.eqb_eq in E.
    destruct IH as (b & E2 & F). intros i [X|X].
    + injection X as <-. rewrite E2, E. apply in_or_app; right; left; reflexivity.
    + rewrite E2. apply in_or_app; left. exact (F _ X).
Qed.

Lemma begun_nodup s : can_reach s -> NoDup (begun (d_log s)).
Proof.
  intros R. pose proof (items_nodup _ R) as N. revert N. apply lo_nodup.
  rewrite <- (app_nil_r (begun _)) at 1. apply lo_app; [apply lo_refl | apply lo_nil_l].
Qed.

Lemma finished_not_executing s it i :
  can_reach s -> In (LFinish it) (d_log s) -> executing s = Some i -> q_id i <> q_id it.
Proof.
  intros R Hf E Hi. pose proof (I_busy _ (Ictl_reach _ R)) as B. rewrite E in B.
  pose proof (busy_last (d_log s)) as L. rewrite B in L. destruct L as (b & E2 & F).
  pose proof (begun_nodup _ R) as N. rewrite E2 in N.
  apply NoDup_remove_2 in N. rewrite app_nil_r in N. apply N. rewrite Hi. exact (F _ Hf).
Qed.

Lemma finished_step m s s' it :
  can_reach s -> In (LFinish it) (d_log s) -> dstep m s = Some s' ->
  In (LFinish it) (d_log s') /\ count_meas it (d_log s') = count_meas it (d_log s).
Proof.
  intros R Hf H. pose proof (finished_not_executing s it) as N. unfold executing in N.
  step_cases; devc; split; try exact Hf; try (right; exact Hf); try reflexivity.
  cbn [count_meas]. specialize (N it0 R Hf eq_refl).
  destruct (Nat.eqb (q_id it0) (q_id it)) eqn:E; [|reflexivity].
  apply Nat.eqb_eq in E. contradiction.
Qed.

Lemma finished_steps l : forall s s' it,
  can_reach s -> In (LFinish it) (d_log s) -> dsteps l s = Some s' ->
  In (LFinish it) (d_log s') /\ count_meas it (d_log s') = count_meas it (d_log s).
Proof.
  induction l as [|m l IH]; intros s s' it R Hf H; cbn [dsteps] in H.
  - injection H as <-. auto.
  - destruct (dstep m s) as [s1|] eqn:E; [|discriminate H].
    destruct (finished_step _ _ _ _ R Hf E) as [F1 C1].
    destruct (IH _ _ _ (reach_step _ _ _ R E) F1 H) as [F2 C2]. split; [exact F2 | lia].
Qed.

(** ** Stopping *)
Lemma stopped_steps l : forall s s' it,
  can_reach s -> d_run_task s = false -> going (d_worker s) it -> dsteps l s = Some s' ->
  (count_meas it (d_log s') <= meas_left (d_worker s) + count_meas it (d_log s))%nat
  /\ ((steps_left (d_worker s) <= work l)%nat -> In (LFinish it) (d_log s')).
Proof.
  induction l as [|m l IH]; intros s s' it R F G H; cbn [dsteps work] in H |- *.
  - injection H as <-. split; [lia|].
    intros Z. exfalso. destruct (d_worker s); cbn in G, Z; try contradiction; lia.
  - destruct (dstep m s) as [s1|] eqn:E; [|discriminate H].
    pose proof (reach_step _ _ _ R E) as R1.
    destruct (going_step _ _ _ _ R F G E) as [(Hf & C & _)|(F1 & G1 & C1 & L1)].
    + destruct (finished_steps _ _ _ _ R1 Hf H) as [F2 C2]. split; [lia | intros _; exact F2].
    + destruct (IH _ _ _ R1 F1 G1 H) as [A B]. split; [lia|].
      intros W. apply B. destruct m; lia.
Qed.

Lemma in_loop_going s it : in_loop s it -> going (d_worker s) it.
Proof. unfold in_loop. destruct (d_worker s); cbn; auto; contradiction. Qed.

Lemma steps_left_max w : (steps_left w <= 10)%nat.
Proof. destruct w; cbn; lia. Qed.

Lemma stop_in_loop s it s1 l s2 :
  can_reach s -> in_loop s it -> dstep (Ask AStop) s = Some s1 -> dsteps l s1 = Some s2 ->
  (count_meas it (d_log s2) <= S (count_meas it (d_log s)))%nat
  /\ ((10 <= work l)%nat -> In (LFinish it) (d_log s2)).
Proof.
  intros R G H1 H2. pose proof (reach_step _ _ _ R H1) as R1.
  assert (K : d_run_task s1 = false /\ d_worker s1 = d_worker s /\ count_meas it (d_log s1) = count_meas it (d_log s)).
  { cbn [dstep] in H1. unfold begin_request in H1. destruct (d_main s); try discriminate H1.
    injection H1 as <-. devc. auto. }
  destruct K as (F & W & C).
  pose proof (in_loop_going _ _ G) as G1. rewrite <- W in G1.
  destruct (stopped_steps _ _ _ _ R1 F G1 H2) as [A B]. split.
  - rewrite C in A. assert (meas_left (d_worker s1) <= 1)%nat by (destruct (d_worker s1); cbn; lia). lia.
  - intros L. apply B. pose proof (steps_left_max (d_worker s1)). lia.
Qed.

(** ... none at all unless the worker is between testing the flag and taking the lock. *)
Lemma stop_no_more s it s1 l s2 :
  can_reach s -> in_loop s it -> dstep (Ask AStop) s = Some s1 -> dsteps l s1 = Some s2 ->
  (match d_worker s with WTime _ _ _ _ | WDue _ _ _ _ _ | WLock _ _ _ _ _ => False | _ => True end) ->
  count_meas it (d_log s2) = count_meas it (d_log s).
Proof.
  intros R G H1 H2 Hw. pose proof (reach_step _ _ _ R H1) as R1.
  assert (K : d_run_task s1 = false /\ d_worker s1 = d_worker s /\ count_meas it (d_log s1) = count_meas it (d_log s)).
  { cbn [dstep] in H1. unfold begin_request in H1. destruct (d_main s); try discriminate H1.
    injection H1 as <-. devc. auto. }
  destruct K as (F & W & C).
  pose proof (in_loop_going _ _ G) as G1. rewrite <- W in G1.
  destruct (stopped_steps _ _ _ _ R1 F G1 H2) as [A _].
  assert (M : meas_left (d_worker s1) = 0%nat) by (rewrite W; destruct (d_worker s); cbn; auto; contradiction).
  assert (Mono : forall l s s', dsteps l s = Some s' -> (count_meas it (d_log s) <= count_meas it (d_log s'))%nat).
  { clear. induction l as [|m l IH]; cbn; intros s s' H; [injection H as <-; lia|].
    destruct (dstep m s) as [s1|] eqn:E; [|discriminate H]. specialize (IH _ _ H).
    assert (count_meas it (d_log s) <= count_meas it (d_log s1))%nat; [|lia].
    clear H IH. rename E into H. step_cases; devc; cbn [count_meas]; try lia.
    destruct (Nat.eqb _ _); lia. }
  specialize (Mono _ _ _ H2). lia.
Qed.

(** The worker is never stuck: it can step, or the lock is held by a request, which can. *)
Lemma worker_goes s c f it :
  can_reach s -> executing s = Some it ->
  (exists s', wstep c f s = Some s') \/ (d_lock s = Some HMain /\ exists s', mstep s = Some s').
Proof.
  intros R E. pose proof (Wloop_reach _ R) as L. pose proof (I_lock _ (Ictl_reach _ R)) as IL.
  unfold Wloop_ok, executing, so_far, wstep in *.
  destruct (d_worker s) eqn:Ew; try discriminate E; cbn [worker_holds] in IL;
    try (left; eexists; reflexivity);
    try (destruct f; left; eexists; reflexivity);
    try (destruct (q_kind _); [left; eexists; reflexivity | (left; eexists; reflexivity) || (destruct L as (? & ? & K & _); discriminate K)]).
  destruct (d_lock s) as [h|]; [|left; eexists; reflexivity].
  right. unfold mstep. destruct (d_main s); cbn in IL; try discriminate IL; injection IL as ->;
    (split; [reflexivity | eexists; reflexivity]).
Qed.

(** ** The time limit *)
Definition past (du t0 : Z) (w : wpc) (it : qitem) : Prop :=
  match w with
  | WDue i a _ _ tn | WLock i a _ _ tn | WMeasure i a _ _ tn | WAppend i a _ _ tn
  | WUnlock i a _ _ tn | WNext i a _ _ tn | WOver i a _ _ tn => i = it /\ a = t0 /\ du < tn - t0
  | WStop i | WFree i | WFail i | WQuit (Some i) => i = it
  | _ => False
  end.

Lemma past_step m s s' it si du t0 :
  can_reach s -> q_kind it = KTask si du -> past du t0 (d_worker s) it -> dstep m s = Some s' ->
  (In (LFinish it) (d_log s') /\ count_meas it (d_log s') = count_meas it (d_log s)
   /\ exists c f, m = Work c f)
  \/ (past du t0 (d_worker s') it
      /\ (meas_left (d_worker s') + count_meas it (d_log s') <= meas_left (d_worker s) + count_meas it (d_log s))%nat
      /\ (match m with Work _ _ => S (steps_left (d_worker s')) <= steps_left (d_worker s)
                     | _ => steps_left (d_worker s') <= steps_left (d_worker s) end)%nat).
Proof.
  intros R K G H. pose proof (I_reset _ (Ictl_reach _ R)) as IR.
  step_cases; devc; cbn [past] in G; try contradiction;
  repeat match goal with H : _ /\ _ |- _ => destruct H end; subst;
  repeat match goal with E : d_worker s = _ |- _ => progress rewrite E in *
                    | E : d_main s = _ |- _ => progress rewrite E in * end; devc;
  try (specialize (IR eq_refl); rewrite IR in G; cbn in G; contradiction);
  try (right; cbn [past steps_left meas_left count_meas]; rewrite ?Nat.eqb_refl; repeat split; auto; lia);
  try (destruct (d_last s); right; cbn [past steps_left meas_left count_meas]; repeat split; auto; lia);
  try (left; cbn [count_meas In]; repeat split; [left; reflexivity | eauto]).
  match goal with E1 : q_kind it = KTask _ _, E2 : q_kind it = KTask _ _ |- _ =>
    rewrite E1 in E2; injection E2 as -> -> end.
  match goal with E : (_ <? _) = false |- _ => apply Z.ltb_ge in E end. lia.
Qed.

Lemma past_steps l : forall s s' it si du t0,
  can_reach s -> q_kind it = KTask si du -> past du t0 (d_worker s) it -> dsteps l s = Some s' ->
  (count_meas it (d_log s') <= meas_left (d_worker s) + count_meas it (d_log s))%nat
  /\ ((steps_left (d_worker s) <= work l)%nat -> In (LFinish it) (d_log s')).
Proof.
  induction l as [|m l IH]; intros s s' it si du t0 R K G H; cbn [dsteps work] in H |- *.
  - injection H as <-. split; [lia|].
    intros Z. exfalso. destruct (d_worker s); cbn in G, Z; try contradiction; lia.
  - destruct (dstep m s) as [s1|] eqn:E; [|discriminate H].
    pose proof (reach_step _ _ _ R E) as R1.
    destruct (past_step _ _ _ _ _ _ _ R K G E) as [(Hf & C & _)|(G1 & C1 & L1)].
    + destruct (finished_steps _ _ _ _ R1 Hf H) as [F2 C2]. split; [lia | intros _; exact F2].
    + destruct (IH _ _ _ _ _ _ R1 K G1 H) as [A B]. split; [lia|].
      intros W. apply B. destruct m; lia.
Qed.

Lemma limit_ends s it t0 tp n tn si du l s' :
  can_reach s -> d_worker s = WDue it t0 tp n tn -> q_kind it = KTask si du -> du < tn - t0 ->
  dsteps l s = Some s' ->
  (count_meas it (d_log s') <= S (count_meas it (d_log s)))%nat
  /\ ((9 <= work l)%nat -> In (LFinish it) (d_log s')).
Proof.
  intros R W K D H.
  assert (G : past du t0 (d_worker s) it) by (rewrite W; cbn; auto).
  destruct (past_steps _ _ _ _ _ _ _ R K G H) as [A B]. rewrite W in A, B. cbn in A, B.
  split; [lia | exact B].
Qed.

(** ** One-off measurements *)
Lemma put_empty s : can_reach s -> d_main s = MPut -> d_queue s = [].
Proof.
  revert s. apply (reach_ind2 (fun s => d_main s = MPut -> d_queue s = [])); [discriminate|].
  intros m s s' R I H; step_cases; devc; intros E; try (apply I; congruence); try congruence; try reflexivity.
  specialize (I E). congruence.
Qed.

Lemma ask_shown s it :
  can_reach s -> (d_main s = MEmpty \/ d_main s = MPut) -> executing s = Some it ->
  d_worker s = WGot it \/ In (LShow it) (since_ask (d_log s)).
Proof.
  revert s. apply (reach_ind2 (fun s => (d_main s = MEmpty \/ d_main s = MPut) -> executing s = Some it ->
      d_worker s = WGot it \/ In (LShow it) (since_ask (d_log s)))).
  { intros [H|H]; discriminate H. }
  intros m s s' R I H. pose proof (I_shown _ (Ictl_reach _ R)) as SH. unfold executing in *.
  step_cases; devc; cbn [since_ask In]; intros M E; try discriminate E; try (destruct M; congruence);
    try (specialize (I M E); destruct I as [I|I]; [first [left; congruence | discriminate I] | right; auto; fail]);
    try (injection E as ->; auto; fail).
  all: try (left; destruct (d_worker s); cbn in *; congruence).
  all: try (destruct I as [I|I]; [auto|exact E|left; congruence|right; auto; fail]).
Qed.

Lemma once_keeps_data s it c f s' :
  can_reach s -> d_worker s = WOnce it -> wstep c f s = Some s' ->
  d_data s' = d_data s /\ measured (d_log s') = measured (d_log s)
  /\ settled (d_log s') = settled (d_log s) /\ returned (d_log s') = returned (d_log s).
Proof.
  intros R W H. unfold wstep in H. rewrite W in H.
  destruct f; injection H as <-; devc; auto.
Qed.

(** ** Reset *)
Lemma reset_stages s : can_reach s ->
  match d_main s with
  | MNewLock _ | MQueue _ => d_data s = []
  | MThread _ => d_queue s = [] /\ d_data s = []
  | _ => True
  end.
Proof.
  revert s. apply reach_ind2; [exact I|]. intros m s s' R J H.
  pose proof (I_reset _ (Ictl_reach _ R)) as IR.
  step_cases; devc; try exact J; try exact I; try (split; auto; fail); auto;
  try (destruct (d_main s); cbn in IR; try exact J; try exact I; try (specialize (IR eq_refl); discriminate IR)).
  all: discriminate Em.
Qed.

Lemma reset_idle s b s' :
  can_reach s -> d_main s = MThread b -> mstep s = Some s' ->
  idle_empty s' /\ d_run s' = b /\ d_main s' = MIdle /\ d_lock s' = None /\ outstanding s' = [].
Proof.
  intros R M H. pose proof (Ictl_reach _ R) as I.
  assert (W : d_worker s = WEnd) by (apply (I_reset _ I); rewrite M; reflexivity).
  assert (Q : d_queue s = [] /\ d_data s = []).
  { pose proof (reset_stages s R) as G. rewrite M in G. exact G. }
  destruct Q as [Q D].
  pose proof (I_shown _ I) as SH. rewrite W in SH. cbn in SH.
  pose proof (D_taken _ (Idata_reach _ R)) as T. rewrite M in T.
  pose proof (I_lock _ I) as IL. rewrite W, M in IL. cbn in IL.
  unfold mstep in H. rewrite M in H. injection H as <-.
  unfold idle_empty, executing, outstanding. devc. rewrite Q, D, T. auto 10.
Qed.

Lemma reset_accepts s s' si du c1 c2 :
  can_reach s -> d_main s = MThread true -> mstep s = Some s' ->
  exists s'', dsteps [Ask (AStart si du); Work c1 false; Work c2 false] s' = Some s''
    /\ executing s'' = Some (mkItem (d_items s) (KTask si du))
    /\ d_log s'' = [LBegin (mkItem (d_items s) (KTask si du)); LAccept (mkItem (d_items s) (KTask si du))] ++ d_log s'.
Proof.
  intros R M H. destruct (reset_idle _ _ _ R M H) as ((_ & Q & _ & _) & RN & MI & _).
  unfold mstep in H. rewrite M in H. injection H as <-. devc.
  destruct s; cbn in *. subst. cbn.
  eexists. split; [reflexivity|]. split; reflexivity.
Qed.

Definition rank (w : wpc) : nat :=
  match w with
  | WEnd => 0 | WQuit _ => 1 | WTop => 2 | WFree _ => 3 | WFail _ => 2 | WLoop _ _ _ _ => 4
  | WStop _ => 4 | WOver _ _ _ _ _ => 5 | WNext _ _ _ _ _ => 6 | WUnlock _ _ _ _ _ => 7
  | WAppend _ _ _ _ _ => 8 | WMeasure _ _ _ _ _ => 9 | WLock _ _ _ _ _ => 10 | WDue _ _ _ _ _ => 11
  | WTime _ _ _ _ => 12 | WDrop _ _ => 5 | WStart _ => 6 | WArm _ => 7 | WOnce _ => 4 | WKind _ => 8
  | WClear _ => 9 | WGot _ => 10 | WGet => 11
  end.

Lemma join_stops s b : can_reach s -> d_main s = MJoin b -> d_run s = false.
Proof.
  revert s. apply (reach_ind2 (fun s => d_main s = MJoin b -> d_run s = false)); [discriminate|].
  intros m s s' R I H; step_cases; devc; intros E; try (apply I; congruence); try congruence; try reflexivity; try (discriminate (I E)); exact (I E).
Qed.

Lemma join_bound l : forall s b s',
  can_reach s -> d_main s = MJoin b -> dsteps l s = Some s' -> d_main s' = MJoin b ->
  forallb (fun m => match m with Go => false | _ => true end) l = true ->
  (work l + rank (d_worker s') <= rank (d_worker s))%nat.
Proof.
  induction l as [|m l IH]; intros s b s' R M H M' G; cbn [dsteps work forallb] in H, G |- *.
  - injection H as <-. lia.
  - apply andb_prop in G as [G1 G].
    destruct (dstep m s) as [s1|] eqn:E; [|discriminate H].
    pose proof (reach_step _ _ _ R E) as R1.
    pose proof (join_stops _ _ R M) as F.
    destruct m as [c f|a|]; try discriminate G1; cbn [dstep] in E.
    + assert (M1 : d_main s1 = MJoin b /\ (rank (d_worker s1) < rank (d_worker s))%nat).
      { unfold wstep in E. rewrite F, ?andb_false_r in E. destruct (d_worker s);
        repeat match type of E with
             | context [match ?x with _ => _ end] => destruct x eqn:?
             end; try discriminate E; injection E as <-; devc; cbn [rank]; split; try exact M; lia. }
      destruct M1 as [M1 L1]. specialize (IH _ _ _ R1 M1 H M' G). lia.
    + unfold begin_request in E. rewrite M in E. discriminate E.
Qed.

Lemma rank_max w : (rank w <= 12)%nat.
Proof. destruct w; cbn; lia. Qed.

Lemma join_goes s b c f :
  can_reach s -> d_main s = MJoin b ->
  (d_worker s = WEnd /\ exists s', mstep s = Some s') \/ (exists s', wstep c f s = Some s').
Proof.
  intros R M. destruct (executing s) as [it|] eqn:E.
  - right. destruct (worker_goes s c f it R E) as [H|[L _]]; [exact H|].
    pose proof (I_lock _ (Ictl_reach _ R)) as IL. rewrite M, L in IL. cbn in IL.
    destruct (worker_holds (d_worker s)); discriminate IL.
  - unfold executing in E. unfold wstep, mstep. rewrite M.
    destruct (d_worker s); try discriminate E; try (right; eexists; reflexivity);
      try (destruct (d_queue s); right; eexists; reflexivity).
    left. split; [reflexivity | eexists; reflexivity].
Qed.

(** ** Components that are registered again *)
Lemma set_nth_forall {A} (P : A -> Prop) i a l : Forall P l -> P a -> Forall P (set_nth i a l).
Proof.
  intros F Pa; revert i; induction F; intros [|i]; cbn; constructor; auto.
Qed.

Lemma comp_objects l : forall c c',
  csteps l c = Some c' -> can_reach (c_now c) -> Forall can_reach (c_old c) ->
  can_reach (c_now c') /\ Forall can_reach (c_old c').
Proof.
  induction l as [|m l IH]; intros c c' H R F; cbn [csteps] in H.
  - injection H as <-. auto.
  - destruct (cstep m c) as [c1|] eqn:E; [|discriminate H].
    enough (K : can_reach (c_now c1) /\ Forall can_reach (c_old c1)) by (apply (IH c1 c' H); apply K).
    destruct m as [m|i t f|]; cbn [cstep] in E.
    + destruct (dstep m (c_now c)) as [d|] eqn:D; [|discriminate E]. injection E as <-.
      cbn. split; [exact (reach_step _ _ _ R D) | exact F].
    + destruct (nth_error (c_old c) i) as [d|] eqn:N; [|discriminate E].
      destruct (wstep t f d) as [d'|] eqn:W; [|discriminate E]. injection E as <-. cbn.
      split; [exact R|]. apply set_nth_forall; [exact F|].
      rewrite Forall_forall in F. apply (reach_step d (Work t f)); [|exact W].
      apply F. eapply nth_error_In; exact N.
    + destruct (d_main (c_now c)); try discriminate E. injection E as <-. cbn.
      split; [exists []; reflexivity|]. apply Forall_app; split; [exact F|]. constructor; [exact R|constructor].
Qed.

(** ** Schedules used as examples *)
Definition W (t : Z) : move := Work t false.
(** A task taken from the queue and brought into its loop (from a fresh worker). *)
Definition to_loop (t : Z) : list move := [W t; W t; W t; W t; W t; W t; W t; W t].
(** One turn of the loop in which a measurement is made. *)
Definition turn (t : Z) : list move := [W t; W t; W t; W t; W t; W t; W t; W t; W t].
