(** * DeviceProofs2: order of items and points, sampling, stopping, one-off measurements, reset *)
From Coq Require Import List ZArith Bool Lia Arith Sorted.
From Verif Require Import DeviceModel SpecDevice DeviceProofs.
Import ListNotations.
Open Scope Z_scope.

Lemma Idata_reach s : can_reach s -> Idata s.
Proof.
  apply reach_ind2; [|exact Idata_step].
  constructor; try reflexivity; try exact I; intros; discriminate.
Qed.

(** ** Facts about histories *)
Lemma lo_refl {A} (l : list A) : leaves_out l l.
Proof. induction l; constructor; assumption. Qed.
Lemma lo_app {A} (a b c d : list A) : leaves_out a b -> leaves_out c d -> leaves_out (a ++ c) (b ++ d).
Proof. induction 1; cbn; intros; [assumption|constructor; auto|constructor; auto]. Qed.
Lemma lo_nil_l {A} (l : list A) : leaves_out [] l.
Proof. induction l; constructor; assumption. Qed.
Lemma lo_trans {A} (a b c : list A) : leaves_out a b -> leaves_out b c -> leaves_out a c.
Proof.
  intros H H2; revert a H; induction H2; intros a0 H; [assumption|..].
  - inversion H; subst; constructor; auto.
  - constructor; auto.
Qed.
Lemma lo_in {A} (a b : list A) x : leaves_out a b -> In x a -> In x b.
Proof. induction 1; cbn; intuition. Qed.
Lemma lo_nodup {A} (a b : list A) : leaves_out a b -> NoDup b -> NoDup a.
Proof.
  induction 1; intros N; [constructor|..]; inversion N; subst; auto.
  constructor; [|auto]. intros Hin. apply H2. eapply lo_in; eauto.
Qed.

Lemma waiting_order l w :
  waiting l = Some w -> leaves_out (begun l ++ map q_id w) (accepted l).
Proof.
  revert w; induction l as [|e l IH]; intros w H.
  - injection H as <-. constructor.
  - destruct e; cbn [waiting begun accepted] in *; try (apply IH; exact H).
    + destruct (waiting l) as [w0|]; [|discriminate H]. injection H as <-.
      rewrite map_app, app_assoc. apply lo_app; [apply IH; reflexivity | apply lo_refl].
    + destruct (waiting l) as [[|i w0]|]; try discriminate H.
      destruct (Nat.eqb (q_id it) (q_id i)) eqn:E; [|discriminate H]. injection H as <-.
      apply Nat.eqb_eq in E. rewrite <- app_assoc. cbn [app]. rewrite E.
      exact (IH _ eq_refl).
    + destruct (waiting l) as [w0|]; [|discriminate H]. injection H as <-.
      cbn [map]. rewrite app_nil_r.
      eapply lo_trans; [|apply (IH _ eq_refl)].
      rewrite <- (app_nil_r (begun l)) at 1. apply lo_app; [apply lo_refl | apply lo_nil_l].
Qed.

Lemma busy_begun l it : busy l = Some (Some it) -> In (q_id it) (begun l).
Proof.
  induction l as [|e l IH]; cbn [busy begun]; intros H; [discriminate H|].
  destruct e; try (apply IH; exact H).
  - destruct (busy l) as [[i|]|]; try discriminate H. injection H as ->.
    apply in_or_app; right; left; reflexivity.
  - destruct (busy l) as [[i|]|]; try discriminate H.
    destruct (Nat.eqb _ _); discriminate H.
Qed.

(** ** Numbering *)
Lemma accepted_seq s : can_reach s -> accepted (d_log s) = seq 0 (d_items s).
Proof.
  revert s; apply reach_ind; [reflexivity|].
  intros m s s' I H; step_cases; devc; try exact I; rewrite I;
    rewrite seq_S; reflexivity.
Qed.

Lemma items_nodup s : can_reach s -> NoDup (begun (d_log s) ++ map q_id (d_queue s)).
Proof.
  intros R. eapply lo_nodup; [apply waiting_order, Iqueue_reach, R|].
  rewrite (accepted_seq _ R). apply seq_NoDup.
Qed.

(** Points: numbered in order. *)
Fixpoint once_points (l : list dev_event) : list nat :=
  match l with [] => [] | LOnce p :: r => once_points r ++ [p] | _ :: r => once_points r end.

Record Ipoints (s : dev) : Prop := mkIp {
  P_lt : Forall (fun p => (p < d_points s)%nat) (measured (d_log s));
  P_once : Forall (fun p => (p < d_points s)%nat) (once_points (d_log s));
  P_sorted : StronglySorted lt (measured (d_log s));
  P_apart : forall p, In p (once_points (d_log s)) -> ~ In p (measured (d_log s))
}.

Lemma sorted_snoc l x : StronglySorted lt l -> Forall (fun p => (p < x)%nat) l -> StronglySorted lt (l ++ [x]).
Proof.
  induction l as [|a l IH]; cbn; intros S F.
  - constructor; constructor.
  - inversion S; inversion F; subst. constructor; [auto|].
    apply Forall_app; split; [assumption|]. constructor; [assumption|constructor].
Qed.

Lemma Ipoints_step m s s' : Ipoints s -> dstep m s = Some s' -> Ipoints s'.
Proof.
  intros [A B C D] H. step_cases; constructor; devc; cbn [once_points] in *; auto.
  all: try (eapply Forall_impl; [|eassumption]; cbn; intros; lia).
  all: try (apply Forall_app; split; [eapply Forall_impl; [|eassumption]; cbn; intros; lia
                                     | constructor; [lia|constructor]]).
  - apply sorted_snoc; assumption.
  - intros p Hp Hq. apply in_app_or in Hq as [Hq|[<-|[]]]; [exact (D p Hp Hq)|].
    rewrite Forall_forall in B. specialize (B _ Hp). lia.
  - intros p Hp Hq. apply in_app_or in Hp as [Hp|[<-|[]]]; [exact (D p Hp Hq)|].
    rewrite Forall_forall in A. specialize (A _ Hq). lia.
Qed.

Lemma Ipoints_reach s : can_reach s -> Ipoints s.
Proof.
  apply reach_ind; [|intros; eapply Ipoints_step; eauto].
  constructor; cbn; constructor || (intros p []).
Qed.

Lemma sorted_nodup l : StronglySorted lt l -> NoDup l.
Proof.
  induction 1; constructor; [|assumption].
  intros Hin. rewrite Forall_forall in H0. specialize (H0 _ Hin). lia.
Qed.

Lemma measured_nodup s : can_reach s -> NoDup (measured (d_log s)).
Proof. intros R. apply sorted_nodup, P_sorted, Ipoints_reach, R. Qed.

(** Everything returned was measured, in that order, once. *)
Lemma returned_settled l : leaves_out (returned l) (settled l).
Proof.
  induction l as [|e l IH]; [constructor|].
  destruct e; cbn [returned settled]; try exact IH.
  - apply lo_app; [exact IH | apply lo_refl].
  - rewrite <- (app_nil_r (returned l)). apply lo_app; [exact IH | apply lo_nil_l].
  - rewrite <- (app_nil_r (returned l)). apply lo_app; [exact IH | apply lo_nil_l].
Qed.

Lemma returned_measured s : can_reach s -> leaves_out (returned (d_log s)) (measured (d_log s)).
Proof.
  intros R. rewrite (D_ledger _ (Idata_reach _ R)).
  rewrite <- (app_nil_r (returned _)). apply lo_app; [apply returned_settled | apply lo_nil_l].
Qed.

Lemma once_in l p : In (LOnce p) l <-> In p (once_points l).
Proof.
  induction l as [|e l IH]; [cbn; tauto|].
  destruct e; cbn [once_points In]; try (rewrite <- IH; split; [intros [E|E]; [discriminate E|exact E] | right; assumption]).
  rewrite in_app_iff, <- IH. cbn [In].
  split; [intros [E|E]; [injection E as ->; right; left; reflexivity | left; exact E]
         |intros [E|[<-|[]]]; [right; exact E | left; reflexivity]].
Qed.

Lemma once_not_returned s p :
  can_reach s -> In (LOnce p) (d_log s) -> ~ In p (measured (d_log s)) /\ ~ In p (returned (d_log s)).
Proof.
  intros R H. apply once_in in H.
  assert (N : ~ In p (measured (d_log s))) by (apply (P_apart _ (Ipoints_reach _ R)); exact H).
  split; [exact N|]. intros Hr. apply N. eapply lo_in; [apply returned_measured, R | exact Hr].
Qed.

(** ** Sampling *)
Definition lmeas_begun (l : list dev_event) : Prop :=
  forall it n t0 tn, In (LMeas it n t0 tn) l -> In (q_id it) (begun l).

Lemma lmeas_begun_reach s : can_reach s -> lmeas_begun (d_log s).
Proof.
  revert s; apply reach_ind2; [intros ? ? ? ? []|].
  intros m s s' R I H. pose proof (I_busy _ (Ictl_reach _ R)) as IB. unfold executing in IB.
  unfold lmeas_begun in *.
  step_cases; devc; intros it' n' t0' tn' Hin; cbn [In] in Hin;
    try (eapply I; exact Hin);
    try (destruct Hin as [Hin|Hin]; [discriminate Hin|]; try (eapply I; exact Hin);
         apply in_or_app; left; eapply I; exact Hin).
  destruct Hin as [Hin|Hin]; [|eapply I; exact Hin].
  injection Hin as <- <- <- <-. apply busy_begun. exact IB.
Qed.

Lemma count_zero l it :
  lmeas_begun l -> ~ In (q_id it) (begun l) -> count_meas it l = 0%nat.
Proof.
  intros H N.
  assert (G : forall l', (forall x, In x l' -> In x l) -> count_meas it l' = 0%nat).
  { induction l' as [|e l' IH]; intros S; [reflexivity|].
    destruct e; cbn [count_meas]; try (apply IH; intros; apply S; right; assumption).
    destruct (Nat.eqb (q_id it0) (q_id it)) eqn:E.
    - apply Nat.eqb_eq in E. exfalso. apply N. rewrite <- E.
      eapply H. apply S. left. reflexivity.
    - apply IH. intros; apply S; right; assumption. }
  apply G. auto.
Qed.

(** What the worker knows while it executes [it]. *)
Definition no_meas (l : list dev_event) (it : qitem) : Prop :=
  count_meas it l = 0%nat /\ forall n t0 tn, ~ In (LMeas it n t0 tn) l.
Definition so_far (l : list dev_event) (it : qitem) (t0 tp : Z) (n k : nat) (lim : Z -> Z -> Prop) : Prop :=
  exists si du, q_kind it = KTask si du /\ tp = t0 + Z.of_nat n * si
    /\ count_meas it l = k
    /\ forall n' t0' tn', In (LMeas it n' t0' tn') l -> t0' = t0 /\ lim du tn'.

Definition Wloop_ok (s : dev) : Prop :=
  let l := d_log s in
  match d_worker s with
  | WGot it | WClear it | WKind it => no_meas l it
  | WArm it | WStart it | WDrop it _ => no_meas l it /\ exists si du, q_kind it = KTask si du
  | WLoop it t0 tp n | WTime it t0 tp n => so_far l it t0 tp n n (fun du t => t - t0 <= du)
  | WDue it t0 tp n tn => so_far l it t0 tp n n (fun du t => t - t0 <= du)
  | WLock it t0 tp n tn => so_far l it t0 tp n n (fun du t => t - t0 <= du)
                           /\ (forall si du, q_kind it = KTask si du -> si < tn - tp)
  | WMeasure it t0 tp n tn | WAppend it t0 tp n tn | WUnlock it t0 tp n tn | WNext it t0 tp n tn =>
      so_far l it t0 tp n (S n) (fun du t => t - t0 <= du \/ t = tn)
  | WOver it t0 tp n tn => so_far l it t0 tp n n (fun du t => t - t0 <= du \/ t = tn)
  | _ => True
  end.

Lemma so_far_log l it t0 tp n k lim e :
  (forall i a b c, e <> LMeas i a b c) -> so_far l it t0 tp n k lim -> so_far (e :: l) it t0 tp n k lim.
Proof.
  intros N (si & du & A & B & C & D). exists si, du. split; [exact A|]. split; [exact B|]. split.
  - destruct e; cbn [count_meas]; try exact C. exfalso; eapply N; reflexivity.
  - intros n' t0' tn' [E|E]; [exfalso; eapply N; exact E | exact (D _ _ _ E)].
Qed.
Lemma no_meas_log l it e :
  (forall i a b c, e <> LMeas i a b c) -> no_meas l it -> no_meas (e :: l) it.
Proof.
  intros N [A B]. split.
  - destruct e; cbn [count_meas]; try exact A. exfalso; eapply N; reflexivity.
  - intros n' t0' tn' [E|E]; [eapply N; exact E | exact (B _ _ _ E)].
Qed.

Lemma wloop_main s s' :
  d_worker s' = d_worker s ->
  (d_log s' = d_log s \/ exists e, d_log s' = e :: d_log s /\ forall i a b c, e <> LMeas i a b c) ->
  Wloop_ok s -> Wloop_ok s'.
Proof.
  intros Ew [El|(e & El & Ne)] H; unfold Wloop_ok in *; rewrite Ew, El; [exact H|].
  destruct (d_worker s); try exact H;
    repeat match goal with
           | H : _ /\ _ |- _ => destruct H
           | |- _ /\ _ => split
           end; auto using so_far_log, no_meas_log.
Qed.

Lemma Wloop_step m s s' : can_reach s -> Wloop_ok s -> dstep m s = Some s' -> Wloop_ok s'.
Proof.
  intros R I H.
  pose proof (items_nodup _ R) as ND. pose proof (lmeas_begun_reach _ R) as LB.
  pose proof (I_reset _ (Ictl_reach _ R)) as IR.
  destruct m as [clock fails|a|]; cbn [dstep] in H.
  - unfold Wloop_ok in I. unfold wstep in H. destruct (d_worker s) eqn:Ew;
      repeat match type of H with
             | context [match ?x with _ => _ end] => destruct x eqn:?
             end; try discriminate H; injection H as <-;
      unfold Wloop_ok; devc; try exact I; try exact Logic.I.
    + (* get *) rewrite map_cons in ND.
      apply NoDup_remove_2 in ND.
      assert (N : ~ In (q_id q) (begun (d_log s))) by (intros Hin; apply ND, in_or_app; left; exact Hin).
      apply no_meas_log; [discriminate|]. split; [apply count_zero; assumption|].
      intros n t0 tn Hin. apply N. eapply LB; exact Hin.
    + apply no_meas_log; [discriminate | exact I].
    + split; [exact I|]. eauto.
    + apply so_far_log; [discriminate|].
      destruct I as ((A & B) & si & du & E). exists si, du. split; [exact E|]. split; [lia|].
      split; [exact A|]. intros n' t0' tn' Hin. exfalso; exact (B _ _ _ Hin).
    + apply so_far_log; [discriminate|].
      destruct I as ((A & B) & si & du & E). exists si, du. split; [exact E|]. split; [lia|].
      split; [exact A|]. intros n' t0' tn' Hin. exfalso; exact (B _ _ _ Hin).
    + split; [exact I|]. intros si du E.
      match goal with E1 : q_kind it = KTask _ _, E2 : (_ <? _) = true |- _ =>
        rewrite E in E1; injection E1 as <- <-; apply Z.ltb_lt in E2; exact E2 end.
    + destruct I as (si & du & A & B & C & D). exists si, du. split; [exact A|]. split; [exact B|].
      split; [exact C|]. intros n' t0' tn' Hin. destruct (D _ _ _ Hin). auto.
    + destruct I as ((si & du & A & B & C & D) & L). exists si, du. split; [exact A|]. split; [exact B|].
      split; [cbn [count_meas]; rewrite Nat.eqb_refl, C; reflexivity|].
      intros n' t0' tn' [E|Hin]; [injection E as <- <- <-; auto|]. destruct (D _ _ _ Hin). auto.
    + apply so_far_log; [discriminate | exact I].
    + destruct I as (si & du & A & B & C & D).
      match goal with E1 : q_kind it = KTask _ _ |- _ => rewrite A in E1; injection E1 as <- <- end.
      exists si, du. split; [exact A|]. split; [lia|]. split; [exact C|exact D].
    + destruct I as (si & du & A & B & C & D).
      match goal with E1 : q_kind it = KTask _ _ , E2 : (_ <? _) = false |- _ =>
        rewrite A in E1; injection E1 as <- <-; apply Z.ltb_ge in E2 end.
      exists si, du. split; [exact A|]. split; [exact B|]. split; [exact C|].
      intros n' t0' tn' Hin. destruct (D _ _ _ Hin) as [E1 [E2|E2]]; split; auto; lia.
  - unfold begin_request in H. destruct (d_main s); try discriminate H.
    injection H as <-.
    destruct a; try destruct (d_running s);
      (apply (wloop_main s); [reflexivity | devc | exact I]);
      try (left; reflexivity); right; eexists; split; try reflexivity; discriminate.
  - unfold mstep in H. destruct (d_main s) eqn:Em;
      repeat match type of H with
             | context [match ?x with _ => _ end] => destruct x eqn:?
             end; try discriminate H; injection H as <-;
    try (unfold Wloop_ok; devc; exact Logic.I);
    (apply (wloop_main s); [reflexivity | devc | exact I]);
      try (left; reflexivity); right; eexists; split; try reflexivity; discriminate.
Qed.

Lemma Wloop_reach s : can_reach s -> Wloop_ok s.
Proof. apply reach_ind2; [exact I | exact Wloop_step]. Qed.

Lemma sampled_reach s : can_reach s -> sampled (d_log s).
Proof.
  revert s; apply reach_ind2; [exact I|].
  intros m s s' R S H. pose proof (Wloop_reach _ R) as L. unfold Wloop_ok in L.
  step_cases; devc; try exact S.
  cbn [sampled]. destruct L as ((si & du & A & B & C & D) & T).
  split; [rewrite C; reflexivity|]. split; [|exact S].
  exists si, du. split; [exact A|]. split; [specialize (T _ _ A); lia|].
  exact D.
Qed.

(** ** After a stop *)

(** Steps the worker still needs when it has been told to stop, and measurements it can
    still begin. *)
Definition steps_left (w : wpc) : nat :=
  match w with
  | WFree _ => 1 | WStop _ => 2 | WLoop _ _ _ _ => 2 | WOver _ _ _ _ _ => 3 | WNext _ _ _ _ _ => 4
  | WUnlock _ _ _ _ _ => 5 | WAppend _ _ _ _ _ => 6 | WMeasure _ _ _ _ _ => 7 | WLock _ _ _ _ _ => 8
  | WDue _ _ _ _ _ => 9 | WTime _ _ _ _ => 10 | WDrop _ _ => 3 | WStart _ => 4
  | WFail _ => 2 | WQuit _ => 1 | _ => 0
  end.
Definition meas_left (w : wpc) : nat :=
  match w with WTime _ _ _ _ | WDue _ _ _ _ _ | WLock _ _ _ _ _ => 1 | _ => 0 end.
(** In the loop of [it], or on the way out of it. *)
Definition going (w : wpc) (it : qitem) : Prop :=
  match w with
  | WStart i | WDrop i _ | WLoop i _ _ _ | WTime i _ _ _ | WDue i _ _ _ _ | WLock i _ _ _ _
  | WMeasure i _ _ _ _ | WAppend i _ _ _ _ | WUnlock i _ _ _ _ | WNext i _ _ _ _
  | WOver i _ _ _ _ | WStop i | WFree i | WFail i | WQuit (Some i) => i = it
  | _ => False
  end.

Lemma going_step m s s' it :
  can_reach s -> d_run_task s = false -> going (d_worker s) it -> dstep m s = Some s' ->
  (In (LFinish it) (d_log s') /\ count_meas it (d_log s') = count_meas it (d_log s)
   /\ exists c f, m = Work c f)
  \/ (d_run_task s' = false /\ going (d_worker s') it
      /\ (meas_left (d_worker s') + count_meas it (d_log s') <= meas_left (d_worker s) + count_meas it (d_log s))%nat
      /\ (match m with Work _ _ => S (steps_left (d_worker s')) <= steps_left (d_worker s)
                     | _ => steps_left (d_worker s') <= steps_left (d_worker s) end)%nat).
Proof.
  intros R F G H. pose proof (I_reset _ (Ictl_reach _ R)) as IR.
  step_cases; devc; cbn [going] in G; try contradiction; subst;
  repeat match goal with E : d_worker s = _ |- _ => progress rewrite E in *
                    | E : d_main s = _ |- _ => progress rewrite E in * end; devc;
  try (rewrite F in *; discriminate);
  try (specialize (IR eq_refl); rewrite IR in G; cbn in G; contradiction);
  try (right; cbn [going steps_left meas_left count_meas]; rewrite ?Nat.eqb_refl; repeat split; auto; lia);
  try (destruct (d_last s); right; cbn [going steps_left meas_left count_meas]; repeat split; auto; lia);
  try (left; cbn [count_meas In]; repeat split; [left; reflexivity | eauto]).
Qed.
