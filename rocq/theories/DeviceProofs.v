(** * DeviceProofs: invariants of a component and its worker thread *)
From Coq Require Import List ZArith Bool Lia Arith Sorted.
From Verif Require Import DeviceModel SpecDevice.
Import ListNotations.
Open Scope Z_scope.

Lemma reach_ind (P : dev -> Prop) :
  P dev_new -> (forall m s s', P s -> dstep m s = Some s' -> P s') ->
  forall s, can_reach s -> P s.
Proof.
  intros H0 HS s [l Hl].
  assert (G : forall l s0, P s0 -> dsteps l s0 = Some s -> P s).
  { clear l Hl; induction l as [|m l IH]; cbn; intros s0 Hs0 E.
    - injection E as <-; exact Hs0.
    - destruct (dstep m s0) as [s1|] eqn:E1; [|discriminate E].
      exact (IH s1 (HS _ _ _ Hs0 E1) E). }
  exact (G l dev_new H0 Hl).
Qed.

Lemma dsteps_app l1 l2 s :
  dsteps (l1 ++ l2) s = match dsteps l1 s with Some s' => dsteps l2 s' | None => None end.
Proof.
  revert s; induction l1 as [|m l IH]; cbn; intros s; [reflexivity|].
  destruct (dstep m s); [apply IH | reflexivity].
Qed.

Lemma reach_steps s l s' : can_reach s -> dsteps l s = Some s' -> can_reach s'.
Proof.
  intros [l0 H0] H. exists (l0 ++ l). rewrite dsteps_app, H0. exact H.
Qed.

Lemma reach_step s m s' : can_reach s -> dstep m s = Some s' -> can_reach s'.
Proof. intros H E. apply (reach_steps s [m] s' H). cbn. rewrite E. reflexivity. Qed.

(** Case analysis of one step. *)
Ltac step_cases :=
  match goal with
  | H : dstep ?m ?s = Some _ |- _ =>
      destruct m as [clock fails|a|]; cbn [dstep] in H;
      [ unfold wstep in H; destruct (d_worker s) eqn:Ew
      | unfold begin_request in H; destruct (d_main s) eqn:Em; [destruct a|..]
      | unfold mstep in H; destruct (d_main s) eqn:Em ];
      repeat match type of H with
             | context [match ?x with _ => _ end] => destruct x eqn:?
             end;
      try discriminate H; injection H as <-
  end.

(** ** Queue discipline *)
Definition Iqueue (s : dev) : Prop := waiting (d_log s) = Some (d_queue s).

Lemma Iqueue_step m s s' : Iqueue s -> dstep m s = Some s' -> Iqueue s'.
Proof.
  unfold Iqueue. intros I H. step_cases;
    cbn [log set_worker set_main set_queue set_running set_data set_lock set_flags set_taken new_point put
         d_log d_queue waiting]; try rewrite I; try congruence; try reflexivity.
  rewrite Nat.eqb_refl; congruence.
Qed.

Lemma Iqueue_reach s : can_reach s -> Iqueue s.
Proof. apply reach_ind; [reflexivity|]. intros; eapply Iqueue_step; eauto. Qed.

(** ** One at a time; what the main thread knows about the worker *)
Definition resetting (m : mpc) : bool :=
  match m with MRun _ | MData _ | MNewLock _ | MQueue _ | MThread _ => true | _ => false end.
Definition shown (w : wpc) : option qitem :=
  match w with
  | WGot _ => None
  | _ => executing (mkD [] None [] None None true true w MIdle 0 0 false [])
  end.
Definition worker_holds (w : wpc) : bool :=
  match w with WMeasure _ _ _ _ _ | WAppend _ _ _ _ _ | WUnlock _ _ _ _ _ => true | _ => false end.
Definition main_holds (m : mpc) : bool :=
  match m with MRead | MClear _ | MUnlock _ => true | _ => false end.

Record Ictl (s : dev) : Prop := mkIctl {
  I_busy : busy (d_log s) = Some (executing s);
  I_shown : d_running s = shown (d_worker s);
  I_reset : resetting (d_main s) = true -> d_worker s = WEnd;
  I_lock : d_lock s = if worker_holds (d_worker s) then Some HWorker
                      else if main_holds (d_main s) then Some HMain else None;
  I_lockx : worker_holds (d_worker s) = true -> main_holds (d_main s) = false
}.

Ltac devc := cbn [log set_worker set_main set_queue set_running set_data set_lock set_flags set_taken new_point put
         d_log d_queue d_running d_data d_last d_lock d_run d_run_task d_worker d_main d_items d_points d_taken
         waiting busy executing shown worker_holds main_holds resetting begun accepted measured settled returned
         outstanding q_id q_kind] in *.

Lemma Ictl_step m s s' : Ictl s -> dstep m s = Some s' -> Ictl s'.
Proof.
  intros [IB IS IR IL IX] H.
  step_cases;
  repeat match goal with E : d_worker s = _ |- _ => progress (unfold executing in IB; rewrite E in *) 
                  | E : d_main s = _ |- _ => progress rewrite E in * end;
  (constructor; [unfold executing in *|..]; devc;
   repeat match goal with E : d_worker s = _ |- _ => progress rewrite E in * 
                  | E : d_main s = _ |- _ => progress rewrite E in * end; devc;
   try rewrite IB; try rewrite Nat.eqb_refl; try congruence; try (intros; congruence); auto).
  all: try (destruct (d_worker s); devc; congruence).
  all: try (destruct (d_main s); devc; try congruence; specialize (IR eq_refl); congruence).
  all: try (specialize (IR eq_refl); rewrite IR in *; devc; congruence).
  all: try (rewrite IX by reflexivity; reflexivity).
  destruct (worker_holds (d_worker s)); [discriminate (IX eq_refl) | reflexivity].
Qed.

Lemma Ictl_new : Ictl dev_new.
Proof. constructor; try reflexivity; discriminate. Qed.

Lemma Ictl_reach s : can_reach s -> Ictl s.
Proof. apply reach_ind; [exact Ictl_new|]. intros; eapply Ictl_step; eauto. Qed.

(** Invariants that may use the earlier ones. *)
Lemma reach_ind2 (P : dev -> Prop) :
  P dev_new -> (forall m s s', can_reach s -> P s -> dstep m s = Some s' -> P s') ->
  forall s, can_reach s -> P s.
Proof.
  intros H0 HS s H.
  enough (G : can_reach s /\ P s) by apply G.
  revert s H. apply reach_ind.
  - split; [exists []; reflexivity | exact H0].
  - intros m s s' [R I] E. split; [exact (reach_step _ _ _ R E) | exact (HS _ _ _ R I E)].
Qed.

(** ** The data *)
Record Idata (s : dev) : Prop := mkIdata {
  D_taken : d_taken s = match d_main s with MClear _ => true | _ => false end;
  D_clear : forall l, d_main s = MClear l -> d_data s = l \/ d_data s = [];
  D_unlock : forall l, d_main s = MUnlock l -> d_data s = [];
  D_last : match d_worker s with WAppend _ _ _ _ _ => d_last s <> None | _ => True end;
  D_ledger : measured (d_log s) = settled (d_log s) ++ outstanding s
}.

Lemma Idata_step m s s' : can_reach s -> Idata s -> dstep m s = Some s' -> Idata s'.
Proof.
  intros R [DT DC DU DL DD] H. destruct (Ictl_reach _ R) as [_ _ IR IL IX].
  unfold outstanding in DD.
  step_cases; (constructor; [| | | |unfold outstanding in *]); devc;
    repeat match goal with E : d_worker s = _ |- _ => progress rewrite E in * 
                  | E : d_main s = _ |- _ => progress rewrite E in * end; devc;
    try rewrite DT in *; try congruence; try exact I; try (intros; congruence); auto.
  all: try (rewrite DD; rewrite <- ?app_assoc; reflexivity).
  all: try (intros; edestruct DC; eauto; fail).
  all: try (specialize (IX eq_refl); destruct (d_main s); try discriminate IX; try (intros; congruence);
            cbn [app] in *; rewrite DD; rewrite <- ?app_assoc, ?app_nil_r; congruence).
  - destruct (d_main s); congruence.
  - destruct (d_main s) eqn:Em; cbn [app] in *; rewrite DD; rewrite ?app_nil_r, <- ?app_assoc; try congruence;
      match goal with H : d_taken s = true |- _ => rewrite H end; cbn; rewrite ?app_nil_r; reflexivity.
  - destruct (d_main s); congruence.
  - destruct (d_main s) eqn:Em; cbn [app] in *; try discriminate DT;
      repeat match goal with H : d_taken s = _ |- _ => rewrite H in * end;
      try (rewrite (DU _ eq_refl) in *);
      rewrite DD; cbn [app]; rewrite ?app_nil_r; try reflexivity.
  - intros l E. injection E as ->. left. reflexivity.
  - specialize (IR eq_refl). rewrite IR in *. rewrite DD. cbn. rewrite ?app_nil_r. reflexivity.
Qed.
