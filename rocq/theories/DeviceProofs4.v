(** * DeviceProofs4: is an accepted task executed? (C87) *)
From Coq Require Import List ZArith Bool Lia Arith.
From Verif Require Import DeviceModel SpecDevice DeviceProofs DeviceProofs2 DeviceProofs3.
Import ListNotations.
Open Scope Z_scope.

(** ** A worker that has ended *)
Definition not_resetting (m : mpc) : bool :=
  match m with
  | MJoin _ | MRun _ | MData _ | MNewLock _ | MQueue _ | MThread _ => false
  | _ => true
  end.

Definition dead_from (s0 s : dev) : Prop :=
  d_worker s = WEnd /\ not_resetting (d_main s) = true /\ d_running s = None /\
  exists new, d_log s = new ++ d_log s0 /\
    (forall it, ~ In (LBegin it) new) /\ (forall p, ~ In (LPoint p) new) /\ (forall p, ~ In (LOnce p) new) /\
    ~ In (LStatus true) new.

Lemma dead_step s0 s m s' : dead_from s0 s -> (forall b, m <> Ask (AReset b)) ->
  dstep m s = Some s' -> dead_from s0 s'.
Proof.
  intros (W & N & R & new & L & F1 & F2 & F3 & F4) NR H.
  unfold dead_from. step_cases; try congruence; try discriminate N;
    try (exfalso; eapply NR; reflexivity); devc; rewrite ?W, ?R, ?Em; repeat split; auto;
    first [ exists new; repeat split; assumption
          | match goal with |- exists _, ?e :: _ = _ /\ _ => exists (e :: new) end;
            split; [cbn [app]; congruence|]; repeat split; try (intros x [X|X]; [discriminate X|]; eauto);
            try (intros [X|X]; [discriminate X|]; eauto) ].
  all: try (eapply F1; eassumption); try (eapply F2; eassumption); try (eapply F3; eassumption).
Qed.

Lemma dead_steps s0 l : forall s s', dead_from s0 s -> no_reset l -> dsteps l s = Some s' -> dead_from s0 s'.
Proof.
  induction l as [|m l IH]; intros s s' D N H; cbn in H.
  - injection H as <-. exact D.
  - destruct (dstep m s) as [s1|] eqn:E; [|discriminate H].
    apply (IH s1 s'); [|intros b I; apply (N b); right; exact I | exact H].
    apply (dead_step s0 s m s1 D); [|exact E]. intros b ->. apply (N b). left. reflexivity.
Qed.

Lemma dead_now s : can_reach s -> d_worker s = WEnd -> not_resetting (d_main s) = true -> dead_from s s.
Proof.
  intros R W N. pose proof (I_shown _ (Ictl_reach _ R)) as S. rewrite W in S.
  repeat split; auto. exists []. repeat split; intuition.
Qed.

(** ** A worker that is alive *)
Definition alive (w : wpc) : bool :=
  match w with WFail _ | WQuit _ | WEnd => false | _ => true end.

Definition Ialive (s : dev) : Prop :=
  match d_main s with
  | MJoin b | MRun b | MData b | MNewLock b | MQueue b | MThread b => b = true
  | _ => d_run s = true /\ alive (d_worker s) = true
  end.

Lemma alive_step m s s' : Ialive s -> (forall c, m <> Work c true) -> m <> Ask (AReset false) ->
  dstep m s = Some s' -> Ialive s'.
Proof.
  unfold Ialive. intros I NF NR H.
  step_cases; devc; rewrite ?Ew, ?Em in *; devc; cbn [alive] in *;
    try (exfalso; eapply NF; reflexivity);
    try (destruct (d_main s); try exact I; destruct I; try congruence; split; auto; fail).
  all: try (destruct I as [I1 I2]; split; auto; fail).
  all: try (subst; split; reflexivity).
  all: try exact I.
  all: try (match goal with b : bool |- _ => destruct b; [reflexivity | exfalso; apply NR; reflexivity] end).
Qed.

Lemma alive_steps l : forall s s', Ialive s -> calm l -> dsteps l s = Some s' -> Ialive s'.
Proof.
  induction l as [|m l IH]; intros s s' D [N1 N2] H; cbn in H.
  - injection H as <-. exact D.
  - destruct (dstep m s) as [s1|] eqn:E; [|discriminate H].
    apply (IH s1 s'); [|split; [intros c I; apply (N1 c)|intros I; apply N2]; right; exact I | exact H].
    apply (alive_step m s s1 D); [intros c ->; apply (N1 c)|intros ->; apply N2|exact E]; left; reflexivity.
Qed.

(** ** The worker, left alone, gets to the first waiting item *)
Definition takes_next (s : dev) (it : qitem) : Prop :=
  exists l s', worker_only l /\ dsteps l s = Some s' /\ hd_error (d_log s') = Some (LBegin it).

Lemma takes_step s c s1 it : wstep c false s = Some s1 -> takes_next s1 it -> takes_next s it.
Proof.
  intros E (l & s' & O & H & L). exists (Work c false :: l), s'.
  split; [intros m [<-|I]; [eexists; reflexivity | exact (O m I)]|].
  split; [cbn; rewrite E; exact H | exact L].
Qed.

Definition ready (s : dev) (it : qitem) (q : list qitem) : Prop :=
  can_reach s /\ d_main s = MIdle /\ d_run s = true /\ d_queue s = it :: q.

Lemma ready_lock s it q : ready s it q -> worker_holds (d_worker s) = false -> d_lock s = None.
Proof.
  intros (R & M & _) H. pose proof (I_lock _ (Ictl_reach _ R)) as L. rewrite H, M in L. exact L.
Qed.

Lemma ready_step s it q c s1 : ready s it q -> d_worker s <> WGet -> alive (d_worker s) = true ->
  wstep c false s = Some s1 -> ready s1 it q.
Proof.
  intros (R & M & D & Q) W A H. split; [exact (reach_step s (Work c false) s1 R H)|].
  unfold wstep in H. destruct (d_worker s); cbn in A; try discriminate A; try congruence;
    repeat match type of H with context [match ?x with _ => _ end] => destruct x eqn:? end;
    try discriminate H; injection H as <-; devc; auto; discriminate D.
Qed.

Ltac one c := match goal with
  | Rd : ready ?s ?it ?q, E : d_worker ?s = _ |- takes_next ?s ?it =>
      let s1 := fresh "s" in let H := fresh "H" in
      destruct (wstep c false s) as [s1|] eqn:H;
      [ apply (takes_step s c s1 it H);
        assert (ready s1 it q) by
          (apply (ready_step s it q c s1 Rd); [rewrite E; discriminate|rewrite E; reflexivity|exact H]);
        unfold wstep in H; rewrite E in H
      | exfalso; unfold wstep in H; rewrite E in H ]
  end.

Lemma take_get s it q : ready s it q -> d_worker s = WGet -> takes_next s it.
Proof.
  intros (R & M & D & Q) E. exists [Work 0 false]. eexists.
  split; [intros m [<-|[]]; eexists; reflexivity|].
  cbn [dsteps dstep]. unfold wstep. rewrite E, Q. split; reflexivity.
Qed.
Lemma take_top s it q : ready s it q -> d_worker s = WTop -> takes_next s it.
Proof.
  intros Rd E. one 0; try discriminate. destruct Rd as (_ & _ & D & _). rewrite D in H.
  injection H as <-. eapply take_get; eauto.
Qed.
Lemma take_free s it q i : ready s it q -> d_worker s = WFree i -> takes_next s it.
Proof. intros Rd E. one 0; try discriminate. injection H as <-. eapply take_top; eauto; try reflexivity. Qed.
Lemma take_stop s it q i : ready s it q -> d_worker s = WStop i -> takes_next s it.
Proof. intros Rd E. one 0; try discriminate. injection H as <-. eapply take_free; eauto; try reflexivity. Qed.

(** The rest of a turn of the loop, given what comes after its last test. *)
Lemma take_turn s it q i si du t0 tp n tn :
  ready s it q -> q_kind i = KTask si du ->
  d_worker s = WDue i t0 tp n tn \/ d_worker s = WLock i t0 tp n tn \/ d_worker s = WMeasure i t0 tp n tn \/
  d_worker s = WAppend i t0 tp n tn \/ d_worker s = WUnlock i t0 tp n tn \/ d_worker s = WNext i t0 tp n tn \/
  d_worker s = WOver i t0 tp n tn ->
  (forall s' tp' n', ready s' it q -> d_worker s' = WOver i t0 tp' n' tn -> takes_next s' it) ->
  takes_next s it.
Proof.
  intros Rd K W Over.
  assert (HN : forall s, ready s it q -> d_worker s = WNext i t0 tp n tn -> takes_next s it).
  { clear s Rd W. intros s Rd E. one 0; rewrite K in H; try discriminate. injection H as <-. eapply Over; eauto; reflexivity. }
  assert (HU : forall s, ready s it q -> d_worker s = WUnlock i t0 tp n tn -> takes_next s it).
  { clear s Rd W. intros s Rd E. one 0; try discriminate. injection H as <-. eapply HN; eauto; try reflexivity. }
  assert (HA : forall s, ready s it q -> d_worker s = WAppend i t0 tp n tn -> takes_next s it).
  { clear s Rd W. intros s Rd E. one 0; try discriminate. injection H as <-. eapply HU; eauto; try reflexivity. }
  assert (HM : forall s, ready s it q -> d_worker s = WMeasure i t0 tp n tn -> takes_next s it).
  { clear s Rd W. intros s Rd E. one 0; try discriminate. injection H as <-. eapply HA; eauto; try reflexivity. }
  assert (HL : forall s, ready s it q -> d_worker s = WLock i t0 tp n tn -> takes_next s it).
  { clear s Rd W. intros s Rd E. assert (L : d_lock s = None) by (eapply ready_lock; eauto; rewrite E; reflexivity).
    one 0; rewrite L in H; try discriminate. injection H as <-. eapply HM; eauto; try reflexivity. }
  destruct W as [E|[E|[E|[E|[E|[E|E]]]]]]; eauto.
  one 0; rewrite K in H; try discriminate.
  injection H as <-. destruct (si <? tn - tp); [eapply HL | eapply Over]; eauto; try reflexivity.
Qed.

(** In the loop: one more reading of the clock, past the end, is enough. *)
Lemma take_loop s it q i si du t0 tp n : ready s it q -> q_kind i = KTask si du ->
  d_worker s = WLoop i t0 tp n \/ d_worker s = WTime i t0 tp n -> takes_next s it.
Proof.
  intros Rd K W.
  assert (HT : forall s, ready s it q -> d_worker s = WTime i t0 tp n -> takes_next s it).
  { clear s Rd W. intros s Rd E. one (t0 + du + 1); try discriminate. injection H as <-.
    apply (take_turn _ it q i si du t0 tp n (t0 + du + 1) H0 K (or_introl eq_refl)).
    intros s' tp' n' Rd' E'. clear dependent s. one 0; rewrite K in H; try discriminate. injection H as <-.
    eapply take_stop; eauto. cbn. destruct (du <? t0 + du + 1 - t0) eqn:X; [reflexivity|].
    apply Z.ltb_ge in X. lia. }
  destruct W as [E|E]; eauto.
  one 0; try discriminate. injection H as <-.
  destruct (d_run_task s && d_run s); [eapply HT | eapply take_free]; eauto; try reflexivity.
Qed.

Lemma take_stale s it q i si du t0 tp n tn : ready s it q -> q_kind i = KTask si du ->
  d_worker s = WDue i t0 tp n tn \/ d_worker s = WLock i t0 tp n tn \/ d_worker s = WMeasure i t0 tp n tn \/
  d_worker s = WAppend i t0 tp n tn \/ d_worker s = WUnlock i t0 tp n tn \/ d_worker s = WNext i t0 tp n tn \/
  d_worker s = WOver i t0 tp n tn -> takes_next s it.
Proof.
  intros Rd K W. apply (take_turn s it q i si du t0 tp n tn Rd K W).
  clear s Rd W. intros s tp' n' Rd E. one 0; rewrite K in H; try discriminate. injection H as <-.
  destruct (du <? tn - t0); [eapply take_stop | eapply take_loop]; eauto; try reflexivity; left; reflexivity.
Qed.

Lemma take_once s it q i : ready s it q -> d_worker s = WOnce i -> takes_next s it.
Proof. intros Rd E. one 0; try discriminate. injection H as <-. eapply take_free; eauto; try reflexivity. Qed.

Lemma take_drop s it q i si du t0 : ready s it q -> q_kind i = KTask si du -> d_worker s = WDrop i t0 ->
  takes_next s it.
Proof. intros Rd K E. one 0; try discriminate. injection H as <-. eapply take_loop; eauto; try reflexivity; left; reflexivity. Qed.
Lemma take_start s it q i si du : ready s it q -> q_kind i = KTask si du -> d_worker s = WStart i -> takes_next s it.
Proof. intros Rd K E. one 0; try discriminate. injection H as <-. eapply take_drop; eauto; try reflexivity. Qed.
Lemma take_arm s it q i si du : ready s it q -> q_kind i = KTask si du -> d_worker s = WArm i -> takes_next s it.
Proof. intros Rd K E. one 0; try discriminate. injection H as <-. eapply take_start; eauto; try reflexivity. Qed.
Lemma take_kind s it q i : ready s it q -> d_worker s = WKind i -> takes_next s it.
Proof.
  intros Rd E. destruct (q_kind i) as [si du|] eqn:K; one 0; rewrite K in H; try discriminate; injection H as <-;
    [eapply take_arm | eapply take_once]; eauto; try reflexivity.
Qed.
Lemma take_clear s it q i : ready s it q -> d_worker s = WClear i -> takes_next s it.
Proof. intros Rd E. one 0; try discriminate. injection H as <-. eapply take_kind; eauto; try reflexivity. Qed.
Lemma take_got s it q i : ready s it q -> d_worker s = WGot i -> takes_next s it.
Proof. intros Rd E. one 0; try discriminate. injection H as <-. eapply take_clear; eauto; try reflexivity. Qed.

Lemma take_any s it q : ready s it q -> alive (d_worker s) = true -> takes_next s it.
Proof.
  intros Rd A. pose proof (Wloop_reach _ (proj1 Rd)) as L. unfold Wloop_ok in L.
  destruct (d_worker s) eqn:E; cbn in A; try discriminate A.
  1: eapply take_top; eauto.
  1: eapply take_get; eauto.
  1: eapply take_got; eauto.
  1: eapply take_clear; eauto.
  1: eapply take_kind; eauto.
  1: destruct L as (_ & si & du & K); eapply take_arm; eauto.
  1: destruct L as (_ & si & du & K); eapply take_start; eauto.
  1: destruct L as (_ & si & du & K); eapply take_drop; eauto.
  1, 2: destruct L as (si & du & K & _); eapply take_loop; eauto.
  2: destruct L as [L _].
  1-7: destruct L as (si & du & K & _); eapply take_stale; eauto; rewrite E; tauto.
  1: eapply take_stop; eauto.
  1: eapply take_once; eauto.
  eapply take_free; eauto.
Qed.

Lemma calm_takes l s it q : calm l -> dsteps l dev_new = Some s -> d_main s = MIdle -> d_queue s = it :: q ->
  takes_next s it.
Proof.
  intros C H M Q. pose proof (alive_steps l dev_new s (conj eq_refl eq_refl) C H) as A. unfold Ialive in A.
  rewrite M in A. destruct A as [D A]. apply (take_any s it q); [|exact A].
  repeat split; auto. exists l. exact H.
Qed.
