(** * RunProofs: a job's worker and its component (C93) *)
From Coq Require Import List String ZArith Bool Lia Arith.
From Verif Require Import Base Types Prog ProgFacts JobThreadModel DeviceModel SpecDevice DeviceProofs DeviceProofs2
  RunModel SpecRun.
Import ListNotations.
Open Scope prog_scope.
Open Scope Z_scope.

(** ** What is received is stored next *)
Fixpoint keeps {A : Type} (held : list nat) (p : jpgm A) : Prop :=
  match p with
  | Op o k => (match o with JStore d => d = held | _ => held = [] end) /\
              forall r, keeps (received [Ev o r]) (k r)
  | _ => held = []
  end.
Lemma keeps_bind {A B} (p : jpgm A) (f : A -> jpgm B) : forall h,
  keeps h p -> (forall a, keeps [] (f a)) -> keeps h (bind p f).
Proof.
  induction p as [a|e|o k IH]; intros h H Hf; cbn in *.
  - subst h. apply Hf.
  - exact H.
  - destruct H as [H1 H2]. split; [exact H1|]. intros r. apply IH; auto.
Qed.
Lemma keeps_act o : (match o with JData | JStop | JStore _ => False | _ => True end) -> keeps [] (jact o).
Proof.
  intros Ho. cbn. split; [destruct o; auto; contradiction|].
  intros [a|e]; destruct o; try contradiction; reflexivity.
Qed.
Lemma keeps_crash {A} : keeps [] (crash : jpgm A).
Proof. apply keeps_bind; [apply keeps_act; exact I|]. intros. reflexivity. Qed.
Lemma keeps_data {A} (f : dans -> jpgm A) :
  (forall d, keeps (match d with DData l => l | _ => [] end) (f d)) -> keeps [] (bind (jact JData) f).
Proof. intros Hf. cbn. split; [reflexivity|]. intros [d|e]; cbn; auto. Qed.
Lemma keeps_stop {A} (f : dans -> jpgm A) :
  (forall d, keeps (match d with DData l => l | _ => [] end) (f d)) -> keeps [] (bind (jact JStop) f).
Proof. intros Hf. cbn. split; [reflexivity|]. intros [d|e]; cbn; auto. Qed.
Lemma keeps_store d : keeps (match d with DData l => l | _ => [] end) (store d).
Proof.
  destruct d; cbn; auto; try apply keeps_crash. split; [reflexivity|]. intros [a|e]; reflexivity.
Qed.

Ltac kstep :=
  lazymatch goal with
  | |- keeps [] (bind (jact JData) _) => apply keeps_data; intros
  | |- keeps [] (bind (jact JStop) _) => apply keeps_stop; intros
  | |- keeps _ (store _) => apply keeps_store
  | |- keeps _ (bind _ _) => apply keeps_bind; [|intros]
  | |- keeps [] (jact _) => apply keeps_act; exact I
  | |- keeps [] crash => apply keeps_crash
  | |- keeps [] (Ret _) => reflexivity
  | |- keeps [] (Raise _) => reflexivity
  | |- keeps [] (match ?x with _ => _ end) => destruct x
  end.
Ltac keep := repeat (kstep; cbv beta zeta).
Lemma keeps_start f t : keeps [] (wait_start f t).
Proof. induction f as [|f IH]; cbn [wait_start]; keep; auto. Qed.
Lemma keeps_ready f : keeps [] (wait_ready f).
Proof. induction f as [|f IH]; cbn [wait_ready]; keep; auto. Qed.
Lemma keeps_running f t0 : keeps [] (wait_running f t0).
Proof. induction f as [|f IH]; cbn [wait_running]; keep; auto. Qed.
Lemma keeps_loop f pr t : forall tp, keeps [] (task_loop f pr t tp).
Proof. induction f as [|f IH]; intros tp; cbn [task_loop]; keep; auto. Qed.
Lemma keeps_one f pr c t : keeps [] (one_task f pr c t).
Proof.
  unfold one_task. keep; auto using keeps_start, keeps_ready, keeps_running, keeps_loop.
Qed.
Lemma keeps_forP {S A} (g : S -> A -> jpgm S) l : (forall s a, keeps [] (g s a)) -> forall s, keeps [] (forP g s l).
Proof. intros H. induction l as [|a l IH]; intros s; cbn [forP]; [reflexivity|]. apply keeps_bind; auto. Qed.
Lemma keeps_job f pr ts : keeps [] (job_thread f pr ts).
Proof. unfold job_thread. keep; auto. apply keeps_forP. intros. apply keeps_one. Qed.

(** ** Order *)
Definition given (m : move) (d : dev) : list nat :=
  match m, d_main d with Go, MUnlock l => l | _, _ => [] end.
Lemma dev_returned m d d' : dstep m d = Some d' -> returned (d_log d') = returned (d_log d) ++ given m d.
Proof.
  intros H. unfold given. step_cases; cbn; rewrite ?app_nil_r; auto;
    repeat match goal with E : d_main _ = _ |- _ => rewrite E end; cbn; rewrite ?app_nil_r; auto.
Qed.
Definition Iorder (s : rsys) : Prop :=
  can_reach (r_dev s) /\ keeps (received (r_hist s)) (r_pgm s) /\
  leaves_out (r_stored s ++ received (r_hist s)) (returned (d_log (r_dev s))).

Lemma lo_more {A} (a b c : list A) : leaves_out a b -> leaves_out a (b ++ c).
Proof. intros H. rewrite <- (app_nil_r a). apply lo_app; [exact H|apply lo_nil_l]. Qed.
Lemma dev_order m s d' : Iorder s -> dstep m (r_dev s) = Some d' -> Iorder (with_dev s d').
Proof.
  intros (R & K & L) H. split; [eapply reach_step; eauto|]. split; [exact K|]. cbn.
  rewrite (dev_returned _ _ _ H). apply lo_more. exact L.
Qed.
(** An operation that hands over nothing. *)
Lemma done_order s d o k r cur sent : Iorder s -> r_pgm s = Op o k -> can_reach d ->
  returned (d_log d) = returned (d_log (r_dev s)) ->
  (forall l, o <> JStore l) -> received [Ev o r] = [] ->
  Iorder (done_op s d cur sent (r_stored s) o k r).
Proof.
  intros (R & K & L) Hp Rd E Ho Hr. rewrite Hp in K. destruct K as [K1 K2].
  assert (H0 : received (r_hist s) = []) by (destruct o; auto; contradiction (Ho d0 eq_refl)).
  rewrite H0, app_nil_r in L. split; [exact Rd|]. split; [apply K2|]. cbn [done_op r_stored r_hist r_dev].
  change (received (Ev o r :: r_hist s)) with (received [Ev o r]). rewrite Hr, app_nil_r, E. exact L.
Qed.
Lemma order_step same l s s' : Iorder s -> rstep same l s = Some s' -> Iorder s'.
Proof.
  intros I H. destruct l as [c f|a| |c n b|]; cbn [rstep] in H.
  - destruct (wstep c f (r_dev s)) as [d|] eqn:E; inversion H. apply (dev_order (Work c f)); auto.
  - destruct (r_wait s); [discriminate|]. destruct (begin_request a (r_dev s)) as [d|] eqn:E; inversion H.
    apply (dev_order (Ask a)); auto.
  - destruct (mstep (r_dev s)) as [d|] eqn:E; [|discriminate]. cbn [option_map] in H.
    pose proof (dev_order Go s d I E) as I'. destruct (r_wait s) eqn:Ew; inversion H; clear H; [|exact I'].
    subst s'. unfold answer. cbn [with_dev r_pgm].
    destruct (r_pgm s) as [a|e|o k] eqn:Ep; try exact I'.
    assert (G : forall l, d_main (r_dev s) = MUnlock l -> returned (d_log d) = returned (d_log (r_dev s)) ++ l).
    { intros l El. pose proof (dev_returned Go _ _ E) as X. unfold given in X. rewrite El in X. exact X. }
    assert (F : forall l, d_main (r_dev s) = MUnlock l -> o = JData \/ o = JStop ->
       leaves_out (r_stored s ++ l) (returned (d_log d))).
    { intros l El Ho. rewrite (G l El). destruct I as (_ & K & L). rewrite Ep in K. destruct K as [K1 _].
      assert (H0 : received (r_hist s) = []) by (destruct Ho as [-> | ->]; exact K1).
      rewrite H0, app_nil_r in L. apply lo_app; [exact L|apply lo_refl]. }
    assert (V : forall l, received [Ev JData (Ok (data_answer l))] = l /\ received [Ev JStop (Ok (data_answer l))] = l)
      by (intros [|x l]; split; reflexivity).
    destruct I' as (R' & K' & L'). cbn [with_dev r_pgm r_hist r_dev r_stored] in *. rewrite Ep in K'. destruct K' as [_ K2].
    destruct o; try exact (conj R' (conj (proj1 (proj2 (dev_order Go s d I E))) L')).
    + destruct (d_main (r_dev s)) eqn:Em; try exact (conj R' (conj (proj1 (proj2 (dev_order Go s d I E))) L')).
      split; [exact R'|]. split; [exact (K2 (Ok (data_answer ret)))|]. cbn [same_state done_op r_stored r_hist r_dev with_dev].
      change (received (?e :: _)) with (received [e]). rewrite (proj1 (V ret)). apply F; auto.
    + destruct (d_main (r_dev s)) eqn:Em; try exact (conj R' (conj (proj1 (proj2 (dev_order Go s d I E))) L')).
      split; [exact R'|]. split; [exact (K2 (Ok (data_answer ret)))|]. cbn [same_state done_op r_stored r_hist r_dev with_dev].
      change (received (?e :: _)) with (received [e]). rewrite (proj2 (V ret)). apply F; auto.
    + destruct (d_main (r_dev s)) eqn:Em; try exact (conj R' (conj (proj1 (proj2 (dev_order Go s d I E))) L')).
      apply (done_order (with_dev s d)); auto; try discriminate. apply (dev_order Go s d I E).
  - unfold job_step in H. destruct (r_wait s); [discriminate|].
    destruct (r_pgm s) as [a|e|o k] eqn:Ep; try discriminate.
    assert (R : can_reach (r_dev s)) by apply I.
    destruct o; cbn [same_state] in H;
      try (injection H as <-; apply (done_order s); auto; try discriminate; fail).
    + (* status *)
      destruct (begin_request AStatus (r_dev s)) as [d|] eqn:E; inversion H.
      apply (done_order s); auto; try discriminate.
      * exact (reach_step _ (Ask AStatus) _ R E).
      * rewrite (dev_returned (Ask AStatus) _ _ E). apply app_nil_r.
    + (* send *)
      destruct b.
      * destruct (begin_request _ (r_dev s)) as [d|] eqn:E; inversion H.
        apply (done_order s); auto; try discriminate.
        { exact (reach_step _ (Ask _) _ R E). }
        { rewrite (dev_returned (Ask _) _ _ E). apply app_nil_r. }
      * destruct (d_main (r_dev s)); inversion H. apply (done_order s); auto; discriminate.
    + unfold pass_on in H. destruct (begin_request AData (r_dev s)) as [d|] eqn:E; inversion H.
      exact (dev_order (Ask AData) s d I E).
    + unfold pass_on in H. destruct (begin_request AStop (r_dev s)) as [d|] eqn:E; inversion H.
      exact (dev_order (Ask AStop) s d I E).
    + (* store *)
      injection H as <-. destruct I as (_ & K & L). rewrite Ep in K. destruct K as [-> K2].
      split; [exact R|]. split; [apply K2|]. cbn. rewrite app_nil_r. exact L.
    + unfold pass_on in H. destruct (begin_request (AReset true) (r_dev s)) as [d|] eqn:E; inversion H.
      exact (dev_order (Ask (AReset true)) s d I E).
  - unfold offline in H. destruct (r_pgm s) as [a|e|o k] eqn:Ep; try discriminate.
    destruct o; try discriminate; injection H as <-; apply (done_order s); auto; try discriminate; apply I.
Qed.
Lemma order_steps same ls : forall s s', Iorder s -> rsteps same ls s = Some s' -> Iorder s'.
Proof.
  induction ls as [|l ls IH]; intros s s' I H; cbn in H; [congruence|].
  destruct (rstep same l s) as [s1|] eqn:E; [|discriminate]. eapply IH; [|exact H]. eapply order_step; eauto.
Qed.
Lemma order_start d f pr ts : can_reach d -> Iorder (run_start d (job_thread f pr ts)).
Proof. intros R. split; [exact R|]. split; [apply keeps_job|]. apply lo_nil_l. Qed.
