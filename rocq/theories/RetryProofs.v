(** * RetryProofs: requests that are sent again (C112) *)
From Coq Require Import List String ZArith Bool Lia Arith Permutation.
From Verif Require Import Base Types Prog ProgFacts JobThreadModel DeviceModel SpecDevice DeviceProofs DeviceProofs2
  RunModel SpecRun RunProofs RunProofs2 RetryModel SpecRetry.
Import ListNotations.
Open Scope prog_scope.
Open Scope Z_scope.

(** ** Order, in all executions *)
Lemma order_late y y' : Iorder (y_run y) -> late y = Some y' -> Iorder (y_run y').
Proof.
  intros I H. unfold late in H. destruct (r_pgm (y_run y)) as [a|e|o k] eqn:Ep; try discriminate.
  destruct o; try discriminate.
  - destruct (begin_request AStatus (r_dev (y_run y))) as [d|] eqn:E; inversion H. cbn [y_run].
    apply (dev_order (Ask AStatus)); auto.
  - destruct (begin_request _ (r_dev (y_run y))) as [d|] eqn:E; inversion H. cbn [y_run].
    rewrite <- Ep. exact (dev_order (Ask _) _ _ I E).
  - destruct (r_wait (y_run y)); inversion H. cbn [y_run]. rewrite <- Ep. exact I.
  - destruct (r_wait (y_run y)); inversion H. cbn [y_run]. rewrite <- Ep. exact I.
  - destruct (r_wait (y_run y)); inversion H. cbn [y_run]. rewrite <- Ep. exact I.
Qed.
Lemma order_ysteps same ls : forall y y', Iorder (y_run y) -> ysteps same ls y = Some y' -> Iorder (y_run y').
Proof.
  induction ls as [|l ls IH]; intros y y' I H; cbn in H; [congruence|].
  destruct (ystep same l y) as [y1|] eqn:E; [|discriminate]. apply (IH y1); [|exact H].
  destruct l as [l|]; cbn [ystep] in E.
  - destruct (rstep same l (y_run y)) as [s|] eqn:E1; inversion E. cbn [y_run]. eapply order_step; eauto.
  - eapply order_late; eauto.
Qed.
Lemma C112_order_lemma same d f pr ts ls y : can_reach d ->
  ysteps same ls (retry_start d (job_thread f pr ts)) = Some y ->
  leaves_out (r_stored (y_run y)) (measured (d_log (r_dev (y_run y)))) /\ NoDup (r_stored (y_run y)).
Proof.
  intros Hd H. destruct (order_ysteps _ _ (retry_start d (job_thread f pr ts)) _ (order_start d f pr ts Hd) H) as (R & _ & L).
  assert (X : leaves_out (r_stored (y_run y)) (measured (d_log (r_dev (y_run y))))).
  { eapply lo_trans; [|apply returned_measured; exact R]. eapply lo_trans; [|exact L].
    rewrite <- (app_nil_r (r_stored (y_run y))) at 1. apply lo_app; [apply lo_refl|apply lo_nil_l]. }
  split; [exact X|]. eapply lo_nodup; [exact X|]. apply measured_nodup. exact R.
Qed.

(** ** How many tasks are put into the queue *)
Lemma items_dev m d d' : dstep m d = Some d' -> (forall a, m <> Ask a) -> d_main d <> MPut -> d_items d' = d_items d.
Proof.
  intros H Hm Hp. destruct m as [c f|a|]; [| contradiction (Hm a eq_refl) |].
  - cbn [dstep] in H. unfold wstep in H. destruct (d_worker d);
      repeat match type of H with context [match ?x with _ => _ end] => destruct x eqn:? end;
      try discriminate H; injection H as <-; reflexivity.
  - cbn [dstep] in H. unfold mstep in H. destruct (d_main d); try congruence;
      repeat match type of H with context [match ?x with _ => _ end] => destruct x eqn:? end;
      try discriminate H; injection H as <-; reflexivity.
Qed.
Definition calm (m : mpc) : Prop := m <> MEmpty /\ m <> MPut.
Lemma calm_work c f d d' : wstep c f d = Some d' -> d_main d' = d_main d.
Proof.
  intros E. unfold wstep in E. destruct (d_worker d);
    repeat match type of E with context [match ?x with _ => _ end] => destruct x eqn:? end;
    try discriminate E; injection E as <-; reflexivity.
Qed.
Lemma calm_go d d' : mstep d = Some d' -> calm (d_main d) -> calm (d_main d').
Proof.
  intros E [C1 C2]. unfold mstep in E. destruct (d_main d); try congruence;
    repeat match type of E with context [match ?x with _ => _ end] => destruct x eqn:? end;
    try discriminate E; injection E as <-; split; cbn; discriminate.
Qed.
Definition Iitems (n0 : nat) (y : ysys) : Prop :=
  let s := y_run y in
  calm (d_main (r_dev s)) /\ d_items (r_dev s) = (n0 + List.length (r_sent s))%nat /\
  List.length (r_sent s) = (accepted_sends (r_hist s) + y_again y)%nat.
Lemma items_answer m s : d_items (r_dev (answer m s)) = d_items (r_dev s) /\ r_dev (answer m s) = r_dev s /\
  r_sent (answer m s) = r_sent s /\ accepted_sends (r_hist (answer m s)) = accepted_sends (r_hist s).
Proof.
  unfold answer. destruct (r_pgm s) as [a|e|o k]; auto. destruct o; auto; destruct m; auto.
Qed.
Lemma items_step same n0 l y y' : alone l -> Iitems n0 y -> ystep same l y = Some y' -> Iitems n0 y'.
Proof.
  intros Hl (C & N & S) H. unfold Iitems. destruct l as [l|]; cbn [ystep] in H.
  - destruct (rstep same l (y_run y)) as [s|] eqn:E1; inversion H; clear H; subst y'. cbn [y_run y_again].
    destruct l as [c f|a| |c n b|]; cbn [rstep] in E1; try contradiction Hl.
    + destruct (wstep c f (r_dev (y_run y))) as [d|] eqn:E; inversion E1. cbn.
      rewrite (calm_work _ _ _ _ E). rewrite (items_dev (Work c f) _ _ E); [auto|discriminate|apply C].
    + destruct (mstep (r_dev (y_run y))) as [d|] eqn:E; [|discriminate]. cbn [option_map] in E1. injection E1 as <-.
      pose proof (calm_go _ _ E C) as C'.
      assert (N' : d_items d = d_items (r_dev (y_run y))) by (apply (items_dev Go _ _ E); [discriminate|apply C]).
      destruct (r_wait (y_run y)).
      * destruct (items_answer (d_main (r_dev (y_run y))) (with_dev (y_run y) d)) as (_ & E2 & E3 & E4).
        rewrite E2, E3, E4. cbn. rewrite N'. auto.
      * cbn. rewrite N'. auto.
    + unfold job_step in E1. destruct (r_wait (y_run y)); [discriminate|].
      destruct (r_pgm (y_run y)) as [a|e|o k]; try discriminate.
      destruct o; cbn [same_state] in E1; try (injection E1 as <-; cbn; auto; fail).
      * unfold begin_request in E1. destruct (d_main (r_dev (y_run y))) eqn:Em; try discriminate E1.
        injection E1 as <-. cbn. rewrite Em. auto.
      * unfold begin_request in E1. destruct (d_main (r_dev (y_run y))) eqn:Em; destruct b; try discriminate E1;
          injection E1 as <-; cbn; rewrite ?Em; repeat split; try discriminate; auto; rewrite ?S; cbn; lia.
      * unfold pass_on, begin_request in E1. destruct (d_main (r_dev (y_run y))) eqn:Em; try discriminate E1.
        injection E1 as <-. cbn. repeat split; try discriminate; auto.
      * unfold pass_on, begin_request in E1. destruct (d_main (r_dev (y_run y))) eqn:Em; try discriminate E1.
        injection E1 as <-. cbn. repeat split; try discriminate; auto.
      * unfold pass_on, begin_request in E1. destruct (d_main (r_dev (y_run y))) eqn:Em; try discriminate E1.
        injection E1 as <-. cbn. repeat split; try discriminate; auto.
    + unfold offline in E1. destruct (r_pgm (y_run y)) as [a|e|o k]; try discriminate.
      destruct o; try discriminate; injection E1 as <-; cbn; auto.
  - unfold late in H. destruct (r_pgm (y_run y)) as [a|e|o k]; try discriminate. destruct o; try discriminate.
    + unfold begin_request in H. destruct (d_main (r_dev (y_run y))) eqn:Em; try discriminate H.
      injection H as <-. cbn. rewrite Em. auto.
    + unfold begin_request in H. destruct (d_main (r_dev (y_run y))) eqn:Em; try discriminate H.
      injection H as <-. cbn. rewrite Em. repeat split; try discriminate; lia.
    + destruct (r_wait (y_run y)); inversion H. cbn. auto.
    + destruct (r_wait (y_run y)); inversion H. cbn. auto.
    + destruct (r_wait (y_run y)); inversion H. cbn. auto.
Qed.
Lemma C112_items_lemma same d p ls y : d_main d = MIdle -> Forall alone ls ->
  ysteps same ls (retry_start d p) = Some y ->
  d_items (r_dev (y_run y)) = (d_items d + accepted_sends (r_hist (y_run y)) + y_again y)%nat.
Proof.
  intros Hd Hl H. enough (I : Iitems (d_items d) y) by (destruct I as (_ & I1 & I2); lia).
  assert (I0 : Iitems (d_items d) (retry_start d p)).
  { unfold Iitems. cbn. rewrite Hd. split; [split; discriminate|]. split; lia. }
  revert I0 Hl H. generalize (retry_start d p). induction ls as [|l ls IH]; intros y0 I0 Hl H; cbn in H; [congruence|].
  inversion Hl as [|x xs H1 H2]. subst. destruct (ystep same l y0) as [y1|] eqn:E; [|discriminate].
  exact (IH y1 (items_step _ _ _ _ _ H1 I0 E) H2 H).
Qed.

(** ** Where the points are *)
Definition restore (w : bool) (m : list nat) (s : rsys) : rsys :=
  mkR (r_dev s) (r_pgm s) w (r_cur s) (r_sent s) m (r_hist s).
Definition added (l : rlabel) (s : rsys) : list nat :=
  match l, r_wait s, r_pgm s with RJob _ _ _, false, Op (JStore d) _ => d | _, _, _ => [] end.
Lemma step_restore same l s s' m : rstep same l s = Some s' ->
  r_stored s' = r_stored s ++ added l s /\
  rstep same l (restore (r_wait s) m s) = Some (restore (r_wait s') (m ++ added l s) s').
Proof.
  intros H. destruct l as [c f|a| |c n b|]; cbn [rstep added] in *; cbn [restore r_dev r_wait r_pgm] in *.
  - destruct (wstep c f (r_dev s)) as [d|]; inversion H. cbn. rewrite !app_nil_r. auto.
  - destruct (r_wait s) eqn:Ew; [discriminate|]. destruct (begin_request a (r_dev s)) as [d|]; inversion H. cbn. rewrite !app_nil_r, Ew. auto.
  - destruct (mstep (r_dev s)) as [d|]; [|discriminate]. cbn [option_map] in *. injection H as <-.
    rewrite !app_nil_r. destruct (r_wait s) eqn:Ew.
    + unfold answer. cbn [with_dev restore r_pgm]. destruct (r_pgm s) as [a|e|o k] eqn:Ep; cbn; rewrite ?Ep, ?Ew; auto.
      destruct o; cbn; rewrite ?Ep, ?Ew; auto; destruct (d_main (r_dev s)); cbn; rewrite ?Ep, ?Ew; auto.
    + cbn. rewrite Ew. auto.
  - unfold job_step in *. cbn [restore r_wait r_pgm]. destruct (r_wait s) eqn:Ew; [discriminate|].
    destruct (r_pgm s) as [a|e|o k] eqn:Ep; try discriminate.
    destruct o; cbn [same_state restore done_op r_dev r_cur r_sent r_stored r_hist pass_on] in *;
      try (injection H as <-; cbn; rewrite ?app_nil_r; auto; fail).
    + destruct (begin_request AStatus (r_dev s)) as [d|]; [|discriminate]. cbn [option_map] in *. injection H as <-. cbn. rewrite !app_nil_r. split; reflexivity.
    + destruct b.
      * destruct (begin_request _ (r_dev s)) as [d|]; inversion H. cbn. rewrite !app_nil_r. auto.
      * destruct (d_main (r_dev s)); inversion H. cbn. rewrite !app_nil_r. auto.
    + unfold pass_on in *. cbn [r_dev restore] in *. destruct (begin_request _ (r_dev s)) as [d|]; inversion H. cbn. rewrite !app_nil_r, Ep. auto.
    + unfold pass_on in *. cbn [r_dev restore] in *. destruct (begin_request _ (r_dev s)) as [d|]; inversion H. cbn. rewrite !app_nil_r, Ep. auto.
    + unfold pass_on in *. cbn [r_dev restore] in *. destruct (begin_request _ (r_dev s)) as [d|]; inversion H. cbn. rewrite !app_nil_r, Ep. auto.
  - unfold offline in *. cbn [restore r_pgm]. destruct (r_pgm s) as [a|e|o k]; try discriminate.
    destruct o; try discriminate; injection H as <-; cbn; rewrite !app_nil_r; auto.
Qed.

(** The invariant: as in RunProofs2, with the data that was stored or missed taken for
    stored, and a request under way taken for one that the worker waits for. *)
Definition Iy (base : list nat) (y : ysys) : Prop :=
  exists w m, Iall base (restore w m (y_run y)) /\ (r_wait (y_run y) = true -> w = true) /\
    Permutation m (r_stored (y_run y) ++ y_lost y).
Lemma restore_restore w m w' m' s : restore w m (restore w' m' s) = restore w m s.
Proof. reflexivity. Qed.
Lemma restore_self s : restore (r_wait s) (r_stored s) s = s.
Proof. destruct s. reflexivity. Qed.

Lemma all_status base s d : Iall base s -> r_wait s = false -> begin_request AStatus (r_dev s) = Some d ->
  Iall base (with_dev s d).
Proof.
  intros (ph & i & R & K & F & S & D & C & W) Hw E.
  assert (R' : can_reach d) by exact (reach_step _ (Ask AStatus) _ R E).
  unfold waits in W. rewrite Hw in W. unfold begin_request in E. rewrite W in E. injection E as <-.
  exists ph, i. cbn [with_dev r_dev r_pgm r_wait r_cur r_sent r_stored r_hist].
  split; [exact R'|]. split; [exact K|]. split; [exact F|]. split; [exact S|].
  split; [eapply dinv_same; [..|exact D]; auto|]. split; [exact C|]. unfold waits. cbn. rewrite Hw. exact W.
Qed.
(** A request is completed for nobody. *)
Lemma all_stale base m s d : Iall base (restore true m s) -> mstep (r_dev s) = Some d ->
  exists w', Iall base (restore w' (m ++ match d_main (r_dev s) with MUnlock l => l | _ => [] end) (with_dev s d)).
Proof.
  intros (ph & i & R & K & F & S & D & C & W) E.
  assert (R' : can_reach d) by exact (reach_step _ Go _ R E).
  unfold waits in W. cbn [restore r_dev r_pgm r_wait r_cur r_sent r_stored r_hist] in *.
  destruct (r_pgm s) as [a|e|o k] eqn:Ep; try contradiction. pose proof K as K0. destruct K0 as [K0 _].
  destruct o; try contradiction.
  - destruct (fetch_go ph i _ _ E W D) as (D' & S' & M1 & M2). unfold given in S'.
    exists (match d_main d with MIdle => false | _ => true end), ph, i.
    cbn [restore with_dev r_dev r_pgm r_wait r_cur r_sent r_stored r_hist]. rewrite Ep.
    split; [exact R'|]. split; [exact K|]. split; [exact F|].
    split; [rewrite S', S, K0, !app_nil_r, <- app_assoc; reflexivity|]. split; [exact D'|]. split; [exact C|].
    unfold waits. cbn [restore with_dev r_dev r_pgm r_wait]. destruct M2 as [M2|M2].
    + destruct (d_main d); try discriminate M2; rewrite Ep; reflexivity.
    + rewrite M2. reflexivity.
  - assert (Hph : ph = PIdle) by (destruct F; assumption). subst ph.
    destruct (reset_go i _ _ E W D) as (D' & S' & M1 & M2).
    exists (match d_main d with MIdle => false | _ => true end), PIdle, i.
    cbn [restore with_dev r_dev r_pgm r_wait r_cur r_sent r_stored r_hist]. rewrite Ep.
    split; [exact R'|]. split; [exact K|]. split; [exact F|].
    split. { rewrite S', S, K0. destruct (d_main (r_dev s)); try discriminate W; rewrite !app_nil_r; reflexivity. }
    split; [exact D'|]. split; [exact C|].
    unfold waits. cbn [restore with_dev r_dev r_pgm r_wait]. destruct M2 as [M2|M2].
    + destruct (d_main d); try discriminate M2; rewrite Ep; reflexivity.
    + rewrite M2. reflexivity.
Qed.
Lemma again_mono same l y y' : ystep same l y = Some y' -> (y_again y <= y_again y')%nat.
Proof.
  intros H. destruct l as [l|]; cbn [ystep] in H.
  - destruct (rstep same l (y_run y)); inversion H. cbn. lia.
  - unfold late in H. destruct (r_pgm (y_run y)) as [a|e|o k]; try discriminate. destruct o; try discriminate;
      try (destruct (r_wait (y_run y)); inversion H; cbn; lia);
      match type of H with option_map _ ?x = _ => destruct x end; inversion H; cbn; lia.
Qed.
Lemma perm_add (m s l a : list nat) : Permutation m (s ++ l) -> Permutation (m ++ a) ((s ++ a) ++ l).
Proof.
  intros P. rewrite <- app_assoc. etransitivity; [apply Permutation_app_tail; exact P|].
  rewrite <- app_assoc. apply Permutation_app_head. apply Permutation_app_comm.
Qed.
Lemma wait_idle base s m : Iall base (restore false m s) -> d_main (r_dev s) = MIdle.
Proof. intros (ph & i & R & K & F & S & D & C & W). exact W. Qed.

Lemma y_step same base l y y' : (forall t, same t t = true) -> patient l -> y_again y' = 0%nat ->
  Iy base y -> ystep same l y = Some y' -> Iy base y'.
Proof.
  intros Hsame Hl Ha (w & m & I & Hw & P) H. destruct l as [l|]; cbn [ystep] in H.
  - destruct (rstep same l (y_run y)) as [s|] eqn:E; [|discriminate]. cbn [option_map] in H. injection H as <-.
    cbn [y_again] in Ha. cbn [patient] in Hl.
    destruct (step_restore same l _ _ m E) as [E1 E2].
    destruct (Bool.bool_dec w (r_wait (y_run y))) as [Ew|Ew].
    + (* nothing is under way for nobody *)
      rewrite <- Ew in E2. pose proof (all_step same base l _ _ Hsame Hl I E2) as I'.
      assert (M : missed l (y_run y) = []).
      { unfold missed. destruct l; auto. rewrite <- Ew. destruct w; [destruct (d_main (r_dev (y_run y))); reflexivity|].
        rewrite (wait_idle _ _ _ I). reflexivity. }
      exists (r_wait s), (m ++ added l (y_run y)). cbn [y_run y_lost]. rewrite M, app_nil_r, E1.
      split; [exact I'|]. split; [auto|]. apply perm_add; auto.
    + assert (Ew1 : r_wait (y_run y) = false) by (destruct (r_wait (y_run y)); auto; contradiction Ew; auto).
      assert (Ew2 : w = true) by (destruct w; auto; congruence). subst w.
      destruct l as [c f|a| |c n b|]; try contradiction Hl.
      * (* the thread of the component *)
        cbn [rstep] in E. destruct (wstep c f (r_dev (y_run y))) as [d|] eqn:E3; inversion E. subst s.
        assert (E4 : rstep same (RWork c f) (restore true m (y_run y)) = Some (restore true m (with_dev (y_run y) d)))
          by (cbn [rstep restore r_dev]; rewrite E3; reflexivity).
        pose proof (all_step same base _ _ _ Hsame Hl I E4) as I'.
        exists true, m. cbn [y_run y_lost missed]. rewrite app_nil_r. split; [exact I'|]. auto.
      * (* the driver *)
        cbn [rstep] in E. destruct (mstep (r_dev (y_run y))) as [d|] eqn:E3; [|discriminate]. cbn [option_map] in E.
        rewrite Ew1 in E. injection E as <-. destruct (all_stale _ _ _ _ I E3) as [w' I'].
        exists w'. eexists. cbn [y_run y_lost]. split; [exact I'|]. cbn [with_dev r_wait r_stored]. split; [rewrite Ew1; discriminate|].
        unfold missed. rewrite Ew1. rewrite app_assoc.
        etransitivity; [apply Permutation_app_tail; exact P|].
        destruct (d_main (r_dev (y_run y))); apply Permutation_refl.
      * (* the worker cannot go on *)
        exfalso. cbn [rstep] in E. unfold job_step in E. rewrite Ew1 in E.
        destruct I as (ph & i & R & K & F & S & D & C & W). unfold waits in W. cbn [restore r_wait r_pgm r_dev] in W.
        destruct (r_pgm (y_run y)) as [a|e|o k]; try contradiction. destruct o; try contradiction.
        -- unfold pass_on, begin_request in E. destruct (d_main (r_dev (y_run y))); try discriminate W; discriminate E.
        -- unfold pass_on, begin_request in E. destruct (d_main (r_dev (y_run y))); try discriminate W; discriminate E.
  - unfold late in H. destruct (r_pgm (y_run y)) as [a|e|o k] eqn:Ep; try discriminate. destruct o; try discriminate.
    + (* status *)
      assert (Ew : w = false).
      { destruct w; auto. destruct I as (ph & i & R & K & F & S & D & C & W). unfold waits in W. cbn [restore r_wait r_pgm r_dev] in W.
        rewrite Ep in W. contradiction. }
      subst w. destruct (begin_request AStatus (r_dev (y_run y))) as [d|] eqn:E; inversion H. clear H. subst y'.
      exists false, m. cbn [y_run y_lost]. split; [exact (all_status base _ d I eq_refl E)|]. auto.
    + destruct (begin_request _ (r_dev (y_run y))); inversion H. subst y'. discriminate Ha.
    + destruct (r_wait (y_run y)) eqn:Ew; inversion H. exists w, m. cbn [y_run y_lost]. rewrite <- Ep. split; [exact I|]. split; [discriminate|exact P].
    + destruct (r_wait (y_run y)) eqn:Ew; inversion H. exists w, m. cbn [y_run y_lost]. rewrite <- Ep. split; [exact I|]. split; [discriminate|exact P].
    + destruct (r_wait (y_run y)) eqn:Ew; inversion H. exists w, m. cbn [y_run y_lost]. rewrite <- Ep. split; [exact I|]. split; [discriminate|exact P].
Qed.
Lemma again_steps same ls : forall y y', ysteps same ls y = Some y' -> (y_again y <= y_again y')%nat.
Proof.
  induction ls as [|l ls IH]; intros y y' H; cbn in H; [inversion H; lia|].
  destruct (ystep same l y) as [y1|] eqn:E; [|discriminate]. pose proof (again_mono _ _ _ _ E). pose proof (IH _ _ H). lia.
Qed.
Lemma y_steps same base ls : (forall t, same t t = true) -> Forall patient ls -> forall y y',
  y_again y' = 0%nat -> Iy base y -> ysteps same ls y = Some y' -> Iy base y'.
Proof.
  intros Hs. induction ls as [|l ls IH]; intros Hl y y' Ha I H; cbn in H; [congruence|].
  inversion Hl as [|x xs H1 H2]. subst. destruct (ystep same l y) as [y1|] eqn:E; [|discriminate].
  pose proof (again_steps _ _ _ _ H). eapply (IH H2); [exact Ha| |exact H]. eapply y_step; eauto. lia.
Qed.
Lemma C112_lemma same d f pr ts ls y : (forall t, same t t = true) -> at_rest d ->
  (forall t, In t ts -> t_stop_with t = None) -> Forall patient ls ->
  ysteps same ls (retry_start d (job_thread f pr ts)) = Some y -> y_again y = 0%nat ->
  let s := y_run y in
  Permutation (measured (d_log (r_dev s)))
    (measured (d_log d) ++ (r_stored s ++ y_lost y) ++ received (r_hist s) ++ outstanding (r_dev s)) /\
  (r_pgm s = Ret tt \/ r_pgm s = Raise AttributeError ->
   Permutation (measured (d_log (r_dev s))) (measured (d_log d) ++ r_stored s ++ y_lost y)).
Proof.
  intros Hs Hd Ht Hl H Ha s.
  assert (I0 : Iy (measured (d_log d)) (retry_start d (job_thread f pr ts))).
  { exists false, []. split; [exact (all_start d f pr ts Hd Ht)|]. split; [discriminate|]. apply Permutation_refl. }
  destruct (y_steps _ _ _ Hs Hl _ _ Ha I0 H) as (w & m & (ph & i & R & K & F & S & D & _ & W) & _ & P).
  fold s in R, K, F, S, D, W, P. cbn [restore r_dev r_pgm r_wait r_cur r_sent r_stored r_hist] in *.
  pose proof (D_ledger _ (Idata_reach _ R)) as L. rewrite S in L. split.
  { rewrite L, <- !app_assoc. apply Permutation_app_head. rewrite !app_assoc.
    do 2 apply Permutation_app_tail. exact P. }
  intros Hp.
  assert (X : ph = PIdle /\ received (r_hist s) = [] /\ d_main (r_dev s) = MIdle).
  { unfold waits in W. cbn [restore r_dev r_pgm r_wait] in W.
    destruct Hp as [Hp|Hp]; rewrite Hp in K, F, W; cbn in K, F; destruct w; try contradiction; auto. }
  destruct X as (-> & X1 & X2). destruct D as (_ & D2 & D3).
  rewrite L, X1, (rest_outstanding _ X2 D2 D3), !app_nil_r. apply Permutation_app_head. exact P.
Qed.

(** Nothing left out: the same list. *)
Lemma lo_length {A} (a b : list A) : leaves_out a b -> (List.length a <= List.length b)%nat.
Proof. induction 1; cbn; lia. Qed.
Lemma lo_all {A} (a b : list A) : leaves_out a b -> List.length a = List.length b -> a = b.
Proof.
  induction 1 as [|x a b H IH|x a b H IH]; intros E; cbn in E; [reflexivity|f_equal; apply IH; lia|].
  pose proof (lo_length _ _ H). lia.
Qed.
(** Late answers are needed to lose anything. *)
Lemma only_steps same ls : forall y y', ysteps same (map YStep ls) y = Some y' ->
  rsteps same ls (y_run y) = Some (y_run y') /\ y_again y' = y_again y.
Proof.
  induction ls as [|l ls IH]; intros y y' H; cbn in H; [inversion H; auto|].
  destruct (rstep same l (y_run y)) as [s|] eqn:E; [|discriminate]. cbn [option_map] in H.
  destruct (IH _ _ H) as [H1 H2]. cbn [y_run y_again] in *. cbn [rsteps]. rewrite E. auto.
Qed.
