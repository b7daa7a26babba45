(** * RetryProofs2: where measured points are, in all executions (C112) *)
From Coq Require Import List String ZArith Bool Lia Arith Permutation.
From Verif Require Import Base Types Prog ProgFacts JobThreadModel DeviceModel SpecDevice DeviceProofs DeviceProofs2
  RunModel SpecRun RunProofs RunProofs2 RetryModel SpecRetry RetryProofs SpecRetry2.
Import ListNotations.
Open Scope prog_scope.
Open Scope Z_scope.

Lemma settled_split l : Permutation (settled l) (returned l ++ dropped l).
Proof.
  induction l as [|e l IH]; [apply Permutation_refl|]. destruct e; cbn [settled returned dropped]; try exact IH.
  - etransitivity; [apply Permutation_app_tail; exact IH|]. rewrite <- !app_assoc. apply Permutation_app_head, Permutation_app_comm.
  - rewrite app_assoc. apply Permutation_app_tail. exact IH.
  - rewrite app_assoc. apply Permutation_app_tail. exact IH.
Qed.

Definition wmatch (s : rsys) : Prop :=
  r_wait s = true ->
  match r_pgm s with
  | Op JData _ | Op JStop _ => fetching (d_main (r_dev s)) = true
  | Op JReset _ => in_reset (d_main (r_dev s)) = true
  | _ => False
  end.
Definition Iret (base : list nat) (y : ysys) : Prop :=
  let s := y_run y in
  keeps (received (r_hist s)) (r_pgm s) /\ wmatch s /\
  Permutation (returned (d_log (r_dev s))) (base ++ r_stored s ++ received (r_hist s) ++ y_lost y).

Lemma go_fetching d d' : mstep d = Some d' -> fetching (d_main d) = true ->
  (forall l, d_main d <> MUnlock l) -> fetching (d_main d') = true.
Proof.
  intros H F N. unfold mstep in H. destruct (d_main d) eqn:Em; try discriminate F;
    repeat match type of H with context [match ?x with _ => _ end] => destruct x; try discriminate H end;
    try (injection H as <-; reflexivity). contradiction (N ret eq_refl).
Qed.
Lemma go_reset d d' : mstep d = Some d' -> in_reset (d_main d) = true ->
  (forall b, d_main d <> MThread b) -> in_reset (d_main d') = true.
Proof.
  intros H F N. unfold mstep in H. destruct (d_main d) eqn:Em; try discriminate F;
    repeat match type of H with context [match ?x with _ => _ end] => destruct x; try discriminate H end;
    try (injection H as <-; reflexivity). contradiction (N do_run eq_refl).
Qed.
(** Points that are stored, received and missed. *)
Lemma perm_missed (a b c d l : list nat) (r : list nat) : Permutation r (a ++ b ++ c ++ d) ->
  Permutation (r ++ l) (a ++ b ++ c ++ d ++ l).
Proof. intros P. rewrite !app_assoc in *. apply Permutation_app_tail. rewrite <- !app_assoc in *. exact P. Qed.
Lemma perm_got (a b d l r : list nat) : Permutation r (a ++ b ++ [] ++ d) -> Permutation (r ++ l) (a ++ b ++ l ++ d).
Proof.
  intros P. cbn in P. etransitivity; [apply Permutation_app_tail; exact P|]. rewrite <- !app_assoc.
  do 2 apply Permutation_app_head. apply Permutation_app_comm.
Qed.
Lemma ret_done base s lost ag d cur sent o k r : Iret base (mkY s lost ag) -> r_pgm s = Op o k ->
  returned (d_log d) = returned (d_log (r_dev s)) -> (forall l, o <> JStore l) -> received [Ev o r] = [] ->
  Iret base (mkY (done_op s d cur sent (r_stored s) o k r) lost ag).
Proof.
  intros (K & _ & P) Hp E Ho Hr. cbn [y_run y_lost] in *. rewrite Hp in K. destruct K as [K1 K2].
  assert (H0 : received (r_hist s) = []) by (destruct o; auto; contradiction (Ho d0 eq_refl)).
  split; [exact (K2 r)|]. split; [discriminate|]. cbn [y_run y_lost done_op r_stored r_hist r_dev].
  change (received (Ev o r :: r_hist s)) with (received [Ev o r]). rewrite Hr, E. rewrite H0 in P. exact P.
Qed.
Lemma ret_step same base l y y' : alone l -> Iret base y -> ystep same l y = Some y' -> Iret base y'.
Proof.
  intros Hl I H. destruct y as [s lost ag]. pose proof I as (K & W & P). cbn [y_run y_lost] in *.
  destruct l as [l|]; cbn [ystep y_run y_lost y_again] in H.
  - destruct (rstep same l s) as [s'|] eqn:E; [|discriminate]. cbn [option_map] in H. injection H as <-.
    destruct l as [c f|a| |c n b|]; try contradiction Hl; cbn [rstep] in E.
    + destruct (wstep c f (r_dev s)) as [d|] eqn:E3; inversion E. subst s'.
      split; [exact K|]. cbn [missed]. rewrite app_nil_r. split.
      * unfold wmatch in *. cbn [y_run with_dev r_wait r_pgm r_dev]. rewrite (calm_work _ _ _ _ E3). exact W.
      * cbn [y_run y_lost with_dev r_stored r_hist r_dev]. rewrite (dev_returned (Work c f) _ _ E3). cbn [given].
        rewrite app_nil_r. exact P.
    + destruct (mstep (r_dev s)) as [d|] eqn:E3; [|discriminate]. cbn [option_map] in E. injection E as <-.
      pose proof (dev_returned Go _ _ E3) as E4. unfold given in E4. destruct (r_wait s) eqn:Ew.
      * specialize (W Ew).
        assert (M : missed RGo s = []) by (unfold missed; rewrite Ew; destruct (d_main (r_dev s)); reflexivity).
        rewrite M, app_nil_r.
        assert (S0 : forall o k, r_pgm s = Op o k -> match o with JData | JStop => fetching (d_main d) = true
                        | JReset => in_reset (d_main d) = true | _ => False end ->
           returned (d_log d) = returned (d_log (r_dev s)) -> Iret base (mkY (with_dev s d) lost ag)).
        { intros o k Ep X R. split; [exact K|]. split; [|cbn; rewrite R; exact P].
          intros _. cbn [y_run with_dev r_pgm r_dev]. rewrite Ep. destruct o; auto. }
        unfold answer. cbn [with_dev r_pgm]. destruct (r_pgm s) as [a|e|o k] eqn:Ep; try contradiction.
        assert (K0 : forall l, o <> JStore l) by (destruct o; try contradiction; discriminate).
        assert (H0 : received (r_hist s) = []) by (destruct K as [K1 _]; destruct o; try exact K1; contradiction (K0 d0 eq_refl)).
        assert (F : forall l, d_main (r_dev s) = MUnlock l -> Permutation (returned (d_log d)) (base ++ r_stored s ++ l ++ lost)).
        { intros l El. rewrite E4, El. rewrite H0 in P. apply perm_got. exact P. }
        assert (V : forall l, received [Ev JData (Ok (data_answer l))] = l /\ received [Ev JStop (Ok (data_answer l))] = l)
          by (intros [|x l]; split; reflexivity).
        destruct K as [_ K2]. destruct o; try contradiction.
        -- destruct (d_main (r_dev s)) eqn:Em; try discriminate W.
           1,2,3: (apply (S0 _ _ eq_refl); [eapply go_fetching; [exact E3|rewrite Em; reflexivity|rewrite Em; discriminate] | rewrite E4, app_nil_r; reflexivity]).
           split; [exact (K2 (Ok (data_answer ret)))|]. split; [discriminate|].
           cbn [y_run y_lost same_state done_op r_stored r_hist r_dev with_dev].
           change (received (?e :: _)) with (received [e]). rewrite (proj1 (V ret)). apply F; reflexivity.
        -- destruct (d_main (r_dev s)) eqn:Em; try discriminate W.
           1,2,3: (apply (S0 _ _ eq_refl); [eapply go_fetching; [exact E3|rewrite Em; reflexivity|rewrite Em; discriminate] | rewrite E4, app_nil_r; reflexivity]).
           split; [exact (K2 (Ok (data_answer ret)))|]. split; [discriminate|].
           cbn [y_run y_lost same_state done_op r_stored r_hist r_dev with_dev].
           change (received (?e :: _)) with (received [e]). rewrite (proj2 (V ret)). apply F; reflexivity.
        -- destruct (d_main (r_dev s)) eqn:Em; try discriminate W.
           1,2,3,4,5: (apply (S0 _ _ eq_refl); [eapply go_reset; [exact E3|rewrite Em; reflexivity|rewrite Em; discriminate] | rewrite E4, app_nil_r; reflexivity]).
           split; [exact (K2 (Ok (BAnswer true)))|]. split; [discriminate|]. cbn. rewrite E4, app_nil_r. rewrite H0 in P. exact P.
      * split; [exact K|]. split; [intros X; cbn in X; congruence|].
        cbn [y_run y_lost with_dev r_stored r_hist r_dev]. rewrite E4. unfold missed. rewrite Ew.
        destruct (d_main (r_dev s)); apply perm_missed; exact P.
    + assert (M : missed (RJob c n b) s = []) by reflexivity. rewrite M, app_nil_r.
      unfold job_step in E. destruct (r_wait s) eqn:Ew; [discriminate|].
      destruct (r_pgm s) as [a|e|o k] eqn:Ep; try discriminate.
      destruct o; cbn [same_state] in E;
        try (injection E as <-; apply (ret_done base s lost ag (r_dev s)); auto; try discriminate; fail).
      * destruct (begin_request AStatus (r_dev s)) as [d|] eqn:E3; inversion E.
        apply (ret_done base s lost ag d); auto; try discriminate.
        rewrite (dev_returned (Ask AStatus) _ _ E3). apply app_nil_r.
      * destruct b.
        -- destruct (begin_request _ (r_dev s)) as [d|] eqn:E3; inversion E.
           apply (ret_done base s lost ag d); auto; try discriminate.
           rewrite (dev_returned (Ask _) _ _ E3). apply app_nil_r.
        -- destruct (d_main (r_dev s)); inversion E. apply (ret_done base s lost ag (r_dev s)); auto; discriminate.
      * unfold pass_on, begin_request in E. destruct (d_main (r_dev s)); try discriminate E. injection E as <-.
        split; [cbn; rewrite Ep; exact K|]. split; [intros _; cbn; rewrite Ep; reflexivity|exact P].
      * unfold pass_on, begin_request in E. destruct (d_main (r_dev s)); try discriminate E. injection E as <-.
        split; [cbn; rewrite Ep; exact K|]. split; [intros _; cbn; rewrite Ep; reflexivity|exact P].
      * injection E as <-. destruct K as [K1 K2]. split; [exact (K2 (Ok tt))|]. split; [discriminate|].
        cbn [y_run y_lost done_op r_stored r_hist r_dev]. rewrite <- K1 in P. cbn. rewrite <- app_assoc. exact P.
      * unfold pass_on, begin_request in E. destruct (d_main (r_dev s)); try discriminate E. injection E as <-.
        split; [cbn; rewrite Ep; exact K|]. split; [intros _; cbn; rewrite Ep; reflexivity|exact P].
    + assert (M : missed ROffline s = []) by reflexivity. rewrite M, app_nil_r.
      unfold offline in E. destruct (r_pgm s) as [a|e|o k] eqn:Ep; try discriminate.
      destruct o; try discriminate; injection E as <-; apply (ret_done base s lost ag (r_dev s)); auto; discriminate.
  - unfold late in H. cbn [y_run y_lost y_again] in H.
    destruct (r_pgm s) as [a|e|o k] eqn:Ep; try discriminate. destruct o; try discriminate.
    + destruct (begin_request AStatus (r_dev s)) as [d|] eqn:E3; inversion H.
      split; [cbn; rewrite Ep; exact K|]. split; [intros X; specialize (W X); cbn in W; rewrite Ep in W; contradiction|].
      cbn. rewrite (dev_returned (Ask AStatus) _ _ E3). cbn [given]. rewrite app_nil_r. exact P.
    + destruct (begin_request _ (r_dev s)) as [d|] eqn:E3; inversion H.
      split; [exact K|]. split; [intros X; specialize (W X); cbn in W; rewrite Ep in W; contradiction|].
      cbn. rewrite (dev_returned (Ask _) _ _ E3). cbn [given]. rewrite app_nil_r. exact P.
    + destruct (r_wait s) eqn:Ew; inversion H. split; [exact K|]. split; [discriminate|exact P].
    + destruct (r_wait s) eqn:Ew; inversion H. split; [exact K|]. split; [discriminate|exact P].
    + destruct (r_wait s) eqn:Ew; inversion H. split; [exact K|]. split; [discriminate|exact P].
Qed.
Lemma ret_steps same base ls : Forall alone ls -> forall y y', Iret base y -> ysteps same ls y = Some y' -> Iret base y'.
Proof.
  induction ls as [|l ls IH]; intros Hl y y' I H; cbn in H; [congruence|].
  inversion Hl as [|x xs H1 H2]. subst. destruct (ystep same l y) as [y1|] eqn:E; [|discriminate].
  eapply (IH H2); [|exact H]. eapply ret_step; eauto.
Qed.
Lemma account_lemma same d f pr ts ls y : can_reach d -> Forall alone ls ->
  ysteps same ls (retry_start d (job_thread f pr ts)) = Some y ->
  let s := y_run y in
  Permutation (returned (d_log (r_dev s))) (returned (d_log d) ++ r_stored s ++ received (r_hist s) ++ y_lost y) /\
  Permutation (measured (d_log (r_dev s)))
    (returned (d_log d) ++ r_stored s ++ received (r_hist s) ++ y_lost y ++
     dropped (d_log (r_dev s)) ++ outstanding (r_dev s)).
Proof.
  intros Hd Hl H s.
  assert (I0 : Iret (returned (d_log d)) (retry_start d (job_thread f pr ts))).
  { split; [apply keeps_job|]. split; [discriminate|]. cbn. rewrite app_nil_r. apply Permutation_refl. }
  destruct (ret_steps _ _ _ Hl _ _ I0 H) as (_ & _ & P). fold s in P. split; [exact P|].
  destruct (order_ysteps _ _ (retry_start d (job_thread f pr ts)) _ (order_start d f pr ts Hd) H) as (R & _).
  fold s in R. rewrite (D_ledger _ (Idata_reach _ R)).
  etransitivity; [apply Permutation_app_tail, settled_split|]. rewrite <- app_assoc.
  etransitivity; [apply Permutation_app_tail; exact P|]. rewrite <- !app_assoc. apply Permutation_refl.
Qed.

(** ** Nothing is missed when every answer is in time *)
Definition quiet (s : rsys) : Prop := r_wait s = false -> d_main (r_dev s) = MIdle.
Lemma quiet_step same l s s' : undisturbed l -> quiet s -> rstep same l s = Some s' -> quiet s'.
Proof.
  intros Hl Q H. unfold quiet in *. destruct l as [c f|a| |c n b|]; try contradiction Hl; cbn [rstep] in H.
  - destruct (wstep c f (r_dev s)) as [d|] eqn:E; inversion H. cbn. rewrite (calm_work _ _ _ _ E). exact Q.
  - destruct (mstep (r_dev s)) as [d|] eqn:E; [|discriminate]. cbn [option_map] in H. injection H as <-.
    destruct (r_wait s) eqn:Ew.
    + unfold answer. cbn [with_dev r_pgm]. destruct (r_pgm s) as [a|e|o k]; try (cbn; congruence).
      destruct o; try (cbn; congruence); unfold mstep in E; destruct (d_main (r_dev s)); try (cbn; congruence);
        injection E as <-; reflexivity.
    + unfold mstep in E. rewrite Q in E by reflexivity. discriminate E.
  - unfold job_step in H. destruct (r_wait s); [discriminate|]. specialize (Q eq_refl).
    destruct (r_pgm s) as [a|e|o k]; try discriminate.
    destruct o; cbn [same_state] in H; try (injection H as <-; cbn; auto; fail).
    + unfold begin_request in H. rewrite Q in H. injection H as <-. cbn. auto.
    + unfold begin_request in H. rewrite Q in H. destruct b; injection H as <-; cbn; auto.
    + unfold pass_on, begin_request in H. rewrite Q in H. injection H as <-. cbn. discriminate.
    + unfold pass_on, begin_request in H. rewrite Q in H. injection H as <-. cbn. discriminate.
    + unfold pass_on, begin_request in H. rewrite Q in H. injection H as <-. cbn. discriminate.
Qed.
Lemma quiet_lift same ls : Forall undisturbed ls -> forall y s', quiet (y_run y) -> rsteps same ls (y_run y) = Some s' ->
  exists y', ysteps same (map YStep ls) y = Some y' /\ y_run y' = s' /\ y_lost y' = y_lost y.
Proof.
  induction ls as [|l ls IH]; intros Hl y s' Q H; cbn in H.
  - exists y. split; [reflexivity|]. split; [congruence|reflexivity].
  - inversion Hl as [|x xs H1 H2]. subst. destruct (rstep same l (y_run y)) as [s1|] eqn:E; [|discriminate].
    destruct (IH H2 (mkY s1 (y_lost y ++ missed l (y_run y)) (y_again y)) s') as (y' & A & B & C).
    + exact (quiet_step _ _ _ _ H1 Q E).
    + exact H.
    + exists y'. cbn [map ysteps ystep]. rewrite E. cbn [option_map]. split; [exact A|]. split; [exact B|].
      rewrite C. cbn [y_lost]. unfold missed. destruct l; auto using app_nil_r.
      destruct (r_wait (y_run y)) eqn:Ew; [destruct (d_main (r_dev (y_run y))); apply app_nil_r|].
      rewrite (Q Ew). apply app_nil_r.
Qed.
Lemma C93_account_lemma same d f pr ts ls s : can_reach d -> d_main d = MIdle -> Forall undisturbed ls ->
  rsteps same ls (run_start d (job_thread f pr ts)) = Some s ->
  Permutation (returned (d_log (r_dev s))) (returned (d_log d) ++ r_stored s ++ received (r_hist s)) /\
  Permutation (measured (d_log (r_dev s)))
    (returned (d_log d) ++ r_stored s ++ received (r_hist s) ++ dropped (d_log (r_dev s)) ++ outstanding (r_dev s)).
Proof.
  intros Hd Hm Hl H.
  destruct (quiet_lift same ls Hl (retry_start d (job_thread f pr ts)) s) as (y & A & B & C); [intros _; exact Hm|exact H|].
  assert (Ha : Forall alone (map YStep ls)).
  { clear -Hl. induction Hl as [|l ls H _ IH]; constructor; auto. destruct l; cbn in *; auto. }
  destruct (account_lemma _ _ _ _ _ _ _ Hd Ha A) as [P1 P2]. rewrite B, C in *. cbn in P1, P2.
  rewrite app_nil_r in P1. auto.
Qed.
