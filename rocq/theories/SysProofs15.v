(** * SysProofs15: stopping the drivers (C97) *)
From Coq Require Import List String Ascii ZArith Bool Sorted Lia.
From Verif Require Import Base PyStr BaseFacts Types ConfigModel Prog ProgFacts World WorldFacts Replies
  CmdModel KetchupModel TomatoModel JobModel PipModel DrvModel SysModel RGFacts SysOps
  SpecQueue SpecSys SpecSys2 SpecStuck SpecQuit SysProofs SysProofs2 SysProofs3 SysProofs6 SysProofs14 SysPlay.
Import ListNotations.
Open Scope list_scope.
Open Scope Z_scope.

(** ** Without interference *)
Lemma quit_one_run w d : is_some (dv_port d) = is_some (dv_pid d) ->
  (forall p, dv_port d = Some p -> w_driver w p CStop <> None) ->
  exists w', run exec (drv_quit_one tt d) w = (Ok tt, w') /\ w_log w' = rev (stops [d]) ++ w_log w /\
    w_drvs w' = w_drvs w /\ w_driver w' = w_driver w.
Proof.
  intros E A. unfold drv_quit_one, stops. cbn [flat_map]. rewrite app_nil_r.
  destruct (dv_pid d) as [pid|] eqn:P, (dv_port d) as [p|] eqn:Q.
  - specialize (A p eq_refl). cbn. destruct (w_driver w p CStop); [|congruence]. cbn. eexists. repeat split.
  - discriminate E.
  - discriminate E.
  - exists w. repeat split.
Qed.
Lemma stops_app l d : stops (l ++ [d]) = stops l ++ stops [d].
Proof. unfold stops. rewrite flat_map_app. reflexivity. Qed.
Lemma quit_loop_run : forall l w, (forall d, In d l -> is_some (dv_port d) = is_some (dv_pid d)) ->
  (forall d p, In d l -> dv_port d = Some p -> w_driver w p CStop <> None) ->
  exists w', run exec (forP drv_quit_one tt l) w = (Ok tt, w') /\ w_log w' = rev (stops l) ++ w_log w /\
    w_drvs w' = w_drvs w.
Proof.
  induction l as [|d l IH]; intros w E A.
  - exists w. repeat split.
  - cbn [forP]. rewrite run_bind.
    destruct (quit_one_run w d) as (w1 & R & L & D & V); [apply E; now left|intros p; apply A; now left|].
    rewrite R. destruct (IH w1) as (w2 & R2 & L2 & D2).
    + intros x X. apply E. now right.
    + intros x p X. rewrite V. apply A. now right.
    + exists w2. split; [exact R2|]. rewrite L2, L, D2, D. split; [|reflexivity].
      change (stops (d :: l)) with ((match dv_port d with Some p => [EvRequest p CStop] | None => [] end) ++ stops l).
      rewrite rev_app_distr, <- app_assoc. f_equal. unfold stops. cbn [flat_map]. rewrite app_nil_r. reflexivity.
Qed.
Lemma quit_run w dm : w_daemon w = Some dm -> port_pid w -> drivers_answer w ->
  exists w', run exec drv_quit w = (Ok tt, w') /\ w_log w' = rev (stops (w_drvs w)) ++ w_log w /\ w_drvs w' = w_drvs w.
Proof.
  intros D P A. unfold drv_quit. rewrite run_bind, run_act. cbn [exec]. rewrite D, run_bind, run_act. cbn [exec].
  apply quit_loop_run.
  - exact P.
  - intros d p X. apply A. exact X.
Qed.
Lemma quit_loop_needs : forall l w w', run exec (forP drv_quit_one tt l) w = (Ok tt, w') ->
  forall d p, In d l -> dv_pid d <> None -> dv_port d = Some p -> w_driver w p CStop <> None.
Proof.
  induction l as [|x l IH]; intros w w' R d p I N Q; [destruct I|].
  cbn [forP] in R. rewrite run_bind in R.
  destruct (run exec (drv_quit_one tt x) w) as [[[]|e] w1] eqn:E; [|discriminate].
  assert (V : w_driver w1 = w_driver w).
  { unfold drv_quit_one in E. destruct (dv_pid x), (dv_port x); cbn in E; try (injection E as <-; reflexivity).
    - destruct (w_driver w z0 CStop); cbn in E; [injection E as <-; reflexivity|discriminate].
    - destruct (get_proc (w_procs w) z); cbn in E; discriminate. }
  destruct I as [->|I].
  - unfold drv_quit_one in E. rewrite Q in E. destruct (dv_pid d); [|congruence]. cbn in E.
    intros H. rewrite H in E. discriminate.
  - rewrite <- V. eapply IH; eauto.
Qed.
Lemma quit_exact w dm : w_daemon w = Some dm -> port_pid w ->
  (fst (run exec drv_quit w) = Ok tt <-> drivers_answer w).
Proof.
  intros D P. split.
  - intros H d p I Q. unfold drv_quit in H. rewrite run_bind, run_act in H. cbn [exec] in H. rewrite D, run_bind, run_act in H. cbn [exec] in H.
    destruct (run exec (forP drv_quit_one tt (w_drvs w)) w) as [r w'] eqn:E. cbn in H. subst r.
    eapply quit_loop_needs; eauto. intros N. specialize (P d I). rewrite Q, N in P. discriminate.
  - intros A. destruct (quit_run w dm D P A) as (w' & -> & _). reflexivity.
Qed.

(** ** In an execution *)
Definition grown (w w' : world) : Prop := exists new, w_log w' = new ++ w_log w.
Lemma grown_refl w : grown w w.
Proof. exists []. reflexivity. Qed.
Lemma grown_trans a b c : grown a b -> grown b c -> grown a c.
Proof. intros [x X] [y Y]. exists (y ++ x). rewrite Y, X. apply app_assoc. Qed.
Lemma grown_exec o w : grown w (snd (exec o w)).
Proof.
  destruct o; cbn; repeat match goal with |- context [match ?x with _ => _ end] => destruct x end;
    try (exists []; reflexivity); try (eexists [_]; reflexivity).
  all: try (unfold ask; repeat match goal with |- context [match ?x with _ => _ end] => destruct x end;
    try (exists []; reflexivity); try (eexists [_]; reflexivity)).
Qed.
Lemma grown_step l s s' : step l s = Some s' -> grown (s_world s) (s_world s').
Proof.
  intros H. destruct l; cbn in H;
    repeat match type of H with (match ?x with _ => _ end) = _ => destruct x eqn:?; try discriminate end;
    try (injection H as <-; exists []; reflexivity).
  unfold step_thread in H. destruct (t_pgm t) as [a|e|o c]; [|discriminate|].
  - destruct (mgr_pass (t_kind t)); [|discriminate]. destruct (t_done t); [discriminate|].
    destruct (s_run s); injection H as <-; exists []; reflexivity.
  - pose proof (grown_exec o (s_world s)) as G. destruct (exec o (s_world s)) as [r w2]. injection H as <-. exact G.
Qed.
Lemma grown_runs ls : forall s s', runs ls s = Some s' -> grown (s_world s) (s_world s').
Proof.
  induction ls as [|l ls IH]; intros s s' H; cbn in H; [injection H as <-; apply grown_refl|].
  destruct (step l s) as [s1|] eqn:E; [|discriminate]. eapply grown_trans; [eapply grown_step; eauto|eauto].
Qed.

Lemma set_nth_other {A} (l : list A) : forall n m x, n <> m -> nth_error (set_nth n x l) m = nth_error l m.
Proof.
  induction l as [|y l IH]; intros [|n] [|m] x H; cbn; try reflexivity; try congruence. apply IH. congruence.
Qed.
(** A manager is only moved on by its own steps. *)
Lemma thread_kept l s s' n t : daemon_stays l -> l <> LStep n -> nth_error (s_threads s) n = Some t ->
  is_mgr (t_kind t) = true -> step l s = Some s' -> nth_error (s_threads s') n = Some t.
Proof.
  intros [D1 D2] N E M H.
  assert (A : forall x, nth_error (s_threads s ++ x) n = Some t).
  { intros x. rewrite nth_error_app1; [exact E|]. apply nth_error_Some. congruence. }
  destruct l; cbn in H;
    repeat match type of H with (match ?x with _ => _ end) = _ => destruct x eqn:?; try discriminate end;
    try congruence; try (injection H as <-; exact E); try (injection H as <-; apply A).
  - assert (n0 <> n) by congruence. unfold step_thread in H. destruct (t_pgm t0) as [a|e|o c]; [|discriminate|].
    + destruct (mgr_pass (t_kind t0)); [|discriminate]. destruct (t_done t0); [discriminate|].
      destruct (s_run s); injection H as <-; cbn; rewrite set_nth_other; assumption.
    + destruct (exec o (s_world s)) as [r w2]. injection H as <-. cbn. rewrite set_nth_other; assumption.
  - injection H as <-. cbn. rewrite set_nth_other; [exact E|]. intros ->. congruence.
Qed.
Lemma set_nth_same {A} (l : list A) : forall n x y, nth_error l n = Some y -> nth_error (set_nth n x l) n = Some x.
Proof. induction l as [|z l IH]; intros [|n] x y H; cbn in *; try discriminate; eauto. Qed.
(** If the manager comes to the end of its program, it has taken its next step. *)
Lemma next_step ls : forall s s' n t, Forall daemon_stays ls -> runs ls s = Some s' ->
  nth_error (s_threads s) n = Some t -> is_mgr (t_kind t) = true -> (forall t', nth_error (s_threads s') n = Some t' -> t' <> t) ->
  exists ls1 ls2 s1 s2, ls = ls1 ++ LStep n :: ls2 /\ runs ls1 s = Some s1 /\ nth_error (s_threads s1) n = Some t /\
    step (LStep n) s1 = Some s2 /\ runs ls2 s2 = Some s' /\ Forall daemon_stays ls2.
Proof.
  induction ls as [|l ls IH]; intros s s' n t D R E M X; cbn in R.
  - injection R as <-. exfalso. eapply X; eauto.
  - destruct (step l s) as [s1|] eqn:S; [|discriminate]. inversion D as [|? ? D1 D2]; subst.
    assert (Y : l = LStep n \/ l <> LStep n).
    { destruct l; try (right; congruence). destruct (Nat.eq_dec n0 n) as [->|]; [now left|right; congruence]. }
    destruct Y as [->|Y].
    + exists [], ls, s, s1. repeat split; auto.
    + destruct (IH s1 s' n t D2 R (thread_kept _ _ _ _ _ D1 Y E M S) M X) as (l1 & l2 & s2 & s3 & -> & R1 & E1 & S1 & R2 & F).
      exists (l :: l1), l2, s2, s3. repeat split; auto. cbn. rewrite S. exact R1.
Qed.
Lemma own_step s n t s' : nth_error (s_threads s) n = Some t -> step (LStep n) s = Some s' ->
  match t_pgm t with
  | Op o k => s_world s' = snd (exec o (s_world s)) /\
      nth_error (s_threads s') n = Some (mkThread (t_kind t) (k (fst (exec o (s_world s)))) (t_done t))
  | Raise _ => False
  | Ret _ => s_world s' = s_world s /\ t_done t = false /\ exists p, mgr_pass (t_kind t) = Some p /\
      nth_error (s_threads s') n = Some
        (if s_run s then mkThread (t_kind t) (no_reply p) false
         else mkThread (t_kind t) (match t_kind t with KDrvMgr => no_reply drv_quit | _ => Ret None end) true)
  end.
Proof.
  intros E H. cbn in H. rewrite E in H. unfold step_thread in H.
  destruct (t_pgm t) as [a|e|o k]; [|discriminate|].
  - destruct (mgr_pass (t_kind t)) as [p|]; [|discriminate]. destruct (t_done t); [discriminate|].
    destruct (s_run s); injection H as <-; (split; [reflexivity|]; split; [reflexivity|]; exists p; split; [reflexivity|];
      cbn; eapply set_nth_same; eauto).
  - destruct (exec o (s_world s)) as [r w2] eqn:X. injection H as <-. cbn [s_world s_threads fst snd]. split; [reflexivity|].
    eapply set_nth_same; eauto.
Qed.
Lemma op_next {ls s s' n t o k} : Forall daemon_stays ls -> runs ls s = Some s' -> left_loop n s' ->
  nth_error (s_threads s) n = Some t -> is_mgr (t_kind t) = true -> t_pgm t = Op o k ->
  exists ls1 ls2 s1 s2, ls = ls1 ++ LStep n :: ls2 /\ runs ls1 s = Some s1 /\ runs ls2 s2 = Some s' /\ Forall daemon_stays ls2 /\
    step (LStep n) s1 = Some s2 /\ s_world s2 = snd (exec o (s_world s1)) /\
    nth_error (s_threads s2) n = Some (mkThread (t_kind t) (k (fst (exec o (s_world s1)))) (t_done t)).
Proof.
  intros D R (t' & r & E' & P' & _) E M P.
  destruct (next_step ls s s' n t D R E M) as (l1 & l2 & s1 & s2 & -> & R1 & E1 & S & R2 & F).
  { intros x X ->. rewrite E' in X. injection X as ->. congruence. }
  exists l1, l2, s1, s2. pose proof (own_step _ _ _ _ E1 S) as O. rewrite P in O. destruct O as [O1 O2]. repeat split; auto.
Qed.
Lemma quit_begins ls : forall s s' n, Forall daemon_stays ls -> runs ls s = Some s' -> manages_drivers n s -> left_loop n s' ->
  exists ls1 ls2 s1, ls = ls1 ++ ls2 /\ runs ls1 s = Some s1 /\ runs ls2 s1 = Some s' /\ Forall daemon_stays ls2 /\
    nth_error (s_threads s1) n = Some (mkThread KDrvMgr (no_reply drv_quit) true).
Proof.
  induction ls as [|l ls IH]; intros s s' n D R (t & E & K & Dn) L; cbn in R.
  - injection R as <-. destruct L as (t' & r & E' & _ & D'). congruence.
  - destruct (step l s) as [s1|] eqn:S; [|discriminate]. inversion D as [|? ? D1 D2]; subst.
    assert (Y : l = LStep n \/ l <> LStep n).
    { destruct l; try (right; congruence). destruct (Nat.eq_dec n0 n) as [->|]; [now left|right; congruence]. }
    assert (C : manages_drivers n s1 -> exists ls1 ls2 s1, l :: ls = ls1 ++ ls2 /\ runs ls1 s = Some s1 /\ runs ls2 s1 = Some s' /\
      Forall daemon_stays ls2 /\ nth_error (s_threads s1) n = Some (mkThread KDrvMgr (no_reply drv_quit) true)).
    { intros X. destruct (IH s1 s' n D2 R X L) as (l1 & l2 & s2 & -> & R1 & R2 & F & E2).
      exists (l :: l1), l2, s2. cbn. rewrite S. auto. }
    destruct Y as [->|Y].
    + pose proof (own_step _ _ _ _ E S) as O. destruct (t_pgm t) as [a|e|o k].
      * destruct O as (_ & _ & p & _ & O). rewrite K in O. destruct (s_run s).
        -- apply C. eexists. split; [exact O|]. split; reflexivity.
        -- exists [LStep n], ls, s1. cbn -[step]. rewrite S. auto.
      * destruct O.
      * apply C. destruct O as [_ O]. eexists. split; [exact O|]. split; [exact K|exact Dn].
    + apply C. exists t. split; [eapply thread_kept; eauto; rewrite K; reflexivity|]. auto.
Qed.
Lemma quit_told ls : forall s s' n l, Forall daemon_stays ls -> runs ls s = Some s' -> left_loop n s' ->
  nth_error (s_threads s) n = Some (mkThread KDrvMgr (no_reply (forP drv_quit_one tt l)) true) ->
  forall d p, In d l -> dv_pid d <> None -> dv_port d = Some p ->
  exists new, w_log (s_world s') = new ++ w_log (s_world s) /\ In (EvRequest p CStop) new.
Proof.
  intros s s' n l. revert ls s. induction l as [|x l IH]; intros ls s D R L E d p I N Q; [destruct I|].
  unfold no_reply in E. cbn [forP] in E. unfold drv_quit_one at 1 in E.
  destruct (dv_pid x) as [pid|] eqn:XP.
  - destruct (dv_port x) as [px|] eqn:XQ.
    + destruct (op_next D R L E eq_refl eq_refl) as (l1 & l2 & s1 & s2 & -> & R1 & R2 & F & _ & W & E2).
      cbn [t_kind t_done] in E2. cbn [exec ask] in W, E2.
      assert (G1 : grown (s_world s) (s_world s1)) by (eapply grown_runs; eauto).
      assert (G2 : grown (s_world s2) (s_world s')) by (eapply grown_runs; eauto).
      destruct (w_driver (s_world s1) px CStop) as [r|] eqn:A.
      * cbn in E2. destruct I as [->|I].
        -- rewrite Q in XQ. injection XQ as <-. destruct G1 as [a A1], G2 as [b B1].
           exists (b ++ EvRequest p CStop :: a). rewrite B1, W. cbn. rewrite A1.
           split; [rewrite <- app_assoc; reflexivity|]. apply in_app_iff. right. now left.
        -- destruct (IH l2 s2 F R2 L E2 d p I N Q) as (new & B1 & B2). destruct G1 as [a A1].
           exists (new ++ EvRequest px CStop :: a). rewrite B1, W. cbn. rewrite A1.
           split; [rewrite <- app_assoc; reflexivity|]. apply in_app_iff. now left.
      * exfalso. cbn in E2. clear - F R2 L E2.
        destruct L as (t' & r' & E' & P' & _).
        destruct (next_step l2 s2 s' n _ F R2 E2 eq_refl) as (? & ? & y1 & y2 & _ & _ & E1 & S & _).
        { intros x X ->. rewrite E' in X. injection X as ->. discriminate P'. }
        pose proof (own_step _ _ _ _ E1 S) as O. exact O.
    + exfalso. destruct (op_next D R L E eq_refl eq_refl) as (l1 & l2 & s1 & s2 & -> & R1 & R2 & F & _ & W & E2).
      cbn [t_kind t_done] in E2. destruct L as (t' & r' & E' & P' & _).
      assert (Z : exists e, nth_error (s_threads s2) n = Some (mkThread KDrvMgr (Raise e) true)).
      { cbn in E2. destruct (get_proc (w_procs (s_world s1)) pid); cbn in E2; eauto. }
      destruct Z as [e Z].
      destruct (next_step l2 s2 s' n _ F R2 Z eq_refl) as (? & ? & y1 & y2 & _ & _ & E1 & S & _).
      { intros y X ->. rewrite E' in X. injection X as ->. discriminate P'. }
      pose proof (own_step _ _ _ _ E1 S) as O. exact O.
  - cbn [bind] in E. destruct I as [->|I]; [congruence|]. eapply IH; eauto.
Qed.
(** A manager lives in a daemon. *)
Lemma daemon_exec o w : w_daemon w <> None -> w_daemon (snd (exec o w)) <> None.
Proof.
  intros H. destruct o; cbn; repeat match goal with |- context [match ?x with _ => _ end] => destruct x eqn:? end;
    cbn; try congruence.
  all: unfold ask; repeat match goal with |- context [match ?x with _ => _ end] => destruct x end; cbn; congruence.
Qed.
Lemma daemon_step l s s' : daemon_stays l -> step l s = Some s' -> w_daemon (s_world s) <> None -> w_daemon (s_world s') <> None.
Proof.
  intros [D1 D2] H N. destruct l; cbn in H;
    repeat match type of H with (match ?x with _ => _ end) = _ => destruct x eqn:?; try discriminate end;
    try congruence; try (injection H as <-; exact N); try (injection H as <-; cbn; congruence).
  unfold step_thread in H. destruct (t_pgm t) as [a|e|o c]; [|discriminate|].
  - destruct (mgr_pass (t_kind t)); [|discriminate]. destruct (t_done t); [discriminate|].
    destruct (s_run s); injection H as <-; exact N.
  - pose proof (daemon_exec o (s_world s) N) as G. destruct (exec o (s_world s)) as [r w2]. injection H as <-. exact G.
Qed.
Lemma daemon_runs ls : forall s s', Forall daemon_stays ls -> runs ls s = Some s' -> w_daemon (s_world s) <> None -> w_daemon (s_world s') <> None.
Proof.
  induction ls as [|l ls IH]; intros s s' D R N; cbn in R; [injection R as <-; exact N|].
  inversion D; subst. destruct (step l s) as [s1|] eqn:E; [|discriminate]. eapply IH; eauto. eapply daemon_step; eauto.
Qed.
Definition housed (s : sys) : Prop := forall t, In t (s_threads s) -> is_mgr (t_kind t) = true -> w_daemon (s_world s) <> None.
Lemma In_set_nth {A} (l : list A) : forall n x y, In y (set_nth n x l) -> y = x \/ In y l.
Proof.
  induction l as [|z l IH]; intros [|n] x y H; cbn in *; auto.
  - destruct H as [->|H]; auto.
  - destruct H as [->|H]; auto. destruct (IH _ _ _ H); auto.
Qed.
Lemma housed_step l s s' : housed s -> step l s = Some s' -> housed s'.
Proof.
  intros P H t I M.
  assert (Y : ~ daemon_stays l \/ daemon_stays l).
  { unfold daemon_stays. destruct l; try (right; split; congruence); left; intros [? ?]; congruence. }
  destruct Y as [Y|Y].
  - exfalso. assert (Z : l = LCrash \/ l = LExit).
    { destruct l; auto; exfalso; apply Y; split; congruence. }
    assert (F : s_threads s' = filter (fun t => negb (is_mgr (t_kind t))) (s_threads s)).
    { destruct Z as [-> | ->]; cbn in H;
      repeat match type of H with (match ?x with _ => _ end) = _ => destruct x eqn:?; try discriminate end;
      injection H as <-; reflexivity. }
    rewrite F in I. apply filter_In in I. destruct I as [_ I]. rewrite M in I. discriminate.
  - assert (O : In t (s_threads s) \/ w_daemon (s_world s) <> None \/
      exists n t0, nth_error (s_threads s) n = Some t0 /\ t_kind t = t_kind t0).
    { clear Y. destruct l; cbn in H;
      repeat match type of H with (match ?x with _ => _ end) = _ => destruct x eqn:?; try discriminate end;
      try (injection H as <-; left; exact I);
      try (right; left; congruence);
      try (injection H as <-; cbn in I; apply in_app_iff in I; destruct I as [I|[<-|[]]]; [left; exact I|discriminate M]).
      - unfold step_thread in H. destruct (t_pgm t0) as [a|e|o c]; [|discriminate|].
        + destruct (mgr_pass (t_kind t0)); [|discriminate]. destruct (t_done t0); [discriminate|].
          destruct (s_run s); injection H as <-; cbn in I; apply In_set_nth in I; destruct I as [->|I]; eauto 6.
        + destruct (exec o (s_world s)) as [r w2]. injection H as <-. cbn in I. apply In_set_nth in I. destruct I as [->|I]; eauto 6.
      - injection H as <-. cbn in I. apply In_set_nth in I. destruct I as [->|I]; [|auto]. cbn in M. congruence. }
    eapply daemon_step; eauto. destruct O as [O|[O|(n & t0 & E & K)]].
    + eapply P; eauto.
    + exact O.
    + eapply P; [eapply nth_error_In; eauto|congruence].
Qed.
Lemma housed_runs w ls s : runs ls (start_sys w) = Some s -> housed s.
Proof.
  intros R. assert (P0 : housed (start_sys w)) by (intros t []). revert P0 R. generalize (start_sys w).
  induction ls as [|l ls IH]; intros s0 P R; cbn in R; [injection R as <-; exact P|].
  destruct (step l s0) as [s1|] eqn:E; [|discriminate]. eapply IH; [|exact R]. eapply housed_step; eauto.
Qed.
Lemma C97_lemma w0 ls0 ls s s' n : runs ls0 (start_sys w0) = Some s -> Forall daemon_stays ls -> runs ls s = Some s' -> manages_drivers n s -> left_loop n s' ->
  exists ls1 ls2 s1, ls = ls1 ++ ls2 /\ runs ls1 s = Some s1 /\
    forall d p, In d (w_drvs (s_world s1)) -> dv_pid d <> None -> dv_port d = Some p ->
    exists new, w_log (s_world s') = new ++ w_log (s_world s1) /\ In (EvRequest p CStop) new.
Proof.
  intros R0 D R M L.
  assert (N0 : w_daemon (s_world s) <> None).
  { destruct M as (t & E & K & _). eapply (housed_runs _ _ _ R0 t); [eapply nth_error_In; eauto|rewrite K; reflexivity]. }
  destruct (quit_begins ls s s' n D R M L) as (a1 & a2 & s1 & -> & R1 & R2 & F & E).
  destruct (op_next F R2 L E eq_refl eq_refl) as (b1 & b2 & s2 & s3 & -> & R3 & R4 & F2 & S2 & W & E2).
  cbn [t_kind t_done] in E2. cbn in E2.
  assert (RR : forall e, nth_error (s_threads s3) n = Some (mkThread KDrvMgr (Raise e) true) -> False).
  { intros e Z. destruct L as (t' & r' & E' & P' & _).
    destruct (next_step b2 s3 s' n _ F2 R4 Z eq_refl) as (? & ? & y1 & y2 & _ & _ & E1 & S & _).
    { intros y X ->. rewrite E' in X. injection X as ->. discriminate P'. }
    pose proof (own_step _ _ _ _ E1 S) as O. exact O. }
  cbn in W.
  assert (D2 : w_daemon (s_world s2) <> None).
  { apply (daemon_runs (a1 ++ b1) s s2); [|rewrite runs_app, R1; exact R3|exact N0].
    apply Forall_app in D. destruct D as [D1 D2]. apply Forall_app in D2. apply Forall_app. split; [exact D1|apply D2]. }
  destruct (w_daemon (s_world s2)) as [dm|] eqn:DM; [|congruence]. cbn in E2.
  destruct (op_next F2 R4 L E2 eq_refl eq_refl) as (c1 & c2 & s4 & s5 & -> & R5 & R6 & F3 & _ & W2 & E3).
  cbn [t_kind t_done] in E3. cbn in E3, W2.
  exists (a1 ++ b1 ++ LStep n :: c1), (LStep n :: c2), s4.
  split; [rewrite <- !app_assoc; reflexivity|].
  split.
  - rewrite runs_app, R1, runs_app, R3. cbn -[step]. rewrite S2. exact R5.
  - intros d p I N Q. rewrite <- W2. eapply quit_told; eauto.
Qed.

(** ** A manager that waits keeps the daemon alive *)
Lemma waits_no_exit k s : stuck k Blocked s -> step LExit s = None.
Proof.
  intros (M & t & I & K & P). cbn. destruct (w_daemon (s_world s)); [|reflexivity].
  destruct (negb (s_run s)); [|reflexivity]. cbn.
  destruct (forallb _ (s_threads s)) eqn:F; [|reflexivity].
  rewrite forallb_forall in F. specialize (F t I). unfold ended, waits in F. rewrite K, M, P in F. discriminate F.
Qed.
Lemma waits_runs k ls : forall s s', stuck k Blocked s -> ~ In LCrash ls -> runs ls s = Some s' ->
  stuck k Blocked s' /\ Forall daemon_stays ls.
Proof.
  induction ls as [|l ls IH]; intros s s' S N R; cbn -[step] in R; [injection R as <-; auto|].
  destruct (step l s) as [s1|] eqn:E; [|discriminate].
  assert (D : daemon_stays l).
  { split; [intros ->; apply N; now left|]. intros ->. rewrite (waits_no_exit k s S) in E. discriminate. }
  destruct (IH s1 s') as [S1 F]; [eapply stuck_step; eauto|intros X; apply N; now right|exact R|]. auto.
Qed.

Lemma exit_exact : forall s,
  (exists s', step LExit s = Some s') <->
  w_daemon (s_world s) <> None /\ s_run s = false /\
  forall t, In t (s_threads s) -> (t_kind t = KJobMgr \/ t_kind t = KPipMgr \/ t_kind t = KDrvMgr) ->
    (exists r, t_pgm t = Ret r /\ t_done t = true) \/ (exists e, t_pgm t = Raise e /\ e <> Blocked).
Proof.
  intros s. cbn [step].
  assert (M : forall t, negb (is_mgr (t_kind t)) || (ended t && negb (waits t)) = true <->
    ((t_kind t = KJobMgr \/ t_kind t = KPipMgr \/ t_kind t = KDrvMgr) ->
     (exists r, t_pgm t = Ret r /\ t_done t = true) \/ (exists e, t_pgm t = Raise e /\ e <> Blocked))).
  { intros t. unfold ended, waits.
    assert (K : is_mgr (t_kind t) = true <-> (t_kind t = KJobMgr \/ t_kind t = KPipMgr \/ t_kind t = KDrvMgr)).
    { destruct (t_kind t); cbn; split; auto; try discriminate; intros [H|[H|H]]; discriminate. }
    destruct (is_mgr (t_kind t)).
    - cbn [negb orb]. assert (K1 := proj1 K eq_refl). clear K. destruct (t_pgm t) as [r|e|o k].
      + rewrite andb_true_r. split; [intros D _; left; eauto|].
        intros H. destruct (H K1) as [(r' & _ & D)|(e & E & _)]; [exact D|discriminate E].
      + split.
        * intros D _. right. exists e. split; [reflexivity|]. intros ->. discriminate D.
        * intros H. destruct (H K1) as [(r' & E & _)|(e' & E & N)]; [discriminate E|]. injection E as ->.
          destruct e'; try reflexivity. contradiction.
      + split; [discriminate|]. intros H. destruct (H K1) as [(r' & E & _)|(e & E & _)]; discriminate E.
    - split; [|reflexivity]. intros _ H. apply K in H. discriminate H. }
  destruct (w_daemon (s_world s)) as [d|].
  2:{ split; [intros [s' H]; discriminate H|]. intros [H _]. now elim H. }
  destruct (s_run s); cbn [negb andb].
  { split; [intros [s' H]; discriminate H|]. intros (_ & H & _). discriminate H. }
  destruct (forallb _ (s_threads s)) eqn:F.
  - split; [|eauto]. intros _. split; [discriminate|]. split; [reflexivity|]. intros t I.
    rewrite forallb_forall in F. apply M. exact (F t I).
  - split; [intros [s' H]; discriminate H|]. intros (_ & _ & H).
    rewrite (proj2 (forallb_forall _ _)) in F; [discriminate F|]. intros t I. apply M. exact (H t I).
Qed.
