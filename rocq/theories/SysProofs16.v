(** * SysProofs16: the managers go on until the daemon is told to stop (C97) *)
From Coq Require Import List String Ascii ZArith Bool Sorted Lia.
From Verif Require Import Base PyStr BaseFacts Types ConfigModel Prog ProgFacts World WorldFacts Replies
  CmdModel KetchupModel TomatoModel JobModel PipModel DrvModel SysModel RGFacts SysOps
  SpecQueue SpecSys SpecSys2 SpecStuck SpecQuit SysProofs SysProofs3.
Import ListNotations.
Open Scope list_scope.
Open Scope Z_scope.

Definition anyw (w : world) : Prop := True.
Definition maygr (k : kind) (o : op) (w : world) : Prop := may k o.

Lemma maygr_start k (p : pgm (option reply)) w : all_ops (may k) p -> okp exec (rely anyw any k) (maygr k) p w.
Proof. intros H. eapply all_ops_okp; [|exact H]. intros w0 w1 o _ Ho. exact Ho. Qed.

Lemma maygr_inv ls s s' : rg_inv anyw any maygr s -> runs ls s = Some s' -> rg_inv anyw any maygr s'.
Proof.
  intros Hi Hr. eapply rg_steps with (okl := fun _ => True) (R := any); try exact Hr; try exact Hi.
  - intros; exact I.
  - intros; exact I.
  - intros; exact I.
  - intros; exact I.
  - intros. split; [exact I|intros; exact I].
  - intros. apply maygr_start, ops_cmd.
  - intros k p w Hp _. apply maygr_start, ops_mgr, Hp.
  - intros. apply maygr_start, ops_quit.
  - intros. apply maygr_start, ops_job.
  - intros. apply maygr_start, ops_driver.
  - apply Forall_forall. intros; exact I.
Qed.

(** Managers are told to stop, and leave their loops, only then. *)
Definition told_inv (s : sys) : Prop :=
  (s_run s = false -> stopping s) /\
  forall t, In t (s_threads s) -> t_done t = true -> s_run s = false /\ is_mgr (t_kind t) = true.

Lemma stopping_exec k o w : may k o ->
  (exists d, w_daemon w = Some d /\ dm_status d = Dstop) ->
  exists d, w_daemon (snd (exec o w)) = Some d /\ dm_status d = Dstop.
Proof.
  intros M (d & E & S).
  destruct o; try (rewrite daemon_other by congruence; eauto; fail); cbn [exec]; rewrite E; cbn; eauto.
  - eexists. split; [reflexivity|]. cbn. destruct M as [[]|M]. destruct k; cbn in M; try contradiction. exact M.
Qed.

Lemma in_set_nth {A} (x y : A) : forall l n, In y (set_nth n x l) -> y = x \/ In y l.
Proof.
  induction l as [|a l IH]; intros [|n] H; cbn in H; auto.
  - destruct H as [H|H]; auto. right. right. exact H.
  - destruct H as [H|H]; [right; left; exact H|]. destruct (IH n H); auto. right. right. assumption.
Qed.

Lemma told_step l s s' : rg_inv anyw any maygr s -> step l s = Some s' -> told_inv s -> told_inv s'.
Proof.
  intros Hi Hs [H1 H2].
  assert (Hf : forall r, (forall t, In t (filter (fun t => negb (is_mgr (t_kind t))) (s_threads s)) ->
     t_done t = true -> r = false /\ is_mgr (t_kind t) = true)).
  { intros r t Ht D. apply filter_In in Ht. destruct Ht as [Ht M]. destruct (H2 t Ht D) as [_ E].
    rewrite E in M. discriminate M. }
  assert (Ha : forall t0, t_done t0 = false -> forall t, In t (s_threads s ++ [t0]) -> t_done t = true ->
     s_run s = false /\ is_mgr (t_kind t) = true).
  { intros t0 D0 t Ht D. apply in_app_or in Ht. destruct Ht as [Ht|[<-|[]]]; [eauto|]. congruence. }
  destruct l.
  - injection Hs as <-. split; [exact H1|]. cbn. apply Ha. reflexivity.
  - pose proof Hs as Hs0.
    destruct (rg_guar _ _ _ ltac:(intros; exact I) _ _ _ Hi Hs0) as [E|(t & o & k & En & Ep & M & E)].
    + cbn in Hs. destruct (nth_error (s_threads s) n) as [t|] eqn:En; [|discriminate].
      pose proof (nth_error_In _ _ En) as In0.
      unfold step_thread in Hs. destruct (t_pgm t) as [r|e|o k]; [|discriminate|].
      * destruct (mgr_pass (t_kind t)) eqn:Mp; [|discriminate]. destruct (t_done t) eqn:D; [discriminate|].
        assert (Mg : is_mgr (t_kind t) = true) by (destruct (t_kind t); auto; discriminate).
        destruct (s_run s) eqn:R; injection Hs as <-;
          (split; [cbn; intros Z; apply H1; congruence|]); intros t1 Ht D1; cbn in Ht;
          apply in_set_nth in Ht; destruct Ht as [->|Ht]; cbn in *; eauto.
        all: try discriminate D1; rewrite R; auto; destruct (H2 t1 Ht D1); congruence.
      * destruct (exec o (s_world s)) as [r w] eqn:X. injection Hs as <-. cbn in E. subst w. split.
        -- exact H1.
        -- intros t1 Ht D1. cbn in Ht. apply in_set_nth in Ht. destruct Ht as [->|Ht]; cbn in *; eauto.
    + cbn in Hs. rewrite En in Hs. unfold step_thread in Hs. rewrite Ep in Hs.
      destruct (exec o (s_world s)) as [r w] eqn:X. injection Hs as <-. split.
      * cbn. intros R. unfold stopping. cbn. replace w with (snd (exec o (s_world s))) by (rewrite X; reflexivity).
        eapply stopping_exec; [exact M|]. exact (H1 R).
      * intros t1 Ht D1. cbn in Ht. apply in_set_nth in Ht. destruct Ht as [->|Ht]; cbn in *; eauto.
        apply (H2 t); [eapply nth_error_In; eauto|exact D1].
  - cbn in Hs. destruct (nth_error (s_threads s) n) as [t|]; [|discriminate].
    destruct (is_mgr (t_kind t)); [discriminate|]. injection Hs as <-. split; [exact H1|].
    intros t1 Ht D1. cbn in Ht. apply in_set_nth in Ht. destruct Ht as [->|Ht]; [discriminate D1|]. eauto.
  - cbn in Hs. destruct (w_daemon (s_world s)); [|discriminate]. injection Hs as <-. split; [discriminate|].
    apply Hf.
  - cbn in Hs. destruct (w_daemon (s_world s)); [|discriminate]. destruct (mgr_pass k); [|discriminate].
    destruct (has_kind k s); [discriminate|]. injection Hs as <-. split; [exact H1|]. apply Ha. reflexivity.
  - cbn in Hs. destruct (w_daemon (s_world s)) as [d|] eqn:W; [|discriminate].
    destruct (dm_status d) eqn:S; try discriminate. injection Hs as <-. split; [intros _; exists d; auto|].
    intros t Ht D. split; [reflexivity|]. apply (H2 t Ht D).
  - cbn in Hs. destruct (w_daemon (s_world s)); [|discriminate].
    match type of Hs with (if ?c then _ else _) = _ => destruct c; [|discriminate] end.
    injection Hs as <-. split; [discriminate|]. apply Hf.
  - cbn in Hs. destruct (nth_error (w_spawned (s_world s)) i) as [a|]; [|discriminate].
    destruct (get_proc (w_procs (s_world s)) pid); [discriminate|]. injection Hs as <-. split; [exact H1|].
    apply Ha. reflexivity.
  - cbn in Hs. destruct (nth_error (w_spawned (s_world s)) i) as [a|]; [|discriminate].
    injection Hs as <-. split; [exact H1|exact H2].
  - injection Hs as <-. split; [exact H1|]. apply Ha. reflexivity.
  - cbn in Hs. destruct (existsb (runs_pid pid) (s_threads s)); [discriminate|]. injection Hs as <-.
    split; [exact H1|exact H2].
  - cbn in Hs. destruct (get_proc (w_procs (s_world s)) pid); [discriminate|]. injection Hs as <-.
    split; [exact H1|exact H2].
  - injection Hs as <-. split; [exact H1|exact H2].
  - injection Hs as <-. split; [exact H1|exact H2].
  - injection Hs as <-. split; [exact H1|exact H2].
  - injection Hs as <-. split; [exact H1|exact H2].
Qed.

Lemma told_runs : forall ls s s', rg_inv anyw any maygr s -> told_inv s -> runs ls s = Some s' -> told_inv s'.
Proof.
  induction ls as [|l ls IH]; intros s s' Hi H R; cbn in R; [injection R as <-; exact H|].
  destruct (step l s) as [s1|] eqn:E; [|discriminate].
  eapply IH; [|eapply told_step; eauto|exact R]. apply (maygr_inv [l] s s1 Hi). cbn. rewrite E. reflexivity.
Qed.

Lemma told_init w : told_inv (start_sys w).
Proof. split; [discriminate|]. intros t []. Qed.

Lemma told_lemma : forall w0 ls s, runs ls (start_sys w0) = Some s ->
  (s_run s = false -> stopping s) /\
  forall t, In t (s_threads s) -> t_done t = true -> s_run s = false /\ stopping s.
Proof.
  intros w0 ls s R. assert (T : told_inv s).
  { eapply told_runs; [|apply told_init|exact R]. apply rg_start. exact I. }
  split; [apply T|]. intros t Ht D. destruct T as [T1 T2]. destruct (T2 t Ht D) as [E _]. auto.
Qed.

(** A daemon that is stopping does not go back: it stays so until it has ended. *)
Lemma stopping_stays : forall ls s s', rg_inv anyw any maygr s -> Forall daemon_stays ls -> stopping s ->
  runs ls s = Some s' -> stopping s'.
Proof.
  induction ls as [|l ls IH]; intros s s' Hi F S R; cbn in R; [injection R as <-; exact S|].
  inversion F as [|x y Fl Fr]; subst.
  destruct (step l s) as [s1|] eqn:E; [|discriminate].
  eapply IH; [| exact Fr| |exact R].
  { apply (maygr_inv [l] s s1 Hi). cbn. rewrite E. reflexivity. }
  clear IH R F Fr.
  destruct Fl as [F1 F2]. destruct l; try (elim F1; reflexivity); try (elim F2; reflexivity);
    try (unfold stopping; cbn in E;
         repeat match type of E with
                | match ?x with _ => _ end = _ => destruct x eqn:?; try discriminate
                end; injection E as <-; cbn; exact S).
  destruct (rg_guar _ _ _ ltac:(intros; exact I) _ _ _ Hi E) as [X|(t & o & k & _ & _ & M & X)];
    unfold stopping; rewrite X; [exact S|]. eapply stopping_exec; eauto.
Qed.
Lemma stays_lemma : forall w0 ls0 ls s s', runs ls0 (start_sys w0) = Some s -> stopping s ->
  Forall daemon_stays ls -> runs ls s = Some s' -> stopping s'.
Proof.
  intros w0 ls0 ls s s' R0 S F R. eapply stopping_stays; [|exact F|exact S|exact R].
  eapply maygr_inv; [|exact R0]. apply rg_start. exact I.
Qed.
