(** * SysProofs20: managers do not survive failing operations (C92) *)
From Coq Require Import List String Ascii ZArith Bool Lia.
From Verif Require Import Base BaseFacts PyStr Types ConfigModel Prog ProgFacts World Replies CmdModel KetchupModel
  TomatoModel JobModel PipModel DrvModel SysModel SpecSys SpecStuck RGFacts.
Import ListNotations.
Open Scope string_scope.
Open Scope Z_scope.
Open Scope prog_scope.

(** [patient o]: a failure of [o] is dealt with (driver.py:392). *)
Definition patient (o : op) : bool := match o with ODriverT _ _ => true | _ => false end.
Fixpoint brittle (k : kind) {A : Type} (p : pgm A) : Prop :=
  match p with
  | Op o c => (patient o = false -> forall e, c (Err e) = Raise e) /\
      match o as o' return (res (resp o') -> pgm A) -> Prop with
      | ODrvGet _ => fun c => k <> KDrvMgr -> c (Ok None) = Raise AssertionError
      | _ => fun _ => True
      end c /\ forall r, brittle k (c r)
  | _ => True
  end.

Lemma brittle_bind k {A B} (p : pgm A) (f : A -> pgm B) :
  brittle k p -> (forall a, brittle k (f a)) -> brittle k (bind p f).
Proof.
  intros H Hf. induction p as [a|e|o c IH]; cbn [bind]; [apply Hf|exact I|]. destruct H as (H1 & H2 & H3).
  split; [intros P e; cbn; rewrite (H1 P e); reflexivity|]. split; [|intros r; apply IH, H3].
  destruct o; auto. cbn in *. intros N. rewrite (H2 N). reflexivity.
Qed.
Lemma brittle_do k o : (forall n, o <> ODrvGet n) -> brittle k (act o).
Proof. intros N. cbn. split; [reflexivity|]. split; [destruct o; auto; elim (N _ eq_refl)|]. intros []; exact I. Qed.
Lemma brittle_forP k {S A} (f : S -> A -> pgm S) l : (forall s a, brittle k (f s a)) -> forall s, brittle k (forP f s l).
Proof. intros H. induction l as [|a l IH]; intros s; cbn [forP]; [exact I|]. apply brittle_bind; auto. Qed.
Lemma brittle_forB k {S A X} (f : S -> A -> pgm (S + X)) l : (forall s a, brittle k (f s a)) -> forall s, brittle k (forB f s l).
Proof.
  intros H. induction l as [|a l IH]; intros s; cbn [forB]; [exact I|]. apply brittle_bind; auto. intros [x|x]; [apply IH|exact I].
Qed.
Lemma brittle_lift k {A} (x : res A) : brittle k (lift x : pgm A).
Proof. destruct x; exact I. Qed.
Lemma brittle_assert k b : brittle k (assertP b : pgm unit).
Proof. destruct b; exact I. Qed.
Lemma brittle_driver_of k d cn : brittle k (driver_of d cn).
Proof.
  unfold driver_of. apply brittle_bind; [apply brittle_lift|]. intros c. cbn. split; [reflexivity|]. split; [reflexivity|].
  intros [[x|]|e]; exact I.
Qed.
Lemma brittle_get k n : k = KDrvMgr -> brittle k (act (ODrvGet n)).
Proof. intros ->. cbn. split; [reflexivity|]. split; [congruence|]. intros []; exact I. Qed.

Ltac brit :=
  repeat first
    [ exact I
    | apply brittle_driver_of
    | apply brittle_lift | apply brittle_assert
    | apply brittle_do; intros; discriminate
    | apply brittle_get; reflexivity
    | apply brittle_bind; [|intros]
    | apply brittle_forP; intros
    | apply brittle_forB; intros
    | match goal with |- brittle _ (match ?x with _ => _ end) => destruct x end
    | match goal with |- brittle _ (if ?x then _ else _) => destruct x end ].

Lemma brittle_job : brittle KJobMgr job_pass.
Proof.
  unfold job_pass, manage_running, manage_one, reconcile, finish_cancelled, finish_crashed, merge_netcdfs, check_queued, check_one,
    find_matching_pipelines, match_pipeline, add_capabs, method_validate, validate_task, validate_role, action_queued, action_one,
    try_pip, launch, update_job_id, update_pip. brit.
Qed.
Lemma brittle_pip : brittle KPipMgr pip_pass.
Proof. unfold pip_pass, pip_one, gone, release, reset_component, update_pip. brit. Qed.
Lemma brittle_checked d p t : brittle KDrvMgr (drv_checked d p t).
Proof.
  unfold drv_checked. apply brittle_bind; [|intros; unfold update_drv; brit].
  unfold drv_check. cbn. split; [discriminate|]. split; [exact I|].
  intros [r|e]; cbn.
  - destruct (dr_ok r); cbn; [|exact I]. destruct (data_len (dr_data r)) as [n|[]]; cbn; try exact I.
    destruct (Z.eqb n 0); cbn; [|exact I]. split; [discriminate|]. split; [exact I|]. intros [x|[]]; exact I.
  - destruct e; exact I.
Qed.
Lemma brittle_drv : brittle KDrvMgr drv_pass.
Proof.
  unfold drv_pass. apply brittle_bind; [brit|]. intros [d|]; [|exact I]. apply brittle_bind; [brit|]. intros l.
  apply brittle_forP. intros u x. unfold drv_one. apply brittle_bind; [brit|]. intros t.
  destruct (negb _); [unfold stop_driver, del_drv; brit|]. destruct (dv_port x); [|unfold update_drv; brit].
  destruct (_ || _)%bool; [apply brittle_checked|exact I].
Qed.
Lemma brittle_quit : brittle KDrvMgr drv_quit.
Proof. unfold drv_quit, drv_quit_one, kill_driver, stop_driver. brit. Qed.
Lemma brittle_reply k p : brittle k p -> brittle k (no_reply p).
Proof. intros H. unfold no_reply. apply brittle_bind; [exact H|]. intros; exact I. Qed.
Lemma brittle_pass k p : mgr_pass k = Some p -> brittle k (no_reply p).
Proof.
  intros H. apply brittle_reply. destruct k; try discriminate H; injection H as <-; [apply brittle_job|apply brittle_pip|apply brittle_drv].
Qed.

Definition all_brittle (s : sys) : Prop :=
  forall t, In t (s_threads s) -> is_mgr (t_kind t) = true -> brittle (t_kind t) (t_pgm t).
Lemma brittle_step l s s' : all_brittle s -> step l s = Some s' -> all_brittle s'.
Proof.
  intros B H.
  assert (Sub : (forall t, In t (s_threads s') -> In t (s_threads s) \/ is_mgr (t_kind t) = false \/ exists a, t_pgm t = Ret a) -> all_brittle s').
  { intros X t Ht M. destruct (X t Ht) as [Y|[Y|[a Y]]]; [apply B; auto|congruence|rewrite Y; exact I]. }
  assert (App : forall t, s_threads s' = (s_threads s ++ [t])%list -> (is_mgr (t_kind t) = false \/ exists a, t_pgm t = Ret a) ->
     all_brittle s').
  { intros t E Y. apply Sub. intros x Hx. rewrite E in Hx. apply in_app_or in Hx as [Hx|[<-|[]]]; auto. }
  destruct l; cbn [step] in H;
    try (repeat match type of H with
           | match ?x with _ => _ end = _ => destruct x eqn:?; try discriminate
           end; injection H as <-; apply Sub; cbn; intros x Hx; left; try apply filter_In in Hx; tauto).
  - injection H as <-. eapply App; [reflexivity|left; reflexivity].
  - destruct (nth_error (s_threads s) n) as [t|] eqn:En; [|discriminate]. pose proof (nth_error_In _ _ En) as Hin.
    assert (Set_ : forall w r q b, (is_mgr (t_kind t) = true -> brittle (t_kind t) q) ->
       all_brittle (mkSys w (set_nth n (mkThread (t_kind t) q b) (s_threads s)) r)).
    { intros w r q b Q x Hx M. cbn in Hx. apply In_nth_error in Hx as [m Hx]. apply nth_set_nth in Hx as [[-> ->]|[_ Hx]].
      - apply Q, M.
      - apply B; [eapply nth_error_In; eauto|exact M]. }
    unfold step_thread in H. destruct (t_pgm t) as [a|e|o c] eqn:Ep; [|discriminate|].
    + destruct (mgr_pass (t_kind t)) as [p|] eqn:Em; [|discriminate]. destruct (t_done t); [discriminate|].
      destruct (s_run s); injection H as <-; apply Set_; intros M.
      * apply brittle_pass, Em.
      * destruct (t_kind t); try exact I. apply brittle_reply, brittle_quit.
    + destruct (exec o (s_world s)) as [r w2] eqn:Ee. injection H as <-. apply Set_. intros M.
      specialize (B t Hin M). rewrite Ep in B. apply B.
  - destruct (nth_error (s_threads s) n) as [t|] eqn:En; [|discriminate]. destruct (is_mgr (t_kind t)) eqn:Em; [discriminate|].
    injection H as <-. apply Sub. cbn. intros x Hx. apply In_nth_error in Hx as [m Hx]. apply nth_set_nth in Hx as [[-> ->]|[_ Hx]]; [auto|].
    left. eapply nth_error_In; eauto.
  - destruct (w_daemon (s_world s)); [|discriminate]. destruct (mgr_pass k); [|discriminate]. destruct (has_kind k s); [discriminate|].
    injection H as <-. eapply App; [reflexivity|right; cbn; eauto].
  - destruct (nth_error (w_spawned (s_world s)) i); [|discriminate]. destruct (get_proc (w_procs (s_world s)) pid); [discriminate|].
    injection H as <-. eapply App; [reflexivity|left; reflexivity].
  - injection H as <-. eapply App; [reflexivity|left; reflexivity].
Qed.
Lemma brittle_runs ls : forall s s', all_brittle s -> runs ls s = Some s' -> all_brittle s'.
Proof.
  induction ls as [|l ls IH]; intros s s' B H; cbn [runs] in H; [injection H as <-; exact B|].
  destruct (step l s) as [s1|] eqn:E; [|discriminate]. exact (IH _ _ (brittle_step _ _ _ B E) H).
Qed.
Lemma brittle_start w : all_brittle (start_sys w).
Proof. intros t []. Qed.

Lemma at_once_lemma w ls s n t o c : runs ls (start_sys w) = Some s ->
  nth_error (s_threads s) n = Some t -> is_mgr (t_kind t) = true -> t_pgm t = Op o c ->
  exists s', step (LStep n) s = Some s' /\
    (forall e, patient o = false -> fst (exec o (s_world s)) = Err e -> stuck (t_kind t) e s') /\
    (forall d, t_kind t <> KDrvMgr -> o = ODrvGet d -> get_drv (w_drvs (s_world s)) d = None ->
       stuck (t_kind t) AssertionError s').
Proof.
  intros H En M Ep. pose proof (brittle_runs _ _ _ (brittle_start w) H t (nth_error_In _ _ En) M) as B. rewrite Ep in B.
  destruct B as (B1 & B2 & _). cbn [step]. rewrite En. unfold step_thread. rewrite Ep.
  destruct (exec o (s_world s)) as [r w2] eqn:Ee. eexists. split; [reflexivity|].
  assert (S : forall e, c r = Raise e ->
    stuck (t_kind t) e (mkSys w2 (set_nth n (mkThread (t_kind t) (c r) (t_done t)) (s_threads s)) (s_run s))).
  { intros e E. split; [exact M|]. exists (mkThread (t_kind t) (c r) (t_done t)). cbn. split; [|auto].
    eapply nth_error_In. eapply nth_set_nth_eq. exact En. }
  split.
  - cbn. intros e P ->. apply S, B1, P.
  - intros d N -> E. apply S. cbn in Ee. rewrite E in Ee. injection Ee as <- _. apply B2, N.
Qed.
