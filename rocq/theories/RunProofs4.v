(** * RunProofs4: what a worker does after a failed request (C93) *)
From Coq Require Import List String ZArith Bool Lia.
From Verif Require Import Base Types Prog ProgFacts JobThreadModel DeviceModel RunModel SpecRun.
Import ListNotations.
Open Scope prog_scope.
Open Scope Z_scope.

(** The program marks the worker as crashed and ends. *)
Definition crashes {A : Type} (p : jpgm A) : Prop :=
  exists k, p = Op JCrash k /\ k (Ok tt) = Raise SystemExit.
Definition lost (o : jop) (r : res (jresp o)) : Prop :=
  match o as o' return res (jresp o') -> Prop with
  | JStatus => fun r => r = Ok SOffline
  | JSend _ | JReset => fun r => r = Ok BOffline
  | JData | JStop => fun r => r = Ok DOffline
  | _ => fun _ => False
  end r.
Fixpoint wary {A : Type} (p : jpgm A) : Prop :=
  match p with
  | Ret _ | Raise _ => True
  | Op o k => forall r, (lost o r -> crashes (k r)) /\ wary (k r)
  end.

Lemma crashes_bind {A B} (p : jpgm A) (f : A -> jpgm B) : crashes p -> crashes (bind p f).
Proof. intros (k & -> & E). eexists. split; [reflexivity|]. cbn. rewrite E. reflexivity. Qed.
Lemma crashes_crash {A} : crashes (crash : jpgm A).
Proof. eexists. split; reflexivity. Qed.
Lemma wary_bind {A B} (p : jpgm A) (f : A -> jpgm B) : wary p -> (forall a, wary (f a)) -> wary (bind p f).
Proof.
  intros Hp Hf. induction p as [a|e|o k IH]; cbn; auto. intros r. destruct (Hp r) as [H1 H2].
  split; [|auto]. intros L. apply crashes_bind. auto.
Qed.
Lemma wary_crash {A} : wary (crash : jpgm A).
Proof. cbn. intros r. split; [contradiction|]. destruct r; exact I. Qed.
(** A request: an offline answer leads to [crash]. *)
Lemma wary_act {A} (o : jop) (f : jresp o -> jpgm A) : (forall a, lost o (Ok a) -> crashes (f a)) ->
  (forall a, wary (f a)) -> wary (a <- jact o;; f a).
Proof.
  intros H1 H2. cbn. intros [a|e]; cbn; [split; auto|]. split; [|exact I].
  destruct o; cbn; try contradiction; discriminate.
Qed.
Ltac quiet := intros ? L; contradiction L.
Lemma wary_do o : (forall a, ~ lost o (Ok a)) -> wary (jact o).
Proof.
  intros H. cbn. intros [a|e]; (split; [|exact I]).
  - intros L. contradiction (H a L).
  - destruct o; cbn; try contradiction; discriminate.
Qed.

Lemma wary_start f t : wary (wait_start f t).
Proof.
  induction f as [|f IH]; cbn [wait_start]; destruct (t_start_with t) as [n|]; try exact I.
  apply wary_act; [quiet|]. intros l. destruct (mem n l); [exact I|exact IH].
Qed.
Lemma wary_ready f : wary (wait_ready f).
Proof.
  induction f as [|f IH]; cbn [wait_ready]; [exact I|]. apply wary_act.
  - cbn. intros a L. injection L as ->. apply crashes_crash.
  - intros [| | |[] r c]; try exact IH; [apply wary_crash|exact I].
Qed.
Lemma wary_running f t0 : wary (wait_running f t0).
Proof.
  induction f as [|f IH]; cbn [wait_running]; [exact I|]. apply wary_act; [quiet|]. intros now. apply wary_act.
  - cbn. intros a L. injection L as ->. apply crashes_crash.
  - cbv zeta.
    assert (X : wary (if MAX_TASK_WAIT <? now - t0 then crash else wait_running f t0)).
    { destruct (MAX_TASK_WAIT <? now - t0); [apply wary_crash|exact IH]. }
    intros [| | |c [] [[]|]]; try exact X; try exact I; apply wary_crash.
Qed.
Lemma wary_store d : wary (store d).
Proof. destruct d; cbn [store]; [apply wary_crash|exact I|]. apply wary_do. cbn. auto. Qed.
Lemma wary_loop f pr t : forall tp, wary (task_loop f pr t tp).
Proof.
  induction f as [|f IH]; intros tp; cbn [task_loop]; [exact I|]. apply wary_act; [quiet|]. intros tn.
  apply wary_bind.
  - destruct (pr <? tn - tp); [|exact I]. apply wary_act.
    + cbn. intros a L. injection L as ->. apply crashes_bind, crashes_crash.
    + intros d. apply wary_bind; [apply wary_store|intros; exact I].
  - intros tp'. apply wary_act.
    + cbn. intros a L. injection L as ->. apply crashes_crash.
    + assert (X : wary (match t_stop_with t with
          | None => task_loop f pr t tp'
          | Some n => l <- jact JNames;; if mem n (l : list string) then d <- jact JStop;; store d else task_loop f pr t tp'
          end)).
      { destruct (t_stop_with t) as [n|]; [|apply IH]. apply wary_act; [quiet|]. intros l. destruct (mem n l); [|apply IH].
        apply wary_act; [|apply wary_store]. cbn. intros a L. injection L as ->. apply crashes_crash. }
      intros [| | |c [] [[]|]]; try exact X; try exact I. apply wary_crash.
Qed.
Lemma wary_one f pr c t : wary (one_task f pr c t).
Proof.
  unfold one_task. apply wary_act; [quiet|]. intros _. apply wary_bind; [apply wary_start|]. intros _.
  apply wary_bind; [apply wary_ready|]. intros _. apply wary_act; [quiet|]. intros t0. apply wary_act.
  - cbn. intros a L. injection L as ->. apply crashes_crash.
  - intros [|b]; [apply wary_crash|]. apply wary_bind; [apply wary_running|]. intros _.
    apply wary_act; [quiet|]. intros tp. apply wary_bind; [apply wary_loop|]. intros _. apply wary_act.
    + cbn. intros a L. injection L as ->. apply crashes_bind, crashes_crash.
    + intros d. apply wary_bind; [apply wary_store|]. intros _. destruct c; [|exact I].
      apply wary_act; [quiet|]. intros; exact I.
Qed.
Lemma wary_forP {S A} (g : S -> A -> jpgm S) l : (forall s a, wary (g s a)) -> forall s, wary (forP g s l).
Proof. intros H. induction l as [|a l IH]; intros s; cbn [forP]; [exact I|]. apply wary_bind; auto. Qed.
Lemma wary_job f pr ts : wary (job_thread f pr ts).
Proof.
  unfold job_thread. apply wary_bind; [apply wary_forP; intros; apply wary_one|]. intros _. apply wary_act.
  - cbn. intros a L. injection L as ->. apply crashes_crash.
  - intros [|b]; [apply wary_crash|exact I].
Qed.

Lemma wary_step same l s s' : wary (r_pgm s) -> rstep same l s = Some s' -> wary (r_pgm s').
Proof.
  intros Hw H. destruct l as [c f|a| |c n b|]; cbn [rstep] in H.
  - destruct (wstep c f (r_dev s)); inversion H. exact Hw.
  - destruct (r_wait s); [discriminate|]. destruct (begin_request a (r_dev s)); inversion H. exact Hw.
  - destruct (mstep (r_dev s)) as [d|]; inversion H. clear H. destruct (r_wait s); [|exact Hw].
    unfold answer. cbn [with_dev r_pgm]. destruct (r_pgm s) as [a|e|o k] eqn:Ep; cbn [with_dev r_pgm]; try (rewrite Ep; exact Hw).
    cbn [wary] in Hw. destruct o; try (cbn [with_dev r_pgm]; rewrite Ep; exact Hw);
      destruct (d_main (r_dev s)); try (cbn [with_dev r_pgm]; rewrite Ep; exact Hw); apply Hw.
  - unfold job_step in H. destruct (r_wait s); [discriminate|]. destruct (r_pgm s) as [a|e|o k] eqn:Ep; try discriminate.
    cbn [wary] in Hw. destruct o; cbn [same_state] in H; unfold pass_on in H;
      repeat match type of H with
      | option_map _ ?x = _ => destruct x eqn:?; cbn [option_map] in H; try discriminate H
      | (if ?x then _ else _) = _ => destruct x
      | match ?x with _ => _ end = _ => destruct x; try discriminate H
      end; injection H as <-; cbn [r_pgm]; try apply Hw; rewrite Ep; exact Hw.
  - unfold offline in H. destruct (r_pgm s) as [a|e|o k] eqn:Ep; try discriminate. cbn [wary] in Hw.
    destruct o; try discriminate; injection H as <-; apply Hw.
Qed.
Lemma wary_steps same ls : forall s s', wary (r_pgm s) -> rsteps same ls s = Some s' -> wary (r_pgm s').
Proof.
  induction ls as [|l ls IH]; intros s s' Hw H; cbn in H; [congruence|].
  destruct (rstep same l s) as [s1|] eqn:E; [|discriminate]. eapply IH; [eapply wary_step; eauto|exact H].
Qed.

(** After a lost request: the worker is about to crash, or has crashed. *)
Definition over (st : list nat) (sent : list (nat * task)) (s : rsys) : Prop :=
  r_stored s = st /\ r_sent s = sent /\ r_wait s = false /\ (crashes (r_pgm s) \/ r_pgm s = Raise SystemExit).
Lemma over_step same st sent l s s' : over st sent s -> rstep same l s = Some s' -> over st sent s'.
Proof.
  intros (E1 & E2 & E3 & E4) H. destruct l as [c f|a| |c n b|]; cbn [rstep] in H.
  - destruct (wstep c f (r_dev s)); inversion H. repeat split; auto.
  - rewrite E3 in H. destruct (begin_request a (r_dev s)); inversion H. repeat split; auto.
  - rewrite E3 in H. destruct (mstep (r_dev s)); inversion H. repeat split; auto.
  - unfold job_step in H. rewrite E3 in H. destruct E4 as [(k & E4 & E5)|E4]; rewrite E4 in H; [|discriminate].
    injection H as <-. repeat split; auto.
  - unfold offline in H. destruct E4 as [(k & E4 & E5)|E4]; rewrite E4 in H; discriminate.
Qed.
Lemma over_steps same st sent ls : forall s s', over st sent s -> rsteps same ls s = Some s' -> over st sent s'.
Proof.
  induction ls as [|l ls IH]; intros s s' Ho H; cbn in H; [congruence|].
  destruct (rstep same l s) as [s1|] eqn:E; [|discriminate]. eapply IH; [eapply over_step; eauto|exact H].
Qed.

Lemma C93_lost_lemma same d f pr ts ls s s1 ls' s' :
  rsteps same ls (run_start d (job_thread f pr ts)) = Some s -> rstep same ROffline s = Some s1 ->
  rsteps same ls' s1 = Some s' ->
  r_stored s' = r_stored s /\ r_sent s' = r_sent s /\
  (r_pgm s' = Raise SystemExit \/ exists k, r_pgm s' = Op JCrash k /\ k (Ok tt) = Raise SystemExit).
Proof.
  intros H H1 H'. assert (Hw : wary (r_pgm s)) by (eapply wary_steps; [|exact H]; apply wary_job).
  assert (Ho : over (r_stored s) (r_sent s) s1).
  { cbn [rstep] in H1. unfold offline in H1. destruct (r_pgm s) as [a|e|o k] eqn:Ep; try discriminate. cbn [wary] in Hw.
    destruct o; try discriminate; injection H1 as <-; (split; [reflexivity|]; split; [reflexivity|]; split; [reflexivity|]);
      left; apply Hw; reflexivity. }
  destruct (over_steps _ _ _ _ _ _ Ho H') as (E1 & E2 & _ & E3). split; [exact E1|]. split; [exact E2|].
  destruct E3; auto.
Qed.
