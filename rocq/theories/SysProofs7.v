(** * SysProofs7: job processes and the process table *)
From Coq Require Import List String Ascii ZArith Bool Sorted Lia.
From Verif Require Import Base PyStr BaseFacts Types ConfigModel Prog ProgFacts World WorldFacts Replies
  CmdModel KetchupModel TomatoModel JobModel PipModel DrvModel SysModel RGFacts SysOps
  SpecQueue SpecSys SpecSys2 RGY SysProofs.
Import ListNotations.
Open Scope list_scope.
Open Scope Z_scope.

(** The pid of an active job process. *)
Definition job_pid (t : thread) : option Z :=
  match t_kind t with KJob p _ => if active t then Some p else None | _ => None end.
Fixpoint job_pids (ts : list thread) : list Z :=
  match ts with
  | [] => []
  | t :: r => match job_pid t with Some p => p :: job_pids r | None => job_pids r end
  end.
Definition procs_ok (s : sys) : Prop :=
  (forall t pid a, In t (s_threads s) -> t_kind t = KJob pid a -> active t = true ->
     listed (s_world s) pid a) /\
  NoDup (job_pids (s_threads s)).

Lemma job_pids_In ts t p : In t ts -> job_pid t = Some p -> In p (job_pids ts).
Proof.
  induction ts as [|x ts IH]; intros H Hp; [destruct H|]. cbn. destruct H as [->|H].
  - rewrite Hp. now left.
  - destruct (job_pid x); [right|]; auto.
Qed.
Lemma In_job_pids ts p : In p (job_pids ts) -> exists t, In t ts /\ job_pid t = Some p.
Proof.
  induction ts as [|x ts IH]; intros H; [destruct H|]. cbn in H. destruct (job_pid x) eqn:E.
  - destruct H as [->|H]; [exists x; split; [now left|exact E]|]. destruct (IH H) as (t & H1 & H2). exists t; split; [now right|exact H2].
  - destruct (IH H) as (t & H1 & H2). exists t; split; [now right|exact H2].
Qed.
Lemma job_pids_distinct ts n m a b p : NoDup (job_pids ts) -> nth_error ts n = Some a -> nth_error ts m = Some b ->
  job_pid a = Some p -> job_pid b = Some p -> n = m.
Proof.
  revert n m. induction ts as [|x ts IH]; intros [|n] [|m] Hn Ha Hb Pa Pb; cbn in *; try discriminate; auto.
  - inversion Ha. subst x. rewrite Pa in Hn. inversion Hn. elim H1. eapply job_pids_In; [eapply nth_error_In; eauto|exact Pb].
  - inversion Hb. subst x. rewrite Pb in Hn. inversion Hn. elim H1. eapply job_pids_In; [eapply nth_error_In; eauto|exact Pa].
  - f_equal. eapply IH; eauto. destruct (job_pid x); [inversion Hn; auto|exact Hn].
Qed.
Lemma job_pids_set ts n x y : NoDup (job_pids ts) -> nth_error ts n = Some x ->
  (job_pid y = None \/ job_pid y = job_pid x) ->
  NoDup (job_pids (set_nth n y ts)) /\ (forall p, In p (job_pids (set_nth n y ts)) -> In p (job_pids ts)).
Proof.
  revert n. induction ts as [|z ts IH]; intros [|n] Hn Hx Hy; cbn in *; try discriminate.
  - inversion Hx. subst z. destruct Hy as [->| ->]; [|auto].
    destruct (job_pid x); [inversion Hn; split; [auto|intros; now right]|auto].
  - destruct (job_pid z) as [p|].
    + inversion Hn. subst. destruct (IH n H2 Hx Hy) as [H3 H4]. split.
      * constructor; auto.
      * intros q [->|Hq]; [now left|right; auto].
    + apply IH; auto.
Qed.
Lemma job_pids_nomgr ts : job_pids (filter (fun t => negb (is_mgr (t_kind t))) ts) = job_pids ts.
Proof.
  induction ts as [|t ts IH]; [reflexivity|]. cbn.
  destruct (is_mgr (t_kind t)) eqn:E; cbn; rewrite IH; [|reflexivity].
  unfold job_pid. destruct (t_kind t); try reflexivity; discriminate.
Qed.
Lemma job_pids_snoc ts t : job_pids (ts ++ [t]) = job_pids ts ++ match job_pid t with Some p => [p] | None => [] end.
Proof.
  induction ts as [|x ts IH]; cbn; [reflexivity|]. rewrite IH. destruct (job_pid x); reflexivity.
Qed.

Lemma procs_exec o w : w_procs (snd (exec o w)) = w_procs w.
Proof. op_cases o; reflexivity. Qed.

Lemma get_proc_zombie l pid q :
  get_proc (map (fun p => if Z.eqb (pr_pid p) pid then mkProc pid true (pr_job p) else p) l) q =
  option_map (fun p => if Z.eqb (pr_pid p) pid then mkProc pid true (pr_job p) else p) (get_proc l q).
Proof.
  unfold get_proc. induction l as [|p l IH]; [reflexivity|]. cbn.
  destruct (Z.eqb_spec (pr_pid p) pid) as [E|E]; cbn.
  - rewrite E. destruct (Z.eqb_spec pid q) as [E'|E'].
    + cbn. rewrite E, Z.eqb_refl. reflexivity.
    + exact IH.
  - destruct (Z.eqb_spec (pr_pid p) q) as [E'|E']; [|exact IH].
    cbn. destruct (Z.eqb_spec (pr_pid p) pid); [congruence|reflexivity].
Qed.
Lemma get_proc_filter l pid q :
  get_proc (filter (fun p => negb (Z.eqb (pr_pid p) pid)) l) q = if Z.eqb q pid then None else get_proc l q.
Proof.
  unfold get_proc. induction l as [|p l IH]; cbn.
  - destruct (Z.eqb q pid); reflexivity.
  - destruct (Z.eqb_spec (pr_pid p) pid) as [E|E]; cbn.
    + rewrite IH. destruct (Z.eqb_spec q pid) as [E'|E']; [reflexivity|].
      destruct (Z.eqb_spec (pr_pid p) q); [congruence|reflexivity].
    + rewrite IH. destruct (Z.eqb_spec (pr_pid p) q) as [E'|E']; [|reflexivity].
      destruct (Z.eqb_spec q pid); [congruence|reflexivity].
Qed.
Lemma get_proc_cons p l q : get_proc (p :: l) q = if Z.eqb (pr_pid p) q then Some p else get_proc l q.
Proof. reflexivity. Qed.
Lemma get_proc_pid l q p : get_proc l q = Some p -> pr_pid p = q.
Proof. intros H. apply find_some in H. apply Z.eqb_eq. apply H. Qed.

(** The process of an active job thread survives every step that is not its own. *)
Lemma listed_env l s s' t pid a : (forall n, l <> LStep n) -> step l s = Some s' ->
  In t (s_threads s) -> t_kind t = KJob pid a -> active t = true ->
  listed (s_world s) pid a -> listed (s_world s') pid a.
Proof.
  intros Hn Hs Hin Hk Ha H. unfold listed in *.
  destruct l; cbn in Hs; try (elim (Hn n); reflexivity);
    repeat match type of Hs with
           | match ?x with _ => _ end = _ => destruct x eqn:?; try discriminate
           end; injection Hs as <-; cbn [s_world set_world set_threads add_thread set_procs w_procs set_env set_answers set_files set_outcome set_daemon]; try exact H.
  - rewrite get_proc_cons. cbn. destruct (Z.eqb_spec pid0 pid) as [->|E]; [congruence|exact H].
  - assert (Hp : pid0 <> pid).
    { intros ->. apply not_true_iff_false in Heqb. apply Heqb. apply existsb_exists. exists t.
      split; [exact Hin|]. unfold runs_pid. rewrite Hk, Z.eqb_refl. cbn.
      unfold active in Ha. unfold ended. destruct (t_pgm t); try discriminate. reflexivity. }
    destruct zombie.
    + rewrite get_proc_zombie, H. cbn. destruct (Z.eqb_spec pid pid0); [congruence|reflexivity].
    + rewrite get_proc_filter. destruct (Z.eqb_spec pid pid0); [congruence|exact H].
  - rewrite get_proc_cons. cbn. destruct (Z.eqb_spec pid0 pid) as [->|E]; [congruence|exact H].
Qed.

Lemma procs_ok_start w : procs_ok (start_sys w).
Proof. split; [intros t pid a []|constructor]. Qed.

Lemma procs_ok_step l s s' : procs_ok s -> step l s = Some s' -> procs_ok s'.
Proof.
  intros [H1 H2] Hs.
  assert (Henv : (forall n, l <> LStep n) -> forall t pid a, In t (s_threads s) -> t_kind t = KJob pid a ->
    active t = true -> listed (s_world s') pid a).
  { intros Hn t pid a Hin Hk Ha. eapply listed_env; eauto. }
  assert (Hsame : (forall n, l <> LStep n) -> s_threads s' = s_threads s -> procs_ok s').
  { intros Hn E. split; rewrite E; [apply Henv; exact Hn|exact H2]. }
  assert (Hadd : (forall n, l <> LStep n) -> forall t, s_threads s' = s_threads s ++ [t] -> job_pid t = None -> procs_ok s').
  { intros Hn t E Hp. split; rewrite E.
    - intros x pid a Hx Hk Ha. apply in_app_iff in Hx. destruct Hx as [Hx|[<-|[]]]; [eapply Henv; eauto|].
      unfold job_pid in Hp. rewrite Hk, Ha in Hp. discriminate.
    - rewrite job_pids_snoc, Hp, app_nil_r. exact H2. }
  assert (Hgone : (forall n, l <> LStep n) ->
    s_threads s' = filter (fun t => negb (is_mgr (t_kind t))) (s_threads s) -> procs_ok s').
  { intros Hn E. split; rewrite E; [|rewrite job_pids_nomgr; exact H2].
    intros x pid a Hx. apply filter_In in Hx. apply Henv; [exact Hn|apply Hx]. }
  assert (Hset : forall n t t', nth_error (s_threads s) n = Some t -> t_kind t' = t_kind t ->
    (active t' = true -> active t = true \/ forall pid a, t_kind t <> KJob pid a) ->
    s_threads s' = set_nth n t' (s_threads s) -> w_procs (s_world s') = w_procs (s_world s) -> procs_ok s').
  { intros n t t' En Ek Ea E Ew.
    assert (Hp : job_pid t' = None \/ job_pid t' = job_pid t).
    { unfold job_pid. rewrite Ek. destruct (t_kind t) eqn:Ekt; auto. destruct (active t') eqn:Ea'; auto.
      destruct (Ea eq_refl) as [->|X]; [auto|]. elim (X pid a). reflexivity. }
    split; rewrite E.
    - intros x pid a Hx Hk Ha. unfold listed. rewrite Ew.
      apply In_nth_error in Hx. destruct Hx as [m Hx]. apply nth_set_nth in Hx.
      destruct Hx as [[-> ->]|[_ Hx]]; [|eapply H1; eauto using nth_error_In].
      rewrite Ek in Hk. destruct (Ea Ha) as [X|X]; [|elim (X pid a); exact Hk].
      eapply H1; eauto using nth_error_In.
    - apply (job_pids_set _ n t t' H2 En Hp). }
  destruct l; cbn in Hs.
  - injection Hs as <-. eapply Hadd; [congruence|reflexivity|reflexivity].
  - destruct (nth_error (s_threads s) n) as [t|] eqn:En; [|discriminate]. unfold step_thread in Hs.
    destruct (t_pgm t) as [a|e|o k] eqn:Ep; [|discriminate|].
    + destruct (mgr_pass (t_kind t)) as [p|] eqn:Em; [|discriminate].
      assert (X : forall pid a, t_kind t <> KJob pid a) by (intros pid a0 E; rewrite E in Em; discriminate).
      destruct (t_done t); [discriminate|]. destruct (s_run s); injection Hs as <-;
        (eapply Hset; [exact En| | |reflexivity|reflexivity]; cbn; auto).
    + destruct (exec o (s_world s)) as [r w] eqn:Ee. injection Hs as <-.
      eapply Hset; [exact En| | |reflexivity|]; cbn; auto.
      * intros _. left. unfold active. rewrite Ep. reflexivity.
      * pose proof (procs_exec o (s_world s)) as X. rewrite Ee in X. exact X.
  - destruct (nth_error (s_threads s) n) as [t|] eqn:En; [|discriminate].
    destruct (is_mgr (t_kind t)); [discriminate|]. injection Hs as <-.
    eapply Hset; [exact En| | |reflexivity|reflexivity]; cbn; auto. discriminate.
  - destruct (w_daemon (s_world s)); [|discriminate]. injection Hs as <-. apply Hgone; [congruence|reflexivity].
  - destruct (w_daemon (s_world s)); [|discriminate]. destruct (mgr_pass k) eqn:Em; [|discriminate].
    destruct (has_kind k s); [discriminate|]. injection Hs as <-. eapply Hadd; [congruence|reflexivity|].
    unfold job_pid. destruct k; try reflexivity; discriminate.
  - destruct (w_daemon (s_world s)) as [d|]; [|discriminate]. destruct (dm_status d); try discriminate.
    injection Hs as <-. apply Hsame; [congruence|reflexivity].
  - destruct (w_daemon (s_world s)); [|discriminate].
    match type of Hs with (if ?b then _ else _) = _ => destruct b; [|discriminate] end.
    injection Hs as <-. apply Hgone; [congruence|reflexivity].
  - destruct (nth_error (w_spawned (s_world s)) i) as [a|] eqn:Ea; [|discriminate].
    destruct (get_proc (w_procs (s_world s)) pid) eqn:Eg; [discriminate|].
    assert (Hn : forall n, LJobStart i pid <> LStep n) by congruence. specialize (Henv Hn).
    injection Hs as <-. split; cbn.
    + intros x pid' a' Hx Hk Hac. apply in_app_iff in Hx. destruct Hx as [Hx|[<-|[]]]; [eapply Henv; eauto|].
      cbn in Hk. inversion Hk. subst. unfold listed. cbn. rewrite Z.eqb_refl. reflexivity.
    + rewrite job_pids_snoc. unfold job_pid at 1. cbn. 
      apply NoDup_Add with (a := pid) (l := job_pids (s_threads s)).
      * rewrite <- (app_nil_r (job_pids (s_threads s))) at 1.
        replace (job_pids (s_threads s) ++ [pid]) with (job_pids (s_threads s) ++ pid :: []) by reflexivity.
        apply Add_app.
      * split; [exact H2|]. intros Hin. apply In_job_pids in Hin. destruct Hin as (t & Hin & Hp).
        unfold job_pid in Hp. destruct (t_kind t) eqn:Ek; try discriminate.
        destruct (active t) eqn:Eac; [|discriminate]. inversion Hp. subst.
        specialize (H1 _ _ _ Hin Ek Eac). unfold listed in H1. congruence.
  - destruct (nth_error (w_spawned (s_world s)) i) as [a|] eqn:Ea; [|discriminate].
    injection Hs as <-. apply Hsame; [congruence|reflexivity].
  - injection Hs as <-. eapply Hadd; [congruence|reflexivity|reflexivity].
  - destruct (existsb (runs_pid pid) (s_threads s)); [discriminate|].
    injection Hs as <-. apply Hsame; [congruence|reflexivity].
  - destruct (get_proc (w_procs (s_world s)) pid); [discriminate|].
    injection Hs as <-. apply Hsame; [congruence|reflexivity].
  - injection Hs as <-. apply Hsame; [congruence|reflexivity].
  - injection Hs as <-. apply Hsame; [congruence|reflexivity].
  - injection Hs as <-. apply Hsame; [congruence|reflexivity].
  - injection Hs as <-. apply Hsame; [congruence|reflexivity].
Qed.
