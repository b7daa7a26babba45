(** * RGY: rely/guarantee reasoning that may use facts about all threads *)
From Coq Require Import List String ZArith Bool Lia.
From Verif Require Import Base PyStr Types ConfigModel Prog ProgFacts World Replies CmdModel
  KetchupModel TomatoModel JobModel PipModel DrvModel SysModel RGFacts SpecSys SpecSys2.
Import ListNotations.

Lemma okp_and {A} (R : world -> world -> Prop) (G1 G2 : op -> world -> Prop) (p : pgm A) : forall w,
  okp exec R G1 p w -> okp exec R G2 p w -> okp exec R (fun o w => G1 o w /\ G2 o w) p w.
Proof.
  induction p as [a|e|o k IH]; intros w; cbn; auto.
  intros H1 H2 w1 Hr. destruct (H1 w1 Hr) as [Hg1 Hn1]. destruct (H2 w1 Hr) as [Hg2 Hn2]. split; [auto|].
  destruct (exec o w1) as [r w2]. apply IH; auto.
Qed.

Section RGY.
  Context (I : world -> Prop) (R : kind -> world -> world -> Prop) (G : kind -> op -> world -> Prop)
          (okl : label -> sys -> Prop) (okst : sys -> Prop).

  Definition okt (t : thread) (w : world) : Prop :=
    okp exec (rely I R (t_kind t)) (G (t_kind t)) (t_pgm t) w.
  Definition rgy_inv (s : sys) : Prop :=
    I (s_world s) /\ one_each (s_threads s) /\ forall t, In t (s_threads s) -> okt t (s_world s).

  Hypothesis R_refl : forall k w, R k w w.
  Hypothesis R_trans : forall k a b c, R k a b -> R k b c -> R k a c.
  Hypothesis H_inv : forall k o s s', okst s -> okst s' -> s_world s' = snd (exec o (s_world s)) ->
    I (s_world s) -> G k o (s_world s) -> I (s_world s').
  Hypothesis H_rely : forall s n m a b o c, okst s -> one_each (s_threads s) ->
    nth_error (s_threads s) n = Some a -> nth_error (s_threads s) m = Some b -> n <> m ->
    t_pgm a = Op o c -> active b = true -> I (s_world s) -> G (t_kind a) o (s_world s) ->
    R (t_kind b) (s_world s) (snd (exec o (s_world s))).
  Hypothesis H_env : forall l s s', okl l s -> okst s -> okst s' -> (forall n, l <> LStep n) ->
    step l s = Some s' -> I (s_world s) ->
    I (s_world s') /\
    forall t, In t (s_threads s) -> active t = true -> R (t_kind t) (s_world s) (s_world s').
  Hypothesis H_cmd : forall c s, okst s -> I (s_world s) ->
    okp exec (rely I R KCmd) (G KCmd) (cmd_pgm c) (s_world s).
  Hypothesis H_mgr : forall k p s, mgr_pass k = Some p -> okst s -> I (s_world s) ->
    okp exec (rely I R k) (G k) (no_reply p) (s_world s).
  Hypothesis H_quit : forall s, okst s -> I (s_world s) ->
    okp exec (rely I R KDrvMgr) (G KDrvMgr) (no_reply drv_quit) (s_world s).
  Hypothesis H_job : forall s s' i pid a, okst s -> okst s' -> I (s_world s) -> I (s_world s') ->
    step (LJobStart i pid) s = Some s' -> nth_error (w_spawned (s_world s)) i = Some a ->
    okp exec (rely I R (KJob pid a)) (G (KJob pid a)) (no_reply (tomato_job pid a)) (s_world s').
  Hypothesis H_drv : forall n port pid ver ok s, okst s -> I (s_world s) ->
    okp exec (rely I R (KDriver n)) (G (KDriver n)) (no_reply (driver_connect n port pid ver ok)) (s_world s).

  Lemma okt_active t w w' : okt t w -> I w' -> (active t = true -> R (t_kind t) w w') -> okt t w'.
  Proof.
    unfold active, okt. destruct (t_pgm t) as [a|e|o k]; cbn; auto.
    intros H Hi Hr w1 [H1 H2]. apply H. split; [exact H1|]. eapply R_trans; eauto.
  Qed.

  Lemma rgy_start w : I (set_daemon w None) -> rgy_inv (start_sys w).
  Proof.
    intros H. split; [exact H|]. split; [|intros t []]. intros n m a b Ha. destruct n; discriminate.
  Qed.

  (** The next operation of an active thread satisfies its guarantee. *)
  Lemma rgy_next s n t o c : rgy_inv s -> nth_error (s_threads s) n = Some t -> t_pgm t = Op o c ->
    G (t_kind t) o (s_world s).
  Proof.
    intros (Hi & _ & Ht) En Ep. specialize (Ht t (nth_error_In _ _ En)). unfold okt in Ht.
    rewrite Ep in Ht. apply (Ht (s_world s)). split; auto.
  Qed.

  Lemma rgy_step l s s' : okl l s -> okst s -> okst s' -> rgy_inv s -> step l s = Some s' -> rgy_inv s'.
  Proof.
    intros Hl Hst Hst' Hinv Hs. pose proof Hinv as (Hi & Hu & Ht).
    assert (Henv : (forall n, l <> LStep n) ->
      I (s_world s') /\ (forall t, In t (s_threads s) -> okt t (s_world s'))).
    { intros Hns. destruct (H_env l s s' Hl Hst Hst' Hns Hs Hi) as (Hi' & Hr). split; auto.
      intros t Hin. eapply okt_active; eauto. }
    assert (Hadd : forall t w r, (forall n, l <> LStep n) ->
        s' = mkSys w (s_threads s ++ [t]) r ->
        (forall x, In x (s_threads s) -> mgr_eqb (t_kind t) (t_kind x) = false) ->
        (I (s_world s') -> okt t w) -> rgy_inv s').
    { intros t w r Hns -> Hm Ho. destruct (Henv Hns) as (Hi' & Ht'). cbn in *.
      split; [exact Hi'|]. split; [apply one_each_snoc; auto|].
      cbn. intros x Hx. apply in_app_iff in Hx. destruct Hx as [Hx|[<-|[]]]; auto. }
    assert (Hsame : (forall n, l <> LStep n) -> s_threads s' = s_threads s -> rgy_inv s').
    { intros Hns He. destruct (Henv Hns) as (Hi' & Ht'). split; [exact Hi'|]. rewrite He.
      split; [exact Hu|exact Ht']. }
    assert (Hgone : (forall n, l <> LStep n) ->
      s_threads s' = filter (fun t => negb (is_mgr (t_kind t))) (s_threads s) -> rgy_inv s').
    { intros Hns He. destruct (Henv Hns) as (Hi' & Ht'). split; [exact Hi'|]. rewrite He.
      split; [apply one_each_nomgr|]. intros t Hin. apply filter_In in Hin. apply Ht'. apply Hin. }
    destruct l; cbn in Hs.
    - injection Hs as Hs'. eapply Hadd; [congruence|symmetry; exact Hs'| |].
      + intros; apply mgr_eqb_false_l; reflexivity.
      + intros _. apply H_cmd; auto.
    - destruct (nth_error (s_threads s) n) as [t|] eqn:En; [|discriminate].
      unfold step_thread in Hs. pose proof (Ht t (nth_error_In _ _ En)) as Htt.
      destruct (t_pgm t) as [a|e|o k] eqn:Ep; [|discriminate|].
      + destruct (mgr_pass (t_kind t)) as [p|] eqn:Em; [|discriminate].
        destruct (t_done t); [discriminate|].
        assert (X : forall q d, okp exec (rely I R (t_kind t)) (G (t_kind t)) q (s_world s) ->
          rgy_inv (set_threads s (set_nth n (mkThread (t_kind t) q d) (s_threads s)))).
        { intros q d Hq. split; [exact Hi|]. split; [cbn; eapply one_each_set; eauto|].
          cbn. intros x Hx. apply In_nth_error in Hx. destruct Hx as [m Hx].
          apply nth_set_nth in Hx. destruct Hx as [[-> ->]|[_ Hx]]; [exact Hq|].
          apply Ht. eapply nth_error_In; eauto. }
        destruct (s_run s); inversion Hs; apply X.
        * apply H_mgr; auto.
        * destruct (t_kind t); try exact Logic.I. apply H_quit; auto.
      + unfold okt in Htt. rewrite Ep in Htt. cbn in Htt.
        destruct (Htt (s_world s)) as [Hg Hk]; [split; auto|].
        assert (Ew : s_world s' = snd (exec o (s_world s))).
        { destruct (exec o (s_world s)) as [r w]. inversion Hs. reflexivity. }
        pose proof (H_inv _ _ _ _ Hst Hst' Ew Hi Hg) as Hi'.
        pose proof (fun m b => H_rely s n m t b o k Hst Hu En) as Hr.
        destruct (exec o (s_world s)) as [r w] eqn:Ee. cbn in Hr. inversion Hs. subst s'. cbn in Hi'.
        split; [exact Hi'|]. split; [cbn; eapply one_each_set; eauto|].
        cbn. intros x Hx. apply In_nth_error in Hx. destruct Hx as [m Hx].
        apply nth_set_nth in Hx. destruct Hx as [[-> ->]|[Hm Hx]]; [exact Hk|].
        eapply okt_active; [apply Ht; eapply nth_error_In; eauto|exact Hi'|].
        intros Ha. apply (Hr m x); auto.
    - destruct (nth_error (s_threads s) n) as [t|] eqn:En; [|discriminate].
      destruct (is_mgr (t_kind t)) eqn:Em; [discriminate|]. inversion Hs. subst s'.
      split; [exact Hi|]. split; [cbn; eapply one_each_set; eauto|].
      cbn. intros x Hx. apply In_nth_error in Hx. destruct Hx as [m Hx].
      apply nth_set_nth in Hx. destruct Hx as [[-> ->]|[_ Hx]]; [exact Logic.I|].
      apply Ht. eapply nth_error_In; eauto.
    - destruct (w_daemon (s_world s)); [|discriminate]. apply Hgone; [congruence|injection Hs as <-; reflexivity].
    - destruct (w_daemon (s_world s)); [|discriminate].
      destruct (mgr_pass k) as [p|] eqn:Em; [|discriminate].
      destruct (has_kind k s) eqn:Hk; [discriminate|]. injection Hs as Hs'.
      eapply Hadd; [congruence|symmetry; exact Hs'| |].
      + cbn. intros x Hx. unfold has_kind in Hk.
        destruct (mgr_eqb k (t_kind x)) eqn:Ex; [|reflexivity].
        assert (existsb (fun t => mgr_eqb k (t_kind t)) (s_threads s) = true)
          by (apply existsb_exists; eauto). congruence.
      + intros _. exact Logic.I.
    - destruct (w_daemon (s_world s)) as [d|]; [|discriminate].
      destruct (dm_status d); inversion Hs. subst s'. split; auto.
    - destruct (w_daemon (s_world s)); [|discriminate].
      match type of Hs with (if ?b then _ else _) = _ => destruct b eqn:Eb; [|discriminate] end.
      apply Hgone; [congruence|injection Hs as <-; reflexivity].
    - destruct (nth_error (w_spawned (s_world s)) i) as [a|] eqn:Ea; [|discriminate].
      destruct (get_proc (w_procs (s_world s)) pid) eqn:Eg; [discriminate|].
      injection Hs as Hs'. eapply Hadd; [congruence|symmetry; exact Hs'| |].
      + intros; apply mgr_eqb_false_l; reflexivity.
      + intros Hi'. assert (E : step (LJobStart i pid) s = Some s') by (cbn; rewrite Ea, Eg, Hs'; reflexivity).
        pose proof (H_job s s' i pid a Hst Hst' Hi Hi' E Ea) as X. rewrite <- Hs' in X. exact X.
    - destruct (nth_error (w_spawned (s_world s)) i); [|discriminate].
      apply Hsame; [congruence|injection Hs as <-; reflexivity].
    - injection Hs as Hs'. eapply Hadd; [congruence|symmetry; exact Hs'| |].
      + intros; apply mgr_eqb_false_l; reflexivity.
      + intros _. eapply H_drv; eauto.
    - destruct (existsb (runs_pid pid) (s_threads s)); [discriminate|].
      apply Hsame; [congruence|injection Hs as <-; reflexivity].
    - destruct (get_proc (w_procs (s_world s)) pid); [discriminate|].
      apply Hsame; [congruence|injection Hs as <-; reflexivity].
    - apply Hsame; [congruence|injection Hs as <-; reflexivity].
    - apply Hsame; [congruence|injection Hs as <-; reflexivity].
    - apply Hsame; [congruence|injection Hs as <-; reflexivity].
    - apply Hsame; [congruence|injection Hs as <-; reflexivity].
  Unshelve. all: first [exact (s_world s)|exact true].
  Qed.

  Lemma rgy_steps ls : forall s s', each_step okl ls s -> along okst ls s -> rgy_inv s ->
    runs ls s = Some s' -> rgy_inv s'.
  Proof.
    induction ls as [|l ls IH]; intros s s' Hl Ha Hi Hs; cbn in Hs.
    - inversion Hs. subst. exact Hi.
    - destruct Hl as [Hl1 Hl2]. destruct Ha as [Ha1 Ha2].
      destruct (step l s) as [s1|] eqn:E; [|discriminate].
      eapply IH; [exact Hl2|exact Ha2| |exact Hs]. eapply rgy_step; eauto.
      destruct ls; apply Ha2.
  Qed.
End RGY.

(** What holds at the start and is kept by every step holds all along. *)
Lemma along_inv (P : sys -> Prop) : (forall l s s', P s -> step l s = Some s' -> P s') ->
  forall ls s, P s -> along P ls s.
Proof.
  intros H ls. induction ls as [|l ls IH]; intros s Hp; cbn -[step]; auto. split; [exact Hp|].
  destruct (step l s) as [s'|] eqn:E; [|exact I]. apply IH. eapply H; eauto.
Qed.
Lemma along_and (P Q : sys -> Prop) : forall ls s, along P ls s -> along Q ls s -> along (fun s => P s /\ Q s) ls s.
Proof.
  induction ls as [|l ls IH]; intros s; cbn -[step]; auto. intros [H1 H2] [H3 H4]. split; [auto|].
  destruct (step l s); auto.
Qed.
Lemma along_end (P : sys -> Prop) : forall ls s s', along P ls s -> runs ls s = Some s' -> P s'.
Proof.
  induction ls as [|l ls IH]; intros s s' H Hr; cbn -[step] in *.
  - congruence.
  - destruct H as [_ H]. destruct (step l s); [eapply IH; eauto|discriminate].
Qed.
