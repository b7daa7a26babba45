(** * RGX: rely/guarantee reasoning with end conditions and scheduling conditions *)
From Coq Require Import List String ZArith Bool Lia.
From Verif Require Import Base PyStr Types ConfigModel Prog ProgFacts World Replies CmdModel
  KetchupModel TomatoModel JobModel PipModel DrvModel SysModel RGFacts SpecSys.
Import ListNotations.

Lemma active_not_ended t : active t = true -> ended t = false.
Proof. unfold active, ended. destruct (t_pgm t); auto; discriminate. Qed.

Section RGX.
  (** [sep a b]: threads of these kinds may be active at the same time. *)
  Context (I : world -> Prop) (R : kind -> world -> world -> Prop) (G : kind -> op -> world -> Prop)
          (Q : kind -> world -> Prop) (sep : kind -> kind -> bool) (okl : label -> Prop)
          (okst : sys -> Prop).

  Definition xrely (k : kind) (w w' : world) : Prop := I w' /\ R k w w'.
  Definition okx (t : thread) (w : world) : Prop :=
    okq exec (xrely (t_kind t)) (G (t_kind t)) (Q (t_kind t)) (t_pgm t)
      (fun _ => Q (t_kind t)) w.
  Definition rgx_inv (s : sys) : Prop :=
    I (s_world s) /\ one_each (s_threads s) /\
    (forall t, In t (s_threads s) -> okx t (s_world s)) /\
    (forall k, is_mgr k = true -> has_kind k s = false -> Q k (s_world s)).

  Hypothesis R_refl : forall k w, R k w w.
  Hypothesis R_trans : forall k a b c, R k a b -> R k b c -> R k a c.
  Hypothesis Q_triv : forall k w, is_mgr k = false -> Q k w.
  Hypothesis H_sep : forall s n m a b, okst s -> one_each (s_threads s) ->
    nth_error (s_threads s) n = Some a -> nth_error (s_threads s) m = Some b -> n <> m ->
    active a = true -> active b = true -> sep (t_kind a) (t_kind b) = true.
  Hypothesis H_inv : forall k o w, I w -> G k o w -> I (snd (exec o w)).
  Hypothesis H_rely : forall k k' o w, I w -> G k o w -> sep k k' = true -> R k' w (snd (exec o w)).
  Hypothesis H_Q : forall k k' o w, I w -> G k o w -> mgr_eqb k k' = false ->
    Q k' w -> Q k' (snd (exec o w)).
  Hypothesis H_env : forall l s s', okl l -> okst s -> okst s' -> (forall n, l <> LStep n) ->
    step l s = Some s' -> I (s_world s) ->
    I (s_world s') /\ (forall k, R k (s_world s) (s_world s')) /\
    (forall k, Q k (s_world s) -> Q k (s_world s')).
  Hypothesis H_cmd : forall c s, okl (LCmd c) -> okst s -> I (s_world s) ->
    okq exec (xrely KCmd) (G KCmd) (Q KCmd) (cmd_pgm c) (fun _ => Q KCmd) (s_world s).
  Hypothesis H_mgr : forall k p s, mgr_pass k = Some p -> okst s -> I (s_world s) -> Q k (s_world s) ->
    okq exec (xrely k) (G k) (Q k) (no_reply p) (fun _ => Q k) (s_world s).
  Hypothesis H_quit : forall s, okst s -> I (s_world s) -> Q KDrvMgr (s_world s) ->
    okq exec (xrely KDrvMgr) (G KDrvMgr) (Q KDrvMgr) (no_reply drv_quit) (fun _ => Q KDrvMgr) (s_world s).
  Hypothesis H_job : forall s s' i pid a, okl (LJobStart i pid) -> okst s -> okst s' -> I (s_world s) ->
    step (LJobStart i pid) s = Some s' -> nth_error (w_spawned (s_world s)) i = Some a ->
    okq exec (xrely (KJob pid a)) (G (KJob pid a)) (Q (KJob pid a)) (no_reply (tomato_job pid a))
      (fun _ => Q (KJob pid a)) (s_world s').
  Hypothesis H_drv : forall n port pid ver ok s, okl (LDriver n port pid ver ok) -> okst s -> I (s_world s) ->
    okq exec (xrely (KDriver n)) (G (KDriver n)) (Q (KDriver n))
      (no_reply (driver_connect n port pid ver ok)) (fun _ => Q (KDriver n)) (s_world s).
  (** The daemon only disappears when its managers are at rest. *)
  Hypothesis H_crash : ~ okl LCrash \/ forall k w, Q k w.

  Lemma xrely_trans k a b c : xrely k a b -> xrely k b c -> xrely k a c.
  Proof. intros [_ H1] [Hi H2]. split; auto. eapply R_trans; eauto. Qed.

  Lemma okx_active t w w' : active t = true -> okx t w -> I w' -> R (t_kind t) w w' -> okx t w'.
  Proof.
    unfold active, okx. destruct (t_pgm t) as [a|e|o k]; try discriminate. cbn.
    intros _ H Hi Hr w1 H1. apply H. eapply xrely_trans; eauto. split; auto.
  Qed.
  Lemma okx_rest t w : active t = false -> okx t w -> Q (t_kind t) w.
  Proof. unfold active, okx. destruct (t_pgm t); cbn; auto. discriminate. Qed.
  Lemma okx_of_rest t w : active t = false -> Q (t_kind t) w -> okx t w.
  Proof. unfold active, okx. destruct (t_pgm t); cbn; auto. discriminate. Qed.

  Lemma rgx_start w : I (set_daemon w None) -> (forall k, is_mgr k = true -> Q k (set_daemon w None)) ->
    rgx_inv (start_sys w).
  Proof.
    intros H Hq. split; [exact H|]. split; [intros n m a b Ha; destruct n; discriminate|].
    split; [intros t []|]. intros k Hk _. apply Hq. exact Hk.
  Qed.

  Lemma rgx_guar s n s' : rgx_inv s -> step (LStep n) s = Some s' ->
    s_world s' = s_world s \/
    exists t o k, nth_error (s_threads s) n = Some t /\ t_pgm t = Op o k /\
      G (t_kind t) o (s_world s) /\ s_world s' = snd (exec o (s_world s)).
  Proof.
    intros (Hi & Hu & Ht & _) Hs. cbn in Hs.
    destruct (nth_error (s_threads s) n) as [t|] eqn:En; [|discriminate].
    unfold step_thread in Hs. specialize (Ht t (nth_error_In _ _ En)). unfold okx in Ht.
    destruct (t_pgm t) as [a|e|o k] eqn:Ep.
    - left. destruct (mgr_pass (t_kind t)); [|discriminate].
      destruct (t_done t); [discriminate|]. destruct (s_run s); inversion Hs; reflexivity.
    - discriminate.
    - right. exists t, o, k. cbn in Ht. destruct (Ht (s_world s)) as [Hg _]; [split; auto|].
      destruct (exec o (s_world s)) as [r w]. inversion Hs. cbn. auto.
  Qed.

  Lemma has_kind_false k s t : has_kind k s = false -> In t (s_threads s) -> mgr_eqb k (t_kind t) = false.
  Proof.
    unfold has_kind. intros H Hin. destruct (mgr_eqb k (t_kind t)) eqn:E; [|reflexivity].
    assert (existsb (fun t => mgr_eqb k (t_kind t)) (s_threads s) = true) by (apply existsb_exists; eauto).
    congruence.
  Qed.
  Lemma has_kind_set k s n t t0 w r : nth_error (s_threads s) n = Some t0 -> t_kind t = t_kind t0 ->
    has_kind k (mkSys w (set_nth n t (s_threads s)) r) = false -> has_kind k s = false.
  Proof.
    intros H0 Hk H. unfold has_kind in *. apply not_true_iff_false. intros Hx.
    apply existsb_exists in Hx. destruct Hx as (x & Hin & Hm). apply not_true_iff_false in H. apply H.
    apply existsb_exists. cbn. apply In_nth_error in Hin. destruct Hin as [m Hx].
    destruct (Nat.eq_dec m n) as [->|Hne].
    - exists t. split; [eapply nth_error_In; eapply nth_set_nth_eq; eauto|]. rewrite Hk. congruence.
    - exists x. split; [|exact Hm]. eapply nth_error_In with (n := m).
      clear - Hx Hne. revert n m Hx Hne. induction (s_threads s) as [|y l IH]; intros [|n] [|m] Hx Hne; cbn in *;
        try discriminate; try congruence. apply IH; auto.
  Qed.
  Lemma has_kind_app k s t w r : has_kind k (mkSys w (s_threads s ++ [t]) r) = false -> has_kind k s = false.
  Proof.
    unfold has_kind. cbn. rewrite existsb_app. intros H. apply orb_false_elim in H. apply H.
  Qed.
  Lemma mgr_eqb_true_eq a b : mgr_eqb a b = true -> a = b.
  Proof. destruct a, b; cbn; congruence. Qed.
  Lemma mgr_eqb_diag a : is_mgr a = true -> mgr_eqb a a = true.
  Proof. destruct a; cbn; congruence. Qed.

  Lemma rgx_step l s s' : okl l -> okst s -> okst s' -> rgx_inv s -> step l s = Some s' -> rgx_inv s'.
  Proof.
    intros Hl Hst Hst' Hinv Hs. pose proof Hinv as (Hi & Hu & Ht & Hn).
    assert (Henv : (forall n, l <> LStep n) ->
      I (s_world s') /\
      (forall t, In t (s_threads s) -> okx t (s_world s')) /\
      (forall k, is_mgr k = true -> has_kind k s = false -> Q k (s_world s'))).
    { intros Hns. destruct (H_env l s s' Hl Hst Hst' Hns Hs Hi) as (Hi' & Hr & Hq). split; auto. split.
      - intros t Hin. specialize (Ht t Hin). destruct (active t) eqn:Ea.
        + eapply okx_active; eauto.
        + apply okx_of_rest; auto. apply Hq. apply okx_rest; auto.
      - intros k Hk Hf. apply Hq. auto. }
    assert (Hadd : forall t w r, (forall n, l <> LStep n) ->
        s' = mkSys w (s_threads s ++ [t]) r ->
        (forall x, In x (s_threads s) -> mgr_eqb (t_kind t) (t_kind x) = false) ->
        (I (s_world s') -> okx t w) -> rgx_inv s').
    { intros t w r Hns -> Hm Ho. destruct (Henv Hns) as (Hi' & Ht' & Hn'). cbn in *.
      split; [exact Hi'|]. split; [apply one_each_snoc; auto|]. split.
      - cbn. intros x Hx. apply in_app_iff in Hx. destruct Hx as [Hx|[<-|[]]]; auto.
      - cbn. intros k Hk Hf. apply Hn'; auto. eapply has_kind_app; eauto. }
    assert (Hsame : (forall n, l <> LStep n) -> s_threads s' = s_threads s -> rgx_inv s').
    { intros Hns He. destruct (Henv Hns) as (Hi' & Ht' & Hn'). split; [exact Hi'|]. rewrite He.
      split; [exact Hu|]. split; [exact Ht'|]. intros k Hk Hf. apply Hn'; auto.
      unfold has_kind in *. rewrite He in Hf. exact Hf. }
    assert (Hgone : (forall n, l <> LStep n) ->
      s_threads s' = filter (fun t => negb (is_mgr (t_kind t))) (s_threads s) ->
      ((forall t, In t (s_threads s) -> is_mgr (t_kind t) = true -> Q (t_kind t) (s_world s')) \/ forall k w, Q k w) ->
      rgx_inv s').
    { intros Hns He Hq. destruct (Henv Hns) as (Hi' & Ht' & Hn'). split; [exact Hi'|]. rewrite He.
      split; [apply one_each_nomgr|]. split.
      - intros t Hin. apply filter_In in Hin. apply Ht'. apply Hin.
      - intros k Hk _. destruct Hq as [Hq|Hq]; [|apply Hq].
        destruct (has_kind k s) eqn:Ek; [|apply Hn'; auto].
        unfold has_kind in Ek. apply existsb_exists in Ek. destruct Ek as (t & Hin & Hm).
        apply mgr_eqb_true_eq in Hm. subst k. apply Hq; auto. }
    destruct l; cbn in Hs.
    - (* LCmd *)
      injection Hs as Hs'. eapply Hadd; [congruence|symmetry; exact Hs'| |].
      + intros; apply mgr_eqb_false_l; reflexivity.
      + intros _. apply H_cmd; auto.
    - (* LStep *)
      destruct (nth_error (s_threads s) n) as [t|] eqn:En; [|discriminate].
      unfold step_thread in Hs. pose proof (Ht t (nth_error_In _ _ En)) as Htt.
      destruct (t_pgm t) as [a|e|o k] eqn:Ep; [|discriminate|].
      + destruct (mgr_pass (t_kind t)) as [p|] eqn:Em; [|discriminate].
        destruct (t_done t); [discriminate|].
        assert (Hqt : Q (t_kind t) (s_world s)).
        { apply okx_rest; auto. unfold active. rewrite Ep. reflexivity. }
        assert (X : forall q d, okq exec (xrely (t_kind t)) (G (t_kind t)) (Q (t_kind t)) q
            (fun _ => Q (t_kind t)) (s_world s) ->
          rgx_inv (set_threads s (set_nth n (mkThread (t_kind t) q d) (s_threads s)))).
        { intros q d Hq. split; [exact Hi|]. split; [cbn; eapply one_each_set; eauto|]. split.
          - cbn. intros x Hx. apply In_nth_error in Hx. destruct Hx as [m Hx].
            apply nth_set_nth in Hx. destruct Hx as [[-> ->]|[_ Hx]]; [exact Hq|].
            apply Ht. eapply nth_error_In; eauto.
          - cbn. intros k Hk Hf. apply Hn; auto. eapply has_kind_set; [exact En| |exact Hf]; reflexivity. }
        destruct (s_run s); inversion Hs; apply X.
        * apply H_mgr; auto.
        * revert Hqt Em. destruct (t_kind t); intros Hqt Em; try discriminate; auto.
      + unfold okx in Htt. rewrite Ep in Htt. cbn in Htt.
        destruct (Htt (s_world s)) as [Hg Hk]; [split; auto|].
        pose proof (H_inv _ _ _ Hi Hg) as Hi'.
        pose proof (fun k' => H_rely _ k' _ _ Hi Hg) as Hr.
        pose proof (fun k' => H_Q _ k' _ _ Hi Hg) as Hq.
        destruct (exec o (s_world s)) as [r w] eqn:Ee. cbn in Hi', Hr, Hq. inversion Hs. subst s'.
        split; [exact Hi'|]. split; [cbn; eapply one_each_set; eauto|]. split.
        * cbn. intros x Hx. apply In_nth_error in Hx. destruct Hx as [m Hx].
          apply nth_set_nth in Hx. destruct Hx as [[-> ->]|[Hm Hx]]; [exact Hk|].
          pose proof (Ht x (nth_error_In _ _ Hx)) as Hx'. destruct (active x) eqn:Ea.
          -- eapply okx_active; eauto. apply Hr.
             assert (Et : active t = true) by (unfold active; rewrite Ep; reflexivity).
             exact (H_sep s n m t x Hst Hu En Hx (not_eq_sym Hm) Et Ea).
          -- apply okx_of_rest; auto. apply Hq; [|apply okx_rest; auto].
             destruct (mgr_eqb (t_kind t) (t_kind x)) eqn:Ek; [|reflexivity].
             elim Hm. symmetry. eapply Hu; eauto.
        * cbn. intros k' Hk' Hf. assert (Hf' : has_kind k' s = false) by (eapply has_kind_set; [exact En| |exact Hf]; reflexivity).
          apply Hq; [|auto]. rewrite mgr_eqb_sym. eapply has_kind_false; eauto. eapply nth_error_In; eauto.
    - (* LKill *)
      destruct (nth_error (s_threads s) n) as [t|] eqn:En; [|discriminate].
      destruct (is_mgr (t_kind t)) eqn:Em; [discriminate|]. inversion Hs. subst s'.
      split; [exact Hi|]. split; [cbn; eapply one_each_set; eauto|]. split.
      + cbn. intros x Hx. apply In_nth_error in Hx. destruct Hx as [m Hx].
        apply nth_set_nth in Hx. destruct Hx as [[-> ->]|[_ Hx]]; [apply Q_triv; exact Em|].
        apply Ht. eapply nth_error_In; eauto.
      + cbn. intros k Hk Hf. apply Hn; auto. eapply has_kind_set; [exact En| |exact Hf]; reflexivity.
    - (* LCrash *)
      destruct (w_daemon (s_world s)); [|discriminate]. apply Hgone; [congruence|injection Hs as <-; reflexivity|].
      destruct H_crash as [Hc|Hc]; [elim Hc; exact Hl|right; exact Hc].
    - (* LManager *)
      destruct (w_daemon (s_world s)); [|discriminate].
      destruct (mgr_pass k) as [p|] eqn:Em; [|discriminate].
      destruct (has_kind k s) eqn:Hk; [discriminate|]. injection Hs as Hs'.
      eapply Hadd; [congruence|symmetry; exact Hs'| |].
      + cbn. intros x Hx. eapply has_kind_false; eauto.
      + intros _. apply Hn; auto. destruct k; try discriminate; reflexivity.
    - (* LTellStop *)
      destruct (w_daemon (s_world s)) as [d|]; [|discriminate].
      destruct (dm_status d); inversion Hs. subst s'. split; auto.
    - (* LExit *)
      destruct (w_daemon (s_world s)); [|discriminate].
      match type of Hs with (if ?b then _ else _) = _ => destruct b eqn:Eb; [|discriminate] end.
      apply Hgone; [congruence|injection Hs as <-; reflexivity|]. left.
      destruct (Henv ltac:(congruence)) as (_ & Ht' & _).
      intros t Hin Hm. apply okx_rest; [|apply Ht'; exact Hin].
      apply andb_prop in Eb. destruct Eb as [_ Eb]. rewrite forallb_forall in Eb. specialize (Eb t Hin).
      rewrite Hm in Eb. cbn in Eb. destruct (active t) eqn:Ea; [|reflexivity].
      rewrite active_not_ended in Eb by exact Ea. discriminate.
    - (* LJobStart *)
      destruct (nth_error (w_spawned (s_world s)) i) as [a|] eqn:Ea; [|discriminate].
      destruct (get_proc (w_procs (s_world s)) pid) eqn:Eg; [discriminate|].
      injection Hs as Hs'. eapply Hadd; [congruence|symmetry; exact Hs'| |].
      + intros; apply mgr_eqb_false_l; reflexivity.
      + intros Hi'. assert (E : step (LJobStart i pid) s = Some s') by (cbn; rewrite Ea, Eg, Hs'; reflexivity).
        pose proof (H_job s s' i pid a Hl Hst Hst' Hi E Ea) as X. rewrite <- Hs' in X. exact X.
    - (* LJobLost *)
      destruct (nth_error (w_spawned (s_world s)) i); [|discriminate].
      apply Hsame; [congruence|injection Hs as <-; reflexivity].
    - (* LDriver *)
      injection Hs as Hs'. eapply Hadd; [congruence|symmetry; exact Hs'| |].
      + intros; apply mgr_eqb_false_l; reflexivity.
      + intros _. eapply H_drv; eauto.
    - (* LProcEnd *)
      destruct (existsb (runs_pid pid) (s_threads s)); [discriminate|].
      apply Hsame; [congruence|injection Hs as <-; reflexivity].
    - destruct (get_proc (w_procs (s_world s)) pid); [discriminate|].
      apply Hsame; [congruence|injection Hs as <-; reflexivity].
    - apply Hsame; [congruence|injection Hs as <-; reflexivity].
    - apply Hsame; [congruence|injection Hs as <-; reflexivity].
    - apply Hsame; [congruence|injection Hs as <-; reflexivity].
    - apply Hsame; [congruence|injection Hs as <-; reflexivity].
  Unshelve. all: first [exact (s_world s)|exact true].
  Qed.

  Lemma rgx_steps ls : forall s s', Forall okl ls -> along okst ls s -> rgx_inv s ->
    runs ls s = Some s' -> rgx_inv s'.
  Proof.
    induction ls as [|l ls IH]; intros s s' Hl Ha Hi Hs; cbn in Hs.
    - inversion Hs. subst. exact Hi.
    - inversion Hl as [|x y H1 H2]. subst. destruct Ha as [Ha1 Ha2].
      destruct (step l s) as [s1|] eqn:E; [|discriminate].
      eapply IH; [exact H2|exact Ha2| |exact Hs]. eapply rgx_step; eauto.
      destruct ls; apply Ha2.
  Qed.
End RGX.

(** Without a scheduling condition only managers exclude each other. *)
Definition sep_any (a b : kind) : bool := negb (mgr_eqb a b).
Lemma sep_any_ok s n m a b : one_each (s_threads s) ->
  nth_error (s_threads s) n = Some a -> nth_error (s_threads s) m = Some b -> n <> m ->
  active a = true -> active b = true -> sep_any (t_kind a) (t_kind b) = true.
Proof.
  intros Hu Ha Hb Hne _ _. unfold sep_any. destruct (mgr_eqb (t_kind a) (t_kind b)) eqn:E; [|reflexivity].
  elim Hne. eapply Hu; eauto.
Qed.
Lemma along_true ls : forall s, along (fun _ => True) ls s.
Proof. induction ls as [|l ls IH]; intros s; cbn; auto. split; auto. destruct (step l s); auto. Qed.
