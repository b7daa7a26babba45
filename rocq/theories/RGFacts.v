(** * RGFacts: rely/guarantee reasoning about programs and the system *)
From Coq Require Import List String ZArith Bool Lia.
From Verif Require Import Base PyStr Types ConfigModel Prog ProgFacts World Replies CmdModel
  KetchupModel TomatoModel JobModel PipModel DrvModel SysModel.
Import ListNotations.

(** ** Programs *)
Section Okq.
  Context {op : Type} {resp : op -> Type} {W : Type}.
  Context (exec : forall o : op, W -> res (resp o) * W).
  Context (R : W -> W -> Prop) (G : op -> W -> Prop) (E : W -> Prop).

  (** [okp] with a postcondition [Q] and an exceptional postcondition [E]. *)
  Fixpoint okq {A : Type} (p : prog op resp A) (Q : A -> W -> Prop) (w : W) : Prop :=
    match p with
    | Ret a => Q a w
    | Raise _ => E w
    | Op o k => forall w1, R w w1 -> G o w1 /\
                  (let (r, w2) := exec o w1 in okq (k r) Q w2)
    end.

  Lemma okq_weaken {A} (p : prog op resp A) (Q Q' : A -> W -> Prop) : forall w,
    (forall a w', Q a w' -> Q' a w') -> okq p Q w -> okq p Q' w.
  Proof.
    induction p as [a|e|o k IH]; intros w HQ; cbn; auto.
    intros H w1 Hr. destruct (H w1 Hr) as [Hg Hk]. split; [exact Hg|].
    destruct (exec o w1) as [r w2]. apply IH; auto.
  Qed.

  Lemma okq_bind {A B} (p : prog op resp A) (f : A -> prog op resp B) (Q : B -> W -> Prop) :
    forall w, okq p (fun a w' => okq (f a) Q w') w -> okq (bind p f) Q w.
  Proof.
    induction p as [a|e|o k IH]; intros w; cbn; auto.
    intros H w1 Hr. destruct (H w1 Hr) as [Hg Hk]. split; [exact Hg|].
    destruct (exec o w1) as [r w2]. apply IH; auto.
  Qed.

  Lemma okq_lift {A} (x : res A) (Q : A -> W -> Prop) w :
    E w -> (forall a, x = Ok a -> Q a w) -> okq (lift x) Q w.
  Proof. destruct x; cbn; auto. Qed.

  Lemma okq_assert b (Q : unit -> W -> Prop) w :
    E w -> (b = true -> Q tt w) -> okq (assertP b) Q w.
  Proof. destruct b; cbn; auto. Qed.

  Lemma okq_forP {S A} (f : S -> A -> prog op resp S) (J : list A -> S -> W -> Prop) l :
    forall s w, J l s w ->
    (forall a r s w, J (a :: r) s w -> okq (f s a) (fun s' w' => J r s' w') w) ->
    okq (forP f s l) (fun s' w' => J [] s' w') w.
  Proof.
    induction l as [|a l IH]; intros s w H0 Hf; cbn [forP]; [exact H0|].
    apply okq_bind. eapply okq_weaken; [|apply Hf; exact H0].
    cbn. intros s' w' H'. apply IH; auto.
  Qed.

  Lemma okq_forB {S A X} (f : S -> A -> prog op resp (S + X)) (J : list A -> S -> W -> Prop)
      (K : X -> W -> Prop) l :
    forall s w, J l s w ->
    (forall a r s w, J (a :: r) s w ->
       okq (f s a) (fun y w' => match y with inl s' => J r s' w' | inr x => K x w' end) w) ->
    okq (forB f s l) (fun y w' => match y with inl s' => J [] s' w' | inr x => K x w' end) w.
  Proof.
    induction l as [|a l IH]; intros s w H0 Hf; cbn [forB]; [exact H0|].
    apply okq_bind. eapply okq_weaken; [|apply Hf; exact H0].
    cbn. intros [s'|x] w' H'; [apply IH; auto|exact H'].
  Qed.

  (** One operation whose exception propagates. *)
  Lemma okq_do (o : op) (Q : resp o -> W -> Prop) w :
    (forall w1, R w w1 -> G o w1 /\
       match exec o w1 with (Ok x, w2) => Q x w2 | (Err _, w2) => E w2 end) ->
    okq (do o) Q w.
  Proof.
    intros H w1 Hr. destruct (H w1 Hr) as [Hg Hk]. split; [exact Hg|].
    destruct (exec o w1) as [[x|e] w2]; exact Hk.
  Qed.

  Lemma okq_okp {A} (p : prog op resp A) Q : forall w, okq p Q w -> okp exec R G p w.
  Proof.
    induction p as [a|e|o k IH]; intros w; cbn; auto.
    intros H w1 Hr. destruct (H w1 Hr) as [Hg Hk]. split; [exact Hg|].
    destruct (exec o w1) as [r w2]. apply IH; auto.
  Qed.

  Lemma okp_stable {A} (p : prog op resp A) w w' :
    (forall a b c, R a b -> R b c -> R a c) ->
    okp exec R G p w -> R w w' -> okp exec R G p w'.
  Proof. intros T. destruct p; cbn; auto. intros H Hr w1 H1. apply H. eapply T; eauto. Qed.
End Okq.

(** Without interference, [okq] is a Hoare triple for [run]. *)
Lemma okq_run {op : Type} {resp : op -> Type} {W : Type}
    (exec : forall o : op, W -> res (resp o) * W) (G : op -> W -> Prop) (E : W -> Prop)
    {A : Type} (p : prog op resp A) Q : forall w,
  okq exec eq G E p Q w ->
  match run exec p w with (Ok a, w') => Q a w' | (Err _, w') => E w' end.
Proof.
  induction p as [a|e|o k IH]; intros w; cbn; auto.
  intros H. destruct (H w eq_refl) as [_ Hk].
  destruct (exec o w) as [r w2]. apply IH; auto.
Qed.

(** Programs whose operations are all harmless satisfy the guarantee whatever
    happens around them. *)
Lemma all_ops_okp {op : Type} {resp : op -> Type} {W : Type}
    (exec : forall o : op, W -> res (resp o) * W) (R : W -> W -> Prop) (G : op -> W -> Prop) (P : op -> Prop)
    {A : Type} (p : prog op resp A) :
  (forall w w1 o, R w w1 -> P o -> G o w1) -> forall w, all_ops P p -> okp exec R G p w.
Proof.
  intros HG. induction p as [a|e|o k IH]; intros w; cbn; auto.
  intros [Ho Hk] w1 Hr. split; [eapply HG; eauto|].
  destruct (exec o w1) as [r w2]. apply IH; auto.
Qed.

Lemma all_ops_weaken {op : Type} {resp : op -> Type} (P P' : op -> Prop)
    {A : Type} (p : prog op resp A) :
  (forall o, P o -> P' o) -> all_ops P p -> all_ops P' p.
Proof. intros H. induction p as [a|e|o k IH]; cbn; auto. intros [Ho Hk]. split; auto. Qed.

(** ** The system *)
Lemma nth_set_nth {A} (l : list A) n x m y :
  nth_error (set_nth n x l) m = Some y ->
  (m = n /\ y = x) \/ (m <> n /\ nth_error l m = Some y).
Proof.
  revert n m. induction l as [|a l IH]; intros [|n] [|m] H; cbn in *; try discriminate.
  - inversion H. auto.
  - right. auto.
  - right. auto.
  - destruct (IH _ _ H) as [[-> ->]|[Hn He]]; [left|right]; auto.
Qed.

Lemma nth_set_nth_eq {A} (l : list A) n x y :
  nth_error l n = Some y -> nth_error (set_nth n x l) n = Some x.
Proof. revert n. induction l as [|a l IH]; intros [|n] H; cbn in *; try discriminate; auto. Qed.

Definition one_each (ts : list thread) : Prop :=
  forall n m a b, nth_error ts n = Some a -> nth_error ts m = Some b ->
  mgr_eqb (t_kind a) (t_kind b) = true -> n = m.

Lemma one_each_set ts n t t0 :
  nth_error ts n = Some t0 -> t_kind t = t_kind t0 -> one_each ts -> one_each (set_nth n t ts).
Proof.
  intros H0 Hk H i j a b Ha Hb Hm.
  apply nth_set_nth in Ha. apply nth_set_nth in Hb.
  destruct Ha as [[-> ->]|[Hi Ha]], Hb as [[-> ->]|[Hj Hb]]; auto.
  - rewrite Hk in Hm. eapply H; eauto.
  - rewrite Hk in Hm. eapply H; eauto.
  - eapply H; eauto.
Qed.

Lemma mgr_eqb_sym a b : mgr_eqb a b = mgr_eqb b a.
Proof. destruct a, b; reflexivity. Qed.

Lemma mgr_eqb_false_l k k' : is_mgr k = false -> mgr_eqb k k' = false.
Proof. destruct k; cbn; congruence || auto. Qed.

Lemma nth_app_snoc {A} (l : list A) x n y :
  nth_error (l ++ [x]) n = Some y -> nth_error l n = Some y \/ (n = List.length l /\ y = x).
Proof.
  revert n. induction l as [|a l IH]; intros [|n] H; cbn in *; auto.
  - inversion H. auto.
  - destruct n; discriminate.
  - destruct (IH _ H) as [?|[-> ->]]; auto.
Qed.

Lemma one_each_snoc ts t :
  (forall x, In x ts -> mgr_eqb (t_kind t) (t_kind x) = false) -> one_each ts ->
  one_each (ts ++ [t]).
Proof.
  intros H0 H i j a b Ha Hb Hm.
  apply nth_app_snoc in Ha. apply nth_app_snoc in Hb.
  destruct Ha as [Ha|[-> ->]], Hb as [Hb|[-> ->]]; auto.
  - eapply H; eauto.
  - rewrite mgr_eqb_sym in Hm. rewrite H0 in Hm; [discriminate|]. eapply nth_error_In; eauto.
  - rewrite H0 in Hm; [discriminate|]. eapply nth_error_In; eauto.
Qed.

Lemma nth_filter_In {A} f (l : list A) n x :
  nth_error (filter f l) n = Some x -> In x l /\ f x = true.
Proof. intros H. apply nth_error_In in H. apply filter_In in H. exact H. Qed.

Lemma one_each_nomgr ts : one_each (filter (fun t => negb (is_mgr (t_kind t))) ts).
Proof.
  intros i j a b Ha Hb Hm. apply nth_filter_In in Ha. destruct Ha as [_ Ha].
  rewrite mgr_eqb_false_l in Hm; [discriminate|]. now destruct (is_mgr (t_kind a)).
Qed.

Section RG.
  Context (I : world -> Prop) (R : kind -> world -> world -> Prop) (G : kind -> op -> world -> Prop).
  Context (okl : label -> Prop).

  Definition rely (k : kind) (w w' : world) : Prop := I w' /\ R k w w'.

  Definition rg_inv (s : sys) : Prop :=
    I (s_world s) /\ one_each (s_threads s) /\
    forall t, In t (s_threads s) -> okp exec (rely (t_kind t)) (G (t_kind t)) (t_pgm t) (s_world s).

  Hypothesis R_refl : forall k w, R k w w.
  Hypothesis R_trans : forall k a b c, R k a b -> R k b c -> R k a c.
  Hypothesis H_inv : forall k o w, I w -> G k o w -> I (snd (exec o w)).
  Hypothesis H_rely : forall k k' o w, I w -> G k o w -> mgr_eqb k k' = false ->
    R k' w (snd (exec o w)).
  (** Everything but a step of a thread. *)
  Hypothesis H_env : forall l s s', okl l -> (forall n, l <> LStep n) -> step l s = Some s' ->
    I (s_world s) -> I (s_world s') /\ forall k, R k (s_world s) (s_world s').
  Hypothesis H_cmd : forall c w, okl (LCmd c) -> I w -> okp exec (rely KCmd) (G KCmd) (cmd_pgm c) w.
  Hypothesis H_mgr : forall k p w, mgr_pass k = Some p -> I w ->
    okp exec (rely k) (G k) (no_reply p) w.
  Hypothesis H_quit : forall w, I w -> okp exec (rely KDrvMgr) (G KDrvMgr) (no_reply drv_quit) w.
  Hypothesis H_job : forall w i pid a, okl (LJobStart i pid) -> I w ->
    nth_error (w_spawned w) i = Some a ->
    okp exec (rely (KJob pid a)) (G (KJob pid a)) (no_reply (tomato_job pid a))
      (set_procs w (del_nth i (w_spawned w)) (mkProc pid false (Some a) :: w_procs w)).
  Hypothesis H_drv : forall n port pid ver ok w, okl (LDriver n port pid ver ok) -> I w ->
    okp exec (rely (KDriver n)) (G (KDriver n)) (no_reply (driver_connect n port pid ver ok)) w.

  Lemma rely_trans k a b c : rely k a b -> rely k b c -> rely k a c.
  Proof. intros [_ H1] [Hi H2]. split; auto. eapply R_trans; eauto. Qed.

  Lemma okp_move {A} k (p : pgm A) w w' :
    okp exec (rely k) (G k) p w -> I w' -> R k w w' -> okp exec (rely k) (G k) p w'.
  Proof. intros H Hi Hr. eapply okp_stable; eauto. apply rely_trans. split; auto. Qed.

  Lemma rg_start w : I (set_daemon w None) -> rg_inv (start_sys w).
  Proof.
    intros H. split; [exact H|]. split; [|intros t []].
    intros n m a b Ha. destruct n; discriminate.
  Qed.

  (** What a step of a thread does to the world. *)
  Lemma rg_guar s n s' : rg_inv s -> step (LStep n) s = Some s' ->
    s_world s' = s_world s \/
    exists t o k, nth_error (s_threads s) n = Some t /\ t_pgm t = Op o k /\
      G (t_kind t) o (s_world s) /\ s_world s' = snd (exec o (s_world s)).
  Proof.
    intros (Hi & Hu & Ht) Hs. cbn in Hs.
    destruct (nth_error (s_threads s) n) as [t|] eqn:En; [|discriminate].
    unfold step_thread in Hs. specialize (Ht t (nth_error_In _ _ En)).
    destruct (t_pgm t) as [a|e|o k] eqn:Ep.
    - left. destruct (mgr_pass (t_kind t)); [|discriminate].
      destruct (t_done t); [discriminate|]. destruct (s_run s); inversion Hs; reflexivity.
    - discriminate.
    - right. exists t, o, k. cbn in Ht. destruct (Ht (s_world s)) as [Hg _]; [split; auto|].
      destruct (exec o (s_world s)) as [r w]. inversion Hs. cbn. auto.
  Qed.

  Lemma rg_step l s s' : okl l -> rg_inv s -> step l s = Some s' -> rg_inv s'.
  Proof.
    intros Hl Hinv Hs. pose proof Hinv as (Hi & Hu & Ht).
    assert (Henv : (forall n, l <> LStep n) ->
      I (s_world s') /\ (forall k, R k (s_world s) (s_world s')) /\
      forall t, In t (s_threads s) -> okp exec (rely (t_kind t)) (G (t_kind t)) (t_pgm t) (s_world s')).
    { intros Hn. destruct (H_env l s s' Hl Hn Hs Hi) as [Hi' Hr]. split; auto. split; auto.
      intros t Hin. eapply okp_move; eauto. }
    assert (Hadd : forall t w r, (forall n, l <> LStep n) ->
        s' = mkSys w (s_threads s ++ [t]) r ->
        (forall x, In x (s_threads s) -> mgr_eqb (t_kind t) (t_kind x) = false) ->
        (I w -> okp exec (rely (t_kind t)) (G (t_kind t)) (t_pgm t) w) -> rg_inv s').
    { intros t w r Hn -> Hm Ho. destruct (Henv Hn) as (Hi' & Hr & Ht'). cbn in *.
      split; [exact Hi'|]. split; [apply one_each_snoc; auto|].
      cbn. intros x Hx. apply in_app_iff in Hx. destruct Hx as [Hx|[<-|[]]]; auto. }
    destruct l; cbn in Hs.
    - (* LCmd *)
      injection Hs as Hs'. eapply Hadd; [congruence|symmetry; exact Hs'| |].
      + intros; apply mgr_eqb_false_l; reflexivity.
      + cbn. auto.
    - (* LStep *)
      destruct (nth_error (s_threads s) n) as [t|] eqn:En; [|discriminate].
      unfold step_thread in Hs. pose proof (Ht t (nth_error_In _ _ En)) as Htt.
      destruct (t_pgm t) as [a|e|o k] eqn:Ep; [|discriminate|].
      + destruct (mgr_pass (t_kind t)) as [p|] eqn:Em; [|discriminate].
        destruct (t_done t); [discriminate|].
        assert (X : forall q d, okp exec (rely (t_kind t)) (G (t_kind t)) q (s_world s) ->
          rg_inv (set_threads s (set_nth n (mkThread (t_kind t) q d) (s_threads s)))).
        { intros q d Hq. split; [exact Hi|]. split.
          - cbn. eapply one_each_set; eauto.
          - cbn. intros x Hx. apply In_nth_error in Hx. destruct Hx as [m Hx].
            apply nth_set_nth in Hx. destruct Hx as [[-> ->]|[_ Hx]]; [exact Hq|].
            apply Ht. eapply nth_error_In; eauto. }
        destruct (s_run s); inversion Hs; apply X.
        * apply H_mgr; auto.
        * destruct (t_kind t); try exact Logic.I. apply H_quit; auto.
      + cbn in Htt. destruct (Htt (s_world s)) as [Hg Hk]; [split; auto|].
        pose proof (H_inv _ _ _ Hi Hg) as Hi'.
        pose proof (fun k' => H_rely _ k' _ _ Hi Hg) as Hr.
        destruct (exec o (s_world s)) as [r w] eqn:Ee. cbn in Hi', Hr. inversion Hs. subst s'.
        split; [exact Hi'|]. split; [cbn; eapply one_each_set; eauto|].
        cbn. intros x Hx. apply In_nth_error in Hx. destruct Hx as [m Hx].
        apply nth_set_nth in Hx. destruct Hx as [[-> ->]|[Hm Hx]]; [exact Hk|].
        eapply okp_move; [apply Ht; eapply nth_error_In; eauto|exact Hi'|].
        apply Hr. destruct (mgr_eqb (t_kind t) (t_kind x)) eqn:Ek; [|reflexivity].
        elim Hm. symmetry. eapply Hu; eauto.
    - (* LKill *)
      destruct (nth_error (s_threads s) n) as [t|] eqn:En; [|discriminate].
      destruct (is_mgr (t_kind t)); [discriminate|]. inversion Hs. subst s'.
      split; [exact Hi|]. split; [cbn; eapply one_each_set; eauto|].
      cbn. intros x Hx. apply In_nth_error in Hx. destruct Hx as [m Hx].
      apply nth_set_nth in Hx. destruct Hx as [[-> ->]|[_ Hx]]; [exact Logic.I|].
      apply Ht. eapply nth_error_In; eauto.
    - (* LCrash *)
      destruct (Henv ltac:(congruence)) as (Hi' & Hr & Ht').
      destruct (w_daemon (s_world s)); [|discriminate]. inversion Hs. subst s'.
      split; [exact Hi'|]. split; [apply one_each_nomgr|].
      cbn. intros x Hx. apply filter_In in Hx. apply Ht'. apply Hx.
    - (* LManager *)
      destruct (w_daemon (s_world s)); [|discriminate].
      destruct (mgr_pass k) as [p|] eqn:Em; [|discriminate].
      destruct (has_kind k s) eqn:Hk; [discriminate|]. injection Hs as Hs'.
      eapply Hadd; [congruence|symmetry; exact Hs'| |].
      + cbn. intros x Hx. unfold has_kind in Hk.
        destruct (mgr_eqb k (t_kind x)) eqn:Ex; [|reflexivity].
        assert (existsb (fun t => mgr_eqb k (t_kind t)) (s_threads s) = true)
          by (apply existsb_exists; eauto). congruence.
      + cbn. auto.
    - (* LTellStop *)
      destruct (w_daemon (s_world s)) as [d|]; [|discriminate].
      destruct (dm_status d); inversion Hs. subst s'. split; auto.
    - (* LExit *)
      destruct (Henv ltac:(congruence)) as (Hi' & Hr & Ht').
      destruct (w_daemon (s_world s)); [|discriminate].
      match type of Hs with (if ?b then _ else _) = _ => destruct b; [|discriminate] end.
      inversion Hs. subst s'.
      split; [exact Hi'|]. split; [apply one_each_nomgr|].
      cbn. intros x Hx. apply filter_In in Hx. apply Ht'. apply Hx.
    - (* LJobStart *)
      destruct (nth_error (w_spawned (s_world s)) i) as [a|] eqn:Ea; [|discriminate].
      destruct (get_proc (w_procs (s_world s)) pid); [discriminate|].
      injection Hs as Hs'. eapply Hadd; [congruence|symmetry; exact Hs'| |].
      + intros; apply mgr_eqb_false_l; reflexivity.
      + cbn. intros _. eapply H_job; eauto.
    - (* LJobLost *)
      destruct (Henv ltac:(congruence)) as (Hi' & Hr & Ht').
      destruct (nth_error (w_spawned (s_world s)) i); [|discriminate]. inversion Hs. subst s'.
      split; [exact Hi'|]. split; auto.
    - (* LDriver *)
      injection Hs as Hs'. eapply Hadd; [congruence|symmetry; exact Hs'| |].
      + intros; apply mgr_eqb_false_l; reflexivity.
      + cbn [t_kind t_pgm]. intros _. apply H_drv; auto.
    - (* LProcEnd *)
      destruct (Henv ltac:(congruence)) as (Hi' & Hr & Ht').
      destruct (existsb (runs_pid pid) (s_threads s)); [discriminate|]. inversion Hs. subst s'.
      split; [exact Hi'|]. split; auto.
    - (* LProcNew *)
      destruct (Henv ltac:(congruence)) as (Hi' & Hr & Ht').
      destruct (get_proc (w_procs (s_world s)) pid); [discriminate|]. inversion Hs. subst s'.
      split; [exact Hi'|]. split; auto.
    - destruct (Henv ltac:(congruence)) as (Hi' & Hr & Ht'). inversion Hs. subst s'.
      split; [exact Hi'|]. split; auto.
    - destruct (Henv ltac:(congruence)) as (Hi' & Hr & Ht'). inversion Hs. subst s'.
      split; [exact Hi'|]. split; auto.
    - destruct (Henv ltac:(congruence)) as (Hi' & Hr & Ht'). inversion Hs. subst s'.
      split; [exact Hi'|]. split; auto.
    - destruct (Henv ltac:(congruence)) as (Hi' & Hr & Ht'). inversion Hs. subst s'.
      split; [exact Hi'|]. split; auto.
  Qed.

  Lemma rg_steps ls : forall s s', Forall okl ls -> rg_inv s -> runs ls s = Some s' -> rg_inv s'.
  Proof.
    induction ls as [|l ls IH]; intros s s' Hl Hi Hs; cbn in Hs.
    - inversion Hs. subst. exact Hi.
    - inversion Hl. destruct (step l s) as [s1|] eqn:E; [|discriminate].
      eapply IH; [| |exact Hs]; auto. eapply rg_step; eauto.
  Qed.
End RG.
