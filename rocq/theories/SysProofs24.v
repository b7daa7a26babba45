(** * SysProofs24: where the contact data of a driver come from (C116) *)
From Coq Require Import List String Ascii ZArith Bool Sorted Lia.
From Verif Require Import Base PyStr BaseFacts Types ConfigModel Prog ProgFacts World WorldFacts Replies
  CmdModel KetchupModel TomatoModel JobModel PipModel DrvModel SysModel RGFacts SysOps
  SpecQueue SpecSys SpecAnnounce SysProofs SysProofs2.
Import ListNotations.
Open Scope list_scope.
Open Scope Z_scope.

Section Announce.
  Context (w0 : world) (LS : list label) (few : bool).

  Definition told (d : drvstate) : Prop := silent d \/ known_before w0 d \/ announced LS d.
  Definition counted (d : drvstate) : Prop := few = true -> 0 <= dv_spawn_count d <= 3.
  Definition I116 (w : world) : Prop := forall d, In d (w_drvs w) -> told d /\ counted d.
  Definition R116 (k : kind) (w w' : world) : Prop := True.
  Definition fine_drv (n : string) (cs : list dcol) : Prop :=
    cs = drv_reset \/ (exists t, cs = [DHeartbeat t]) \/
    (exists t c, cs = [DSpawnTime t; DSpawnCount c] /\ (few = true -> 0 <= c <= 3)) \/
    (exists port pid ver, cs = [DPort (Some port); DVersion (Some ver); DPid (Some pid); DHeartbeat 0] /\
       In (LDriver n port pid ver true) LS).
  Definition G116 (k : kind) (o : op) (w : world) : Prop :=
    may k o /\
    match o with ODrvUpdate n cs => fine_drv n cs | _ => True end.

  Lemma drvs_op o : (exists d, o = ODrvInsert d) \/ (exists n cs, o = ODrvUpdate n cs) \/
      ((forall d, o <> ODrvInsert d) /\ forall n cs, o <> ODrvUpdate n cs).
  Proof. destruct o; try (right; right; split; congruence); eauto. Qed.
  Lemma drvs_same o w : (forall d, o <> ODrvInsert d) -> (forall n cs, o <> ODrvUpdate n cs) ->
    w_drvs (snd (exec o w)) = w_drvs w.
  Proof. intros H1 H2. op_cases o; try reflexivity; [elim (H1 d)|elim (H2 n cs)]; reflexivity. Qed.

  Lemma I116_exec k o w : I116 w -> G116 k o w -> I116 (snd (exec o w)).
  Proof.
    intros Hi [Hm Hg].
    destruct (drvs_op o) as [(d & ->)|[(n & cs & ->)|[D1 D2]]];
      [| |unfold I116; rewrite (drvs_same o w D1 D2); exact Hi].
    - cbn [exec]. destruct (get_drv (w_drvs w) (dv_name d)); [exact Hi|]. cbn [snd set_drvs w_drvs].
      intros x Hx. cbn [set_drvs w_drvs] in Hx. apply in_app_iff in Hx. destruct Hx as [Hx|[<-|[]]]; [auto|].
      destruct Hm as [[]|Hm]. destruct k; try contradiction. destruct Hm as (n & ->). split; [|intros _; cbn; lia].
      left. repeat split.
    - cbn [exec]. destruct (sql_lit n) as [m|] eqn:El; [|exact Hi]. cbn [snd].
      intros x Hx. cbn [set_drvs w_drvs] in Hx. unfold upd_drvs in Hx. apply in_map_iff in Hx.
      destruct Hx as (y & <- & Hy). destruct (Hi y Hy) as [T C].
      destruct (String.eqb_spec (dv_name y) m) as [E|E]; [|auto].
      destruct Hg as [->|[(t & ->)|[(t & c & -> & Hc)|(port & pid & ver & -> & Hin)]]]; cbn.
      + split; [left; repeat split|intros _; cbn; lia].
      + split; [exact T|exact C].
      + split; [exact T|exact Hc].
      + split; [|exact C]. right. right. exists n, port, pid, ver. cbn.
        split; [exact Hin|]. split; [congruence|]. repeat split.
  Qed.

  Definition calm116 (o : op) : Prop := match o with ODrvUpdate _ _ => False | _ => True end.
  Lemma calm116_ok k o w : may k o -> calm116 o -> G116 k o w.
  Proof. intros H C. split; [exact H|]. destruct o; try exact I. destruct C. Qed.
  Lemma may_calm116 k o : match k with KDrvMgr | KDriver _ => False | _ => True end -> may k o -> calm116 o.
  Proof. intros Hk [H|H]; destruct o; try exact I; try contradiction; destruct k; contradiction. Qed.
  Lemma ok116_other k {A} (p : pgm A) w : match k with KDrvMgr | KDriver _ => False | _ => True end ->
    all_ops (may k) p -> okp exec (rely I116 R116 k) (G116 k) p w.
  Proof.
    intros Hk H. revert w. induction p as [a|e|o f IH]; intros w; cbn; auto.
    destruct H as [H1 K1]. intros w1 _. split; [apply calm116_ok; [exact H1|eapply may_calm116; eauto]|].
    destruct (exec o w1) as [r w2]. apply IH; auto.
  Qed.
  Ltac ops := repeat (ops_step; cbv beta zeta).

  (** ** Drivers *)
  Lemma ok116_driver n port pid ver ok w : In (LDriver n port pid ver ok) LS ->
    okp exec (rely I116 R116 (KDriver n)) (G116 (KDriver n)) (no_reply (driver_connect n port pid ver ok)) w.
  Proof.
    intros Hin.
    assert (P : all_ops (fun o => may (KDriver n) o /\ match o with ODrvUpdate n' cs => fine_drv n' cs | _ => True end)
      (no_reply (driver_connect n port pid ver ok))).
    { unfold no_reply, driver_connect, update_drv. destruct ok.
      - ops; try (split; [fin|exact I]).
        split; [right; cbn; eauto 8|]. right. right. right. exists port, pid, ver. auto.
      - apply all_ops_bind; [|intros; exact I].
        apply all_ops_bind; [ops; split; [fin|exact I]|]. intros [dm|]; [|exact I].
        apply all_ops_bind; [ops|]. intros _. exact I. }
    revert P. generalize (no_reply (driver_connect n port pid ver ok)). intros p. revert w.
    induction p as [a|e|o f IH]; intros w; cbn; auto.
    intros [H1 K1] w1 _. split; [exact H1|]. destruct (exec o w1) as [r w2]. apply IH; auto.
  Qed.

  (** ** The driver manager *)
  Let R := rely I116 R116 KDrvMgr.
  Let G := G116 KDrvMgr.
  Let E := fun _ : world => True.
  Definition plainly (o : op) : Prop :=
    match o with ODrvUpdate n cs => cs = drv_reset \/ exists t, cs = [DHeartbeat t] | _ => True end.
  Lemma ok116_plain {A} (p : pgm A) : forall w, all_ops (may KDrvMgr) p -> all_ops plainly p ->
    okq exec R G E p (fun _ _ => True) w.
  Proof.
    induction p as [a|e|o f IH]; intros w H1 H2; cbn; [exact I|exact I|].
    destruct H1 as [H1 K1], H2 as [H2 K2]. intros w1 _. split.
    - split; [exact H1|]. destruct o; try exact I. destruct H2 as [->|(t & ->)]; [left; reflexivity|right; left; eauto].
    - destruct (exec o w1) as [r w2]. apply IH; auto.
  Qed.
  Lemma checked_ops d port tN : all_ops (fun o => may KDrvMgr o /\ plainly o) (drv_checked d port tN).
  Proof.
    unfold drv_checked, drv_check. cbn [bind catch act do all_ops]. split; [split; [left; exact I|exact I]|].
    assert (Y : forall cs, (cs = drv_reset \/ exists t, cs = [DHeartbeat t]) ->
      all_ops (fun o => may KDrvMgr o /\ plainly o) (bind (update_drv (dv_name d) cs) (fun _ => Ret tt))).
    { intros cs H. unfold update_drv. ops; [|split; [fin|exact I]]. split; [right; cbn; destruct H; auto|exact H]. }
    intros [r|e]; cbn [bind catch].
    - destruct (dr_ok r); cbn [bind catch lift].
      + destruct (data_len (dr_data r)) as [n|e]; cbn [bind catch lift].
        * destruct (Z.eqb n 0); cbn [bind catch act do all_ops].
          -- split; [split; [left; exact I|exact I]|]. intros [u|e]; cbn [bind catch]; [apply Y; eauto|].
             destruct e; cbn [bind catch all_ops]; try exact I. apply Y; auto.
          -- apply Y; eauto.
        * destruct e; cbn [bind catch all_ops]; try exact I. apply Y; auto.
      + apply Y; eauto.
    - destruct e; cbn [bind catch all_ops]; try exact I. apply Y; auto.
  Qed.
  Lemma ok116_one dm d w : counted d -> okq exec R G E (drv_one dm tt d) (fun _ _ => True) w.
  Proof.
    intros Hc. unfold drv_one. q_bind. apply okq_act. intros w1 _. cbn [exec].
    split; [split; [left; exact I|exact I]|].
    destruct (negb _); [apply ok116_plain; unfold stop_driver, del_drv; ops; first [fin|exact I]|].
    destruct (dv_port d) as [p|].
    - destruct (_ || _)%bool; [|exact I].
      pose proof (checked_ops d p (w_perf w1)) as X. apply ok116_plain.
      + eapply all_ops_weaken; [|exact X]. intros o [H _]. exact H.
      + eapply all_ops_weaken; [|exact X]. intros o [_ H]. exact H.
    - destruct (_ && _)%bool eqn:Eb; [|exact I]. apply andb_prop in Eb. destruct Eb as [_ Eb].
      apply Z.ltb_lt in Eb. unfold spawn_retries in Eb.
      q_bind. apply okq_act. intros w2 _. split; [split; [right; exact I|exact I]|].
      destruct (exec _ w2) as [[u|e] w3]; [|exact I]. q_bind. unfold update_drv. q_bind. apply okq_act. intros w4 _.
      split.
      + split; [right; cbn; eauto 8|]. right. right. left. eexists _, _. split; [reflexivity|]. intros F.
        specialize (Hc F). lia.
      + destruct (exec _ w4) as [[u'|e] w5]; [|exact I]. apply okq_act. intros w6 _.
        split; [split; [left; exact I|exact I]|]. cbn [exec]. exact I.
  Qed.
  Lemma ok116_pass w : okq exec R G E (no_reply drv_pass) (fun _ _ => True) w.
  Proof.
    unfold no_reply, drv_pass. q_bind. q_bind. apply okq_act. intros w1 _. cbn [exec].
    split; [split; [left; exact I|exact I]|].
    destruct (w_daemon w1) as [dm|]; [|exact I].
    q_bind. apply okq_act. intros w2 [Hi _]. cbn [exec]. split; [split; [left; exact I|exact I]|].
    eapply okq_weaken; [|eapply okq_forP with (J := fun l _ _ => Forall counted l)].
    - intros; exact I.
    - apply Forall_forall. intros d Hd. apply (Hi d Hd).
    - intros d r [] w3 HJ. inversion HJ; subst. eapply okq_weaken; [|apply ok116_one; assumption]. intros; assumption.
  Qed.
  Lemma ok116_quit w : okp exec R G (no_reply drv_quit) w.
  Proof.
    eapply okq_okp. apply ok116_plain; [apply ops_quit|].
    unfold no_reply, drv_quit, drv_quit_one, kill_driver, stop_driver. ops; exact I.
  Qed.

  Lemma inv116 ls s s' : (forall l, In l ls -> In l LS) ->
    rg_inv I116 R116 G116 s -> runs ls s = Some s' -> rg_inv I116 R116 G116 s'.
  Proof.
    intros Hls Hi Hr. eapply rg_steps with (okl := fun l => In l LS) (R := R116); try exact Hr; try exact Hi.
    - intros k w. exact I.
    - intros k x y z _ _. exact I.
    - intros k o w. apply I116_exec.
    - intros k k' o w _ _ _. exact I.
    - intros l s0 s1 _ Hn Hs H. destruct (step_env _ _ _ Hn Hs) as ((E1 & E2 & E3 & E4 & E5 & E6 & E7) & _).
      split; [|intros; exact I]. unfold I116. rewrite ?E1, ?E2, ?E3, ?E4, ?E5, ?E6. exact H.
    - intros c w _ _. apply ok116_other; [exact I|apply ops_cmd].
    - intros k p w Hp _. destruct k; try discriminate.
      + apply ok116_other; [exact I|apply ops_mgr; exact Hp].
      + apply ok116_other; [exact I|apply ops_mgr; exact Hp].
      + injection Hp as <-. eapply okq_okp. apply ok116_pass.
    - intros w _. apply ok116_quit.
    - intros w i pid a _ _ _. apply ok116_other; [exact I|apply ops_job].
    - intros n port pid ver ok w Hin _. apply ok116_driver. exact Hin.
    - apply Forall_forall. exact Hls.
  Qed.
End Announce.

Lemma C116_lemma w ls s few : (few = true -> few_starts w) -> runs ls (start_sys w) = Some s ->
  forall d, In d (w_drvs (s_world s)) -> told w ls d /\ counted few d.
Proof.
  intros Hf Hr.
  assert (Hi : rg_inv (I116 w ls few) R116 (G116 ls few) (start_sys w)).
  { apply rg_start. intros d Hd. split.
    - right. left. exists d. cbn in Hd. repeat split; auto.
    - intros F. apply (Hf F d Hd). }
  destruct (inv116 w ls few ls _ _ ltac:(auto) Hi Hr) as (H & _). exact H.
Qed.
