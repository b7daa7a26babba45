(** * DrvProofs: one iteration of the driver manager (C46, C47) *)
From Coq Require Import List String Ascii ZArith Bool Lia.
From Verif Require Import Base PyStr BaseFacts Types ConfigModel Prog ProgFacts World WorldFacts Replies
  CmdModel DrvModel SysModel RGFacts SysOps SpecQueue SpecSys SysProofs SpecDrv.
Import ListNotations.
Open Scope list_scope.
Open Scope Z_scope.

(** ** C47 *)
Definition frame (w w' : world) : Prop :=
  w_perf w' = w_perf w /\ w_driver w' = w_driver w /\ w_daemon w' = w_daemon w.

Definition began (t : Z) (d : drvstate) (n : string) (new : list Z) : Prop :=
  (dv_name d = n /\ start_due t d /\ new = [t]) \/ (~ (dv_name d = n /\ start_due t d) /\ new = []).

Lemma due_iff t d : (Z.ltb heartbeat (t - dv_heartbeat d)
    || (Z.eqb (dv_heartbeat d) 0 && Z.ltb spawn_delay (t - dv_spawn_time d)))%bool = true <-> check_due t d.
Proof.
  unfold check_due, heartbeat, spawn_delay. rewrite orb_true_iff, andb_true_iff, !Z.ltb_lt, Z.eqb_eq.
  split; intros [H|H]; [left|right|left|right]; lia.
Qed.
Lemma start_iff t d : dv_port d = None ->
  (Z.ltb spawn_delay (t - dv_spawn_time d) && Z.ltb (dv_spawn_count d) spawn_retries)%bool = true <-> start_due t d.
Proof.
  intros Hp. unfold start_due, spawn_delay, spawn_retries. rewrite andb_true_iff, !Z.ltb_lt.
  split; [intros [? ?]; split; [exact Hp|lia]|intros (? & ? & ?); lia].
Qed.

Lemma run_update n cs w : plain n ->
  run exec (update_drv n cs) w = (Ok (get_drv (upd_drvs n cs (w_drvs w)) n), set_drvs w (upd_drvs n cs (w_drvs w))).
Proof.
  intros Hn. unfold update_drv. rewrite run_bind. cbn [run act do exec]. rewrite sql_lit_id by exact Hn. reflexivity.
Qed.

Lemma run_check w d p t : proper w d -> dv_port d = Some p ->
  exists cs w', run exec (catch (drv_check p t)
          (fun e => match e with
                    | ZMQAgain => Some (Ret drv_reset)
                    | Blocked => None
                    | _ => Some (Raise RuntimeError)
                    end)) w = (Ok cs, w') /\
    frame w w' /\ w_drvs w' = w_drvs w /\ (forall n, driver_starts n w' = driver_starts n w) /\
    ((answering w p /\ cs = [DHeartbeat t]) \/ (~ answering w p /\ cs = drv_reset)).
Proof.
  intros [_ Hp] Ed. unfold drv_check. cbn -[dr_ok data_len drv_reset].
  destruct (w_driver w p CStatus) as [r|] eqn:Er.
  - specialize (Hp p r Ed Er). destruct (dr_ok r) eqn:Eo.
    + specialize (Hp eq_refl).
      assert (Hd : exists n, data_len (dr_data r) = Ok n /\ (n = 0 <-> no_entries (dr_data r))).
      { unfold no_entries. destruct (dr_data r) as [|l|b|k|v] eqn:Edd; try contradiction; cbn.
        - exists (Z.of_nat (List.length l)). split; [reflexivity|]. destruct l; cbn; split.
          + left; reflexivity. + intros _; reflexivity. + intros H; lia. + intros [H|H]; discriminate.
        - exists 1. split; [reflexivity|]. split; [discriminate|intros [H|H]; discriminate].
        - exists (Z.of_nat k). split; [reflexivity|]. destruct k; split.
          + right; reflexivity. + intros _; reflexivity. + intros H; lia. + intros [H|H]; discriminate. }
      destruct Hd as (n & Hn & Hz). cbn [bind]. rewrite Eo. cbn [bind]. rewrite Hn. cbn -[drv_reset].
      destruct (Z.eqb_spec n 0) as [E|E]; cbn -[drv_reset].
      * destruct (w_driver w p CRegister) as [r'|] eqn:Er'; cbn -[drv_reset].
        -- exists [DHeartbeat t]. eexists. split; [reflexivity|]. repeat split. left. split; [|reflexivity].
           exists r. split; [exact Er|]. intros _ _. congruence.
        -- exists drv_reset. eexists. split; [reflexivity|]. repeat split. right. split; [|reflexivity].
           intros (r1 & H1 & H2). rewrite Er in H1. injection H1 as <-. apply H2; auto. apply Hz. exact E.
      * exists [DHeartbeat t]. eexists. split; [reflexivity|]. repeat split. left. split; [|reflexivity].
        exists r. split; [exact Er|]. intros _ H. apply Hz in H. contradiction.
    + cbn [bind]. rewrite Eo. cbn -[drv_reset]. exists [DHeartbeat t]. eexists. split; [reflexivity|]. repeat split. left. split; [|reflexivity].
      exists r. split; [exact Er|]. congruence.
  - cbn -[drv_reset]. exists drv_reset. eexists. split; [reflexivity|]. repeat split. right. split; [|reflexivity].
    intros (r1 & H1 & _). congruence.
Qed.

Lemma row_one dm w d : configured dm d -> proper w d ->
  exists cs w', run exec (drv_one dm tt d) w = (Ok tt, w') /\ frame w w' /\
    (w_drvs w' = upd_drvs (dv_name d) cs (w_drvs w)) /\
    pass_row w d (set_dcols cs d) /\
    forall n, exists new, began (w_perf w) d n new /\ driver_starts n w' = new ++ driver_starts n w.
Proof.
  intros Hc Hp.
  assert (Hq : exists w', upd_drvs (dv_name d) [] (w_drvs w) = w_drvs w' /\ w' = w).
  { exists w. split; [|reflexivity]. unfold upd_drvs. cbn. rewrite <- (map_id (w_drvs w)) at 2. apply map_ext.
    intros x. destruct (String.eqb (dv_name x) (dv_name d)); reflexivity. }
  destruct Hq as (w0 & Hid & ->).
  unfold drv_one. rewrite run_bind. cbn [run act do exec].
  assert (Hd : dhas (df_drivers (dm_df dm)) (dv_name d) = true) by (apply dhas_true, dget_Some_key; exact Hc).
  rewrite Hd. cbn [negb].
  destruct (dv_port d) as [p|] eqn:Ep.
  - destruct (_ || _)%bool eqn:Edue.
    + apply due_iff in Edue. unfold drv_checked. rewrite run_bind.
      destruct (run_check w d p (w_perf w) Hp Ep) as (cs & w1 & E1 & F & D & S & O). rewrite E1.
      rewrite run_bind, run_update by apply Hp. cbn [run].
      exists cs. eexists. split; [reflexivity|]. split; [exact F|]. split; [cbn; rewrite D; reflexivity|]. split.
      * destruct O as [[Ha ->]|[Ha ->]].
        -- apply RowAlive with (p := p); auto.
        -- apply (RowDead w d p); auto.
      * intros n. exists []. split; [|apply S]. right. split; [|reflexivity].
        intros [_ [H _]]. congruence.
    + exists []. exists w. split; [reflexivity|]. split; [repeat split|]. split; [symmetry; exact Hid|]. split.
      * cbn. apply RowRecent with (p := p); auto. intros H. apply due_iff in H. congruence.
      * intros n. exists []. split; [|reflexivity]. right. split; [|reflexivity]. intros [_ [H _]]. congruence.
  - destruct (_ && _)%bool eqn:Es.
    + apply (proj1 (start_iff _ _ Ep)) in Es. rewrite run_bind. cbn [run act do exec].
      rewrite run_bind, run_update by apply Hp. cbn [run].
      exists [DSpawnTime (w_perf w); DSpawnCount (dv_spawn_count d + 1)]. eexists.
      split; [reflexivity|]. split; [repeat split|]. split; [reflexivity|]. split.
      * apply RowStarted. exact Es.
      * intros n. destruct (String.string_dec (dv_name d) n) as [E|E].
        -- exists [w_perf w]. split; [left; auto|]. cbn. rewrite E, String.eqb_refl. reflexivity.
        -- exists []. split; [right; split; [intros [? _]; contradiction|reflexivity]|].
           cbn. destruct (String.eqb_spec (dv_name d) n); [contradiction|reflexivity].
    + exists []. exists w. split; [reflexivity|]. split; [repeat split|]. split; [symmetry; exact Hid|]. split.
      * cbn. apply RowWaiting; auto. intros H. apply (proj2 (start_iff _ _ Ep)) in H. congruence.
      * intros n. exists []. split; [|reflexivity]. right. split; [|reflexivity].
        intros [_ H]. apply (proj2 (start_iff _ _ Ep)) in H. congruence.
Qed.

Lemma upd_one l1 d l2 cs : ~ In (dv_name d) (map dv_name l1) -> ~ In (dv_name d) (map dv_name l2) ->
  upd_drvs (dv_name d) cs (l1 ++ d :: l2) = l1 ++ set_dcols cs d :: l2.
Proof.
  assert (X : forall l, ~ In (dv_name d) (map dv_name l) -> upd_drvs (dv_name d) cs l = l).
  { induction l as [|x l IH]; cbn; auto. intros H. destruct (String.eqb_spec (dv_name x) (dv_name d)) as [E|E].
    - elim H. auto.
    - f_equal. apply IH. tauto. }
  intros H1 H2. unfold upd_drvs in *. rewrite map_app. cbn. rewrite String.eqb_refl, !X; auto.
Qed.

Lemma row_name w d d' : pass_row w d d' -> dv_name d' = dv_name d.
Proof. intros H. inversion H; reflexivity. Qed.
Lemma row_frame w w' d d' : frame w w' -> pass_row w' d d' -> pass_row w d d'.
Proof.
  intros (F1 & F2 & _) H.
  assert (A : forall p, answering w' p <-> answering w p) by (intros p; unfold answering; rewrite F2; reflexivity).
  inversion H; subst; rewrite F1 in *.
  - eapply RowAlive; eauto. apply A. assumption.
  - eapply RowDead; eauto. rewrite <- A. assumption.
  - eapply RowRecent; eauto.
  - apply RowStarted. assumption.
  - apply RowWaiting; assumption.
Qed.

Lemma rows_all dm w0 : forall r pre w, frame w0 w -> w_drvs w = pre ++ r -> NoDup (map dv_name (pre ++ r)) ->
  (forall d, In d r -> configured dm d /\ proper w0 d) ->
  exists r' w', run exec (forP (drv_one dm) tt r) w = (Ok tt, w') /\ frame w0 w' /\
    w_drvs w' = pre ++ r' /\ Forall2 (pass_row w0) r r' /\
    forall n, exists new, driver_starts n w' = new ++ driver_starts n w /\
      ((exists d, In d r /\ dv_name d = n /\ start_due (w_perf w0) d /\ new = [w_perf w0]) \/
       (~ (exists d, In d r /\ dv_name d = n /\ start_due (w_perf w0) d) /\ new = [])).
Proof.
  induction r as [|d r IH]; intros pre w F Hw Hn Hd.
  - exists [], w. cbn [forP run]. split; [reflexivity|]. split; [exact F|]. split; [exact Hw|]. split; [constructor|].
    intros n. exists []. split; [reflexivity|]. right. split; [|reflexivity]. intros (d & [] & _).
  - cbn [forP]. rewrite run_bind.
    assert (Hp : proper w d).
    { destruct (Hd d (or_introl eq_refl)) as [_ [P1 P2]]. split; [exact P1|].
      destruct F as (_ & F2 & _). rewrite F2. exact P2. }
    destruct (row_one dm w d) as (cs & w1 & E1 & F1 & D1 & P1 & S1); [apply Hd; now left|exact Hp|].
    rewrite E1.
    assert (Fw1 : frame w0 w1).
    { destruct F as (A1 & A2 & A3), F1 as (B1 & B2 & B3). split; [|split]; congruence. }
    assert (Hn' := Hn). rewrite map_app in Hn'. cbn in Hn'.
    pose proof (NoDup_remove_2 _ _ _ Hn') as Hni. rewrite in_app_iff in Hni.
    rewrite Hw, upd_one in D1 by tauto.
    destruct (IH (pre ++ [set_dcols cs d]) w1 Fw1) as (r' & w' & E2 & F2 & D2 & P2 & S2).
    + rewrite D1, <- app_assoc. reflexivity.
    + rewrite <- app_assoc. cbn. rewrite map_app. cbn. rewrite set_dcols_name. exact Hn'.
    + intros d' Hin. apply Hd. now right.
    + exists (set_dcols cs d :: r'), w'. split; [exact E2|]. split; [exact F2|].
      split; [rewrite D2, <- app_assoc; reflexivity|]. split.
      * constructor; [exact (row_frame w0 w _ _ F P1)|exact P2].
      * intros n. destruct (S1 n) as (n1 & B & X1). destruct (S2 n) as (n2 & X2 & O).
        rewrite (proj1 F) in B.
        exists (n2 ++ n1). split; [rewrite X2, X1, app_assoc; reflexivity|].
        destruct B as [(B1 & B2 & ->)|[B ->]].
        -- destruct O as [(d' & Hin & Hdn & _)|[_ ->]].
           ++ exfalso. apply Hni. right. rewrite B1, <- Hdn. apply in_map. exact Hin.
           ++ left. exists d. split; [now left|]. auto.
        -- destruct O as [(d' & Hin & Hdn & Hs & ->)|[O ->]].
           ++ left. exists d'. split; [now right|]. rewrite app_nil_r. auto.
           ++ right. split; [|reflexivity]. intros (d' & [->|Hin] & Hdn & Hs); [tauto|]. apply O. eauto.
Qed.

Lemma C47_lemma w dm : w_daemon w = Some dm -> NoDup (map dv_name (w_drvs w)) ->
  (forall d, In d (w_drvs w) -> configured dm d /\ proper w d) ->
  exists w', run exec drv_pass w = (Ok tt, w') /\ Forall2 (pass_row w) (w_drvs w) (w_drvs w') /\
    forall n, exists new, driver_starts n w' = new ++ driver_starts n w /\
      ((exists d, In d (w_drvs w) /\ dv_name d = n /\ start_due (w_perf w) d /\ new = [w_perf w]) \/
       (~ (exists d, In d (w_drvs w) /\ dv_name d = n /\ start_due (w_perf w) d) /\ new = [])).
Proof.
  intros Hd Hn Hp. unfold drv_pass. rewrite run_bind. cbn [run act do exec]. rewrite Hd.
  rewrite run_bind. cbn [run act do exec].
  destruct (rows_all dm w (w_drvs w) [] w) as (r' & w' & E & F & D & P & S); auto.
  - repeat split.
  - exists w'. cbn in D. rewrite D. auto.
Qed.

(** ** C46 *)
Lemma names_run {A} (p : pgm A) : forall w, all_ops (fun o => match o with ODrvInsert _ => False | _ => True end) p ->
  map dv_name (w_drvs (snd (run exec p w))) = map dv_name (w_drvs w).
Proof.
  induction p as [a|e|o k IH]; intros w H; cbn; auto. destruct H as [Ho Hk].
  assert (X : map dv_name (w_drvs (snd (exec o w))) = map dv_name (w_drvs w)).
  { op_cases o; try reflexivity; [contradiction|]. unfold set_drvs. cbn. apply upd_drvs_names. }
  destruct (exec o w) as [[r|e] w1]; cbn in X |- *; rewrite IH; auto.
Qed.

Lemma one_unconfigured dm d w : ~ configured dm d ->
  exists e w', run exec (drv_one dm tt d) w = (Err e, w') /\
    forall p, dv_port d = Some p -> In (EvRequest p CStop) (w_log w').
Proof.
  intros Hc. unfold drv_one. rewrite run_bind. cbn [run act do exec].
  assert (Hd : dhas (df_drivers (dm_df dm)) (dv_name d) = false).
  { apply dhas_false, dget_None. exact Hc. }
  rewrite Hd. cbn [negb].
  assert (X : forall w, exists e, run exec (bind (del_drv (dv_name d)) (fun _ => Ret tt)) w = (Err e, w)).
  { intros w0. unfold del_drv. cbn. destruct (sql_lit (dv_name d)); cbn; eauto. }
  destruct (dv_port d) as [p|].
  - unfold stop_driver. cbn [bind act do run exec]. unfold ask.
    destruct (w_driver w p CStop) as [r|]; cbn [bind run].
    + destruct (X (add_event w (EvRequest p CStop))) as [e E]. rewrite E. exists e. eexists. split; [reflexivity|].
      intros q Hq. injection Hq as <-. now left.
    + eexists. eexists. split; [reflexivity|]. intros q Hq. injection Hq as <-. now left.
  - cbn [bind]. destruct (X w) as [e E]. rewrite E. exists e. eexists. split; [reflexivity|]. congruence.
Qed.

Lemma names_pass w : map dv_name (w_drvs (snd (run exec drv_pass w))) = map dv_name (w_drvs w).
Proof.
  apply names_run. eapply all_ops_weaken; [|apply ops_drv_pass].
  intros o Ho. destruct o; try exact I. destruct Ho as [[]|[]].
Qed.

Lemma loop_unconfigured dm d (Hc : ~ configured dm d) l : In d l ->
  forall w, exists e, fst (run exec (forP (drv_one dm) tt l) w) = Err e.
Proof.
  induction l as [|x l IH]; intros Hin w; [destruct Hin|]. destruct Hin as [Hx|Hin]; cbn [forP]; rewrite run_bind.
  - subst x. destruct (one_unconfigured dm d w Hc) as (e & w' & E & _). rewrite E. cbn. eauto.
  - destruct (run exec (drv_one dm tt x) w) as [[[]|e] w']; [apply IH; exact Hin|cbn; eauto].
Qed.

Lemma C46_lemma w dm d : w_daemon w = Some dm -> In d (w_drvs w) -> ~ configured dm d ->
  (exists e, fst (run exec drv_pass w) = Err e) /\
  map dv_name (w_drvs (snd (run exec drv_pass w))) = map dv_name (w_drvs w).
Proof.
  intros Hd Hin Hc. split; [|apply names_pass].
  unfold drv_pass. rewrite run_bind. cbn [run act do exec]. rewrite Hd. rewrite run_bind. cbn [run act do exec].
  eapply loop_unconfigured; eauto.
Qed.

Lemma C46_stop_lemma w dm l1 d l2 p : w_daemon w = Some dm -> w_drvs w = l1 ++ d :: l2 ->
  NoDup (map dv_name (w_drvs w)) -> (forall e, In e l1 -> configured dm e /\ proper w e) ->
  ~ configured dm d -> dv_port d = Some p ->
  In (EvRequest p CStop) (w_log (snd (run exec drv_pass w))).
Proof.
  intros Hd Hw Hn H1 Hc Hp.
  unfold drv_pass. rewrite run_bind. cbn [run act do exec]. rewrite Hd. rewrite run_bind. cbn [run act do exec].
  rewrite Hw at 1.
  assert (X : forall pre w', frame w w' -> w_drvs w' = pre ++ l1 ++ d :: l2 -> NoDup (map dv_name (pre ++ l1 ++ d :: l2)) ->
    In (EvRequest p CStop) (w_log (snd (run exec (forP (drv_one dm) tt (l1 ++ d :: l2)) w')))).
  2:{ apply (X []); auto; [repeat split|rewrite <- Hw; exact Hn]. }
  clear Hw Hn Hd. induction l1 as [|x l1 IH]; intros pre w' F Hw Hn.
  - cbn [app forP]. rewrite run_bind. destruct (one_unconfigured dm d w' Hc) as (e & w1 & E & S).
    rewrite E. cbn. apply S. exact Hp.
  - cbn [app forP]. rewrite run_bind.
    assert (Hpx : proper w' x).
    { destruct (H1 x (or_introl eq_refl)) as [_ [P1 P2]]. split; [exact P1|].
      destruct F as (_ & F2 & _). rewrite F2. exact P2. }
    destruct (row_one dm w' x) as (cs & w1 & E1 & F1 & D1 & _); [apply H1; now left|exact Hpx|].
    rewrite E1.
    assert (Hn' := Hn). rewrite map_app in Hn'. cbn in Hn'.
    pose proof (NoDup_remove_2 _ _ _ Hn') as Hni. rewrite in_app_iff in Hni.
    rewrite Hw in D1. cbn [app] in D1. rewrite upd_one in D1 by tauto.
    apply (IH (fun e H => H1 e (or_intror H)) (pre ++ [set_dcols cs x])).
    + destruct F as (A1 & A2 & A3), F1 as (B1 & B2 & B3). split; [|split]; congruence.
    + rewrite D1, <- app_assoc. reflexivity.
    + rewrite <- app_assoc. cbn. rewrite map_app. cbn. rewrite set_dcols_name. exact Hn'.
Qed.
