(** * SysProofs6: stopping the daemon (C39); starting driver processes (C44) *)
From Coq Require Import List String Ascii ZArith Bool Sorted Lia.
From Verif Require Import Base PyStr BaseFacts Types ConfigModel Prog ProgFacts World WorldFacts Replies
  CmdModel KetchupModel TomatoModel JobModel PipModel DrvModel SysModel RGFacts SysOps
  SpecQueue SpecSys SysProofs SysProofs2 SysProofs3 RGX.
Import ListNotations.
Open Scope list_scope.
Open Scope Z_scope.

(** What every thread may do. *)
Lemma may_inv w ls s : runs ls (start_sys w) = Some s -> rg_inv (fun _ => True) any some_may s.
Proof.
  intros Hr. eapply static_inv; [| |apply rg_start|exact Hr]; auto.
Qed.
Lemma may_step l s s' : rg_inv (fun _ => True) any some_may s -> step l s = Some s' ->
  rg_inv (fun _ => True) any some_may s'.
Proof.
  intros Hi Hs. apply (static_inv (fun _ => True) [l] s s'); auto. cbn. rewrite Hs. reflexivity.
Qed.
Lemma may_okq k (I : world -> Prop) (R : world -> world -> Prop) (G : op -> world -> Prop) (Q : world -> Prop)
    {A} (p : pgm A) :
  (forall w, Q w) -> (forall o w w', R w w' -> may k o -> G o w') ->
  forall w0, okp exec (rely (fun _ => True) any k) (some_may k) p w0 ->
  forall w, okq exec R G Q p (fun _ => Q) w.
Proof.
  intros HQ HG. induction p as [a|e|o f IH]; intros w0 H w; cbn; auto.
  intros w1 Hr. cbn in H. destruct (H w1) as [Hm Hk]; [split; exact Logic.I|]. split; [eapply HG; eauto|].
  destruct (exec o w1) as [r w2]. eapply IH; eauto.
Qed.

(** ** C39 *)
Definition halted (s : sys) : Prop :=
  rests KJobMgr s /\ (s_run s = false \/ has_kind KJobMgr s = false).

Lemma starts_may k o w : may k o -> k <> KJobMgr -> starts (snd (exec o w)) = starts w.
Proof.
  intros Hm Hk. op_cases o; try reflexivity. destruct Hm as [[]|Hm]. destruct k; try contradiction; congruence.
Qed.

Lemma halted_step l s s' : rg_inv (fun _ => True) any some_may s -> l <> LManager KJobMgr ->
  halted s -> step l s = Some s' -> halted s' /\ starts (s_world s') = starts (s_world s).
Proof.
  intros HB Hl [Hr Hk] Hs. split.
  - assert (Hadd : forall t w, t_kind t <> KJobMgr ->
      s' = mkSys w (s_threads s ++ [t]) (s_run s) -> halted s').
    { intros t w Ht ->. split.
      - intros x Hx Hxk. cbn in Hx. apply in_app_iff in Hx. destruct Hx as [Hx|[<-|[]]]; [auto|contradiction].
      - destruct Hk as [Hk|Hk]; [left; exact Hk|right]. unfold has_kind in *. cbn [s_threads]. rewrite existsb_app, Hk. cbn.
        destruct (t_kind t); try reflexivity. congruence. }
    assert (Hsame : s_threads s' = s_threads s -> s_run s' = s_run s \/ s_run s' = false -> halted s').
    { intros E1 E2. split; [unfold rests; rewrite E1; exact Hr|]. unfold has_kind. rewrite E1.
      destruct Hk as [Hk|Hk]; [left; destruct E2; congruence|right; exact Hk]. }
    assert (Hgone : s_threads s' = filter (fun t => negb (is_mgr (t_kind t))) (s_threads s) -> halted s').
    { intros E1. split.
      - intros x Hx Hxk. rewrite E1 in Hx. apply filter_In in Hx. rewrite Hxk in Hx. destruct Hx; discriminate.
      - right. unfold has_kind. rewrite E1. apply not_true_iff_false. intros Hx. apply existsb_exists in Hx.
        destruct Hx as (x & Hx & Hm). apply filter_In in Hx. destruct Hx as [_ Hx].
        destruct (t_kind x); discriminate. }
    assert (Hset : forall n t t0 w, nth_error (s_threads s) n = Some t0 -> t_kind t = t_kind t0 ->
      (t_kind t = KJobMgr -> active t = false) ->
      s' = mkSys w (set_nth n t (s_threads s)) (s_run s) -> halted s').
    { intros n t t0 w Hn Ht Ha ->. split.
      - intros x Hx Hxk. cbn in Hx. apply In_nth_error in Hx. destruct Hx as [m Hx].
        apply nth_set_nth in Hx. destruct Hx as [[_ ->]|[_ Hx]]; [auto|]. apply Hr; [eapply nth_error_In; eauto|exact Hxk].
      - destruct Hk as [Hk|Hk]; [left; exact Hk|right]. unfold has_kind in *. cbn [s_threads]. apply not_true_iff_false. intros Hx.
        apply existsb_exists in Hx. destruct Hx as (x & Hx & Hm).
        apply not_true_iff_false in Hk. apply Hk. apply existsb_exists. apply In_nth_error in Hx. destruct Hx as [m Hx].
        apply nth_set_nth in Hx. destruct Hx as [[_ ->]|[_ Hx]].
        + exists t0. split; [eapply nth_error_In; eauto|]. rewrite <- Ht. exact Hm.
        + exists x. split; [eapply nth_error_In; eauto|exact Hm]. }
    destruct l; cbn in Hs;
      repeat match type of Hs with
             | match ?x with _ => _ end = _ => destruct x eqn:?; try discriminate
             end; try (injection Hs as <-; apply Hsame; cbn; auto; fail);
      try (injection Hs as <-; apply Hgone; reflexivity).
    + injection Hs as Hs'. eapply Hadd; [|symmetry; exact Hs']. discriminate.
    + unfold step_thread in Hs. destruct (t_pgm t) as [a|e|o k] eqn:Ep; [|discriminate|].
      * destruct (mgr_pass (t_kind t)) as [p|] eqn:Em; [|discriminate].
        destruct (t_done t); [discriminate|]. destruct (s_run s) eqn:Er.
        -- injection Hs as Hs'. unfold set_threads in Hs'. rewrite Er in Hs'.
           eapply Hset; [exact Heqo| | |symmetry; exact Hs']; [reflexivity|].
           cbn. intros Hj. destruct Hk as [Hk|Hk]; [congruence|].
           apply not_true_iff_false in Hk. elim Hk. apply existsb_exists. exists t.
           split; [eapply nth_error_In; eauto|]. rewrite Hj. reflexivity.
        -- injection Hs as Hs'. unfold set_threads in Hs'. rewrite Er in Hs'.
           eapply Hset; [exact Heqo| | |symmetry; exact Hs']; [reflexivity|].
           cbn. intros Hj. rewrite Hj. reflexivity.
      * destruct (exec o (s_world s)) as [r w]. injection Hs as Hs'.
        eapply Hset; [exact Heqo| | |symmetry; exact Hs']; [reflexivity|].
        cbn. intros Hj. exfalso.
        assert (Ha : active t = false) by (apply Hr; [eapply nth_error_In; eauto|exact Hj]).
        unfold active in Ha. rewrite Ep in Ha. discriminate.
    + injection Hs as Hs'. eapply Hset; [exact Heqo| | |symmetry; exact Hs']; [reflexivity|]. reflexivity.
    + injection Hs as Hs'. eapply Hadd; [|symmetry; exact Hs']. cbn. congruence.
    + injection Hs as Hs'. eapply Hadd; [|symmetry; exact Hs']. discriminate.
    + injection Hs as Hs'. eapply Hadd; [|symmetry; exact Hs']. discriminate.
  - destruct l; try (pose proof (fun H => step_env _ _ _ H Hs) as X; destruct X as [(_ & _ & _ & _ & _ & _ & E) _];
      [congruence|apply starts_log; exact E]).
    destruct (rg_guar _ _ _ ltac:(intros; exact I) _ _ _ HB Hs) as [E|(t & o & k & Hn & Hp & Hm & E)].
    + rewrite E. reflexivity.
    + rewrite E. eapply starts_may; [exact Hm|]. intros Hj.
      assert (Ha : active t = false) by (apply Hr; [eapply nth_error_In; eauto|exact Hj]).
      unfold active in Ha. rewrite Hp in Ha. discriminate.
Qed.

Lemma C39_lemma w0 ls0 s ls s' :
  runs ls0 (start_sys w0) = Some s ->
  s_run s = false -> rests KJobMgr s -> ~ In (LManager KJobMgr) ls ->
  runs ls s = Some s' -> starts (s_world s') = starts (s_world s).
Proof.
  intros H0 Hs Hr Hl H. pose proof (may_inv _ _ _ H0) as B.
  assert (Hh : halted s) by (split; auto).
  clear - B Hh Hl H. revert s B Hh H. induction ls as [|l ls IH]; intros s B Hh H; cbn in H.
  - inversion H. reflexivity.
  - destruct (step l s) as [s1|] eqn:E; [|discriminate].
    destruct (halted_step l s s1 B) as [Hh1 Es]; auto; [intros ->; apply Hl; now left|].
    rewrite <- Es. apply IH; auto; [intros Hx; apply Hl; now right|].
    eapply may_step; eauto.
Qed.

(** ** C44 *)
Lemma drv_names_exec o w : NoDup (map dv_name (w_drvs w)) -> NoDup (map dv_name (w_drvs (snd (exec o w)))).
Proof.
  intros H. op_cases o; try exact H; unfold set_drvs; cbn.
  - rewrite map_app. cbn. apply get_drv_None in Heqo.
    apply NoDup_Add with (a := dv_name d) (l := map dv_name (w_drvs w)); [|split; auto].
    rewrite <- (app_nil_r (map dv_name (w_drvs w))) at 1.
    replace (map dv_name (w_drvs w) ++ [dv_name d]) with (map dv_name (w_drvs w) ++ dv_name d :: []) by reflexivity.
    apply Add_app.
  - rewrite upd_drvs_names. exact H.
Qed.
Lemma drv_names_inv w ls s : NoDup (map dv_name (w_drvs w)) -> runs ls (start_sys w) = Some s ->
  NoDup (map dv_name (w_drvs (s_world s))).
Proof.
  intros Hw Hr. apply (static_inv (fun w => NoDup (map dv_name (w_drvs w))) ls (start_sys w) s); auto.
  - intros k o w0 _. apply drv_names_exec.
  - intros a b (_ & _ & _ & E & _) H. rewrite E. exact H.
  - apply rg_start. exact Hw.
Qed.
Lemma driver_starts_log n w w' : w_log w' = w_log w -> driver_starts n w' = driver_starts n w.
Proof. intros E. unfold driver_starts. rewrite E. reflexivity. Qed.

Section Spawn.
  Context (n : string) (Hn : plain n) (base : list Z) (c0 t0 : Z).

  Definition row (w : world) : option drvstate := get_drv (w_drvs w) n.
  Definition same44 (w w' : world) : Prop := row w' = row w /\ driver_starts n w' = driver_starts n w.
  Definition fits (new : list Z) : Prop :=
    Z.of_nat (List.length new) <= Z.max 0 (3 - c0) /\ apart spawn_delay (new ++ [t0]).
  Definition counted (w : world) (pre new : list Z) : Prop :=
    exists d, row w = Some d /\ dv_port d = None /\ driver_starts n w = pre ++ new ++ base /\
      dv_spawn_count d = c0 + Z.of_nat (List.length new) /\ dv_spawn_time d = hd t0 new.
  Definition settled (w : world) : Prop := exists new, counted w [] new /\ fits new.
  Definition pending (w : world) : Prop := exists t new, counted w [t] new /\ fits (t :: new).
  Definition I44 (w : world) : Prop :=
    NoDup (map dv_name (w_drvs w)) /\ (settled w \/ pending w).
  Definition Q44 (k : kind) (w : world) : Prop := match k with KDrvMgr => settled w | _ => True end.
  Definition R44 (k : kind) (w w' : world) : Prop := match k with KDrvMgr => same44 w w' | _ => True end.
  Definition G44 (k : kind) (o : op) (w : world) : Prop :=
    match k with KDrvMgr => I44 (snd (exec o w)) | _ => same44 w (snd (exec o w)) end.

  Lemma same44_refl w : same44 w w.
  Proof. split; reflexivity. Qed.
  Lemma same44_trans a b c : same44 a b -> same44 b c -> same44 a c.
  Proof. intros [H1 H2] [H3 H4]. split; congruence. Qed.
  Lemma counted_same w w' a b : same44 w w' -> counted w a b -> counted w' a b.
  Proof. intros [H1 H2] (d & H). exists d. rewrite H1, H2. exact H. Qed.
  Lemma settled_same w w' : same44 w w' -> settled w -> settled w'.
  Proof. intros H (new & H1 & H2). exists new. split; [eapply counted_same; eauto|exact H2]. Qed.
  Lemma pending_same w w' : same44 w w' -> pending w -> pending w'.
  Proof. intros H (t & new & H1 & H2). exists t, new. split; [eapply counted_same; eauto|exact H2]. Qed.
  Lemma row_some w : settled w \/ pending w -> row w <> None.
  Proof. intros [(new & (d & H & _) & _)|(t & new & (d & H & _) & _)]; congruence. Qed.

  Definition off (o : op) : Prop :=
    match o with
    | ODrvUpdate m _ => sql_lit m <> Some n
    | OSpawnDriver m _ => m <> n
    | _ => True
    end.
  Lemma same44_exec o w : off o -> row w <> None -> same44 w (snd (exec o w)).
  Proof.
    intros Ho Hr. op_cases o; try (split; reflexivity).
    - split; [|reflexivity]. unfold row in *. cbn [snd set_drvs w_drvs]. rewrite get_drv_app.
      destruct (get_drv (w_drvs w) n); [reflexivity|congruence].
    - split; [|reflexivity]. unfold row. cbn [snd set_drvs w_drvs]. rewrite get_drv_upd.
      destruct (String.eqb_spec n s); [cbn in Ho; congruence|reflexivity].
    - split; [reflexivity|]. cbn. destruct (String.eqb_spec n0 n); [cbn in Ho; contradiction|reflexivity].
  Qed.
  Lemma I44_same w w' : NoDup (map dv_name (w_drvs w')) -> same44 w w' -> I44 w -> I44 w'.
  Proof.
    intros H H1 [_ H2]. split; [exact H|]. destruct H2; [left; eapply settled_same|right; eapply pending_same]; eauto.
  Qed.
  Lemma I44_off o w : off o -> I44 w -> I44 (snd (exec o w)).
  Proof.
    intros Ho Hi. eapply I44_same; [apply drv_names_exec; apply Hi|apply same44_exec; [exact Ho|]|exact Hi].
    apply row_some. apply Hi.
  Qed.

  Definition okl44 (l : label) : Prop :=
    match l with LCrash => False | LDriver m _ _ _ _ => m <> n | _ => True end.

  (** Other threads. *)
  Lemma off_may k o : may k o -> match k with KDrvMgr => False | KDriver m => m <> n | _ => True end -> off o.
  Proof.
    intros Hm Hk. destruct o; try exact I; destruct Hm as [[]|Hm]; destruct k; try contradiction.
    cbn in Hm. destruct Hm as [-> _]. cbn. intros E. apply Hk. eapply sql_lit_plain; eauto.
  Qed.
  Lemma ok44_other k {A} (p : pgm A) w :
    match k with KDrvMgr => False | KDriver m => m <> n | _ => True end ->
    all_ops (may k) p -> okq exec (xrely I44 R44 k) (G44 k) (Q44 k) p (fun _ => Q44 k) w.
  Proof.
    intros Hk Hp.
    assert (HQ : forall w, Q44 k w) by (intros; destruct k; try exact I; contradiction).
    revert w. induction p as [a|e|o f IH]; intros w; cbn; auto.
    intros w1 [H1 _]. destruct Hp as [Ho Hp]. split.
    - assert (S : same44 w1 (snd (exec o w1))).
      { apply same44_exec; [eapply off_may; eauto|apply row_some; apply H1]. }
      destruct k; try exact S. contradiction.
    - destruct (exec o w1) as [r w2]. apply IH. apply Hp.
  Qed.

  (** The manager. *)
  Let R := xrely I44 R44 KDrvMgr.
  Let G := G44 KDrvMgr.
  Definition J44 (r : list drvstate) (w : world) : Prop :=
    settled w /\ NoDup (map dv_name r) /\ forall d, In d r -> dv_name d = n -> row w = Some d.
  Lemma J44_same r w w' : same44 w w' -> J44 r w -> J44 r w'.
  Proof.
    intros H (H1 & H2 & H3). split; [eapply settled_same; eauto|]. split; [exact H2|].
    intros d Hd Hdn. rewrite (proj1 H). auto.
  Qed.
  Lemma ok44_off {A} (p : pgm A) (J : world -> Prop) : forall w,
    (forall a b, same44 a b -> J a -> J b) -> (forall a, J a -> settled a) ->
    all_ops off p -> J w -> okq exec R G settled p (fun _ => J) w.
  Proof.
    induction p as [a|e|o k IH]; intros w HJ HS; cbn; auto.
    intros [Ho Hk] Hj w1 [Hi Hr]. split; [apply I44_off; auto|].
    assert (X : same44 w1 (snd (exec o w1))) by (apply same44_exec; auto; apply row_some; apply Hi).
    destruct (exec o w1) as [r w2]. apply IH; auto. eapply HJ; [exact X|]. eapply HJ; eauto.
  Qed.

  Ltac ops := repeat (ops_step; cbv beta zeta).
  Lemma off_update m cs : m <> n -> all_ops off (update_drv m cs).
  Proof.
    intros Hm. unfold update_drv. ops; [|exact I]. cbn. intros E. apply Hm. eapply sql_lit_plain; eauto.
  Qed.
  Lemma off_one dm d : dv_name d <> n -> all_ops off (drv_one dm tt d).
  Proof.
    intros Hd. unfold drv_one, drv_checked, drv_check, stop_driver, del_drv.
    ops; try exact I; try (apply off_update; exact Hd); try exact Hd.
    destruct e; try discriminate; injection H as <-; exact I.
  Qed.

  Lemma apart_snoc_cons t l : t - hd t0 l > spawn_delay -> apart spawn_delay (l ++ [t0]) ->
    apart spawn_delay ((t :: l) ++ [t0]).
  Proof. intros H1 H2. destruct l as [|x l]; cbn in *; auto. Qed.

  Lemma ok44_one dm d r w : J44 (d :: r) w ->
    okq exec R G settled (drv_one dm tt d) (fun _ w' => J44 r w') w.
  Proof.
    intros HJ. assert (HJ0 := HJ). destruct HJ0 as (_ & Hnd & Hrow).
    inversion Hnd as [|x y Hni Hnd']. subst.
    assert (Hr : forall w', settled w' -> dv_name d = n -> J44 r w').
    { intros w' Hs Hd. split; [exact Hs|]. split; [exact Hnd'|]. intros d' Hin Hd'. elim Hni.
      rewrite Hd, <- Hd'. apply in_map. exact Hin. }
    destruct (String.string_dec (dv_name d) n) as [Hd|Hd].
    - assert (Hjr : row w = Some d) by (apply Hrow; [now left|exact Hd]).
      assert (HJ1 : settled w) by apply HJ. clear HJ.
      unfold drv_one. q_bind.
      eapply okq_weaken; [|apply ok44_off with (J := fun w => settled w /\ row w = Some d)]; cycle 1.
      + intros a b Hab [H1 H2]. split; [eapply settled_same; eauto|]. rewrite (proj1 Hab). exact H2.
      + intros a Ha. apply Ha.
      + refine (all_ops_do _ _ _). exact I.
      + auto.
      + intros tN w1 [Hs Hd1]. cbv beta.
        assert (Hport : dv_port d = None).
        { destruct Hs as (new & (d' & E & P & _) & _). congruence. }
        rewrite Hport. destruct (negb _).
        * eapply okq_weaken; [|apply ok44_off with (J := settled)].
          -- intros a w' H. apply Hr; auto.
          -- intros; eapply settled_same; eauto.
          -- auto.
          -- unfold del_drv. ops; exact I.
          -- exact Hs.
        * destruct (Z.ltb spawn_delay (tN - dv_spawn_time d) && Z.ltb (dv_spawn_count d) spawn_retries)%bool eqn:Ec.
          2:{ cbn. apply Hr; auto. }
          apply andb_prop in Ec. destruct Ec as [E1 E2]. apply Z.ltb_lt in E1. apply Z.ltb_lt in E2.
          assert (P : forall w2, R w1 w2 -> exists new, counted (snd (exec (OSpawnDriver (dv_name d) tN) w2)) [tN] new /\ fits (tN :: new)
                    /\ row (snd (exec (OSpawnDriver (dv_name d) tN) w2)) = Some d).
          { intros w2 [Hi Hsame]. assert (Hs2 : settled w2) by (eapply settled_same; eauto).
            assert (Hd2 : row w2 = Some d) by (rewrite (proj1 Hsame); exact Hd1).
            destruct Hs2 as (new & (d' & X1 & X2 & X3 & X4 & X5) & X6 & X7).
            rewrite Hd2 in X1. injection X1 as <-. exists new. split; [|split].
            - exists d. split; [exact Hd2|]. split; [exact X2|]. split; [|auto].
              cbn. rewrite Hd, String.eqb_refl. cbn. f_equal. exact X3.
            - split.
              + cbn [List.length]. unfold spawn_retries in E2. lia.
              + apply apart_snoc_cons; [rewrite <- X5; lia|exact X7].
            - exact Hd2. }
          q_bind. apply okq_act. intros w2 HR. destruct (P w2 HR) as (new & C & F & D).
          split; [split; [apply drv_names_exec; apply HR|right; exists tN, new; auto]|]. cbn [exec] in *.
          cbn [snd] in *. set (w3 := add_event w2 (EvSpawnDriver (dv_name d) tN)) in *.
          unfold update_drv. q_bind. q_bind. apply okq_act. intros w4 [Hi4 Hsame4].
          assert (S : settled (snd (exec (ODrvUpdate (dv_name d) [DSpawnTime tN; DSpawnCount (dv_spawn_count d + 1)]) w4))).
          { exists (tN :: new). split; [|exact F].
            pose proof (counted_same _ _ _ _ Hsame4 C) as (d' & X1 & X2 & X3 & X4 & X5).
            rewrite (proj1 Hsame4), D in X1. injection X1 as <-.
            cbn [exec]. rewrite Hd, sql_lit_id by exact Hn. cbn [snd].
            exists (set_dcols [DSpawnTime tN; DSpawnCount (dv_spawn_count d + 1)] d).
            split.
            { unfold row. cbn [set_drvs w_drvs]. rewrite get_drv_upd, String.eqb_refl.
              change (get_drv (w_drvs w4) n) with (row w4). rewrite (proj1 Hsame4), D. reflexivity. }
            split; [exact X2|]. split; [exact X3|]. split; [|reflexivity].
            cbn [List.length set_dcols fold_left set_dcol dv_spawn_count]. lia. }
          split; [split; [apply drv_names_exec; apply Hi4|left; exact S]|].
          assert (Eo : fst (exec (ODrvUpdate (dv_name d) [DSpawnTime tN; DSpawnCount (dv_spawn_count d + 1)]) w4) = Ok tt).
          { cbn [exec]. rewrite Hd, sql_lit_id by exact Hn. reflexivity. }
          destruct (exec (ODrvUpdate (dv_name d) [DSpawnTime tN; DSpawnCount (dv_spawn_count d + 1)]) w4) as [x w5].
          cbn [fst snd] in Eo, S. subst x.
          eapply okq_weaken; [|apply ok44_off with (J := settled)].
          -- intros a w' H. cbn. apply Hr; auto.
          -- intros; eapply settled_same; eauto.
          -- auto.
          -- refine (all_ops_do _ _ _). exact I.
          -- exact S.
    - eapply okq_weaken; [|apply ok44_off with (J := J44 (d :: r))].
      + intros a w' (H1 & _ & H3). split; [exact H1|]. split; [exact Hnd'|]. intros; apply H3; auto. now right.
      + intros a b. apply J44_same.
      + intros a Ha. apply Ha.
      + apply off_one. exact Hd.
      + exact HJ.
  Qed.

  Lemma ok44_pass w : settled w ->
    okq exec R G settled (no_reply drv_pass) (fun _ => settled) w.
  Proof.
    intros Hs. unfold no_reply, drv_pass. q_bind. q_bind.
    eapply okq_weaken; [|apply ok44_off with (J := settled)]; cycle 1.
    { intros; eapply settled_same; eauto. } { auto. } { refine (all_ops_do _ _ _). exact I. } { exact Hs. }
    intros [dm|] w1 H1; cbv beta; [|exact H1].
    q_bind. apply okq_act. intros w2 [Hi Hr]. cbn [exec]. split; [exact Hi|].
    eapply okq_weaken; [|eapply okq_forP with (J := fun r _ w => J44 r w)].
    - intros a w' H. cbn. apply H.
    - split; [eapply settled_same; eauto|]. split; [apply Hi|].
      intros d Hd Hdn. unfold row. rewrite <- Hdn. apply In_get_drv; [apply Hi|exact Hd].
    - intros d r [] w3 HJ. apply ok44_one. exact HJ.
  Qed.

  Lemma inv44 ls s s' : Forall okl44 ls -> rgx_inv I44 R44 G44 Q44 s -> runs ls s = Some s' ->
    rgx_inv I44 R44 G44 Q44 s'.
  Proof.
    intros Hl Hi Hr. pose proof (along_true ls s) as Ha.
    eapply rgx_steps with (okl := okl44) (okst := fun _ => True) (R := R44) (G := G44) (sep := sep_any);
      try exact Hr; try exact Hi; try exact Ha.
    - intros k w; destruct k; try exact I. apply same44_refl.
    - intros k a b c; destruct k; try (intros; exact I). apply same44_trans.
    - intros k w Hk. destruct k; try exact I. discriminate.
    - intros s0 x m a b _. apply sep_any_ok.
    - intros k o w Hw Hg. destruct k; try exact Hg;
        (eapply I44_same; [apply drv_names_exec; apply Hw|exact Hg|exact Hw]).
    - intros k k' o w _ Hg Hk. destruct k'; try exact I. destruct k; try exact Hg. discriminate.
    - intros k k' o w _ Hg Hk. destruct k'; try (intros; exact I). cbn. apply settled_same.
      destruct k; try exact Hg. discriminate.
    - intros l s0 s1 _ _ _ Hns Hs Hw. destruct (step_env _ _ _ Hns Hs) as [(_ & _ & _ & E & _ & _ & E') _].
      assert (S : same44 (s_world s0) (s_world s1)).
      { split; [unfold row; rewrite E; reflexivity|apply driver_starts_log; exact E']. }
      split; [eapply I44_same; [rewrite E; apply Hw|exact S|exact Hw]|]. split.
      + intros k; destruct k; try exact I. exact S.
      + intros k; destruct k; try (intros; exact I). cbn. apply settled_same. exact S.
    - intros c s0 _ _ _. apply ok44_other; [exact I|apply ops_cmd].
    - intros k p s0 Hp _ _ Hq. destruct k; try discriminate.
      + apply ok44_other; [exact I|apply ops_mgr; exact Hp].
      + apply ok44_other; [exact I|apply ops_mgr; exact Hp].
      + injection Hp as <-. apply ok44_pass. exact Hq.
    - intros s0 _ _ Hq. apply ok44_off; auto.
      + intros; eapply settled_same; eauto.
      + unfold no_reply, drv_quit, drv_quit_one, kill_driver, stop_driver. ops; exact I.
    - intros s0 s1 i pid a _ _ _ _ _ _. apply ok44_other; [exact I|apply ops_job].
    - intros m port pid ver ok s0 Hm _ _. apply ok44_other; [exact Hm|apply ops_driver].
    - left. intros [].
    - exact Hl.
  Qed.
End Spawn.

Lemma C44_lemma w0 ls0 s ls s' n d :
  NoDup (map dv_name (w_drvs w0)) -> runs ls0 (start_sys w0) = Some s ->
  plain n -> get_drv (w_drvs (s_world s)) n = Some d -> dv_port d = None ->
  rests KDrvMgr s -> rests (KDriver n) s ->
  ~ In LCrash ls -> (forall port pid ver ok, ~ In (LDriver n port pid ver ok) ls) ->
  runs ls s = Some s' ->
  exists new, driver_starts n (s_world s') = new ++ driver_starts n (s_world s) /\
    Z.of_nat (List.length new) <= Z.max 0 (3 - dv_spawn_count d) /\
    apart 5000000 (new ++ [dv_spawn_time d]).
Proof.
  intros Hnd H0 Hp Hd Hport Hm Hdr Hl1 Hl2 Hr. pose proof (may_inv _ _ _ H0) as B.
  pose proof (drv_names_inv _ _ _ Hnd H0) as Hnd'.
  set (base := driver_starts n (s_world s)).
  assert (Hs : settled n base (dv_spawn_count d) (dv_spawn_time d) (s_world s)).
  { exists []. split.
    - exists d. split; [exact Hd|]. split; [exact Hport|]. split; [reflexivity|]. split; [cbn; lia|reflexivity].
    - split; [cbn; lia|exact I]. }
  assert (X : rgx_inv (I44 n base (dv_spawn_count d) (dv_spawn_time d)) (R44 n)
    (G44 n base (dv_spawn_count d) (dv_spawn_time d)) (Q44 n base (dv_spawn_count d) (dv_spawn_time d)) s').
  { eapply inv44; [exact Hp| | |exact Hr].
    - apply Forall_forall. intros l Hin. destruct l; try exact I; [contradiction|].
      cbn. intros ->. eapply Hl2; eauto.
    - destruct B as (_ & Bu & Bt). split; [split; [exact Hnd'|left; exact Hs]|]. split; [exact Bu|]. split.
      + intros t Hin. destruct (active t) eqn:Ea.
        * assert (Hk : match t_kind t with KDrvMgr => False | KDriver m => m <> n | _ => True end).
          { destruct (t_kind t) as [| | | | |m] eqn:Ek; try exact I.
            - rewrite (Hm t Hin Ek) in Ea. discriminate.
            - intros ->. rewrite (Hdr t Hin Ek) in Ea. discriminate. }
          specialize (Bt t Hin). unfold okx. revert Bt Hk. generalize (t_kind t) as k. intros k Bt Hk.
          eapply may_okq; [exact (fun _ => True)| | |exact Bt].
          -- intros; destruct k; try exact I; contradiction.
          -- intros o w w' [Hi _] Ho.
             assert (S : same44 n w' (snd (exec o w'))).
             { apply same44_exec; [eapply off_may; eauto|eapply row_some; apply Hi]. }
             destruct k; try exact S. contradiction.
        * apply okx_of_rest; auto. destruct (t_kind t); try exact I. exact Hs.
      + intros k Hk _. destruct k; try exact I. exact Hs. }
  destruct X as ((_ & Hx) & _).
  destruct Hx as [(new & (d' & _ & _ & E & _) & F)|(t & new & (d' & _ & _ & E & _) & F)].
  - exists new. split; [exact E|exact F].
  - exists (t :: new). split; [exact E|exact F].
Qed.
