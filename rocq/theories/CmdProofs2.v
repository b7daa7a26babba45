(** * CmdProofs2: why a reload is refused (C07) *)
From Coq Require Import List String ZArith Bool Lia.
From Verif Require Import Base BaseFacts PyStr Types ConfigModel SpecConfig ConfigProofs
  Prog ProgFacts World WorldFacts Replies CmdModel KetchupModel TomatoModel SpecCmd CmdProofs.
Import ListNotations.
Open Scope list_scope.

Section Reason.
  Variables d nd : daemon.
  Hypothesis Hd : configured d.
  Hypothesis Hnd : configured nd.
  Variables pips rpips : list pipstate.
  Hypothesis Hr : forall ps, In ps rpips <-> In ps pips /\ exists id, p_jobid ps = Some id.
  Let old := dm_df d.
  Let new := dm_df nd.

  Lemma used_comps ps cn : In ps rpips -> In cn (pip_comps old ps) ->
    exists p role, used_pipeline pips old p /\ dget (pp_components p) role = Some cn.
  Proof.
    destruct (configured_df d Hd) as (_ & HP & _).
    intros I C. apply Hr in I as [I [id J]]. unfold pip_comps in C.
    destruct (dget (df_pipelines old) (p_name ps)) as [p|] eqn:E; [|destruct C].
    destruct (HP _ _ E) as [_ HN]. apply In_dvals in C as [role C]; auto.
    exists p, role. split; [exists ps, id; auto|exact C].
  Qed.

  Lemma reload_reason r : reload_check old new rpips = Ok (Some r) -> refusal pips old new r.
  Proof.
    destruct (configured_df d Hd) as ((HA & HC & _) & HP & HD).
    destruct (configured_df nd Hnd) as ((HA' & HC' & _) & HP' & HD').
    unfold reload_check.
    pose proof (fun acc s' => forR_acc (check_pip old new) (good_pip old new) (pip_comps old) rpips
                 (fun acc a _ => check_pip_spec d nd Hd Hnd acc a) acc s') as Hp.
    destruct (forR (check_pip old new) [] rpips) as [[comps|r1]|e1] eqn:E1; try discriminate.
    2: { intros E; injection E as <-. revert E1. apply (forR_fail _ (refusal pips old new)).
      intros s a r0 Ia. unfold check_pip.
      destruct (dget (df_pipelines old) (p_name a)) as [p|] eqn:Ep; try discriminate.
      assert (U : used_pipeline pips old p).
      { apply Hr in Ia as [Ia [id J]]. exists a, id. auto. }
      destruct (HP _ _ Ep) as [En Hn].
      destruct (dget (df_pipelines new) (pp_name p)) as [p'|] eqn:Ep'.
      - destruct (dict_eqb _ _ _) eqn:Eq; [discriminate|]. intros F; injection F as <-.
        apply RefModifyPip with p'; auto. intros X. destruct (HP' _ _ Ep') as [_ Hn'].
        apply (dict_eqb_spec _ String.eqb_eq) in X; auto. congruence.
      - intros F; injection F as <-. apply RefDeletePip; auto. }
    pose proof (proj1 (Hp [] comps) E1) as [Fp ->]. cbn [app] in *.
    set (cs := set_of (flat_map (pip_comps old) rpips)) in *.
    assert (Ucs : forall cn c, In cn cs -> dget (df_components old) cn = Some c -> used_component pips old c).
    { intros cn c I E. unfold cs in I. apply (proj1 (set_of_In _ _)) in I. apply in_flat_map in I as (ps & I1 & I2).
      destruct (used_comps ps cn I1 I2) as (p & role & U & C). exists p, role, cn. auto. }
    pose proof (fun acc s' => forR_acc (check_comp old new) (good_comp old new) (comp_drvs old) cs
                 (fun acc a _ => check_comp_spec d nd Hd Hnd acc a) acc s') as Hc.
    destruct (forR (check_comp old new) [] cs) as [[drvs|r1]|e1] eqn:E2; try discriminate.
    2: { intros E; injection E as <-. revert E2. apply (forR_fail _ (refusal pips old new)).
      intros s a r0 Ia. unfold check_comp.
      destruct (dget (df_components old) a) as [c|] eqn:Ec; try discriminate.
      destruct (HC _ _ Ec) as (En & _).
      destruct (dget (df_components new) a) as [c'|] eqn:Ec'.
      - destruct (_ && _ && _ && _) eqn:Eq; [discriminate|]. intros F; injection F as <-.
        destruct (HC' _ _ Ec') as (En' & _).
        apply RefModifyComp with c'; [eauto|congruence|]. intros (X1 & X2 & X3).
        rewrite X1, X2, X3, En, En', !String.eqb_refl in Eq. discriminate.
      - intros F; injection F as <-. apply RefDeleteComp; [eauto|congruence]. }
    pose proof (proj1 (Hc [] drvs) E2) as [Fc ->]. cbn [app] in *.
    set (ds := set_of (flat_map (comp_drvs old) cs)) in *.
    destruct (forR (check_drv old new) tt ds) as [[u|r1]|e1] eqn:E3; try discriminate.
    intros E; injection E as <-. revert E3. apply (forR_fail _ (refusal pips old new)).
    intros s a r0 Ia. unfold check_drv.
    unfold ds in Ia. apply (proj1 (set_of_In _ _)) in Ia. apply in_flat_map in Ia as (cn & I1 & I2).
    unfold comp_drvs in I2. destruct (dget (df_components old) cn) as [c|] eqn:Ec; [|destruct I2].
    destruct I2 as [<-|[]].
    rewrite Forall_forall in Fc. destruct (Fc cn I1) as (c0 & c' & X1 & X2 & X3 & X4 & X5).
    rewrite Ec in X1. injection X1 as <-.
    destruct (HC _ _ Ec) as (_ & _ & v & Ev & Nv). destruct (HC' _ _ X2) as (_ & _ & v' & Ev' & _).
    fold old in Ev. fold new in Ev'. rewrite X3 in Ev'. rewrite Ev, Ev'.
    destruct (dict_eqb _ _ _) eqn:Eq; [discriminate|]. intros F; injection F as <-.
    apply RefModifyDrv with v'.
    - exists c. split; [eauto|exact Ev].
    - congruence.
    - intros X. specialize (HD _ _ Ev). specialize (HD' _ _ Ev').
      assert (Y : dict_eqb sval_eqb (dr_settings v) (dr_settings v') = true).
      { apply (dict_eqb_spec _ sval_eqb_eq); auto. }
      congruence.
  Qed.
End Reason.

Lemma reload_refused port w d r w' : w_daemon w = Some d -> configured d -> wf_files (w_files w) ->
  run exec (tomato_reload port) w = (Ok r, w') -> r_ok r = false ->
  (r = mkReply false MNoSettings RNone /\ cf_settings (w_files w) = None) \/
  (r = mkReply false MParseError RNone /\ exists e, load_daemon (w_files w) (dm_status d) (dm_port d) = Err e) \/
  (exists nd, load_daemon (w_files w) (dm_status d) (dm_port d) = Ok nd /\ refusal (w_pips w) (dm_df d) (dm_df nd) r).
Proof.
  intros Ew Hd Hwf H Hr. rewrite (run_tomato_reload port d w Ew) in H.
  destruct (cf_settings (w_files w)) as [st|] eqn:Es; [|injection H as <- <-; auto].
  destruct (load_daemon _ _ _) as [nd|e] eqn:El; [|injection H as <- <-; right; left; eauto].
  destruct (reload_check _ _ _) as [[r'|]|e] eqn:Ec; [| |discriminate].
  - injection H as <- <-. right. right. exists nd. split; [reflexivity|].
    apply (reload_reason d nd Hd (new_configured _ _ _ _ Hwf El) (w_pips w) (busy w) (busy_In w)). exact Ec.
  - injection H as <- <-. discriminate.
Qed.

(** ** When a reload request raises (C73) *)
Section Stumble.
  Variables d nd : daemon.
  Hypothesis Hd : configured d.
  Hypothesis Hnd : configured nd.
  Let old := dm_df d.
  Let new := dm_df nd.
  Let held (p : pipstate) : bool := Bool.eqb (is_some (p_jobid p)) true.

  Lemma check_pip_err acc ps e : check_pip old new acc ps = Err e <->
    (dget (df_pipelines old) (p_name ps) = None /\ e = KeyError).
  Proof.
    unfold check_pip. destruct (dget (df_pipelines old) (p_name ps)) as [p|].
    - split; [|intros [H _]; discriminate H]. destruct (dget (df_pipelines new) (pp_name p)); [|discriminate].
      destruct (dict_eqb _ _ _); discriminate.
    - split; [intros H; injection H as <-; auto|intros [_ ->]; reflexivity].
  Qed.
  Lemma forR_pip_err l : forall s e, forR (check_pip old new) s (filter held l) = Err e <-> (stumbles l old new /\ e = KeyError).
  Proof.
    induction l as [|ps l IH]; intros s e.
    - cbn. split; [discriminate|]. intros [(b & q & a & id & E & _) _]. destruct b; discriminate E.
    - cbn [filter]. destruct (held ps) eqn:Eh.
      + assert (Hj : exists id, p_jobid ps = Some id).
        { unfold held in Eh. destruct (p_jobid ps) as [id|]; [eauto|discriminate Eh]. }
        destruct Hj as [id Hj]. cbn [forR].
        destruct (check_pip_spec d nd Hd Hnd s ps) as [[G E]|[G E]].
        * fold old new in E, G. rewrite E, IH. split; intros [S ->]; (split; [|reflexivity]).
          -- destruct S as (b & q & a & i & -> & J & N & F). exists (ps :: b), q, a, i.
             split; [reflexivity|]. split; [exact J|]. split; [exact N|].
             intros q' i' [<-|H] J'; [exact G|exact (F q' i' H J')].
          -- destruct S as (b & q & a & i & X & J & N & F). destruct b as [|b0 b]; cbn in X.
             ++ injection X as -> _. destruct G as (p & p' & G & _). rewrite G in N. discriminate N.
             ++ injection X as <- ->. exists b, q, a, i. split; [reflexivity|]. split; [exact J|]. split; [exact N|].
                intros q' i' H J'. exact (F q' i' (or_intror H) J').
        * fold old new in E, G. destruct (check_pip old new s ps) as [[s'|r]|e'] eqn:Ec; [now destruct (E s')| |].
          -- split; [discriminate|]. intros [(b & q & a & i & X & J & N & F) _]. destruct b as [|b0 b]; cbn in X.
             ++ injection X as -> _. rewrite (proj2 (check_pip_err s q KeyError) (conj N eq_refl)) in Ec. discriminate Ec.
             ++ injection X as <- _. destruct (G (F ps id (or_introl eq_refl) Hj)).
          -- apply check_pip_err in Ec. destruct Ec as [N ->]. split.
             ++ intros X. injection X as <-. split; [|reflexivity]. exists [], ps, l, id.
                split; [reflexivity|]. split; [exact Hj|]. split; [exact N|]. intros q' i' [].
             ++ intros [_ ->]. reflexivity.
      + assert (Hj : p_jobid ps = None) by (unfold held in Eh; destruct (p_jobid ps); [discriminate Eh|reflexivity]).
        rewrite IH. split; intros [S ->]; (split; [|reflexivity]).
        * destruct S as (b & q & a & i & -> & J & N & F). exists (ps :: b), q, a, i.
          split; [reflexivity|]. split; [exact J|]. split; [exact N|].
          intros q' i' [<-|H] J'; [congruence|exact (F q' i' H J')].
        * destruct S as (b & q & a & i & X & J & N & F). destruct b as [|b0 b]; cbn in X.
          -- injection X as -> _. congruence.
          -- injection X as <- ->. exists b, q, a, i. split; [reflexivity|]. split; [exact J|]. split; [exact N|].
             intros q' i' H J'. exact (F q' i' (or_intror H) J').
  Qed.
  Lemma forR_pip_all l : forall s s', forR (check_pip old new) s l = Ok (inl s') ->
    forall ps, In ps l -> In (p_name ps) (dkeys (df_pipelines old)).
  Proof.
    induction l as [|q l IH]; intros s s' H ps I; [destruct I|]. cbn [forR] in H.
    destruct (check_pip old new s q) as [[s1|r]|e] eqn:Ec; try discriminate H.
    destruct I as [<-|I]; [|exact (IH _ _ H _ I)].
    apply dget_Some_key. unfold check_pip in Ec.
    destruct (dget (df_pipelines old) (p_name q)) as [p|]; [eauto|discriminate Ec].
  Qed.
  Lemma reload_check_err l e : reload_check old new (filter held l) = Err e <-> (stumbles l old new /\ e = KeyError).
  Proof.
    split.
    - intros H. apply (forR_pip_err l [] e). unfold reload_check in H.
      destruct (forR (check_pip old new) [] (filter held l)) as [[comps|r]|e'] eqn:E1.
      + exfalso. revert H. fold (reload_check old new (filter held l)).
        assert (N := reload_check_no_err d new (filter held l) Hd (forR_pip_all _ _ _ E1) e).
        unfold reload_check in N. fold old in N. rewrite E1 in N. exact N.
      + discriminate H.
      + injection H as ->. reflexivity.
    - intros S. apply (forR_pip_err l [] e) in S. unfold reload_check. rewrite S. reflexivity.
  Qed.
End Stumble.

Lemma reload_raises port w d e : w_daemon w = Some d -> configured d -> wf_files (w_files w) ->
  (fst (run exec (tomato_reload port) w) = Err e <->
   (e = KeyError /\ exists nd, load_daemon (w_files w) (dm_status d) (dm_port d) = Ok nd /\
      stumbles (w_pips w) (dm_df d) (dm_df nd))).
Proof.
  intros Ew Hd Hwf. rewrite (run_tomato_reload port d w Ew).
  destruct (cf_settings (w_files w)) as [st|] eqn:Es.
  - destruct (load_daemon _ _ _) as [nd|x] eqn:El.
    + assert (R := fun e => reload_check_err d nd Hd (new_configured _ _ _ _ Hwf El) (w_pips w) e).
      fold (busy w) in R. split.
      * intros H. destruct (reload_check (dm_df d) (dm_df nd) (busy w)) as [[r|]|e'] eqn:Ec; try discriminate H.
        cbn in H. injection H as ->. destruct (proj1 (R e) eq_refl) as [S ->]. eauto.
      * intros (-> & nd' & X & S). injection X as <-. rewrite (proj2 (R KeyError) (conj S eq_refl)). reflexivity.
    + split; [discriminate|]. intros (_ & nd & X & _). discriminate X.
  - split; [discriminate|]. intros (_ & nd & X & _). apply load_daemon_inv in X as (st & _ & _ & _ & E & _). congruence.
Qed.
