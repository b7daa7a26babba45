(** * CmdProofs: daemon start, reload and stop *)
From Coq Require Import List String ZArith Bool Lia.
From Verif Require Import Base BaseFacts PyStr Types ConfigModel SpecConfig ConfigProofs
  Prog ProgFacts World WorldFacts Replies CmdModel KetchupModel TomatoModel SpecCmd.
Import ListNotations.
Open Scope list_scope.

(** ** Facts about loaded configurations *)
Lemma configured_df d : configured d ->
  closed_config (dm_df d) /\
  (forall pn p, dget (df_pipelines (dm_df d)) pn = Some p ->
     pp_name p = pn /\ NoDup (dkeys (pp_components p))) /\
  (forall dn v, dget (df_drivers (dm_df d)) dn = Some v -> NoDup (dkeys (dr_settings v))).
Proof.
  intros (cf & Hwf & H). pose proof H as H0.
  apply load_daemon_inv in H as (st & rf & df & tbl & E1 & E2 & E3 & E4 & E5).
  apply (f_equal dm_df) in E5. cbn in E5. rewrite E5. clear E5.
  specialize (Hwf _ E1 _ E4) as [Hn1 Hn2].
  split; [|split].
  - pose proof (load_closed _ _ E3) as (A & B & C & D1 & D2 & D3 & D4).
    unfold closed_config, with_drivers.
    cbn [df_components df_devices df_drivers df_pipelines].
    rewrite merge_fold_keys.
    split; [exact A|]. split; [|split; [exact C|split; [exact D1|split; [exact D2|split; [exact D3|exact D4]]]]].
    intros cn c Hc. destruct (B cn c Hc) as (B1 & B2 & v & Hv & B3).
    split; [exact B1|]. split; [exact B2|].
    rewrite merge_fold_get by auto. rewrite Hv. eexists. split; [reflexivity|].
    destruct (dget tbl (c_driver c)); exact B3.
  - intros pn p Hp. cbn in Hp. destruct (load_pipelines _ _ E3 pn) as [_ HP].
    destruct (HP p Hp) as (Hnm & rp & _ & n & comps & _ & _ & [(_ & Hnd & _)|(_ & HW)]).
    + auto.
    + split; auto. destruct HW as (rc & dev & ch & role & _ & _ & _ & _ & _ & ->).
      cbn. constructor; [intros []|constructor].
  - intros dn v Hv. cbn in Hv. rewrite merge_fold_get in Hv by auto.
    destruct (dget (df_drivers df) dn) as [d0|] eqn:Ed; [|discriminate].
    apply (loaded_drivers rf df dn E3) in Ed as ->. injection Hv as <-.
    destruct (dget tbl dn) as [t|] eqn:Et; cbn.
    + apply NoDup_dupdate. constructor.
    + constructor.
Qed.

(** ** Loops with early exit *)
Lemma forR_acc {A B R} (f : list B -> A -> res (list B + R)) (good : A -> Prop) (g : A -> list B) l :
  (forall acc a, In a l ->
     (good a /\ f acc a = Ok (inl (acc ++ g a))) \/
     (~ good a /\ forall s, f acc a <> Ok (inl s))) ->
  forall acc s', forR f acc l = Ok (inl s') <-> Forall good l /\ s' = acc ++ flat_map g l.
Proof.
  induction l as [|a l IH]; intros H acc s'; cbn.
  - rewrite app_nil_r. split; [intros E; injection E as <-; auto|intros [_ ->]; auto].
  - destruct (H acc a (or_introl eq_refl)) as [[Hg E]|[Hg E]].
    + rewrite E. rewrite IH by (intros; apply H; now right).
      rewrite app_assoc. split; intros [H1 H2]; split; auto.
      now inversion H1.
    + split.
      * intros E'. exfalso. destruct (f acc a) as [[s|r]|e] eqn:Ef; try discriminate.
        now apply (E s).
      * intros [H1 _]. inversion H1; contradiction.
Qed.

(** Errors only come from the body. *)
Lemma forR_no_err {A S R} (f : S -> A -> res (S + R)) l :
  (forall s a e, In a l -> f s a <> Err e) -> forall s e, forR f s l <> Err e.
Proof.
  induction l as [|a l IH]; intros H s e E; cbn in E; [discriminate|].
  destruct (f s a) as [[s'|r]|e'] eqn:Ef; try discriminate.
  - eapply IH; [|exact E]. intros; apply H; now right.
  - eapply H; [|exact Ef]. now left.
Qed.

Lemma forR_fail {A S R} (f : S -> A -> res (S + R)) (Q : R -> Prop) l :
  (forall s a r, In a l -> f s a = Ok (inr r) -> Q r) ->
  forall s r, forR f s l = Ok (inr r) -> Q r.
Proof.
  induction l as [|a l IH]; intros H s r E; cbn in E; [discriminate|].
  destruct (f s a) as [[s'|r']|e'] eqn:Ef; try discriminate.
  - eapply IH; [|exact E]. intros; eapply H; [right|]; eauto.
  - injection E as <-. eapply H; [|exact Ef]. now left.
Qed.

(** ** The checks of reload *)
Definition good_pip (old new : devicefile) (ps : pipstate) : Prop :=
  exists p p', dget (df_pipelines old) (p_name ps) = Some p /\
    dget (df_pipelines new) (p_name ps) = Some p' /\
    forall role, dget (pp_components p') role = dget (pp_components p) role.
Definition pip_comps (old : devicefile) (ps : pipstate) : list string :=
  match dget (df_pipelines old) (p_name ps) with
  | Some p => dvals (pp_components p) | None => [] end.
Definition good_comp (old new : devicefile) (cn : string) : Prop :=
  exists c c', dget (df_components old) cn = Some c /\ dget (df_components new) cn = Some c' /\
    c_driver c' = c_driver c /\ c_address c' = c_address c /\ c_channel c' = c_channel c.
Definition comp_drvs (old : devicefile) (cn : string) : list string :=
  match dget (df_components old) cn with Some c => [c_driver c] | None => [] end.
Definition good_drv (old new : devicefile) (dn : string) : Prop :=
  exists v v', dget (df_drivers old) dn = Some v /\ dget (df_drivers new) dn = Some v' /\
    forall k, dget (dr_settings v') k = dget (dr_settings v) k.

Lemma sval_eqb_eq a b : sval_eqb a b = true <-> a = b.
Proof.
  destruct a, b; cbn; try (split; [discriminate|intros E; discriminate E]).
  - rewrite Z.eqb_eq. split; congruence.
  - rewrite String.eqb_eq. split; congruence.
  - rewrite Bool.eqb_true_iff. split; congruence.
Qed.

Section Check.
  Variables d nd : daemon.
  Hypothesis Hd : configured d.
  Hypothesis Hnd : configured nd.
  Let old := dm_df d.
  Let new := dm_df nd.

  Lemma check_pip_spec acc ps :
    (good_pip old new ps /\ check_pip old new acc ps = Ok (inl (acc ++ pip_comps old ps))) \/
    (~ good_pip old new ps /\ forall s, check_pip old new acc ps <> Ok (inl s)).
  Proof.
    destruct (configured_df d Hd) as (_ & HP & _).
    destruct (configured_df nd Hnd) as (_ & HP' & _).
    unfold check_pip, pip_comps, good_pip, old, new.
    destruct (dget (df_pipelines (dm_df d)) (p_name ps)) as [p|] eqn:E.
    2: { right. split; [intros (? & ? & ? & _); discriminate|discriminate]. }
    destruct (HP _ _ E) as [En Hn]. rewrite En.
    destruct (dget (df_pipelines (dm_df nd)) (p_name ps)) as [p'|] eqn:E'.
    2: { right. split; [intros (? & ? & ? & ? & _); discriminate|discriminate]. }
    destruct (HP' _ _ E') as [En' Hn'].
    destruct (dict_eqb String.eqb (pp_components p') (pp_components p)) eqn:Eq.
    - left. split; auto. exists p, p'.
      rewrite (dict_eqb_spec _ String.eqb_eq) in Eq by auto. auto.
    - right. split; [|discriminate]. intros (q & q' & F & F' & Hr).
      injection F as <-. injection F' as <-.
      apply (dict_eqb_spec _ String.eqb_eq) in Hr; auto. congruence.
  Qed.

  Lemma check_comp_spec acc cn :
    (good_comp old new cn /\ check_comp old new acc cn = Ok (inl (acc ++ comp_drvs old cn))) \/
    (~ good_comp old new cn /\ forall s, check_comp old new acc cn <> Ok (inl s)).
  Proof.
    destruct (configured_df d Hd) as ((_ & HC & _) & _).
    destruct (configured_df nd Hnd) as ((_ & HC' & _) & _).
    unfold check_comp, comp_drvs, good_comp, old, new.
    destruct (dget (df_components (dm_df d)) cn) as [c|] eqn:E.
    2: { right. split; [intros (? & ? & ? & _); discriminate|discriminate]. }
    destruct (dget (df_components (dm_df nd)) cn) as [c'|] eqn:E'.
    2: { right. split; [intros (? & ? & ? & ? & _); discriminate|discriminate]. }
    destruct (HC _ _ E) as (En & _). destruct (HC' _ _ E') as (En' & _).
    destruct (_ && _ && _ && _) eqn:Eq.
    - left. split; auto. rewrite !andb_true_iff, !String.eqb_eq in Eq.
      destruct Eq as (((_ & E1) & E2) & E3). exists c, c'. auto.
    - right. split; [|discriminate]. intros (q & q' & F & F' & H1 & H2 & H3).
      injection F as <-. injection F' as <-.
      rewrite H1, H2, H3, En, En', !String.eqb_refl in Eq. discriminate.
  Qed.

  Lemma check_drv_spec acc dn :
    (good_drv old new dn /\ check_drv old new acc dn = Ok (inl tt)) \/
    (~ good_drv old new dn /\ forall s, check_drv old new acc dn <> Ok (inl s)).
  Proof.
    destruct (configured_df d Hd) as (_ & _ & HD).
    destruct (configured_df nd Hnd) as (_ & _ & HD').
    unfold check_drv, good_drv, old, new.
    destruct (dget (df_drivers (dm_df nd)) dn) as [v'|] eqn:E'.
    2: { right. split; [intros (? & ? & ? & ? & _); discriminate|].
         destruct (dget (df_drivers (dm_df d)) dn); discriminate. }
    destruct (dget (df_drivers (dm_df d)) dn) as [v|] eqn:E.
    2: { right. split; [intros (? & ? & ? & _); discriminate|discriminate]. }
    specialize (HD _ _ E). specialize (HD' _ _ E').
    destruct (dict_eqb sval_eqb (dr_settings v) (dr_settings v')) eqn:Eq.
    - left. split; auto. exists v, v'. split; auto. split; auto.
      rewrite (dict_eqb_spec _ sval_eqb_eq) in Eq by auto. auto.
    - right. split; [|discriminate]. intros (q & q' & F & F' & Hr).
      injection F as <-. injection F' as <-.
      assert (dict_eqb sval_eqb (dr_settings v) (dr_settings v') = true).
      { apply (dict_eqb_spec _ sval_eqb_eq); auto. }
      congruence.
  Qed.

  Lemma forR_drv l : forR (check_drv old new) tt l = Ok (inl tt) <-> Forall (good_drv old new) l.
  Proof.
    induction l as [|a l IH]; cbn [forR].
    - split; auto.
    - destruct (check_drv_spec tt a) as [[G E]|[G E]].
      + rewrite E, IH. split; intros H; [constructor; auto|now inversion H].
      + split.
        * intros E'. exfalso. destruct (check_drv old new tt a) as [[[]|r]|e] eqn:Ef; try discriminate.
          now apply (E tt).
        * intros H. inversion H; contradiction.
  Qed.

  Lemma reload_check_keeps rpips :
    reload_check old new rpips = Ok None <->
    Forall (good_pip old new) rpips /\
    (forall ps cn, In ps rpips -> In cn (pip_comps old ps) -> good_comp old new cn) /\
    (forall ps cn dn, In ps rpips -> In cn (pip_comps old ps) -> In dn (comp_drvs old cn) ->
       good_drv old new dn).
  Proof.
    unfold reload_check.
    pose proof (fun acc s' => forR_acc (check_pip old new) _ _ rpips
                 (fun acc a _ => check_pip_spec acc a) acc s') as Hp.
    destruct (forR (check_pip old new) [] rpips) as [[comps|r]|e] eqn:Ep.
    2,3: split; [discriminate|]; intros (H1 & _);
      (specialize (Hp [] (flat_map (pip_comps old) rpips)); rewrite Ep in Hp;
       destruct Hp as [_ Hp]; specialize (Hp (conj H1 eq_refl)); discriminate).
    pose proof (proj1 (Hp [] comps) Ep) as [Fp ->]. cbn [app] in *.
    set (cs := set_of (flat_map (pip_comps old) rpips)).
    assert (Hcs : forall cn, In cn cs <-> exists ps, In ps rpips /\ In cn (pip_comps old ps)).
    { intros cn. unfold cs. rewrite set_of_In, in_flat_map. tauto. }
    pose proof (fun acc s' => forR_acc (check_comp old new) _ _ cs
                 (fun acc a _ => check_comp_spec acc a) acc s') as Hc.
    destruct (forR (check_comp old new) [] cs) as [[drvs|r]|e] eqn:Ec.
    2,3: split; [discriminate|]; intros (_ & H2 & _);
      (specialize (Hc [] (flat_map (comp_drvs old) cs)); rewrite Ec in Hc;
       destruct Hc as [_ Hc];
       assert (HF : Forall (good_comp old new) cs)
         by (apply Forall_forall; intros cn Hcn; apply Hcs in Hcn as (ps & ? & ?); eauto);
       specialize (Hc (conj HF eq_refl)); discriminate).
    pose proof (proj1 (Hc [] drvs) Ec) as [Fc ->]. cbn [app] in *.
    set (ds := set_of (flat_map (comp_drvs old) cs)).
    assert (Hds : forall dn, In dn ds <-> exists cn, In cn cs /\ In dn (comp_drvs old cn)).
    { intros dn. unfold ds. rewrite set_of_In, in_flat_map. tauto. }
    pose proof (forR_drv ds) as Hdr. rewrite Forall_forall in Fc.
    destruct (forR (check_drv old new) tt ds) as [[[]|r]|e] eqn:Ed.
    - split; auto. intros _. split; auto. split.
      + intros ps cn H1 H2. apply Fc, Hcs. eauto.
      + intros ps cn dn H1 H2 H3. pose proof (proj1 Hdr eq_refl) as HF.
        rewrite Forall_forall in HF. apply HF, Hds. exists cn. split; auto. apply Hcs. eauto.
    - split; [discriminate|]. intros (_ & _ & H3).
      assert (HF : Forall (good_drv old new) ds).
      { apply Forall_forall. intros dn Hdn. apply Hds in Hdn as (cn & Hcn & Hdn).
        apply Hcs in Hcn as (ps & ? & ?). eauto. }
      apply Hdr in HF. discriminate.
    - split; [discriminate|]. intros (_ & _ & H3).
      assert (HF : Forall (good_drv old new) ds).
      { apply Forall_forall. intros dn Hdn. apply Hds in Hdn as (cn & Hcn & Hdn).
        apply Hcs in Hcn as (ps & ? & ?). eauto. }
      apply Hdr in HF. discriminate.
  Qed.

  Lemma keeps_iff pips rpips :
    (forall ps, In ps rpips <-> In ps pips /\ exists id, p_jobid ps = Some id) ->
    (keeps pips old new <->
     Forall (good_pip old new) rpips /\
     (forall ps cn, In ps rpips -> In cn (pip_comps old ps) -> good_comp old new cn) /\
     (forall ps cn dn, In ps rpips -> In cn (pip_comps old ps) -> In dn (comp_drvs old cn) ->
        good_drv old new dn)).
  Proof.
    destruct (configured_df d Hd) as (_ & HP & _).
    intros Hr. unfold keeps. split.
    - intros K.
      assert (K' : forall ps, In ps rpips -> exists p p',
        dget (df_pipelines old) (p_name ps) = Some p /\
        dget (df_pipelines new) (p_name ps) = Some p' /\
        (forall role, dget (pp_components p') role = dget (pp_components p) role) /\
        (forall cn, In cn (dvals (pp_components p)) ->
          good_comp old new cn /\ forall dn, In dn (comp_drvs old cn) -> good_drv old new dn)).
      { intros ps Hps. apply Hr in Hps as [Hps [id Hid]].
        destruct (K ps id Hps Hid) as (p & p' & A & B & C & D). exists p, p'.
        split; auto. split; auto. split; auto. intros cn Hcn.
        destruct (HP _ _ A) as [_ HN].
        apply In_dvals in Hcn as [role Hrole]; auto.
        destruct (D role cn Hrole) as (c & c' & E1 & E2 & E3 & E4 & E5 & v & v' & F1 & F2 & F3).
        split; [exists c, c'; auto|]. unfold comp_drvs. rewrite E1.
        intros dn [<-|[]]. exists v, v'. auto. }
      split; [|split].
      + apply Forall_forall. intros ps Hps. destruct (K' ps Hps) as (p & p' & A & B & C & _).
        exists p, p'. auto.
      + intros ps cn Hps Hcn. destruct (K' ps Hps) as (p & p' & A & B & C & D).
        unfold pip_comps in Hcn. rewrite A in Hcn. apply D; auto.
      + intros ps cn dn Hps Hcn Hdn. destruct (K' ps Hps) as (p & p' & A & B & C & D).
        unfold pip_comps in Hcn. rewrite A in Hcn. eapply D; eauto.
    - intros (G1 & G2 & G3) ps id Hps Hid.
      assert (Hin : In ps rpips) by (apply Hr; eauto).
      rewrite Forall_forall in G1. destruct (G1 ps Hin) as (p & p' & A & B & C).
      exists p, p'. split; auto. split; auto. split; auto.
      intros role cn Hrole. destruct (HP _ _ A) as [_ HN].
      assert (Hcn : In cn (pip_comps old ps)).
      { unfold pip_comps. rewrite A. apply In_dvals; eauto. }
      destruct (G2 ps cn Hin Hcn) as (c & c' & E1 & E2 & E3 & E4 & E5).
      exists c, c'. split; auto. split; auto. split; auto. split; auto. split; auto.
      apply (G3 ps cn); auto. unfold comp_drvs. rewrite E1. now left.
  Qed.
End Check.

(** No exception escapes from the checks when occupied pipelines are configured. *)
Lemma reload_check_no_err d new rpips : configured d ->
  (forall ps, In ps rpips -> In (p_name ps) (dkeys (df_pipelines (dm_df d)))) ->
  forall e, reload_check (dm_df d) new rpips <> Err e.
Proof.
  intros Hd Hin e. destruct (configured_df d Hd) as ((HA & HC & _ & _) & HP & _).
  unfold reload_check.
  assert (N1 : forall s e, forR (check_pip (dm_df d) new) s rpips <> Err e).
  { apply forR_no_err. intros s ps e' Hps. unfold check_pip.
    specialize (Hin ps Hps). apply dget_Some_key in Hin as [p Hp]. rewrite Hp.
    destruct (dget (df_pipelines new) (pp_name p)) as [q|]; [|discriminate].
    destruct (dict_eqb _ _ _); discriminate. }
  destruct (forR (check_pip (dm_df d) new) [] rpips) as [[comps|r]|e1] eqn:E1.
  2: discriminate. 2: now destruct (N1 _ _ E1).
  assert (Hcomps : forall cn, In cn comps -> exists c, dget (df_components (dm_df d)) cn = Some c).
  { assert (G : forall l s s', (forall ps, In ps l -> In ps rpips) ->
        forR (check_pip (dm_df d) new) s l = Ok (inl s') ->
        (forall cn, In cn s -> exists c, dget (df_components (dm_df d)) cn = Some c) ->
        forall cn, In cn s' -> exists c, dget (df_components (dm_df d)) cn = Some c).
    { induction l as [|ps l IH]; intros s s' Hl Hf Hs cn Hcn; cbn in Hf.
      - injection Hf as <-. auto.
      - destruct (check_pip (dm_df d) new s ps) as [[s1|r]|e2] eqn:Ec; try discriminate.
        eapply IH; [|exact Hf| |exact Hcn]; [intros; apply Hl; now right|].
        intros cn1 Hcn1. unfold check_pip in Ec.
        destruct (dget (df_pipelines (dm_df d)) (p_name ps)) as [p|] eqn:Ep; [|discriminate].
        destruct (dget (df_pipelines new) (pp_name p)); [|discriminate].
        destruct (dict_eqb _ _ _); [|discriminate]. injection Ec as <-.
        apply in_app_iff in Hcn1 as [Hcn1|Hcn1]; auto.
        destruct (HP _ _ Ep) as [_ HN].
        apply In_dvals in Hcn1 as [role Hrole]; auto. eapply HA; eauto. }
    eapply (G rpips []); eauto. intros cn []. }
  assert (N2 : forall s e, forR (check_comp (dm_df d) new) s (set_of comps) <> Err e).
  { apply forR_no_err. intros s cn e' Hcn. unfold check_comp.
    rewrite set_of_In in Hcn. destruct (Hcomps cn Hcn) as [c Hc]. rewrite Hc.
    destruct (dget (df_components new) cn) as [q|]; [|discriminate].
    destruct (_ && _ && _ && _); discriminate. }
  destruct (forR (check_comp (dm_df d) new) [] (set_of comps)) as [[drvs|r]|e1] eqn:E2.
  2: discriminate. 2: now destruct (N2 _ _ E2).
  assert (Hdrvs : forall dn, In dn drvs -> exists v, dget (df_drivers (dm_df d)) dn = Some v).
  { assert (G : forall l s s',
        forR (check_comp (dm_df d) new) s l = Ok (inl s') ->
        (forall dn, In dn s -> exists v, dget (df_drivers (dm_df d)) dn = Some v) ->
        forall dn, In dn s' -> exists v, dget (df_drivers (dm_df d)) dn = Some v).
    { induction l as [|cn l IH]; intros s s' Hf Hs dn Hdn; cbn in Hf.
      - injection Hf as <-. auto.
      - destruct (check_comp (dm_df d) new s cn) as [[s1|r]|e2] eqn:Ec; try discriminate.
        eapply IH; [exact Hf| |exact Hdn].
        intros dn1 Hdn1. unfold check_comp in Ec.
        destruct (dget (df_components (dm_df d)) cn) as [c|] eqn:Ep; [|discriminate].
        destruct (dget (df_components new) cn); [|discriminate].
        destruct (_ && _ && _ && _); [|discriminate]. injection Ec as <-.
        apply in_app_iff in Hdn1 as [Hdn1|[<-|[]]]; auto.
        destruct (HC _ _ Ep) as (_ & _ & v & Hv & _). eauto. }
    eapply (G (set_of comps) []); eauto. intros dn []. }
  assert (N3 : forall s e, forR (check_drv (dm_df d) new) s (set_of drvs) <> Err e).
  { apply forR_no_err. intros s dn e' Hdn. unfold check_drv.
    rewrite set_of_In in Hdn. destruct (Hdrvs dn Hdn) as [v Hv]. rewrite Hv.
    destruct (dget (df_drivers new) dn) as [q|]; [|discriminate].
    destruct (dict_eqb _ _ _); discriminate. }
  destruct (forR (check_drv (dm_df d) new) tt (set_of drvs)) as [[[]|r]|e1] eqn:E3; try discriminate.
  now destruct (N3 _ _ E3).
Qed.

(** A refusal is a failure reply. *)
Lemma reload_check_refusal old new rpips r :
  reload_check old new rpips = Ok (Some r) -> r_ok r = false.
Proof.
  unfold reload_check.
  destruct (forR (check_pip old new) [] rpips) as [[comps|r1]|e1] eqn:E1; try discriminate.
  - destruct (forR (check_comp old new) [] (set_of comps)) as [[drvs|r1]|e1] eqn:E2; try discriminate.
    + destruct (forR (check_drv old new) tt (set_of drvs)) as [[u|r1]|e1] eqn:E3; try discriminate.
      intros E; injection E as <-. revert E3. apply (forR_fail _ (fun r => r_ok r = false)).
      intros s a r0 _. unfold check_drv.
      destruct (dget (df_drivers new) a), (dget (df_drivers old) a); try discriminate.
      * destruct (dict_eqb _ _ _); [discriminate|]. intros F; injection F as <-; auto.
      * intros F; injection F as <-; auto.
    + intros E; injection E as <-. revert E2. apply (forR_fail _ (fun r => r_ok r = false)).
      intros s a r0 _. unfold check_comp.
      destruct (dget (df_components old) a), (dget (df_components new) a); try discriminate.
      * destruct (_ && _ && _ && _); [discriminate|]. intros F; injection F as <-; auto.
      * intros F; injection F as <-; auto.
  - intros E; injection E as <-. revert E1. apply (forR_fail _ (fun r => r_ok r = false)).
    intros s a r0 _. unfold check_pip.
    destruct (dget (df_pipelines old) (p_name a)) as [p|]; try discriminate.
    destruct (dget (df_pipelines new) (pp_name p)).
    + destruct (dict_eqb _ _ _); [discriminate|]. intros F; injection F as <-; auto.
    + intros F; injection F as <-; auto.
Qed.

(** ** Running reload *)
Lemma run_read_daemon s port w :
  run exec (read_daemon s port) w = (Ok (load_daemon (w_files w) s port), w).
Proof.
  unfold read_daemon. rewrite run_bind, run_act. cbn [exec].
  unfold load_daemon. destruct (cf_settings (w_files w)) as [st|] eqn:E; [|reflexivity].
  rewrite run_bind, run_act. cbn [exec]. cbn. reflexivity.
Qed.

Definition busy (w : world) : list pipstate :=
  filter (fun p => Bool.eqb (is_some (p_jobid p)) true) (w_pips w).

Lemma busy_In w ps : In ps (busy w) <-> In ps (w_pips w) /\ exists id, p_jobid ps = Some id.
Proof.
  unfold busy. rewrite filter_In. destruct (p_jobid ps) eqn:E; cbn.
  - split; intros [H _]; split; eauto.
  - split; [intros [_ H]; discriminate|intros [_ [id H]]; discriminate].
Qed.

Lemma run_cmd_reload d w :
  run exec (cmd_reload d) w =
  match load_daemon (w_files w) (dm_status d) (dm_port d) with
  | Err _ => (Ok (mkReply false MParseError RNone), w)
  | Ok nd =>
      match reload_check (dm_df d) (dm_df nd) (busy w) with
      | Err e => (Err e, w)
      | Ok (Some r) => (Ok r, w)
      | Ok None =>
          match w_daemon w with
          | None => (Err Blocked, w)
          | Some d0 => (Ok (mkReply true MReloaded (RDaemon nd)),
                        set_daemon w (Some (with_config d0 (dm_settings nd) (dm_df nd))))
          end
      end
  end.
Proof.
  unfold cmd_reload. rewrite run_bind, run_read_daemon.
  destruct (load_daemon _ _ _) as [nd|e]; [|reflexivity].
  rewrite run_bind, run_act. cbn [exec]. fold (busy w).
  rewrite run_bind, run_lift.
  destruct (reload_check _ _ _) as [[r|]|e]; [reflexivity| |reflexivity].
  rewrite run_bind, run_act. cbn [exec]. destruct (w_daemon w); reflexivity.
Qed.

Lemma load_status cf s port nd : load_daemon cf s port = Ok nd ->
  dm_status nd = s /\ dm_port nd = port.
Proof. intros H. apply load_daemon_inv in H as (? & ? & ? & ? & _ & _ & _ & _ & ->). auto. Qed.

Lemma run_tomato_reload port d w : w_daemon w = Some d ->
  run exec (tomato_reload port) w =
  match cf_settings (w_files w) with
  | None => (Ok (mkReply false MNoSettings RNone), w)
  | Some _ =>
      match load_daemon (w_files w) (dm_status d) (dm_port d) with
      | Err _ => (Ok (mkReply false MParseError RNone), w)
      | Ok nd =>
          match reload_check (dm_df d) (dm_df nd) (busy w) with
          | Err e => (Err e, w)
          | Ok (Some r) => (Ok r, w)
          | Ok None => (Ok (mkReply true (MReloadedFrom port) (RDaemon nd)),
                        set_daemon w (Some nd))
          end
      end
  end.
Proof.
  intros Ew. unfold tomato_reload. rewrite run_bind, run_act. cbn [exec].
  destruct (cf_settings (w_files w)) as [st|]; [|reflexivity].
  unfold with_daemon. rewrite run_bind, run_act. cbn [exec]. rewrite Ew.
  rewrite run_bind, run_act. cbn [exec]. rewrite Ew.
  rewrite run_bind, run_cmd_reload, Ew.
  destruct (load_daemon _ _ _) as [nd|e] eqn:El; [|reflexivity].
  destruct (reload_check _ _ _) as [[r|]|e] eqn:Ec; [| |reflexivity].
  - apply reload_check_refusal in Ec. cbn. now rewrite Ec.
  - cbn. destruct (load_status _ _ _ _ El) as [E1 E2]. unfold with_config.
    rewrite <- E1, <- E2. destruct nd; reflexivity.
Qed.

Lemma run_tomato_reload_down port w : w_daemon w = None ->
  exists r, run exec (tomato_reload port) w = (Ok r, w) /\ r_ok r = false.
Proof.
  intros Ew. unfold tomato_reload. rewrite run_bind, run_act. cbn [exec].
  destruct (cf_settings (w_files w)) as [st|]; [|eexists; split; reflexivity].
  unfold with_daemon. rewrite run_bind, run_act. cbn [exec]. rewrite Ew.
  eexists; split; reflexivity.
Qed.

Lemma new_configured w s port nd : wf_files (w_files w) ->
  load_daemon (w_files w) s port = Ok nd -> configured nd.
Proof.
  intros Hwf H. destruct (load_status _ _ _ _ H) as [<- <-]. exists (w_files w). auto.
Qed.

Lemma reload_keeps port w d r w' :
  w_daemon w = Some d -> configured d -> wf_files (w_files w) ->
  run exec (tomato_reload port) w = (Ok r, w') -> r_ok r = true ->
  exists d', w_daemon w' = Some d' /\ keeps (w_pips w) (dm_df d) (dm_df d').
Proof.
  intros Ew Hd Hwf H Hr. rewrite (run_tomato_reload port d w Ew) in H.
  destruct (cf_settings _) as [st|]; [|injection H as <- <-; discriminate].
  destruct (load_daemon _ _ _) as [nd|e] eqn:El; [|injection H as <- <-; discriminate].
  pose proof (new_configured _ _ _ _ Hwf El) as Hnd.
  destruct (reload_check _ _ _) as [[r'|]|e] eqn:Ec; [| |discriminate].
  - injection H as <- <-. apply reload_check_refusal in Ec. congruence.
  - injection H as <- <-. exists nd. split; [reflexivity|].
    apply (keeps_iff d nd Hd (w_pips w) (busy w) (busy_In w)).
    now apply (reload_check_keeps d nd Hd Hnd).
Qed.

Lemma reload_failed port w x w' :
  run exec (tomato_reload port) w = (x, w') ->
  (forall r, x = Ok r -> r_ok r = false) -> w' = w.
Proof.
  intros H Hx. destruct (w_daemon w) as [d|] eqn:Ew.
  - rewrite (run_tomato_reload port d w Ew) in H.
    destruct (cf_settings _) as [st|]; [|now injection H as _ <-].
    destruct (load_daemon _ _ _) as [nd|e]; [|now injection H as _ <-].
    destruct (reload_check _ _ _) as [[r'|]|e]; [now injection H as _ <-| |now injection H as _ <-].
    injection H as <- _. specialize (Hx _ eq_refl). discriminate.
  - destruct (run_tomato_reload_down port w Ew) as (r & Er & _). congruence.
Qed.

Lemma reload_succeeded port w r w' :
  run exec (tomato_reload port) w = (Ok r, w') -> r_ok r = true ->
  exists d nd, w_daemon w = Some d /\
    load_daemon (w_files w) (dm_status d) (dm_port d) = Ok nd /\
    w' = set_daemon w (Some nd).
Proof.
  intros H Hr. destruct (w_daemon w) as [d|] eqn:Ew.
  - rewrite (run_tomato_reload port d w Ew) in H.
    destruct (cf_settings _) as [st|]; [|injection H as <- <-; discriminate].
    destruct (load_daemon _ _ _) as [nd|e] eqn:El; [|injection H as <- <-; discriminate].
    destruct (reload_check _ _ _) as [[r'|]|e] eqn:Ec; [| |discriminate].
    + injection H as <- <-. apply reload_check_refusal in Ec. congruence.
    + injection H as <- <-. exists d, nd. auto.
  - destruct (run_tomato_reload_down port w Ew) as (r' & Er & Hr'). congruence.
Qed.

Lemma reload_accepts port w d nd :
  w_daemon w = Some d -> configured d -> wf_files (w_files w) ->
  load_daemon (w_files w) (dm_status d) (dm_port d) = Ok nd ->
  keeps (w_pips w) (dm_df d) (dm_df nd) ->
  exists r, run exec (tomato_reload port) w = (Ok r, set_daemon w (Some nd)) /\ r_ok r = true.
Proof.
  intros Ew Hd Hwf El HK. pose proof (new_configured _ _ _ _ Hwf El) as Hnd.
  rewrite (run_tomato_reload port d w Ew).
  assert (Hst : exists st, cf_settings (w_files w) = Some st).
  { apply load_daemon_inv in El as (st & _ & _ & _ & E & _). eauto. }
  destruct Hst as [st ->]. rewrite El.
  apply (keeps_iff d nd Hd (w_pips w) (busy w) (busy_In w)) in HK.
  apply (reload_check_keeps d nd Hd Hnd) in HK. rewrite HK.
  eexists. split; reflexivity.
Qed.

Lemma reload_answers port w d :
  w_daemon w = Some d -> configured d ->
  occupied_configured (w_pips w) (dm_df d) ->
  exists r w', run exec (tomato_reload port) w = (Ok r, w').
Proof.
  intros Ew Hd Ho. rewrite (run_tomato_reload port d w Ew).
  destruct (cf_settings _) as [st|]; [|eauto].
  destruct (load_daemon _ _ _) as [nd|e] eqn:El; [|eauto].
  destruct (reload_check _ _ _) as [[r'|]|e] eqn:Ec; [eauto|eauto|].
  exfalso. revert Ec. apply reload_check_no_err; auto.
  intros ps Hps. apply busy_In in Hps as [H [id E]]. eapply Ho; eauto.
Qed.

(** ** Starting the daemon *)
Lemma run_boot_driver u n w :
  run exec (boot_driver u n) w =
  (Ok tt, match get_drv (w_drvs w) n with
          | Some _ => w
          | None => set_drvs w (w_drvs w ++ [drv_default n])
          end).
Proof.
  unfold boot_driver. rewrite run_bind, run_act. cbn [exec].
  destruct (get_drv (w_drvs w) n) as [v|] eqn:E; [reflexivity|].
  rewrite run_bind. unfold insert_drv. rewrite run_bind, run_act. cbn [exec dv_name drv_default].
  rewrite E. rewrite run_act. cbn [exec w_drvs set_drvs]. rewrite get_drv_app, E.
  cbn [dv_name drv_default]. rewrite String.eqb_refl. reflexivity.
Qed.

Lemma run_boot_pipeline u n w :
  run exec (boot_pipeline u n) w =
  (Ok tt, match get_pip (w_pips w) n with
          | Some _ => w
          | None => set_pips w (w_pips w ++ [pip_default n])
          end).
Proof.
  unfold boot_pipeline. rewrite run_bind, run_act. cbn [exec].
  destruct (get_pip (w_pips w) n) as [v|] eqn:E; [reflexivity|].
  rewrite run_bind. unfold insert_pip. rewrite run_bind, run_act. cbn [exec p_name pip_default].
  rewrite E. rewrite run_act. cbn [exec w_pips set_pips]. rewrite get_pip_app, E.
  cbn [p_name pip_default]. rewrite String.eqb_refl. reflexivity.
Qed.

Lemma completed_nil {A} (name : A -> string) dflt l : completed name dflt [] l l.
Proof.
  exists []. rewrite app_nil_r. split; auto. split; [constructor|].
  intros a. split; [intros []|intros (n & [] & _)].
Qed.

Lemma completed_snoc_old {A} (name : A -> string) dflt names l l' n :
  (forall n, name (dflt n) = n) ->
  completed name dflt names l l' -> In n (map name l') ->
  completed name dflt (names ++ [n]) l l'.
Proof.
  intros Hnd (new & -> & Hn & Hi) Hin. exists new. split; auto. split; auto.
  intros a. rewrite Hi. split.
  - intros (m & H1 & H2). exists m. rewrite in_app_iff. auto.
  - intros (m & H1 & H2 & H3). apply in_app_iff in H1 as [H1|[<-|[]]]; [eauto|].
    rewrite map_app, in_app_iff in Hin. destruct Hin as [Hin|Hin]; [contradiction|].
    apply in_map_iff in Hin as (b & Eb & Hb). pose proof Hb as Hb'.
    apply Hi in Hb as (m' & A1 & A2 & A3).
    subst b. rewrite Hnd in Eb. subst m'. exists n. auto.
Qed.

Lemma completed_snoc_new {A} (name : A -> string) dflt names l l' n :
  (forall n, name (dflt n) = n) ->
  completed name dflt names l l' -> ~ In n (map name l') ->
  completed name dflt (names ++ [n]) l (l' ++ [dflt n]).
Proof.
  intros Hnd (new & -> & Hn & Hi) Hin. exists (new ++ [dflt n]).
  rewrite app_assoc. split; auto. rewrite map_app, in_app_iff in Hin. split.
  - rewrite map_app. cbn. rewrite Hnd. apply NoDup_app_snoc; auto.
  - intros a. rewrite in_app_iff, Hi. split.
    + intros [(m & H1 & H2)|[<-|[]]].
      * exists m. rewrite in_app_iff. auto.
      * exists n. rewrite in_app_iff. cbn. split; [auto|]. split; [tauto|reflexivity].
    + intros (m & H1 & H2 & H3). apply in_app_iff in H1 as [H1|[<-|[]]].
      * left. eauto.
      * right. left. auto.
Qed.

Lemma run_boot_drivers names w :
  exists drvs', run exec (forP boot_driver tt names) w = (Ok tt, set_drvs w drvs') /\
    completed dv_name drv_default names (w_drvs w) drvs'.
Proof.
  enough (G : forall post pre w1, completed dv_name drv_default pre (w_drvs w) (w_drvs w1) ->
     (exists l, w1 = set_drvs w l) ->
     exists l, run exec (forP boot_driver tt post) w1 = (Ok tt, set_drvs w l) /\
       completed dv_name drv_default (pre ++ post) (w_drvs w) l).
  { destruct (G names [] w (completed_nil _ _ _)) as (l & H1 & H2).
    - exists (w_drvs w). symmetry. apply set_drvs_same. reflexivity.
    - exists l. auto. }
  induction post as [|n post IH]; intros pre w1 Hc [l ->].
  - exists l. rewrite app_nil_r. auto.
  - rewrite run_forP_cons, run_boot_driver. cbn [w_drvs set_drvs] in *.
    destruct (get_drv l n) as [v|] eqn:E.
    + destruct (IH (pre ++ [n]) (set_drvs w l)) as (l' & H1 & H2).
      * cbn. apply completed_snoc_old; auto. apply get_drv_In in E as [Hi <-]. now apply in_map.
      * eauto.
      * exists l'. rewrite <- app_assoc in H2. auto.
    + destruct (IH (pre ++ [n]) (set_drvs w (l ++ [drv_default n]))) as (l' & H1 & H2).
      * cbn. apply completed_snoc_new; auto. now apply get_drv_None.
      * eauto.
      * exists l'. rewrite <- app_assoc in H2. auto.
Qed.

Lemma run_boot_pipelines names w :
  exists pips', run exec (forP boot_pipeline tt names) w = (Ok tt, set_pips w pips') /\
    completed p_name pip_default names (w_pips w) pips'.
Proof.
  enough (G : forall post pre w1, completed p_name pip_default pre (w_pips w) (w_pips w1) ->
     (exists l, w1 = set_pips w l) ->
     exists l, run exec (forP boot_pipeline tt post) w1 = (Ok tt, set_pips w l) /\
       completed p_name pip_default (pre ++ post) (w_pips w) l).
  { destruct (G names [] w (completed_nil _ _ _)) as (l & H1 & H2).
    - exists (w_pips w). symmetry. apply set_pips_same. reflexivity.
    - exists l. auto. }
  induction post as [|n post IH]; intros pre w1 Hc [l ->].
  - exists l. rewrite app_nil_r. auto.
  - rewrite run_forP_cons, run_boot_pipeline. cbn [w_pips set_pips] in *.
    destruct (get_pip l n) as [v|] eqn:E.
    + destruct (IH (pre ++ [n]) (set_pips w l)) as (l' & H1 & H2).
      * cbn. apply completed_snoc_old; auto. apply get_pip_In in E as [Hi <-]. now apply in_map.
      * eauto.
      * exists l'. rewrite <- app_assoc in H2. auto.
    + destruct (IH (pre ++ [n]) (set_pips w (l ++ [pip_default n]))) as (l' & H1 & H2).
      * cbn. apply completed_snoc_new; auto. now apply get_pip_None.
      * eauto.
      * exists l'. rewrite <- app_assoc in H2. auto.
Qed.

Lemma start_spec port w :
  w_daemon w = None ->
  match load_daemon (w_files w) Dbootstrap port with
  | Err e => run exec (daemon_start port) w = (Err e, w)
  | Ok d => exists drvs' pips',
      run exec (daemon_start port) w =
        (Ok tt, set_daemon (set_pips (set_drvs w drvs') pips') (Some (with_status d Drunning))) /\
      completed dv_name drv_default (dkeys (df_drivers (dm_df d))) (w_drvs w) drvs' /\
      completed p_name pip_default (dkeys (df_pipelines (dm_df d))) (w_pips w) pips'
  end.
Proof.
  intros Ew. unfold daemon_start. rewrite run_bind, run_read_daemon.
  destruct (load_daemon (w_files w) Dbootstrap port) as [d|e].
  - rewrite run_bind. cbn [lift run]. rewrite run_bind. unfold bootstrap.
    rewrite run_bind. destruct (run_boot_drivers (dkeys (df_drivers (dm_df d))) w) as (l1 & -> & H1).
    rewrite run_bind.
    destruct (run_boot_pipelines (dkeys (df_pipelines (dm_df d))) (set_drvs w l1)) as (l2 & -> & H2).
    cbn. rewrite Ew. cbn.
    exists l1, l2. auto.
  - rewrite run_bind. reflexivity.
Qed.

(** ** Stop *)
Lemma run_tomato_stop port w d : w_daemon w = Some d ->
  run exec (tomato_stop port) w =
  match busy w with
  | [] => (Ok (mkReply true (MClosed port) RNone), set_daemon w (Some (with_status d Dstop)))
  | l => (Ok (mkReply false (MJobsRunning (List.length l)) (RPips l)), w)
  end.
Proof.
  intros Ew. unfold tomato_stop, with_daemon.
  rewrite run_bind, run_act. cbn [exec]. rewrite Ew.
  rewrite run_bind, run_act. cbn [exec]. rewrite Ew.
  rewrite run_bind. unfold cmd_stop. rewrite run_bind, run_act. cbn [exec]. fold (busy w).
  destruct (busy w) as [|p l] eqn:E; cbn [List.length Nat.ltb Nat.leb].
  - rewrite run_bind, run_act. cbn [exec]. rewrite Ew. reflexivity.
  - reflexivity.
Qed.

Lemma stop_spec port w :
  exists r w', run exec (tomato_stop port) w = (Ok r, w') /\
  (r_ok r = true <-> (exists d, w_daemon w = Some d) /\
                     (forall ps, In ps (w_pips w) -> p_jobid ps = None)) /\
  (r_ok r = true -> exists d, w_daemon w = Some d /\
                     w' = set_daemon w (Some (with_status d Dstop))) /\
  (r_ok r = false -> w' = w /\
     (w_daemon w <> None ->
      exists l, r_data r = RPips l /\
        forall ps, In ps l <-> In ps (w_pips w) /\ exists id, p_jobid ps = Some id)).
Proof.
  destruct (w_daemon w) as [d|] eqn:Ew.
  - rewrite (run_tomato_stop port w d Ew). pose proof (busy_In w) as HB.
    destruct (busy w) as [|p l] eqn:Eb.
    + do 2 eexists. split; [reflexivity|]. cbn. split; [|split; [eauto|discriminate]].
      split; auto. intros _. split; eauto. intros ps Hps.
      destruct (p_jobid ps) eqn:Ej; auto. exfalso. apply (HB ps). split; eauto.
    + do 2 eexists. split; [reflexivity|]. cbn. split; [|split; [discriminate|]].
      * split; [discriminate|]. intros [_ H].
        destruct (proj1 (HB p) (or_introl eq_refl)) as [Hp [id Hid]].
        specialize (H p Hp). congruence.
      * intros _. split; auto. intros _. eexists. split; [reflexivity|]. exact HB.
  - unfold tomato_stop, with_daemon. rewrite run_bind, run_act. cbn [exec]. rewrite Ew.
    do 2 eexists. split; [reflexivity|]. cbn. split; [|split; [discriminate|]].
    + split; [discriminate|]. intros [[d H] _]. discriminate.
    + intros _. split; auto. congruence.
Qed.

Lemma reload_keeps_records port w r w' :
  run exec (tomato_reload port) w = (Ok r, w') ->
  forall pn p, get_pip (w_pips w) pn = Some p -> get_pip (w_pips w') pn = Some p.
Proof.
  intros H pn p Hp. destruct (r_ok r) eqn:Er.
  - destruct (reload_succeeded _ _ _ _ H Er) as (d & nd & _ & _ & ->). exact Hp.
  - apply reload_failed in H; [now subst|]. intros r' E. injection E as <-. exact Er.
Qed.
