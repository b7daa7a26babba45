(** * SysProofs4: pipelines that hold a job, in serial executions (C25) *)
From Coq Require Import List String Ascii ZArith Bool Sorted Lia.
From Verif Require Import Base PyStr BaseFacts Types ConfigModel Prog ProgFacts World WorldFacts Replies
  CmdModel KetchupModel TomatoModel JobModel PipModel DrvModel SysModel RGFacts SysOps
  SpecQueue SpecSys RGX SysProofs SysProofs2.
Import ListNotations.
Open Scope list_scope.
Open Scope Z_scope.

Definition I25 (w : world) : Prop := pip_names w /\ pips_well w.
(** What processes may do behind the back of commands and managers. *)
Definition D25 (w w' : world) : Prop :=
  jobs_kept w w' /\
  forall p', In p' (w_pips w') -> exists p, In p (w_pips w) /\ p_name p' = p_name p /\
    p_sample p' = p_sample p /\ (p_jobid p = None -> p_jobid p' = None).
(** What commands rely on: free pipelines stay free. *)
Definition C25 (w w' : world) : Prop := jobs_kept w w' /\
  forall p', In p' (w_pips w') -> p_jobid p' = None \/
    exists p, In p (w_pips w) /\ p_name p' = p_name p /\ (p_jobid p = None -> p_jobid p' = None).
Definition R25 (k : kind) (w w' : world) : Prop :=
  match k with KJobMgr => D25 w w' | KCmd => C25 w w' | _ => True end.
Definition G25 (k : kind) (o : op) (w : world) : Prop := may k o /\ pips_well (snd (exec o w)).
Definition sep25 (a b : kind) : bool :=
  match a, b with KJobMgr, (KJobMgr | KCmd) | KCmd, KJobMgr => false | _, _ => true end.

Lemma D25_refl w : D25 w w.
Proof. split; [apply kept_refl|]. intros p H. exists p. auto. Qed.
Lemma D25_trans a b c : D25 a b -> D25 b c -> D25 a c.
Proof.
  intros [K1 P1] [K2 P2]. split; [eapply kept_trans; eauto|].
  intros p Hp. destruct (P2 p Hp) as (q & Hq & N1 & S1 & J1). destruct (P1 q Hq) as (r & Hr & N2 & S2 & J2).
  exists r. split; [exact Hr|]. split; [congruence|]. split; [congruence|auto].
Qed.
Lemma D25_C25 w w' : D25 w w' -> C25 w w'.
Proof. intros [K P]. split; [exact K|]. intros p Hp. right. destruct (P p Hp) as (q & H1 & H2 & _ & H3). eauto. Qed.
Lemma C25_trans a b c : C25 a b -> C25 b c -> C25 a c.
Proof.
  intros [K1 P1] [K2 P2]. split; [eapply kept_trans; eauto|].
  intros p Hp. destruct (P2 p Hp) as [H|(q & Hq & N1 & J1)]; [auto|].
  destruct (P1 q Hq) as [H|(r & Hr & N2 & J2)]; [auto|]. right. exists r. split; [exact Hr|]. split; [congruence|auto].
Qed.
Lemma D25_pips w w' : jobs_kept w w' -> w_pips w' = w_pips w -> D25 w w'.
Proof. intros K E. split; [exact K|]. rewrite E. intros p H. exists p. auto. Qed.

Lemma holds_kept w w' p : jobs_kept w w' -> holds_well w p -> holds_well w' p.
Proof.
  intros K H i Hi. destruct (H i Hi) as (H1 & j & Hj & Hid & Hs). split; [exact H1|].
  destruct (K j Hj) as (j' & Hj' & (E1 & E2 & _)). exists j'. split; [exact Hj'|]. split; congruence.
Qed.
Lemma well_kept w w' : jobs_kept w w' -> w_pips w' = w_pips w -> pips_well w -> pips_well w'.
Proof.
  intros K E H p Hp Hq. rewrite E in Hp. eapply holds_kept; [exact K|]. apply H; auto.
Qed.

(** An update of the rows named [n]. *)
Lemma well_upd w n n' cs : sql_lit n = Some n' -> pips_well w ->
  (forall p, In p (w_pips w) -> plain n -> p_name p = n -> holds_well w (set_pcols cs p)) ->
  pips_well (set_pips w (upd_pips n' cs (w_pips w))).
Proof.
  intros El H Hn p Hp Hq. unfold set_pips, upd_pips in Hp. cbn in Hp. apply in_map_iff in Hp.
  destruct Hp as (q & <- & Hin).
  destruct (String.eqb_spec (p_name q) n') as [E|E].
  - rewrite set_pcols_name in Hq. assert (Hnn : n = n') by (eapply sql_lit_plain; eauto; congruence).
    apply Hn; [exact Hin|congruence|congruence].
  - apply H; auto.
Qed.
Lemma free_well w p : p_jobid p = None -> holds_well w p.
Proof. intros H i Hi. congruence. Qed.

(** Operations that never make a pipeline ready or change its sample. *)
Definition tame (o : op) : Prop :=
  match o with OPipUpdate _ cs => exists b, cs = [PJobid None; PReady b] | _ => True end.

Lemma tame_well k o w : may k o -> tame o -> pips_well w -> pips_well (snd (exec o w)).
Proof.
  intros Hm Ht H.
  assert (K : jobs_kept w (snd (exec o w))) by (eapply may_kept; eauto).
  revert K. op_cases o; intros K; try exact H; try (eapply well_kept; [exact K|reflexivity|exact H]).
  - intros q Hq Hp. unfold set_pips in Hq. cbn in Hq. apply in_app_iff in Hq.
    destruct Hq as [Hq|[<-|[]]]; [apply H; auto|].
    apply free_well. destruct Hm as [[]|Hm]. destruct k; try contradiction. destruct Hm as [m ->]. reflexivity.
  - destruct Ht as [b ->]. eapply well_upd; eauto. intros p _ _ _. apply free_well. reflexivity.
Qed.

(** Processes. *)
Lemma process_tame k o : process k = true -> may k o -> tame o.
Proof.
  intros Hk Hm. destruct o; try exact I. destruct Hm as [[]|Hm]. destruct k; try discriminate; [|contradiction].
  destruct Hm as (_ & b & ->). exists b. reflexivity.
Qed.
Definition outside (k : kind) : bool := match k with KCmd | KJobMgr => false | _ => true end.
Lemma outside_D25 k o w : outside k = true -> may k o -> D25 w (snd (exec o w)).
Proof.
  intros Hk Hm. assert (K : jobs_kept w (snd (exec o w))) by (eapply may_kept; eauto). revert K.
  op_cases o; intros K; try (apply D25_pips; [exact K|reflexivity]).
  - destruct Hm as [[]|Hm]. destruct k; try discriminate; contradiction.
  - assert (X : exists b, cs = [PJobid None; PReady b]).
    { destruct Hm as [[]|Hm]. destruct k; try discriminate; try contradiction; cbn in Hm; [eauto|apply Hm]. }
    destruct X as [b ->]. split; [exact K|]. intros p Hp. unfold set_pips, upd_pips in Hp. cbn in Hp.
    apply in_map_iff in Hp. destruct Hp as (q & <- & Hq). exists q. split; [exact Hq|].
    destruct (String.eqb (p_name q) s); auto.
Qed.
Lemma cmd_C25 o w : may KCmd o -> C25 w (snd (exec o w)).
Proof.
  intros Hm. assert (K : jobs_kept w (snd (exec o w))) by (eapply may_kept; eauto). revert K.
  op_cases o; intros K; try (apply D25_C25, D25_pips; [exact K|reflexivity]); (split; [exact K|]).
  - intros q Hq. unfold set_pips in Hq. cbn in Hq. apply in_app_iff in Hq.
    destruct Hq as [Hq|[<-|[]]]; [right; eauto|]. left. destruct Hm as [[]|[m ->]]. reflexivity.
  - intros q Hq. unfold set_pips, upd_pips in Hq. cbn in Hq. apply in_map_iff in Hq.
    destruct Hq as (q0 & <- & Hq). right. exists q0. split; [exact Hq|].
    destruct (String.eqb (p_name q0) s); [|auto]. split; [apply set_pcols_name|].
    destruct Hm as [[]|Hm]. destruct Hm as [(x & ->)|[-> | ->]]; auto.
Qed.

(** Programs whose operations are tame. *)
Lemma ok25_tame k {A} (p : pgm A) (Q : A -> world -> Prop) : forall w,
  all_ops (may k) p -> all_ops tame p -> (forall a w', Q a w') ->
  okq exec (xrely I25 R25 k) (G25 k) (fun _ => True) p Q w.
Proof.
  induction p as [a|e|o c IH]; intros w H1 H2 HQ; cbn; auto.
  intros w1 [[Hn Hi] _]. destruct H1 as [Hm H1]. destruct H2 as [Ht H2].
  split; [split; [exact Hm|eapply tame_well; eauto]|].
  destruct (exec o w1) as [r w2]. apply IH; auto.
Qed.

Section C25.
  Context (k : kind) (Dk : world -> world -> Prop)
          (Hk : forall w w', R25 k w w' -> Dk w w') (HD : forall w w', D25 w w' -> Dk w w').
  Let R := xrely I25 R25 k.
  Let G := G25 k.
  Let E := fun _ : world => True.

  Lemma R_D25 a b : R a b -> I25 b /\ Dk a b.
  Proof. intros [Hi Hr]. auto. Qed.

  (** An operation that does not write to pipelines keeps a stable fact. *)
  Lemma q25 (o : op) (Q : resp o -> world -> Prop) (J : world -> Prop) w :
    may k o -> match o with OPipUpdate _ _ | OPipInsert _ => False | _ => True end ->
    (forall a b, J a -> Dk a b -> J b) ->
    (forall x w', J w' -> Q x w') -> J w -> okq exec R G E (act o) Q w.
  Proof.
    intros Hm Ho Hj HQ H0. apply okq_act. intros w1 Hr. destruct (R_D25 _ _ Hr) as [[Hn Hi] Hd].
    split; [split; [exact Hm|eapply tame_well; eauto; destruct o; try exact I; contradiction]|].
    assert (D : Dk w1 (snd (exec o w1))).
    { apply HD, D25_pips; [eapply may_kept; eauto|]. clear - Ho. op_cases o; try reflexivity; contradiction. }
    assert (J2 : J (snd (exec o w1))) by (eapply Hj; [|exact D]; eapply Hj; eauto).
    destruct (exec o w1) as [[x|e] w2]; [|exact I]. apply HQ. exact J2.
  Qed.

  (** The pipelines named [n] are free. *)
  Definition idle (n : string) (w : world) : Prop := plain n ->
    forall p, In p (w_pips w) -> p_name p = n -> p_jobid p = None.
  Lemma idle_C25 n a b : idle n a -> C25 a b -> idle n b.
  Proof.
    intros H [_ D] Hp p Hin Hn. destruct (D p Hin) as [X|(q & Hq & N & J)]; [exact X|].
    apply J. apply H; auto. congruence.
  Qed.
End C25.

Section Cmd.
  Let R := xrely I25 R25 KCmd.
  Let G := G25 KCmd.
  Let E := fun _ : world => True.

  Definition cmd_D := R_D25 KCmd C25 (fun _ _ H => H).
  Definition qc25 := q25 KCmd C25 (fun _ _ H => H) D25_C25.

  (** A command changing the ready flag or sample of a free pipeline. *)
  Lemma ok25_update n cs (Q : option pipstate -> world -> Prop) w :
    may KCmd (OPipUpdate n cs) -> (forall p, p_jobid (set_pcols cs p) = p_jobid p) -> idle n w ->
    (forall x w', Q x w') -> okq exec R G E (act (OPipUpdate n cs)) (fun _ w' => okq exec R G E (act (OPipGet n)) Q w') w.
  Proof.
    intros Hm Hc Hidle HQ. apply okq_act. intros w1 Hr. destruct (cmd_D _ _ Hr) as [[Hn Hi] Hd].
    pose proof (idle_C25 _ _ _ Hidle Hd) as H1.
    assert (W : pips_well (snd (exec (OPipUpdate n cs) w1))).
    { cbn. destruct (sql_lit n) as [n'|] eqn:El; [|exact Hi]. eapply well_upd; eauto.
      intros p Hin Hp Hpn. apply free_well. rewrite Hc. apply H1; auto. }
    split; [split; [exact Hm|exact W]|]. cbn [exec].
    destruct (sql_lit n) as [n'|]; [|exact I].
    apply qc25 with (J := fun _ => True); auto; try exact I; try (left; exact I; fail).
  Qed.

  (** What reading a row tells. *)
  Lemma ok25_get n (Q : option pipstate -> world -> Prop) w :
    (forall w', idle n w' -> Q None w') ->
    (forall p w', p_name p = n -> (p_jobid p = None \/ p_sample p = None -> idle n w') -> Q (Some p) w') ->
    okq exec R G E (act (OPipGet n)) Q w.
  Proof.
    intros H1 H2. apply okq_act. intros w1 Hr. destruct (cmd_D _ _ Hr) as [[Hn Hi] _].
    split; [split; [left; exact I|exact Hi]|]. cbn [exec].
    destruct (get_pip (w_pips w1) n) as [p|] eqn:Eg.
    - pose proof (get_pip_In _ _ _ Eg) as [Hin Hpn]. apply H2; [exact Hpn|]. intros Hc Hp q Hq Hqn.
      assert (q = p).
      { pose proof (In_get_pip _ _ Hn Hq). pose proof (In_get_pip _ _ Hn Hin). congruence. }
      subst q. destruct Hc as [Hc|Hc]; [exact Hc|]. destruct (p_jobid p) as [i|] eqn:Ej; [|reflexivity].
      destruct (Hi p Hin ltac:(unfold plain in *; congruence) i Ej) as (_ & j & _ & _ & Hs). congruence.
    - apply H1. intros _ q Hq Hqn. apply get_pip_None in Eg. elim Eg. apply in_map_iff. eauto.
  Qed.

  Lemma ok25_upd n cs f w :
    writes_cmd (OPipUpdate n cs) -> (forall p, p_jobid (set_pcols cs p) = p_jobid p) -> idle n w ->
    okq exec R G E (bind (update_pip n cs) (fun p => Ret (f p)) : pgm reply) (fun _ _ => True) w.
  Proof.
    intros Hm Hc Hi. unfold update_pip. q_bind. q_bind.
    apply ok25_update; auto; [right; exact Hm|]. intros; exact I.
  Qed.

  Lemma ok25_with port f w : (forall d w, okq exec R G E (f d) (fun _ _ => True) w) ->
    okq exec R G E (with_daemon port f) (fun _ _ => True) w.
  Proof.
    intros H. unfold with_daemon. q_bind.
    apply qc25 with (J := fun _ => True); auto; try exact I; try (left; exact I; fail).
    intros [d|] w' _; [apply H|exact I].
  Qed.

  Lemma ok25_load port n s w : okq exec R G E (pipeline_load port n s) (fun _ _ => True) w.
  Proof.
    unfold pipeline_load. apply ok25_with. intros d w1. destruct (negb _); [exact I|].
    q_bind. apply ok25_get.
    - intros w2 Hi. apply ok25_upd with (f := fun p' => mkReply true (MLoaded s n) (RPip p'));
        [cbn; eauto|reflexivity|exact Hi].
    - intros [m b i [x|]] w2 Hn Hi; [exact I|].
      apply ok25_upd with (f := fun p' => mkReply true (MLoaded s n) (RPip p'));
        [cbn; eauto|reflexivity|apply Hi; right; reflexivity].
  Qed.
  Lemma ok25_eject port n w : okq exec R G E (pipeline_eject port n) (fun _ _ => True) w.
  Proof.
    unfold pipeline_eject. apply ok25_with. intros d w1. destruct (negb _); [exact I|].
    q_bind. apply ok25_get.
    - intros w2 Hi. exact I.
    - intros p w2 Hn Hi. destruct (p_sample p); [|exact I]. destruct (p_jobid p) eqn:Ej; [exact I|].
      apply ok25_upd with (f := fun p' => mkReply true (MEjected n) (RPip p'));
        [cbn; eauto|reflexivity|apply Hi; auto].
  Qed.
  Lemma ok25_ready port n w : okq exec R G E (pipeline_ready port n) (fun _ _ => True) w.
  Proof.
    unfold pipeline_ready. apply ok25_with. intros d w1. destruct (negb _); [exact I|].
    q_bind. apply ok25_get.
    - intros w2 Hi. exact I.
    - intros p w2 Hn Hi. destruct (p_ready p); [exact I|]. destruct (p_jobid p) eqn:Ej; [exact I|].
      apply ok25_upd with (f := fun p' => mkReply true (MSetReady n) (RPip p'));
        [cbn; eauto|reflexivity|apply Hi; auto].
  Qed.

  (** The other commands do not write to pipelines. *)
  Definition pip_cmd (c : command) : Prop :=
    match c with CmdLoad _ _ _ | CmdEject _ _ | CmdReady _ _ => True | _ => False end.
  Definition no_pip (o : op) : Prop := match o with OPipUpdate _ _ => False | _ => True end.
  Lemma no_pip_cmd c : ~ pip_cmd c -> all_ops no_pip (cmd_pgm c).
  Proof.
    intros Hc.
    destruct c; try (elim Hc; exact I); cbn [cmd_pgm]; unfold some_reply, no_reply; clear Hc;
      unfold daemon_start, bootstrap, boot_driver, boot_pipeline, insert_drv, insert_pip,
        tomato_stop, tomato_reload, cmd_stop, cmd_reload, ketchup_submit, submit, insert_job,
        ketchup_status, jobs_status, ketchup_search, search, ketchup_snapshot, snapshot, snapshot_one,
        merge_netcdfs, ketchup_cancel, cancel, with_daemon, cancel_one, update_job_id, read_daemon;
      repeat (ops_step; cbv beta zeta); exact I.
  Qed.

  Lemma ok25_cmd c w : okq exec R G E (cmd_pgm c) (fun _ _ => True) w.
  Proof.
    assert (H : pip_cmd c \/ ~ pip_cmd c) by (destruct c; cbn; auto).
    destruct H as [H|H].
    - destruct c; try contradiction; cbn [cmd_pgm]; unfold some_reply; q_bind;
        (eapply okq_weaken; [intros; exact I|]); [apply ok25_load|apply ok25_eject|apply ok25_ready].
    - apply ok25_tame; auto; [apply ops_cmd|].
      eapply all_ops_weaken; [|apply no_pip_cmd; exact H]. intros o; destruct o; cbn; auto; contradiction.
  Qed.
End Cmd.

(** ** The job manager *)
Section Mgr.
  Let R := xrely I25 R25 KJobMgr.
  Let G := G25 KJobMgr.
  Let E := fun _ : world => True.

  Definition mgr_D := R_D25 KJobMgr D25 (fun _ _ H => H).
  Definition qm25 := q25 KJobMgr D25 (fun _ _ H => H) (fun _ _ H => H).

  (** The available pipelines are still free and hold the sample they held. *)
  Definition avail25 (avail : dict pipstate) (w : world) : Prop :=
    NoDup (dkeys avail) /\
    forall n ps, plain n -> dget avail n = Some ps ->
    forall p, In p (w_pips w) -> p_name p = n -> p_jobid p = None /\ p_sample p = p_sample ps.
  Definition known (j : job) (w : world) : Prop :=
    exists j', In j' (w_jobs w) /\ j_id j' = j_id j /\ pl_sample (j_payload j') = pl_sample (j_payload j).

  Lemma avail_D25 av a b : avail25 av a -> D25 a b -> avail25 av b.
  Proof.
    intros [H1 H2] [_ D]. split; [exact H1|]. intros n ps Hp Hd p Hin Hn.
    destruct (D p Hin) as (q & Hq & N & S & J).
    destruct (H2 n ps Hp Hd q Hq) as [H3 H4]; [congruence|]. split; [auto|congruence].
  Qed.
  Lemma known_D25 j a b : known j a -> D25 a b -> known j b.
  Proof.
    intros (j1 & H1 & H2 & H3) [K _]. destruct (K j1 H1) as (j2 & H4 & (E1 & E2 & _)).
    exists j2. split; [exact H4|]. split; congruence.
  Qed.

  Lemma ok25_launch d j pn avail ps w :
    avail25 avail w -> known j w -> dget avail pn = Some ps ->
    p_sample ps = Some (pl_sample (j_payload j)) ->
    okq exec R G E (launch d j pn) (fun _ w' => avail25 (ddel avail pn) w') w.
  Proof.
    intros Ha Hj Hd Hs. unfold launch, update_pip, update_job_id.
    set (J := fun w => avail25 avail w /\ known j w).
    assert (JD : forall a b, J a -> D25 a b -> J b).
    { intros a b [H1 H2] D. split; [eapply avail_D25; eauto|eapply known_D25; eauto]. }
    assert (JD' : forall a b, avail25 (ddel avail pn) a -> D25 a b -> avail25 (ddel avail pn) b)
      by (intros; eapply avail_D25; eauto).
    assert (J0 : J w) by (split; auto).
    q_bind. apply qm25 with (J := J); auto; try exact I; try (right; exact I; fail). intros _ w1 J1.
    q_bind. apply okq_lift; [exact I|]. intros pp _.
    q_bind. apply qm25 with (J := J); auto; try exact I; try (right; exact I; fail). intros _ w2 J2.
    q_bind. q_bind. apply okq_act. intros w3 Hr.
    destruct (mgr_D _ _ Hr) as [[Hn Hi] D]. destruct (JD _ _ J2 D) as [J3 K3].
    split.
    { split; [right; cbn; eauto|]. cbn [exec]. destruct (sql_lit pn) as [n'|] eqn:El; [|exact Hi].
      eapply well_upd; eauto. intros p Hin Hp Hpn i Hpi. cbn in Hpi. inversion Hpi. subst i.
      split; [reflexivity|]. destruct (proj2 J3 pn ps Hp Hd p Hin Hpn) as [_ Hps].
      destruct K3 as (j' & H1 & H2 & H3). exists j'. split; [exact H1|]. split; [exact H2|].
      cbn. congruence. }
    cbn [exec]. destruct (sql_lit pn) as [n'|] eqn:El; [|exact I].
    assert (H4 : avail25 (ddel avail pn) (set_pips w3 (upd_pips n' [PJobid (Some (j_id j)); PReady false] (w_pips w3)))).
    { destruct J3 as [Hnd J3]. split; [apply NoDup_ddel; exact Hnd|].
      intros n ps' Hpl Hn' q Hq Hqn. unfold set_pips, upd_pips in Hq. cbn in Hq. apply in_map_iff in Hq.
      destruct Hq as (q0 & <- & Hq0).
      rewrite dget_ddel in Hn' by exact Hnd.
      destruct (String.eqb_spec n pn) as [Ex|Hnpn]; [discriminate|].
      destruct (String.eqb_spec (p_name q0) n') as [Eq|Eq].
      - elim Hnpn. cbn in Hqn. symmetry.
        assert (pn = n') by (eapply sql_lit_plain; eauto; unfold plain in Hpl; congruence). congruence.
      - eapply J3; eauto. }
    apply qm25 with (J := avail25 (ddel avail pn)); auto; try exact I; try (left; exact I; fail). intros _ w5 H5.
    q_bind. apply qm25 with (J := avail25 (ddel avail pn)); auto; try exact I; try (right; exact I; fail). intros _ w6 H6.
    q_bind. apply qm25 with (J := avail25 (ddel avail pn)); auto; try exact I; try (left; exact I; fail). intros t w7 H7.
    q_bind. q_bind. apply qm25 with (J := avail25 (ddel avail pn)); auto; try exact I; try (right; cbn; eauto; fail). intros _ w8 H8.
    apply qm25 with (J := avail25 (ddel avail pn)); auto; try exact I; try (left; exact I; fail).
  Qed.

  Lemma ok25_pass w : okq exec R G E job_pass (fun _ _ => True) w.
  Proof.
    unfold job_pass. q_bind.
    apply qm25 with (J := fun _ => True); auto; try exact I; try (left; exact I; fail).
    intros [d|] w1 _; [|exact I].
    assert (QQ : forall {A} (p : pgm A) (Q' : A -> world -> Prop) w, all_ops quiet p ->
      (forall a w', Q' a w') -> okq exec R G E p Q' w).
    { intros A p Q' w0 Hp HQ. apply ok25_tame; auto.
      - eapply all_ops_weaken; [apply quiet_may|exact Hp].
      - eapply all_ops_weaken; [|exact Hp]. intros o; destruct o; cbn; auto; contradiction. }
    q_bind. apply QQ; [apply quiet_manage|]. intros _ w2.
    q_bind. apply QQ; [apply quiet_check|]. intros m w3.
    unfold action_queued. q_bind. apply okq_act. intros w4 Hr.
    destruct (mgr_D _ _ Hr) as [[Hnd Hi] D].
    split; [split; [left; exact I|exact Hi]|]. cbn [exec].
    q_bind. eapply okq_weaken; [intros a w' _; exact I|].
    eapply okq_forP with (J := fun _ a w => avail25 a w).
    { split; [apply NoDup_by_name; constructor|].
      intros n p Hpl Hd q Hq Hqn. apply by_name_In in Hd. destruct Hd as [[Hp Hpn]|Hd]; [|discriminate].
      apply filter_In in Hp. destruct Hp as [Hp Hb].
      replace q with p; [split; [|reflexivity]; destruct (p_jobid p); [discriminate|reflexivity]|].
      pose proof (In_get_pip _ _ Hnd Hp). pose proof (In_get_pip _ _ Hnd Hq). congruence. }
    intros [id l] r avail w5 H5. unfold action_one. cbn [fst snd].
    q_bind. apply okq_act. intros w6 Hr6. destruct (mgr_D _ _ Hr6) as [[Hnd6 Hi6] D6].
    split; [split; [left; exact I|exact Hi6]|]. cbn [exec].
    destruct (get_job (w_jobs w6) id) as [j|] eqn:Eg; [|exact I].
    assert (K6 : known j w6).
    { apply get_job_In in Eg. exists j. split; [apply Eg|auto]. }
    assert (A6 : avail25 avail w6) by (eapply avail_D25; eauto).
    q_bind.
    eapply okq_weaken; [|eapply okq_forB with (J := fun _ a w => avail25 a w /\ known j w) (K := fun a w => avail25 a w)].
    - intros [a|a] w' H; [apply H|exact H].
    - split; [exact A6|exact K6].
    - intros pn r' a w7 [H7 K7]. unfold try_pip. destruct (dget a pn) as [ps|] eqn:Ed; [|split; auto].
      destruct (p_ready ps && _)%bool eqn:Eb; [|split; auto]. q_bind.
      apply andb_prop in Eb. destruct Eb as [_ Eb].
      assert (Hs : p_sample ps = Some (pl_sample (j_payload j))).
      { destruct (p_sample ps) as [x|]; cbn in Eb; [|discriminate]. apply String.eqb_eq in Eb. congruence. }
      eapply okq_weaken; [|eapply ok25_launch; eauto]. intros u w' H'. exact H'.
  Qed.

  Lemma ok25_pip_pass w : okq exec (xrely I25 R25 KPipMgr) (G25 KPipMgr) E pip_pass (fun _ _ => True) w.
  Proof.
    apply ok25_tame; auto; [apply ops_pip_pass|].
    eapply all_ops_weaken; [|apply ops_pip_pass]. intros o Hm; destruct o; try exact I.
    destruct Hm as [[]|Hm]. cbn in *. eauto.
  Qed.
End Mgr.

Lemma mgr_no_pip (p : pgm (option reply)) : all_ops (may KDrvMgr) p -> all_ops tame p.
Proof.
  apply all_ops_weaken. intros o Hm. destruct o; try exact I. destruct Hm as [[]|[]].
Qed.

Lemma inv25 ls s s' : along commands_apart ls s ->
  rgx_inv I25 R25 G25 (fun _ _ => True) s -> runs ls s = Some s' ->
  rgx_inv I25 R25 G25 (fun _ _ => True) s'.
Proof.
  intros Ha Hi Hr.
  assert (Hp : forall k (p : pgm (option reply)) w, process k = true -> all_ops (may k) p ->
    okq exec (xrely I25 R25 k) (G25 k) (fun _ => True) p (fun _ _ => True) w).
  { intros k p w Hk Hp. apply ok25_tame; auto. eapply all_ops_weaken; [|exact Hp].
    intros o. apply process_tame. exact Hk. }
  eapply rgx_steps with (okl := fun _ => True) (okst := commands_apart) (R := R25) (G := G25) (sep := sep25);
    try exact Hr; try exact Hi; try exact Ha.
  - intros k w. destruct k; try exact I; [apply D25_C25|]; apply D25_refl.
  - intros k a b c. destruct k; try (intros; exact I); [apply C25_trans|apply D25_trans].
  - auto.
  - intros s0 n m a b Hs Hone Ha0 Hb0 Hne Ea Eb. unfold sep25.
    assert (X : forall k, is_mgr k = true -> t_kind a = k -> t_kind b = k -> False).
    { intros k Hkk E1 E2. apply Hne. eapply Hone; eauto. rewrite E1, E2. destruct k; try discriminate; reflexivity. }
    pose proof (nth_error_In _ _ Ha0) as Ia. pose proof (nth_error_In _ _ Hb0) as Ib.
    destruct (t_kind a) eqn:E1; try reflexivity; destruct (t_kind b) eqn:E2; try reflexivity; exfalso;
      try (apply (X KJobMgr); auto; fail); destruct Hs as [Hs|Hs];
      first [rewrite (Hs _ Ia E1) in Ea; discriminate | rewrite (Hs _ Ib E2) in Eb; discriminate].
  - intros k o w [Hn Hw] [Hm Hg]. split; [apply names_exec; exact Hn|exact Hg].
  - intros k k' o w _ [Hm _] Hsep. destruct k'; try exact I.
    + destruct k; try discriminate; [apply cmd_C25; exact Hm| | | |];
        apply D25_C25; eapply outside_D25; try exact Hm; reflexivity.
    + destruct k; try discriminate; eapply outside_D25; try exact Hm; reflexivity.
  - auto.
  - intros l s0 s1 _ _ _ Hn Hs [Hnm Hw]. destruct (step_env _ _ _ Hn Hs) as [He _].
    destruct He as (E1 & E2 & E3 & E4 & E5 & E6 & E7).
    assert (K : jobs_kept (s_world s0) (s_world s1)) by (apply kept_eq; exact E1).
    split; [split; [unfold pip_names; rewrite E3; exact Hnm|eapply well_kept; eauto]|].
    split; [|auto]. intros k. assert (D : D25 (s_world s0) (s_world s1)) by (apply D25_pips; auto).
    destruct k; try exact I; [apply D25_C25|]; exact D.
  - intros c s0 _ _ _. apply ok25_cmd.
  - intros k p s0 Hpp _ _ _. unfold no_reply. q_bind.
    destruct k; inversion Hpp; subst p; cbn beta.
    + eapply okq_weaken; [|apply ok25_pass]. intros; exact I.
    + eapply okq_weaken; [|apply ok25_pip_pass]. intros; exact I.
    + apply ok25_tame; [apply ops_drv_pass| |intros; exact I].
      eapply all_ops_weaken; [|apply ops_drv_pass]. intros o Hm. destruct o; try exact I. destruct Hm as [[]|[]].
  - intros s0 _ _ _. apply ok25_tame; auto; [apply ops_quit|apply mgr_no_pip; apply ops_quit].
  - intros s0 s1 i pid a _ _ _ _ _ _. apply Hp; [reflexivity|apply ops_job].
  - intros n port pid ver ok s0 _ _ _. apply Hp; [reflexivity|apply ops_driver].
  - right. auto.
  - apply Forall_forall. intros; exact I.
Qed.

Lemma C25_lemma w ls s : NoDup (map p_name (w_pips w)) -> pips_well w ->
  along commands_apart ls (start_sys w) -> runs ls (start_sys w) = Some s -> pips_well (s_world s).
Proof.
  intros Hn Hw Ha Hr. assert (B : rgx_inv I25 R25 G25 (fun _ _ => True) s); [|apply B].
  eapply inv25; [exact Ha| |exact Hr]. apply rgx_start; [split; auto|auto].
Qed.
