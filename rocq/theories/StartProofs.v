(** * StartProofs: drivers that are not available (C88, C89) *)
From Coq Require Import List String Ascii ZArith Bool Sorted Lia.
From Verif Require Import Base PyStr BaseFacts Types ConfigModel Prog ProgFacts World WorldFacts Replies
  CmdModel KetchupModel TomatoModel JobModel PipModel DrvModel SysModel RGFacts SysOps StartModel
  SpecQueue SpecJob SpecSys SpecStart MatchProofs JobProofs MatchProofs2 SuperProofs SysProofs PassProofs.
Import ListNotations.
Open Scope list_scope.
Open Scope Z_scope.

(** ** Passes of the job manager *)
Lemma run_keeps {A X} (P : op -> Prop) (f : world -> X) (p : pgm A) :
  (forall o w, P o -> f (snd (exec o w)) = f w) -> all_ops P p ->
  forall w, f (snd (run exec p w)) = f w.
Proof.
  intros H. induction p as [a|e|o k IH]; intros Hp w; [reflexivity|reflexivity|].
  destruct Hp as [Ho Hk]. cbn [run]. destruct (exec o w) as [r w'] eqn:E. cbn [fst snd].
  rewrite IH; [|apply Hk]. specialize (H o w Ho). rewrite E in H. exact H.
Qed.
Definition outward (w : world) := (starts w, w_spawned w, w_pips w, w_dirs w).
Lemma quiet_outward o w : quiet o -> outward (snd (exec o w)) = outward w.
Proof. intros H. op_cases o; try contradiction; try reflexivity. Qed.

Lemma pass_blocked d w j : w_daemon w = Some d -> wf_queue w ->
  In j (w_jobs w) -> queued (j_status j) -> ~ relevant_answer w d (pl_method (j_payload j)) ->
  (exists e, fst (run exec job_pass w) = Err e) /\
  outward (snd (run exec job_pass w)) = outward w.
Proof.
  intros Hd Hw Hj Hq Hn. unfold job_pass. rewrite run_bind. cbn [run act do exec]. rewrite Hd.
  rewrite run_bind. destruct (run exec manage_running w) as [x1 w1] eqn:E1.
  assert (K1 : outward w1 = outward w).
  { pose proof (run_keeps quiet outward _ quiet_outward quiet_manage w) as K. rewrite E1 in K. exact K. }
  destruct (manage_running_spec w x1 w1 Hw E1) as (es1 & jobs1 & W1 & _ & R1 & _).
  destruct x1 as [[]|e]; [|cbn; split; [eauto|exact K1]].
  specialize (R1 eq_refl). rewrite run_bind.
  destruct (run exec (check_queued d) w1) as [x2 w2] eqn:E2.
  assert (K2 : outward w2 = outward w1).
  { pose proof (run_keeps quiet outward _ quiet_outward (quiet_check d) w1) as K. rewrite E2 in K. exact K. }
  destruct x2 as [m|e]; [|cbn; split; [eauto|congruence]]. exfalso.
  pose proof (check_queued_exact d w1) as X. rewrite E2 in X. cbn [fst] in X.
  assert (Hj1 : In j (w_jobs w1)).
  { subst w1. rewrite ae_jobs. cbn [set_jobs w_jobs].
    clear - R1 Hj Hq. induction R1 as [|a b l l' H _ IH]; [destruct Hj|]. destruct Hj as [->|Hj]; [|right; auto].
    left. eapply reconciled_queued; eauto. }
  apply Hn. eapply relevant_same; [| |apply (proj1 X (ex_intro _ m eq_refl) j Hj1 Hq)];
    subst w1; [rewrite ae_drvs|rewrite ae_driver]; reflexivity.
Qed.

(** ** Waiting for all drivers *)
Lemma wait_exact fuel : forall ws i dm,
  observe (wait_drivers fuel) ws i = Ok dm <->
  exists n, (n < fuel)%nat /\
    (forall m, (m < n)%nat -> w_daemon (ws (i + 2 * m)%nat) <> None /\
       exists v, In v (w_drvs (ws (i + 2 * m + 1)%nat)) /\ dv_port v = None) /\
    w_daemon (ws (i + 2 * n)%nat) = Some dm /\
    forall v, In v (w_drvs (ws (i + 2 * n + 1)%nat)) -> dv_port v <> None.
Proof.
  induction fuel as [|f IH]; intros ws i dm.
  - cbn. split; [discriminate|]. intros (n & H & _). lia.
  - cbn [wait_drivers]. unfold act, do. cbn [bind observe exec fst].
    destruct (w_daemon (ws i)) as [d|] eqn:Ed; cbn [bind observe exec fst].
    2:{ split; [discriminate|]. intros (n & Hn & Hm & Hd & _). exfalso. destruct n as [|n].
        - replace (i + 2 * 0)%nat with i in Hd by lia. congruence.
        - destruct (Hm O) as [K _]; [lia|]. replace (i + 2 * 0)%nat with i in K by lia. congruence. }
    destruct (forallb _ _) eqn:Ef.
    + cbn [observe]. assert (Fp : forall v, In v (w_drvs (ws (S i))) -> dv_port v <> None).
      { intros v Hv. rewrite forallb_forall in Ef. specialize (Ef v Hv). destruct (dv_port v); discriminate. }
      split.
      * intros E. injection E as <-. exists O. split; [lia|]. split; [intros m Hm; lia|].
        replace (i + 2 * 0)%nat with i by lia. split; [exact Ed|].
        replace (i + 1)%nat with (S i) by lia. exact Fp.
      * intros (n & Hn & Hm & Hd & _). destruct n as [|n].
        -- replace (i + 2 * 0)%nat with i in Hd by lia. congruence.
        -- exfalso. destruct (Hm O) as [_ (v & Hv & K)]; [lia|].
           replace (i + 2 * 0 + 1)%nat with (S i) in Hv by lia. now apply (Fp v Hv).
    + rewrite IH.
      assert (Fn : exists v, In v (w_drvs (ws (S i))) /\ dv_port v = None).
      { clear - Ef. induction (w_drvs (ws (S i))) as [|v l IHl]; [discriminate|]. cbn in Ef.
        destruct (dv_port v) eqn:E; [|exists v; split; [now left|exact E]].
        destruct (IHl Ef) as (v' & H1 & H2). exists v'. split; [now right|exact H2]. }
      split; intros (n & Hn & Hm & Hd & Hp).
      * exists (S n). split; [lia|]. split; [|split].
        -- intros [|m] Hlt.
           ++ replace (i + 2 * 0)%nat with i by lia. replace (i + 1)%nat with (S i) by lia.
              split; [congruence|exact Fn].
           ++ replace (i + 2 * S m)%nat with (S (S i) + 2 * m)%nat by lia. apply Hm. lia.
        -- replace (i + 2 * S n)%nat with (S (S i) + 2 * n)%nat by lia. exact Hd.
        -- replace (i + 2 * S n)%nat with (S (S i) + 2 * n)%nat by lia. exact Hp.
      * destruct n as [|n].
        { exfalso. destruct Fn as (v & Hv & K). apply (Hp v); [|exact K].
          replace (i + 2 * 0 + 1)%nat with (S i) by lia. exact Hv. }
        exists n. split; [lia|]. split; [|split].
        -- intros m Hlt. replace (S (S i) + 2 * m)%nat with (i + 2 * S m)%nat by lia. apply Hm. lia.
        -- replace (S (S i) + 2 * n)%nat with (i + 2 * S n)%nat by lia. exact Hd.
        -- replace (S (S i) + 2 * n)%nat with (i + 2 * S n)%nat by lia. exact Hp.
Qed.

(** ** A driver that is never served *)
Section Never.
  Context (n : string).

  Definition harmless (o : op) : Prop :=
    match o with
    | ODrvInsert d => dv_port d = None
    | ODrvUpdate m cs => sql_lit m = Some n -> forall c, In c cs -> match c with DPort p => p = None | _ => True end
    | _ => True
    end.

  Lemma harmless_cols cs : (forall c, In c cs -> match c with DPort p => p = None | _ => True end) ->
    forall v, dv_port v = None -> dv_port (set_dcols cs v) = None.
  Proof.
    unfold set_dcols. induction cs as [|c cs IH]; intros H v Hv; [exact Hv|]. cbn [fold_left]. apply IH.
    - intros c' Hc'. apply H. now right.
    - specialize (H c (or_introl eq_refl)). destruct c; cbn; auto.
  Qed.
  Lemma set_dcols_name cs v : dv_name (set_dcols cs v) = dv_name v.
  Proof.
    unfold set_dcols. revert v. induction cs as [|c cs IH]; intros v; [reflexivity|]. cbn [fold_left].
    rewrite IH. destruct c; reflexivity.
  Qed.
  Lemma upd_drvs_in m cs l v : In v (upd_drvs m cs l) ->
    exists v0, In v0 l /\ dv_name v = dv_name v0 /\ (v = v0 \/ (dv_name v0 = m /\ v = set_dcols cs v0)).
  Proof.
    unfold upd_drvs. intros H. apply in_map_iff in H as (v0 & E & H). exists v0. split; [exact H|].
    destruct (String.eqb_spec (dv_name v0) m) as [Em|Em]; subst v; [|auto].
    rewrite set_dcols_name. auto.
  Qed.
  Lemma exec_without o w : harmless o -> without_port w n -> without_port (snd (exec o w)) n.
  Proof.
    intros Ho Hw. op_cases o; try exact Hw; unfold without_port; cbn [set_drvs w_drvs].
    - intros v Hv Ev. apply in_app_or in Hv as [Hv|[<-|[]]]; [now apply Hw|exact Ho].
    - intros v Hv Ev. apply upd_drvs_in in Hv as (v0 & H0 & H1 & [->|(H2 & ->)]); [now apply Hw|].
      apply harmless_cols; [|apply Hw; congruence]. apply Ho. cbn. congruence.
  Qed.
  Lemma exec_recorded o w : recorded w n -> recorded (snd (exec o w)) n.
  Proof.
    intros (v & Hv & Ev). op_cases o; try (exists v; split; [exact Hv|exact Ev]); unfold recorded; cbn [set_drvs w_drvs].
    - exists v. split; [apply in_or_app; now left|exact Ev].
    - eexists. split; [unfold upd_drvs; apply in_map; exact Hv|]. destruct (String.eqb _ _); [|exact Ev].
      now rewrite set_dcols_name.
  Qed.

  Lemma may_harmless k o : (forall m, k = KDriver m -> sql_lit m <> Some n) -> may k o -> harmless o.
  Proof.
    intros Hk [H|H]; [destruct o; cbn in *; try exact I; contradiction|].
    destruct o; try exact I; cbn [harmless].
    - destruct k; cbn in H; try contradiction. destruct H as (m & ->). reflexivity.
    - intros Hs c Hc. destruct k; cbn in H; try contradiction.
      + destruct H as [->|[(t & ->)|(t & x & ->)]]; cbn in Hc;
          repeat (destruct Hc as [<-|Hc]; [exact I || reflexivity|]); destruct Hc.
      + destruct H as (-> & _). now elim (Hk _ eq_refl).
  Qed.

  Lemma driver_harmless m port pid ver ok : (sql_lit m = Some n -> ok = false) ->
    all_ops harmless (no_reply (driver_connect m port pid ver ok)).
  Proof.
    intros H. destruct ok.
    - eapply all_ops_weaken; [|apply ops_driver]. intros o. apply may_harmless. intros m' E Hs.
      injection E as <-. specialize (H Hs). discriminate.
    - unfold no_reply, driver_connect, act, do. cbn [bind all_ops]. split; [exact I|].
      intros [[dm|]|e]; cbn [bind all_ops]; try exact I.
      destruct (need _); cbn [lift bind all_ops]; exact I.
  Qed.

  Definition ports_inv (s : sys) : Prop :=
    Forall (fun t => all_ops harmless (t_pgm t)) (s_threads s) /\ without_port (s_world s) n.

  Lemma Forall_set_nth {A} (P : A -> Prop) l : forall i x, Forall P l -> P x -> Forall P (set_nth i x l).
  Proof.
    induction l as [|a l IH]; intros [|i] x H Hx; cbn; auto; inversion H; subst; constructor; auto.
  Qed.
  Lemma Forall_filter_ {A} (P : A -> Prop) f l : Forall P l -> Forall P (filter f l).
  Proof. rewrite !Forall_forall. intros H x Hx. apply filter_In in Hx. now apply H. Qed.
  Lemma mgr_harmless k p : mgr_pass k = Some p -> all_ops harmless (no_reply p).
  Proof.
    intros H. eapply all_ops_weaken; [|apply (ops_mgr k p H)]. intros o. apply may_harmless.
    intros m ->. discriminate H.
  Qed.

  Lemma step_ports l s s' : never_serves n l -> ports_inv s -> step l s = Some s' -> ports_inv s'.
  Proof.
    intros Hl [Ht Hw] Hs.
    assert (Hx : (exists i, l = LStep i) \/ forall i, l <> LStep i).
    { destruct l; try (right; intros ? E; discriminate E). left. eexists. reflexivity. }
    destruct Hx as [[i ->]|Hx].
    - cbn in Hs. destruct (nth_error (s_threads s) i) as [t|] eqn:Ei; [|discriminate].
      assert (Hti : all_ops harmless (t_pgm t)).
      { rewrite Forall_forall in Ht. apply Ht. eapply nth_error_In; eauto. }
      unfold step_thread in Hs. destruct (t_pgm t) as [r|e|o k] eqn:Ep; [|discriminate|].
      + destruct (mgr_pass (t_kind t)) as [p|] eqn:Em; [|discriminate].
        destruct (t_done t); [discriminate|].
        destruct (s_run s); injection Hs as <-; (split; [|exact Hw]); apply Forall_set_nth; auto; cbn [t_pgm].
        * eapply mgr_harmless; eauto.
        * destruct (t_kind t); try exact I. eapply all_ops_weaken; [|apply ops_quit].
          intros o. apply may_harmless. discriminate.
      + destruct Hti as [Ho Hk]. destruct (exec o (s_world s)) as [r w'] eqn:Ex. injection Hs as <-.
        split; cbn [s_threads s_world].
        * apply Forall_set_nth; auto. cbn. apply Hk.
        * pose proof (exec_without o (s_world s) Ho Hw) as K. rewrite Ex in K. exact K.
    - destruct (step_env l s s' Hx Hs) as ((_ & _ & _ & E & _) & _).
      split; [|unfold without_port; rewrite E; exact Hw].
      destruct l; try (elim (Hx n0); reflexivity); cbn in Hs;
        repeat match type of Hs with
               | match ?x with _ => _ end = _ => destruct x eqn:?; try discriminate
               end; injection Hs as <-; cbn [s_threads add_thread set_threads set_world]; auto;
        try (apply Forall_filter_; exact Ht);
        try (apply Forall_app; split; [exact Ht|constructor; [|constructor]]; cbn [t_pgm]).
      + eapply all_ops_weaken; [|apply ops_cmd]. intros o. apply may_harmless. discriminate.
      + apply Forall_set_nth; [exact Ht|exact I].
      + exact I.
      + eapply all_ops_weaken; [|apply ops_job]. intros o. apply may_harmless. discriminate.
      + apply driver_harmless. exact Hl.
  Qed.
  Lemma runs_ports ls : forall s s', Forall (never_serves n) ls -> ports_inv s -> runs ls s = Some s' -> ports_inv s'.
  Proof.
    induction ls as [|l ls IH]; intros s s' Hl Hi Hr; cbn in Hr; [congruence|].
    destruct (step l s) as [s1|] eqn:E; [|discriminate]. inversion Hl; subst.
    eapply IH; [eassumption| |exact Hr]. eapply step_ports; eauto.
  Qed.
  Lemma never_port ls w s : Forall (never_serves n) ls -> without_port w n ->
    runs ls (start_sys w) = Some s -> without_port (s_world s) n.
  Proof.
    intros Hl Hw Hr. assert (X : ports_inv (start_sys w)) by (split; [constructor|exact Hw]).
    apply (runs_ports ls _ _ Hl X Hr).
  Qed.

  Lemma step_recorded l s s' : step l s = Some s' -> recorded (s_world s) n -> recorded (s_world s') n.
  Proof.
    intros Hs Hw.
    assert (Hx : (exists i, l = LStep i) \/ forall i, l <> LStep i).
    { destruct l; try (right; intros ? E; discriminate E). left. eexists. reflexivity. }
    destruct Hx as [[i ->]|Hx].
    - cbn in Hs. destruct (nth_error (s_threads s) i) as [t|] eqn:Ei; [|discriminate].
      unfold step_thread in Hs. destruct (t_pgm t) as [r|e|o k] eqn:Ep; [|discriminate|].
      + destruct (mgr_pass (t_kind t)) as [p|] eqn:Em; [|discriminate].
        destruct (t_done t); [discriminate|]. destruct (s_run s); injection Hs as <-; exact Hw.
      + pose proof (exec_recorded o (s_world s) Hw) as K.
        destruct (exec o (s_world s)) as [r w'] eqn:Ex. injection Hs as <-. exact K.
    - destruct (step_env l s s' Hx Hs) as ((_ & _ & _ & E & _) & _). unfold recorded. rewrite E. exact Hw.
  Qed.
  Lemma runs_recorded ls : forall s s', runs ls s = Some s' -> recorded (s_world s) n -> recorded (s_world s') n.
  Proof.
    induction ls as [|l ls IH]; intros s s' Hr Hw; cbn in Hr; [congruence|].
    destruct (step l s) as [s1|] eqn:E; [|discriminate]. eapply IH; [exact Hr|]. eapply step_recorded; eauto.
  Qed.
End Never.

Lemma wait_never fuel : forall ws i, (forall k, exists v, In v (w_drvs (ws k)) /\ dv_port v = None) ->
  forall dm, observe (wait_drivers fuel) ws i <> Ok dm.
Proof.
  intros ws i H dm E. apply wait_exact in E as (n & _ & _ & _ & K).
  destruct (H (i + 2 * n + 1)%nat) as (v & Hv & Hn). now apply (K v).
Qed.

(** ** Modules of drivers *)
Lemma underscores_spec n : Forall2 (fun a b => (a = "-"%char -> b = "_"%char) /\ (a <> "-"%char -> b = a))
  (list_ascii_of_string n) (list_ascii_of_string (underscores n)).
Proof.
  induction n as [|c n IH]; cbn; constructor; auto.
  destruct (Ascii.eqb_spec c "-"); split; intros H; congruence.
Qed.
Lemma underscores_unique n : forall t,
  Forall2 (fun a b => (a = "-"%char -> b = "_"%char) /\ (a <> "-"%char -> b = a))
    (list_ascii_of_string n) (list_ascii_of_string t) -> t = underscores n.
Proof.
  induction n as [|c n IH]; intros [|x t] H; cbn in H; inversion H; subst; [reflexivity|].
  cbn. f_equal; [|auto]. destruct H3 as [A B]. destruct (Ascii.eqb_spec c "-"); auto.
Qed.
Lemma module_of_iff n m : module_of n m <-> m = modname n.
Proof.
  unfold module_of, modname. split.
  - intros (t & -> & H). apply underscores_unique in H. congruence.
  - intros ->. eexists. split; [reflexivity|apply underscores_spec].
Qed.
Lemma underscores_plain n : (forall c, In c (list_ascii_of_string n) -> c <> "-"%char) -> underscores n = n.
Proof.
  induction n as [|c n IH]; intros H; [reflexivity|]. cbn. rewrite IH; [|intros x Hx; apply H; now right].
  destruct (Ascii.eqb_spec c "-"); [|reflexivity]. elim (H c); [now left|assumption].
Qed.

(** ** Starting a driver *)
Lemma update_drv_run n cs w : run exec (update_drv n cs) w =
  match sql_lit n with
  | None => (Err SqlError, w)
  | Some n' => let w' := set_drvs w (upd_drvs n' cs (w_drvs w)) in (Ok (get_drv (w_drvs w') n), w')
  end.
Proof. unfold update_drv. rewrite run_bind, run_act. cbn [exec]. destruct (sql_lit n); reflexivity. Qed.

Lemma get_drv_recorded l n : is_some (get_drv l n) = true <-> exists v, In v l /\ dv_name v = n.
Proof.
  unfold get_drv. induction l as [|v l IH]; cbn.
  - split; [discriminate|]. intros (v & [] & _).
  - destruct (String.eqb_spec (dv_name v) n) as [E|E].
    + split; [eauto|reflexivity].
    + rewrite IH. split; intros (v' & H1 & H2); exists v'; [auto|]. destruct H1 as [->|H1]; [congruence|auto].
Qed.

Lemma driver_start_lemma imports n port pid w x w' :
  run exec (tomato_driver imports n port pid) w = (x, w') ->
  (exists c n', serves imports n w c n' /\ Forall2 (served_row c n' port pid) (w_drvs w) (w_drvs w') /\
     exists b, x = Ok b /\ (b = true <-> recorded w n)) \/
  ((forall c n', ~ serves imports n w c n') /\ w' = w /\ x <> Ok true).
Proof.
  unfold tomato_driver, driver_to_interface. rewrite run_bind, run_lift.
  assert (U : forall m, module_of n m -> m = modname n) by (intros m; apply module_of_iff).
  destruct (imports (modname n)) as [|e|[c|]] eqn:Ei.
  1,2,4: cbn; intros H; injection H as <- <-; right; split; [|split; [reflexivity|discriminate]];
    intros c n' ((m & Hm & Em) & _); rewrite (U m Hm), Ei in Em; discriminate.
  cbv beta iota. rewrite run_bind, run_act. cbn [exec]. destruct (w_daemon w) as [dm|] eqn:Ed.
  2:{ cbn. intros H. injection H as <- <-. right. split; [|split; [reflexivity|discriminate]].
      intros c' n' (_ & (dm & drv & H1 & _) & _). congruence. }
  rewrite run_bind, run_lift. unfold need. destruct (dget _ n) as [drv|] eqn:Eg.
  2:{ intros H. injection H as <- <-. right. split; [|split; [reflexivity|discriminate]].
      intros c' n' (_ & (dm' & drv & H1 & H2 & _) & _). congruence. }
  rewrite run_bind, run_lift. unfold construct. destruct (cl_new c (dr_settings drv)) as [[]|e] eqn:Ec.
  2:{ intros H. assert (X : (exists e', x = Err e') /\ w' = w) by (destruct e; injection H as <- <-; eauto).
      destruct X as [[e' ->] ->]. right. split; [|split; [reflexivity|discriminate]].
      intros c' n' ((m & Hm & Em) & (dm' & drv' & H1 & H2 & H3) & _). rewrite (U m Hm), Ei in Em. congruence. }
  rewrite run_bind, update_drv_run. destruct (sql_lit n) as [n'|] eqn:El.
  2:{ intros H. injection H as <- <-. right. split; [|split; [reflexivity|discriminate]].
      intros c' n' (_ & _ & H). congruence. }
  cbv beta iota zeta. rewrite run_ret. intros H. injection H as <- <-. left. exists c, n'.
  split; [|split].
  - split; [exists (modname n); split; [apply module_of_iff; reflexivity|exact Ei]|].
    split; [exists dm, drv; auto|exact El].
  - cbn [set_drvs w_drvs]. unfold upd_drvs. induction (w_drvs w) as [|v l IH]; cbn; constructor; auto.
    destruct (String.eqb_spec (dv_name v) n') as [E|E]; [right|left]; [|auto]. split; [exact E|].
    destruct v; cbn in *. subst. reflexivity.
  - eexists. split; [reflexivity|]. rewrite get_drv_recorded. cbn [set_drvs w_drvs]. unfold recorded. split.
    + intros (v & H1 & H2). apply upd_drvs_in in H1 as (v0 & H0 & H1 & _). exists v0. split; [exact H0|congruence].
    + intros (v & H1 & H2). eexists. split; [unfold upd_drvs; apply in_map; exact H1|].
      destruct (String.eqb _ _); [now rewrite set_dcols_name|exact H2].
Qed.
