(** * CancelProofs: what becomes of a running job that is cancelled or whose process is gone (C108) *)
From Coq Require Import List String Ascii ZArith Bool Sorted Lia.
From Verif Require Import Base PyStr BaseFacts Types ConfigModel Prog ProgFacts World WorldFacts Replies
  CmdModel KetchupModel JobModel PipModel SysModel RGFacts SpecQueue SpecJob SpecSys KetchupProofs MatchProofs JobProofs
  PipCmdProofs MatchProofs2 SuperProofs SysProofs SysProofs15 PassProofs PassProofs2 P_JobFacts.
Import ListNotations.
Open Scope list_scope.
Open Scope Z_scope.

Lemma assigned_in asg pn i : assigned_to asg pn = Some i -> In (i, pn) asg.
Proof.
  unfold assigned_to. intros H. destruct (find _ asg) as [[a b]|] eqn:F; [|discriminate H]. injection H as <-.
  apply find_some in F as [F E]. cbn in E. apply String.eqb_eq in E. now subst.
Qed.
Lemma exec_driver o w : w_driver (snd (exec o w)) = w_driver w.
Proof. op_cases o; reflexivity. Qed.
Lemma run_driver {A} (p : pgm A) : forall w, w_driver (snd (run exec p w)) = w_driver w.
Proof.
  induction p as [a|e|o k IH]; intros w; [reflexivity|reflexivity|]. cbn [run]. pose proof (exec_driver o w) as X.
  destruct (exec o w) as [r w1]. cbn in X. rewrite IH. exact X.
Qed.
(** What a pass of the job manager does to the rows of jobs that are not queued, and what it leaves. *)
Lemma pass_rows d w w' : pass_ready w d -> run exec job_pass w = (Ok tt, w') ->
  (forall i j, get_job (w_jobs w) i = Some j -> ~ queued (j_status j) ->
     exists j', get_job (w_jobs w') i = Some j' /\ reconciled w j j') /\
  (forall i, get_job (w_jobs w) i <> None -> get_job (w_jobs w') i <> None) /\
  map p_name (w_pips w') = map p_name (w_pips w) /\
  (forall pn ps, get_pip (w_pips w) pn = Some ps -> p_jobid ps <> None -> get_pip (w_pips w') pn = Some ps) /\
  (forall ps i, In ps (w_pips w') -> p_jobid ps = Some i ->
     get_job (w_jobs w') i <> None \/ exists ps0, In ps0 (w_pips w) /\ p_jobid ps0 = Some i) /\
  w_daemon w' = w_daemon w /\ w_drvs w' = w_drvs w /\ w_driver w' = w_driver w.
Proof.
  intros (Hd & Hw & Hn & Hpl & Hr & Hrd & Hq). unfold job_pass. rewrite run_bind. cbn [run act do exec]. rewrite Hd.
  rewrite run_bind. destruct (run exec manage_running w) as [x1 w1] eqn:E1.
  destruct (manage_running_spec w x1 w1 Hw E1) as (es1 & jobs1 & W1 & _ & R1 & _ & O1).
  specialize (O1 Hrd). subst x1. specialize (R1 eq_refl). rewrite run_bind.
  assert (Hid1 : map j_id (w_jobs w) = map j_id jobs1).
  { eapply F2_map_eq; [exact R1|]. intros a b H. symmetry. eapply reconciled_id; eauto. }
  assert (Hj1 : w_jobs w1 = jobs1) by (subst w1; rewrite ae_jobs; reflexivity).
  assert (Hs1 : w_seq w1 = w_seq w) by (subst w1; rewrite ae_seq; reflexivity).
  assert (Hw1 : wf_queue w1).
  { destruct Hw as (A & B & C). unfold wf_queue. rewrite Hj1, Hs1, <- Hid1. split; [exact A|]. split; [|exact C].
    apply Forall_forall. intros j' Hin. destruct (F2_in _ _ _ R1 j' Hin) as (j & Hjin & Hjr).
    rewrite (reconciled_id _ _ _ Hjr). rewrite Forall_forall in B. apply B. exact Hjin. }
  assert (Dv1 : w_drvs w1 = w_drvs w) by (subst w1; rewrite ae_drvs; reflexivity).
  assert (Da1 : w_driver w1 = w_driver w) by (subst w1; rewrite ae_driver; reflexivity).
  assert (Dm1 : w_daemon w1 = w_daemon w) by (subst w1; rewrite ae_daemon; reflexivity).
  destruct (run exec (check_queued d) w1) as [x2 w2] eqn:E2.
  destruct (check_queued_spec d w1 x2 w2 Hw1 E2) as ((es2 & jobs2 & W2 & R2 & R2') & M2 & _).
  destruct x2 as [m|e]; [|discriminate]. destruct (M2 m eq_refl) as (q & Hex & Hm). clear M2 R2'.
  assert (Hj2 : w_jobs w2 = jobs2) by (subst w2; rewrite ae_jobs; reflexivity).
  assert (Hid2 : map j_id (w_jobs w1) = map j_id jobs2).
  { eapply F2_map_eq; [exact R2|]. intros a b [->|(_ & _ & ->)]; reflexivity. }
  assert (Pp : w_pips w2 = w_pips w) by (subst w2; rewrite ae_pips; cbn; subst w1; rewrite ae_pips; reflexivity).
  assert (Dv2 : w_drvs w2 = w_drvs w) by (subst w2; rewrite ae_drvs; exact Dv1).
  assert (Da2 : w_driver w2 = w_driver w) by (subst w2; rewrite ae_driver; exact Da1).
  assert (Dm2 : w_daemon w2 = w_daemon w) by (subst w2; rewrite ae_daemon; exact Dm1).
  intros E3.
  assert (Hmx : forall e, In e m -> exists j, get_job (w_jobs w2) (fst e) = Some j).
  { intros e He. destruct (F2_in _ _ _ Hm e He) as (j & Jq & J1 & _). rewrite J1.
    apply in_get_job. rewrite Hj2, <- Hid2. apply in_map. apply (proj1 (proj1 Hex j) Jq). }
  destruct (action_queued_spec d m w2 (Ok tt) w') as (asg & Hg & [(_ & S & _)|(asg1 & y & asg2 & _ & X & _)]);
    [rewrite Pp; exact Hn| |exact Hmx| |exact E3| |discriminate X].
  { assert (Em : map fst m = map j_id q) by (symmetry; eapply F2_map_eq; [exact Hm|intros a b [? _]; congruence]).
    rewrite Em. apply NoDup_SS. apply Hex. }
  { intros e pn He Hpn. destruct (F2_in _ _ _ Hm e He) as (j & _ & _ & ps & Hsel & Es). rewrite Es in Hpn.
    apply in_map_iff in Hpn. destruct Hpn as (p & <- & Hp). apply Hpl.
    destruct Hsel as (f & _ & ->). apply filter_In in Hp. apply Hp. }
  destruct S as (_ & Snm & Spip & _ & Sj & _ & Sdv & Sdm & _).
  assert (Hin_m : forall x, In x asg -> exists pre post, In (fst x, pre ++ snd x :: post) m).
  { intros [i pn] Hx. destruct Hg as (_ & _ & G3 & _). destruct (G3 i pn Hx) as (_ & pre & post & A & _). eauto. }
  assert (Gj : forall i, get_job (w_jobs w') i =
     option_map (fun j => if memZ (j_id j) (map fst asg) then set_jcol j (JLaunched (Some (w_now w2))) else j) (get_job (w_jobs w2) i)).
  { intros i. rewrite Sj. unfold get_job. generalize (w_jobs w2) as l. induction l as [|b l IH]; cbn [find map]; [reflexivity|].
    assert (Eb : j_id (if memZ (j_id b) (map fst asg) then set_jcol b (JLaunched (Some (w_now w2))) else b) = j_id b)
      by (destruct (memZ _ _); reflexivity).
    rewrite Eb. destruct (Z.eqb (j_id b) i); [reflexivity|apply IH]. }
  assert (Kept : forall i, get_job (w_jobs w) i <> None -> get_job (w_jobs w') i <> None).
  { intros i K. rewrite Gj. enough (X : exists j, get_job (w_jobs w2) i = Some j) by (destruct X as [j ->]; discriminate).
    apply in_get_job. rewrite Hj2, <- Hid2, Hj1, <- Hid1. destruct (get_job (w_jobs w) i) as [j|] eqn:G; [|now elim K].
    apply get_job_row in G as [G1 <-]. now apply in_map. }
  repeat split.
  - intros i j G N. pose proof (F2_get _ _ _ i R1 (fun a b => reconciled_id w a b)) as Z1. rewrite G in Z1.
    destruct (get_job jobs1 i) as [j1|] eqn:G1; [|contradiction].
    assert (N1 : ~ queued (j_status j1)).
    { intros K. apply N. pose proof (reconciled_queued _ _ _ Z1 (or_introl K)). now subst j1. }
    pose proof (F2_get _ _ _ i R2) as Z2. rewrite Hj1, G1 in Z2.
    destruct (get_job jobs2 i) as [j2|] eqn:G2.
    2:{ destruct Z2. intros a b [->|(_ & _ & ->)]; reflexivity. }
    assert (j2 = j1) as ->.
    { destruct Z2 as [->|(K & _)]; [intros a b [->|(_ & _ & ->)]; reflexivity|reflexivity|]. destruct N1. now left. }
    exists j1. split; [|exact Z1]. rewrite Gj, Hj2, G2. cbn [option_map].
    destruct (memZ (j_id j1) (map fst asg)) eqn:Me; [|reflexivity]. exfalso.
    apply memZ_In in Me. apply in_map_iff in Me as (x & Ex & Hx). destruct (Hin_m x Hx) as (pre & post & Hx1).
    destruct (F2_in _ _ _ Hm _ Hx1) as (jq & K1 & K2 & _). cbn in K2. apply (proj1 Hex) in K1 as [K1 K3].
    apply N1. assert (jq = j1) as <-; [|exact K3].
    assert (A : get_job (w_jobs w1) (j_id jq) = Some jq) by (apply In_get_job; [apply wf_NoDup, Hw1|exact K1]).
    apply get_job_row in G1 as G1'. destruct G1' as [_ I1]. rewrite <- K2, Ex, I1, Hj1, G1 in A. congruence.
  - exact Kept.
  - rewrite Snm, Pp. reflexivity.
  - intros pn ps G K. rewrite Spip, Pp, G. destruct (assigned_to asg pn) as [i|] eqn:A; [|reflexivity]. exfalso.
    apply assigned_in in A. destruct Hg as (_ & _ & G3 & _).
    destruct (G3 i pn A) as (j2 & pre & post & _ & _ & (ps' & O1' & O2 & O3) & _). rewrite Pp, G in O1'. injection O1' as <-.
    tauto.
  - intros ps i Hin Hi.
    assert (Nd : NoDup (map p_name (w_pips w'))) by (rewrite Snm, Pp; exact Hn).
    assert (G : get_pip (w_pips w') (p_name ps) = Some ps) by (apply In_get_pip; assumption).
    rewrite Spip, Pp in G. destruct (assigned_to asg (p_name ps)) as [i'|] eqn:A.
    + left. assert (i' = i) as -> by (destruct (get_pip (w_pips w) (p_name ps)); [injection G as <-; cbn in Hi; congruence|discriminate G]).
      apply assigned_in in A. destruct (Hin_m _ A) as (pre & post & Hx1). destruct (Hmx _ Hx1) as [j2 Gj2]. cbn in Gj2.
      rewrite Gj, Gj2. discriminate.
    + right. exists ps. split; [|exact Hi]. apply find_some in G. apply G.
  - congruence.
  - rewrite Sdv. exact Dv2.
  - assert (X : w_driver w' = w_driver w2).
    { pose proof (run_driver (action_queued d m) w2) as X. rewrite E3 in X. exact X. }
    rewrite X. exact Da2.
Qed.

Lemma ae_log : forall es w, w_log (add_events w es) = (rev es ++ w_log w)%list.
Proof.
  induction es as [|e es IH]; intros w; cbn [add_events rev]; [reflexivity|]. rewrite IH, <- app_assoc. reflexivity.
Qed.

(** ** The two passes after which a job is over *)
Lemma two_passes d w i j pn ps : pass_ready w d ->
  (forall p, In p (w_pips w) -> resettable w d (p_name p)) ->
  (forall p k, In p (w_pips w) -> p_jobid p = Some k -> get_job (w_jobs w) k <> None) ->
  get_job (w_jobs w) i = Some j -> ~ queued (j_status j) -> j_connected j <> None ->
  (forall j', reconciled w j j' -> j_pid j' = None /\ j_connected j' = j_connected j) ->
  get_pip (w_pips w) pn = Some ps -> p_jobid ps = Some i ->
  exists j' w1 w2 es, run exec job_pass w = (Ok tt, w1) /\ run exec pip_pass w1 = (Ok tt, w2) /\
    reconciled w j j' /\ get_job (w_jobs w2) i = Some j' /\ get_pip (w_pips w2) pn = Some (freed ps) /\
    w_log w2 = (rev es ++ w_log w1)%list /\
    (exists pl, dget (df_pipelines (dm_df d)) pn = Some pl /\
       forall rc, In rc (pp_components pl) -> exists cmp port, component_port w d (snd rc) cmp port /\
         In (EvRequest port (CReset (c_address cmp) (c_channel cmp))) es) /\
    w_procs w2 = w_procs w.
Proof.
  intros Rdy Hre Hpj Hj Nq Hc Hrec Hp Hpi. pose proof Rdy as (Hd & Hw & Hn & _).
  destruct (pass_lemma d w Rdy) as (w1 & _ & _ & _ & _ & E1 & _).
  destruct (pass_rows d w w1 Rdy E1) as (P1 & P2 & P3 & P4 & P5 & P6 & P7 & P8).
  destruct (P1 i j Hj Nq) as (j' & Gj' & Rj'). destruct (Hrec j' Rj') as [Np Cj].
  destruct (run exec pip_pass w1) as [x w2] eqn:E2.
  assert (Hq1 : forall p, In p (w_pips w1) -> has_char "'" (p_name p) = false /\ resettable w d (p_name p)).
  { intros p K. apply (in_map p_name) in K. rewrite P3 in K. apply in_map_iff in K as (p0 & <- & K).
    split; [apply (Hre p0 K)|apply (Hre p0 K)]. }
  destruct (pip_pass_spec d w1 x w2) as (pips' & es & W2 & F & _ & Fr & Ok2).
  { rewrite P6. exact Hd. } { rewrite P3. exact Hn. } { intros p K. apply (Hq1 p K). } { exact E2. }
  assert (x = Ok tt) as ->.
  { apply Ok2.
    - intros p k K1 K2. destruct (P5 p k K1 K2) as [K|(p0 & K3 & K4)]; [exact K|]. apply P2. exact (Hpj p0 k K3 K4).
    - intros p K _. destruct (Hq1 p K) as [_ (A & pl & B & C)]. split; [exact A|]. exists pl. split; [exact B|].
      intros rc Hrc. destruct (C rc Hrc) as (cmp & port & r & C1 & C2). exists cmp, port, r.
      unfold component_port in *. rewrite P7, P8. auto. }
  specialize (Fr eq_refl).
  assert (Gp : get_pip (w_pips w1) pn = Some ps) by (apply P4; [exact Hp|congruence]).
  assert (Orph : orphaned w1 ps).
  { exists i, j'. split; [exact Hpi|]. split; [exact Gj'|]. unfold over. rewrite Np. left. congruence. }
  assert (Hj2 : w_jobs w2 = w_jobs w1) by (subst w2; rewrite ae_jobs; reflexivity).
  assert (Hp2 : w_pips w2 = pips') by (subst w2; rewrite ae_pips; reflexivity).
  assert (Hl2 : w_log w2 = (rev es ++ w_log w1)%list) by (subst w2; rewrite ae_log; reflexivity).
  assert (Hpr : w_procs w2 = w_procs w).
  { destruct (run_oracles job_pass w _ _ E1) as (_ & _ & _ & _ & A & _).
    destruct (run_oracles pip_pass w1 _ _ E2) as (_ & _ & _ & _ & B & _). congruence. }
  assert (Pair : In ps (w_pips w1) /\ p_name ps = pn).
  { apply find_some in Gp as [A B]. apply String.eqb_eq in B. auto. }
  destruct Pair as [Ips Nps].
  exists j', w1, w2, es. split; [exact E1|]. split; [exact E2|]. split; [exact Rj'|].
  split; [rewrite Hj2; exact Gj'|]. split; [|split; [exact Hl2|split; [|exact Hpr]]].
  - rewrite Hp2. clear - F Fr Gp Orph. unfold get_pip in *. revert Gp. induction F as [|a b l l' H F IH]; cbn; [discriminate|].
    inversion Fr as [|? ? ? ? Ha Fr']; subst. assert (Nm : p_name b = p_name a) by (destruct H as [->|(_ & -> & _)]; reflexivity).
    rewrite Nm. destruct (String.eqb (p_name a) pn).
    + intros K. injection K as ->. rewrite (Ha Orph). reflexivity.
    + exact (IH Fr').
  - assert (X : exists pl, dget (df_pipelines (dm_df d)) (p_name ps) = Some pl /\
       forall rc, In rc (pp_components pl) -> exists cmp port, component_port w1 d (snd rc) cmp port /\
         In (EvRequest port (CReset (c_address cmp) (c_channel cmp))) es).
    { destruct (F2_in_l _ _ _ (F2_and _ _ _ _ F Fr) ps Ips) as (b & _ & [->|(_ & _ & X)] & Fb); [|exact X].
      exfalso. pose proof (Fb Orph) as K. apply (f_equal p_jobid) in K. cbn in K. congruence. }
    rewrite Nps in X. destruct X as (pl & A & B). exists pl. split; [exact A|]. intros rc Hrc.
    destruct (B rc Hrc) as (cmp & port & C & D). exists cmp, port. split; [|exact D].
    unfold component_port in *. rewrite <- P7. exact C.
Qed.

(** ** Cancelled *)
Lemma cancel_lemma port d w i j pn ps pid :
  let w0 := set_jobs w (cancel_all [i] (w_jobs w)) (w_seq w) in
  wf_queue w -> w_daemon w = Some d -> pass_ready w0 d ->
  (forall p, In p (w_pips w) -> resettable w d (p_name p)) ->
  (forall p k, In p (w_pips w) -> p_jobid p = Some k -> get_job (w_jobs w) k <> None) ->
  get_job (w_jobs w) i = Some j -> j_status j = Sr -> j_pid j = Some pid -> j_connected j <> None ->
  get_pip (w_pips w) pn = Some ps -> p_jobid ps = Some i ->
  exists r w1 w2 es, run exec (ketchup_cancel port [i]) w = (Ok r, w0) /\ r_ok r = true /\
    run exec job_pass w0 = (Ok tt, w1) /\ run exec pip_pass w1 = (Ok tt, w2) /\
    get_job (w_jobs w2) i = Some (closed_row j Scd (w_now w)) /\ get_pip (w_pips w2) pn = Some (freed ps) /\
    w_log w2 = (rev es ++ w_log w1)%list /\
    (exists pl, dget (df_pipelines (dm_df d)) pn = Some pl /\
       forall rc, In rc (pp_components pl) -> exists cmp port, component_port w d (snd rc) cmp port /\
         In (EvRequest port (CReset (c_address cmp) (c_channel cmp))) es) /\
    w_procs w2 = w_procs w.
Proof.
  intros w0 Hw Hd Rdy Hre Hpj Hj Hs Hpid Hc Hp Hpi.
  pose proof (cancel_single port i w d Hw Hd) as K. rewrite Hj in K. destruct K as (r & Er & Or); [congruence|].
  assert (G0 : get_job (w_jobs w0) i = Some (with_jstatus j Srd)).
  { unfold w0. cbn [w_jobs set_jobs]. revert Hj. unfold cancel_all, get_job. generalize (w_jobs w). induction l as [|b l IH]; [discriminate|].
    cbn [find map]. destruct (Z.eqb_spec (j_id b) i) as [Eb|Nb].
    - intros K. injection K as ->. assert (M : memZ (j_id j) [i] = true) by (apply memZ_In; left; now symmetry). rewrite M, Hs. cbn.
      destruct (Z.eqb_spec (j_id j) i); [reflexivity|contradiction].
    - intros K. assert (M : memZ (j_id b) [i] = false).
      { destruct (memZ (j_id b) [i]) eqn:M; [|reflexivity]. apply memZ_In in M as [M|[]]. now symmetry in M. }
      rewrite M. destruct (Z.eqb_spec (j_id b) i); [contradiction|]. apply IH, K. }
  destruct (two_passes d w0 i (with_jstatus j Srd) pn ps) as (j' & w1 & w2 & es & A1 & A2 & A3 & A4 & A5 & A6 & A7 & A8); auto.
  { intros p k K1 K2. specialize (Hpj p k K1 K2). destruct (get_job (w_jobs w) k) as [jk|] eqn:Gk; [|now elim Hpj].
    apply get_job_row in Gk as [Gk <-].
    enough (X : exists x, get_job (w_jobs w0) (j_id jk) = Some x) by (destruct X as [x ->]; discriminate).
    apply in_get_job. unfold w0. cbn [w_jobs set_jobs]. unfold cancel_all. rewrite map_map.
    replace (map (fun x => j_id (if memZ (j_id x) [i] then with_jstatus x (cancelled (j_status x)) else x)) (w_jobs w))
      with (map j_id (w_jobs w)); [now apply in_map|].
    apply map_ext. intros a. destruct (memZ (j_id a) [i]); reflexivity. }
  { intros [K|K]; discriminate K. }
  { intros j' K. unfold reconciled in K. cbn in K. rewrite Hpid in K.
    destruct K as [(_ & ->)|[(K & _)|[(K & _)|(_ & K & _)]]]; [split; reflexivity|discriminate K|discriminate K|now elim K]. }
  exists r, w1, w2, es. split; [exact Er|]. split; [exact Or|]. split; [exact A1|]. split; [exact A2|].
  split; [|split; [exact A5|]; split; [exact A6|]; split; [exact A7|exact A8]].
  rewrite A4. f_equal. unfold reconciled in A3. cbn in A3. rewrite Hpid in A3.
  destruct A3 as [(_ & ->)|[(K & _)|[(K & _)|(_ & K & _)]]]; [reflexivity|discriminate K|discriminate K|now elim K].
Qed.
(** ** Gone *)
Lemma gone_lemma d w i j pn ps pid : pass_ready w d ->
  (forall p, In p (w_pips w) -> resettable w d (p_name p)) ->
  (forall p k, In p (w_pips w) -> p_jobid p = Some k -> get_job (w_jobs w) k <> None) ->
  get_job (w_jobs w) i = Some j -> j_status j = Sr -> j_pid j = Some pid -> ~ live w pid -> j_connected j <> None ->
  get_pip (w_pips w) pn = Some ps -> p_jobid ps = Some i ->
  exists w1 w2 es, run exec job_pass w = (Ok tt, w1) /\ run exec pip_pass w1 = (Ok tt, w2) /\
    get_job (w_jobs w2) i = Some (closed_row j Sce (w_now w)) /\ get_pip (w_pips w2) pn = Some (freed ps) /\
    w_log w2 = (rev es ++ w_log w1)%list /\
    (exists pl, dget (df_pipelines (dm_df d)) pn = Some pl /\
       forall rc, In rc (pp_components pl) -> exists cmp port, component_port w d (snd rc) cmp port /\
         In (EvRequest port (CReset (c_address cmp) (c_channel cmp))) es).
Proof.
  intros Rdy Hre Hpj Hj Hs Hpid Hl Hc Hp Hpi.
  assert (X : forall j', reconciled w j j' -> j' = closed_row j Sce (w_now w)).
  { intros j' K. unfold reconciled in K. rewrite Hpid in K.
    destruct K as [(K & _)|[(_ & _ & K)|[(_ & K & _)|(K & _)]]]; [congruence|exact K|contradiction|congruence]. }
  destruct (two_passes d w i j pn ps) as (j' & w1 & w2 & es & A1 & A2 & A3 & A4 & A5 & A6 & A7 & A8); auto.
  { rewrite Hs. intros [K|K]; discriminate K. }
  { intros j' K. rewrite (X j' K). split; reflexivity. }
  exists w1, w2, es. rewrite (X j' A3) in A4. auto 10.
Qed.

(** ** The process goes on *)
Lemma nth_other {A} (x : A) : forall l m n, m <> n -> nth_error (set_nth m x l) n = nth_error l n.
Proof.
  induction l as [|a l IH]; intros [|m] [|n] H; cbn; try reflexivity; [now elim H|]. apply IH. congruence.
Qed.
Lemma proc_step n pid a p l s s' :
  nth_error (s_threads s) n = Some (mkThread (KJob pid a) p false) -> ended (mkThread (KJob pid a) p false) = false ->
  live (s_world s) pid -> l <> LStep n -> l <> LKill n -> l <> LCrash -> l <> LExit -> step l s = Some s' ->
  nth_error (s_threads s') n = Some (mkThread (KJob pid a) p false) /\ live (s_world s') pid.
Proof.
  intros Hn He Hl N1 N2 N3 N4 H.
  assert (App : forall t, nth_error (s_threads s ++ [t])%list n = Some (mkThread (KJob pid a) p false)).
  { intros t. rewrite nth_error_app1; [exact Hn|]. apply nth_error_Some. congruence. }
  destruct l as [c|m|m| |k| | |i q|i|nm port q ver ok|q z|q|now perf|f|g|m g c o]; cbn [step] in H;
    try (injection H as <-; split; [(exact Hn || apply App)|exact Hl]); try contradiction.
  - destruct (nth_error (s_threads s) m) as [t|] eqn:Em; [|discriminate H].
    assert (Nm : m <> n) by congruence. unfold step_thread in H. destruct (t_pgm t) as [r|e|o k].
    + destruct (mgr_pass (t_kind t)); [|discriminate H]. destruct (t_done t); [discriminate H|].
      destruct (s_run s); injection H as <-; cbn; rewrite (nth_other _ _ _ _ Nm); auto.
    + discriminate H.
    + pose proof (exec_oracles o (s_world s)) as (_ & _ & _ & _ & X & _).
      destruct (exec o (s_world s)) as [r w]. injection H as <-. cbn in *. rewrite (nth_other _ _ _ _ Nm). split; [exact Hn|].
      unfold live. rewrite X. exact Hl.
  - destruct (nth_error (s_threads s) m) as [t|] eqn:Em; [|discriminate H]. assert (Nm : m <> n) by congruence.
    destruct (is_mgr (t_kind t)); [discriminate H|]. injection H as <-. cbn. rewrite (nth_other _ _ _ _ Nm). auto.
  - destruct (w_daemon (s_world s)); [|discriminate H]. destruct (mgr_pass k); [|discriminate H].
    destruct (has_kind k s); [discriminate H|]. injection H as <-. split; [apply App|exact Hl].
  - destruct (w_daemon (s_world s)) as [d|]; [|discriminate H]. destruct (dm_status d); try discriminate H.
    injection H as <-. auto.
  - destruct (nth_error (w_spawned (s_world s)) i) as [b|]; [|discriminate H].
    destruct (get_proc (w_procs (s_world s)) q) eqn:G; [discriminate H|]. injection H as <-. split; [apply App|].
    destruct Hl as (pr & A & B). exists pr. split; [|exact B]. cbn. destruct (Z.eqb_spec q pid) as [->|_]; [congruence|exact A].
  - destruct (nth_error (w_spawned (s_world s)) i); [|discriminate H]. injection H as <-. auto.
  - destruct (existsb (runs_pid q) (s_threads s)) eqn:Ex; [discriminate H|]. injection H as <-. split; [exact Hn|].
    assert (Nq : q <> pid).
    { intros ->. assert (X : existsb (runs_pid pid) (s_threads s) = true); [|congruence]. apply existsb_exists.
      exists (mkThread (KJob pid a) p false). split; [eapply nth_error_In; exact Hn|]. unfold runs_pid. cbn [t_kind].
      rewrite Z.eqb_refl, He. reflexivity. }
    destruct Hl as (pr & A & B). exists pr. split; [|exact B]. cbn. revert A. unfold get_proc.
    generalize (w_procs (s_world s)). intros l. destruct z; induction l as [|b l IH]; cbn; try discriminate.
    + destruct (Z.eqb_spec (pr_pid b) q) as [Eb|Nb]; cbn.
      * destruct (Z.eqb_spec q pid) as [->|_]; [contradiction|]. destruct (Z.eqb_spec (pr_pid b) pid); [congruence|exact IH].
      * destruct (Z.eqb_spec (pr_pid b) pid); [auto|exact IH].
    + destruct (Z.eqb_spec (pr_pid b) pid) as [Eb|Nb].
      * intros K. injection K as ->. destruct (Z.eqb_spec (pr_pid pr) q) as [|_]; [congruence|]. cbn.
        destruct (Z.eqb_spec (pr_pid pr) pid); [reflexivity|contradiction].
      * intros K. destruct (Z.eqb (pr_pid b) q); cbn; [exact (IH K)|]. destruct (Z.eqb_spec (pr_pid b) pid); [contradiction|exact (IH K)].
  - destruct (get_proc (w_procs (s_world s)) q) eqn:G; [discriminate H|]. injection H as <-. split; [exact Hn|].
    destruct Hl as (pr & A & B). exists pr. split; [|exact B]. cbn. destruct (Z.eqb_spec q pid) as [->|_]; [congruence|exact A].
Qed.
Lemma proc_untouched n pid a p : ended (mkThread (KJob pid a) p false) = false -> forall ls s s',
  nth_error (s_threads s) n = Some (mkThread (KJob pid a) p false) -> live (s_world s) pid ->
  (forall l, In l ls -> l <> LStep n /\ l <> LKill n /\ l <> LCrash /\ l <> LExit) -> runs ls s = Some s' ->
  nth_error (s_threads s') n = Some (mkThread (KJob pid a) p false) /\ live (s_world s') pid.
Proof.
  intros He. induction ls as [|l ls IH]; intros s s' Hn Hl Hls H; cbn in H; [injection H as <-; auto|].
  destruct (step l s) as [s1|] eqn:E; [|discriminate H]. destruct (Hls l (or_introl eq_refl)) as (A & B & C & D).
  destruct (proc_step n pid a p l s s1 Hn He Hl A B C D E) as [X Y]. apply (IH s1 s' X Y); [|exact H].
  intros l' K. apply Hls. now right.
Qed.
