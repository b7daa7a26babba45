(** * SuperProofs: supervising jobs and pipelines; the end of a job process *)
From Coq Require Import List String Ascii ZArith Bool Lia Sorted.
From Verif Require Import Base BaseFacts PyStr Types ConfigModel Prog ProgFacts World WorldFacts
  Replies CmdModel KetchupModel JobModel PipModel SpecQueue SpecJob KetchupProofs PipCmdProofs
  MatchProofs JobProofs.
Import ListNotations.
Open Scope list_scope.
Open Scope Z_scope.

Definition liveb (w : world) (pid : Z) : bool :=
  match get_proc (w_procs w) pid with Some pr => negb (pr_zombie pr) | None => false end.

Lemma liveb_live w pid : liveb w pid = true <-> live w pid.
Proof.
  unfold liveb, live. destruct (get_proc _ _) as [pr|].
  - rewrite negb_true_iff. split; [eauto|]. intros (pr' & E & H). now injection E as <-.
  - split; [discriminate|]. intros (pr & E & _). discriminate.
Qed.
Lemma liveb_dead w pid : liveb w pid = false <-> ~ live w pid.
Proof. rewrite <- liveb_live. destruct (liveb w pid); intuition congruence. Qed.

(** ** manage_running *)
Definition verdict (w : world) (j : job) : option jstatus :=
  match j_pid j with
  | None => None
  | Some p => match j_status j with
              | Srd => Some Scd
              | Sr => if liveb w p then None else Some Sce
              | _ => None
              end
  end.
Definition recon_row (w : world) (j : job) : job :=
  match verdict w j with Some s => closed_row j s (w_now w) | None => j end.

Lemma recon_row_spec w j : reconciled w j (recon_row w j).
Proof.
  unfold reconciled, recon_row, verdict. destruct (j_pid j) as [p|]; auto.
  destruct (j_status j) eqn:E; auto; try (right; right; right; repeat split; congruence).
  destruct (liveb w p) eqn:El.
  - right. right. left. apply liveb_live in El. auto.
  - right. left. apply liveb_dead in El. auto.
Qed.

Lemma recon_row_id w j : j_id (recon_row w j) = j_id j.
Proof. unfold recon_row. destruct (verdict w j); reflexivity. Qed.

Definition fixed (w : world) (ids : list Z) (l : list job) : list job :=
  map (fun j => if memZ (j_id j) ids then recon_row w j else j) l.

Lemma fixed_ids w ids l : map j_id (fixed w ids l) = map j_id l.
Proof.
  unfold fixed. rewrite map_map. apply map_ext. intros j. destruct (memZ _ _); auto using recon_row_id.
Qed.

Lemma fixed_snoc_none w ids j l : NoDup (map j_id l) -> In j l -> verdict w j = None ->
  fixed w (ids ++ [j_id j]) l = fixed w ids l.
Proof.
  intros Hn Hj Hv. unfold fixed. apply map_ext_in. intros a Ha. rewrite memZ_app. cbn [memZ].
  rewrite orb_false_r. destruct (memZ (j_id a) ids); cbn [orb]; auto.
  destruct (Z.eqb_spec (j_id a) (j_id j)) as [E|E]; auto.
  assert (a = j) as ->.
  { pose proof (In_get_job _ _ Hn Ha) as G1. pose proof (In_get_job _ _ Hn Hj) as G2. congruence. }
  unfold recon_row. now rewrite Hv.
Qed.

Lemma fixed_snoc_some w ids j l s : NoDup (map j_id l) -> In j l -> verdict w j = Some s ->
  ~ In (j_id j) ids ->
  upd_jobs (j_id j) [JStatus s; JPid None; JCompleted (Some (w_now w))] (fixed w ids l) =
  fixed w (ids ++ [j_id j]) l.
Proof.
  intros Hn Hj Hv Hi. unfold fixed, upd_jobs. rewrite map_map. apply map_ext_in. intros a Ha.
  rewrite memZ_app. cbn [memZ]. rewrite orb_false_r.
  destruct (Z.eqb_spec (j_id a) (j_id j)) as [E|E].
  - assert (a = j) as ->.
    { pose proof (In_get_job _ _ Hn Ha) as G1. pose proof (In_get_job _ _ Hn Hj) as G2. congruence. }
    rewrite (proj2 (memZ_not_In _ _) Hi). rewrite Z.eqb_refl. cbn [orb].
    unfold recon_row. rewrite Hv. reflexivity.
  - rewrite orb_false_r. destruct (memZ (j_id a) ids).
    + rewrite recon_row_id. destruct (Z.eqb_spec (j_id a) (j_id j)); [contradiction|auto].
    + destruct (Z.eqb_spec (j_id a) (j_id j)); [contradiction|auto].
Qed.

(** A cancelled job whose process is alive can be archived. *)
Definition archivable (w : world) (j : job) : Prop :=
  j_jobpath j <> None /\ j_respath j <> None /\ w_merge w (j_id j) = None.

(** The archive that is written when a job is terminated. *)
Definition cancel_archive (w : world) (j : job) : list event :=
  match j_status j, j_pid j, j_respath j with
  | Srd, Some p, Some rp => if liveb w p then [EvArchive rp j] else []
  | _, _, _ => []
  end.

Section Manage.
  Context (w0 : world).
  Hypothesis Hnd : NoDup (map j_id (w_jobs w0)).

  Definition mstate (ids : list Z) (es : list event) : world :=
    add_events (set_jobs w0 (fixed w0 ids (w_jobs w0)) (w_seq w0)) es.

  Lemma run_finish ids es j s :
    In j (w_jobs w0) -> ~ In (j_id j) ids -> verdict w0 j = Some s ->
    run exec (bind (act ONow) (fun t => bind (update_job_id (j_id j) [JStatus s; JPid None; JCompleted (Some t)])
      (fun _ => Ret tt))) (mstate ids es) = (Ok tt, mstate (ids ++ [j_id j]) es).
  Proof.
    intros Hj Hi Hv. rewrite run_bind, run_act. cbn [exec]. rewrite run_bind, run_update_job_id.
    unfold mstate. rewrite ae_jobs, ae_seq, ae_set_jobs. cbn [w_jobs w_seq set_jobs].
    replace (w_now _) with (w_now w0) by (rewrite add_events_log; reflexivity).
    rewrite fixed_snoc_some by auto.
    destruct (in_get_job (fixed w0 (ids ++ [j_id j]) (w_jobs w0)) (j_id j)) as [j1 ->].
    { rewrite fixed_ids. now apply in_map. }
    reflexivity.
  Qed.

  Lemma run_manage_one ids es j : In j (w_jobs w0) -> ~ In (j_id j) ids -> j_pid j <> None ->
    exists x es', run exec (manage_one tt j) (mstate ids es) =
      (x, mstate (match x with Ok _ => ids ++ [j_id j] | Err _ => ids end) (es ++ es')) /\
      es' = match x with Ok _ => cancel_archive w0 j | Err _ => [] end /\
      ((forall p, j_status j = Srd -> j_pid j = Some p -> live w0 p -> archivable w0 j) -> x = Ok tt).
  Proof.
    intros Hj Hi Hp. destruct (j_pid j) as [p|] eqn:Ep; [|congruence]. clear Hp.
    unfold manage_one. rewrite Ep, run_bind, run_act. cbn [exec].
    assert (Epr : get_proc (w_procs (mstate ids es)) p = get_proc (w_procs w0) p).
    { unfold mstate. rewrite add_events_log. reflexivity. }
    rewrite Epr. unfold reconcile. rewrite run_bind, Ep.
    cbv beta iota.
    match goal with |- context [run exec (if is_some ?o then ?P else ?Q) (mstate ids es)] =>
      assert (Ea : run exec (if is_some o then P else Q) (mstate ids es) = (Ok (liveb w0 p), mstate ids es))
    end.
    { unfold liveb. destruct (get_proc (w_procs w0) p) as [pr|] eqn:Eg; cbn [is_some].
      - rewrite run_bind, run_act. cbn [exec]. rewrite Epr, ?Eg. reflexivity.
      - reflexivity. }
    rewrite Ea. cbv beta iota.
    destruct (j_status j) eqn:Es;
      try (exists (Ok tt), []; rewrite app_nil_r; split; [|unfold cancel_archive; rewrite ?Es; auto]; unfold mstate;
           rewrite fixed_snoc_none by (auto; unfold verdict; now rewrite Ep, Es); reflexivity).
    - (* running *)
      destruct (liveb w0 p) eqn:El.
      + exists (Ok tt), []. rewrite app_nil_r. split; [|unfold cancel_archive; rewrite ?Es; auto]. unfold mstate.
        rewrite fixed_snoc_none by (auto; unfold verdict; now rewrite Ep, Es, El). reflexivity.
      + exists (Ok tt), []. rewrite app_nil_r. split; [|unfold cancel_archive; rewrite ?Es; auto]. unfold finish_crashed.
        apply run_finish; auto. unfold verdict. now rewrite Ep, Es, El.
    - (* cancelled *)
      unfold finish_cancelled. rewrite run_bind, Ep.
      assert (V : verdict w0 j = Some Scd) by (unfold verdict; now rewrite Ep, Es).
      destruct (liveb w0 p) eqn:El.
      + rewrite run_bind, run_act. cbn [exec]. rewrite Epr. unfold liveb in El.
        destruct (get_proc (w_procs w0) p) as [pr|] eqn:Eg; [|discriminate].
        unfold merge_netcdfs. rewrite run_bind, run_assert.
        destruct (j_jobpath j) as [jp|] eqn:E1; cbn [is_some].
        2:{ exists (Err AssertionError), []. rewrite app_nil_r. split; auto. split; auto. intros H.
            destruct (H p eq_refl eq_refl) as [H1 _]; [|congruence]. apply liveb_live. unfold liveb. now rewrite Eg. }
        destruct (j_respath j) as [rp|] eqn:E2.
        2:{ exists (Err AssertionError), []. rewrite app_nil_r. split; auto. split; auto. intros H.
            destruct (H p eq_refl eq_refl) as (_ & H1 & _); [|congruence]. apply liveb_live. unfold liveb. now rewrite Eg. }
        rewrite run_archive.
        assert (Em : w_merge (mstate ids es) = w_merge w0) by (unfold mstate; rewrite add_events_log; reflexivity).
        rewrite Em. destruct (w_merge w0 (j_id j)) as [e|] eqn:E3.
        * exists (Err e), []. rewrite app_nil_r. split; auto. split; auto. intros H.
          destruct (H p eq_refl eq_refl) as (_ & _ & H1); [|congruence]. apply liveb_live. unfold liveb. now rewrite Eg.
        * exists (Ok tt), [EvArchive rp j].
          split; [|split; [unfold cancel_archive, liveb; now rewrite Es, Ep, E2, Eg, El|auto]].
          replace (add_event (mstate ids es) _) with (mstate ids (es ++ [EvArchive rp j]))
            by (unfold mstate; rewrite <- add_events_app; reflexivity).
          apply run_finish; auto.
      + rewrite run_ret. cbv beta iota. exists (Ok tt), []. rewrite app_nil_r.
        split; [|split; [unfold cancel_archive; rewrite Es, Ep, El; now destruct (j_respath j)|auto]]. apply run_finish; auto.
  Qed.

  Lemma run_manage_loop q : forall ids es,
    (forall j, In j q -> In j (w_jobs w0) /\ j_pid j <> None /\ ~ In (j_id j) ids) ->
    NoDup (map j_id q) ->
    exists x ids' es', run exec (forP manage_one tt q) (mstate ids es) = (x, mstate (ids ++ ids') (es ++ es')) /\
      (x = Ok tt -> ids' = map j_id q) /\
      (exists q1 q2, q = q1 ++ q2 /\ es' = flat_map (cancel_archive w0) q1 /\ (x = Ok tt -> q2 = [])) /\
      ((forall j p, In j q -> j_status j = Srd -> j_pid j = Some p -> live w0 p -> archivable w0 j) ->
       x = Ok tt).
  Proof.
    induction q as [|j q IH]; intros ids es Hq Hn.
    - exists (Ok tt), [], []. rewrite !app_nil_r. split; auto. split; auto. split; auto. now exists [], [].
    - rewrite run_forP_cons. destruct (Hq j (or_introl eq_refl)) as (H1 & H2 & H3).
      inversion Hn as [|? ? N1 N2]; subst.
      destruct (run_manage_one ids es j H1 H3 H2) as (x & es1 & R & Ees & HOk). rewrite R.
      destruct x as [u|e].
      + destruct u. destruct (IH (ids ++ [j_id j]) (es ++ es1)) as (x & ids' & es' & R' & K1 & KE & K2); auto.
        { intros j' Hj'. destruct (Hq j' (or_intror Hj')) as (A & B & C). split; auto. split; auto.
          intros K. apply in_app_iff in K as [K|[K|[]]]; auto. apply N1. rewrite K. now apply in_map. }
        exists x, (j_id j :: ids'), (es1 ++ es'). rewrite R', <- !app_assoc. split; auto. split.
        * intros E. cbn. now rewrite (K1 E).
        * split. { destruct KE as (q1 & q2 & -> & -> & KE). exists (j :: q1), q2. subst es1. auto. }
          intros H. apply K2. intros j' p Hj'. apply H. now right.
      + exists (Err e), [], es1. rewrite app_nil_r. split; auto. split; [discriminate|].
        split. { exists [], (j :: q). subst es1. split; auto. split; auto. discriminate. }
        intros H. apply HOk. intros p. apply H. now left.
  Qed.
End Manage.

Lemma manage_running_spec w x w' : wf_queue w -> run exec manage_running w = (x, w') ->
  exists es jobs', w' = add_events (set_jobs w jobs' (w_seq w)) es /\
    Forall2 (fun j j' => j' = j \/ reconciled w j j') (w_jobs w) jobs' /\
    (x = Ok tt -> Forall2 (reconciled w) (w_jobs w) jobs') /\
    (exists l1 l2, filter (fun j => is_some (j_pid j)) (w_jobs w) = l1 ++ l2 /\
       es = flat_map (cancel_archive w) l1 /\ (x = Ok tt -> l2 = [])) /\
    ((forall j p, In j (w_jobs w) -> j_status j = Srd -> j_pid j = Some p -> live w p -> archivable w j) ->
     x = Ok tt).
Proof.
  intros Hwf H. unfold manage_running in H. rewrite run_bind, run_act in H. cbn [exec jobs_where] in H.
  assert (Hnd := wf_NoDup w Hwf).
  assert (Ew : w = mstate w [] []).
  { unfold mstate, fixed. cbn. rewrite map_id. symmetry. now apply set_jobs_same. }
  set (q := filter _ (w_jobs w)) in H.
  destruct (run_manage_loop w Hnd q [] []) as (x1 & ids & es & R & K1 & KE & K2).
  { intros j Hj. apply filter_In in Hj as [Hj Hp]. split; auto. split; auto. destruct (j_pid j); [discriminate|discriminate Hp]. }
  { apply SSorted_NoDup. apply SSorted_filter. apply Hwf. }
  rewrite <- Ew in R. rewrite R in H. injection H as <- <-. cbn [app].
  exists es, (fixed w ids (w_jobs w)). split; [reflexivity|]. split; [|split; [|split; [exact KE|]]].
  - unfold fixed. generalize (w_jobs w) as l. induction l as [|j l IH]; constructor; auto.
    destruct (memZ _ _); auto. right. apply recon_row_spec.
  - intros E. apply K1 in E. subst ids. unfold fixed.
    assert (G : forall l, (forall j, In j l -> In j (w_jobs w)) ->
      Forall2 (reconciled w) l (map (fun j => if memZ (j_id j) (map j_id q) then recon_row w j else j) l)).
    { induction l as [|j l IH]; intros Hl; constructor; [|apply IH; intros; apply Hl; now right].
      destruct (memZ (j_id j) (map j_id q)) eqn:Em; [apply recon_row_spec|].
      assert (j_pid j = None) as Ep.
      { destruct (j_pid j) as [p|] eqn:Ep; auto. apply memZ_not_In in Em. elim Em. apply in_map. apply filter_In.
        split; [apply Hl; now left|]. now rewrite Ep. }
      unfold reconciled. now rewrite Ep. }
    apply G. auto.
  - intros H. apply K2. intros j p Hj. apply H. apply filter_In in Hj. tauto.
Qed.

(** ** The pipeline manager *)
Definition overb (w : world) (j : job) : bool :=
  match j_pid j, j_connected j, j_launched j with
  | None, Some _, _ => true
  | None, None, Some l => Z.ltb ten_days (w_now w - l)
  | None, None, None => false
  | Some p, _, _ => negb (liveb w p)
  end.

Lemma overb_over w j : overb w j = true <-> over w j.
Proof.
  unfold overb, over. destruct (j_pid j) as [p|].
  - rewrite negb_true_iff, liveb_dead. tauto.
  - destruct (j_connected j) as [c|].
    + split; auto. intros _. left. discriminate.
    + destruct (j_launched j) as [l|].
      * rewrite Z.ltb_lt. unfold ten_days. split.
        -- intros H. right. exists l. split; auto. lia.
        -- intros [H|(l' & E & H)]; [congruence|]. injection E as <-. lia.
      * split; [discriminate|]. intros [H|(l & E & _)]; [congruence|discriminate].
Qed.

Lemma run_gone j w : run exec (gone j) w = (Ok (overb w j), w).
Proof.
  unfold gone, overb. destruct (j_pid j) as [p|].
  - rewrite run_bind, run_act. cbn [exec]. unfold liveb.
    destruct (get_proc (w_procs w) p) as [pr|] eqn:E; cbn [is_some].
    + rewrite run_bind, run_act. cbn [exec]. rewrite E. cbn [run]. now rewrite negb_involutive.
    + reflexivity.
  - destruct (j_connected j); [reflexivity|]. destruct (j_launched j); reflexivity.
Qed.

(** Asking components to reset. *)
Definition reset_of (w : world) (d : daemon) (cn : string) (e : event) : Prop :=
  exists cmp port, component_port w d cn cmp port /\ e = EvRequest port (CReset (c_address cmp) (c_channel cmp)).

Lemma run_resets w0 d l : forall w, w_drvs w = w_drvs w0 -> w_driver w = w_driver w0 ->
  exists x es, run exec (forP (reset_component d) tt l) w = (x, add_events w es) /\
    (forall e, In e es -> exists cn, In cn l /\ reset_of w0 d cn e) /\
    (x = Ok tt -> forall cn, In cn l -> exists e, In e es /\ reset_of w0 d cn e) /\
    ((forall cn, In cn l -> exists cmp port r, component_port w0 d cn cmp port /\
        w_driver w0 port (CReset (c_address cmp) (c_channel cmp)) = Some r) -> x = Ok tt).
Proof.
  induction l as [|cn l IH]; intros w E1 E2.
  - exists (Ok tt), []. split; [reflexivity|]. split; [intros e []|]. split; [intros _ cn []|auto].
  - rewrite run_forP_cons. unfold reset_component at 1. rewrite run_bind.
    destruct (query_driver_of (w_drvs w0) (w_driver w0) d cn w E1 E2) as [es0 R0].
    assert (es0 = []) as ->.
    { unfold driver_of in R0. rewrite run_bind, run_lift in R0.
      destruct (need _) as [cmp|e].
      - rewrite run_bind, run_act in R0. cbn [exec] in R0.
        destruct (get_drv (w_drvs w) (c_driver cmp)); cbn in R0; injection R0 as _ R0;
          rewrite add_events_log in R0; apply (f_equal w_log) in R0; cbn in R0;
          symmetry in R0; apply (f_equal (@List.length event)) in R0; rewrite app_length, rev_length in R0;
          destruct es0; auto; cbn in R0; lia.
      - injection R0 as _ R0. rewrite add_events_log in R0; apply (f_equal w_log) in R0; cbn in R0;
          symmetry in R0; apply (f_equal (@List.length event)) in R0; rewrite app_length, rev_length in R0;
          destruct es0; auto; cbn in R0; lia. }
    cbn [add_events] in R0. rewrite R0.
    destruct (driver_ofR (w_drvs w0) d cn) as [[cmp dv]|e] eqn:Ed.
    2:{ exists (Err e), []. split; [reflexivity|]. split; [intros e' []|]. split; [discriminate|].
        intros H. destruct (H cn (or_introl eq_refl)) as (cmp & port & r & (C1 & dv & C2 & C3) & C4).
        assert (driver_ofR (w_drvs w0) d cn = Ok (cmp, dv)) by (apply driver_ofR_ok; auto). congruence. }
    pose proof (proj1 (driver_ofR_ok w0 d cn cmp dv) Ed) as [D1 D2].
    rewrite run_bind, run_act. cbn [exec fst snd]. unfold ask.
    destruct (dv_port dv) as [port|] eqn:Ep.
    2:{ exists (Err ZMQError), []. split; [reflexivity|]. split; [intros e' []|]. split; [discriminate|].
        intros H. destruct (H cn (or_introl eq_refl)) as (cmp' & port & r & (C1 & dv' & C2 & C3) & C4).
        assert (driver_ofR (w_drvs w0) d cn = Ok (cmp', dv')) by (apply driver_ofR_ok; auto). congruence. }
    assert (RO : reset_of w0 d cn (EvRequest port (CReset (c_address cmp) (c_channel cmp)))).
    { exists cmp, port. split; auto. split; auto. eauto. }
    rewrite E2. destruct (w_driver w0 port _) as [r|] eqn:Er.
    2:{ exists (Err Blocked), [EvRequest port (CReset (c_address cmp) (c_channel cmp))].
        split; [reflexivity|]. split.
        - intros e' [<-|[]]. exists cn. split; [now left|auto].
        - split; [discriminate|].
          intros H. destruct (H cn (or_introl eq_refl)) as (cmp' & port' & r & (C1 & dv' & C2 & C3) & C4).
          assert (driver_ofR (w_drvs w0) d cn = Ok (cmp', dv')) as K by (apply driver_ofR_ok; auto).
          rewrite Ed in K. injection K as <- <-. congruence. }
    rewrite run_ret. cbv beta iota. set (ev := EvRequest _ _) in *.
    destruct (IH (add_event w ev)) as (x & es & R & K1 & K2 & K3); auto.
    exists x, (ev :: es). split; [exact R|]. split; [|split].
    + intros e' [<-|He]; [exists cn; split; [now left|auto]|].
      destruct (K1 e' He) as (cn' & A & B). exists cn'. split; [now right|auto].
    + intros E cn' [<-|Hc]; [exists ev; split; [now left|auto]|].
      destruct (K2 E cn' Hc) as (e' & A & B). exists e'. split; [now right|auto].
    + intros H. apply K3. intros; apply H; now right.
Qed.

Definition cleared (names : list string) (l : list pipstate) : list pipstate :=
  map (fun p => if mem (p_name p) names then freed p else p) l.

Lemma cleared_names names l : map p_name (cleared names l) = map p_name l.
Proof. unfold cleared. rewrite map_map. apply map_ext. intros p. destruct (mem _ _); reflexivity. Qed.

Lemma mem_app x l1 l2 : mem x (l1 ++ l2) = mem x l1 || mem x l2.
Proof. induction l1 as [|a l1 IH]; cbn; auto. rewrite IH. now rewrite orb_assoc. Qed.

Lemma cleared_snoc names n l :
  upd_pips n [PJobid None; PReady false] (cleared names l) = cleared (names ++ [n]) l.
Proof.
  unfold upd_pips, cleared. rewrite map_map. apply map_ext. intros p. rewrite mem_app. cbn [mem].
  rewrite orb_false_r. destruct (mem (p_name p) names) eqn:E; cbn [orb].
  - cbn [p_name freed]. destruct (String.eqb (p_name p) n); reflexivity.
  - destruct (String.eqb (p_name p) n); reflexivity.
Qed.

Section Pips.
  Context (w0 : world) (d : daemon).

  Definition pstate (names : list string) (es : list event) : world :=
    add_events (set_pips w0 (cleared names (w_pips w0))) es.

  Definition all_asked (n : string) (es : list event) : Prop :=
    exists p, dget (df_pipelines (dm_df d)) n = Some p /\
      forall rc, In rc (pp_components p) -> exists e, In e es /\ reset_of w0 d (snd rc) e.

  Lemma run_release names es n : has_char "'" n = false ->
    exists x es', run exec (release d n) (pstate names es) =
       (x, pstate (match x with Ok _ => names ++ [n] | Err _ => names end) (es ++ es')) /\
      (x = Ok tt -> all_asked n es') /\
      (forall e, In e es' -> reset_request w0 d n e) /\
      (resettable w0 d n -> x = Ok tt).
  Proof.
    intros Hq. unfold release. rewrite run_bind, run_lift.
    destruct (dget (df_pipelines (dm_df d)) n) as [p|] eqn:Ep; cbn [need].
    2:{ exists (Err KeyError), []. rewrite app_nil_r. split; [reflexivity|]. split; [discriminate|].
        split; [intros e []|]. intros (_ & p & E & _). congruence. }
    rewrite run_bind.
    destruct (run_resets w0 d (dvals (pp_components p)) (pstate names es)) as (x & es' & R & K1 & K2 & K3).
    { unfold pstate. now rewrite ae_drvs. } { unfold pstate. now rewrite ae_driver. }
    rewrite R. exists (match x with Ok _ => Ok tt | Err e => Err e end), es'.
    split; [|split; [|split]].
    - destruct x as [u|e].
      + rewrite run_bind, run_update_pip by auto. cbn [run].
        f_equal. rewrite ae_pips, ae_set_pips. unfold pstate.
        rewrite ae_pips, ae_set_pips, add_events_app. cbn [w_pips set_pips]. now rewrite cleared_snoc.
      + unfold pstate. now rewrite add_events_app.
    - destruct x as [[]|e]; [|discriminate]. intros _. exists p. split; auto.
      intros rc Hrc. apply K2; auto. now apply in_map.
    - intros e He. destruct (K1 e He) as (cn & A & cmp & port & B & C).
      apply in_map_iff in A as (rc & <- & A). exists p, rc, cmp, port. auto.
    - intros (_ & p' & E & H). rewrite Ep in E. injection E as <-.
      assert (x = Ok tt) as ->; auto. apply K3. intros cn Hcn. apply in_map_iff in Hcn as (rc & <- & Hrc).
      auto.
  Qed.

  Definition held (p : pipstate) : Prop :=
    exists i j, p_jobid p = Some i /\ get_job (w_jobs w0) i = Some j.

  Lemma run_pip_one names es p : has_char "'" (p_name p) = false ->
    exists x names' es', run exec (pip_one d tt p) (pstate names es) =
       (x, pstate (names ++ names') (es ++ es')) /\
      (forall n, In n names' -> n = p_name p /\ orphaned w0 p /\ all_asked n es') /\
      (x = Ok tt -> orphaned w0 p -> In (p_name p) names') /\
      (forall e, In e es' -> orphaned w0 p /\ reset_request w0 d (p_name p) e) /\
      (held p \/ p_jobid p = None -> (orphaned w0 p -> resettable w0 d (p_name p)) -> x = Ok tt).
  Proof.
    intros Hq. unfold pip_one.
    destruct (p_jobid p) as [i|] eqn:Ei.
    2:{ exists (Ok tt), [], []. rewrite !app_nil_r. split; [reflexivity|].
        split; [intros n []|]. split; [|split; [intros e []|auto]].
        intros _ (i & j & E & _). congruence. }
    rewrite run_bind, run_act. cbn [exec].
    assert (Ejobs : w_jobs (pstate names es) = w_jobs w0) by (unfold pstate; now rewrite ae_jobs).
    rewrite Ejobs. destruct (get_job (w_jobs w0) i) as [j|] eqn:Ej.
    2:{ exists (Err TypeError), [], []. rewrite !app_nil_r. split; [reflexivity|].
        split; [intros n []|]. split; [discriminate|]. split; [intros e []|].
        intros [(i' & j & E & H)|H] _; [|congruence]. rewrite Ei in E. injection E as <-. congruence. }
    rewrite run_bind, run_gone.
    assert (Eo : overb (pstate names es) j = overb w0 j).
    { unfold overb, liveb, pstate. rewrite add_events_log. reflexivity. }
    rewrite Eo. destruct (overb w0 j) eqn:Eov.
    - apply overb_over in Eov.
      assert (Hor : orphaned w0 p) by (exists i, j; auto).
      destruct (run_release names es (p_name p) Hq) as (x & es' & R & K1 & K2 & K3).
      rewrite R. destruct x as [[]|e].
      + exists (Ok tt), [p_name p], es'. split; auto. split; [intros n [<-|[]]; auto|].
        split; [intros; now left|]. split; auto.
      + exists (Err e), [], es'. rewrite app_nil_r. split; auto. split; [intros n []|].
        split; [discriminate|]. split; [auto|]. intros _ H. apply K3. auto.
    - exists (Ok tt), [], []. rewrite !app_nil_r. split; [reflexivity|]. split; [intros n []|].
      split; [|split; [intros e []|auto]].
      intros _ (i' & j' & E1 & E2 & E3). rewrite Ei in E1. injection E1 as <-. rewrite Ej in E2. injection E2 as <-.
      apply overb_over in E3. congruence.
  Qed.

  Lemma run_pip_loop q : forall names es,
    (forall p, In p q -> has_char "'" (p_name p) = false) ->
    exists x names' es', run exec (forP (pip_one d) tt q) (pstate names es) =
       (x, pstate (names ++ names') (es ++ es')) /\
      (forall n, In n names' -> exists p, In p q /\ n = p_name p /\ orphaned w0 p /\ all_asked n es') /\
      (x = Ok tt -> forall p, In p q -> orphaned w0 p -> In (p_name p) names') /\
      (forall e, In e es' -> exists p, In p q /\ orphaned w0 p /\ reset_request w0 d (p_name p) e) /\
      ((forall p, In p q -> held p \/ p_jobid p = None) ->
       (forall p, In p q -> orphaned w0 p -> resettable w0 d (p_name p)) -> x = Ok tt).
  Proof.
    induction q as [|p q IH]; intros names es Hq.
    - exists (Ok tt), [], []. rewrite !app_nil_r. split; [reflexivity|]. split; [intros n []|].
      split; [intros _ p []|]. split; [intros e []|auto].
    - rewrite run_forP_cons.
      destruct (run_pip_one names es p (Hq p (or_introl eq_refl))) as (x & n1 & e1 & R & A1 & A2 & A3 & A4).
      rewrite R. destruct x as [[]|e].
      + destruct (IH (names ++ n1) (es ++ e1)) as (x & n2 & e2 & R2 & B1 & B2 & B3 & B4).
        { intros; apply Hq; now right. }
        exists x, (n1 ++ n2), (e1 ++ e2). rewrite R2, <- !app_assoc. split; auto. split; [|split; [|split]].
        * intros n Hn. apply in_app_iff in Hn as [Hn|Hn].
          -- destruct (A1 n Hn) as (-> & C1 & (pl & C2 & C3)). exists p. split; [now left|]. split; auto.
             split; auto. exists pl. split; auto. intros rc Hrc. destruct (C3 rc Hrc) as (ev & D1 & D2).
             exists ev. split; auto. apply in_app_iff. auto.
          -- destruct (B1 n Hn) as (p' & C0 & -> & C1 & (pl & C2 & C3)). exists p'. split; [now right|]. split; auto.
             split; auto. exists pl. split; auto. intros rc Hrc. destruct (C3 rc Hrc) as (ev & D1 & D2).
             exists ev. split; auto. apply in_app_iff. auto.
        * intros E p' [<-|Hp'] Ho; apply in_app_iff; auto.
        * intros ev He. apply in_app_iff in He as [He|He].
          -- destruct (A3 ev He). exists p. split; [now left|auto].
          -- destruct (B3 ev He) as (p' & C1 & C2). exists p'. split; [now right|auto].
        * intros H1 H2. apply B4; intros; [apply H1|apply H2]; auto; now right.
      + exists (Err e), n1, e1. split; auto. split; [|split; [discriminate|split]].
        * intros n Hn. destruct (A1 n Hn) as (-> & C1 & C2). exists p. split; [now left|auto].
        * intros ev He. destruct (A3 ev He). exists p. split; [now left|auto].
        * intros H1 H2. apply A4; [apply H1|apply H2]; now left.
  Qed.
End Pips.

Lemma pip_pass_spec d w x w' : w_daemon w = Some d -> NoDup (map p_name (w_pips w)) ->
  (forall p, In p (w_pips w) -> has_char "'" (p_name p) = false) ->
  run exec pip_pass w = (x, w') ->
  exists pips' es, w' = add_events (set_pips w pips') es /\
    Forall2 (fun p p' => p' = p \/
      (orphaned w p /\ p' = freed p /\
       exists pl, dget (df_pipelines (dm_df d)) (p_name p) = Some pl /\
         forall rc, In rc (pp_components pl) -> exists cmp port, component_port w d (snd rc) cmp port /\
           In (EvRequest port (CReset (c_address cmp) (c_channel cmp))) es)) (w_pips w) pips' /\
    (forall e, In e es -> exists p, In p (w_pips w) /\ orphaned w p /\ reset_request w d (p_name p) e) /\
    (x = Ok tt -> Forall2 (fun p p' => orphaned w p -> p' = freed p) (w_pips w) pips') /\
    ((forall p i, In p (w_pips w) -> p_jobid p = Some i -> get_job (w_jobs w) i <> None) ->
     (forall p, In p (w_pips w) -> orphaned w p -> resettable w d (p_name p)) -> x = Ok tt).
Proof.
  intros Hd Hn Hq H. unfold pip_pass in H. rewrite run_bind, run_act in H. cbn [exec] in H.
  rewrite Hd in H. rewrite run_bind, run_act in H. cbn [exec] in H. set (q := filter _ (w_pips w)) in H.
  assert (Ew : w = pstate w [] []).
  { unfold pstate, cleared. cbn. rewrite map_id. symmetry. now apply set_pips_same. }
  assert (Hin : forall p, In p q -> In p (w_pips w)) by (intros p K; apply filter_In in K; tauto).
  destruct (run_pip_loop w d q [] []) as (x1 & names & es & R & K1 & K2 & K3 & K4).
  { intros p Hp. auto. }
  rewrite <- Ew in R. rewrite R in H. injection H as <- <-. cbn [app].
  assert (Hor : forall p, In p (w_pips w) -> orphaned w p -> In p q).
  { intros p Hp (i & j & E & _). apply filter_In. split; auto. now rewrite E. }
  exists (cleared names (w_pips w)), es. split; [reflexivity|]. split; [|split; [|split]].
  - assert (G : forall l, (forall p, In p l -> In p (w_pips w)) ->
      Forall2 (fun p p' => p' = p \/ (orphaned w p /\ p' = freed p /\
       exists pl, dget (df_pipelines (dm_df d)) (p_name p) = Some pl /\
         forall rc, In rc (pp_components pl) -> exists cmp port, component_port w d (snd rc) cmp port /\
           In (EvRequest port (CReset (c_address cmp) (c_channel cmp))) es)) l (cleared names l)).
    { induction l as [|p l IH]; intros Hl; constructor; [|apply IH; intros; apply Hl; now right].
      destruct (mem (p_name p) names) eqn:Em; auto. right. apply mem_In in Em.
      destruct (K1 _ Em) as (p' & A1 & A2 & A3 & pl & A4 & A5).
      assert (p' = p) as ->.
      { pose proof (In_get_pip _ _ Hn (Hin _ A1)) as G1.
        pose proof (In_get_pip _ _ Hn (Hl p (or_introl eq_refl))) as G2. congruence. }
      split; auto. split; auto. exists pl. split; auto. intros rc Hrc.
      destruct (A5 rc Hrc) as (ev & B1 & cmp & port & B2 & ->). eauto. }
    apply G. auto.
  - intros e He. destruct (K3 e He) as (p & A & B). exists p. auto.
  - intros E. assert (G : forall l, (forall p, In p l -> In p (w_pips w)) ->
      Forall2 (fun p p' => orphaned w p -> p' = freed p) l (cleared names l)).
    { induction l as [|p l IH]; intros Hl; constructor; [|apply IH; intros; apply Hl; now right].
      intros Ho. assert (mem (p_name p) names = true) as ->; auto. apply mem_In. apply K2; auto.
      apply Hor; auto. apply Hl. now left. }
    apply G. auto.
  - intros H1 H2. apply K4.
    + intros p Hp. destruct (p_jobid p) as [i|] eqn:E; auto. left.
      destruct (get_job (w_jobs w) i) as [j|] eqn:Ej; [|now elim (H1 p i (Hin _ Hp) E)].
      exists i, j. auto.
    + intros p Hp. apply H2. auto.
Qed.

(** ** The job process *)
Lemma upd_jobs_app id cs1 cs2 l : upd_jobs id cs2 (upd_jobs id cs1 l) = upd_jobs id (cs1 ++ cs2) l.
Proof.
  unfold upd_jobs. rewrite map_map. apply map_ext. intros j.
  destruct (Z.eqb (j_id j) id) eqn:E.
  - rewrite set_jcols_id, E. unfold set_jcols. now rewrite fold_left_app.
  - now rewrite E.
Qed.

Lemma tomato_job_spec pid a w w' : has_char "'" (ja_pipeline a) = false ->
  run exec (tomato_job pid a) w = (Ok tt, w') ->
  exists ok j out es, w_main w (ja_jobid a) = Ok ok /\
    get_job (w_jobs w) (ja_jobid a) = Some j /\ pl_outpath (ja_payload a) = Some out /\
    w' = add_events (set_pips (set_jobs w (upd_jobs (ja_jobid a)
           [JPid (Some pid); JStatus Sr; JConnected (Some (w_now w));
            JRespath (Some (res_path out (ja_payload a) (ja_jobid a)));
            JSnappath (Some (snap_path out (ja_jobid a))); JJobpath (Some (job_path (ja_dir a)));
            JStatus (if ok then Sc else Sce); JCompleted (Some (w_now w))] (w_jobs w)) (w_seq w))
         (upd_pips (ja_pipeline a) [PJobid None; PReady (pl_unlock (j_payload j))] (w_pips w))) es /\
    es = [EvArchive (res_path out (ja_payload a) (ja_jobid a))
           (set_jcols [JPid (Some pid); JStatus Sr; JConnected (Some (w_now w));
            JRespath (Some (res_path out (ja_payload a) (ja_jobid a)));
            JSnappath (Some (snap_path out (ja_jobid a))); JJobpath (Some (job_path (ja_dir a)));
            JCompleted (Some (w_now w)); JStatus (if ok then Sc else Sce)] j)].
Proof.
  intros Hq. unfold tomato_job. rewrite run_bind, run_act. cbn [exec].
  rewrite run_bind, run_update_job_id. rewrite get_job_upd, Z.eqb_refl.
  destruct (get_job (w_jobs w) (ja_jobid a)) as [j|] eqn:Ej; cbn [option_map]; [|discriminate].
  destruct (pl_outpath (ja_payload a)) as [out|] eqn:Eo; [|discriminate].
  rewrite run_bind, run_act. cbn [exec w_outdir set_jobs]. destruct (w_outdir w out); [discriminate|].
  rewrite run_bind, run_update_job_id. cbn [w_jobs set_jobs w_seq]. rewrite upd_jobs_app.
  rewrite get_job_upd, Z.eqb_refl, Ej. cbn [option_map].
  assert (Eid : forall cs, j_id (set_jcols cs j) = ja_jobid a).
  { intros cs. rewrite set_jcols_id. now apply get_job_In in Ej. }
  set (j2 := set_jcols _ j). assert (E2 : j_id j2 = ja_jobid a) by apply Eid.
  assert (P2 : j_jobpath j2 = Some (job_path (ja_dir a))) by reflexivity.
  assert (R2 : j_respath j2 = Some (res_path out (ja_payload a) (ja_jobid a))) by reflexivity.
  assert (J2 : j2 = set_jcols [JPid (Some pid); JStatus Sr; JConnected (Some (w_now w));
            JRespath (Some (res_path out (ja_payload a) (ja_jobid a)));
            JSnappath (Some (snap_path out (ja_jobid a))); JJobpath (Some (job_path (ja_dir a)))] j) by reflexivity.
  clearbody j2.
  rewrite run_bind, run_act. cbn [exec w_main set_jobs]. rewrite E2.
  destruct (w_main w (ja_jobid a)) as [ok|e] eqn:Em; [|discriminate].
  rewrite run_bind, run_act. cbn [exec w_now set_jobs].
  rewrite run_bind. unfold merge_netcdfs. rewrite run_bind, run_assert.
  set (j3 := set_jcols _ j2).
  assert (E3 : j_id j3 = ja_jobid a) by (unfold j3; now rewrite set_jcols_id).
  assert (P3 : j_jobpath j3 = j_jobpath j2) by reflexivity.
  assert (R3 : j_respath j3 = j_respath j2) by reflexivity.
  assert (J3 : j3 = set_jcols [JPid (Some pid); JStatus Sr; JConnected (Some (w_now w));
            JRespath (Some (res_path out (ja_payload a) (ja_jobid a)));
            JSnappath (Some (snap_path out (ja_jobid a))); JJobpath (Some (job_path (ja_dir a)));
            JCompleted (Some (w_now w)); JStatus (if ok then Sc else Sce)] j)
    by (unfold j3; rewrite J2; reflexivity).
  clearbody j3. rewrite P3, P2, R3, R2. cbn [is_some].
  rewrite run_archive. cbn [w_merge set_jobs]. rewrite E3.
  destruct (w_merge w (ja_jobid a)); [discriminate|].
  rewrite run_bind.
  match goal with |- context [run exec ?P (add_event ?ww ?ee)] =>
    assert (K : run exec P (add_event ww ee) = (Ok tt, add_event ww ee) \/
                exists e, run exec P (add_event ww ee) = (Err e, add_event ww ee)) end.
  { destruct (ja_repos a); [now left|]. cbn. destruct (w_crate w (j_id j2)); cbn; eauto. }
  destruct K as [K|[e K]]; rewrite K; [|discriminate]. clear K.
  rewrite run_bind, run_update_job_id. cbn [w_jobs set_jobs add_event w_seq].
  rewrite upd_jobs_app, get_job_upd, Z.eqb_refl, Ej. cbn [option_map].
  rewrite run_bind, run_update_pip by auto. cbn [run].
  intros H. injection H as <-. exists ok, j, out. eexists. split; auto. split; auto. split; auto.
  split; [|rewrite <- J3; reflexivity]. reflexivity.
Qed.
