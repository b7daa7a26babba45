(** * P_Archive: property C98 (what result files and snapshots say about their job) *)
From Coq Require Import List String Ascii ZArith Bool Lia Arith.
From Verif Require Import Base PyStr BaseFacts Types ConfigModel Prog ProgFacts World WorldFacts Replies
  CmdModel KetchupModel JobModel SpecQueue SpecJob KetchupProofs CmdProofs MatchProofs JobProofs SuperProofs P_JobFacts ExWorld.
Import ListNotations.
Open Scope string_scope.
Open Scope Z_scope.

(** A job process that comes to its end writes one file, at the path that is recorded;
    it describes the job exactly as the database does from then on. *)
Theorem C98_final :
  forall pid a w w', has_char "'" (ja_pipeline a) = false ->
  run exec (tomato_job pid a) w = (Ok tt, w') ->
  exists path j', get_job (w_jobs w') (ja_jobid a) = Some j' /\ j_respath j' = Some path /\
    (j_status j' = Sc \/ j_status j' = Sce) /\ j_completed j' = Some (w_now w) /\
    w_log w' = EvArchive path j' :: w_log w.
Proof.
  intros pid a w w' Hq H.
  destruct (c64_outcome pid a w w' Hq H) as (ok & j & j' & _ & _ & H1 & H2 & H3 & H4 & _ & _ & _ & _ & _ & path & H5 & H6).
  exists path, j'. split; [exact H1|]. split; [exact H5|]. split; [|auto].
  destruct ok; [left; now apply H2|right; now apply H3].
Qed.
Print Assumptions C98_final.

Example C98_final_case :
  let a := mkArgs "pip-1" exw_payload [] 2 ("/jobs", 2) in
  let w' := snd (run exec (tomato_job 12 a) exw_up) in
  match w_log w' with
  | EvArchive p j :: _ => Some j = get_job (w_jobs w') 2 /\ p = "/out/results.2.nc" /\ j_status j = Sc
  | _ => False
  end.
Proof. vm_compute. repeat split. Qed.

(** Jobs that are terminated by the daemon: a file is written exactly for those whose
    process is alive, and what it says is what was recorded before, not that the job was
    cancelled, nor when. *)
Theorem C98_cancelled :
  forall w w', wf_queue w -> run exec manage_running w = (Ok tt, w') ->
  exists es, w_log w' = (es ++ w_log w)%list /\
    (forall e, In e es <-> exists j p path, e = EvArchive path j /\ In j (w_jobs w) /\ j_status j = Srd /\
       j_pid j = Some p /\ live w p /\ j_respath j = Some path) /\
    (forall path j, In (EvArchive path j) es -> exists j', get_job (w_jobs w') (j_id j) = Some j' /\
       j_status j' = Scd /\ j_completed j' = Some (w_now w) /\ j_status j <> j_status j').
Proof.
  intros w w' Hw H.
  destruct (manage_running_spec w _ w' Hw H) as (es & jobs' & -> & _ & R & (l1 & l2 & E1 & E2 & E3) & _).
  specialize (R eq_refl). rewrite (E3 eq_refl), app_nil_r in E1. subst l1. clear E3 l2.
  assert (M : forall e, In e (rev es) <-> exists j p path, e = EvArchive path j /\ In j (w_jobs w) /\ j_status j = Srd /\
       j_pid j = Some p /\ live w p /\ j_respath j = Some path).
  { intros e. rewrite <- in_rev. subst es. rewrite in_flat_map. split.
    - intros (j & Hj & He). apply filter_In in Hj as [Hj _]. unfold cancel_archive in He.
      destruct (j_status j) eqn:Es; try contradiction. destruct (j_pid j) as [p|] eqn:Ep; try contradiction.
      destruct (j_respath j) as [rp|] eqn:Er; try contradiction. destruct (liveb w p) eqn:El; try contradiction.
      destruct He as [<-|[]]. exists j, p, rp. repeat split; auto. now apply liveb_live.
    - intros (j & p & path & -> & Hj & Es & Ep & Hl & Er). exists j. split.
      + apply filter_In. split; [exact Hj|]. now rewrite Ep.
      + unfold cancel_archive. rewrite Es, Ep, Er. apply liveb_live in Hl. rewrite Hl. now left. }
  exists (rev es). split; [|split; [exact M|]].
  - rewrite add_events_log. reflexivity.
  - intros path j Hj. apply M in Hj as (j0 & p & path0 & E & Hin & Es & Ep & _ & _). injection E as <- <-.
    rewrite ae_jobs. cbn [w_jobs set_jobs].
    exists (closed_row j Scd (w_now w)). split; [|split; [reflexivity|split; [reflexivity|rewrite Es; discriminate]]].
    assert (Hk : forall a b : job, reconciled w a b -> j_id b = j_id a).
    { intros a b K. unfold reconciled in K. destruct (j_pid a); [|now subst].
      destruct K as [(_ & ->)|[(_ & _ & ->)|[(_ & _ & ->)|(_ & _ & ->)]]]; reflexivity. }
    assert (Hn := wf_NoDup w Hw).
    pose proof (In_get_job _ _ Hn Hin) as G.
    assert (F : exists b, get_job jobs' (j_id j) = Some b /\ reconciled w j b).
    { clear - R Hk G. revert G. unfold get_job. induction R as [|a b la lb K R IH]; cbn; [discriminate|].
      rewrite (Hk _ _ K). destruct (Z.eqb (j_id a) (j_id j)); [|exact IH].
      intros E. injection E as ->. eauto. }
    destruct F as (b & -> & K). f_equal. unfold reconciled in K. rewrite Ep, Es in K.
    destruct K as [(_ & ->)|[(K & _)|[(K & _)|(_ & K & _)]]]; try discriminate; try contradiction. reflexivity.
Qed.
Print Assumptions C98_cancelled.

(** So the property is false: the file of a cancelled job says that it is about to be
    terminated, without a time of completion, for ever. *)
Theorem C98_refuted :
  exists w w' path jf j', wf_queue w /\ run exec manage_running w = (Ok tt, w') /\
    w_log w' = EvArchive path jf :: w_log w /\
    (j_status jf, j_completed jf) = (Srd, None) /\
    get_job (w_jobs w') (j_id jf) = Some j' /\ (j_status j', j_completed j') = (Scd, Some 1000).
Proof.
  exists (set_jobs exw_up (upd_jobs 2 [JStatus Srd; JJobpath (Some "/jobs/2"); JRespath (Some "/out/results.2.nc")]
           (w_jobs exw_up)) (w_seq exw_up)).
  do 4 eexists. split; [split; [|split]; vm_compute; repeat constructor; discriminate|].
  split; [vm_compute; reflexivity|]. split; [vm_compute; reflexivity|]. split; [vm_compute; reflexivity|].
  split; vm_compute; reflexivity.
Qed.
Print Assumptions C98_refuted.
