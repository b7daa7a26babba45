(** * KetchupProofs: the job queue commands *)
From Coq Require Import List String Ascii ZArith Bool Lia Sorted
  DecimalString DecimalPos DecimalZ.
From Verif Require Import Base BaseFacts PyStr Types ConfigModel Prog ProgFacts World WorldFacts
  Replies CmdModel KetchupModel SpecQueue.
Import ListNotations.
Open Scope list_scope.
Open Scope Z_scope.

Lemma run_with_daemon port f w :
  run exec (with_daemon port f) w =
  match w_daemon w with
  | None => (Ok (mkReply false (MNotRunning port) RNone), w)
  | Some d => run exec (f d) w
  end.
Proof.
  unfold with_daemon. rewrite run_bind, run_act. cbn [exec].
  destruct (w_daemon w); reflexivity.
Qed.

(** ** Well-formed queues *)
Lemma SSorted_NoDup l : StronglySorted Z.lt l -> NoDup l.
Proof.
  induction 1 as [|a l Hs IH Hf]; constructor; auto.
  intros H. rewrite Forall_forall in Hf. specialize (Hf _ H). lia.
Qed.

Lemma wf_NoDup w : wf_queue w -> NoDup (map j_id (w_jobs w)).
Proof. intros [H _]. now apply SSorted_NoDup. Qed.

Lemma SSorted_filter {A} (key : A -> Z) (f : A -> bool) l :
  StronglySorted Z.lt (map key l) -> StronglySorted Z.lt (map key (filter f l)).
Proof.
  induction l as [|a l IH]; cbn; intros H; [constructor|].
  inversion H as [|? ? Hs Hf]; subst. destruct (f a); cbn; auto.
  constructor; auto. rewrite Forall_forall in *. intros x Hx. apply Hf.
  rewrite in_map_iff in *. destruct Hx as (y & <- & Hy). apply filter_In in Hy as [Hy _]. eauto.
Qed.

(** ** Submit *)
Lemma v_gt_false a b : v_gt a b = false <-> fst a < fst b \/ (fst a = fst b /\ snd a <= snd b).
Proof.
  unfold v_gt. rewrite orb_false_iff, andb_false_iff, !Z.ltb_ge, Z.eqb_neq. lia.
Qed.

Lemma supported_iff v :
  supported v <-> match vp_version v with Some ver => v_gt ver latest_payload = false | None => True end.
Proof.
  unfold supported. destruct (vp_version v) as [ver|].
  - rewrite v_gt_false. cbn. split; [intros H; apply H; auto|].
    intros H ver' E. injection E as <-. exact H.
  - split; auto. intros _ ver E. discriminate.
Qed.

Lemma upgrade_spec : forall v, upgraded v (upgrade v).
Proof.
  fix IH 1. intros [ver p [temp|]]; cbn.
  - assert (S : supported temp -> upgraded (VPayload ver p (Some temp)) (upgrade temp)).
    { intros S. destruct (IH temp) as [H1 H2]. split; auto.
      apply steps_next with temp; auto. }
    assert (N : ~ supported temp -> upgraded (VPayload ver p (Some temp)) (VPayload ver p (Some temp))).
    { intros N. split; [constructor|]. cbn. intros v E. injection E as <-. exact N. }
    rewrite supported_iff in S, N.
    destruct (vp_version temp) as [ver'|]; [|apply S; auto].
    destruct (v_gt ver' latest_payload); [apply N; discriminate|apply S; auto].
  - split; [constructor|]. cbn. discriminate.
Qed.

Lemma fill_paths_spec cwd p : located cwd p (fill_paths cwd p).
Proof.
  unfold located, fill_paths.
  destruct p as [sa me [o|] pr re [[i [sp|]]|] un us ip]; cbn; repeat split; auto;
    eexists; repeat split; reflexivity.
Qed.

Lemma unknown_repo_none st repos :
  unknown_repo st repos = None <-> forall r, In r repos -> known_repo st r.
Proof.
  assert (G : find (fun r => negb (String.eqb r "default") && negb (dhas (st_repos st) r)) repos = None
    <-> forall r, In r repos -> known_repo st r).
  { unfold known_repo. split.
    - intros H r Hr. pose proof (find_none _ _ H r Hr) as E.
      apply andb_false_iff in E as [E|E]; apply negb_false_iff in E.
      + apply String.eqb_eq in E. auto.
      + apply dhas_true in E. right. now apply dget_Some_key.
    - intros H. destruct (find _ repos) as [r|] eqn:E; auto.
      apply find_some in E as [Hr E]. apply andb_true_iff in E as [E1 E2].
      apply negb_true_iff in E1, E2. apply String.eqb_neq in E1. apply dhas_false in E2.
      destruct (H r Hr) as [?|Hin]; [contradiction|].
      apply dget_None in E2. contradiction. }
  unfold unknown_repo.
  destruct (match repos with [r] => String.eqb r "default" | _ => false end) eqn:E; [|exact G].
  split; auto. intros _ r Hr. destruct repos as [|a [|b l]]; try discriminate.
  apply String.eqb_eq in E. destruct Hr as [<-|[]]. now left.
Qed.

Lemma find_app {A} (f : A -> bool) l1 l2 :
  find f (l1 ++ l2) = match find f l1 with Some x => Some x | None => find f l2 end.
Proof. induction l1 as [|a l1 IH]; cbn; auto. destruct (f a); auto. Qed.

(** The id that [insert_job] reads back: the first job with that time stamp. *)
Lemma run_submit f cwd name d w :
  run exec (submit f cwd name d) w =
  match f with
  | PfMissing => (Ok (mkReply false MNoPayload RNone), w)
  | PfSuffix => (Ok (mkReply false MBadSuffix RNone), w)
  | PfBad e => (Err e, w)
  | PfOk v =>
      let p := fill_paths cwd (vp_payload (upgrade v)) in
      match unknown_repo (dm_settings d) (pl_repos p) with
      | Some r => (Ok (mkReply false (MUnknownRepo r) (RSettings (dm_settings d))), w)
      | None =>
          let nj := fresh_job (w_seq w + 1) p name (w_now w) in
          let w' := set_jobs w (w_jobs w ++ [nj]) (w_seq w + 1) in
          let id := match find (fun j => Z.eqb (j_submitted j) (w_now w)) (w_jobs w) with
                    | Some j => j_id j | None => w_seq w + 1 end in
          match get_job (w_jobs w ++ [nj]) id with
          | Some j => (Ok (mkReply true (MSubmitted (j_id j) (j_jobname j)) (RJob j)), w')
          | None => (Err TypeError, w')
          end
      end
  end.
Proof.
  unfold submit. destruct f as [| |e|v]; try reflexivity. cbv zeta.
  set (p := fill_paths cwd _).
  destruct (unknown_repo _ _) as [r|]; [reflexivity|].
  rewrite run_bind, run_act. cbn [exec]. rewrite run_bind.
  unfold insert_job. rewrite run_bind, run_act. cbn [exec].
  rewrite run_bind, run_act. cbn [exec]. cbn [w_jobs set_jobs w_seq j_submitted new_job with_id].
  change (with_id (new_job p name (w_now w)) (w_seq w + 1))
    with (fresh_job (w_seq w + 1) p name (w_now w)).
  rewrite find_app. cbn [find].
  destruct (find (fun j => j_submitted j =? w_now w) (w_jobs w)) as [j|] eqn:E.
  - rewrite run_job_get. cbn [w_jobs set_jobs]. destruct (get_job _ (j_id j)); reflexivity.
  - replace (j_submitted (fresh_job (w_seq w + 1) p name (w_now w)) =? w_now w) with true
      by (symmetry; apply Z.eqb_refl).
    rewrite run_job_get. cbn [w_jobs set_jobs].
    change (j_id (fresh_job (w_seq w + 1) p name (w_now w))) with (w_seq w + 1).
    destruct (get_job _ (w_seq w + 1)); reflexivity.
Qed.

Lemma submit_read_back w nj :
  wf_queue w -> j_id nj = w_seq w + 1 ->
  exists j, get_job (w_jobs w ++ [nj])
    (match find (fun j => Z.eqb (j_submitted j) (w_now w)) (w_jobs w) with
     | Some j => j_id j | None => w_seq w + 1 end) = Some j /\
    match find (fun j => Z.eqb (j_submitted j) (w_now w)) (w_jobs w) with
    | Some j' => j = j' | None => j = nj end.
Proof.
  intros Hw En. rewrite get_job_app.
  destruct (find _ (w_jobs w)) as [j|] eqn:E.
  - apply find_some in E as [Hj _]. rewrite (In_get_job _ _ (wf_NoDup w Hw) Hj). eauto.
  - destruct (get_job (w_jobs w) (w_seq w + 1)) as [j|] eqn:Eg.
    + apply get_job_In in Eg as [Hj Ej]. destruct Hw as (_ & Hf & _).
      rewrite Forall_forall in Hf. specialize (Hf j Hj). lia.
    + rewrite En, Z.eqb_refl. eauto.
Qed.

Lemma submit_adds port f cwd name w r w' :
  wf_queue w ->
  run exec (ketchup_submit port f cwd name) w = (Ok r, w') -> r_ok r = true ->
  exists v v' p,
    f = PfOk v /\ upgraded v v' /\ located cwd (vp_payload v') p /\
    w' = set_jobs w (w_jobs w ++ [fresh_job (w_seq w + 1) p name (w_now w)]) (w_seq w + 1) /\
    (forall j, In j (w_jobs w) -> j_id j < w_seq w + 1).
Proof.
  intros Hw H Hr. unfold ketchup_submit in H. rewrite run_with_daemon in H.
  destruct (w_daemon w) as [d|]; [|injection H as <- <-; discriminate].
  rewrite run_submit in H. destruct f as [| |e|v]; try (injection H as <- <-; discriminate); try discriminate.
  cbv zeta in H.
  destruct (unknown_repo _ _) as [x|]; [injection H as <- <-; discriminate|].
  exists v, (upgrade v), (fill_paths cwd (vp_payload (upgrade v))).
  split; auto. split; [apply upgrade_spec|]. split; [apply fill_paths_spec|].
  destruct (get_job _ _) as [j0|]; [|discriminate]. injection H as _ <-. split; auto.
  destruct Hw as (_ & Hf & _). rewrite Forall_forall in Hf.
  intros j Hj. specialize (Hf j Hj). lia.
Qed.

Lemma submit_reports port f cwd name w r w' :
  wf_queue w -> (forall j, In j (w_jobs w) -> j_submitted j <> w_now w) ->
  run exec (ketchup_submit port f cwd name) w = (Ok r, w') -> r_ok r = true ->
  exists p, r_msg r = MSubmitted (w_seq w + 1) name /\
            r_data r = RJob (fresh_job (w_seq w + 1) p name (w_now w)) /\
            get_job (w_jobs w') (w_seq w + 1) = Some (fresh_job (w_seq w + 1) p name (w_now w)).
Proof.
  intros Hw Ht H Hr. unfold ketchup_submit in H. rewrite run_with_daemon in H.
  destruct (w_daemon w) as [d|]; [|injection H as <- <-; discriminate].
  rewrite run_submit in H. destruct f as [| |e|v]; try (injection H as <- <-; discriminate); try discriminate.
  cbv zeta in H.
  destruct (unknown_repo _ _) as [x|]; [injection H as <- <-; discriminate|].
  set (p := fill_paths cwd (vp_payload (upgrade v))) in *. exists p.
  set (nj := fresh_job _ _ _ _) in *.
  destruct (submit_read_back w nj Hw eq_refl) as (j & E1 & E2).
  assert (En : find (fun j => Z.eqb (j_submitted j) (w_now w)) (w_jobs w) = None).
  { destruct (find _ _) as [j0|] eqn:E; auto. apply find_some in E as [A B].
    apply Z.eqb_eq in B. now apply Ht in A. }
  rewrite E1 in H. rewrite En in E1, E2. subst j. injection H as <- <-. cbn. auto.
Qed.

Lemma submit_outcome port f cwd name w d :
  wf_queue w -> w_daemon w = Some d ->
  ((exists r w', run exec (ketchup_submit port f cwd name) w = (Ok r, w') /\ r_ok r = true) <->
   exists v v', f = PfOk v /\ upgraded v v' /\
     forall repo, In repo (pl_repos (vp_payload v')) -> known_repo (dm_settings d) repo).
Proof.
  intros Hw Ed. unfold ketchup_submit. rewrite run_with_daemon, Ed, run_submit. split.
  - intros (r & w' & H & Hr).
    destruct f as [| |e|v]; try (injection H as <- <-; discriminate); try discriminate.
    cbv zeta in H. exists v, (upgrade v). split; auto. split; [apply upgrade_spec|].
    destruct (fill_paths_spec cwd (vp_payload (upgrade v))) as (_ & _ & _ & Er & _).
    destruct (unknown_repo _ _) as [x|] eqn:E; [injection H as <- <-; discriminate|].
    rewrite Er in E. exact (proj1 (unknown_repo_none _ _) E).
  - intros (v & v' & -> & Hu & Hk). cbv zeta.
    assert (v' = upgrade v) as ->.
    { destruct Hu as [S E]. clear -S E. induction S as [v|v v1 v2 U S1 S2 IH].
      - destruct v as [ver p [t|]]; cbn in *; auto.
        specialize (E t eq_refl). rewrite supported_iff in E.
        destruct (vp_version t) as [x|]; [|exfalso; auto].
        destruct (v_gt x latest_payload); auto. exfalso; auto.
      - destruct v as [ver p [t|]]; cbn in *; [|discriminate]. injection U as ->.
        rewrite supported_iff in S1. destruct (vp_version v1) as [x|]; auto.
        rewrite S1. auto. }
    destruct (fill_paths_spec cwd (vp_payload (upgrade v))) as (_ & _ & _ & Er & _).
    destruct (unknown_repo _ _) as [x|] eqn:E.
    + rewrite Er in E. apply (proj2 (unknown_repo_none _ _)) in Hk. congruence.
    + set (nj := fresh_job _ _ _ _).
      destruct (submit_read_back w nj Hw eq_refl) as (j & E1 & E2). rewrite E1. eauto.
Qed.

Lemma submit_rejected port f cwd name w x w' :
  wf_queue w ->
  run exec (ketchup_submit port f cwd name) w = (x, w') ->
  (forall r, x = Ok r -> r_ok r = false) -> w' = w.
Proof.
  intros Hw H Hx. unfold ketchup_submit in H. rewrite run_with_daemon in H.
  destruct (w_daemon w) as [d|]; [|now injection H as _ <-].
  rewrite run_submit in H. destruct f as [| |e|v]; try now injection H as _ <-.
  cbv zeta in H. destruct (unknown_repo _ _) as [y|]; [now injection H as _ <-|].
  set (nj := fresh_job _ _ _ _) in *.
  destruct (submit_read_back w nj Hw eq_refl) as (j & E1 & _). rewrite E1 in H.
  injection H as <- _. specialize (Hx _ eq_refl). discriminate.
Qed.

(** ** Status *)
Lemma exactly_filter w (f : job -> bool) (P : job -> Prop) :
  wf_queue w -> (forall j, f j = true <-> P j) -> exactly P (w_jobs w) (filter f (w_jobs w)).
Proof.
  intros [Hs _] Hf. split.
  - intros j. rewrite filter_In, Hf. tauto.
  - now apply SSorted_filter.
Qed.

Lemma exactly_all w : wf_queue w -> exactly (fun _ => True) (w_jobs w) (w_jobs w).
Proof. intros [Hs _]. split; [tauto|exact Hs]. Qed.

Lemma jstatus_eqb_eq a b : jstatus_eqb a b = true <-> a = b.
Proof. destruct a, b; cbn; split; congruence. Qed.

Lemma NoDup_filter_fst {A B} (f : A * B -> bool) l :
  NoDup (map fst l) -> NoDup (map fst (filter f l)).
Proof.
  induction l as [|x r IH]; cbn; auto. intros N.
  inversion N as [|? ? H1 H2]; subst. destruct (f x); cbn; auto.
  constructor; auto. intros H. apply H1. apply in_map_iff in H as (y & E & Hy).
  apply filter_In in Hy as [Hy _]. rewrite <- E. now apply in_map.
Qed.

Lemma status_msg_reports l : l <> [] -> reports (status_msg l) l.
Proof.
  intros Hl. unfold status_msg.
  assert (G : reports (MFound (status_groups l)) l).
  { cbn [reports]. unfold status_groups. split; [|split].
    - apply NoDup_filter_fst. rewrite map_map. cbn.
      repeat constructor; cbn; intuition discriminate.
    - intros s ids H. apply filter_In in H as [H Hn]. apply in_map_iff in H as (s' & E & _).
      injection E as -> <-. split.
      + cbn [snd] in Hn. destruct (map j_id _); discriminate.
      + intros i. rewrite in_map_iff. split.
        * intros (j & <- & Hj). apply filter_In in Hj as [Hj E]. apply jstatus_eqb_eq in E. eauto.
        * intros (j & Hj & E & Es). exists j. split; auto. apply filter_In. split; auto.
          now apply jstatus_eqb_eq.
    - intros j Hj. exists (map j_id (filter (fun x => jstatus_eqb (j_status x) (j_status j)) l)).
      apply filter_In. split.
      + apply in_map_iff. exists (j_status j). split; [reflexivity|].
        destruct (j_status j); cbn; tauto.
      + cbn [snd]. destruct (map j_id _) eqn:E; auto.
        assert (In (j_id j) []) as []. rewrite <- E. apply in_map, filter_In. split; auto.
        now apply jstatus_eqb_eq. }
  destruct l as [|j [|k l]]; [congruence| |exact G].
  cbn. eauto.
Qed.

Lemma status_spec port ids w d :
  wf_queue w -> w_daemon w = Some d ->
  let wanted := fun j => ids = [] \/ In (j_id j) ids in
  exists r, run exec (ketchup_status port ids) w = (Ok r, w) /\
    (r_ok r = true <-> exists j, In j (w_jobs w) /\ wanted j) /\
    (r_ok r = true -> exists l, r_data r = RJobs l /\ exactly wanted (w_jobs w) l /\
                                reports (r_msg r) l).
Proof.
  intros Hw Ed wanted. unfold ketchup_status. rewrite run_with_daemon, Ed. unfold jobs_status.
  assert (G : forall l, exactly wanted (w_jobs w) l ->
    forall m, exists r,
    match l with
    | [] => (Ok (mkReply false m RNone), w)
    | _ => (Ok (mkReply true (status_msg l) (RJobs l)), w)
    end = (Ok r, w) /\
    (r_ok r = true <-> exists j, In j (w_jobs w) /\ wanted j) /\
    (r_ok r = true -> exists l, r_data r = RJobs l /\ exactly wanted (w_jobs w) l /\
                                reports (r_msg r) l)).
  { intros l Hl m. pose proof Hl as [He _]. destruct l as [|j l].
    - eexists. split; [reflexivity|]. cbn. split; [|discriminate].
      split; [discriminate|]. intros (j & Hj). apply He in Hj. contradiction.
    - eexists. split; [reflexivity|]. cbn [r_ok r_data r_msg]. split.
      + split; auto. intros _. exists j. apply He. now left.
      + intros _. exists (j :: l). split; auto. split; auto.
        apply status_msg_reports. discriminate. }
  destruct ids as [|i ids'].
  - rewrite run_bind, run_act. cbn [exec jobs_where].
    destruct (G (w_jobs w)) with (m := MQueueEmpty) as (r & E & Hr).
    { destruct (exactly_all w Hw) as [A B]. split; auto.
      intros j. rewrite A. unfold wanted. tauto. }
    exists r. split; auto. rewrite <- E. destruct (w_jobs w); reflexivity.
  - set (ids := i :: ids') in *. rewrite run_bind, run_act. cbn [exec jobs_where].
    destruct (G (filter (fun j => memZ (j_id j) ids) (w_jobs w)))
      with (m := match ids with [_] => MNoJob ids | _ => MNoJobs ids end) as (r & E & Hr).
    { apply exactly_filter; auto. intros j. rewrite memZ_In. unfold wanted, ids.
      split; auto. intros [H|H]; [discriminate|auto]. }
    exists r. split; auto. rewrite <- E. destruct (filter _ _); reflexivity.
Qed.

(** ** Cancel *)
Lemma run_update_job_id id cs w :
  run exec (update_job_id id cs) w =
  (match get_job (upd_jobs id cs (w_jobs w)) id with Some j => Ok j | None => Err TypeError end,
   set_jobs w (upd_jobs id cs (w_jobs w)) (w_seq w)).
Proof.
  unfold update_job_id. rewrite run_bind, run_act. cbn [exec]. rewrite run_job_get. reflexivity.
Qed.

Lemma with_jstatus_set j s : set_jcols [JStatus s] j = with_jstatus j s.
Proof. reflexivity. Qed.

Lemma filter_one w i : wf_queue w ->
  filter (fun j => memZ (j_id j) [i]) (w_jobs w) =
  match get_job (w_jobs w) i with Some j => [j] | None => [] end.
Proof.
  intros Hw. pose proof (wf_NoDup w Hw) as Hn. revert Hn. clear Hw.
  induction (w_jobs w) as [|a l IH]; cbn [map]; intros Hn; auto.
  inversion Hn as [|? ? H1 H2]; subst. unfold get_job in *. cbn [find filter].
  specialize (IH H2). cbn [memZ] in *. rewrite orb_false_r in *.
  destruct (Z.eqb_spec (j_id a) i) as [E|E]; auto.
  rewrite IH. destruct (find _ l) as [j|] eqn:Ef; auto.
  exfalso. apply find_some in Ef as [A B]. apply Z.eqb_eq in B. apply H1. rewrite E, <- B.
  now apply in_map.
Qed.

Lemma cancel_all_upd w i j : wf_queue w -> get_job (w_jobs w) i = Some j ->
  upd_jobs i [JStatus (cancelled (j_status j))] (w_jobs w) = cancel_all [i] (w_jobs w).
Proof.
  intros Hw Hj. unfold upd_jobs, cancel_all. apply map_ext_in. intros a Ha.
  cbn [memZ]. rewrite orb_false_r. destruct (Z.eqb_spec (j_id a) i) as [E|E]; auto.
  pose proof (In_get_job _ _ (wf_NoDup w Hw) Ha) as G. rewrite E, Hj in G. injection G as ->.
  reflexivity.
Qed.

Lemma cancel_all_nop w i j : wf_queue w -> get_job (w_jobs w) i = Some j ->
  cancelled (j_status j) = j_status j -> cancel_all [i] (w_jobs w) = w_jobs w.
Proof.
  intros Hw Hj Hc. unfold cancel_all. transitivity (map (fun j => j) (w_jobs w)); [|apply map_id].
  apply map_ext_in. intros a Ha.
  cbn [memZ]. rewrite orb_false_r. destruct (Z.eqb_spec (j_id a) i) as [E|E]; auto.
  pose proof (In_get_job _ _ (wf_NoDup w Hw) Ha) as G. rewrite E, Hj in G. injection G as ->.
  rewrite Hc. destruct a; reflexivity.
Qed.

Lemma run_cancel_single port i w d :
  wf_queue w -> w_daemon w = Some d ->
  run exec (ketchup_cancel port [i]) w =
  match get_job (w_jobs w) i with
  | None => (Ok (mkReply false (MNoSuchJob i) RNone), w)
  | Some j =>
      match j_status j with
      | Srd => (Err UnboundLocalError, w)
      | Sc | Scd | Sce => (Ok (mkReply true MAllCancelled (RJobs [])), w)
      | _ => (Ok (mkReply true (MCancelled [i])
                   (RJobs [with_jstatus j (cancelled (j_status j))])),
              set_jobs w (cancel_all [i] (w_jobs w)) (w_seq w))
      end
  end.
Proof.
  intros Hw Ed. unfold ketchup_cancel. rewrite run_with_daemon, Ed. unfold cancel.
  rewrite run_bind, run_act. cbn [exec jobs_where]. rewrite (filter_one w i Hw).
  destruct (get_job (w_jobs w) i) as [j|] eqn:Ej; [|reflexivity].
  pose proof (get_job_In _ _ _ Ej) as [Hin Hid].
  cbn [map find memZ]. rewrite Hid, Z.eqb_refl. cbn [negb orb last].
  rewrite run_bind, run_forP_cons. cbn [cancel_one].
  assert (U : forall s, cancelled (j_status j) = s ->
    run exec (update_job_id i [JStatus s]) w =
      (Ok (with_jstatus j s), set_jobs w (cancel_all [i] (w_jobs w)) (w_seq w))).
  { intros s Es. rewrite run_update_job_id, get_job_upd, Z.eqb_refl, Ej. cbn [option_map].
    rewrite with_jstatus_set, <- Es. f_equal. f_equal. now apply cancel_all_upd. }
  destruct (j_status j) eqn:Es; cbn [cancelled] in U; try reflexivity;
    rewrite run_bind, (U _ eq_refl); cbn; rewrite ?Hid; reflexivity.
Qed.

Lemma cancel_single port i w d :
  wf_queue w -> w_daemon w = Some d ->
  match get_job (w_jobs w) i with
  | None => exists r, run exec (ketchup_cancel port [i]) w = (Ok r, w) /\ r_ok r = false
  | Some j =>
      j_status j <> Srd ->
      exists r, run exec (ketchup_cancel port [i]) w =
                  (Ok r, set_jobs w (cancel_all [i] (w_jobs w)) (w_seq w)) /\ r_ok r = true
  end.
Proof.
  intros Hw Ed. rewrite (run_cancel_single port i w d Hw Ed).
  destruct (get_job (w_jobs w) i) as [j|] eqn:Ej; [|eauto].
  intros Hne.
  assert (N : cancelled (j_status j) = j_status j ->
              set_jobs w (cancel_all [i] (w_jobs w)) (w_seq w) = w).
  { intros Hc. rewrite (cancel_all_nop w i j Hw Ej Hc). now apply set_jobs_same. }
  destruct (j_status j) eqn:Es; cbn in N; try congruence; try (rewrite N by reflexivity);
    eexists; split; reflexivity.
Qed.

(** What cancelling a list does: only the last id may change. *)
Lemma cancel_loop_frame last l : forall st w x w',
  run exec (forP (cancel_one last) st l) w = (x, w') ->
  exists ss, w' = set_jobs w (fold_left (fun q s => upd_jobs last [JStatus s] q) ss (w_jobs w)) (w_seq w).
Proof.
  induction l as [|j l IH]; intros [ps data] w x w' H.
  - cbn in H. injection H as _ <-. exists []. symmetry. now apply set_jobs_same.
  - rewrite run_forP_cons in H. cbn [cancel_one] in H.
    assert (G : forall st w1 w1', run exec (forP (cancel_one last) st l) w1 = (x, w1') ->
      forall s, w1 = set_jobs w (upd_jobs last [JStatus s] (w_jobs w)) (w_seq w) ->
      exists ss, w1' = set_jobs w (fold_left (fun q s => upd_jobs last [JStatus s] q) ss (w_jobs w)) (w_seq w)).
    { intros st w1 w1' H1 s ->. apply IH in H1 as [ss ->]. exists (s :: ss). reflexivity. }
    assert (U : forall s (p : option jstatus), run exec (x <- update_job_id last [JStatus s];; Ret (p, data ++ [x]))%prog w
      = (match get_job (upd_jobs last [JStatus s] (w_jobs w)) last with
         | Some j => Ok (p, data ++ [j]) | None => Err TypeError end,
         set_jobs w (upd_jobs last [JStatus s] (w_jobs w)) (w_seq w))).
    { intros s p. rewrite run_bind, run_update_job_id. destruct (get_job _ _); reflexivity. }
    destruct (j_status j); try (apply IH in H; exact H);
      try (destruct ps as [s0|]; [|injection H as _ <-; exists []; symmetry; now apply set_jobs_same]);
      rewrite U in H;
      (destruct (get_job _ last);
       [eapply G; [exact H|reflexivity]
       |injection H as _ <-; eexists [_]; reflexivity]).
Qed.

Lemma cancel_frame port ids w x w' :
  run exec (ketchup_cancel port ids) w = (x, w') ->
  exists ss, w' = set_jobs w (fold_left (fun q s => upd_jobs (last ids 0) [JStatus s] q) ss (w_jobs w)) (w_seq w).
Proof.
  unfold ketchup_cancel. rewrite run_with_daemon. intros H.
  assert (N : w = set_jobs w (fold_left (fun q s => upd_jobs (last ids 0) [JStatus s] q) [] (w_jobs w)) (w_seq w)).
  { symmetry. now apply set_jobs_same. }
  destruct (w_daemon w) as [d|]; [|injection H as _ <-; exists []; exact N].
  unfold cancel in H. rewrite run_bind, run_act in H. cbn [exec jobs_where] in H.
  destruct (find _ ids) as [i|]; [injection H as _ <-; exists []; exact N|].
  rewrite run_bind in H.
  destruct (run exec (forP _ _ _) w) as [[st|e] w1] eqn:E.
  - apply cancel_loop_frame in E as [ss ->]. exists ss.
    destruct (snd st); injection H as _ <-; reflexivity.
  - apply cancel_loop_frame in E as [ss ->]. injection H as _ <-. exists ss. reflexivity.
Qed.

(** Status updates of one job leave the others and all other columns alone. *)
Lemma fold_upd_status ss id : forall l i,
  exists f : jstatus -> jstatus,
  get_job (fold_left (fun q s => upd_jobs id [JStatus s] q) ss l) i =
  if Z.eqb i id then option_map (fun j => with_jstatus j (f (j_status j))) (get_job l i) else get_job l i.
Proof.
  induction ss as [|s ss IH]; intros l i; cbn [fold_left].
  - exists (fun s => s). destruct (Z.eqb i id), (get_job l i) as [j|]; auto. destruct j; reflexivity.
  - destruct (IH (upd_jobs id [JStatus s] l) i) as [f Hf]. rewrite Hf, get_job_upd.
    destruct (Z.eqb i id); [|exists f; reflexivity].
    exists (fun _ => f s). destruct (get_job l i); reflexivity.
Qed.

Lemma fold_upd_ids ss id : forall l,
  map j_id (fold_left (fun q s => upd_jobs id [JStatus s] q) ss l) = map j_id l.
Proof. induction ss as [|s ss IH]; intros l; cbn; auto. now rewrite IH, upd_jobs_ids. Qed.

Lemma cancel_others port ids w x w' :
  run exec (ketchup_cancel port ids) w = (x, w') ->
  w' = set_jobs w (w_jobs w') (w_seq w) /\ map j_id (w_jobs w') = map j_id (w_jobs w) /\
  forall i, ~ In i ids -> get_job (w_jobs w') i = get_job (w_jobs w) i.
Proof.
  intros H. destruct ids as [|i0 ids'].
  - unfold ketchup_cancel in H. rewrite run_with_daemon in H.
    assert (w' = w) as ->.
    { destruct (w_daemon w); [|now injection H as _ <-].
      unfold cancel in H. rewrite run_bind, run_act in H. cbn [exec jobs_where] in H.
      cbn [find] in H. cbn [memZ] in H.
      assert (Ef : filter (fun j : job => false) (w_jobs w) = []).
      { induction (w_jobs w); auto. }
      rewrite Ef in H. cbn in H. now injection H as _ <-. }
    split; [symmetry; now apply set_jobs_same|]. auto.
  - apply cancel_frame in H as [ss ->]. cbn [w_jobs set_jobs]. split; auto.
    split; [apply fold_upd_ids|]. intros i Hi.
    destruct (fold_upd_status ss (last (i0 :: ids') 0) (w_jobs w) i) as [f ->].
    destruct (Z.eqb_spec i (last (i0 :: ids') 0)) as [E|E]; auto.
    exfalso. apply Hi. rewrite E. clear.
    revert i0. induction ids' as [|a l IH]; intros i0; [now left|].
    right. change (last (i0 :: a :: l) 0) with (last (a :: l) 0). apply IH.
Qed.

Lemma cancel_loop_nop last l : forall st w,
  (forall j, In j l -> finished (j_status j)) ->
  run exec (forP (cancel_one last) st l) w = (Ok st, w).
Proof.
  induction l as [|j l IH]; intros [ps data] w H; [reflexivity|].
  rewrite run_forP_cons. cbn [cancel_one].
  assert (F : finished (j_status j)) by (apply H; now left).
  destruct (j_status j); try (destruct F as [F|[F|F]]; discriminate);
    rewrite run_ret; apply IH; intros; apply H; now right.
Qed.

(** When only the last listed job is unfinished, the list is cancelled. *)
Lemma cancel_last_only port ids w d :
  wf_queue w -> w_daemon w = Some d -> ids <> [] ->
  (forall i, In i ids -> exists j, get_job (w_jobs w) i = Some j /\
     (finished (j_status j) \/ (i = last ids 0 /\ j_status j <> Srd))) ->
  exists r, run exec (ketchup_cancel port ids) w =
              (Ok r, set_jobs w (cancel_all ids (w_jobs w)) (w_seq w)) /\ r_ok r = true.
Proof.
  intros Hw Ed Hne Hids. pose proof (wf_NoDup w Hw) as Hn.
  unfold ketchup_cancel. rewrite run_with_daemon, Ed. unfold cancel.
  rewrite run_bind, run_act. cbn [exec jobs_where].
  set (sel := filter _ (w_jobs w)). set (la := last ids 0) in *.
  assert (Hsel : forall j, In j sel <-> In j (w_jobs w) /\ In (j_id j) ids).
  { intros j. unfold sel. rewrite filter_In, memZ_In. tauto. }
  replace (find _ ids) with (@None Z).
  2:{ destruct (find _ ids) as [i|] eqn:E; auto. apply find_some in E as [Hi E].
      apply negb_true_iff, memZ_not_In in E. exfalso. apply E.
      destruct (Hids i Hi) as (j & Hj & _). apply get_job_In in Hj as [A B].
      rewrite <- B. apply in_map, Hsel. rewrite B. auto. }
  assert (Hstat : forall j, In j sel -> finished (j_status j) \/ (j_id j = la /\ j_status j <> Srd)).
  { intros j Hj. apply Hsel in Hj as [A B]. destruct (Hids _ B) as (j' & E & H).
    rewrite (In_get_job _ _ Hn A) in E. injection E as <-. exact H. }
  (* the effect of cancelling, in terms of the one unfinished job *)
  assert (Hla : In la ids).
  { unfold la. clear -Hne. destruct ids as [|i0 ids']; [congruence|]. clear Hne.
    revert i0. induction ids' as [|a l IH]; intros i0; [now left|].
    right. change (last (i0 :: a :: l) 0) with (last (a :: l) 0). apply IH. }
  destruct (Hids la Hla) as (jl & Ejl & Hjl). pose proof (get_job_In _ _ _ Ejl) as [Hjin Hjid].
  assert (Eff : cancel_all ids (w_jobs w) = upd_jobs la [JStatus (cancelled (j_status jl))] (w_jobs w)).
  { unfold cancel_all, upd_jobs. apply map_ext_in. intros a Ha.
    destruct (memZ (j_id a) ids) eqn:Em.
    - apply memZ_In in Em. destruct (Z.eqb_spec (j_id a) la) as [E|E].
      + pose proof (In_get_job _ _ Hn Ha) as G. rewrite E, Ejl in G. injection G as ->. reflexivity.
      + assert (In a sel) as Hs by (apply Hsel; auto).
        destruct (Hstat a Hs) as [F|[F _]]; [|contradiction].
        destruct F as [F|[F|F]]; rewrite F; cbn; rewrite <- F; destruct a; reflexivity.
    - apply memZ_not_In in Em. destruct (Z.eqb_spec (j_id a) la) as [E|E]; auto.
      rewrite E in Em. contradiction. }
  assert (Hfin : finished (j_status jl) -> cancel_all ids (w_jobs w) = w_jobs w).
  { intros F. rewrite Eff. unfold upd_jobs. transitivity (map (fun j => j) (w_jobs w)); [|apply map_id].
    apply map_ext_in. intros a Ha. destruct (Z.eqb_spec (j_id a) la) as [E|E]; auto.
    pose proof (In_get_job _ _ Hn Ha) as G. rewrite E, Ejl in G. injection G as <-.
    destruct F as [F|[F|F]]; rewrite F; cbn; rewrite <- F; destruct jl; reflexivity. }
  assert (Hnop : finished (j_status jl) -> forall j, In j sel -> finished (j_status j)).
  { intros Fl j Hj. destruct (Hstat j Hj) as [F|[F _]]; [exact F|].
    apply Hsel in Hj as [Hj _]. pose proof (In_get_job _ _ Hn Hj) as G.
    rewrite F, Ejl in G. injection G as <-. exact Fl. }
  assert (Hdone : finished (j_status jl) -> exists r,
    run exec (bind (forP (cancel_one la) (None, []) sel) (fun st =>
      match snd st with
      | [] => Ret (mkReply true MAllCancelled (RJobs []))
      | data => Ret (mkReply true (MCancelled (map j_id data)) (RJobs data))
      end)) w = (Ok r, set_jobs w (cancel_all ids (w_jobs w)) (w_seq w)) /\ r_ok r = true).
  { intros F. rewrite run_bind, cancel_loop_nop by auto. rewrite (Hfin F).
    eexists. rewrite set_jobs_same by reflexivity. split; reflexivity. }
  destruct (j_status jl) eqn:Es; try (apply Hdone; unfold finished; tauto);
    try (destruct Hjl as [[F|[F|F]]|[_ F]]; congruence).
  all: assert (Hs : In jl sel) by (apply Hsel; rewrite Hjid; auto);
    apply in_split in Hs as (l1 & l2 & El);
    assert (Hnd : NoDup (map j_id sel))
      by (unfold sel; apply SSorted_NoDup, SSorted_filter; apply Hw).
  all: assert (Hoth : forall j, In j l1 \/ In j l2 -> finished (j_status j)) by
    (intros j Hj;
     assert (Hjs : In j sel) by (rewrite El; apply in_app_iff; cbn; tauto);
     destruct (Hstat j Hjs) as [F|[F _]]; [exact F|];
     exfalso; rewrite El, map_app in Hnd; cbn in Hnd; apply NoDup_remove_2 in Hnd; apply Hnd;
     rewrite Hjid, <- F; apply in_app_iff; destruct Hj; [left|right]; now apply in_map).
  all: rewrite run_bind, El, run_forP_app, cancel_loop_nop by auto; cbn [forP].
  all: rewrite run_bind; cbn [cancel_one]; rewrite Es; cbn [cancelled] in Eff; cbv beta iota zeta;
    rewrite run_bind, run_update_job_id, get_job_upd, Z.eqb_refl, Ejl; cbn [option_map];
    rewrite run_ret, <- Eff; cbv beta iota;
    rewrite cancel_loop_nop by auto; eexists; split; reflexivity.
Qed.

(** Repeating a cancel. *)
Lemma cancel_twice port i w d w1 x1 x2 w2 :
  wf_queue w -> w_daemon w = Some d ->
  run exec (ketchup_cancel port [i]) w = (x1, w1) ->
  run exec (ketchup_cancel port [i]) w1 = (x2, w2) ->
  w2 = w1 /\
  forall j, get_job (w_jobs w) i = Some j -> j_status j <> Sr -> j_status j <> Srd ->
  exists r, x2 = Ok r /\ r_ok r = true.
Proof.
  intros Hw Ed H1 H2.
  assert (Hw1 : wf_queue w1 /\ w_daemon w1 = Some d).
  { apply cancel_others in H1 as (E1 & E2 & _). rewrite E1. cbn. split; auto.
    destruct Hw as (A & B & C). unfold wf_queue. cbn [w_jobs w_seq set_jobs]. rewrite E2.
    split; auto. split; auto. rewrite Forall_forall in *. intros j Hj.
    assert (In (j_id j) (map j_id (w_jobs w))) as K by (rewrite <- E2; now apply in_map).
    apply in_map_iff in K as (j' & <- & Hj'). auto. }
  destruct Hw1 as [Hw1 Ed1].
  rewrite (run_cancel_single port i w1 d Hw1 Ed1) in H2.
  rewrite (run_cancel_single port i w d Hw Ed) in H1.
  destruct (get_job (w_jobs w) i) as [j|] eqn:Ej.
  - assert (G : forall s, w1 = set_jobs w (cancel_all [i] (w_jobs w)) (w_seq w) ->
                 cancelled (j_status j) = s ->
                 get_job (w_jobs w1) i = Some (with_jstatus j s)).
    { intros s -> <-. cbn [w_jobs set_jobs]. rewrite <- (cancel_all_upd w i j Hw Ej).
      rewrite get_job_upd, Z.eqb_refl, Ej. reflexivity. }
    destruct (j_status j) eqn:Es; injection H1 as _ <-;
      try (rewrite Ej, Es in H2; injection H2 as <- <-; split; [reflexivity|];
           intros j0 E0 N1 N2; injection E0 as <-; try congruence; eexists; split; reflexivity);
      rewrite (G _ eq_refl eq_refl) in H2; cbn in H2; injection H2 as <- <-; split; auto;
      intros j0 E0 N1 N2; injection E0 as <-; try congruence; eexists; split; reflexivity.
  - injection H1 as _ <-. rewrite Ej in H2. injection H2 as _ <-. split; auto. discriminate.
Qed.

(** ** Search *)
Lemma like_any p s : like (String "%" p) s = true <-> exists a b, s = (a ++ b)%string /\ like p b = true.
Proof.
  induction s as [|c s IH].
  - cbn. rewrite orb_false_r. split.
    + intros H. exists EmptyString, EmptyString. auto.
    + intros (a & b & E & H). destruct a; [|discriminate]. cbn in E. now subst.
  - change (like (String "%" p) (String c s))
      with (like p (String c s) || like (String "%" p) s).
    rewrite orb_true_iff, IH. split.
    + intros [H|(a & b & -> & H)].
      * exists EmptyString, (String c s). auto.
      * exists (String c a), b. auto.
    + intros (a & b & E & H). destruct a as [|c' a]; cbn in E.
      * subst. auto.
      * injection E as -> ->. eauto.
Qed.

Lemma like_one p pr c s : Ascii.eqb p "%" = false ->
  like (String p pr) (String c s) =
  ((Ascii.eqb p "_" || Ascii.eqb (lower p) (lower c)) && like pr s)%bool.
Proof. intros E. cbn. now rewrite E. Qed.

Lemma like_end s : like "%" s = true.
Proof. apply like_any. exists s, EmptyString. split; auto. induction s; cbn; congruence. Qed.

Lemma like_prefix t b : like (t ++ "%") (t ++ b)%string = true.
Proof.
  induction t as [|c t IH]; [apply like_end|]. cbn [append].
  destruct (Ascii.eqb_spec c "%") as [->|N].
  - apply like_any. exists "%"%string, (t ++ b)%string. auto.
  - rewrite like_one by (now apply Ascii.eqb_neq). rewrite (Ascii.eqb_refl (lower c)), orb_true_r. auto.
Qed.

Lemma like_contains t s : contains t s -> like ("%" ++ t ++ "%") s = true.
Proof.
  intros (a & b & ->). cbn [append]. apply like_any. exists a, (t ++ b)%string.
  split; auto. apply like_prefix.
Qed.

Lemma like_ci t : has_char "%" t = false -> has_char "_" t = false ->
  forall s, like (t ++ "%") s = true <-> exists m b, s = (m ++ b)%string /\ same_ci t m.
Proof.
  induction t as [|c t IH]; intros H1 H2 s.
  - rewrite like_end. split; auto. intros _. exists EmptyString, s. split; auto. reflexivity.
  - cbn [has_char] in H1, H2. apply orb_false_iff in H1 as [H1 H1'], H2 as [H2 H2'].
    cbn [append]. rewrite Ascii.eqb_sym in H1, H2. destruct s as [|d s].
    + cbn [like]. rewrite H1. split; [discriminate|].
      intros (m & b & E & S). destruct m; [contradiction|discriminate].
    + rewrite (like_one _ _ _ _ H1), H2. cbn [orb]. rewrite andb_true_iff, Ascii.eqb_eq, (IH H1' H2').
      split.
      * intros (E & m & b & -> & S). exists (String d m), b. split; auto. split; auto.
      * intros (m & b & E & S). destruct m as [|d' m]; [contradiction|].
        cbn in E. injection E as -> ->. destruct S as [S1 S2]. eauto.
Qed.

Lemma like_contains_ci t s : has_char "%" t = false -> has_char "_" t = false ->
  (like ("%" ++ t ++ "%") s = true <-> contains_ci t s).
Proof.
  intros H1 H2. cbn [append]. rewrite like_any. unfold contains_ci. split.
  - intros (a & b & -> & H). apply (like_ci t H1 H2) in H as (m & b' & -> & S). eauto 6.
  - intros (a & m & b & -> & S). exists a, (m ++ b)%string. split; auto.
    apply (like_ci t H1 H2). eauto.
Qed.

Definition matches (t : string) (j : job) : bool :=
  match j_jobname j with Some n => like ("%" ++ t ++ "%") n | None => false end.

Lemma run_search port t w d : w_daemon w = Some d -> has_char "'" t = false ->
  run exec (ketchup_search port t) w =
  (Ok (match filter (matches t) (w_jobs w) with
       | [] => mkReply false (MNoMatch t) RNone
       | l => mkReply true (MMatching t (map j_id l)) (RJobs l) end), w).
Proof.
  intros Ed Hq. unfold ketchup_search. rewrite run_with_daemon, Ed. unfold search.
  rewrite run_bind, run_act. cbn [exec jobs_where]. rewrite (sql_lit_id t Hq).
  fold (matches t). change (fun j => match j_jobname j with
      | Some n => like ("%" ++ t ++ "%") n | None => false end) with (matches t).
  destruct (filter _ _); reflexivity.
Qed.

Lemma search_found port t w d :
  wf_queue w -> w_daemon w = Some d -> has_char "'" t = false ->
  exists r l, run exec (ketchup_search port t) w = (Ok r, w) /\
    (forall j, In j l -> In j (w_jobs w) /\ exists n, j_jobname j = Some n) /\
    (forall j n, In j (w_jobs w) -> j_jobname j = Some n -> contains t n -> In j l) /\
    StronglySorted Z.lt (map j_id l) /\
    (r_ok r = true <-> l <> []) /\ (r_ok r = true -> r_data r = RJobs l).
Proof.
  intros Hw Ed Hq. rewrite (run_search port t w d Ed Hq).
  eexists. exists (filter (matches t) (w_jobs w)). split; [reflexivity|].
  split; [|split; [|split; [|split]]].
  - intros j Hj. apply filter_In in Hj as [Hj M]. split; auto. unfold matches in M.
    destruct (j_jobname j); [eauto|discriminate].
  - intros j n Hj En Hc. apply filter_In. split; auto. unfold matches. rewrite En.
    now apply like_contains.
  - apply SSorted_filter, Hw.
  - destruct (filter _ _); cbn; split; congruence.
  - destruct (filter _ _); [discriminate|auto].
Qed.

Lemma search_exact port t w d :
  wf_queue w -> w_daemon w = Some d ->
  has_char "'" t = false -> has_char "%" t = false -> has_char "_" t = false ->
  exists r l, run exec (ketchup_search port t) w = (Ok r, w) /\
    exactly (fun j => exists n, j_jobname j = Some n /\ contains_ci t n) (w_jobs w) l /\
    (r_ok r = true <-> l <> []) /\ (r_ok r = true -> r_data r = RJobs l).
Proof.
  intros Hw Ed Hq H1 H2. rewrite (run_search port t w d Ed Hq).
  eexists. exists (filter (matches t) (w_jobs w)). split; [reflexivity|].
  split; [|split].
  - apply exactly_filter; auto. intros j. unfold matches. destruct (j_jobname j) as [n|].
    + rewrite (like_contains_ci t n H1 H2). split; eauto. intros (n' & E & H). now injection E as <-.
    + split; [discriminate|]. intros (n' & E & _). discriminate.
  - destruct (filter _ _); cbn; split; congruence.
  - destruct (filter _ _); [discriminate|auto].
Qed.

(** ** Snapshot *)
Lemma str_of_Z_inj a b : str_of_Z a = str_of_Z b -> a = b.
Proof.
  unfold str_of_Z. intros H. 
  assert (N : forall z, Z.to_int z <> Decimal.Pos Decimal.Nil /\ Z.to_int z <> Decimal.Neg Decimal.Nil).
  { intros [|p|p]; cbn; split; intros E; try discriminate; injection E as E;
      now apply (DecimalPos.Unsigned.to_uint_nonnil p). }
  assert (E : Some (Z.to_int a) = Some (Z.to_int b)).
  { rewrite <- (NilZero.isi _ (proj1 (N a)) (proj2 (N a))),
            <- (NilZero.isi _ (proj1 (N b)) (proj2 (N b))). now rewrite H. }
  injection E as E. now apply DecimalZ.to_int_inj.
Qed.

Lemma add_events_log es : forall w,
  add_events w es =
  mkWorld (w_jobs w) (w_seq w) (w_pips w) (w_drvs w) (w_daemon w) (w_files w) (w_dirs w) (w_jobdata w)
    (w_spawned w) (w_procs w) (w_driver w) (w_main w) (w_merge w) (w_crate w) (w_outdir w)
    (w_now w) (w_perf w) (rev es ++ w_log w).
Proof.
  induction es as [|e es IH]; intros w; [destruct w; reflexivity|].
  cbn [add_events]. rewrite IH. cbn. now rewrite <- app_assoc.
Qed.

Lemma run_snapshot_loop l : forall w,
  (forall j, In j l -> j_jobpath j <> None /\ w_merge w (j_id j) = None) ->
  run exec (forP snapshot_one tt l) w =
  (Ok tt, add_events w (map (fun j => EvArchive (snapshot_path (j_id j)) (set_jcol j (JSnappath (Some (snapshot_path (j_id j)))))) l)).
Proof.
  induction l as [|j l IH]; intros w H; [reflexivity|].
  rewrite run_forP_cons. unfold snapshot_one at 1, merge_netcdfs. cbn [j_jobpath set_jcol j_snappath].
  destruct (H j (or_introl eq_refl)) as [Hp Hm].
  assert (is_some (j_jobpath j) = true) as Hs by (destruct (j_jobpath j); [reflexivity|congruence]).
  rewrite run_bind, run_assert, Hs. cbv beta iota. rewrite run_archive. cbn [j_id set_jcol].
  rewrite Hm. cbn [map add_events]. rewrite IH; [reflexivity|].
  intros j' Hj'. cbn. apply H. now right.
Qed.

Lemma snapshot_refuse_none jobs i :
  snapshot_refuse jobs i = None <->
  exists j, get_job jobs i = Some j /\ j_status j <> Sq /\ j_status j <> Sqw.
Proof.
  unfold snapshot_refuse. destruct (get_job jobs i) as [j|].
  - split.
    + intros H. exists j. split; auto. destruct (j_status j); try discriminate; split; discriminate.
    + intros (j' & E & N1 & N2). injection E as <-. destruct (j_status j); congruence.
  - split; [discriminate|]. intros (j & E & _). discriminate.
Qed.

Lemma first_some_none {A B} (f : A -> option B) l :
  first_some f l = None <-> forall a, In a l -> f a = None.
Proof.
  induction l as [|a l IH]; cbn; [tauto|]. destruct (f a) eqn:E.
  - split; [discriminate|]. intros H. specialize (H a (or_introl eq_refl)). congruence.
  - rewrite IH. split; auto. intros H b [<-|Hb]; auto.
Qed.

Lemma first_some_In {A B} (f : A -> option B) l b :
  first_some f l = Some b -> exists a, In a l /\ f a = Some b.
Proof.
  induction l as [|a l IH]; cbn; [discriminate|]. destruct (f a) eqn:E.
  - intros H. injection H as ->. eauto.
  - intros H. destruct (IH H) as (a' & ? & ?). eauto.
Qed.

Lemma get_job_filter l ids i : In i ids ->
  get_job (filter (fun j => memZ (j_id j) ids) l) i = get_job l i.
Proof.
  intros Hi. unfold get_job. induction l as [|a l IH]; auto. cbn [filter find].
  destruct (Z.eqb_spec (j_id a) i) as [E|E].
  - rewrite E, (proj2 (memZ_In i ids) Hi). cbn [find]. rewrite E, Z.eqb_refl. reflexivity.
  - destruct (memZ (j_id a) ids); auto. cbn [find].
    destruct (Z.eqb_spec (j_id a) i); [contradiction|auto].
Qed.

Lemma run_snapshot port ids w d : w_daemon w = Some d ->
  run exec (ketchup_snapshot port ids) w =
  match first_some (snapshot_refuse (filter (fun j => memZ (j_id j) ids) (w_jobs w))) ids with
  | Some r => (Ok r, w)
  | None => match run exec (forP snapshot_one tt (filter (fun j => memZ (j_id j) ids) (w_jobs w))) w with
            | (Ok _, w') => (Ok (mkReply true (MSnapshots ids) RNone), w')
            | (Err e, w') => (Err e, w')
            end
  end.
Proof.
  intros Ed. unfold ketchup_snapshot. rewrite run_with_daemon, Ed. unfold snapshot.
  rewrite run_bind, run_act. cbn [exec jobs_where].
  destruct (first_some _ ids); [reflexivity|]. rewrite run_bind.
  destruct (run exec (forP _ _ _) w) as [[]]; reflexivity.
Qed.

Lemma snapshot_refused port ids w d :
  w_daemon w = Some d ->
  ((exists r, run exec (ketchup_snapshot port ids) w = (Ok r, w) /\ r_ok r = false) <->
   exists i, In i ids /\
     (get_job (w_jobs w) i = None \/
      exists j, get_job (w_jobs w) i = Some j /\ (j_status j = Sq \/ j_status j = Sqw))).
Proof.
  intros Ed. rewrite (run_snapshot port ids w d Ed).
  set (sel := filter _ (w_jobs w)). destruct (first_some _ ids) as [r|] eqn:E.
  - split.
    + intros _. apply first_some_In in E as (i & Hi & E). exists i. split; auto.
      unfold snapshot_refuse, sel in E. rewrite get_job_filter in E by auto.
      destruct (get_job _ i) as [j|]; auto. right. exists j. split; auto.
      destruct (j_status j); try discriminate; auto.
    + intros _. apply first_some_In in E as (i & Hi & E). exists r. split; auto.
      unfold snapshot_refuse in E. destruct (get_job sel i) as [j|]; [|now injection E as <-].
      destruct (j_status j); try discriminate; now injection E as <-.
  - rewrite first_some_none in E. split.
    + intros (r & H & Hr). destruct (run exec (forP _ _ _) w) as [[]]; [|discriminate].
      injection H as <- _. discriminate.
    + intros (i & Hi & H). specialize (E i Hi). apply snapshot_refuse_none in E as (j & Ej & N1 & N2).
      unfold sel in Ej. rewrite get_job_filter in Ej by auto. destruct H as [H|(j' & H & S)]; [congruence|].
      rewrite H in Ej. injection Ej as ->. destruct S; contradiction.
Qed.

Lemma snapshot_done port ids w d :
  wf_queue w -> w_daemon w = Some d ->
  (forall i, In i ids -> exists j, get_job (w_jobs w) i = Some j /\
     j_status j <> Sq /\ j_status j <> Sqw /\ j_jobpath j <> None /\ w_merge w i = None) ->
  exists r l, exactly (fun j => In (j_id j) ids) (w_jobs w) l /\
    run exec (ketchup_snapshot port ids) w =
      (Ok r, add_events w (map (fun j => EvArchive (snapshot_path (j_id j)) (set_jcol j (JSnappath (Some (snapshot_path (j_id j)))))) l)) /\
    r_ok r = true.
Proof.
  intros Hw Ed H. rewrite (run_snapshot port ids w d Ed).
  set (sel := filter _ (w_jobs w)).
  assert (Hx : exactly (fun j => In (j_id j) ids) (w_jobs w) sel).
  { apply exactly_filter; auto. intros j. apply memZ_In. }
  destruct (first_some _ ids) as [r|] eqn:E.
  - exfalso. apply first_some_In in E as (i & Hi & E). destruct (H i Hi) as (j & Ej & N1 & N2 & _).
    unfold sel, snapshot_refuse in E. rewrite get_job_filter, Ej in E by auto.
    destruct (j_status j); congruence.
  - rewrite run_snapshot_loop.
    + eexists. exists sel. split; [exact Hx|]. split; reflexivity.
    + intros j Hj. apply Hx in Hj as [Hj Hi]. destruct (H _ Hi) as (j' & Ej & _ & _ & Hp & Hm).
      rewrite (In_get_job _ _ (wf_NoDup w Hw) Hj) in Ej. now injection Ej as <-.
Qed.

(** Whatever happens, snapshot changes nothing but the archive files. *)
Lemma snapshot_loop_frame l : forall w x w',
  run exec (forP snapshot_one tt l) w = (x, w') ->
  exists l1, (exists l2, l = l1 ++ l2) /\
    w' = add_events w (map (fun j => EvArchive (snapshot_path (j_id j)) (set_jcol j (JSnappath (Some (snapshot_path (j_id j)))))) l1).
Proof.
  induction l as [|j l IH]; intros w x w' H.
  - injection H as _ <-. exists []. split; [now exists []|reflexivity].
  - rewrite run_forP_cons in H. unfold snapshot_one at 1, merge_netcdfs in H.
    cbn [j_jobpath set_jcol j_snappath] in H.
    destruct (is_some (j_jobpath j)) eqn:Hs.
    + rewrite run_bind, run_assert in H. cbv beta iota in H.
      rewrite run_archive in H. cbn [j_id set_jcol] in H. destruct (w_merge w (j_id j)) as [e|].
      * injection H as _ <-. exists []. split; [now exists (j :: l)|reflexivity].
      * apply IH in H as (l1 & (l2 & ->) & ->). exists (j :: l1). split; [now exists l2|reflexivity].
    + rewrite run_bind, run_assert in H. cbn in H. injection H as _ <-.
      exists []. split; [now exists (j :: l)|reflexivity].
Qed.

Lemma snapshot_frame port ids w x w' :
  wf_queue w ->
  run exec (ketchup_snapshot port ids) w = (x, w') ->
  exists l1 l2, exactly (fun j => In (j_id j) ids) (w_jobs w) (l1 ++ l2) /\
    w' = add_events w (map (fun j => EvArchive (snapshot_path (j_id j)) (set_jcol j (JSnappath (Some (snapshot_path (j_id j)))))) l1).
Proof.
  intros Hw H.
  assert (Hx : exactly (fun j => In (j_id j) ids) (w_jobs w)
                 (filter (fun j => memZ (j_id j) ids) (w_jobs w))).
  { apply exactly_filter; auto. intros j. apply memZ_In. }
  destruct (w_daemon w) as [d|] eqn:Ed.
  - rewrite (run_snapshot port ids w d Ed) in H.
    destruct (first_some _ ids) as [r|].
    + injection H as _ <-. exists [], (filter (fun j => memZ (j_id j) ids) (w_jobs w)). auto.
    + destruct (run exec (forP _ _ _) w) as [y w1] eqn:E.
      apply snapshot_loop_frame in E as (l1 & (l2 & El) & ->). rewrite El in Hx.
      exists l1, l2. split; auto. destruct y; now injection H as _ <-.
  - unfold ketchup_snapshot in H. rewrite run_with_daemon, Ed in H. injection H as _ <-.
    exists [], (filter (fun j => memZ (j_id j) ids) (w_jobs w)). auto.
Qed.

Lemma string_app_inj (a : string) : forall x y, (a ++ x)%string = (a ++ y)%string -> x = y.
Proof. induction a as [|c a IH]; cbn; intros x y H; auto. injection H as H. auto. Qed.

Lemma string_app_inj_r (b x y : string) : (x ++ b)%string = (y ++ b)%string -> x = y.
Proof.
  assert (L : forall u v, String.length (u ++ v) = (String.length u + String.length v)%nat)
    by (induction u; cbn; auto).
  revert y. induction x as [|c x IH]; intros [|c' y] H; auto.
  - apply (f_equal String.length) in H. rewrite (L (String c' y) b) in H. cbn in H. lia.
  - apply (f_equal String.length) in H. rewrite (L (String c x) b) in H. cbn in H. lia.
  - cbn in H. injection H as -> H. f_equal. auto.
Qed.

Lemma snapshot_of_inj j1 j2 p i1 i2 :
  snapshot_of j1 = EvArchive p i1 -> snapshot_of j2 = EvArchive p i2 -> j_id j1 = j_id j2.
Proof.
  unfold snapshot_of. intros H1 H2. injection H1 as H1 _. injection H2 as H2 _.
  rewrite <- H1 in H2.
  apply (string_app_inj "snapshot."), string_app_inj_r, str_of_Z_inj in H2. auto.
Qed.

Lemma upgraded_unique v v' : upgraded v v' -> v' = upgrade v.
Proof.
  intros [S E]. induction S as [v|v v1 v2 U S1 S2 IH].
  - destruct v as [ver p [t|]]; cbn in *; auto.
    specialize (E t eq_refl). rewrite supported_iff in E.
    destruct (vp_version t) as [x|]; [|exfalso; auto].
    destruct (v_gt x latest_payload); auto. exfalso; auto.
  - destruct v as [ver p [t|]]; cbn in *; [|discriminate]. injection U as ->.
    rewrite supported_iff in S1. destruct (vp_version v1) as [x|]; auto.
    rewrite S1. auto.
Qed.

Lemma submit_payload port v cwd name w r w' :
  wf_queue w ->
  run exec (ketchup_submit port (PfOk v) cwd name) w = (Ok r, w') -> r_ok r = true ->
  exists v', upgraded v v' /\ (forall v'', upgraded v v'' -> v'' = v') /\
  exists j, get_job (w_jobs w') (w_seq w + 1) = Some j /\ located cwd (vp_payload v') (j_payload j).
Proof.
  intros Hw H Hr. destruct (submit_adds _ _ _ _ _ _ _ Hw H Hr) as (v0 & v' & p & E & U & L & -> & Hid).
  injection E as <-. exists v'. split; auto. split.
  - intros v'' U''. apply upgraded_unique in U, U''. congruence.
  - exists (fresh_job (w_seq w + 1) p name (w_now w)). split; [|exact L]. cbn [w_jobs set_jobs]. rewrite get_job_app.
    destruct (get_job (w_jobs w) (w_seq w + 1)) as [j|] eqn:Eg.
    + apply get_job_In in Eg as [Hj Ej]. specialize (Hid j Hj). lia.
    + cbn [j_id fresh_job]. now rewrite Z.eqb_refl.
Qed.
