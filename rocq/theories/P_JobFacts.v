(** * P_JobFacts: corollaries used in P_Job *)
From Coq Require Import List String Ascii ZArith Bool Sorted Lia.
From Verif Require Import Base BaseFacts PyStr Types ConfigModel Prog ProgFacts World WorldFacts Replies CmdModel KetchupModel
  JobModel PipModel SpecQueue SpecJob KetchupProofs MatchProofs JobProofs SuperProofs ExWorld.
Import ListNotations.
Open Scope list_scope.
Open Scope Z_scope.

Lemma c37_refuted :
  exists d w j l, w_daemon w = Some d /\ wf_queue w /\ NoDup (map p_name (w_pips w)) /\
  all_reachable w d /\
  In j (w_jobs w) /\ j_pid j = None /\ j_connected j = None /\ j_launched j = Some l /\
  w_now w - l > 10 * 1000000 /\
  (exists p, In p (w_pips w) /\ p_jobid p = Some (j_id j)) /\
  run exec pip_pass w = (Ok tt, w) /\ run exec manage_running w = (Ok tt, w).
Proof.
  exists exw_daemon, exw_lost. eexists _, _.
  split; [vm_compute; reflexivity|].
  split; [split; [|split]; vm_compute; repeat constructor; discriminate|].
  split; [vm_compute; repeat constructor; cbn; intuition discriminate|].
  split.
  { intros p rc Hp Hrc. vm_compute in Hp.
    repeat (destruct Hp as [<-|Hp]; [vm_compute in Hrc;
      repeat (destruct Hrc as [<-|Hrc]; [eexists _, _, _; split;
        [split; [vm_compute; reflexivity|eexists; split; vm_compute; reflexivity]|vm_compute; reflexivity]|]); destruct Hrc|]).
    destruct Hp. }
  split; [vm_compute; right; right; right; right; left; reflexivity|].
  split; [reflexivity|]. split; [reflexivity|]. split; [reflexivity|].
  split; [vm_compute; reflexivity|].
  split; [eexists; split; [vm_compute; right; right; left; reflexivity|reflexivity]|].
  split; vm_compute; reflexivity.
Qed.

Lemma Forall2_get {A} (key : A -> string) (R : A -> A -> Prop) l l' n a :
  (forall x y, R x y -> key y = key x) -> Forall2 R l l' ->
  find (fun x => String.eqb (key x) n) l = Some a ->
  exists b, find (fun x => String.eqb (key x) n) l' = Some b /\ R a b.
Proof.
  intros Hk F. induction F as [|x y l l' Hr F IH]; cbn; [discriminate|].
  rewrite (Hk _ _ Hr). destruct (String.eqb (key x) n); auto.
  intros E. injection E as <-. eauto.
Qed.

Lemma c37_partial :
  forall d w p i j l, w_daemon w = Some d -> wf_queue w -> NoDup (map p_name (w_pips w)) ->
  (forall q, In q (w_pips w) -> has_char "'" (p_name q) = false) ->
  (forall q k, In q (w_pips w) -> p_jobid q = Some k -> get_job (w_jobs w) k <> None) ->
  (forall q, In q (w_pips w) -> orphaned w q -> resettable w d (p_name q)) ->
  In p (w_pips w) -> p_jobid p = Some i -> get_job (w_jobs w) i = Some j ->
  j_pid j = None -> j_connected j = None -> j_launched j = Some l ->
  fst (run exec pip_pass w) = Ok tt /\
  get_pip (w_pips (snd (run exec pip_pass w))) (p_name p) =
    Some (if Z.ltb (10 * 24 * 3600 * 1000000) (w_now w - l)
          then mkPip (p_name p) false None (p_sample p) else p) /\
  In j (w_jobs (snd (run exec manage_running w))).
Proof.
  intros d w p i j l Hd Hwf Hn Hq Hh Hr Hp Hi Hj J1 J2 J3.
  destruct (run exec pip_pass w) as [x w'] eqn:E.
  destruct (pip_pass_spec d w x w' Hd Hn Hq E) as (pips' & es & -> & F1 & _ & F2 & HOk).
  assert (x = Ok tt) as -> by auto. specialize (F2 eq_refl). cbn [fst snd]. split; auto. split.
  - rewrite ae_pips. cbn [w_pips set_pips].
    assert (F : Forall2 (fun p p' => (p' = p \/ orphaned w p /\ p' = freed p) /\ (orphaned w p -> p' = freed p))
                  (w_pips w) pips').
    { clear - F1 F2. revert F2. induction F1 as [|a b la lb H F IH]; intros F2; [constructor|].
      inversion F2; subst. constructor; auto. split; auto. destruct H as [H|(H1 & H2 & _)]; auto. }
    assert (Hk : forall a b : pipstate, (b = a \/ orphaned w a /\ b = freed a) /\ (orphaned w a -> b = freed a) ->
                  p_name b = p_name a) by (intros a b [[->|[_ ->]] _]; reflexivity).
    destruct (Forall2_get p_name _ _ _ (p_name p) p Hk F (In_get_pip _ _ Hn Hp)) as (b & G & Hb & Hb2).
    unfold get_pip. rewrite G. f_equal.
    assert (Ho : over w j <-> w_now w - l > 10 * 24 * 3600 * 1000000).
    { unfold over. rewrite J1, J2, J3. split.
      - intros [H|(l' & E1 & H)]; [congruence|]. injection E1 as <-. exact H.
      - intros H. right. eauto. }
    destruct (Z.ltb_spec (10 * 24 * 3600 * 1000000) (w_now w - l)) as [L|L].
    + apply Hb2. exists i, j. split; auto. split; auto. apply Ho. lia.
    + destruct Hb as [Hb|[(i' & j' & E1 & E2 & E3) _]]; auto.
      rewrite Hi in E1. injection E1 as <-. rewrite Hj in E2. injection E2 as <-. apply Ho in E3. lia.
  - destruct (run exec manage_running w) as [x2 w2] eqn:E2.
    destruct (manage_running_spec w x2 w2 Hwf E2) as (es2 & jobs' & -> & G & _). cbn [snd].
    rewrite ae_jobs. cbn [w_jobs set_jobs]. apply get_job_In in Hj as [Hj _].
    clear - G Hj J1. induction G as [|a b la lb H F IH]; [destruct Hj|].
    destruct Hj as [->|Hj]; [left|right; auto].
    destruct H as [H|H]; auto. unfold reconciled in H. now rewrite J1 in H.
Qed.

Lemma c64_outcome :
  forall pid a w w', has_char "'" (ja_pipeline a) = false ->
  run exec (tomato_job pid a) w = (Ok tt, w') ->
  exists ok j j', w_main w (ja_jobid a) = Ok ok /\
    get_job (w_jobs w) (ja_jobid a) = Some j /\
    get_job (w_jobs w') (ja_jobid a) = Some j' /\
    (j_status j' = Sc <-> ok = true) /\ (j_status j' = Sce <-> ok = false) /\
    j_completed j' = Some (w_now w) /\ j_pid j' = Some pid /\ j_payload j' = j_payload j /\
    (forall i, i <> ja_jobid a -> get_job (w_jobs w') i = get_job (w_jobs w) i) /\
    (forall p, get_pip (w_pips w) (ja_pipeline a) = Some p ->
       get_pip (w_pips w') (ja_pipeline a) =
         Some (mkPip (p_name p) (pl_unlock (j_payload j)) None (p_sample p))) /\
    (forall n, n <> ja_pipeline a -> get_pip (w_pips w') n = get_pip (w_pips w) n) /\
    (exists path, j_respath j' = Some path /\ w_log w' = EvArchive path j' :: w_log w).
Proof.
  intros pid a w w' Hq H. destruct (tomato_job_spec pid a w w' Hq H) as (ok & j & out & es & H1 & H2 & H3 & -> & ->).
  exists ok, j. eexists. split; auto. split; auto. rewrite ae_jobs, ae_pips. cbn [w_jobs w_pips set_pips set_jobs].
  split; [rewrite get_job_upd, Z.eqb_refl, H2; cbn [option_map]; reflexivity|].
  split; [destruct ok; cbn; split; congruence|]. split; [destruct ok; cbn; split; congruence|].
  split; [reflexivity|]. split; [reflexivity|]. split; [reflexivity|]. split.
  - intros i Hi. rewrite get_job_upd. destruct (Z.eqb_spec i (ja_jobid a)); [contradiction|reflexivity].
  - split; [|split].
    + intros p Hp. rewrite get_pip_upd, String.eqb_refl, Hp. reflexivity.
    + intros n Hn. rewrite get_pip_upd. destruct (String.eqb_spec n (ja_pipeline a)); [contradiction|reflexivity].
    + eexists. split; reflexivity.
Qed.
