(** * PassProofs2: a job that can run is run (C99) *)
From Coq Require Import List String Ascii ZArith Bool Sorted Lia.
From Verif Require Import Base PyStr BaseFacts Types ConfigModel Prog ProgFacts World WorldFacts Replies
  CmdModel KetchupModel JobModel SysModel RGFacts SpecQueue SpecJob SpecSys KetchupProofs MatchProofs JobProofs
  PipCmdProofs MatchProofs2 SuperProofs SysProofs SysProofs15 PassProofs P_JobFacts.
Import ListNotations.
Open Scope list_scope.
Open Scope Z_scope.

(** ** What operations never change *)
Lemma exec_oracles o w :
  w_main (snd (exec o w)) = w_main w /\ w_merge (snd (exec o w)) = w_merge w /\
  w_crate (snd (exec o w)) = w_crate w /\ w_outdir (snd (exec o w)) = w_outdir w /\
  w_procs (snd (exec o w)) = w_procs w /\ w_now (snd (exec o w)) = w_now w.
Proof. op_cases o; repeat split; reflexivity. Qed.
Lemma run_oracles {A} (p : pgm A) : forall w x w', run exec p w = (x, w') ->
  w_main w' = w_main w /\ w_merge w' = w_merge w /\ w_crate w' = w_crate w /\ w_outdir w' = w_outdir w /\
  w_procs w' = w_procs w /\ w_now w' = w_now w.
Proof.
  induction p as [a|e|o k IH]; intros w x w' H; cbn in H; try (injection H as _ <-; repeat split; reflexivity).
  pose proof (exec_oracles o w) as E. destruct (exec o w) as [r w1]. cbn in E.
  destruct (IH r w1 x w' H) as (A1 & A2 & A3 & A4 & A5 & A6). destruct E as (B1 & B2 & B3 & B4 & B5 & B6).
  rewrite A1, A2, A3, A4, A5, A6. auto 10.
Qed.

(** ** A job process undisturbed *)
Lemma job_exact : forall pid a w, has_char "'" (ja_pipeline a) = false ->
  (fst (run exec (tomato_job pid a) w) = Ok tt <->
   (exists j, get_job (w_jobs w) (ja_jobid a) = Some j) /\
   (exists out, pl_outpath (ja_payload a) = Some out /\ w_outdir w out = None) /\
   (exists ok, w_main w (ja_jobid a) = Ok ok) /\ w_merge w (ja_jobid a) = None /\
   (ja_repos a = [] \/ w_crate w (ja_jobid a) = None)).
Proof.
  intros pid a w Hq. unfold tomato_job. rewrite run_bind, run_act. cbn [exec].
  rewrite run_bind, run_update_job_id. rewrite get_job_upd, Z.eqb_refl.
  destruct (get_job (w_jobs w) (ja_jobid a)) as [j|] eqn:Ej; cbn [option_map];
    [|cbn; split; [discriminate|intros ((j & H) & _); discriminate H]].
  destruct (pl_outpath (ja_payload a)) as [out|] eqn:Eo;
    [|cbn; split; [discriminate|intros (_ & (o & H & _) & _); discriminate H]].
  rewrite run_bind, run_act. cbn [exec w_outdir set_jobs].
  destruct (w_outdir w out) as [e|] eqn:Ew;
    [cbn; split; [discriminate|intros (_ & (o & H & K) & _); injection H as <-; congruence]|].
  rewrite run_bind, run_update_job_id. cbn [w_jobs set_jobs w_seq]. rewrite upd_jobs_app.
  rewrite get_job_upd, Z.eqb_refl, Ej. cbn [option_map].
  set (j2 := set_jcols _ j). assert (E2 : j_id j2 = ja_jobid a).
  { unfold j2. rewrite set_jcols_id. now apply get_job_In in Ej. }
  assert (P2 : j_jobpath j2 = Some (job_path (ja_dir a))) by reflexivity.
  assert (R2 : j_respath j2 = Some (res_path out (ja_payload a) (ja_jobid a))) by reflexivity.
  clearbody j2.
  rewrite run_bind, run_act. cbn [exec w_main set_jobs]. rewrite E2.
  destruct (w_main w (ja_jobid a)) as [ok|e] eqn:Em;
    [|cbn; split; [discriminate|intros (_ & _ & (o & H) & _); discriminate H]].
  rewrite run_bind, run_act. cbn [exec w_now set_jobs].
  rewrite run_bind. unfold merge_netcdfs. rewrite run_bind, run_assert.
  set (j3 := set_jcols _ j2).
  assert (E3 : j_id j3 = ja_jobid a) by (unfold j3; now rewrite set_jcols_id).
  assert (P3 : j_jobpath j3 = j_jobpath j2) by reflexivity.
  assert (R3 : j_respath j3 = j_respath j2) by reflexivity.
  clearbody j3. rewrite P3, P2, R3, R2. cbn [is_some].
  rewrite run_archive. cbn [w_merge set_jobs]. rewrite E3.
  destruct (w_merge w (ja_jobid a)) as [e|];
    [cbn; split; [discriminate|intros (_ & _ & _ & H & _); discriminate H]|].
  rewrite run_bind.
  match goal with |- context [run exec ?P (add_event ?ww ?ee)] =>
    assert (K : run exec P (add_event ww ee) =
                (match ja_repos a, w_crate w (ja_jobid a) with _ :: _, Some e => Err e | _, _ => Ok tt end,
                 add_event ww ee)) end.
  { destruct (ja_repos a); [reflexivity|]. cbn. rewrite E2. destruct (w_crate w (ja_jobid a)); reflexivity. }
  rewrite K. clear K.
  destruct (ja_repos a) as [|r rs] eqn:Er; [|destruct (w_crate w (ja_jobid a)) as [e|] eqn:Ec].
  2:{ cbn. split; [discriminate|]. intros (_ & _ & _ & _ & [H|H]); discriminate H. }
  all: rewrite run_bind, run_update_job_id; cbn [w_jobs set_jobs add_event w_seq];
    rewrite upd_jobs_app, get_job_upd, Z.eqb_refl, Ej; cbn [option_map];
    rewrite run_bind, run_update_pip by auto; cbn [run fst];
    split; [|reflexivity]; intros _; split; [eauto|]; split; [eauto|]; split; [eauto|]; auto.
Qed.

(** ** Who is started *)
Lemma exactly_in P l q j : exactly P l q -> In j l -> P j -> In j q.
Proof. intros [H _] A B. apply H. auto. Qed.
Lemma F2_in_l {A B} (P : A -> B -> Prop) l l' : Forall2 P l l' -> forall a, In a l -> exists b, In b l' /\ P a b.
Proof.
  induction 1 as [|a b l l' H _ IH]; intros x Hx; [destruct Hx|].
  destruct Hx as [<-|Hx]; [exists b; split; [now left|exact H]|].
  destruct (IH x Hx) as (b' & H1 & H2). exists b'. split; [now right|exact H2].
Qed.
Lemma matching_in w d m l p : matching w d m l -> In p (dvals (df_pipelines (dm_df d))) -> can_run w d m p ->
  In (pp_name p) l.
Proof.
  intros (ps & (f & F1 & F2) & ->) Hp Hc. apply in_map. rewrite F2. apply filter_In. split; [exact Hp|]. now apply F1.
Qed.
Lemma matching_out w d m l pn : matching w d m l -> In pn l ->
  exists p, In p (dvals (df_pipelines (dm_df d))) /\ can_run w d m p /\ pp_name p = pn.
Proof.
  intros (ps & (f & F1 & F2) & ->) Hp. apply in_map_iff in Hp. destruct Hp as (p & E & Hp).
  rewrite F2 in Hp. apply filter_In in Hp. destruct Hp as [H1 H2]. exists p. split; [exact H1|].
  split; [now apply F1|exact E].
Qed.

Lemma starts_lemma d w j p : pass_ready w d -> In j (w_jobs w) -> queued (j_status j) ->
  In p (dvals (df_pipelines (dm_df d))) -> can_run w d (pl_method (j_payload j)) p -> open_for w j (pp_name p) ->
  exists w' args a, run exec job_pass w = (Ok tt, w') /\ w_spawned w' = w_spawned w ++ args /\ In a args /\
    (ja_jobid a = j_id j \/ ja_jobid a < j_id j /\ ja_pipeline a = pp_name p).
Proof.
  intros R Hj Hq Hp Hc Ho. pose proof R as (_ & Hw & _).
  destruct (pass_lemma d w R) as (w' & q & m & asg & args & E & Hex & Hm & Hg & Hs & Ha & _).
  exists w', args. pose proof (exactly_in _ _ _ _ Hex Hj Hq) as Jq.
  destruct (F2_in_l _ _ _ Hm j Jq) as ([i l] & Em & E1 & E2). cbn in E1, E2. subst i.
  destruct (in_dec Z.eq_dec (j_id j) (map fst asg)) as [I|N].
  - apply in_map_iff in I. destruct I as ([i pn] & E3 & I). cbn in E3. subst i.
    destruct (F2_in_l _ _ _ Ha _ I) as (a & Ia & j1 & G & (_ & _ & A1 & _)).
    exists a. split; [exact E|]. split; [exact Hs|]. split; [exact Ia|]. left.
    cbn in G. rewrite (In_get_job _ _ (wf_NoDup w Hw) Hj) in G. congruence.
  - destruct Hg as (_ & _ & _ & G4).
    destruct (G4 (j_id j) l j Em (In_get_job _ _ (wf_NoDup w Hw) Hj) N (pp_name p)) as (i & I & L);
      [eapply matching_in; eauto|exact Ho|].
    destruct (F2_in_l _ _ _ Ha _ I) as (a & Ia & j1 & G & (A0 & _ & A1 & _)).
    exists a. split; [exact E|]. split; [exact Hs|]. split; [exact Ia|]. right. cbn in G, A0.
    split; [|exact A0]. rewrite A1. apply get_job_row in G. destruct G as [_ G]. lia.
Qed.

(** The oldest queued job. *)
Lemma head_lemma d w j p : pass_ready w d -> In j (w_jobs w) -> queued (j_status j) ->
  (forall j', In j' (w_jobs w) -> queued (j_status j') -> j_id j <= j_id j') ->
  In p (dvals (df_pipelines (dm_df d))) -> can_run w d (pl_method (j_payload j)) p -> open_for w j (pp_name p) ->
  exists w' args a p', run exec job_pass w = (Ok tt, w') /\ w_spawned w' = w_spawned w ++ args /\ In a args /\
    In p' (dvals (df_pipelines (dm_df d))) /\ can_run w d (pl_method (j_payload j)) p' /\
    open_for w j (pp_name p') /\ start_args d j (pp_name p') a /\
    get_job (w_jobs w') (j_id j) = Some (launched_row j (w_now w)) /\
    get_pip (w_pips w') (pp_name p') = Some (mkPip (pp_name p') false (Some (j_id j)) (Some (pl_sample (j_payload j)))).
Proof.
  intros R Hj Hq Hmin Hp Hc Ho. pose proof R as (_ & Hw & _).
  destruct (pass_lemma d w R) as (w' & q & m & asg & args & E & Hex & Hm & Hg & Hs & Ha & Hpip & Hrow).
  pose proof (In_get_job _ _ (wf_NoDup w Hw) Hj) as Gj.
  pose proof (exactly_in _ _ _ _ Hex Hj Hq) as Jq.
  destruct (F2_in_l _ _ _ Hm j Jq) as ([i l] & Em & E1 & E2). cbn in E1, E2. subst i.
  destruct Hg as (G1 & G2 & G3 & G4).
  assert (I : In (j_id j) (map fst asg)).
  { destruct (in_dec Z.eq_dec (j_id j) (map fst asg)) as [I|N]; [exact I|exfalso].
    destruct (G4 (j_id j) l j Em Gj N (pp_name p)) as (i & I & L);
      [eapply matching_in; eauto|exact Ho|].
    destruct (G3 _ _ I) as (j1 & pre & post & M1 & _).
    destruct (F2_in _ _ _ Hm _ M1) as (j2 & Q2 & E3 & _). cbn in E3.
    apply (proj1 Hex) in Q2. destruct Q2 as [Q2 Q3]. specialize (Hmin j2 Q2 Q3). lia. }
  apply in_map_iff in I. destruct I as ([i pn] & E3 & I). cbn in E3. subst i.
  destruct (G3 _ _ I) as (j1 & pre & post & M1 & K1 & K2 & _).
  rewrite Gj in K1. injection K1 as <-.
  destruct (F2_in _ _ _ Hm _ M1) as (j2 & Q2 & E3 & Mt). cbn in E3, Mt.
  assert (j2 = j).
  { apply (proj1 Hex) in Q2. destruct Q2 as [Q2 _].
    pose proof (In_get_job _ _ (wf_NoDup w Hw) Q2) as G. rewrite <- E3 in G. congruence. }
  subst j2.
  destruct (matching_out _ _ _ _ pn Mt) as (p' & P1 & P2 & P3); [apply in_or_app; right; now left|].
  destruct (F2_in_l _ _ _ Ha _ I) as (a & Ia & j3 & G & St). cbn [fst snd] in G, St.
  rewrite Gj in G. injection G as <-.
  exists w', args, a, p'. rewrite P3. repeat (split; [assumption|]).
  split; [exact (Hrow _ j I Gj)|].
  rewrite Hpip.
  assert (As : assigned_to asg pn = Some (j_id j)).
  { clear - G2 I. unfold assigned_to. induction asg as [|[i n] asg IH]; [destruct I|]. cbn in G2. inversion G2; subst.
    cbn. destruct (String.eqb_spec n pn) as [->|N].
    - destruct I as [I|I]; [inversion I; reflexivity|]. elim H1. apply in_map_iff. exists (j_id j, pn). auto.
    - destruct I as [I|I]; [inversion I; congruence|]. apply IH; assumption. }
  rewrite As. destruct K2 as (ps & Gp & _ & _ & Sp). rewrite Gp. cbn [option_map]. rewrite Sp.
  apply find_some in Gp. destruct Gp as [_ Gp]. apply String.eqb_eq in Gp. rewrite Gp. reflexivity.
Qed.

(** ** A thread alone *)
Lemma set_nth_id {A} : forall (l : list A) n t, nth_error l n = Some t -> set_nth n t l = l.
Proof. induction l as [|a l IH]; intros [|n] t H; cbn in *; try discriminate; [congruence|]. f_equal. eauto. Qed.
Lemma set_nth_twice {A} : forall (l : list A) n x y, set_nth n x (set_nth n y l) = set_nth n x l.
Proof. induction l as [|a l IH]; intros [|n] x y; cbn; congruence. Qed.
Definition ended_pgm (x : res (option reply)) : pgm (option reply) :=
  match x with Ok r => Ret r | Err e => Raise e end.
Lemma alone (p : pgm (option reply)) : forall s n k dn, nth_error (s_threads s) n = Some (mkThread k p dn) ->
  exists c, runs (repeat (LStep n) c) s = Some (mkSys (snd (run exec p (s_world s)))
    (set_nth n (mkThread k (ended_pgm (fst (run exec p (s_world s)))) dn) (s_threads s)) (s_run s)).
Proof.
  induction p as [r|e|o c IH]; intros s n k dn H.
  - exists 0%nat. cbn. rewrite (set_nth_id _ _ _ H). destruct s; reflexivity.
  - exists 0%nat. cbn. rewrite (set_nth_id _ _ _ H). destruct s; reflexivity.
  - cbn [run]. destruct (exec o (s_world s)) as [r w] eqn:X.
    destruct (IH r (mkSys w (set_nth n (mkThread k (c r) dn) (s_threads s)) (s_run s)) n k dn) as (c1 & K).
    { cbn. eapply set_nth_same. exact H. }
    exists (S c1). cbn [repeat runs step]. rewrite H. unfold step_thread. cbn [t_pgm t_kind t_done]. rewrite X.
    rewrite K. cbn [s_world s_threads s_run]. rewrite set_nth_twice. reflexivity.
Qed.
Lemma runs_app : forall a b s s', runs a s = Some s' -> runs (a ++ b) s = runs b s'.
Proof.
  induction a as [|l a IH]; intros b s s' H; cbn in *; [congruence|].
  destruct (step l s); [|discriminate]. now apply IH.
Qed.

(** ** From the queue to the end *)
Lemma life_lemma s n r d j p out ok pid :
  nth_error (s_threads s) n = Some (mkThread KJobMgr (Ret r) false) -> s_run s = true ->
  pass_ready (s_world s) d -> In j (w_jobs (s_world s)) -> queued (j_status j) ->
  (forall j', In j' (w_jobs (s_world s)) -> queued (j_status j') -> j_id j <= j_id j') ->
  In p (dvals (df_pipelines (dm_df d))) -> can_run (s_world s) d (pl_method (j_payload j)) p ->
  open_for (s_world s) j (pp_name p) ->
  pl_outpath (j_payload j) = Some out -> w_outdir (s_world s) out = None ->
  w_main (s_world s) (j_id j) = Ok ok -> w_merge (s_world s) (j_id j) = None ->
  w_crate (s_world s) (j_id j) = None -> get_proc (w_procs (s_world s)) pid = None ->
  exists ls s' p' j', runs ls s = Some s' /\
    (forall l, In l ls -> l = LStep n \/ (exists i, l = LJobStart i pid) \/ l = LStep (List.length (s_threads s))) /\
    In p' (dvals (df_pipelines (dm_df d))) /\ can_run (s_world s) d (pl_method (j_payload j)) p' /\
    open_for (s_world s) j (pp_name p') /\
    get_job (w_jobs (s_world s')) (j_id j) = Some j' /\
    j_status j' = (if ok then Sc else Sce) /\ j_payload j' = j_payload j /\
    j_launched j' <> None /\ j_connected j' <> None /\ j_completed j' <> None /\
    get_pip (w_pips (s_world s')) (pp_name p') =
      Some (mkPip (pp_name p') (pl_unlock (j_payload j)) None (Some (pl_sample (j_payload j)))).
Proof.
  intros Ht Hrun R Hj Hq Hmin Hp Hc Ho Hout Hdir Hmain Hmerge Hcrate Hpid.
  destruct (head_lemma d _ j p R Hj Hq Hmin Hp Hc Ho) as (w1 & args & a & p' & E & Hs & Ia & P1 & P2 & P3 & St & Gj & Gp).
  pose proof (run_oracles _ _ _ _ E) as (O1 & O2 & O3 & O4 & O5 & O6).
  destruct R as (_ & _ & _ & Hpl & _). destruct (Hpl p' P1) as [Pl _].
  destruct St as (A1 & A2 & A3 & A4 & _).
  (* the pass *)
  set (s1 := mkSys (s_world s) (set_nth n (mkThread KJobMgr (no_reply job_pass) false) (s_threads s)) (s_run s)).
  destruct (alone (no_reply job_pass) s1 n KJobMgr false) as (c1 & K1).
  { cbn. eapply set_nth_same. exact Ht. }
  assert (E0 : run exec (no_reply job_pass) (s_world s1) = (Ok None, w1)).
  { unfold no_reply. rewrite run_bind. cbn [s_world s1]. rewrite E. reflexivity. }
  rewrite E0 in K1. cbn [fst snd ended_pgm s_threads s1 s_run] in K1. rewrite set_nth_twice in K1.
  set (th := set_nth n (mkThread KJobMgr (Ret None) false) (s_threads s)) in K1.
  set (s2 := mkSys w1 th (s_run s)) in K1.
  assert (Lth : List.length th = List.length (s_threads s)).
  { unfold th. clear. revert n. induction (s_threads s) as [|t l IH]; intros [|n]; cbn; auto. }
  (* the process starts *)
  assert (Ia' : In a (w_spawned w1)) by (rewrite Hs; apply in_or_app; auto).
  apply In_nth_error in Ia'. destruct Ia' as [i Hi].
  set (w2 := set_procs w1 (del_nth i (w_spawned w1)) (mkProc pid false (Some a) :: w_procs w1)).
  set (s3 := mkSys w2 (th ++ [mkThread (KJob pid a) (no_reply (tomato_job pid a)) false]) (s_run s)).
  assert (S3 : step (LJobStart i pid) s2 = Some s3).
  { cbn [step s_world s2]. assert (Hpid1 : get_proc (w_procs w1) pid = None) by (rewrite O5; exact Hpid).
    rewrite Hi, Hpid1. reflexivity. }
  (* and comes to its end *)
  destruct (alone (no_reply (tomato_job pid a)) s3 (List.length (s_threads s)) (KJob pid a) false) as (c2 & K2).
  { cbn [s_threads s3]. rewrite nth_error_app2 by lia. rewrite Lth, Nat.sub_diag. reflexivity. }
  cbn [s_world s3] in K2.
  assert (Ok1 : fst (run exec (tomato_job pid a) w2) = Ok tt).
  { apply job_exact; [rewrite A1; exact Pl|]. rewrite A3, A2. cbn [w2 set_procs w_jobs w_outdir w_main w_merge w_crate].
    rewrite O1, O2, O3, O4. split; [eauto|]. split; [eauto|]. split; [eauto|]. auto. }
  destruct (run exec (tomato_job pid a) w2) as [x w3] eqn:E3. cbn in Ok1. subst x.
  assert (E4 : run exec (no_reply (tomato_job pid a)) w2 = (Ok None, w3)).
  { unfold no_reply. rewrite run_bind, E3. reflexivity. }
  rewrite E4 in K2. cbn [fst snd] in K2.
  destruct (c64_outcome pid a w2 w3) as (ok' & j1 & j2 & H1 & H2 & H3 & H4 & H5 & H6 & _ & H7 & _ & H8 & _);
    [rewrite A1; exact Pl|exact E3|].
  destruct (tomato_job_spec pid a w2 w3) as (ok2 & j3 & out' & es & _ & T2 & _ & T4 & _);
    [rewrite A1; exact Pl|exact E3|].
  cbn [w2 set_procs w_jobs w_main] in H1, H2, T2. rewrite A3 in H1, H2, H3, T2. rewrite Gj in H2, T2.
  injection H2 as <-. injection T2 as <-. rewrite O1, Hmain in H1. injection H1 as <-.
  exists (LStep n :: repeat (LStep n) c1 ++ LJobStart i pid :: repeat (LStep (List.length (s_threads s))) c2).
  match type of K2 with _ = Some ?z => exists z end. exists p', j2. split; [|split; [|split; [exact P1|split; [exact P2|split; [exact P3|split; [exact H3|]]]]]].
  - cbn [runs]. cbn [step]. rewrite Ht. unfold step_thread. cbn [t_pgm t_kind t_done mgr_pass]. rewrite Hrun.
    change (set_threads s (set_nth n (mkThread KJobMgr (no_reply job_pass) false) (s_threads s))) with s1.
    rewrite (runs_app _ _ _ _ K1). cbn [runs]. rewrite S3. exact K2.
  - intros l [<-|Hl]; [now left|]. apply in_app_or in Hl. destruct Hl as [Hl|[<-|Hl]]; [| |].
    + apply repeat_spec in Hl. auto.
    + right. left. eauto.
    + apply repeat_spec in Hl. auto.
  - cbn [s_world].
    split; [destruct ok; [apply H4|apply H5]; reflexivity|]. split; [rewrite H7; reflexivity|].
    assert (X : j_launched j2 <> None /\ j_connected j2 <> None).
    { subst w3. rewrite ae_jobs in H3. cbn [w_jobs set_pips set_jobs w2 set_procs] in H3. rewrite A3 in H3.
      rewrite get_job_upd, Z.eqb_refl, Gj in H3. cbn [option_map] in H3. injection H3 as <-.
      split; destruct ok2; discriminate. }
    destruct X as [X1 X2]. split; [exact X1|]. split; [exact X2|]. split; [rewrite H6; discriminate|].
    specialize (H8 _ ltac:(cbn [w2 set_procs w_pips]; rewrite A1; exact Gp)). rewrite A1 in H8. exact H8.
Qed.

(** ** In order of submission *)
Lemma order_lemma d w w' args j1 j2 a2 p : pass_ready w d -> run exec job_pass w = (Ok tt, w') ->
  w_spawned w' = w_spawned w ++ args ->
  In j1 (w_jobs w) -> queued (j_status j1) -> j_id j1 < j_id j2 ->
  In p (dvals (df_pipelines (dm_df d))) -> can_run w d (pl_method (j_payload j1)) p -> open_for w j1 (pp_name p) ->
  In a2 args -> ja_jobid a2 = j_id j2 -> ja_pipeline a2 = pp_name p ->
  exists a1, In a1 args /\ ja_jobid a1 = j_id j1.
Proof.
  intros R E Hs Hj1 Hq1 Hlt Hp Hc Ho Ia2 A2 A3. pose proof R as (_ & Hw & _).
  destruct (pass_lemma d w R) as (w1 & q & m & asg & args1 & E1 & Hex & Hm & Hg & Hs1 & Ha & _).
  rewrite E in E1. injection E1 as <-. rewrite Hs in Hs1. apply app_inv_head in Hs1. subst args1.
  pose proof (exactly_in _ _ _ _ Hex Hj1 Hq1) as Jq.
  destruct (F2_in_l _ _ _ Hm j1 Jq) as ([i l] & Em & E1 & E2). cbn in E1, E2. subst i.
  destruct Hg as (_ & G2 & _ & G4).
  destruct (in_dec Z.eq_dec (j_id j1) (map fst asg)) as [I|N].
  - apply in_map_iff in I. destruct I as ([i pn] & E3 & I). cbn in E3. subst i.
    destruct (F2_in_l _ _ _ Ha _ I) as (a & Ia & j3 & G & (_ & _ & A1 & _)). exists a. split; [exact Ia|].
    cbn in G. apply get_job_row in G. destruct G as [_ G]. congruence.
  - exfalso.
    destruct (G4 (j_id j1) l j1 Em (In_get_job _ _ (wf_NoDup w Hw) Hj1) N (pp_name p)) as (i & I & L);
      [eapply matching_in; eauto|exact Ho|].
    destruct (F2_in _ _ _ Ha _ Ia2) as ([i2 pn2] & I2 & j3 & G & (B1 & _ & B2 & _)). cbn [fst snd] in *.
    apply get_job_row in G. destruct G as [_ G].
    assert (X : forall (l : list (Z * string)) a b n, NoDup (map snd l) -> In (a, n) l -> In (b, n) l -> a = b).
    { clear. induction l as [|[x y] l IH]; intros a b n D H1 H2; [destruct H1|]. cbn in D. inversion D; subst.
      destruct H1 as [H1|H1], H2 as [H2|H2].
      - congruence.
      - elim H3. apply in_map_iff. exists (b, n). injection H1 as _ ->. auto.
      - elim H3. apply in_map_iff. exists (a, n). injection H2 as _ ->. auto.
      - eapply IH; eauto. }
    assert (Y : i = i2). { eapply X; [exact G2|exact I|]. rewrite <- A3, B1. exact I2. }
    lia.
Qed.
