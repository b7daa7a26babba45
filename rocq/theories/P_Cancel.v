(** * P_Cancel: a running job is cancelled, or its process is gone (C108) *)
From Coq Require Import List String Ascii ZArith Bool.
From Verif Require Import Base PyStr Types ConfigModel Prog ProgFacts World Replies CmdModel KetchupModel JobModel PipModel
  SysModel JobThreadModel SpecQueue SpecJob SpecSys ExWorld SysPlay SysProofs CancelProofs.
Import ListNotations.
Open Scope string_scope.
Open Scope Z_scope.

(** After a cancel, the next pass of the job manager records the running job as cancelled and
    the next pass of the pipeline manager frees its pipeline, which keeps its sample, and asks
    all its components to reset.  The process of the job is left as it is. *)
Theorem C108_recorded : forall port d w i j pn ps pid,
  let w0 := set_jobs w (cancel_all [i] (w_jobs w)) (w_seq w) in
  wf_queue w -> w_daemon w = Some d -> pass_ready w0 d ->
  (forall p, In p (w_pips w) -> resettable w d (p_name p)) ->
  (forall p k, In p (w_pips w) -> p_jobid p = Some k -> get_job (w_jobs w) k <> None) ->
  get_job (w_jobs w) i = Some j -> j_status j = Sr -> j_pid j = Some pid -> j_connected j <> None ->
  get_pip (w_pips w) pn = Some ps -> p_jobid ps = Some i ->
  exists r w1 w2 es, run exec (ketchup_cancel port [i]) w = (Ok r, w0) /\ r_ok r = true /\
    run exec job_pass w0 = (Ok tt, w1) /\ run exec pip_pass w1 = (Ok tt, w2) /\
    get_job (w_jobs w2) i = Some (closed_row j Scd (w_now w)) /\ get_pip (w_pips w2) pn = Some (freed ps) /\
    w_log w2 = (rev es ++ w_log w1)%list /\
    (exists pl, dget (df_pipelines (dm_df d)) pn = Some pl /\
       forall rc, In rc (pp_components pl) -> exists cmp port, component_port w d (snd rc) cmp port /\
         In (EvRequest port (CReset (c_address cmp) (c_channel cmp))) es) /\
    w_procs w2 = w_procs w.
Proof. exact cancel_lemma. Qed.
Print Assumptions C108_recorded.

(** The same for a running job whose process is gone, which is recorded as failed. *)
Theorem C108_gone : forall d w i j pn ps pid, pass_ready w d ->
  (forall p, In p (w_pips w) -> resettable w d (p_name p)) ->
  (forall p k, In p (w_pips w) -> p_jobid p = Some k -> get_job (w_jobs w) k <> None) ->
  get_job (w_jobs w) i = Some j -> j_status j = Sr -> j_pid j = Some pid -> ~ live w pid -> j_connected j <> None ->
  get_pip (w_pips w) pn = Some ps -> p_jobid ps = Some i ->
  exists w1 w2 es, run exec job_pass w = (Ok tt, w1) /\ run exec pip_pass w1 = (Ok tt, w2) /\
    get_job (w_jobs w2) i = Some (closed_row j Sce (w_now w)) /\ get_pip (w_pips w2) pn = Some (freed ps) /\
    w_log w2 = (rev es ++ w_log w1)%list /\
    (exists pl, dget (df_pipelines (dm_df d)) pn = Some pl /\
       forall rc, In rc (pp_components pl) -> exists cmp port, component_port w d (snd rc) cmp port /\
         In (EvRequest port (CReset (c_address cmp) (c_channel cmp))) es).
Proof. exact gone_lemma. Qed.
Print Assumptions C108_gone.

(** Nothing that commands, managers, drivers or other jobs do ends the process of a job or
    changes what it is going to do. *)
Theorem C108_untouched : forall n pid a p, ended (mkThread (KJob pid a) p false) = false -> forall ls s s',
  nth_error (s_threads s) n = Some (mkThread (KJob pid a) p false) -> live (s_world s) pid ->
  (forall l, In l ls -> l <> LStep n /\ l <> LKill n /\ l <> LCrash /\ l <> LExit) -> runs ls s = Some s' ->
  nth_error (s_threads s') n = Some (mkThread (KJob pid a) p false) /\ live (s_world s') pid.
Proof. exact proc_untouched. Qed.
Print Assumptions C108_untouched.

(** A worker whose component has been reset from outside sends the next task. *)
Definition after_reset (t1 t2 : task) (d : bans) : list jev :=
  [Ev (JCurrent (Some t1)) (Ok tt); Ev JStatus (Ok (SState true false None)); Ev JClock (Ok 0); Ev (JSend t1) (Ok (BAnswer true));
   Ev JClock (Ok 0); Ev JStatus (Ok (SState false true None)); Ev JClock (Ok 0); Ev JClock (Ok 0);
   Ev JStatus (Ok (SState true false None)); Ev JData (Ok DNothing); Ev (JCurrent None) (Ok tt);
   Ev (JCurrent (Some t2)) (Ok tt); Ev JStatus (Ok (SState true false None)); Ev JClock (Ok 0); Ev (JSend t2) (Ok d)].
Theorem C108_sends_on : forall fuel t1 t2 rest d, t_start_with t1 = None -> t_start_with t2 = None ->
  exists q, leads (job_thread (S fuel) 1 (t1 :: t2 :: rest)) (after_reset t1 t2 d) q.
Proof.
  intros fuel t1 t2 rest d E1 E2. unfold job_thread, one_task, after_reset. cbn. rewrite E1. cbn.
  eexists. do 11 (right; eexists _, _; split; [reflexivity|]; cbn). right. eexists _, _. split; [reflexivity|]. cbn. rewrite E2. cbn.
  do 3 (right; eexists _, _; split; [reflexivity|]; cbn).
  match goal with |- leads ?p [] _ => instantiate (1 := p) end. destruct d; cbn; auto.
Qed.
Print Assumptions C108_sends_on.

(** So a cancelled job is not stopped: job 1 is recorded as cancelled and its pipeline is free,
    and its process is in its main loop. *)
Definition c108_script : list cue := (exs_running 6 ++ exs_cmd 10 (CmdCancel 1234 [1]) ++ exs_pass 3 ++ exs_pass 4)%list.
Theorem C108_refuted : exists s a o k, reachable s /\
  map (fun j => (j_id j, j_status j, j_pid j)) (w_jobs (s_world s)) = [(1, Scd, None)] /\
  get_pip (w_pips (s_world s)) "pip-1" = Some (mkPip "pip-1" false None (Some "sample-1")) /\
  nth_error (s_threads s) 9 = Some (mkThread (KJob 100 a) (Op o k) false) /\ ja_jobid a = 1 /\ live (s_world s) 100.
Proof.
  set (s := played c108_script exw_init).
  assert (R : reachable s) by (apply plays_reachable; vm_compute; reflexivity).
  destruct (nth_error (s_threads s) 9) as [t|] eqn:E1; [|vm_compute in E1; discriminate].
  assert (J : match t_kind t with KJob p a => (p =? 100) && (ja_jobid a =? 1) | _ => false end &&
              match t_pgm t with Op _ _ => negb (t_done t) | _ => false end = true).
  { replace t with (nth 9 (s_threads s) t) by (apply nth_error_nth; exact E1). clear. vm_compute. reflexivity. }
  destruct t as [k p dn]. cbn [t_kind t_pgm t_done] in J. apply andb_prop in J as [J1 J2].
  destruct k as [| | | |p1 a1|]; try discriminate J1. apply andb_prop in J1 as [J1 J3].
  apply Z.eqb_eq in J1, J3. subst p1. destruct p as [r|e|o k]; try discriminate J2. destruct dn; [discriminate J2|].
  exists s, a1, o, k. split; [exact R|]. split; [vm_compute; reflexivity|]. split; [vm_compute; reflexivity|].
  split; [exact E1|]. split; [exact J3|]. exists (nth 0 (w_procs (s_world s)) (mkProc 0 true None)).
  split; vm_compute; reflexivity.
Qed.
Print Assumptions C108_refuted.

(** The conditions of the theorems: job 1 is running on pip-1. *)
Definition c108_world : world := Eval vm_compute in s_world (played (exs_running 6) exw_init).
Definition c108_daemon : daemon :=
  Eval vm_compute in match w_daemon c108_world with Some d => d | None => exw_daemon end.
Lemma c108_relevant w d : all_reachable w d -> forall j, relevant_answer w d (pl_method (j_payload j)).
Proof. intros H j p rc Hp _ Hrc. exact (H p rc Hp Hrc). Qed.
Example C108_ex :
  let w0 := set_jobs c108_world (cancel_all [1] (w_jobs c108_world)) (w_seq c108_world) in
  wf_queue c108_world /\ w_daemon c108_world = Some c108_daemon /\ pass_ready w0 c108_daemon /\
  (forall p, In p (w_pips c108_world) -> resettable c108_world c108_daemon (p_name p)) /\
  (forall p k, In p (w_pips c108_world) -> p_jobid p = Some k -> get_job (w_jobs c108_world) k <> None) /\
  option_map (fun j => (j_status j, j_pid j, j_connected j)) (get_job (w_jobs c108_world) 1) = Some (Sr, Some 100, Some 1000) /\
  get_pip (w_pips c108_world) "pip-1" = Some (mkPip "pip-1" false (Some 1) (Some "sample-1")) /\
  let w1 := snd (run exec job_pass w0) in let w2 := snd (run exec pip_pass w1) in
  option_map (fun j => (j_status j, j_pid j, j_completed j)) (get_job (w_jobs w2) 1) = Some (Scd, None, Some 1000) /\
  get_pip (w_pips w2) "pip-1" = Some (mkPip "pip-1" false None (Some "sample-1")).
Proof.
  intros w0.
  assert (Wf : wf_queue c108_world) by (split; [|split]; cbn; repeat constructor; discriminate).
  split; [exact Wf|]. split; [reflexivity|]. split.
  { split; [reflexivity|]. split; [split; [|split]; cbn; repeat constructor; discriminate|].
    split; [cbn; repeat constructor; intros H; repeat (destruct H as [H|H]; [discriminate|]); destruct H|].
    split; [intros p H; cbn in H; repeat (destruct H as [<-|H]; [split; [reflexivity|cbn; auto]|]); destruct H|].
    split.
    { intros j _ _. apply c108_relevant. intros p rc Hp Hrc. cbn in Hp.
      repeat (destruct Hp as [<-|Hp]; [cbn in Hrc;
        repeat (destruct Hrc as [<-|Hrc]; [
          eexists _, _, _; split; [split; [reflexivity|eexists; split; reflexivity]|reflexivity]|]); destruct Hrc|]).
      destruct Hp. }
    split; [intros j q H _ _ _; cbn in H; destruct H as [<-|[]]; repeat split; discriminate|].
    intros j H Q. cbn in H. destruct H as [<-|[]]. destruct Q as [Q|Q]; discriminate Q. }
  split.
  { intros p H. cbn in H. repeat (destruct H as [<-|H]; [split; [reflexivity|]; eexists; split; [reflexivity|];
      intros rc Hrc; cbn in Hrc; repeat (destruct Hrc as [<-|Hrc]; [
          eexists _, _, _; split; [split; [reflexivity|eexists; split; reflexivity]|reflexivity]|]); destruct Hrc|]).
    destruct H. }
  split; [intros p k H E; cbn in H; repeat (destruct H as [<-|H]; [cbn in E; try discriminate E; injection E as <-; discriminate|]); destruct H|].
  split; [reflexivity|]. split; [reflexivity|]. split; vm_compute; reflexivity.
Qed.
(** The same job, its process having disappeared. *)
Example C108_ex_gone :
  let w := set_procs c108_world (w_spawned c108_world) [] in
  let w1 := snd (run exec job_pass w) in let w2 := snd (run exec pip_pass w1) in
  (forall pid, ~ live w pid) /\ fst (run exec job_pass w) = Ok tt /\ fst (run exec pip_pass w1) = Ok tt /\
  option_map (fun j => (j_status j, j_pid j, j_completed j)) (get_job (w_jobs w2) 1) = Some (Sce, None, Some 1000) /\
  get_pip (w_pips w2) "pip-1" = Some (mkPip "pip-1" false None (Some "sample-1")).
Proof. split; [intros pid (pr & H & _); discriminate H|]. repeat split; vm_compute; reflexivity. Qed.
