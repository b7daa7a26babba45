(** * P_Queue: properties C10-C20 (job queue commands) *)
From Coq Require Import List String Ascii ZArith Bool Lia Sorted.
From Verif Require Import Base PyStr Types ConfigModel Prog World Replies CmdModel KetchupModel
  SpecQueue SpecCancel KetchupProofs KetchupProofs2 ExWorld.
Import ListNotations.
Open Scope string_scope.
Open Scope Z_scope.

Lemma exw_busy_wf : wf_queue exw_busy.
Proof.
  split; [|split; [|cbn; lia]].
  - cbn. repeat constructor.
  - cbn. repeat constructor; cbn; lia.
Qed.

(** ** C10, C13 *)
Theorem C10_submit_adds_one_job :
  forall port f cwd name w r w', wf_queue w ->
  run exec (ketchup_submit port f cwd name) w = (Ok r, w') -> r_ok r = true ->
  exists v v' p,
    f = PfOk v /\ upgraded v v' /\ located cwd (vp_payload v') p /\
    w' = set_jobs w (w_jobs w ++ [fresh_job (w_seq w + 1) p name (w_now w)])%list (w_seq w + 1) /\
    (forall j, In j (w_jobs w) -> j_id j < w_seq w + 1).
Proof. exact submit_adds. Qed.
Print Assumptions C10_submit_adds_one_job.

(** A version 2.1 payload that can be updated to 2.2 and further to 3.0. *)
Definition ex_old : vpayload :=
  VPayload (Some (2, 1)) exw_payload (Some
   (VPayload (Some (2, 2))
      (mkPayload "sample-1" [exw_task] None None ["backup"] (Some (mkSnap 60 None)) false "user" false)
      (Some (VPayload (Some (3, 0)) exw_payload None)))).

Example C10_case :
  exists r w', run exec (ketchup_submit 1234 (PfOk ex_old) "/home" (Some "new")) exw_busy = (Ok r, w') /\
    r_ok r = true /\
    w_jobs w' = (w_jobs exw_busy ++
      [fresh_job 7 (mkPayload "sample-1" [exw_task] (Some "/home") None ["backup"]
         (Some (mkSnap 60 (Some "/home"))) false "user" false) (Some "new") 1000])%list.
Proof. eexists. eexists. split; [vm_compute; reflexivity|]. split; reflexivity. Qed.

(** The submitted payload determines the queued one. *)
Theorem C13_queued_payload :
  forall port v cwd name w r w', wf_queue w ->
  run exec (ketchup_submit port (PfOk v) cwd name) w = (Ok r, w') -> r_ok r = true ->
  exists v', upgraded v v' /\ (forall v'', upgraded v v'' -> v'' = v') /\
  exists j, get_job (w_jobs w') (w_seq w + 1) = Some j /\ located cwd (vp_payload v') (j_payload j).
Proof. exact submit_payload. Qed.
Print Assumptions C13_queued_payload.

Example C13_case : exists v', upgraded ex_old v' /\ vp_version v' = Some (2, 2).
Proof. exists (upgrade ex_old). split; [apply upgrade_spec|reflexivity]. Qed.

(** ** C11: false when two jobs are submitted at the same clock reading. *)
Theorem C11_refuted :
  exists f w r1 w1 r2 w2, wf_queue w /\
    run exec (ketchup_submit 1234 f "/home" (Some "first")) w = (Ok r1, w1) /\
    run exec (ketchup_submit 1234 f "/home" (Some "second")) w1 = (Ok r2, w2) /\
    r_ok r2 = true /\
    (* the second submit created job 8 but reports job 7, which is the first one *)
    (exists j, get_job (w_jobs w2) 8 = Some j /\ j_jobname j = Some "second") /\
    r_msg r2 = MSubmitted 7 (Some "first").
Proof.
  exists (PfOk ex_old), exw_busy. do 4 eexists. split; [exact exw_busy_wf|].
  split; [vm_compute; reflexivity|]. split; [vm_compute; reflexivity|].
  split; [reflexivity|]. split; [|reflexivity]. eexists. split; reflexivity.
Qed.
Print Assumptions C11_refuted.

Theorem C11_submit_reports_its_job_partial :
  forall port f cwd name w r w',
  wf_queue w -> (forall j, In j (w_jobs w) -> j_submitted j <> w_now w) ->
  run exec (ketchup_submit port f cwd name) w = (Ok r, w') -> r_ok r = true ->
  exists p, r_msg r = MSubmitted (w_seq w + 1) name /\
            r_data r = RJob (fresh_job (w_seq w + 1) p name (w_now w)) /\
            get_job (w_jobs w') (w_seq w + 1) = Some (fresh_job (w_seq w + 1) p name (w_now w)).
Proof. exact submit_reports. Qed.
Print Assumptions C11_submit_reports_its_job_partial.

(** What is reported is the first job of the queue with this submission time, so the report is
    about the new job exactly when no earlier job has the same one. *)
Theorem C11_reports_first :
  forall port f cwd name w r w', wf_queue w ->
  run exec (ketchup_submit port f cwd name) w = (Ok r, w') -> r_ok r = true ->
  exists before j after, w_jobs w' = (before ++ j :: after)%list /\ j_submitted j = w_now w /\
    (forall j', In j' before -> j_submitted j' <> w_now w) /\
    r_msg r = MSubmitted (j_id j) (j_jobname j) /\ r_data r = RJob j.
Proof. exact submit_reports_first. Qed.
Print Assumptions C11_reports_first.
Theorem C11_iff :
  forall port f cwd name w r w', wf_queue w ->
  run exec (ketchup_submit port f cwd name) w = (Ok r, w') -> r_ok r = true ->
  (r_msg r = MSubmitted (w_seq w + 1) name <-> forall j, In j (w_jobs w) -> j_submitted j <> w_now w).
Proof. exact submit_reports_iff. Qed.
Print Assumptions C11_iff.

Example C11_case : wf_queue exw_busy /\ (forall j, In j (w_jobs exw_busy) -> j_submitted j <> w_now exw_busy).
Proof.
  split; [exact exw_busy_wf|]. cbn. intros j [<-|[<-|[<-|[<-|[]]]]]; cbn; lia.
Qed.

(** ** C12 *)
Theorem C12_submit_succeeds_iff :
  forall port f cwd name w d, wf_queue w -> w_daemon w = Some d ->
  ((exists r w', run exec (ketchup_submit port f cwd name) w = (Ok r, w') /\ r_ok r = true) <->
   exists v v', f = PfOk v /\ upgraded v v' /\
     forall repo, In repo (pl_repos (vp_payload v')) -> known_repo (dm_settings d) repo).
Proof. exact submit_outcome. Qed.
Print Assumptions C12_submit_succeeds_iff.

Theorem C12_rejected_submit_changes_nothing :
  forall port f cwd name w x w', wf_queue w ->
  run exec (ketchup_submit port f cwd name) w = (x, w') ->
  (forall r, x = Ok r -> r_ok r = false) -> w' = w.
Proof. exact submit_rejected. Qed.
Print Assumptions C12_rejected_submit_changes_nothing.

Example C12_case :
  exists r, run exec (ketchup_submit 1234
    (PfOk (VPayload (Some (2, 2)) (mkPayload "s" [] None None ["backup"; "nas"] None false "u" false) None))
    "/home" None) exw_busy = (Ok r, exw_busy) /\ r_ok r = false /\ r_msg r = MUnknownRepo "nas".
Proof. eexists. split; [vm_compute; reflexivity|]. split; reflexivity. Qed.

(** ** C14 *)
Theorem C14_status_is_exact :
  forall port ids w d, wf_queue w -> w_daemon w = Some d ->
  let wanted := fun j => ids = [] \/ In (j_id j) ids in
  exists r, run exec (ketchup_status port ids) w = (Ok r, w) /\
    (r_ok r = true <-> exists j, In j (w_jobs w) /\ wanted j) /\
    (r_ok r = true -> exists l, r_data r = RJobs l /\ exactly wanted (w_jobs w) l /\
                                reports (r_msg r) l).
Proof. exact status_spec. Qed.
Print Assumptions C14_status_is_exact.

Example C14_case :
  exists r, run exec (ketchup_status 1234 [5; 99; 1; 5; 3]) exw_busy = (Ok r, exw_busy) /\
    r_msg r = MFound [(Sq, [3]); (Sqw, [5]); (Sc, [1])] /\
    r_data r = RJobs [ exw_job 1 (Some "alpha run") Sc (Some 11);
                       exw_job 3 (Some "beta RUN") Sq None; exw_job 5 (Some "gamma") Sqw None ].
Proof. eexists. split; [vm_compute; reflexivity|]. split; reflexivity. Qed.

(** ** C15 *)
Theorem C15_cancel_one_job :
  forall port i w d, wf_queue w -> w_daemon w = Some d ->
  match get_job (w_jobs w) i with
  | None => exists r, run exec (ketchup_cancel port [i]) w = (Ok r, w) /\ r_ok r = false
  | Some j =>
      j_status j <> Srd ->
      exists r, run exec (ketchup_cancel port [i]) w =
                  (Ok r, set_jobs w (cancel_all [i] (w_jobs w)) (w_seq w)) /\ r_ok r = true
  end.
Proof. exact cancel_single. Qed.
Print Assumptions C15_cancel_one_job.

Example C15_case :
  map j_status (w_jobs (snd (run exec (ketchup_cancel 1234 [2]) exw_busy))) = [Sc; Srd; Sq; Sqw] /\
  map j_status (w_jobs (snd (run exec (ketchup_cancel 1234 [3]) exw_busy))) = [Sc; Sr; Scd; Sqw] /\
  map j_status (w_jobs (snd (run exec (ketchup_cancel 1234 [5]) exw_busy))) = [Sc; Sr; Sq; Scd].
Proof. vm_compute. auto. Qed.

(** ** C16: false, only the last listed job is changed, to the status meant for
    another one. *)
Theorem C16_refuted :
  exists w r w', wf_queue w /\ w_daemon w <> None /\
    (* job 2 is running, jobs 3 and 5 are queued *)
    map j_status (w_jobs w) = [Sc; Sr; Sq; Sqw] /\
    run exec (ketchup_cancel 1234 [2; 3; 5]) w = (Ok r, w') /\ r_ok r = true /\
    map j_status (w_jobs w') = [Sc; Sr; Sq; Scd] /\
    (* and a finished job can be changed *)
    exists r2 w2, run exec (ketchup_cancel 1234 [2; 1]) w = (Ok r2, w2) /\ r_ok r2 = true /\
    map j_status (w_jobs w2) = [Srd; Sr; Sq; Sqw].
Proof.
  exists exw_busy. do 2 eexists. split; [exact exw_busy_wf|]. split; [discriminate|].
  split; [reflexivity|]. split; [vm_compute; reflexivity|]. split; [reflexivity|].
  split; [reflexivity|]. do 2 eexists. split; [vm_compute; reflexivity|]. split; reflexivity.
Qed.
Print Assumptions C16_refuted.

Theorem C16_other_jobs_untouched_partial :
  forall port ids w x w',
  run exec (ketchup_cancel port ids) w = (x, w') ->
  w' = set_jobs w (w_jobs w') (w_seq w) /\ map j_id (w_jobs w') = map j_id (w_jobs w) /\
  forall i, ~ In i ids -> get_job (w_jobs w') i = get_job (w_jobs w) i.
Proof. exact cancel_others. Qed.
Print Assumptions C16_other_jobs_untouched_partial.

Theorem C16_cancel_list_partial :
  forall port ids w d, wf_queue w -> w_daemon w = Some d -> ids <> [] ->
  (forall i, In i ids -> exists j, get_job (w_jobs w) i = Some j /\
     (finished (j_status j) \/ (i = last ids 0 /\ j_status j <> Srd))) ->
  exists r, run exec (ketchup_cancel port ids) w =
              (Ok r, set_jobs w (cancel_all ids (w_jobs w)) (w_seq w)) /\ r_ok r = true.
Proof. exact cancel_last_only. Qed.
Print Assumptions C16_cancel_list_partial.

Example C16_case : forall i, In i [1; 2] -> exists j, get_job (w_jobs exw_busy) i = Some j /\
     (finished (j_status j) \/ (i = last [1; 2] 0 /\ j_status j <> Srd)).
Proof.
  intros i [<-|[<-|[]]]; eexists; (split; [reflexivity|]); unfold finished; cbn; auto.
  right. split; congruence.
Qed.

(** Exactly what happens for every list of jobs that exist.  If all of them are finished,
    nothing.  If the first unfinished one (in the order of the queue) is being terminated
    already, UnboundLocalError.  Otherwise the status of the last job of the list, finished
    or not, becomes what cancelling makes of the last unfinished one that is not yet being
    terminated; no other job changes. *)
Theorem C16_exact :
  forall port ids w d, w_daemon w = Some d -> ids <> [] ->
  (forall i, In i ids -> get_job (w_jobs w) i <> None) ->
  match open_jobs ids (w_jobs w) with
  | [] => exists r, run exec (ketchup_cancel port ids) w = (Ok r, w) /\ r_ok r = true
  | j :: _ =>
      if jstatus_eqb (j_status j) Srd then run exec (ketchup_cancel port ids) w = (Err UnboundLocalError, w)
      else exists r, run exec (ketchup_cancel port ids) w =
        (Ok r, set_jobs w (with_status (last ids 0)
                 (cancelled (j_status (last (to_cancel (open_jobs ids (w_jobs w))) j))) (w_jobs w)) (w_seq w)) /\ r_ok r = true
  end.
Proof. exact C16_exact_lemma. Qed.
Print Assumptions C16_exact.

(** Hence exactly when a list of jobs is cancelled as it should be. *)
Theorem C16_iff :
  forall port ids w d, wf_queue w -> w_daemon w = Some d -> ids <> [] ->
  (forall i, In i ids -> get_job (w_jobs w) i <> None) ->
  ((exists r, run exec (ketchup_cancel port ids) w = (Ok r, set_jobs w (cancel_all ids (w_jobs w)) (w_seq w)) /\ r_ok r = true) <->
   match open_jobs ids (w_jobs w) with
   | [] => True
   | j :: rest => j_id j = last ids 0 /\ j_status j <> Srd /\ forall j', In j' rest -> j_status j' = Srd
   end).
Proof. exact C16_iff_lemma. Qed.
Print Assumptions C16_iff.

(** Jobs 1, 2, 3 and 5 are completed, running, queued and waiting. *)
Example C16_case_exact :
  map (fun ids => map j_id (open_jobs ids (w_jobs exw_busy))) [[1]; [5; 2]; [2; 1]; [3; 5]] = [[]; [2; 5]; [2]; [3; 5]] /\
  map (fun ids => map j_status (w_jobs (snd (run exec (ketchup_cancel 1234 ids) exw_busy)))) [[1]; [5; 2]; [2; 1]; [3; 5]] =
    [[Sc; Sr; Sq; Sqw]; [Sc; Scd; Sq; Sqw]; [Srd; Sr; Sq; Sqw]; [Sc; Sr; Sq; Scd]] /\
  (let w := set_jobs exw_busy (with_status 2 Srd (w_jobs exw_busy)) 6 in
   fst (run exec (ketchup_cancel 1234 [2; 5]) w) = Err UnboundLocalError).
Proof. vm_compute. auto. Qed.

(** ** C17: false, cancelling a running job twice raises. *)
Theorem C17_refuted :
  exists w r w1, wf_queue w /\
    run exec (ketchup_cancel 1234 [2]) w = (Ok r, w1) /\ r_ok r = true /\
    run exec (ketchup_cancel 1234 [2]) w1 = (Err UnboundLocalError, w1).
Proof.
  exists exw_busy. do 2 eexists. split; [exact exw_busy_wf|].
  split; [vm_compute; reflexivity|]. split; [reflexivity|]. vm_compute; reflexivity.
Qed.
Print Assumptions C17_refuted.

Theorem C17_cancel_twice_partial :
  forall port i w d w1 x1 x2 w2, wf_queue w -> w_daemon w = Some d ->
  run exec (ketchup_cancel port [i]) w = (x1, w1) ->
  run exec (ketchup_cancel port [i]) w1 = (x2, w2) ->
  w2 = w1 /\
  forall j, get_job (w_jobs w) i = Some j -> j_status j <> Sr -> j_status j <> Srd ->
  exists r, x2 = Ok r /\ r_ok r = true.
Proof. exact cancel_twice. Qed.
Print Assumptions C17_cancel_twice_partial.

(** The second cancel is answered exactly if the job was not running or being terminated;
    otherwise UnboundLocalError is raised. *)
Theorem C17_iff :
  forall port i w d w1 x1 x2 w2 j, wf_queue w -> w_daemon w = Some d ->
  run exec (ketchup_cancel port [i]) w = (x1, w1) ->
  run exec (ketchup_cancel port [i]) w1 = (x2, w2) ->
  get_job (w_jobs w) i = Some j ->
  ((exists r, x2 = Ok r /\ r_ok r = true) <-> j_status j <> Sr /\ j_status j <> Srd) /\
  (j_status j = Sr \/ j_status j = Srd -> x2 = Err UnboundLocalError).
Proof. exact cancel_twice_iff. Qed.
Print Assumptions C17_iff.

Example C17_case : exists j, get_job (w_jobs exw_busy) 5 = Some j /\ j_status j = Sqw.
Proof. eexists. split; reflexivity. Qed.

(** ** C18 *)
Theorem C18_search_finds_all :
  forall port t w d, wf_queue w -> w_daemon w = Some d -> has_char "'" t = false ->
  exists r l, run exec (ketchup_search port t) w = (Ok r, w) /\
    (forall j, In j l -> In j (w_jobs w) /\ exists n, j_jobname j = Some n) /\
    (forall j n, In j (w_jobs w) -> j_jobname j = Some n -> contains t n -> In j l) /\
    StronglySorted Z.lt (map j_id l) /\
    (r_ok r = true <-> l <> []) /\ (r_ok r = true -> r_data r = RJobs l).
Proof. exact search_found. Qed.
Print Assumptions C18_search_finds_all.

Example C18_case : contains "run" "alpha run" /\
  exists r, run exec (ketchup_search 1234 "run") exw_busy = (Ok r, exw_busy) /\
    r_msg r = MMatching "run" [1; 3].
Proof.
  split; [exists "alpha ", ""; reflexivity|]. eexists. split; [vm_compute; reflexivity|reflexivity].
Qed.

(** ** C19: false, [LIKE] ignores case and interprets ['_'] and ['%']. *)
Theorem C19_refuted :
  (exists w r j, wf_queue w /\ run exec (ketchup_search 1234 "run") w = (Ok r, w) /\
     (exists l, r_data r = RJobs l /\ In j l) /\ j_jobname j = Some "beta RUN") /\
  (exists w r j, wf_queue w /\ run exec (ketchup_search 1234 "a_m") w = (Ok r, w) /\
     (exists l, r_data r = RJobs l /\ In j l) /\ j_jobname j = Some "gamma").
Proof.
  split; exists exw_busy; do 2 eexists; (split; [exact exw_busy_wf|]);
    (split; [vm_compute; reflexivity|]); split; try (eexists; split; [reflexivity|]).
  - right. left. reflexivity.
  - reflexivity.
  - left. reflexivity.
  - reflexivity.
Qed.
Print Assumptions C19_refuted.

Theorem C19_search_exact_partial :
  forall port t w d, wf_queue w -> w_daemon w = Some d ->
  has_char "'" t = false -> has_char "%" t = false -> has_char "_" t = false ->
  exists r l, run exec (ketchup_search port t) w = (Ok r, w) /\
    exactly (fun j => exists n, j_jobname j = Some n /\ contains_ci t n) (w_jobs w) l /\
    (r_ok r = true <-> l <> []) /\ (r_ok r = true -> r_data r = RJobs l).
Proof. exact search_exact. Qed.
Print Assumptions C19_search_exact_partial.

(** For all texts without apostrophe: the result is exactly the jobs whose name has a part that
    matches the text as a pattern. *)
Theorem C19_pattern_exact :
  forall port t w d, wf_queue w -> w_daemon w = Some d -> has_char "'" t = false ->
  exists r l, run exec (ketchup_search port t) w = (Ok r, w) /\
    exactly (fun j => exists n, j_jobname j = Some n /\ exists a m b, n = (a ++ m ++ b)%string /\ pattern_of t m) (w_jobs w) l /\
    (r_ok r = true <-> l <> []) /\ (r_ok r = true -> r_data r = RJobs l).
Proof. exact search_pattern. Qed.
Print Assumptions C19_pattern_exact.
Example C19_case_pattern : pattern_of "a_M%x" "abmiddlex" /\ ~ pattern_of "a_" "a".
Proof.
  split.
  - apply PatChar; [discriminate|reflexivity|]. apply PatOne. apply PatChar; [discriminate|reflexivity|].
    apply (PatAny "x" "iddle" "x"). apply PatChar; [discriminate|reflexivity|]. apply PatEnd.
  - intros H. inversion H as [| | |? ? ? ? ? ? H']; subst. inversion H'.
Qed.

Example C19_case : contains_ci "run" "beta RUN" /\ ~ contains_ci "x" "y".
Proof.
  split; [exists "beta ", "RUN", ""; repeat split|].
  intros (a & m & b & E & S). destruct m as [|c [|c2 m]]; cbn in S; try tauto.
  destruct S as [S _]. destruct a as [|x a]; cbn in E.
  - injection E as E1 E2. subst. discriminate.
  - injection E as E1 E2. destruct a; discriminate.
Qed.

(** ** C20: false, a job cancelled while queued has no data; archives of other
    jobs may already have been written when this is noticed. *)
Theorem C20_refuted :
  exists w w', wf_queue w /\ w_daemon w <> None /\
    run exec (ketchup_snapshot 1234 [1; 3]) w = (Err AssertionError, w') /\
    w_log w = [] /\ w_log w' = map snapshot_of (firstn 1 (w_jobs w)).
Proof.
  exists (snd (run exec (ketchup_cancel 1234 [3]) exw_busy)). eexists.
  split; [split; [|split; [|cbn; lia]]; cbn; repeat constructor; cbn; lia|].
  split; [discriminate|]. split; [vm_compute; reflexivity|]. split; reflexivity.
Qed.
Print Assumptions C20_refuted.

Theorem C20_snapshot_refused_iff :
  forall port ids w d, w_daemon w = Some d ->
  ((exists r, run exec (ketchup_snapshot port ids) w = (Ok r, w) /\ r_ok r = false) <->
   exists i, In i ids /\
     (get_job (w_jobs w) i = None \/
      exists j, get_job (w_jobs w) i = Some j /\ (j_status j = Sq \/ j_status j = Sqw))).
Proof. exact snapshot_refused. Qed.
Print Assumptions C20_snapshot_refused_iff.

(** What is missing in the next two: the jobs must have a job folder and
    writing their archives must not fail. *)
Theorem C20_snapshot_writes_all_partial :
  forall port ids w d, wf_queue w -> w_daemon w = Some d ->
  (forall i, In i ids -> exists j, get_job (w_jobs w) i = Some j /\
     j_status j <> Sq /\ j_status j <> Sqw /\ j_jobpath j <> None /\ w_merge w i = None) ->
  exists r l, exactly (fun j => In (j_id j) ids) (w_jobs w) l /\
    run exec (ketchup_snapshot port ids) w = (Ok r, add_events w (map snapshot_of l)) /\
    r_ok r = true.
Proof. exact snapshot_done. Qed.
Print Assumptions C20_snapshot_writes_all_partial.

(** These conditions are necessary. *)
Theorem C20_iff :
  forall port ids w d, wf_queue w -> w_daemon w = Some d ->
  ((exists r w', run exec (ketchup_snapshot port ids) w = (Ok r, w') /\ r_ok r = true) <->
   (forall i, In i ids -> exists j, get_job (w_jobs w) i = Some j /\
     j_status j <> Sq /\ j_status j <> Sqw /\ j_jobpath j <> None /\ w_merge w i = None)).
Proof. exact snapshot_iff. Qed.
Print Assumptions C20_iff.

(** In all cases snapshot changes nothing but the archives of requested jobs. *)
Theorem C20_snapshot_writes_only_partial :
  forall port ids w x w', wf_queue w ->
  run exec (ketchup_snapshot port ids) w = (x, w') ->
  exists l1 l2, exactly (fun j => In (j_id j) ids) (w_jobs w) (l1 ++ l2) /\
    w' = add_events w (map snapshot_of l1).
Proof. exact snapshot_frame. Qed.
Print Assumptions C20_snapshot_writes_only_partial.

(** Different jobs have different archives. *)
Theorem C20_archives_distinct :
  forall j1 j2 p i1 i2, snapshot_of j1 = EvArchive p i1 -> snapshot_of j2 = EvArchive p i2 ->
  j_id j1 = j_id j2.
Proof. exact snapshot_of_inj. Qed.
Print Assumptions C20_archives_distinct.

Example C20_case :
  exists r w', run exec (ketchup_snapshot 1234 [2; 1; 2]) exw_busy = (Ok r, w') /\ r_ok r = true /\
    map (fun e => match e with EvArchive p j => (p, j_id j, j_status j, j_snappath j) | _ => ("", 0, Sq, None) end) (w_log w') =
      [("snapshot.2.nc", 2, Sr, Some "snapshot.2.nc"); ("snapshot.1.nc", 1, Sc, Some "snapshot.1.nc")].
Proof. do 2 eexists. split; [vm_compute; reflexivity|]. split; reflexivity. Qed.
