(** * JobModel: matching, starting and supervising jobs

    Models /repo/src/tomato/daemon/job.py from method_validate to tomato_job
    (lines 46-497).  The workers of a job (job_thread, job_main_loop) are in
    JobThreadModel; here the outcome of job_main_loop is the operation
    [OMainLoop].  Definitions only. *)
From Coq Require Import List String Ascii ZArith Bool.
From Verif Require Import Base PyStr Types ConfigModel Prog World Replies CmdModel KetchupModel.
Import ListNotations.
Open Scope string_scope.
Open Scope Z_scope.
Open Scope prog_scope.

(** [cmp = components[cname]; drv = get_drv(cmp.driver); assert drv is not None]
    (lines 65-67, 104-106; pip.py:70-72) *)
Definition driver_of (d : daemon) (cname : string) : pgm (component * drvstate) :=
  cmp <- lift (need (dget (df_components (dm_df d)) cname));;
  drv <- act (ODrvGet (c_driver cmp));;
  match drv with
  | None => Raise AssertionError
  | Some dv => Ret (cmp, dv)
  end.

(** Body of the inner loop of method_validate (lines 63-78); [inr tt] is [break]. *)
Definition validate_role (d : daemon) (t : task) (_ : unit) (rc : string * string)
    : pgm (unit + unit) :=
  if String.eqb (t_role t) (fst rc) then
    x <- driver_of d (snd rc);;
    ret <- act (ODriverLpp (dv_port (snd x)) (CValidate t (c_address (fst x)) (c_channel (fst x))));;
    if dr_ok ret then Ret (inr tt) else Ret (inl tt)
  else Ret (inl tt).

(** Outer loop; [inr tt] is [return False] (line 80). *)
Definition validate_task (d : daemon) (pip : pipeline) (_ : unit) (t : task)
    : pgm (unit + unit) :=
  x <- forB (validate_role d t) tt (pp_components pip);;
  match x with
  | inr tt => Ret (inl tt)
  | inl tt => Ret (inr tt)
  end.

(** method_validate (lines 46-81) *)
Definition method_validate (d : daemon) (method : list task) (pip : pipeline) : pgm bool :=
  x <- forB (validate_task d pip) tt method;;
  match x with
  | inl tt => Ret true
  | inr tt => Ret false
  end.

(** Lines 103-113: add the capabilities of one component. *)
Definition add_capabs (d : daemon) (capabs : list string) (cname : string) : pgm (list string) :=
  x <- driver_of d cname;;
  ret <- act (ODriver (dv_port (snd x)) (CCapabilities (c_address (fst x)) (c_channel (fst x))));;
  match dr_ok ret, dr_data ret with
  | true, DdCaps l => Ret (capabs ++ l)%list
  | _, _ => Ret capabs
  end.

(** Body of the loop over pipelines (lines 98-115). *)
Definition match_pipeline (d : daemon) (method : list task) (cands : list string) (pip : pipeline)
    : pgm (list string) :=
  if negb (subset (set_of (map t_role method)) (set_of (dkeys (pp_components pip)))) then Ret cands
  else
    capabs <- forP (add_capabs d) [] (dvals (pp_components pip));;
    if subset (set_of (map t_technique method)) capabs then
      v <- method_validate d method pip;;
      if v then Ret (cands ++ [pp_name pip])%list else Ret cands
    else Ret cands.

(** find_matching_pipelines (lines 84-116) *)
Definition find_matching_pipelines (d : daemon) (method : list task) : pgm (list string) :=
  forP (match_pipeline d method) [] (dvals (df_pipelines (dm_df d))).

(** ** manage_running (lines 146-208) *)

(** MAX_JOB_NOPID (line 41), in microseconds *)
Definition max_job_nopid : Z := 10000000.

(** Lines 188-196, 205-208: the job is in status 'rd'.  [alive] is [pidexists].
    [kill_tomato_job] (lines 119-143) signals the child processes of the job
    process; the job process has only threads, so there are none.  Looking the
    process up raises NoSuchProcess if it ended in the meantime. *)
Definition finish_cancelled (j : job) (alive : bool) : pgm unit :=
  (match alive, j_pid j with
   | true, Some p =>
       act (OPidZombie p);;;
       merge_netcdfs j false
   | _, _ => Ret tt
   end);;;
  t <- act ONow;;
  update_job_id (j_id j) [JStatus Scd; JPid None; JCompleted (Some t)];;;
  Ret tt.

(** Lines 198-201, 205-208 *)
Definition finish_crashed (j : job) : pgm unit :=
  t <- act ONow;;
  update_job_id (j_id j) [JStatus Sce; JPid None; JCompleted (Some t)];;;
  Ret tt.

(** Lines 183-208, once the pid is known to exist or not; [s] is [job.status]. *)
Definition reconcile (j : job) (s : jstatus) (exists_ : bool) : pgm unit :=
  alive <- (match exists_, j_pid j with
            | true, Some p => z <- act (OPidZombie p);; Ret (negb z)
            | _, _ => Ret false
            end);;
  match s with
  | Srd => finish_cancelled j alive
  | Sr => if alive then Ret tt else finish_crashed j
  | _ => Ret tt
  end.

(** Body of the loop (lines 160-208). *)
Definition manage_one (_ : unit) (j : job) : pgm unit :=
  match j_pid j, j_connected j, j_launched j with
  | Some p, _, _ => e <- act (OPidExists p);; reconcile j (j_status j) e
  | None, Some _, _ => reconcile j (j_status j) false
  | None, None, Some l =>
      now <- act ONow;;
      if Z.ltb max_job_nopid (now - l) then reconcile j Srd false else Ret tt
  | None, None, None => Ret tt
  end.

Definition manage_running : pgm unit :=
  running <- act (OJobsWhere WPid);;
  forP manage_one tt running.

(** ** check_queued (lines 211-231); the result is the dictionary [matched] *)
Definition check_one (d : daemon) (matched : list (Z * list string)) (j : job)
    : pgm (list (Z * list string)) :=
  pips <- find_matching_pipelines d (pl_method (j_payload j));;
  (match pips, j_status j with
   | _ :: _, Sq => update_job_id (j_id j) [JStatus Sqw];;; Ret tt
   | _, _ => Ret tt
   end);;;
  Ret (matched ++ [(j_id j, pips)])%list.

Definition check_queued (d : daemon) : pgm (list (Z * list string)) :=
  queue <- act (OJobsWhere WQueued);;
  forP (check_one d) [] queue.

(** ** action_queued (lines 234-318) *)

(** [sorted(matched.keys())] (line 258), keeping the values *)
Fixpoint insert_sorted (x : Z * list string) (l : list (Z * list string))
    : list (Z * list string) :=
  match l with
  | [] => [x]
  | y :: r => if Z.leb (fst x) (fst y) then x :: l else y :: insert_sorted x r
  end.
Fixpoint sort_jobs (l : list (Z * list string)) : list (Z * list string) :=
  match l with [] => [] | x :: r => insert_sorted x (sort_jobs r) end.

(** The job directory (line 270) and the contents of jobdata.json (lines 275-284) *)
Definition job_dir (d : daemon) (jobid : Z) : jobdir := (st_storage (dm_settings d), jobid).
Definition job_args (d : daemon) (j : job) (pname : string) : jobargs :=
  mkArgs pname (j_payload j)
    (filter (fun r => mem r (pl_repos (j_payload j))) (dkeys (st_repos (dm_settings d))))
    (j_id j) (job_dir d (j_id j)).

(** Lines 267-317: start job [j] on pipeline [pname]. *)
Definition launch (d : daemon) (j : job) (pname : string) : pgm unit :=
  act (OMkdir (job_dir d (j_id j)));;;
  lift (need (dget (df_pipelines (dm_df d)) pname));;;
  act (OWriteJobdata (job_dir d (j_id j)) (job_args d j pname));;;
  update_pip pname [PJobid (Some (j_id j)); PReady false];;;
  act (OSpawnJob (job_args d j pname));;;
  t <- act ONow;;
  update_job_id (j_id j) [JLaunched (Some t)];;;
  Ret tt.

(** Body of the inner loop (lines 260-318); [inr] is [break] with the remaining
    available pipelines. *)
Definition try_pip (d : daemon) (j : job) (avail : dict pipstate) (pname : string)
    : pgm (dict pipstate + dict pipstate) :=
  match dget avail pname with
  | None => Ret (inl avail)
  | Some ps =>
      if p_ready ps && opt_eqb String.eqb (p_sample ps) (Some (pl_sample (j_payload j))) then
        launch d j pname;;;
        Ret (inr (ddel avail pname))
      else Ret (inl avail)
  end.

(** Body of the outer loop (lines 258-318).  The variable [job] of the loop is
    read once per job id. *)
Definition action_one (d : daemon) (avail : dict pipstate) (m : Z * list string)
    : pgm (dict pipstate) :=
  j <- act (OJobGet (fst m));;
  x <- forB (try_pip d j) avail (snd m);;
  match x with inl a => Ret a | inr a => Ret a end.

(** [{p.name: p for p in ...}] (line 257) *)
Definition by_name (l : list pipstate) : dict pipstate :=
  fold_left (fun a p => dset a (p_name p) p) l [].

Definition action_queued (d : daemon) (matched : list (Z * list string)) : pgm unit :=
  free <- act (OPipsWhere false);;
  forP (action_one d) (by_name free) (sort_jobs matched);;;
  Ret tt.

(** One iteration of the job manager (lines 338-349).  The manager asks the
    daemon it belongs to; a missing daemon means that this thread is gone. *)
Definition job_pass : pgm unit :=
  d <- act ODmGet;;
  match d with
  | None => Ret tt
  | Some d =>
      manage_running;;;
      matched <- check_queued d;;
      action_queued d matched
  end.

(** ** tomato_job (lines 355-497) *)

(** [a / b] for [pathlib.Path]: an absolute right operand wins.
    Simplification: no other normalisation. *)
Definition path_join (a b : string) : string :=
  match b with
  | String c _ => if Ascii.eqb c "/"%char then b else a ++ "/" ++ b
  | EmptyString => a
  end.

(** Lines 456-457, 458 and 270 with 412. *)
Definition res_path (out : string) (pl : payload) (jobid : Z) : string :=
  path_join out (match pl_prefix pl with
                 | None => "results." ++ str_of_Z jobid
                 | Some p => p
                 end ++ ".nc").
Definition snap_path (out : string) (jobid : Z) : string :=
  path_join out ("snapshot." ++ str_of_Z jobid ++ ".nc").
Definition job_path (dir : jobdir) : string := path_join (fst dir) (str_of_Z (snd dir)).

(** The job process [pid] with the contents [a] of its jobdata.json.
    Simplifications: jobdata.json is read back unchanged; the job folder is
    absolute. *)
Definition tomato_job (pid : Z) (a : jobargs) : pgm unit :=
  let id := ja_jobid a in
  t <- act ONow;;
  update_job_id id [JPid (Some pid); JStatus Sr; JConnected (Some t)];;;
  match pl_outpath (ja_payload a) with
  | None => Raise TypeError
  | Some out =>
      act (OOutdir out);;;
      j <- update_job_id id [JRespath (Some (res_path out (ja_payload a) id));
                             JSnappath (Some (snap_path out id));
                             JJobpath (Some (job_path (ja_dir a)))];;
      ok <- act (OMainLoop j (ja_pipeline a));;
      t <- act ONow;;
      merge_netcdfs (set_jcols [JCompleted (Some t); JStatus (if ok : bool then Sc else Sce)] j) false;;;
      (match ja_repos a with
       | [] => Ret tt
       | _ => act (OCrate j)
       end);;;
      j' <- update_job_id (j_id j) [JStatus (if ok : bool then Sc else Sce); JCompleted (Some t)];;
      update_pip (ja_pipeline a) [PJobid None; PReady (pl_unlock (j_payload j'))];;;
      Ret tt
  end.
