(** * SpecJob: vocabulary for matching, starting and supervising jobs *)
From Coq Require Import List String Ascii ZArith Bool Sorted.
From Verif Require Import Base PyStr Types World SpecQueue.
Import ListNotations.
Open Scope list_scope.
Open Scope Z_scope.

(** ** Matching (C26) *)

(** Component [cn] is configured as [cmp] and its driver listens on [port]. *)
Definition component_port (w : world) (d : daemon) (cn : string) (cmp : component) (port : Z) : Prop :=
  dget (df_components (dm_df d)) cn = Some cmp /\
  exists dv, get_drv (w_drvs w) (c_driver cmp) = Some dv /\ dv_port dv = Some port.

(** The driver says that the component can do technique [tech]. *)
Definition offers (w : world) (d : daemon) (cn tech : string) : Prop :=
  exists cmp port r l, component_port w d cn cmp port /\
    w_driver w port (CCapabilities (c_address cmp) (c_channel cmp)) = Some r /\
    dr_ok r = true /\ dr_data r = DdCaps l /\ In tech l.

(** The driver accepts task [t] for the component. *)
Definition accepts (w : world) (d : daemon) (cn : string) (t : task) : Prop :=
  exists cmp port r, component_port w d cn cmp port /\
    w_driver w port (CValidate t (c_address cmp) (c_channel cmp)) = Some r /\ dr_ok r = true.

Definition can_run (w : world) (d : daemon) (method : list task) (p : pipeline) : Prop :=
  forall t, In t method ->
    (exists cn, In (t_role t, cn) (pp_components p) /\ accepts w d cn t) /\
    (exists rc, In rc (pp_components p) /\ offers w d (snd rc) (t_technique t)).

(** [l'] is the list of the elements of [l] with property [P], in the same order. *)
Definition selected {A : Type} (P : A -> Prop) (l l' : list A) : Prop :=
  exists f, (forall a, In a l -> (f a = true <-> P a)) /\ l' = filter f l.

(** Every component of every pipeline belongs to a driver that answers. *)
Definition all_reachable (w : world) (d : daemon) : Prop :=
  forall p rc, In p (dvals (df_pipelines (dm_df d))) -> In rc (pp_components p) ->
  exists cmp port r, component_port w d (snd rc) cmp port /\
    w_driver w port (CCapabilities (c_address cmp) (c_channel cmp)) = Some r.

(** The pipeline has every role of the method. *)
Definition has_roles (p : pipeline) (method : list task) : Prop :=
  forall t, In t method -> exists cn, In (t_role t, cn) (pp_components p).
(** The driver of a component answers the question for its capabilities. *)
Definition answers (w : world) (d : daemon) (cn : string) : Prop :=
  exists cmp port r, component_port w d cn cmp port /\
    w_driver w port (CCapabilities (c_address cmp) (c_channel cmp)) = Some r.
(** So do the drivers of all pipelines that have the roles of the method. *)
Definition relevant_answer (w : world) (d : daemon) (method : list task) : Prop :=
  forall p rc, In p (dvals (df_pipelines (dm_df d))) -> has_roles p method ->
  In rc (pp_components p) -> answers w d (snd rc).

(** Names of the pipelines that can run a method. *)
Definition matching (w : world) (d : daemon) (method : list task) (l : list string) : Prop :=
  exists ps, selected (can_run w d method) (dvals (df_pipelines (dm_df d))) ps /\
             l = map pp_name ps.

(** ** Checking the queue (C27) *)
Definition queued (s : jstatus) : Prop := s = Sq \/ s = Sqw.
Definition some_match (w : world) (d : daemon) (j : job) : Prop :=
  exists p, In p (dvals (df_pipelines (dm_df d))) /\ can_run w d (pl_method (j_payload j)) p.

(** ** Starting jobs (C28) *)

(** Pipeline [pn] can take job [j] now. *)
Definition open_for (w : world) (j : job) (pn : string) : Prop :=
  exists ps, get_pip (w_pips w) pn = Some ps /\ p_jobid ps = None /\ p_ready ps = true /\
             p_sample ps = Some (pl_sample (j_payload j)).

(** Given the matching pipelines of each job, [asg] assigns jobs to pipelines
    greedily: in increasing job id order, each job goes to the first of its
    pipelines that is open for it and not taken by a job with a smaller id. *)
Definition taken (asg : list (Z * string)) (i : Z) (pn : string) : Prop :=
  exists i', In (i', pn) asg /\ i' < i.
Definition greedy (w : world) (matched : list (Z * list string)) (asg : list (Z * string)) : Prop :=
  StronglySorted Z.lt (map fst asg) /\ NoDup (map snd asg) /\
  (* an assigned job gets its first possible pipeline *)
  (forall i pn, In (i, pn) asg -> exists j pre post,
     In (i, pre ++ pn :: post) matched /\ get_job (w_jobs w) i = Some j /\
     open_for w j pn /\ ~ taken asg i pn /\
     forall pn', In pn' pre -> open_for w j pn' -> taken asg i pn') /\
  (* a job that is not assigned has no possible pipeline *)
  (forall i l j, In (i, l) matched -> get_job (w_jobs w) i = Some j ->
     ~ In i (map fst asg) -> forall pn, In pn l -> open_for w j pn -> taken asg i pn).

(** The arguments of the process started for job [j] on pipeline [pn]. *)
Definition start_args (d : daemon) (j : job) (pn : string) (a : jobargs) : Prop :=
  ja_pipeline a = pn /\ ja_payload a = j_payload j /\ ja_jobid a = j_id j /\
  ja_dir a = (st_storage (dm_settings d), j_id j) /\
  (forall r, In r (ja_repos a) <->
     In r (dkeys (st_repos (dm_settings d))) /\ In r (pl_repos (j_payload j))).

(** [w'] is [w] after starting exactly the assignments [asg]. *)
Definition assigned_to (asg : list (Z * string)) (pn : string) : option Z :=
  option_map fst (find (fun x => String.eqb (snd x) pn) asg).
Definition started (d : daemon) (asg : list (Z * string)) (w w' : world) : Prop :=
  (* one process per assignment, in this order *)
  (exists args, w_spawned w' = w_spawned w ++ args /\
     Forall2 (fun x a => exists j, get_job (w_jobs w) (fst x) = Some j /\ start_args d j (snd x) a)
       asg args) /\
  (* the pipelines are reserved, the others unchanged *)
  map p_name (w_pips w') = map p_name (w_pips w) /\
  (forall pn, get_pip (w_pips w') pn =
     match assigned_to asg pn with
     | Some i => option_map (fun ps => mkPip (p_name ps) false (Some i) (p_sample ps))
                   (get_pip (w_pips w) pn)
     | None => get_pip (w_pips w) pn
     end) /\
  (* the jobs are marked as launched, nothing else changes in the queue *)
  w_seq w' = w_seq w /\
  w_jobs w' = map (fun j => if memZ (j_id j) (map fst asg)
                            then set_jcol j (JLaunched (Some (w_now w))) else j) (w_jobs w) /\
  (* new job folders *)
  (forall dir, In dir (w_dirs w') <->
     In dir (w_dirs w) \/ exists x, In x asg /\ dir = (st_storage (dm_settings d), fst x)) /\
  (* nothing else *)
  w_drvs w' = w_drvs w /\ w_daemon w' = w_daemon w /\ w_procs w' = w_procs w /\
  w_files w' = w_files w /\ w_now w' = w_now w.

(** The row of a queued job that was started at time [t]. *)
Definition launched_row (j : job) (t : Z) : job :=
  mkJob (j_id j) (j_payload j) (j_jobname j) (j_pid j) Sqw (j_submitted j) (Some t)
    (j_connected j) (j_completed j) (j_jobpath j) (j_respath j) (j_snappath j).

(** The daemon [d] manages the jobs of [w], and nothing ends a pass of its job manager: the
    drivers of the pipelines that a queued job could use answer, cancelled jobs can be archived,
    and the folders of the queued jobs do not exist yet. *)
Definition pass_ready (w : world) (d : daemon) : Prop :=
  w_daemon w = Some d /\ wf_queue w /\ NoDup (map p_name (w_pips w)) /\
  (forall p, In p (dvals (df_pipelines (dm_df d))) ->
     has_char "'"%char (pp_name p) = false /\ In (pp_name p) (dkeys (df_pipelines (dm_df d)))) /\
  (forall j, In j (w_jobs w) -> queued (j_status j) -> relevant_answer w d (pl_method (j_payload j))) /\
  (forall j p, In j (w_jobs w) -> j_status j = Srd -> j_pid j = Some p ->
     (exists pr, get_proc (w_procs w) p = Some pr /\ pr_zombie pr = false) ->
     j_jobpath j <> None /\ j_respath j <> None /\ w_merge w (j_id j) = None) /\
  (forall j, In j (w_jobs w) -> queued (j_status j) ->
     ~ In (st_storage (dm_settings d), j_id j) (w_dirs w)).

(** ** Supervising jobs (C35) *)

(** Process [pid] exists and is not a zombie. *)
Definition live (w : world) (pid : Z) : Prop :=
  exists pr, get_proc (w_procs w) pid = Some pr /\ pr_zombie pr = false.

(** The row of [j] with its process forgotten, finished at time [t]. *)
Definition closed_row (j : job) (s : jstatus) (t : Z) : job :=
  mkJob (j_id j) (j_payload j) (j_jobname j) None s (j_submitted j) (j_launched j)
    (j_connected j) (Some t) (j_jobpath j) (j_respath j) (j_snappath j).

Definition reconciled (w : world) (j j' : job) : Prop :=
  match j_pid j with
  | None => j' = j
  | Some pid =>
      (j_status j = Srd /\ j' = closed_row j Scd (w_now w)) \/
      (j_status j = Sr /\ ~ live w pid /\ j' = closed_row j Sce (w_now w)) \/
      (j_status j = Sr /\ live w pid /\ j' = j) \/
      (j_status j <> Sr /\ j_status j <> Srd /\ j' = j)
  end.

(** ** Freeing pipelines (C36, C37) *)

(** The job of a pipeline is gone: its process ended; or it had one and has none
    now; or it never had one and was launched more than ten days ago. *)
Definition over (w : world) (j : job) : Prop :=
  match j_pid j with
  | Some pid => ~ live w pid
  | None => j_connected j <> None \/
            exists l, j_launched j = Some l /\ w_now w - l > 10 * 24 * 3600 * 1000000
  end.

(** The record of a pipeline after it has been freed. *)
Definition freed (ps : pipstate) : pipstate := mkPip (p_name ps) false None (p_sample ps).

(** Pipeline record [ps] holds a job that is gone. *)
Definition orphaned (w : world) (ps : pipstate) : Prop :=
  exists i j, p_jobid ps = Some i /\ get_job (w_jobs w) i = Some j /\ over w j.

(** The reset request for a component of pipeline [n]. *)
Definition reset_request (w : world) (d : daemon) (n : string) (e : event) : Prop :=
  exists p rc cmp port, dget (df_pipelines (dm_df d)) n = Some p /\ In rc (pp_components p) /\
    component_port w d (snd rc) cmp port /\
    e = EvRequest port (CReset (c_address cmp) (c_channel cmp)).

(** Every component of the pipeline can be asked to reset. *)
Definition resettable (w : world) (d : daemon) (n : string) : Prop :=
  has_char "'"%char n = false /\
  exists p, dget (df_pipelines (dm_df d)) n = Some p /\
    forall rc, In rc (pp_components p) -> exists cmp port r, component_port w d (snd rc) cmp port /\
      w_driver w port (CReset (c_address cmp) (c_channel cmp)) = Some r.
