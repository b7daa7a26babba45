(** * SpecSys: vocabulary for executions of the whole system *)
From Coq Require Import List String Ascii ZArith Bool.
From Verif Require Import Base PyStr Types ConfigModel Prog World SysModel.
Import ListNotations.
Open Scope list_scope.
Open Scope Z_scope.

(** Two rows describe the same submitted job. *)
Definition same_job (j j' : job) : Prop :=
  j_id j' = j_id j /\ j_payload j' = j_payload j /\ j_jobname j' = j_jobname j /\
  j_submitted j' = j_submitted j.

(** The tomato-job processes started so far, latest first. *)
Definition starts (w : world) : list jobargs :=
  flat_map (fun e => match e with EvSpawn a => [a] | _ => [] end) (w_log w).

(** The times at which a process of driver [n] was started, latest first. *)
Definition driver_starts (n : string) (w : world) : list Z :=
  flat_map (fun e => match e with
                     | EvSpawnDriver m t => if String.eqb m n then [t] else []
                     | _ => []
                     end) (w_log w).

(** Nothing has happened yet; database and file system have any content. *)
Definition reachable (s : sys) : Prop :=
  exists w ls, w_log w = [] /\ w_spawned w = [] /\ runs ls (start_sys w) = Some s.

(** The settings files seen during the execution all have the same job storage. *)
Definition files_storage (stg : string) (f : cfgfiles) : Prop :=
  forall st, cf_settings f = Some st -> st_storage st = stg.
Definition keeps_storage (stg : string) (l : label) : Prop :=
  match l with LFiles f => files_storage stg f | _ => True end.

(** The manager thread is not in the middle of an iteration. *)
Definition between_passes (k : kind) (s : sys) : Prop :=
  forall t, In t (s_threads s) -> t_kind t = k -> exists r, t_pgm t = Ret r.

(** No process of job [i] exists or is about to run. *)
Definition no_process (i : Z) (s : sys) : Prop :=
  (forall a, In a (w_spawned (s_world s)) -> ja_jobid a <> i) /\
  (forall t pid a, In t (s_threads s) -> t_kind t = KJob pid a -> ja_jobid a = i -> ended t = true).

Definition finished (s : jstatus) : Prop := s = Sc \/ s = Scd \/ s = Sce.
Definition waiting (s : jstatus) : Prop := s = Sq \/ s = Sqw.
(** Neither queued nor running. *)
Definition out_of_queue (s : jstatus) : Prop := finished s \/ s = Srd.

(** Consecutive elements of [l] (latest first) are more than [d] apart. *)
Fixpoint apart (d : Z) (l : list Z) : Prop :=
  match l with
  | a :: (b :: _) as r => a - b > d /\ apart d r
  | _ => True
  end.

(** The thread is in the middle of its program. *)
Definition active (t : thread) : bool := match t_pgm t with Op _ _ => true | _ => false end.

(** [P] holds in every state of the execution [ls] from [s]. *)
Fixpoint along (P : sys -> Prop) (ls : list label) (s : sys) : Prop :=
  match ls with
  | [] => P s
  | l :: r => P s /\ match step l s with Some s' => along P r s' | None => True end
  end.

(** Commands and manager iterations do not overlap in time; job and driver
    processes run at any time. *)
Definition process (k : kind) : bool := match k with KJob _ _ | KDriver _ => true | _ => false end.
Definition serial (s : sys) : Prop :=
  forall n m a b, nth_error (s_threads s) n = Some a -> nth_error (s_threads s) m = Some b ->
  active a = true -> active b = true -> process (t_kind a) = false -> process (t_kind b) = false -> n = m.

(** A driver record has both a port and a pid or neither. *)
Definition port_pid (w : world) : Prop :=
  forall d, In d (w_drvs w) -> is_some (dv_port d) = is_some (dv_pid d).

(** A pipeline that holds a job is not ready and holds the sample of the job. *)
Definition plain (n : string) : Prop := has_char "'" n = false.
Definition holds_well (w : world) (p : pipstate) : Prop :=
  forall i, p_jobid p = Some i -> p_ready p = false /\
    exists j, In j (w_jobs w) /\ j_id j = i /\ p_sample p = Some (pl_sample (j_payload j)).
Definition pips_well (w : world) : Prop :=
  forall p, In p (w_pips w) -> plain (p_name p) -> holds_well w p.

(** No command and no manager iteration is in progress. *)
Definition at_rest (s : sys) : Prop :=
  forall t, In t (s_threads s) -> process (t_kind t) = false -> active t = false.

(** A cancel of several jobs records its outcome under the last id it was given. *)
Definition cancels_only (i : Z) (l : label) : Prop :=
  match l with
  | LCmd (CmdCancel _ ids) => last ids 0 = i -> forall x, In x ids -> x = i
  | _ => True
  end.
Definition starts_of (i : Z) (w : world) : list jobargs :=
  filter (fun a => Z.eqb (ja_jobid a) i) (starts w).

(** The manager thread, if there is one, is not in the middle of an iteration. *)
Definition rests (k : kind) (s : sys) : Prop :=
  forall t, In t (s_threads s) -> t_kind t = k -> active t = false.

(** No command is in progress during an iteration of the job manager. *)
Definition commands_apart (s : sys) : Prop := rests KJobMgr s \/ rests KCmd s.

(** The job manager is not in the middle of an iteration and no command in progress is
    going to write to the record of job [i], whatever it reads. *)
Definition leaves (i : Z) (o : op) : Prop := match o with OJobUpdate x _ => x <> i | _ => True end.
Definition left_alone (i : Z) (s : sys) : Prop :=
  rests KJobMgr s /\ forall t, In t (s_threads s) -> t_kind t = KCmd -> all_ops (leaves i) (t_pgm t).

(** Thread [n] is a process of job [ja_jobid a] that has not ended. *)
Definition job_process (s : sys) (n : nat) (a : jobargs) : Prop :=
  exists t pid, nth_error (s_threads s) n = Some t /\ t_kind t = KJob pid a /\ active t = true.
