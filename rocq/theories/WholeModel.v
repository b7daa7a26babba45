(** * WholeModel: all workers of a job, their components and their files

    Composes, for every role of a pipeline, the worker of the job with its component
    (RunModel; daemon/job.py:500-713, driverinterface_2_1/__init__.py) and with the
    operations of [data_to_pickle] (daemon/io.py:51-66, IoModel) on the folder of the
    job, which all workers and the main thread of the job process share
    (job.py:716-829).  Definitions only.

    Simplifications: those of RunModel and IoModel, except that storing data is no
    longer a single step; every worker has a component of its own, the components run
    independently of each other; the main thread only lists and loads files and writes
    NetCDF files (io.py:21-48) as long as the workers run. *)
From Coq Require Import List String ZArith Bool.
From Verif Require Import Base Types Prog JobThreadModel DeviceModel RunModel IoModel.
Import ListNotations.

(** The worker of a role (job.py:500-534): its role, its state with that of its component,
    and what is left to do of a [data_to_pickle] that has begun. *)
Record part : Type := mkPart { pt_role : string; pt_run : rsys; pt_file : option (fpgm unit) }.
(** The workers of the job (job.py:753-785) and the files. *)
Record whole : Type := mkWhole { wh_parts : list part; wh_fs : fsys }.

(** The choices of the scheduler. *)
Inductive wlabel : Type :=
| LPart (i : nat) (l : rlabel)    (* worker or component number i *)
| LFile (i : nat)                 (* worker i: an operation of data_to_pickle *)
| LMain (o : fop).                (* the main thread *)

(** The worker is about to store data (job.py:639, 681, 697). *)
Definition storing (p : jpgm unit) : option (list nat) :=
  match p with Op (JStore d) _ => Some d | _ => None end.
(** [data_to_pickle] raises in the worker (job.py:639, 681, 697). *)
Definition store_raises (e : exn) (s : rsys) : rsys :=
  match r_pgm s with
  | Op o k =>
      match o as o' return (res (jresp o') -> jpgm unit) -> rsys with
      | JStore d => fun k => done_op s (r_dev s) (r_cur s) (r_sent s) (r_stored s) (JStore d) k (Err e)
      | _ => fun _ => s
      end k
  | _ => s
  end.

(** A step of a worker or its component.  A worker that is about to store data first does
    the operations of [data_to_pickle] (io.py:51-66). *)
Definition part_step (same : task -> task -> bool) (l : rlabel) (p : part) : option part :=
  let go f := option_map (fun s => mkPart (pt_role p) s f) (rstep same l (pt_run p)) in
  match l, storing (r_pgm (pt_run p)) with
  | RJob _ _ _, Some d =>
      match pt_file p with
      | None => Some (mkPart (pt_role p) (pt_run p) (Some (store_role (pt_role p) d)))
      | Some (Ret _) => go None
      | Some (Raise e) => Some (mkPart (pt_role p) (store_raises e (pt_run p)) None)
      | Some (Op _ _) => None
      end
  | _, _ => go (pt_file p)
  end.

(** An operation of [data_to_pickle] (io.py:51-66). *)
Definition file_step (p : part) (s : fsys) : option (part * fsys) :=
  match pt_file p with
  | Some (Op o k) =>
      Some (mkPart (pt_role p) (pt_run p) (Some (k (fst (fexec o s)))), snd (fexec o s))
  | _ => None
  end.

(** What the main thread does with files while the workers run: it merges (io.py:21-48). *)
Definition main_may (o : fop) : bool :=
  match o with FTrunc _ | FDump _ _ => false | _ => true end.

(** Replace element [i]. *)
Fixpoint put_at {A : Type} (i : nat) (x : A) (l : list A) : list A :=
  match l, i with
  | [], _ => []
  | _ :: r, O => x :: r
  | y :: r, S j => y :: put_at j x r
  end.

(** A step of the job process or of one of the components. *)
Definition whole_step (same : task -> task -> bool) (l : wlabel) (w : whole) : option whole :=
  match l with
  | LPart i l =>
      match nth_error (wh_parts w) i with
      | Some p => option_map (fun p' => mkWhole (put_at i p' (wh_parts w)) (wh_fs w)) (part_step same l p)
      | None => None
      end
  | LFile i =>
      match nth_error (wh_parts w) i with
      | Some p => option_map (fun ps => mkWhole (put_at i (fst ps) (wh_parts w)) (snd ps)) (file_step p (wh_fs w))
      | None => None
      end
  | LMain o => if main_may o then Some (mkWhole (wh_parts w) (snd (fexec o (wh_fs w)))) else None
  end.
Fixpoint whole_steps (same : task -> task -> bool) (ls : list wlabel) (w : whole) : option whole :=
  match ls with
  | [] => Some w
  | l :: r => match whole_step same l w with Some w' => whole_steps same r w' | None => None end
  end.

(** What a worker is started with (job.py:753-785): its role, its component, the
    polling rate of the device and the tasks of its role; [c_fuel] bounds the loops of the
    model of the worker. *)
Record cast : Type := mkCast {
  c_role : string; c_dev : dev; c_fuel : nat; c_poll : Z; c_tasks : list task
}.
Definition part_start (c : cast) : part :=
  mkPart (c_role c) (run_start (c_dev c) (job_thread (c_fuel c) (c_poll c) (c_tasks c))) None.
Definition whole_start (cs : list cast) (s : fsys) : whole := mkWhole (map part_start cs) s.
