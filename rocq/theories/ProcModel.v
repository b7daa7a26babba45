(** * ProcModel: process trees, announced process numbers and signals

    Models /repo/src/tomato/utils.py:33-44 (get_pid), /repo/src/tomato/daemon/job.py:428-437
    (tomato_job: the same for a job), job.py:119-143 (kill_tomato_job) and
    /repo/src/tomato/daemon/driver.py:129-150 (kill_tomato_driver), on Windows and elsewhere.

    Simplifications: the table of processes is looked at in one moment; whether a terminated
    process really ends is up to the operating system, so the result is the list of processes
    that are sent the signal; psutil's check of creation times is left out, since in one table
    process numbers are unique. *)
From Coq Require Import List String ZArith Bool.
From Verif Require Import Base.
Import ListNotations.
Open Scope string_scope.
Open Scope Z_scope.

(** psutil.WINDOWS, psutil.POSIX (utils.py:34, 42; job.py:131, 136, 428, 436) *)
Inductive platform : Type := Windows | Posix.

(** psutil.Process: pid, name(), ppid() (utils.py:37-40) *)
Record pinfo : Type := mkPinfo { pi_pid : Z; pi_name : string; pi_parent : option Z }.

(** psutil.Process(pid) (utils.py:37, driver.py:142) *)
Definition lookup (t : list pinfo) (p : Z) : option pinfo := find (fun q => Z.eqb (pi_pid q) p) t.

(** psutil's Process.children(), not recursive (job.py:132, 135, 137; driver.py:143) *)
Definition children (t : list pinfo) (p : Z) : list pinfo :=
  filter (fun q => match pi_parent q with Some x => Z.eqb x p | None => false end) t.

(** psutil's Process.parent(): None if there is no such process any more (utils.py:38) *)
Definition parent_of (t : list pinfo) (p : Z) : option pinfo :=
  match lookup t p with
  | Some q => match pi_parent q with Some x => lookup t x | None => None end
  | None => None
  end.

(** psutil's Process.parents(), nearest first (utils.py:38; job.py:432) *)
Fixpoint parents (fuel : nat) (t : list pinfo) (p : Z) : list pinfo :=
  match fuel with
  | O => []
  | S f => match parent_of t p with Some q => q :: parents f t (pi_pid q) | None => [] end
  end.

(** utils.py:33-44 with [exe] = "tomato-driver.exe", job.py:428-437 with "tomato-job.exe":
    the process number that process [self] announces *)
Definition get_pid (exe : string) (os : platform) (t : list pinfo) (self : Z) : Z :=
  match os with
  | Windows =>
      match find (fun q => String.eqb (pi_name q) exe) (parents (List.length t) t self) with
      | Some q => pi_pid q
      | None => self
      end
  | Posix => self
  end.

(** job.py:131-140: the processes sent a signal when the job recorded with [p] is cancelled *)
Definition kill_job_signals (os : platform) (t : list pinfo) (p : Z) : list Z :=
  map pi_pid
    match os with
    | Windows =>
        flat_map (fun c => children t (pi_pid c))
          (filter (fun c => negb (String.eqb (pi_name c) "conhost.exe")) (children t p))
    | Posix => children t p
    end.

(** driver.py:142-147: the processes sent a signal, and how the function ends; the children are
    listed but not signalled, and waiting for a list of a list fails (TypeError: unhashable) *)
Definition kill_driver_signals (t : list pinfo) (p : Z) : list Z * exn :=
  match lookup t p with
  | Some _ => ([p], TypeError)
  | None => ([], NoSuchProcess)
  end.
