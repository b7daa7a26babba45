(** * PipModel: the pipeline manager (/repo/src/tomato/daemon/pip.py:24-88)

    Definitions only. *)
From Coq Require Import List String ZArith Bool.
From Verif Require Import Base PyStr Types ConfigModel Prog World Replies CmdModel JobModel.
Import ListNotations.
Open Scope Z_scope.
Open Scope prog_scope.

(** [timedelta(MAX_JOB_NOPID)] (line 58): the first argument of [timedelta] is a
    number of days; in microseconds. *)
Definition ten_days : Z := 10 * 86400000000.

(** Lines 69-82: reset one component; the reply is only logged. *)
Definition reset_component (d : daemon) (_ : unit) (cn : string) : pgm unit :=
  x <- driver_of d cn;;
  act (ODriver (dv_port (snd x)) (CReset (c_address (fst x)) (c_channel (fst x))));;;
  Ret tt.

(** Lines 68-85 *)
Definition release (d : daemon) (n : string) : pgm unit :=
  p <- lift (need (dget (df_pipelines (dm_df d)) n));;
  forP (reset_component d) tt (dvals (pp_components p));;;
  update_pip n [PJobid None; PReady false];;;
  Ret tt.

(** Lines 52-66: is the pipeline to be reset?  [psutil.Process(pid)] raises if
    the process ended after [pid_exists]. *)
Definition gone (j : job) : pgm bool :=
  match j_pid j, j_connected j, j_launched j with
  | None, Some _, _ => Ret true
  | None, None, Some l =>
      now <- act ONow;;
      Ret (Z.ltb ten_days (now - l))
  | None, None, None => Ret false
  | Some p, _, _ =>
      e <- act (OPidExists p);;
      if e then z <- act (OPidZombie p);; Ret z else Ret true
  end.

(** Body of the loop (lines 49-85).  [pip.jobid] is not NULL by the selection. *)
Definition pip_one (d : daemon) (_ : unit) (ps : pipstate) : pgm unit :=
  match p_jobid ps with
  | None => Ret tt
  | Some id =>
      j <- act (OJobGet id);;
      g <- gone j;;
      if g : bool then release d (p_name ps) else Ret tt
  end.

(** One iteration of the pipeline manager (lines 37-85). *)
Definition pip_pass : pgm unit :=
  d <- act ODmGet;;
  match d with
  | None => Ret tt
  | Some d =>
      running <- act (OPipsWhere true);;
      forP (pip_one d) tt running
  end.
