(** * StartModel: finding and starting drivers, waiting for them

    Models /repo/src/tomato/drivers.py (20-32), the part of tomato_driver
    (/repo/src/tomato/daemon/driver.py:203-246) before its main loop, and the
    start of job_main_loop (/repo/src/tomato/daemon/job.py:733-747).
    Definitions only.

    Simplifications: importing a module has one of the outcomes of [imported]; a
    constructor returns or raises; a port can always be bound; the process number is
    what the operating system says ([get_pid] of utils.py:33-44 outside Windows). *)
From Coq Require Import List String Ascii ZArith Bool.
From Verif Require Import Base PyStr Types ConfigModel Prog World Replies CmdModel.
Import ListNotations.
Open Scope string_scope.
Open Scope Z_scope.
Open Scope prog_scope.

(** ** drivers.py *)

(** [drivername.replace('-', '_')] (line 21) *)
Fixpoint underscores (s : string) : string :=
  match s with
  | EmptyString => EmptyString
  | String c r => String (if Ascii.eqb c "-" then "_"%char else c) (underscores r)
  end.
Definition modname (drivername : string) : string := "tomato_" ++ underscores drivername.

(** A class [DriverInterface]: its [version] and its constructor (driver.py:222, 232). *)
Record dclass : Type := mkClass { cl_version : string; cl_new : dict sval -> res unit }.

(** [importlib.import_module(modname)] (line 24): ModuleNotFoundError, for the module or
    for one that it imports itself; another exception; a module with or without
    [DriverInterface]. *)
Inductive imported : Type :=
| IMissing
| IRaises (e : exn)
| IModule (c : option dclass).

(** driver_to_interface (lines 20-32) *)
Definition driver_to_interface (imports : string -> imported) (drivername : string)
    : res (option dclass) :=
  match imports (modname drivername) with
  | IMissing => Ok None
  | IRaises e => Err e
  | IModule c => Ok c
  end.

(** ** tomato_driver up to its main loop *)

(** [except Exception as e: raise RuntimeError] (driver.py:224-228) *)
Definition construct (c : dclass) (settings : dict sval) : res unit :=
  match cl_new c settings with
  | Ok _ => Ok tt
  | Err SystemExit => Err SystemExit
  | Err _ => Err RuntimeError
  end.

(** driver.py:210-241; the result tells whether the main loop is entered.  Waiting for
    the answer of a daemon that is gone never ends. *)
Definition tomato_driver (imports : string -> imported) (name : string) (port pid : Z) : pgm bool :=
  cls <- lift (driver_to_interface imports name);;
  match cls with
  | None => Ret false
  | Some c =>
      d <- act ODmGet;;
      match d with
      | None => Raise Blocked
      | Some dm =>
          drv <- lift (need (dget (df_drivers (dm_df dm)) name));;
          lift (construct c (dr_settings drv));;;
          r <- update_drv name [DPort (Some port); DVersion (Some (cl_version c)); DPid (Some pid); DHeartbeat 0];;
          Ret (is_some r)
      end
  end.

(** ** The start of job_main_loop *)

(** job.py:733-747.  [sys.exit()] when the daemon does not answer (lpp.comm). *)
Fixpoint wait_drivers (fuel : nat) : pgm daemon :=
  match fuel with
  | O => Raise OutOfFuel
  | S f =>
      d <- act ODmGet;;
      match d with
      | None => Raise SystemExit
      | Some dm =>
          drivers <- act ODrvsAll;;
          if forallb (fun v => is_some (dv_port v)) drivers then Ret dm else wait_drivers f
      end
  end.
