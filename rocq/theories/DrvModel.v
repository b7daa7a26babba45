(** * DrvModel: the driver manager

    Models the driver manager of /repo/src/tomato/daemon/driver.py (lines
    117-150, 327-441) and the part of tomato_driver that announces a new driver
    process (lines 217-239).  Definitions only. *)
From Coq Require Import List String ZArith Bool.
From Verif Require Import Base PyStr Types ConfigModel Prog World Replies CmdModel.
Import ListNotations.
Open Scope Z_scope.
Open Scope prog_scope.

(** SPAWN_RETRIES, SPAWN_DELAY, HEARTBEAT (lines 31-33); times in microseconds *)
Definition spawn_retries : Z := 3.
Definition spawn_delay : Z := 5000000.
Definition heartbeat : Z := 5000000.

(** stop_tomato_driver (lines 117-126) *)
Definition stop_driver (port : Z) : pgm dreply := act (ODriver (Some port) CStop).

(** kill_tomato_driver (lines 129-150): [psutil.Process(pid)] raises for an
    unknown pid; [psutil.wait_procs([to_kill])] gets a list inside a list and
    raises TypeError (lists are not hashable).  Simplification: terminating
    the process is not represented. *)
Definition kill_driver (pid : Z) : pgm unit :=
  act (OPidZombie pid);;; Raise TypeError.

(** [len(ret.data)] (line 378) *)
Definition data_len (d : ddata) : res Z :=
  match d with
  | DdCaps l => Ok (Z.of_nat (List.length l))
  | DdDict n => Ok (Z.of_nat n)
  | DdRunning _ => Ok 1
  | DdNone | DdVal _ => Err TypeError
  end.

(** Lines 372-390: the columns to write after a successful check. *)
Definition drv_check (port : Z) (tN : Z) : pgm (list dcol) :=
  ret <- act (ODriverT (Some port) CStatus);;
  (if dr_ok ret then
     n <- lift (data_len (dr_data ret));;
     if Z.eqb n 0 then act (ODriverT (Some port) CRegister);;; Ret tt else Ret tt
   else Ret tt);;;
  Ret [DHeartbeat tN].

(** [vars(DrvState(name=d.name))] without the name (lines 393-394) *)
Definition drv_reset : list dcol :=
  [DPort None; DPid None; DVersion None; DSpawnTime 0; DSpawnCount 0; DHeartbeat 0].

(** Lines 371-398; a call that never returns is not an exception. *)
Definition drv_checked (d : drvstate) (port : Z) (tN : Z) : pgm unit :=
  cs <- catch (drv_check port tN)
          (fun e => match e with
                    | ZMQAgain => Some (Ret drv_reset)
                    | Blocked => None
                    | _ => Some (Raise RuntimeError)
                    end);;
  update_drv (dv_name d) cs;;;
  Ret tt.

(** Body of the loop (lines 354-423). *)
Definition drv_one (dm : daemon) (_ : unit) (d : drvstate) : pgm unit :=
  tN <- act OPerf;;
  if negb (dhas (df_drivers (dm_df dm)) (dv_name d)) then
    (match dv_port d with
     | Some p => stop_driver p;;; Ret tt
     | None => Ret tt
     end);;;
    del_drv (dv_name d);;;
    Ret tt
  else
    match dv_port d with
    | Some p =>
        if Z.ltb heartbeat (tN - dv_heartbeat d)
           || (Z.eqb (dv_heartbeat d) 0 && Z.ltb spawn_delay (tN - dv_spawn_time d))
        then drv_checked d p tN
        else Ret tt
    | None =>
        if Z.ltb spawn_delay (tN - dv_spawn_time d) && Z.ltb (dv_spawn_count d) spawn_retries then
          act (OSpawnDriver (dv_name d) tN);;;
          update_drv (dv_name d) [DSpawnTime tN; DSpawnCount (dv_spawn_count d + 1)];;;
          Ret tt
        else Ret tt
    end.

(** One iteration of the driver manager (lines 341-425).  A missing daemon
    means that this thread is gone. *)
Definition drv_pass : pgm unit :=
  d <- act ODmGet;;
  match d with
  | None => Ret tt
  | Some dm =>
      drivers <- act ODrvsAll;;
      forP (drv_one dm) tt drivers
  end.

(** Lines 427-441: what the manager does when it is told to stop. *)
Definition drv_quit_one (_ : unit) (d : drvstate) : pgm unit :=
  match dv_pid d, dv_port d with
  | None, _ => Ret tt
  | Some pid, None => kill_driver pid
  | Some _, Some p => stop_driver p;;; Ret tt
  end.
Definition drv_quit : pgm unit :=
  d <- act ODmGet;;
  match d with
  | None => Ret tt
  | Some _ =>
      drivers <- act ODrvsAll;;
      forP drv_quit_one tt drivers
  end.

(** A driver process that listens on [port], creates its interface and writes
    its row (lines 217-239); [ok] tells whether the interface can be created
    (line 223).  [daemon.devicefile.drivers[name]] may raise KeyError. *)
Definition driver_connect (name : string) (port pid : Z) (ver : string) (ok : bool) : pgm unit :=
  d <- act ODmGet;;
  match d with
  | None => Raise Blocked
  | Some dm =>
      lift (need (dget (df_drivers (dm_df dm)) name));;;
      (if ok then Ret tt else Raise RuntimeError);;;
      update_drv name [DPort (Some port); DVersion (Some ver); DPid (Some pid); DHeartbeat 0];;;
      Ret tt
  end.
