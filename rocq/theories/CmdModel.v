(** * CmdModel: commands executed by the daemon

    Models /repo/src/tomato/daemon/cmd.py, the helper functions of
    daemon/jobdb.py, pipdb.py, drvdb.py, and the start of the daemon
    (daemon/__init__.py:51-59).  Definitions only. *)
From Coq Require Import List String ZArith Bool.
From Verif Require Import Base Types ConfigModel Prog World Replies.
Import ListNotations.
Open Scope prog_scope.

(** ** Database helpers *)

(** jobdb.insert_job (jobdb.py:18-42) *)
Definition insert_job (j : job) : pgm job :=
  act (OJobInsert j);;;
  id <- act (OJobIdAt (j_submitted j));;
  act (OJobGet id).

(** jobdb.update_job_id (jobdb.py:45-51) *)
Definition update_job_id (id : Z) (cs : list jcol) : pgm job :=
  act (OJobUpdate id cs);;;
  act (OJobGet id).

(** pipdb.insert_pip, update_pip (pipdb.py:17-33) *)
Definition insert_pip (p : pipstate) : pgm (option pipstate) :=
  act (OPipInsert p);;; act (OPipGet (p_name p)).
Definition update_pip (n : string) (cs : list pcol) : pgm (option pipstate) :=
  act (OPipUpdate n cs);;; act (OPipGet n).

(** drvdb.insert_drv, update_drv, del_drv (drvdb.py:17-43,70-75) *)
Definition insert_drv (d : drvstate) : pgm (option drvstate) :=
  act (ODrvInsert d);;; act (ODrvGet (dv_name d)).
Definition update_drv (n : string) (cs : list dcol) : pgm (option drvstate) :=
  act (ODrvUpdate n cs);;; act (ODrvGet n).
Definition del_drv (n : string) : pgm (option drvstate) :=
  act (ODrvDel n);;; act (ODrvGet n).

(** ** Reading the configuration files: [Daemon(...)] (models.py:86-111) *)
Definition read_daemon (s : dstatus) (port : Z) : pgm (res daemon) :=
  st <- act OReadSettings;;
  match st with
  | None => Ret (load_daemon (mkCfg None (fun _ => None)) s port)
  | Some st' =>
      rf <- act (OReadDevices (st_devcfg st'));;
      Ret (load_daemon (mkCfg (Some st') (fun _ => rf)) s port)
  end.

(** ** Starting the daemon *)

(** First branch of cmd.reload (cmd.py:56-76), one driver / one pipeline. *)
Definition boot_driver (u : unit) (dname : string) : pgm unit :=
  drv <- act (ODrvGet dname);;
  drv' <- match drv with
          | None => insert_drv (drv_default dname)
          | Some d => Ret (Some d)
          end;;
  assertP (is_some drv').

Definition boot_pipeline (u : unit) (pname : string) : pgm unit :=
  pip <- act (OPipGet pname);;
  pip' <- match pip with
          | None => insert_pip (pip_default pname)
          | Some p => Ret (Some p)
          end;;
  assertP (is_some pip').

(** cmd.reload with status "bootstrap" (cmd.py:56-76). *)
Definition bootstrap (d : daemon) : pgm daemon :=
  forP boot_driver tt (dkeys (df_drivers (dm_df d)));;;
  forP boot_pipeline tt (dkeys (df_pipelines (dm_df d)));;;
  Ret (with_status d Drunning).

(** daemon/__init__.py:51-59: read the configuration, bootstrap, listen. *)
Definition daemon_start (port : Z) : pgm unit :=
  x <- read_daemon Dbootstrap port;;
  d <- lift x;;
  d' <- bootstrap d;;
  act (ODmBind d').

(** ** Commands; [d] is the daemon object in memory. *)

(** cmd.status (cmd.py:26-28) *)
Definition cmd_status (d : daemon) : pgm reply :=
  Ret (mkReply true (MStatus (dm_status d)) (RDaemon d)).

(** cmd.stop (cmd.py:31-43) *)
Definition cmd_stop (d : daemon) : pgm reply :=
  rpips <- act (OPipsWhere true);;
  if Nat.ltb 0 (List.length rpips) then
    Ret (mkReply false (MJobsRunning (List.length rpips)) (RPips rpips))
  else
    act (ODmSetStatus Dstop);;;
    Ret (mkReply true MSetToStop RNone).

(** Loop over the occupied pipelines (cmd.py:97-112); the state is
    [check_components]; [inr] is an early [return].
    [daemon.devicefile.pipelines[ps.name]] raises KeyError when the occupied
    pipeline is not in the old configuration. *)
Definition check_pip (old new : devicefile) (acc : list string) (ps : pipstate)
    : res (list string + reply) :=
  match dget (df_pipelines old) (p_name ps) with
  | None => Err KeyError
  | Some dpip =>
      match dget (df_pipelines new) (pp_name dpip) with
      | None => Ok (inr (mkReply false MDeletePip (RPipeline dpip)))
      | Some pip =>
          if dict_eqb String.eqb (pp_components pip) (pp_components dpip)
          then Ok (inl (acc ++ dvals (pp_components dpip))%list)
          else Ok (inr (mkReply false MModifyPip (RPipeline dpip)))
      end
  end.

(** Loop over [check_components] (cmd.py:114-134); the state is [check_drivers]. *)
Definition check_comp (old new : devicefile) (acc : list string) (cn : string)
    : res (list string + reply) :=
  match dget (df_components old) cn with
  | None => Err KeyError
  | Some dcomp =>
      match dget (df_components new) cn with
      | None => Ok (inr (mkReply false MDeleteComp (RComponent dcomp)))
      | Some comp =>
          if String.eqb (c_name dcomp) (c_name comp)
             && String.eqb (c_driver dcomp) (c_driver comp)
             && String.eqb (c_address dcomp) (c_address comp)
             && String.eqb (c_channel dcomp) (c_channel comp)
          then Ok (inl (acc ++ [c_driver dcomp])%list)
          else Ok (inr (mkReply false MModifyComp (RComponent dcomp)))
      end
  end.

(** Loop over [check_drivers] (cmd.py:136-149). *)
Definition check_drv (old new : devicefile) (acc : unit) (dn : string)
    : res (unit + reply) :=
  match dget (df_drivers new) dn with
  | None =>
      match dget (df_drivers old) dn with
      | None => Err KeyError
      | Some d => Ok (inr (mkReply false MDeleteDrv (RDriver (Some d))))
      end
  | Some nd =>
      match dget (df_drivers old) dn with
      | None => Err KeyError
      | Some d =>
          if dict_eqb sval_eqb (dr_settings d) (dr_settings nd) then Ok (inl tt)
          else Ok (inr (mkReply false MModifyDrv (RDrvSettings (dr_settings d))))
      end
  end.

(** [for x in l] with an early return, for pure bodies. *)
Fixpoint forR {S A R : Type} (f : S -> A -> res (S + R)) (s : S) (l : list A) : res (S + R) :=
  match l with
  | [] => Ok (inl s)
  | a :: r => match f s a with
              | Err e => Err e
              | Ok (inr y) => Ok (inr y)
              | Ok (inl s') => forR f s' r
              end
  end.

(** The checks of cmd.py:92-149: [Ok None] when the new configuration may be
    used.  Sets of names are lists of first occurrences. *)
Definition reload_check (old new : devicefile) (rpips : list pipstate) : res (option reply) :=
  match forR (check_pip old new) [] rpips with
  | Err e => Err e
  | Ok (inr r) => Ok (Some r)
  | Ok (inl comps) =>
      match forR (check_comp old new) [] (set_of comps) with
      | Err e => Err e
      | Ok (inr r) => Ok (Some r)
      | Ok (inl drvs) =>
          match forR (check_drv old new) tt (set_of drvs) with
          | Err e => Err e
          | Ok (inr r) => Ok (Some r)
          | Ok (inl _) => Ok None
          end
      end
  end.

(** cmd.reload, second branch (cmd.py:77-156), for a daemon [d] that is not
    bootstrapping.  The two assignments of lines 152-153 are one operation:
    nothing else runs in the daemon's main thread in between, and the other
    threads only see copies obtained by a "status" request. *)
Definition cmd_reload (d : daemon) : pgm reply :=
  x <- read_daemon (dm_status d) (dm_port d);;
  match x with
  | Err _ => Ret (mkReply false MParseError RNone)
  | Ok nd =>
      rpips <- act (OPipsWhere true);;
      c <- lift (reload_check (dm_df d) (dm_df nd) rpips);;
      match c with
      | Some r => Ret r
      | None =>
          act (ODmSetConfig (dm_settings nd) (dm_df nd));;;
          Ret (mkReply true MReloaded (RDaemon nd))
      end
  end.
