(** * TomatoModel: the pipeline and daemon commands of the command line

    Models /repo/src/tomato/tomato/__init__.py: stop (333-372), reload
    (462-508), pipeline_load (511-547), pipeline_eject (550-592) and
    pipeline_ready (595-637).  The daemon's part of stop and reload is in
    CmdModel and is run inline: the daemon handles one request at a time
    (daemon/__init__.py:74-96).  Definitions only. *)
From Coq Require Import List String ZArith Bool.
From Verif Require Import Base PyStr Types ConfigModel Prog World Replies CmdModel KetchupModel.
Import ListNotations.
Open Scope Z_scope.
Open Scope prog_scope.

(** pipeline_load (lines 527-547) *)
Definition pipeline_load (port : Z) (pip sample : string) : pgm reply :=
  with_daemon port (fun d =>
    if negb (dhas (df_pipelines (dm_df d)) pip) then
      Ret (mkReply false (MUnknownPip pip) RNone)
    else
      p <- act (OPipGet pip);;
      match p with
      | Some (mkPip _ _ _ (Some _)) => Ret (mkReply false (MNotEmpty pip) (RPip p))
      | _ =>
          p' <- update_pip pip [PSample (Some sample); PReady false];;
          Ret (mkReply true (MLoaded sample pip) (RPip p'))
      end).

(** pipeline_eject (lines 565-592) *)
Definition pipeline_eject (port : Z) (pip : string) : pgm reply :=
  with_daemon port (fun d =>
    if negb (dhas (df_pipelines (dm_df d)) pip) then
      Ret (mkReply false (MUnknownPip pip) RNone)
    else
      p <- act (OPipGet pip);;
      match p with
      | None => Raise AssertionError
      | Some ps =>
          match p_sample ps, p_jobid ps with
          | None, _ => Ret (mkReply true (MAlreadyEmpty pip) (RPip p))
          | Some _, Some _ => Ret (mkReply false MEjectRunning (RPip p))
          | Some _, None =>
              p' <- update_pip pip [PSample None; PReady false];;
              Ret (mkReply true (MEjected pip) (RPip p'))
          end
      end).

(** pipeline_ready (lines 610-637) *)
Definition pipeline_ready (port : Z) (pip : string) : pgm reply :=
  with_daemon port (fun d =>
    if negb (dhas (df_pipelines (dm_df d)) pip) then
      Ret (mkReply false (MUnknownPip pip) RNone)
    else
      p <- act (OPipGet pip);;
      match p with
      | None => Raise AssertionError
      | Some ps =>
          if p_ready ps then Ret (mkReply true (MAlreadyReady pip) (RPip p))
          else match p_jobid ps with
               | Some _ => Ret (mkReply false MReadyRunning (RPip p))
               | None =>
                   p' <- update_pip pip [PReady true];;
                   Ret (mkReply true (MSetReady pip) (RPip p'))
               end
      end).

(** tomato stop (lines 360-372).  The second [ODmGet] is the daemon handling
    the "stop" request. *)
Definition tomato_stop (port : Z) : pgm reply :=
  with_daemon port (fun _ =>
    d <- act ODmGet;;
    match d with
    | None => Raise Blocked
    | Some d =>
        r <- cmd_stop d;;
        if r_ok r then Ret (mkReply true (MClosed port) RNone) else Ret r
    end).

(** tomato reload (lines 480-508).  A settings file that is not valid TOML
    raises in the client; the model only distinguishes readable from not
    readable ([cf_settings]). *)
Definition tomato_reload (port : Z) : pgm reply :=
  st <- act OReadSettings;;
  match st with
  | None => Ret (mkReply false MNoSettings RNone)
  | Some _ =>
      with_daemon port (fun _ =>
        d <- act ODmGet;;
        match d with
        | None => Raise Blocked
        | Some d =>
            r <- cmd_reload d;;
            if r_ok r then Ret (mkReply true (MReloadedFrom port) (r_data r)) else Ret r
        end)
  end.
