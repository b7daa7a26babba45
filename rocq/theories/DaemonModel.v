(** * DaemonModel: the main loop of the daemon

    Models /repo/src/tomato/daemon/__init__.py:tomato_daemon, lines 73-101.
    Definitions only. *)
From Coq Require Import List String ZArith Bool.
From Verif Require Import Base Types ConfigModel Prog World Replies CmdModel.
Import ListNotations.
Open Scope string_scope.
Open Scope prog_scope.

(** A received message: a dictionary without or with the key "cmd" (line 78).
    Other keys ("params", "sender") are not looked at by the modelled commands. *)
Inductive dmsg : Type := MsgNoCmd | MsgCmd (c : string).

(** The attributes of module tomato.daemon.cmd that are not commands
    (cmd.py:13-23).  Names with double underscores, which every module has,
    are left out. *)
Definition cmd_attrs : list string :=
  ["logging"; "drvdb"; "pipdb"; "Daemon"; "DrvState"; "PipState"; "Reply"; "logger"].

(** Lines 78-84; [ret] is the local variable of the same name, unbound at the
    beginning.  [getattr(cmd, "logger")(msg, daemon)] and the like raise
    TypeError: not callable, or a class that takes no positional arguments. *)
Definition dispatch (m : dmsg) (ret : option reply) : pgm reply :=
  match m with
  | MsgNoCmd => Ret (mkReply false MNoCmd ROther)
  | MsgCmd c =>
      d <- act ODmGet;;
      match d with
      | None => Raise Blocked
      | Some d =>
          if String.eqb c "status" then cmd_status d
          else if String.eqb c "stop" then cmd_stop d
          else if String.eqb c "reload" then cmd_reload d
          else if mem c cmd_attrs then Raise TypeError
          else match ret with
               | Some r => Ret r
               | None => Raise UnboundLocalError
               end
      end
  end.

(** One flag per manager thread. *)
Record mgrs : Type := mkMgrs { m_job : bool; m_drv : bool; m_pip : bool }.
Definition any_mgr (m : mgrs) : bool := m_job m || m_drv m || m_pip m.

(** The local state of the loop: [ret] and the [do_run] flags (lines 65-71, 90-92). *)
Record dloop : Type := mkLoop { dl_ret : option reply; dl_run : mgrs }.
Definition loop_start : dloop := mkLoop None (mkMgrs true true true).

(** One turn (lines 74-100): a message or a time-out, then the check for the end;
    [alive] is the outcome of [is_alive()] of the managers.  The result is the
    reply that was sent and the next state, [None] when the loop is left. *)
Definition turn_pgm (m : option dmsg) (alive : mgrs) (st : dloop)
    : pgm (option reply * option dloop) :=
  x <- match m with
       | None => Ret (None, dl_ret st)
       | Some m => r <- dispatch m (dl_ret st);; Ret (Some r, Some r)
       end;;
  d <- act ODmGet;;
  match d with
  | None => Raise Blocked
  | Some d =>
      match dm_status d with
      | Dstop =>
          if any_mgr alive then Ret (fst x, Some (mkLoop (snd x) (mkMgrs false false false)))
          else Ret (fst x, None)
      | _ => Ret (fst x, Some (mkLoop (snd x) (dl_run st)))
      end
  end.

(** A turn of the loop together with what the rest of the system did since the
    previous one. *)
Record turn : Type := mkTurn {
  tn_env : world -> world; tn_msg : option dmsg; tn_alive : mgrs
}.

(** How the loop stands: still going, left (line 100), or ended by an exception. *)
Inductive fate : Type := Serving (st : dloop) | Exited | Died (e : exn).

(** A completed turn: the message, the world when it arrived, the reply, the
    world after it, and the state of the managers. *)
Record exchange : Type := mkExch {
  x_msg : option dmsg; x_before : world; x_reply : option reply; x_after : world; x_alive : mgrs
}.

(** The loop (lines 73-100). *)
Fixpoint serve (l : list turn) (st : dloop) (w : world) : list exchange * fate :=
  match l with
  | [] => ([], Serving st)
  | t :: l =>
      let w0 := tn_env t w in
      match run exec (turn_pgm (tn_msg t) (tn_alive t) st) w0 with
      | (Err e, _) => ([], Died e)
      | (Ok (r, None), w') => ([mkExch (tn_msg t) w0 r w' (tn_alive t)], Exited)
      | (Ok (r, Some st'), w') =>
          let (xs, f) := serve l st' w' in (mkExch (tn_msg t) w0 r w' (tn_alive t) :: xs, f)
      end
  end.
