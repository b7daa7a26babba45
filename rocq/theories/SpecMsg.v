(** * SpecMsg: vocabulary for requests to the daemon *)
From Coq Require Import List String ZArith Bool.
From Verif Require Import Base Types ConfigModel Prog World Replies CmdModel DaemonModel.
Import ListNotations.
Open Scope string_scope.

(** The rest of the system does not touch the state of the daemon process. *)
Definition quiet (t : turn) : Prop := forall w, w_daemon (tn_env t w) = w_daemon w.

(** A message without a command or with one of the three commands. *)
Definition regular (m : dmsg) : Prop :=
  m = MsgNoCmd \/ m = MsgCmd "status" \/ m = MsgCmd "stop" \/ m = MsgCmd "reload".

Definition idle (w : world) : Prop := forall p, In p (w_pips w) -> p_jobid p = None.

(** The right reply to message [m] in world [w], and the world after it. *)
Definition right_reply (m : dmsg) (w : world) (r : reply) (w' : world) : Prop :=
  match m with
  | MsgNoCmd => r_ok r = false /\ w' = w
  | MsgCmd c =>
      exists d, w_daemon w = Some d /\
      ((c = "status" /\ r = mkReply true (MStatus (dm_status d)) (RDaemon d) /\ w' = w) \/
       (c = "stop" /\ idle w /\ r_ok r = true /\ w' = set_daemon w (Some (with_status d Dstop))) \/
       (c = "stop" /\ ~ idle w /\ r_ok r = false /\ w' = w) \/
       (c = "reload" /\ run exec (cmd_reload d) w = (Ok r, w')) \/
       (c <> "status" /\ c <> "stop" /\ c <> "reload" /\ r_ok r = false /\ w' = w))
  end.

(** An exchange with exactly the right reply: one for a message, none without. *)
Definition right_exchange (x : exchange) : Prop :=
  match x_msg x, x_reply x with
  | Some m, Some r => right_reply m (x_before x) r (x_after x)
  | None, None => x_after x = x_before x
  | _, _ => False
  end.
