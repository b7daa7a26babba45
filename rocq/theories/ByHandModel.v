(** * ByHandModel: the passata commands together with the driver processes
    Joins [PassataModel] and [IfaceModel]: a request of passata is answered by the process at
    the port it is sent to, and changes that process.  Definitions only. *)
From Coq Require Import List String ZArith Bool.
From Verif Require Import Base Types Prog AttrModel IfaceModel WireModel PassataModel.
Import ListNotations.
Open Scope string_scope.
Open Scope Z_scope.

(** The message of a request (passata/__init__.py:93-96, 118-121, 237, 281-283, 313-316): the
    parameters are the address, the channel and, for attributes, name and value. *)
Definition as_message (q : creq) : dreq :=
  mkReq (Some (q_cmd q))
        (Some (mkRp None (Some (q_address q)) (Some (q_channel q)) (q_attr q) (q_val q) None None None)).

(** The reply as passata looks at it (63-69): the entry "running" of a status, or some value. *)
Definition as_reply (r : IfaceModel.dreply) : creply :=
  mkC (IfaceModel.dr_ok r)
      match IfaceModel.dr_data r with
      | RNone => CNone
      | RStatus _ b => CStatus b
      | RVal v => COther v
      | _ => CNoKey
      end.

(** The processes by port; [None]: nothing listens there. *)
Definition nodes : Type := Z -> option process.
Definition put (net : nodes) (port : Z) (x : option process) : nodes :=
  fun p => if Z.eqb p port then x else net p.

(** The operations of a command.  The daemon (37) and the table of drivers (49) answer the same
    during one command.  A process that dies of a request (daemon/driver.py:317-319) or cannot
    send its reply does not answer: [recv] times out (zmq.Again). *)
Definition hexec (cmps : option (dict component)) (table : string -> option (option Z))
    (i : nat -> turn_in) (o : pop) (s : nat * nodes) : res (presp o) * (nat * nodes) :=
  match o return res (presp o) * (nat * nodes) with
  | PDaemon => (Ok cmps, (S (fst s), snd s))
  | PDriver n => (Ok (table n), (S (fst s), snd s))
  | PRequest port q =>
      match snd s port with
      | None => (Err ZMQAgain, (S (fst s), snd s))
      | Some x =>
          match handle (pr_hw x) (pr_name x) (i (fst s)) (as_message q) (pr_iface x) with
          | (s', Ok r) =>
              if picklable r
              then (Ok (Some (as_reply r)), (S (fst s), put (snd s) port (Some (mkProcess (pr_hw x) (pr_name x) s'))))
              else (Err ZMQAgain, (S (fst s), put (snd s) port None))
          | (_, Err Blocked) => (Err ZMQAgain, (S (fst s), put (snd s) port None))
          | (_, Err _) => (Err ZMQAgain, (S (fst s), put (snd s) port None))
          end
      end
  end.
(** A command: its result and the processes afterwards. *)
Definition by_hand {A} (cmps : option (dict component)) (table : string -> option (option Z))
    (i : nat -> turn_in) (p : ppgm A) (net : nodes) : res A * nodes :=
  let (r, s) := run (hexec cmps table i) p (O, net) in (r, snd s).
