(** * LppModel: the retrying request channel

    Models /repo/src/tomato/daemon/lpp.py:comm (20-60) over its own operations
    on a ZeroMQ REQ socket.  Definitions only.

    Simplifications: the k-th request sent during a call meets a server
    behaviour given by an oracle: whether the server executes it at all, and
    the answer that arrives before the time-out, if any.  An answer that
    arrives later is lost with the closed socket.  Log messages are left out. *)
From Coq Require Import List ZArith Bool.
From Verif Require Import Base Prog.
Import ListNotations.
Open Scope prog_scope.
Open Scope Z_scope.

(** State of a REQ socket: requests and answers alternate. *)
Inductive sock : Type := Fresh | Awaiting | Closed.

(** Operations on the socket: [req.send_pyobj] (38, 59), [req.poll] (41),
    [req.recv_pyobj] (42), [setsockopt]/[close] (46-47), new socket and
    [connect] (57-58). *)
Inductive nop : Type := NSend | NPoll | NRecv | NClose | NConnect.

(** What comm returns (42, 50-53). *)
Inductive outcome (A : Type) : Type := Answer (a : A) | Offline.
Arguments Answer {A} a.
Arguments Offline {A}.

Section Lpp.
  Context {A : Type}.

  Definition nresp (o : nop) : Type :=
    match o with NPoll => bool | NRecv => A | _ => unit end.
  Definition npgm (B : Type) : Type := prog nop nresp B.
  Definition nact (o : nop) : npgm (nresp o) := do o.

  (** The socket, and the numbers of requests sent and executed by the server. *)
  Record net : Type := mkNet { n_sock : sock; n_sent : nat; n_execs : nat }.

  (** Behaviour towards the k-th request: executed?, answer in time. *)
  Definition server : Type := nat -> bool * option A.

  (** Meaning of the operations; using a closed socket or sending twice raises
      zmq.ZMQError (ENOTSOCK, EFSM). *)
  Definition nexec (srv : server) (o : nop) (n : net) : res (nresp o) * net :=
    match o return res (nresp o) * net with
    | NSend =>
        match n_sock n with
        | Fresh => (Ok tt, mkNet Awaiting (S (n_sent n))
                             (if fst (srv (n_sent n)) then S (n_execs n) else n_execs n))
        | _ => (Err ZMQError, n)
        end
    | NPoll =>
        match n_sock n with
        | Awaiting => (Ok (is_some (snd (srv (pred (n_sent n))))), n)
        | Fresh => (Ok false, n)
        | Closed => (Err ZMQError, n)
        end
    | NRecv =>
        match n_sock n, snd (srv (pred (n_sent n))) with
        | Awaiting, Some a => (Ok a, mkNet Fresh (n_sent n) (n_execs n))
        | Awaiting, None => (Err Blocked, n)
        | _, _ => (Err ZMQError, n)
        end
    | NClose => (Ok tt, mkNet Closed (n_sent n) (n_execs n))
    | NConnect => (Ok tt, mkNet Fresh (n_sent n) (n_execs n))
    end.

  (** The loop (lpp.py:40-59); [fuel] bounds the number of rounds. *)
  Fixpoint comm_loop (fuel : nat) (retries : Z) : npgm (outcome A) :=
    match fuel with
    | O => Raise OutOfFuel
    | S f =>
        b <- nact NPoll;;
        if b : bool then
          a <- nact NRecv;; Ret (Answer a)
        else
          nact NClose;;;
          if retries - 1 =? 0 then Ret Offline
          else
            nact NConnect;;;
            nact NSend;;;
            comm_loop f (retries - 1)
    end.

  (** comm (lpp.py:20-60); the returned socket is the state of the network. *)
  Definition comm (fuel : nat) (retries : Z) : npgm (outcome A) :=
    nact NSend;;; comm_loop fuel retries.
End Lpp.
Arguments server A : clear implicits.
