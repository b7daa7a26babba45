(** * PassataModel: the passata commands

    Models /repo/src/tomato/passata/__init__.py: _name_to_cmp (32-52), _running_or_force
    (55-75), status (78-102), register (105-128), attrs (131-156), capabilities (159-184),
    constants (187-212), get_attrs (215-254), set_attr (257-290), reset (293-323),
    get_last_data (326-351) and measure (354-379).

    What passata sees of the rest of the system is an arbitrary sequence of answers: of
    the daemon, of the table of drivers and of the drivers; they may change between any
    two operations.  Definitions only.

    Simplifications: the texts of messages are left out except for their kind; a driver's
    reply is kept as success flag and data, where data is nothing, a dict with the entry
    "running", or any other value; the database file (daemon.settings) can be read. *)
From Coq Require Import List String ZArith Bool.
From Verif Require Import Base Types Prog.
Import ListNotations.
Open Scope Z_scope.
Open Scope string_scope.
Open Scope prog_scope.

(** The data of a driver's reply (driverinterface_2_1/__init__.py:193-210 for the dict
    with "running"); [CNoKey] is a dict without "running", [COther] any other value. *)
Inductive cdata : Type := CNone | CStatus (running : bool) | CNoKey | COther (v : pyval).
(** A driver's reply (models.py:114-117). *)
Record creply : Type := mkC { c_ok : bool; c_data : cdata }.

(** A request to a driver: the command and its parameters (e.g. 278-280). *)
Record creq : Type := mkQ {
  q_cmd : string; q_address : string; q_channel : string;
  q_attr : option string; q_val : option pyval
}.

(** Operations: asking the daemon for its status (37; [None]: not running, 38-39); reading
    the row of a driver (49); sending a request to a port and waiting for the answer
    (e.g. 93-101; [None]: the answer None). *)
Inductive pop : Type :=
| PDaemon
| PDriver (name : string)
| PRequest (port : Z) (q : creq).
Definition presp (o : pop) : Type :=
  match o with
  | PDaemon => option (dict component)
  | PDriver _ => option (option Z)
  | PRequest _ _ => option creply
  end.
Definition ppgm := prog pop presp.
Definition pact (o : pop) : ppgm (presp o) := do o.

(** What a command returns: a reply of passata itself (with the kind of its message), the
    reply of the driver, passed on, or collected values. *)
Inductive pkind : Type :=
| KNotRunning | KUnknown | KNoPort | KInvalid | KRunning | KTimeout.
Inductive pret : Type :=
| PRefused (k : pkind)
| PPassed (r : option creply)
| PValues (l : list (string * cdata)).

(** _name_to_cmp (32-52).  [inl]: a reply, to be returned by the caller. *)
Definition name_to_cmp (name : string) : ppgm (pret + (component * option Z)) :=
  d <- pact PDaemon;;
  match d with
  | None => Ret (inl (PRefused KNotRunning))
  | Some cmps =>
      match dget cmps name with
      | None => Ret (inl (PRefused KUnknown))
      | Some c =>
          v <- pact (PDriver (c_driver c));;
          match v with
          | None => Raise AssertionError
          | Some port => Ret (inr (c, port))
          end
      end
  end.

(** One request and its answer (e.g. 94-102): [except zmq.ZMQError], which includes the
    timeout zmq.Again; then the reply is passed on. *)
Definition ask (port : Z) (q : creq) : ppgm (pret + option creply) :=
  Op (PRequest port q) (fun r =>
    match r with
    | Ok a => Ret (inr a)
    | Err ZMQError => Ret (inl (PRefused KTimeout))
    | Err ZMQAgain => Ret (inl (PRefused KTimeout))
    | Err e => Raise e
    end).
Definition pass_on (port : Z) (q : creq) : ppgm pret :=
  r <- ask port q;; Ret (match r with inl p => p | inr a => PPassed a end).

(** The request without further parameters (e.g. 93). *)
Definition plain (cmd : string) (c : component) : creq := mkQ cmd (c_address c) (c_channel c) None None.

(** The common beginning of the commands (e.g. 85-91). *)
Definition with_cmp (name : string) (f : component -> Z -> ppgm pret) : ppgm pret :=
  x <- name_to_cmp name;;
  match x with
  | inl r => Ret r
  | inr (c, None) => Ret (PRefused KNoPort)
  | inr (c, Some port) => f c port
  end.

(** status (78-102), attrs (131-156), capabilities (159-184), constants (187-212),
    get_last_data (326-351), measure (354-379). *)
Definition simple (cmd name : string) : ppgm pret :=
  with_cmp name (fun c port => pass_on port (plain cmd c)).
Definition status := simple "cmp_status".
Definition attrs := simple "cmp_attrs".
Definition capabilities := simple "cmp_capabilities".
Definition constants := simple "cmp_constants".
Definition get_last_data := simple "cmp_last_data".
Definition measure := simple "cmp_measure".

(** register (105-128): the port is not checked (112-115); connecting to "...:None"
    (120) raises. *)
Definition register (name : string) : ppgm pret :=
  x <- name_to_cmp name;;
  match x with
  | inl r => Ret r
  | inr (c, None) => Raise ZMQError
  | inr (c, Some port) => pass_on port (plain "cmp_register" c)
  end.

(** _running_or_force (55-75): [None]: go on. *)
Definition running_or_force (name : string) (force : bool) : ppgm (option pret) :=
  if force then Ret None
  else
    r <- status name;;
    match r with
    | PRefused _ => Ret (Some (PRefused KInvalid))                     (* 63-68 *)
    | PValues _ => Ret None
    | PPassed None => Raise AttributeError                            (* 63: None.success *)
    | PPassed (Some (mkC false _)) => Ret (Some (PRefused KInvalid))
    | PPassed (Some (mkC true CNone)) => Ret (Some (PRefused KInvalid))
    | PPassed (Some (mkC true CNoKey)) => Raise KeyError              (* 69 *)
    | PPassed (Some (mkC true (COther _))) => Raise TypeError         (* 69 *)
    | PPassed (Some (mkC true (CStatus true))) => Ret (Some (PRefused KRunning))   (* 69-74 *)
    | PPassed (Some (mkC true (CStatus false))) => Ret None           (* 75 *)
    end.

(** set_attr (257-290) *)
Definition set_attr (name attr : string) (val : pyval) (force : bool) : ppgm pret :=
  with_cmp name (fun c port =>
    x <- running_or_force name force;;
    match x with
    | Some r => Ret r
    | None => pass_on port (mkQ "cmp_set_attr" (c_address c) (c_channel c) (Some attr) (Some val))
    end).

(** reset (293-323) *)
Definition reset (name : string) (force : bool) : ppgm pret :=
  with_cmp name (fun c port =>
    x <- running_or_force name force;;
    match x with
    | Some r => Ret r
    | None => pass_on port (plain "cmp_reset" c)
    end).

(** get_attrs (215-254): the loop of 236-245. *)
Fixpoint get_each (port : Z) (c : component) (names : list string) (acc : dict cdata) : ppgm pret :=
  match names with
  | [] => Ret (PValues acc)
  | a :: rest =>
      r <- ask port (mkQ "cmp_get_attr" (c_address c) (c_channel c) (Some a) None);;
      match r with
      | inl p => Ret p
      | inr None => Ret (PPassed None)
      | inr (Some v) => if c_ok v then get_each port c rest (dset acc a (c_data v))
                        else Ret (PPassed (Some v))
      end
  end.
Definition get_attrs (name : string) (names : list string) : ppgm pret :=
  with_cmp name (fun c port => get_each port c names []).

(** ** Executions *)

(** The answers of the surroundings, at each moment. *)
Record penv : Type := mkEnv {
  e_daemon : nat -> res (option (dict component));
  e_driver : nat -> string -> res (option (option Z));
  e_answer : nat -> Z -> creq -> res (option creply)
}.
(** The requests sent, latest last, with their answers. *)
Record psent : Type := mkSent { s_time : nat; s_port : Z; s_req : creq; s_answer : res (option creply) }.
Definition pstate : Type := nat * list psent.
Definition pexec (e : penv) (o : pop) (s : pstate) : res (presp o) * pstate :=
  match o return res (presp o) * pstate with
  | PDaemon => (e_daemon e (fst s), (S (fst s), snd s))
  | PDriver n => (e_driver e (fst s) n, (S (fst s), snd s))
  | PRequest p q => let a := e_answer e (fst s) p q in
                    (a, (S (fst s), (snd s ++ [mkSent (fst s) p q a])%list))
  end.
(** Running a command: its result and the requests it sent. *)
Definition passata {A} (p : ppgm A) (e : penv) : res A * list psent :=
  let (r, s) := run (pexec e) p (O, []) in (r, snd s).
