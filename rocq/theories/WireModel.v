(** * WireModel: the messages between the daemon's managers and a driver process
    [World] treats a driver as an oracle [w_driver] that answers requests [dcmd]; [IfaceModel]
    models the process that answers.  This file joins the two: the message a request is sent
    as, and the reply as far as the sender looks at it. *)
From Coq Require Import List String ZArith Bool.
From Verif Require Import Base Types World AttrModel IfaceModel.
Import ListNotations.
Open Scope string_scope.
Open Scope Z_scope.

(** [params = {"address": cmp.address, "channel": cmp.channel}] (daemon/job.py:109,
    daemon/pip.py:76, passata/__init__.py:86-95) *)
Definition about (addr ch : string) : rparams :=
  mkRp None (Some addr) (Some ch) None None None None None.
(** The same with a task (daemon/job.py:70). *)
Definition about_task (t : task) (addr ch : string) : rparams :=
  mkRp None (Some addr) (Some ch) None None (Some t) None None.

(** The dictionary that is sent: daemon/job.py:110 (cmp_capabilities), 73 (task_validate);
    daemon/pip.py:77 (cmp_reset); passata/__init__.py:96 (cmp_status), 121 (cmp_register), 149
    (cmp_attrs), 205 (cmp_constants), 237 (cmp_get_attr), 282 (cmp_set_attr), 344
    (cmp_last_data), 372 (cmp_measure); daemon/driver.py:376 (status), 380 (register), 125
    (stop).  The entry "sender" is not looked at by the driver. *)
Definition message (c : dcmd) : dreq :=
  match c with
  | CCapabilities a ch => mkReq (Some "cmp_capabilities") (Some (about a ch))
  | CValidate t a ch => mkReq (Some "task_validate") (Some (about_task t a ch))
  | CReset a ch => mkReq (Some "cmp_reset") (Some (about a ch))
  | CCmpStatus a ch => mkReq (Some "cmp_status") (Some (about a ch))
  | CRegisterCmp a ch => mkReq (Some "cmp_register") (Some (about a ch))
  | CAttrs a ch => mkReq (Some "cmp_attrs") (Some (about a ch))
  | CConstants a ch => mkReq (Some "cmp_constants") (Some (about a ch))
  | CGetAttr n a ch =>
      mkReq (Some "cmp_get_attr") (Some (mkRp None (Some a) (Some ch) (Some n) None None None None))
  | CSetAttr n v a ch =>
      mkReq (Some "cmp_set_attr") (Some (mkRp None (Some a) (Some ch) (Some n) (Some v) None None None))
  | CLastData a ch => mkReq (Some "cmp_last_data") (Some (about a ch))
  | CMeasure a ch => mkReq (Some "cmp_measure") (Some (about a ch))
  | CStatus => mkReq (Some "status") None
  | CRegister => mkReq (Some "register") None
  | CStop => mkReq (Some "stop") None
  end.
(** The message of a job process that starts a task (daemon/job.py:576). *)
Definition start_message (t : task) (addr ch : string) : dreq :=
  mkReq (Some "task_start") (Some (about_task t addr ch)).

(** The reply as the sender sees it; [DdDict] keeps the number of entries only, which for the
    data of kinds that no sender of a [dcmd] counts is put to 0. *)
Definition seen_data (x : rdata) : ddata :=
  match x with
  | RNone => DdNone
  | RNames l => DdCaps l
  | RStatus _ b => DdRunning b
  | RAttrs l => DdDict (List.length l)
  | RKeys l => DdDict (List.length l)
  | RVal v => DdVal v
  | _ => DdDict 0
  end.
Definition seen (r : IfaceModel.dreply) : World.dreply :=
  mkDReply (IfaceModel.dr_ok r) (seen_data (IfaceModel.dr_data r)).

(** A driver process: the code of the driver, its name, the interface object. *)
Record process : Type := mkProcess { pr_hw : hw; pr_name : string; pr_iface : iface }.

(** What a process answers (driver.py:243-309), [i] being what the daemon and the clock tell it
    meanwhile; no answer if it dies of the request or cannot send the reply. *)
Definition reply_of (i : turn_in) (x : process) (c : dcmd) : option World.dreply :=
  match handle (pr_hw x) (pr_name x) i (message c) (pr_iface x) with
  | (_, Ok r) => if picklable r then Some (seen r) else None
  | (_, Err _) => None
  end.

(** The requests sent to one port, in the order of sending: the log of the world has the
    latest first. *)
Definition sent_to (port : Z) (es : list World.event) : list dcmd :=
  flat_map (fun e => match e with
                     | EvRequest p c => if Z.eqb p port then [c] else []
                     | _ => []
                     end) (rev es).
(** The process after it has dealt with requests one after the other (the loop of
    driver.py:243-309), [i n] being what it is told during the [n]-th.  A request of which the
    process dies leaves the object as it is then. *)
Fixpoint deal (i : nat -> turn_in) (n : nat) (x : process) (l : list dcmd) : process :=
  match l with
  | [] => x
  | c :: r =>
      deal i (S n) (mkProcess (pr_hw x) (pr_name x)
        (fst (handle (pr_hw x) (pr_name x) (i n) (message c) (pr_iface x)))) r
  end.
