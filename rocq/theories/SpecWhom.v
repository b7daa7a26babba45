(** * SpecWhom: whom requests are sent to (C118) *)
From Coq Require Import List String ZArith.
From Verif Require Import Base PyStr Types ConfigModel World Replies CmdModel KetchupModel TomatoModel SysModel
  SpecSys SpecForce.
Import ListNotations.

(** A driver process announced itself under the name [n] with [port], or this port was recorded for [n]
    at the beginning.  ([sql_lit] is how a name is read within the SQL statement; it is the name itself
    unless that contains quotes.) *)
Definition port_of (w : world) (ls : list label) (n : string) (port : Z) : Prop :=
  (exists d, In d (w_drvs w) /\ dv_name d = n /\ dv_port d = Some port) \/
  exists n' pid ver, In (LDriver n' port pid ver true) ls /\ sql_lit n' = Some n.

(** A configuration read from the files has a pipeline in which a component with this address and channel
    plays a role for which [P] holds, and the driver of this component has [port]. *)
Definition about (w : world) (ls : list label) (P : string -> Prop) (addr ch : string) (port : Z) : Prop :=
  exists st df pn pip role cn c, read_from w ls st df /\
    In (pn, pip) (df_pipelines df) /\ In (role, cn) (pp_components pip) /\ P role /\
    dget (df_components df) cn = Some c /\ c_address c = addr /\ c_channel c = ch /\
    port_of w ls (c_driver c) port.

(** The request [c], sent to [port], belongs there; [now] is the state of the tables. *)
Definition proper (w : world) (ls : list label) (now : world) (port : Z) (c : dcmd) : Prop :=
  match c with
  | CCapabilities addr ch | CReset addr ch => about w ls (fun _ => True) addr ch port
  | CValidate t addr ch => about w ls (fun role => role = t_role t) addr ch port /\
      exists j, In j (w_jobs now) /\ In t (pl_method (j_payload j))
  | CStatus | CRegister | CStop => exists n, port_of w ls n port
  | _ => False
  end.
