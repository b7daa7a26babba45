(** * SpecStatus: what "tomato status" must report (C79) *)
From Coq Require Import List String ZArith Bool.
From Verif Require Import Base Types World StatusModel.
Import ListNotations.

(** Nothing that other parts of tomato can see is different, except that requests were sent. *)
Definition same_tables (w w' : world) : Prop :=
  w_jobs w' = w_jobs w /\ w_seq w' = w_seq w /\ w_pips w' = w_pips w /\ w_drvs w' = w_drvs w /\
  w_daemon w' = w_daemon w /\ w_files w' = w_files w /\ w_dirs w' = w_dirs w /\ w_jobdata w' = w_jobdata w /\
  w_spawned w' = w_spawned w /\ w_procs w' = w_procs w.
(** The requests sent to drivers, latest first; other effects. *)
Definition requests (w : world) : list (Z * dcmd) :=
  flat_map (fun e => match e with EvRequest p c => [(p, c)] | _ => [] end) (w_log w).
Definition others (w : world) : list event :=
  filter (fun e => match e with EvRequest _ _ => false | _ => true end) (w_log w).

(** A value that has a length, and one of length zero. *)
Definition sized (x : ddata) : Prop :=
  match x with
  | DdCaps _ | DdRunning _ | DdDict _ | DdVal (VStr _) | DdVal (VList _) => True
  | _ => False
  end.
Definition nothing_in (x : ddata) : bool :=
  match x with
  | DdCaps [] | DdDict 0 | DdVal (VStr EmptyString) | DdVal (VList []) | DdNone => true
  | _ => false
  end.
(** The driver of the component has a port and answers, with some data that has a length (for
    instance a set of techniques) or without data. *)
Definition answers_caps (w : world) (c : component) (p : Z) (r : dreply) : Prop :=
  (exists v, get_drv (w_drvs w) (c_driver c) = Some v /\ dv_port v = Some p) /\
  w_driver w p (CCapabilities (c_address c) (c_channel c)) = Some r /\
  (dr_data r = DdNone \/ sized (dr_data r)).
(** The capabilities reported for that answer. *)
Definition reported (r : dreply) (x : option ddata) : Prop :=
  x = (if dr_ok r && negb (nothing_in (dr_data r)) then Some (dr_data r) else None).

(** A listing is answered: the command ends with a reply that reports success. *)
Definition lists (r : res sreply) : Prop := exists m d, r = Ok (mkS true m d).
(** The driver of the component is known, has a port and answers; if it reports success, then
    with data that has a length, or without data. *)
Definition tells_caps (w : world) (c : component) : Prop :=
  exists v p r, get_drv (w_drvs w) (c_driver c) = Some v /\ dv_port v = Some p /\
    w_driver w p (CCapabilities (c_address c) (c_channel c)) = Some r /\
    (dr_ok r = true -> dr_data r = DdNone \/ sized (dr_data r)).
