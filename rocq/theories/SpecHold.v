(** * SpecHold: why a pipeline is in the state it is in (C115) *)
From Coq Require Import List String ZArith.
From Verif Require Import Base PyStr Types World Replies CmdModel KetchupModel TomatoModel SysModel SpecSys.
Import ListNotations.

(** One of the steps is a user's command that loads sample [x] into, or marks as ready, the pipeline
    recorded as [m].  ([sql_lit] is how a name is read within the SQL statement; it is the name itself
    unless that contains quotes.) *)
Definition load_asked (ls : list label) (m x : string) : Prop :=
  exists port n, In (LCmd (CmdLoad port n x)) ls /\ sql_lit n = Some m.
Definition ready_asked (ls : list label) (m : string) : Prop :=
  exists port n, In (LCmd (CmdReady port n)) ls /\ sql_lit n = Some m.
(** A process was started on the pipeline for a job whose payload asks to unlock the pipeline when it
    is done. *)
Definition unlocking (m : string) (w : world) : Prop :=
  exists a j, In a (starts w) /\ sql_lit (ja_pipeline a) = Some m /\
    In j (w_jobs w) /\ j_id j = ja_jobid a /\ pl_unlock (j_payload j) = true.
(** The table of [w] had such a record for pipeline [m]. *)
Definition held (w : world) (m : string) (P : pipstate -> Prop) : Prop :=
  exists p0, In p0 (w_pips w) /\ p_name p0 = m /\ P p0.
(** One of the steps is a user's command that empties the pipeline recorded as [m]. *)
Definition eject_asked (ls : list label) (m : string) : Prop :=
  exists port n, In (LCmd (CmdEject port n)) ls /\ sql_lit n = Some m.
