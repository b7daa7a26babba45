(** * SpecAnnounce: where the contact data of a driver come from (C116) *)
From Coq Require Import List String ZArith.
From Verif Require Import Base PyStr Types World Replies CmdModel KetchupModel TomatoModel SysModel.
Import ListNotations.
Open Scope Z_scope.

(** The record says what a driver process of this name, whose interface could be created, announced
    about itself.  ([sql_lit] is how a name is read within the SQL statement; it is the name itself
    unless that contains quotes.) *)
Definition announced (ls : list label) (d : drvstate) : Prop :=
  exists n port pid ver, In (LDriver n port pid ver true) ls /\ sql_lit n = Some (dv_name d) /\
    dv_port d = Some port /\ dv_pid d = Some pid /\ dv_version d = Some ver.
(** The record names no process. *)
Definition silent (d : drvstate) : Prop := dv_port d = None /\ dv_pid d = None /\ dv_version d = None.
(** The table of [w] had the same contact data for this driver. *)
Definition known_before (w : world) (d : drvstate) : Prop :=
  exists d0, In d0 (w_drvs w) /\ dv_name d0 = dv_name d /\
    dv_port d0 = dv_port d /\ dv_pid d0 = dv_pid d /\ dv_version d0 = dv_version d.
(** At most three starts are counted. *)
Definition few_starts (w : world) : Prop := forall d, In d (w_drvs w) -> 0 <= dv_spawn_count d <= 3.
