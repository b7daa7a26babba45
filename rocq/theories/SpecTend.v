(** * SpecTend: a driver process as the driver manager looks after it (C122) *)
From Coq Require Import List String ZArith Bool.
From Verif Require Import Base Types Prog World DrvModel IfaceModel WireModel.
Import ListNotations.
Open Scope Z_scope.

(** The world answers the question for the status of the driver at [port] as process [x] does. *)
Definition status_from (w : world) (port : Z) (x : process) : Prop :=
  exists i, w_driver w port CStatus = reply_of i x CStatus.

(** The components that are registered. *)
Definition known (x : process) : list key := map fst (i_devmap (pr_iface x)).

(** [tended port x y]: process [x] listening at [port] becomes [y] by any number of passes of
    the driver manager, in worlds that may be different each time, and anything else in between
    that leaves the set of registered components as it is: requests of jobs and users about
    components, the threads of the components, idle measurements, changes of the configuration. *)
Inductive tended (port : Z) (x : process) : process -> Prop :=
| tended_none : tended port x x
| tended_pass y i w r w' new :
    tended port x y -> status_from w port y ->
    run exec drv_pass w = (r, w') -> w_log w' = (new ++ w_log w)%list ->
    tended port x (deal i 0 y (sent_to port new))
| tended_other y z :
    tended port x y -> known z = known y -> tended port x z.
