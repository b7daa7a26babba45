(** * SpecLife: the end of a driver process (C124) *)
From Coq Require Import List String ZArith Bool.
From Verif Require Import Base Types AttrModel World IfaceModel SpecIface WireModel SpecWire LifeModel.
Import ListNotations.
Open Scope string_scope.
Open Scope Z_scope.

(** Every component runs nothing, has nothing waiting and no data. *)
Definition all_idle (s : iface) : Prop :=
  forall k v, kget (i_devmap s) k = Some v -> idle v.
(** The turn deals with a request to stop. *)
Definition stop_turn (i : turn_in) : Prop := exists q, ti_req i = Some q /\ rq_cmd q = Some "stop".
(** The ports of the drivers' records are different from each other. *)
Definition own_ports (w : world) : Prop :=
  NoDup (flat_map (fun d => match dv_port d with Some p => [p] | None => [] end) (w_drvs w)).
