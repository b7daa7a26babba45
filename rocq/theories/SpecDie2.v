(** * SpecDie2: vocabulary for requests to a driver with the 2.0 interface (C101) *)
From Coq Require Import List String ZArith Bool.
From Verif Require Import Base Types AttrModel IfaceModel SpecAttr SpecIface SpecDie.
Import ListNotations.
Open Scope string_scope.
Open Scope Z_scope.

(** A driver whose own code never raises. *)
Definition faultless (h : hw) : Prop :=
  plain_measure h /\
  (forall n k, exists caps, h_caps h n k = Ok caps) /\
  (forall n k a v, exists w, h_set20 h n k a v = Ok w) /\
  (forall n k a, exists v, h_get h n k a = Ok v).

(** What a request [name] about a component in state [d] with key [k] needs: its arguments, for a task one that
    can be judged, and a thread that has not been used if the task is accepted and is to be
    started.  [n] is the number of calls of the driver's code before. *)
Definition needs (h : hw) (n : nat) (name : string) (k : key) (d : device) (p : rparams) : Prop :=
  (name = "cmp_set_attr" -> rp_attr p <> None /\ rp_val p <> None) /\
  (name = "cmp_get_attr" -> rp_attr p <> None) /\
  (name = "cmp_status" -> rp_attr p = None \/ forall a props, In (a, props) (h_attrs h k) -> at_status props = false) /\
  (name = "task_start" \/ name = "task_validate" ->
     exists t caps b, rp_task p = Some t /\ h_caps h n k = Ok caps /\
       task_validate20 (h_parser h) caps (h_attrs h k) t = Ok b /\
       (name = "task_start" -> b = true -> v_run d = true)).

(** The driver in state [p] can serve turn [i]: if there is a request, its component is
    registered and the request has what it needs. *)
Definition fits (h : hw) (p : dproc) (i : turn_in) : Prop :=
  forall q, ti_req i = Some q ->
  let s := worked (ti_work i) (dp_iface p) in
  exists (name : string) (d : device), rq_cmd q = Some name /\ kget (i_devmap s) (target q) = Some d /\
    needs h (i_calls s) name (target q) d (params_of q).
(** Turns with requests about components, or without a request. *)
Definition about_components (i : turn_in) : Prop :=
  forall q, ti_req i = Some q -> exists name, rq_cmd q = Some name /\ In name component_requests.
