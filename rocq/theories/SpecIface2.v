(** * SpecIface2: vocabulary for failing requests and measurements (C71, C72, C96) *)
From Coq Require Import List String ZArith Bool.
From Verif Require Import Base Types AttrModel IfaceModel SpecIface.
Import ListNotations.
Open Scope string_scope.
Open Scope Z_scope.

Definition params (q : dreq) : rparams := match rq_params q with Some p => p | None => no_params end.

(** Requests about a component that lack an argument, or have one that is also supplied by
    the driver itself: getting or setting an attribute without its name, setting it without
    a value, starting or validating a task without task; asking for the status with an entry
    "attr", when some attribute is part of the status; tearing down with "do_run" (2.1). *)
Definition wrong_arguments (h : hw) (v : version) (q : dreq) : Prop :=
  (exists c, rq_cmd q = Some c /\ In c ["cmp_get_attr"; "cmp_set_attr"] /\ rp_attr (params q) = None) \/
  (rq_cmd q = Some "cmp_set_attr" /\ rp_val (params q) = None) \/
  (exists c, rq_cmd q = Some c /\ In c ["task_start"; "task_validate"] /\ rp_task (params q) = None) \/
  (rq_cmd q = Some "cmp_status" /\ rp_attr (params q) <> None /\
     exists n a, In (n, a) (h_attrs h (target q)) /\ at_status a = true) \/
  (v = V21 /\ rq_cmd q = Some "cmp_teardown" /\ rp_do_run (params q) <> None).

(** The attributes that are part of the status, with the values the hardware gives. *)
Definition status_of (attrs : dict attr) (value : string -> pyval) : dict pyval :=
  map (fun na => (fst na, value (fst na))) (filter (fun na => at_status (snd na)) attrs).

(** A round of idle measurements is due at [now]. *)
Definition due (s : iface) (last : option Z) (now : Z) : Prop :=
  exists d, (match i_imi s with Some x => x | None => i_class_imi s end) = Some d /\
    match last with Some t => d <= now - t | None => True end.
