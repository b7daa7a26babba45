(** * SpecDie: vocabulary for requests that end a driver (C101) *)
From Coq Require Import List String ZArith Bool.
From Verif Require Import Base Types AttrModel IfaceModel SpecAttr SpecIface.
Import ListNotations.
Open Scope string_scope.
Open Scope Z_scope.

(** The two exceptions that a driver answers with a failure. *)
Definition soft (e : exn) : Prop := e = ValueError \/ e = AttributeError.
Definition softly {A : Type} (r : res A) : Prop := match r with Ok _ => True | Err e => soft e end.

(** Values that cannot be turned into the type of the attribute at all: an infinite number or
    a quantity with a dimension for a plain number, a list for a number, or a string or truth
    value for which the conversion to a quantity raises an unexpected error. *)
Definition infinite (f : pyfloat) : Prop := f = FPosInf \/ f = FNegInf.
Definition spoils (p : parser) (t : atype) (v : pyval) : Prop :=
  match t, v with
  | TInt, VFloat f => infinite f
  | TInt, VQty q => u_dim (q_unit q) <> 0 \/ infinite (q_mag q)
  | TFloat, VQty q => u_dim (q_unit q) <> 0
  | TInt, VList _ | TFloat, VList _ => True
  | TQty, VStr s => ~ softly (ps_qty p s)
  | TQty, VBool b => ~ softly (ps_bool p b)
  | _, _ => False
  end.

(** Bounds that can be compared with the values of the attribute: a string has none, unless
    they are quantities with a dimension (then comparing is a ValueError), and those of a
    quantity are plain or of its dimension. *)
Definition comparable (props : attr) (b : bound) : Prop :=
  match at_type props, b with
  | TStr, BNum _ => False
  | TStr, BQty r => u_dim (q_unit r) <> 0
  | TQty, BQty r => u_dim (q_unit r) = declared_dimension props
  | _, _ => True
  end.
Definition sound_declaration (p : parser) (props : attr) : Prop :=
  (at_type props = TQty -> at_units props <> None \/ softly (ps_none p)) /\
  (forall b, at_min props = Some b \/ at_max props = Some b -> comparable props b).

(** [v] can be given for [name] (it may be refused).  Lists for quantities are left out. *)
Definition harmless_value (p : parser) (attrs : dict attr) (name : string) (v : pyval) : Prop :=
  forall props, dget attrs name = Some props ->
    sound_declaration p props /\ ~ spoils p (at_type props) v /\
    (at_type props = TQty -> forall l, v <> VList l).
Definition harmless_task (p : parser) (attrs : dict attr) (t : task) : Prop :=
  forall l name v, t_params t = Some l -> In (name, v) l -> harmless_value p attrs name v.

(** The parameters of a request about a component are complete and harmless. *)
Definition params_of (q : dreq) : rparams := match rq_params q with Some p => p | None => no_params end.
Definition proper_params (h : hw) (name : string) (k : key) (p : rparams) : Prop :=
  (name = "cmp_set_attr" -> exists a v, rp_attr p = Some a /\ rp_val p = Some v /\
     harmless_value (h_parser h) (h_attrs h k) a v) /\
  (name = "cmp_get_attr" -> rp_attr p <> None) /\
  (name = "cmp_status" -> rp_attr p = None) /\
  (name = "cmp_teardown" -> rp_do_run p = None) /\
  (name = "task_start" \/ name = "task_validate" -> exists t, rp_task p = Some t /\
     harmless_task (h_parser h) (h_attrs h k) t).

(** A request of the kinds that tomato itself makes (other than stop), or one that makes no
    sense at all. *)
Definition proper_request (h : hw) (i : turn_in) (q : dreq) : Prop :=
  senseless h V21 q \/
  exists name, rq_cmd q = Some name /\
   ((In name component_requests /\ proper_params h name (target q) (params_of q)) \/
    (In name ["status"; "reset"; "quit"] /\ params_of q = no_params) \/
    name = "register" \/
    (name = "settings" /\ rq_params q <> None) \/
    (name = "cmp_register" /\ (exists p, rq_params q = Some p /\ rp_key p = None /\
       rp_address p <> None /\ rp_channel p <> None) /\
     exists a, ti_answer i = Some a /\ dr_data a <> RView)).
Definition proper_turn (h : hw) (i : turn_in) : Prop :=
  forall q, ti_req i = Some q -> proper_request h i q.

(** The code of the particular driver: creating a device works or fails with RuntimeError,
    capabilities can be read, reading and setting attributes at most raises one of the two
    exceptions above; measurements are those of the interface class. *)
Definition working (h : hw) : Prop :=
  plain_measure h /\
  (forall n k, h_make h n k = Ok tt \/ h_make h n k = Err RuntimeError) /\
  (forall n k, exists caps, h_caps h n k = Ok caps) /\
  (forall n k a v, softly (h_set h n k a v)) /\
  (forall n k a, softly (h_get h n k a)).

(** Exactly the turns with a request get a reply. *)
Definition answered (i : turn_in) (a : option dreply) : Prop := ti_req i <> None <-> a <> None.
