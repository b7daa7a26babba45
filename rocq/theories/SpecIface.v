(** * SpecIface: vocabulary for the properties of the driver process (C48, C51, C71, C72) *)
From Coq Require Import List String ZArith Bool.
From Verif Require Import Base Types AttrModel IfaceModel.
Import ListNotations.
Open Scope string_scope.
Open Scope Z_scope.

(** The component a request is about. *)
Definition target (q : dreq) : key :=
  match rq_params q with
  | None => (None, None)
  | Some p => match rp_key p with Some k => k | None => (rp_address p, rp_channel p) end
  end.

(** The component is registered with the driver. *)
Definition registered (s : iface) (k : key) : Prop := exists d, In (k, d) (i_devmap s).

(** Number of automatic registration attempts of [k] since its last successful
    registration, newest event last. *)
Fixpoint attempts_rev (k : key) (l : list event) : nat :=
  match l with
  | [] => 0
  | EvRegister true k' :: r => if key_eqb k k' then S (attempts_rev k r) else attempts_rev k r
  | EvRegistered k' :: r => if key_eqb k k' then 0%nat else attempts_rev k r
  | _ :: r => attempts_rev k r
  end.
Definition attempts (k : key) (s : iface) : nat := attempts_rev k (rev (i_log s)).

(** The clock readings at which rounds of idle measurements were started. *)
Definition rounds (s : iface) : list Z :=
  flat_map (fun e => match e with EvRound t => [t] | _ => [] end) (i_log s).

(** Each of [l] is at least [d] after the one before. *)
Fixpoint spaced (d : Z) (l : list Z) : Prop :=
  match l with
  | a :: (b :: _) as r => d <= b - a /\ spaced d r
  | _ => True
  end.

(** A request with the given command. *)
Definition asks (c : string) (i : turn_in) : Prop :=
  exists q, ti_req i = Some q /\ rq_cmd q = Some c.

(** The driver uses the [cmp_measure] of the interface class. *)
Definition plain_measure (h : hw) : Prop := forall n k, h_measure h n k = None.

(** A request that the driver cannot serve: no command, or an unknown one. *)
Definition senseless (h : hw) (v : version) (q : dreq) : Prop :=
  rq_cmd q = None \/
  exists c, rq_cmd q = Some c /\ has_attribute h v c = false /\
    ~ In c ["register"; "stop"; "settings"; "cmp_register"].

(** Serving the request means calling a method of the interface, and this raises
    ValueError or AttributeError. *)
Definition raises_value_error (h : hw) (s : iface) (q : dreq) : Prop :=
  exists c p s' e, rq_cmd q = Some c /\ has_attribute h (i_ver s) c = true /\
    ~ In c ["register"; "stop"; "settings"; "cmp_register"] /\
    p = (match rq_params q with Some p => p | None => no_params end) /\
    call_attribute h c p s = (s', Err e) /\ (e = ValueError \/ e = AttributeError).

(** No component is listed twice. *)
Definition unique_keys (s : iface) : Prop := NoDup (map fst (i_devmap s)).

(** Only the component [k] is different. *)
Definition others_same (k : key) (s s' : iface) : Prop :=
  forall k', k' <> k -> kget (i_devmap s') k' = kget (i_devmap s) k'.

(** Every value that was passed to an attribute came from [coerce_val]. *)
Definition only_coerced (h : hw) (s : iface) : Prop :=
  forall k name w, In (EvSet k name w) (i_log s) ->
    exists v, coerce_val (h_parser h) (h_attrs h k) name v = Ok w.

(** A task without None among its parameters, none of which has a list of options. *)
Definition ordinary (attrs : dict attr) (t : task) : Prop :=
  forall l name v, t_params t = Some l -> In (name, v) l ->
    v <> VNone /\ forall a, dget attrs name = Some a -> at_options a = None.

(** The component with one more task at the end of its queue. *)
Definition with_task (t : task) (d : device) : device :=
  mkDev (v_serial d) (v_running d) (v_tasks d ++ [ITask t]) (v_data d) (v_last d) (v_run d) (v_run_task d).

(** A request to start a task [t] on a component. *)
Definition asks_start (q : dreq) (t : task) : Prop :=
  exists p, rq_cmd q = Some "task_start" /\ rq_params q = Some p /\ rp_task p = Some t.
(** A request to tear a component down, without further arguments for [reset]. *)
Definition asks_teardown (q : dreq) : Prop :=
  exists p, rq_cmd q = Some "cmp_teardown" /\ rq_params q = Some p /\ rp_do_run p = None.

(** ** What component requests do (C96) *)

(** The requests about one component. *)
Definition component_requests : list string :=
  ["cmp_teardown"; "cmp_reset"; "cmp_set_attr"; "cmp_get_attr"; "cmp_status"; "cmp_capabilities";
   "cmp_attrs"; "cmp_constants"; "cmp_last_data"; "cmp_measure";
   "task_start"; "task_status"; "task_stop"; "task_data"; "task_validate"].
(** Those that only ask. *)
Definition questions : list string :=
  ["cmp_get_attr"; "cmp_status"; "cmp_capabilities"; "cmp_attrs"; "cmp_constants"; "cmp_last_data";
   "task_status"; "task_validate"; "status"].

(** The component after its data has been fetched; the same with the flag of the thread. *)
Definition without_data (d : device) : device :=
  mkDev (v_serial d) (v_running d) (v_tasks d) [] (v_last d) (v_run d) (v_run_task d).
Definition flagged (b : bool) (d : device) : device :=
  mkDev (v_serial d) (v_running d) (v_tasks d) (v_data d) (v_last d) (v_run d) b.
(** Points, if there are any. *)
Definition points (l : list Z) : rdata := match l with [] => RNone | _ => RPoints l end.
Definition any {A : Type} (l : list A) : bool := match l with [] => false | _ => true end.

(** The answer to requests that involve no code of the particular driver, and what becomes
    of the component: [expected v attrs name p d = Some (d', reply)]. *)
Definition expected (v : version) (attrs : dict attr) (name : string) (p : rparams) (d : device)
    : option (device * dreply) :=
  let is := String.eqb name in
  if is "task_status" then
    Some (d, mkReply true (RTaskStatus (is_some (v_running d))
                             (match v with V21 => true | V20 => negb (is_some (v_running d)) end)))
  else if is "task_data" then Some (without_data d, mkReply (any (v_data d)) (points (v_data d)))
  else if is "task_stop" then
    Some (flagged (match v with V21 => false | V20 => true end) (without_data d), mkReply true (points (v_data d)))
  else if is "cmp_reset" then
    Some (mkDev (v_serial d) None [] [] (v_last d)
                (match v, rp_do_run p with V21, Some b => b | _, _ => true end) false, mkReply true RNone)
  else if is "cmp_attrs" then Some (d, mkReply true (RAttrs attrs))
  else if is "cmp_constants" then Some (d, mkReply true ROther)
  else if is "cmp_last_data" then
    Some (d, match v_last d with Some x => mkReply true (RPoints [x]) | None => mkReply false RNone end)
  else None.

(** A component after the driver as a whole has been reset: idle, without waiting tasks and
    without data; in 2.1 its thread is told to end, in 2.0 the thread waits to be started. *)
Definition at_rest (v : version) (d : device) : device :=
  mkDev (v_serial d) None [] [] (v_last d) (match v with V21 => false | V20 => true end) false.
(** The request comes without arguments. *)
Definition bare (q : dreq) : Prop := rq_params q = None \/ rq_params q = Some no_params.

(** Requests about the driver itself that it cannot survive: an argument too few or too many,
    the name of something that is no function, or a result that cannot be sent. *)
Definition plain_names (v : version) : list string :=
  ["version"; "idle_measurement_interval"; "devmap"; "constants"]
  ++ match v with V21 => ["retries"] | V20 => [] end.
Definition fatal_request (h : hw) (v : version) (q : dreq) : Prop :=
  ((rq_cmd q = Some "settings" \/ rq_cmd q = Some "cmp_register") /\ rq_params q = None) \/
  ((rq_cmd q = Some "status" \/ rq_cmd q = Some "quit" \/ rq_cmd q = Some "reset") /\ ~ bare q) \/
  (rq_cmd q = Some "DeviceFactory" /\
     match rq_params q with
     | Some p => match rp_key p with Some k => forall n, h_make h n k = Ok tt | None => True end
     | None => True
     end) \/
  (exists c, rq_cmd q = Some c /\ In c (plain_names v) /\ h_other h c = None).
