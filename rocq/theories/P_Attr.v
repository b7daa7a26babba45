(** * P_Attr: properties C49 and C50 (values of device attributes, task validation) *)
From Coq Require Import List String ZArith QArith Bool Lia.
From Verif Require Import Base BaseFacts Types AttrModel SpecAttr AttrProofs AttrProofs2 AttrProofs3.
Import ListNotations.
Open Scope string_scope.
Open Scope Z_scope.

(** ** A component used in the examples: a voltage in volts between 0 and 10, a gain
    between 1 and 100, a mode with two options, and a read-only current. *)
Definition ex_volt : punit := mkUnit 1 1.
Definition ex_mvolt : punit := mkUnit 1 (1 # 1000).
Definition ex_amp : punit := mkUnit 2 1.
Definition ex_attrs : dict attr :=
  [("voltage", mkAttr TQty true true (Some ex_volt) (Some (BQty (mkQty (FFin 10) ex_volt)))
                 (Some (BQty (mkQty (FFin 0) ex_volt))) None);
   ("gain", mkAttr TFloat true false None (Some (BNum (FFin 100))) (Some (BNum (FFin 1))) None);
   ("count", mkAttr TInt true false None None None None);
   ("mode", mkAttr TStr true false None None None (Some [VStr "fast"; VStr "slow"]));
   ("range", mkAttr TQty true false (Some ex_volt) None None (Some [VFloat (FFin 1); VFloat (FFin 10)]));
   ("ratio", mkAttr TQty true false None None None None);
   ("current", mkAttr TQty false true (Some ex_amp) None None None)].
Definition ex_parser : parser :=
  mkParser (fun s => if String.eqb s "3" then Some 3 else None)
           (fun s => if String.eqb s "nan" then Some FNan else if String.eqb s "3" then Some (FFin 3) else None)
           (fun s => if String.eqb s "500 mV" then Ok (mkQty (FFin 500) ex_mvolt)
                     else if String.eqb s "3" then Ok (mkQty (FFin 3) dimless)
                     else if String.eqb s "1 bar" then Err AttributeError else Err ValueError)
           (fun _ => "...") (fun _ => Err TypeError) (Err TypeError).

(** ** C49 *)

(** Not every value that reaches an attribute is acceptable: nan is not between any
    two bounds, but passes both checks (decorators.py:104-107). *)
Theorem C49_refuted : exists p attrs name v w,
  coerce_val p attrs name v = Ok w /\ ~ acceptable attrs name w.
Proof.
  exists ex_parser, ex_attrs, "gain", (VStr "nan"), (VFloat FNan).
  split; [vm_compute; reflexivity|].
  intros (props & D & _ & _ & _ & _ & [R _] & _). vm_compute in D. injection D as <-.
  destruct (R _ eq_refl) as (x & S & F). cbn in S. injection S as <-. exact F.
Qed.
Print Assumptions C49_refuted.

(** A quantity given in another unit of the right dimension is not converted to the
    declared unit: an attribute declared in volts receives millivolts. *)
Theorem C49_unit_refuted : exists p attrs name v w props,
  coerce_val p attrs name v = Ok w /\ dget attrs name = Some props /\
  sane_bounds props /\ ~ not_a_number w /\ ~ right_unit props w.
Proof.
  exists ex_parser, ex_attrs, "voltage", (VStr "500 mV"), (VQty (mkQty (FFin 500) ex_mvolt)).
  eexists. split; [vm_compute; reflexivity|]. split; [vm_compute; reflexivity|].
  split; [split; intros b E; injection E as <-; discriminate|].
  split; [discriminate|].
  intros R. specialize (R _ _ eq_refl eq_refl). discriminate.
Qed.
Print Assumptions C49_unit_refuted.

(** The options are looked up before the unit is added: a plain number found among
    the options reaches the attribute as a quantity that is not one of them. *)
Theorem C49_options_refuted : exists p attrs name v w props,
  coerce_val p attrs name v = Ok w /\ dget attrs name = Some props /\
  ~ in_options props w.
Proof.
  exists ex_parser, ex_attrs, "range", (VInt 10), (VQty (mkQty (FFin 10) ex_volt)).
  eexists. split; [vm_compute; reflexivity|]. split; [vm_compute; reflexivity|].
  intros R. destruct (R _ eq_refl) as (o & I & S).
  destruct S as [(s & [=] & _)|(x & y & _ & _ & _ & D)].
  destruct I as [<-|[<-|[]]]; discriminate D.
Qed.
Print Assumptions C49_options_refuted.

(** What does hold for every declaration and every value: a value that reaches an
    attribute belongs to an attribute that exists and is writable, has its type and
    its dimension; it lies within the bounds unless it is nan (or a bound is), and it
    is one of the options unless these are given in another dimension than the unit. *)
Theorem C49_partial : forall p attrs name v w,
  coerce_val p attrs name v = Ok w ->
  exists props, dget attrs name = Some props /\ at_rw props = true /\
    has_type w (at_type props) /\ right_dimension props w /\
    (sane_bounds props -> ~ not_a_number w -> in_range props w) /\
    (sane_options props -> in_options props w).
Proof.
  intros p attrs name v w H. destruct (coerced_type _ _ _ _ _ H) as (props & D & RW & T & R).
  exists props. split; [exact D|]. split; [exact RW|]. split; [exact T|]. split; [exact R|]. split.
  - intros S N. exact (coerced_range _ _ _ _ _ _ H D S N).
  - intros S. exact (coerced_options _ _ _ _ _ _ H D S).
Qed.
Print Assumptions C49_partial.

(** A quantity without unit is taken to be in the declared unit. *)
Theorem C49_default_unit : forall p attrs name q w props u,
  coerce_val p attrs name (VQty q) = Ok w ->
  dget attrs name = Some props -> at_type props = TQty -> at_units props = Some u ->
  dimensionless q = true ->
  exists q', w = VQty q' /\ q_mag q' = q_mag q /\ (q_unit q' = u \/ u_dim u = 0).
Proof. exact coerced_unit. Qed.
Print Assumptions C49_default_unit.

(** The same for the values set at the start of a task: the driver's own set_attr
    only sees values that passed the checks. *)
Theorem C49_prepare : forall p attrs set l done e,
  prepare_params p attrs set l = (done, e) ->
  forall name w, In (name, w) done ->
    exists v, In (name, v) l /\ coerce_val p attrs name v = Ok w.
Proof. exact prepared_coerced. Qed.
Print Assumptions C49_prepare.

Example C49_ex_unit : coerce_val ex_parser ex_attrs "voltage" (VInt 3)
  = Ok (VQty (mkQty (FFin 3) ex_volt)).
Proof. vm_compute. reflexivity. Qed.
Example C49_ex_range : coerce_val ex_parser ex_attrs "voltage" (VInt 30) = Err ValueError.
Proof. vm_compute. reflexivity. Qed.
Example C49_ex_dim :
  coerce_val ex_parser ex_attrs "voltage" (VQty (mkQty (FFin 1) ex_amp)) = Err ValueError.
Proof. vm_compute. reflexivity. Qed.
Example C49_ex_readonly :
  coerce_val ex_parser ex_attrs "current" (VQty (mkQty (FFin 1) ex_amp)) = Err AttributeError.
Proof. vm_compute. reflexivity. Qed.
Example C49_ex_option : coerce_val ex_parser ex_attrs "mode" (VStr "medium") = Err ValueError /\
  coerce_val ex_parser ex_attrs "mode" (VStr "slow") = Ok (VStr "slow").
Proof. split; vm_compute; reflexivity. Qed.
Example C49_ex_coerce : coerce_val ex_parser ex_attrs "count" (VStr "3") = Ok (VInt 3) /\
  coerce_val ex_parser ex_attrs "count" (VFloat (FFin (-17 # 10))) = Ok (VInt (-1)).
Proof. split; vm_compute; reflexivity. Qed.
(** The partial theorem is not vacuous for a bounded attribute. *)
Example C49_ex_inrange : exists props,
  dget ex_attrs "gain" = Some props /\ in_range props (VFloat (FFin 3)).
Proof.
  destruct (C49_partial ex_parser ex_attrs "gain" (VStr "3") (VFloat (FFin 3)) eq_refl)
    as (props & D & _ & _ & _ & R & _).
  exists props. split; [exact D|]. vm_compute in D. injection D as <-. apply R; [|discriminate].
  split; intros b E; injection E as <-; discriminate.
Qed.

(** ** C50 *)

(** A task that passes validation names a capability of the component, and every one
    of its parameters is accepted by [coerce_val] for the same attributes. *)
Theorem C50 : forall p caps attrs t,
  task_validate p caps attrs t = Ok true ->
  In (t_technique t) caps /\
  forall l name v, t_params t = Some l -> In (name, v) l ->
    exists w, coerce_val p attrs name v = Ok w.
Proof. exact validated_task. Qed.
Print Assumptions C50.

(** Hence the worker thread's [prepare_task] sets all of them, in order, unless the
    driver's own code raises. *)
Theorem C50_prepare : forall p caps attrs t set,
  task_validate p caps attrs t = Ok true ->
  (forall name v, set name v = Ok tt) ->
  exists done, prepare_task p attrs set t = (done, None) /\
    map fst done = match t_params t with Some l => map fst l | None => [] end.
Proof. exact validated_prepare. Qed.
Print Assumptions C50_prepare.

(** Validation is exact: a task passes if and only if its technique is among the capabilities
    and all its parameters are taken. *)
Theorem C50_iff : forall p caps attrs t,
  task_validate p caps attrs t = Ok true <-> In (t_technique t) caps /\ Forall (takes p attrs) (params t).
Proof.
  intros p caps attrs t. unfold task_validate, params. destruct (mem (t_technique t) caps) eqn:M; cbn [negb].
  - apply mem_In in M. destruct (t_params t) as [l|]; [|split; auto].
    pose proof (params_agree p attrs l) as A. destruct (validate_params p attrs l) as [[|]|e].
    + split; [intros _; split; [exact M|exact A]|reflexivity].
    + split; [discriminate|]. intros [_ F]. exfalso. destruct A as (l1 & n & x & l2 & -> & _ & C).
      rewrite Forall_app in F. destruct F as [_ F]. inversion F as [|y z [w W] _]. subst. cbn in W.
      destruct C; congruence.
    + split; [discriminate|]. intros [_ F]. exfalso. destruct A as (l1 & n & x & l2 & -> & _ & C).
      rewrite Forall_app in F. destruct F as [_ F]. inversion F as [|y z [w W] _]. subst. cbn in W. congruence.
  - split; [discriminate|]. intros [I _]. apply mem_In in I. congruence.
Qed.
Print Assumptions C50_iff.

(** A task is refused because of its technique, or because of its first parameter that is not
    taken, for which [set_attr] would raise ValueError or AttributeError.  If validation
    raises, this parameter raises the same exception. *)
Theorem C50_refused : forall p caps attrs t,
  match task_validate p caps attrs t with
  | Ok true => True
  | r => (r = Ok false /\ ~ In (t_technique t) caps) \/
      exists l1 name v l2, params t = (l1 ++ (name, v) :: l2)%list /\ Forall (takes p attrs) l1 /\
      match r with
      | Err e => coerce_val p attrs name v = Err e
      | _ => coerce_val p attrs name v = Err ValueError \/ coerce_val p attrs name v = Err AttributeError
      end
  end.
Proof.
  intros p caps attrs t. unfold task_validate, params. destruct (mem (t_technique t) caps) eqn:M; cbn [negb].
  - destruct (t_params t) as [l|]; [|exact I].
    pose proof (params_agree p attrs l) as A. destruct (validate_params p attrs l) as [[|]|e]; [exact I|right; exact A|right; exact A].
  - left. split; [reflexivity|]. intros I. apply mem_In in I. congruence.
Qed.
Print Assumptions C50_refused.

(** What [prepare_task] passes to the driver's [set_attr]: all parameters, converted, in their
    order, up to the first for which it raises; this one is passed on unless the conversion
    raises. *)
Theorem C50_prepare_exact : forall p attrs set t,
  match prepare_task p attrs set t with
  | (done, None) => Forall2 (was_set p attrs set) (params t) done
  | (done, Some e) => exists l1 name v l2 d1, params t = (l1 ++ (name, v) :: l2)%list /\
      Forall2 (was_set p attrs set) l1 d1 /\
      ((coerce_val p attrs name v = Err e /\ done = d1) \/
       (exists w, coerce_val p attrs name v = Ok w /\ set name w = Err e /\ done = (d1 ++ [(name, w)])%list))
  end.
Proof.
  intros p attrs set t. unfold prepare_task, params. destruct (t_params t) as [l|]; [|constructor].
  exact (prepare_exact p attrs set l).
Qed.
Print Assumptions C50_prepare_exact.

Definition ex_task (tech : string) (l : dict pyval) : task :=
  mkTask "pot" tech (Some l) None None None 1 10.

Example C50_ex :
  task_validate ex_parser ["measure"; "hold"] ex_attrs
    (ex_task "hold" [("voltage", VStr "500 mV"); ("mode", VStr "fast")]) = Ok true /\
  prepare_task ex_parser ex_attrs (fun _ _ => Ok tt)
    (ex_task "hold" [("voltage", VStr "500 mV"); ("mode", VStr "fast")])
  = ([("voltage", VQty (mkQty (FFin 500) ex_mvolt)); ("mode", VStr "fast")], None).
Proof. split; vm_compute; reflexivity. Qed.
Example C50_ex_bad :
  task_validate ex_parser ["measure"; "hold"] ex_attrs (ex_task "sweep" []) = Ok false /\
  task_validate ex_parser ["hold"] ex_attrs (ex_task "hold" [("voltage", VStr "1 bar")]) = Ok false /\
  task_validate ex_parser ["hold"] ex_attrs (ex_task "hold" [("mode", VStr "fast"); ("gain", VInt 0)]) = Ok false.
Proof. repeat split; vm_compute; reflexivity. Qed.
(** The exceptions are those of Python. *)
Definition ex_odd : dict attr :=
  [("text", mkAttr TStr true false None (Some (BNum (FFin 1))) None None);
   ("tension", mkAttr TFloat true false None None (Some (BQty (mkQty (FFin 1) ex_volt))) None);
   ("label", mkAttr TStr true false None None (Some (BQty (mkQty (FFin 1) ex_volt))) None);
   ("tag", mkAttr TStr true false None None (Some (BQty (mkQty (FFin 1) dimless))) None)].
Example C50_ex_exceptions :
  coerce_val ex_parser ex_attrs "mode" VNone = Err ValueError /\
  coerce_val ex_parser ex_attrs "count" (VStr "x") = Err ValueError /\
  coerce_val ex_parser ex_attrs "gain" (VStr "x") = Err ValueError /\
  coerce_val ex_parser ex_attrs "gain" (VList []) = Err TypeError /\
  coerce_val ex_parser ex_attrs "count" (VList []) = Err TypeError /\
  coerce_val ex_parser ex_attrs "voltage" (VList []) = Err TypeError /\
  coerce_val ex_parser ex_attrs "count" (VQty (mkQty (FFin 1) ex_volt)) = Err DimensionalityError /\
  coerce_val ex_parser ex_odd "text" (VStr "x") = Err TypeError /\
  coerce_val ex_parser ex_odd "tension" (VFloat (FFin 3)) = Err ValueError /\
  coerce_val ex_parser ex_odd "label" (VStr "x") = Err ValueError /\
  coerce_val ex_parser ex_odd "tag" (VStr "x") = Err TypeError.
Proof. repeat split; vm_compute; reflexivity. Qed.
Example C50_ex_prepare :
  prepare_task ex_parser ex_attrs (fun n _ => if String.eqb n "mode" then Err RuntimeError else Ok tt)
    (ex_task "hold" [("count", VStr "3"); ("mode", VStr "fast"); ("gain", VInt 2)]) =
    ([("count", VInt 3); ("mode", VStr "fast")], Some RuntimeError) /\
  prepare_task ex_parser ex_attrs (fun n _ => Ok tt)
    (ex_task "hold" [("count", VStr "3"); ("mode", VStr "medium"); ("gain", VInt 2)]) =
    ([("count", VInt 3)], Some ValueError) /\
  task_validate ex_parser ["hold"] ex_attrs (ex_task "hold" [("mode", VStr "medium")]) = Ok false.
Proof. repeat split; vm_compute; reflexivity. Qed.
(** Validation itself can raise, which ends the driver process ([log_errors]): an
    infinite value for an integer attribute. *)
Example C50_ex_raises :
  task_validate ex_parser ["hold"] ex_attrs (ex_task "hold" [("count", VFloat FPosInf)]) = Err OverflowError.
Proof. vm_compute. reflexivity. Qed.
(** A quantity declared without units: [pint.Quantity(None)] raises TypeError, whatever value is
    given, which also ends the driver. *)
Example C50_ex_no_units :
  task_validate ex_parser ["hold"] ex_attrs (ex_task "hold" [("ratio", VFloat (FFin 1))]) = Err TypeError /\
  coerce_val ex_parser ex_attrs "ratio" (VFloat (FFin 1)) = Err TypeError.
Proof. split; vm_compute; reflexivity. Qed.

(** ** C95: acceptable values are accepted *)

(** A value that is acceptable (SpecAttr) is passed on unchanged, if the bounds are given
    in the dimension of the attribute and quantities are declared with a unit. *)
Theorem C95_partial : forall p attrs name w props,
  acceptable attrs name w -> dget attrs name = Some props ->
  matching_bounds props -> has_units props ->
  coerce_val p attrs name w = Ok w.
Proof. exact coerce_accepts. Qed.
Print Assumptions C95_partial.

(** An attribute with unit and a plain number (not 0) as a bound accepts nothing at all. *)
Theorem C95_plain_bound : forall p attrs name v w props u b,
  dget attrs name = Some props -> at_type props = TQty ->
  at_units props = Some u -> u_dim u <> 0 ->
  at_min props = Some b \/ at_max props = Some b -> plain_nonzero b ->
  coerce_val p attrs name v <> Ok w.
Proof. exact coerce_plain. Qed.
Print Assumptions C95_plain_bound.

(** Validation accepts exactly the tasks whose technique is a capability and whose
    parameters would all be accepted by the attributes. *)
Theorem C95_validate : forall p caps attrs t,
  task_validate p caps attrs t = Ok true <->
  In (t_technique t) caps /\
  forall l name v, t_params t = Some l -> In (name, v) l -> exists w, coerce_val p attrs name v = Ok w.
Proof. exact validate_iff. Qed.
Print Assumptions C95_validate.

(** A voltage of at most 10 (a plain number; [Attr] allows it): 5 V is refused, and
    validating a task with it raises, which ends the driver. *)
Definition ex_plain : dict attr :=
  [("voltage", mkAttr TQty true true (Some ex_volt) (Some (BNum (FFin 10))) None None)].
Theorem C95_refuted : exists p caps attrs name w t,
  acceptable attrs name w /\ coerce_val p attrs name w = Err ValueError /\
  t_params t = Some [(name, w)] /\ In (t_technique t) caps /\ task_validate p caps attrs t = Err ValueError.
Proof.
  exists ex_parser, ["hold"], ex_plain, "voltage", (VQty (mkQty (FFin 5) ex_volt)),
    (ex_task "hold" [("voltage", VQty (mkQty (FFin 5) ex_volt))]).
  split; [|split; [vm_compute; reflexivity|]; split; [reflexivity|]; split; [left; reflexivity|vm_compute; reflexivity]].
  eexists. split; [vm_compute; reflexivity|]. split; [reflexivity|].
  split; [eexists; reflexivity|]. split; [intros q E; injection E as <-; reflexivity|].
  split; [intros q u E U; injection E as <-; injection U as <-; reflexivity|].
  split; [split; intros b B; cbn in B; [discriminate|injection B as <-]|intros l L; discriminate].
  eexists. split; [reflexivity|]. cbn. discriminate.
Qed.
Print Assumptions C95_refuted.

(** 5 V, with bounds in volts, is accepted; so is an infinite float that equals its bound. *)
Example C95_ex1 : coerce_val ex_parser ex_attrs "voltage" (VQty (mkQty (FFin 5) ex_volt))
  = Ok (VQty (mkQty (FFin 5) ex_volt)).
Proof.
  apply C95_partial with (props := mkAttr TQty true true (Some ex_volt) (Some (BQty (mkQty (FFin 10) ex_volt)))
                 (Some (BQty (mkQty (FFin 0) ex_volt))) None); [|reflexivity| |discriminate].
  - eexists. split; [vm_compute; reflexivity|]. split; [reflexivity|].
    split; [eexists; reflexivity|]. split; [intros q E; injection E as <-; reflexivity|].
    split; [intros q u E U; injection E as <-; injection U as <-; reflexivity|].
    split; [split; intros b B; cbn in B; injection B as <-|intros l L; discriminate];
      (eexists; split; [reflexivity|]; cbn; discriminate).
  - intros b [B|B]; injection B as <-; reflexivity.
Qed.
Example C95_ex2 : coerce_val ex_parser [("x", mkAttr TFloat true false None (Some (BNum FPosInf)) None (Some [VFloat FPosInf]))]
  "x" (VFloat FPosInf) = Ok (VFloat FPosInf).
Proof. vm_compute. reflexivity. Qed.
