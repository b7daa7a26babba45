(** * AttrModel: attribute declarations, value coercion and task validation

    Models driverinterface_2_1/__init__.py:26-48 ([Attr]) and 363-413
    ([task_validate]), its 2.0 version (driverinterface_2_0/__init__.py:417-459), driverinterface_2_1/decorators.py:73-111 ([coerce_val]) and
    ModelDevice.prepare_task (572-579).  Definitions only.

    Simplifications:
    - [Attr.type] is one of the four types of [Val] (types.py:6);
    - units are what Types.v makes of them: a dimension and a positive factor;
      an unknown unit name in a declaration is not modelled (it would be a defect
      of the driver);
    - converting a string to a number or a quantity, and any value to a string,
      is an oracle [parser]: Python's and pint's grammars are not modelled;
    - a value that is neither a scalar nor a string ([VList]) raises TypeError when
      converted to a number or a quantity. *)
From Coq Require Import List String ZArith QArith Bool.
From Verif Require Import Base Types.
Import ListNotations.
Open Scope Z_scope.

(** ** Attribute declarations *)

(** [Attr.type] (driverinterface_2_1/__init__.py:29). *)
Inductive atype : Type := TStr | TInt | TFloat | TQty.

(** [Attr.minimum], [Attr.maximum] (38-42): a float or a quantity. *)
Inductive bound : Type := BNum (f : pyfloat) | BQty (q : quantity).

(** [Attr] (26-48); [status] only matters for reports. *)
Record attr : Type := mkAttr {
  at_type : atype;
  at_rw : bool;
  at_status : bool;
  at_units : option punit;
  at_max : option bound;
  at_min : option bound;
  at_options : option (list pyval)
}.

(** The conversions from and to strings that Python and pint perform.
    [ps_int s = None] and [ps_float s = None] mean ValueError.  [ps_qty] may also
    raise UndefinedUnitError (an AttributeError) or another error.  [ps_bool b] is
    [pint.Quantity(b)], [ps_none] tells whether [pint.Quantity(None)] raises (both raise
    TypeError in current versions of pint). *)
Record parser : Type := mkParser {
  ps_int : string -> option Z;
  ps_float : string -> option pyfloat;
  ps_qty : string -> res quantity;
  ps_str : pyval -> string;
  ps_bool : bool -> res quantity;
  ps_none : res unit
}.

(** ** Arithmetic on floats and quantities *)

(** [a < b] on floats: every comparison with nan is false. *)
Definition flt (a b : pyfloat) : bool :=
  match a, b with
  | FNan, _ | _, FNan => false
  | FNegInf, FNegInf => false
  | FNegInf, _ => true
  | _, FNegInf => false
  | FPosInf, _ => false
  | FFin _, FPosInf => true
  | FFin x, FFin y => negb (Qle_bool y x)
  end.

(** [a == b] on floats. *)
Definition feqb (a b : pyfloat) : bool :=
  match a, b with
  | FPosInf, FPosInf | FNegInf, FNegInf => true
  | FFin x, FFin y => Qeq_bool x y
  | _, _ => false
  end.

(** Magnitude in base units ([to_root_units().magnitude]): the factor is positive. *)
Definition fscale (f : pyfloat) (k : Q) : pyfloat :=
  match f with FFin x => FFin (x * k)%Q | _ => f end.
Definition q_base (q : quantity) : pyfloat := fscale (q_mag q) (u_scale (q_unit q)).

(** [q.dimensionless] *)
Definition dimensionless (q : quantity) : bool := u_dim (q_unit q) =? 0.

(** [pint.Quantity(props.units).dimensionality] (decorators.py:102, __init__.py:404): without
    declared units this is [pint.Quantity(None)], which is dimensionless if it does not raise. *)
Definition units_dim (p : parser) (u : option punit) : res Z :=
  match u with Some p => Ok (u_dim p) | None => rbind (ps_none p) (fun _ => Ok 0) end.

(** The number behind a Python bool, int or float. *)
Definition as_num (v : pyval) : option pyfloat :=
  match v with
  | VBool b => Some (FFin (inject_Z (if b then 1 else 0)))
  | VInt z => Some (FFin (inject_Z z))
  | VFloat f => Some f
  | _ => None
  end.

(** pint compares a quantity that is not dimensionless with a plain number only if
    the number is zero or nan. *)
Definition zero_or_nan (f : pyfloat) : bool :=
  match f with FNan => true | FFin x => Qeq_bool x 0 | _ => false end.

(** The two magnitudes compared by [val < bound] and [val > bound]
    (decorators.py:104-107), or the exception raised by the comparison: TypeError
    for a string with a number, ValueError for a quantity with a unit and a plain
    value, DimensionalityError for two quantities of different dimensions. *)
Definition operands (v : pyval) (b : bound) : res (pyfloat * pyfloat) :=
  match v, b with
  | VQty q, BQty r =>
      if u_dim (q_unit q) =? u_dim (q_unit r) then Ok (q_base q, q_base r)
      else Err DimensionalityError
  | VQty q, BNum f =>
      if dimensionless q || zero_or_nan f then Ok (q_base q, f) else Err ValueError
  | _, BQty r =>
      match as_num v with
      | Some f => if dimensionless r || zero_or_nan f then Ok (f, q_base r) else Err ValueError
      | None => if dimensionless r then Err TypeError else Err ValueError
      end
  | _, BNum f =>
      match as_num v with
      | Some g => Ok (g, f)
      | None => Err TypeError
      end
  end.

(** [val < b] *)
Definition py_lt (v : pyval) (b : bound) : res bool :=
  match operands v b with Ok (x, y) => Ok (flt x y) | Err e => Err e end.
(** [val > b] *)
Definition py_gt (v : pyval) (b : bound) : res bool :=
  match operands v b with Ok (x, y) => Ok (flt y x) | Err e => Err e end.

(** [v == w], used by [val in props.options] (decorators.py:96).  Quantities are
    equal when they have the same dimension and the same magnitude in base units;
    a dimensionless quantity can equal a plain number.  nan equals nothing. *)
Definition py_eqb (v w : pyval) : bool :=
  match v, w with
  | VNone, VNone => true
  | VStr s, VStr t => String.eqb s t
  | VQty q, VQty r => (u_dim (q_unit q) =? u_dim (q_unit r)) && feqb (q_base q) (q_base r)
  | VQty q, _ =>
      match as_num w with Some f => dimensionless q && feqb (q_base q) f | None => false end
  | _, VQty r =>
      match as_num v with Some f => dimensionless r && feqb f (q_base r) | None => false end
  | VList l, VList m => (List.length l =? List.length m)%nat && forallb (fun p => fst p =? snd p) (combine l m)
  | _, _ =>
      match as_num v, as_num w with Some f, Some g => feqb f g | _, _ => false end
  end.

(** [val in options]: membership in a set hashes [val], which fails for a list. *)
Definition py_in (v : pyval) (l : list pyval) : res bool :=
  match v with
  | VList _ => Err TypeError
  | _ => Ok (existsb (py_eqb v) l)
  end.

(** ** Types *)

(** [isinstance(val, props.type)] (decorators.py:93): [bool] is a subclass of [int]. *)
Definition isinstance (v : pyval) (t : atype) : bool :=
  match t, v with
  | TStr, VStr _ | TInt, VInt _ | TInt, VBool _ | TFloat, VFloat _ | TQty, VQty _ => true
  | _, _ => false
  end.

(** Truncation towards zero, [int(1.7) = 1]. *)
Definition truncQ (x : Q) : Z := Z.quot (Qnum x) (Zpos (Qden x)).

(** [int(f)] for a float: ValueError for nan, OverflowError for infinities. *)
Definition int_of_float (f : pyfloat) : res Z :=
  match f with
  | FNan => Err ValueError
  | FPosInf | FNegInf => Err OverflowError
  | FFin x => Ok (truncQ x)
  end.

Definition dimless : punit := mkUnit 0 1.

(** [props.type(val)] (decorators.py:95, __init__.py:393). *)
Definition convert (p : parser) (t : atype) (v : pyval) : res pyval :=
  match t with
  | TStr => Ok (VStr (ps_str p v))
  | TInt =>
      match v with
      | VStr s => match ps_int p s with Some z => Ok (VInt z) | None => Err ValueError end
      | VQty q => if dimensionless q
                  then rbind (int_of_float (q_base q)) (fun z => Ok (VInt z))
                  else Err DimensionalityError
      | _ => match as_num v with
             | Some f => rbind (int_of_float f) (fun z => Ok (VInt z))
             | None => Err TypeError
             end
      end
  | TFloat =>
      match v with
      | VStr s => match ps_float p s with Some f => Ok (VFloat f) | None => Err ValueError end
      | VQty q => if dimensionless q then Ok (VFloat (q_base q)) else Err DimensionalityError
      | _ => match as_num v with Some f => Ok (VFloat f) | None => Err TypeError end
      end
  | TQty =>
      match v with
      | VStr s => match ps_qty p s with Ok q => Ok (VQty q) | Err e => Err e end
      | VQty q => Ok (VQty q)
      | VBool b => rbind (ps_bool p b) (fun q => Ok (VQty q))
      | _ => match as_num v with Some f => Ok (VQty (mkQty f dimless)) | None => Err TypeError end
      end
  end.

(** ** coerce_val (decorators.py:73-111)
    The value that reaches the decorated [set_attr], or the exception raised. *)
Definition coerce_val (p : parser) (attrs : dict attr) (name : string) (v : pyval) : res pyval :=
  match v with
  | VNone => Err ValueError                                                 (* 85-86 *)
  | _ =>
    match dget attrs name with
    | None => Err AttributeError                                            (* 87-88 *)
    | Some props =>                                                         (* 89 *)
      if negb (at_rw props) then Err AttributeError                         (* 90-91 *)
      else
      rbind (if isinstance v (at_type props) then Ok v
             else convert p (at_type props) v) (fun v =>                    (* 93-95 *)
      rbind (match at_options props with
             | None => Ok tt
             | Some l => rbind (py_in v l) (fun b => if b then Ok tt else Err ValueError)
             end) (fun _ =>                                                 (* 96-97 *)
      rbind (match v with
             | VQty q =>
               let q := match at_units props with
                        | Some u => if dimensionless q then mkQty (q_mag q) u else q
                        | None => q
                        end in                                              (* 100-101 *)
               rbind (units_dim p (at_units props)) (fun d =>
               if u_dim (q_unit q) =? d then Ok (VQty q)
               else Err ValueError)                                         (* 102-103 *)
             | _ => Ok v
             end) (fun v =>                                                 (* 99-103 *)
      rbind (match at_min props with
             | None => Ok tt
             | Some b => rbind (py_lt v b) (fun c => if c then Err ValueError else Ok tt)
             end) (fun _ =>                                                 (* 104-105 *)
      rbind (match at_max props with
             | None => Ok tt
             | Some b => rbind (py_gt v b) (fun c => if c then Err ValueError else Ok tt)
             end) (fun _ => Ok v)))))                                       (* 106-109 *)
    end
  end.

(** ** task_validate (__init__.py:363-413)
    The [success] entry of the reply, or the exception raised.  The messages are
    not modelled. *)

(** The part of [task_validate] that looks at one parameter (380-412): [true] when
    the loop goes on, [false] when it returns a failure. *)
Definition validate_param (p : parser) (attrs : dict attr) (name : string) (v : pyval) : res bool :=
  match v with
  | VNone => Ok false                                                       (* 380-382 *)
  | _ =>
    match dget attrs name with
    | None => Ok false                                                      (* 383-385 *)
    | Some props =>
      if negb (at_rw props) then Ok false                                   (* 387-389 *)
      else
      match (if isinstance v (at_type props) then Ok v else convert p (at_type props) v) with
      | Err ValueError | Err AttributeError => Ok false                     (* 391-396 *)
      | Err e => Err e
      | Ok v =>
        match (match at_options props with None => Ok true | Some l => py_in v l end) with
        | Err e => Err e
        | Ok false => Ok false                                              (* 397-399 *)
        | Ok true =>
          match (match v with
                 | VQty q =>
                     let q := match at_units props with
                              | Some u => if dimensionless q then mkQty (q_mag q) u else q
                              | None => q
                              end in
                     rbind (units_dim p (at_units props)) (fun d =>
                     if u_dim (q_unit q) =? d then Ok (Some (VQty q)) else Ok None)
                 | _ => Ok (Some v)
                 end) with                                                  (* 401-406 *)
          | Err e => Err e
          | Ok None => Ok false
          | Ok (Some v) =>
            match (match at_min props with None => Ok false | Some b => py_lt v b end) with
            | Err e => Err e
            | Ok true => Ok false                                           (* 407-409 *)
            | Ok false =>
              match (match at_max props with None => Ok false | Some b => py_gt v b end) with
              | Err e => Err e
              | Ok true => Ok false                                         (* 410-412 *)
              | Ok false => Ok true
              end
            end
          end
        end
      end
    end
  end.

(** The loop over [task_params.items()] (379-412). *)
Fixpoint validate_params (p : parser) (attrs : dict attr) (l : dict pyval) : res bool :=
  match l with
  | [] => Ok true
  | (name, v) :: r =>
      match validate_param p attrs name v with
      | Ok true => validate_params p attrs r
      | other => other
      end
  end.

(** [task_validate] (363-413) of a component with capabilities [caps] and attributes
    [attrs]. *)
Definition task_validate (p : parser) (caps : list string) (attrs : dict attr) (t : task) : res bool :=
  if negb (mem (t_technique t) caps) then Ok false                          (* 373-375 *)
  else match t_params t with
       | None => Ok true                                                    (* 377-378 *)
       | Some l => validate_params p attrs l
       end.

(** ** task_validate of the 2.0 interface (driverinterface_2_0/__init__.py:417-459)
    It has no check for None (a value None goes to the type's constructor, for [str] the
    string "None") and its [Attr] (89-109) has no options: [at_options] is not read. *)
Definition validate_param20 (p : parser) (attrs : dict attr) (name : string) (v : pyval) : res bool :=
  match dget attrs name with
  | None => Ok false                                                        (* 434-436 *)
  | Some props =>
    if negb (at_rw props) then Ok false                                     (* 438-440 *)
    else
    match (if isinstance v (at_type props) then Ok v else convert p (at_type props) v) with
    | Err ValueError | Err AttributeError => Ok false                       (* 441-446 *)
    | Err e => Err e
    | Ok v =>
      match (match v with
             | VQty q =>
                 let q := match at_units props with
                          | Some u => if dimensionless q then mkQty (q_mag q) u else q
                          | None => q
                          end in
                 rbind (units_dim p (at_units props)) (fun d =>
                 if u_dim (q_unit q) =? d then Ok (Some (VQty q)) else Ok None)
             | _ => Ok (Some v)
             end) with                                                      (* 447-452 *)
      | Err e => Err e
      | Ok None => Ok false
      | Ok (Some v) =>
        match (match at_min props with None => Ok false | Some b => py_lt v b end) with
        | Err e => Err e
        | Ok true => Ok false                                               (* 453-455 *)
        | Ok false =>
          match (match at_max props with None => Ok false | Some b => py_gt v b end) with
          | Err e => Err e
          | Ok true => Ok false                                             (* 456-458 *)
          | Ok false => Ok true
          end
        end
      end
    end
  end.
Fixpoint validate_params20 (p : parser) (attrs : dict attr) (l : dict pyval) : res bool :=
  match l with
  | [] => Ok true
  | (name, v) :: r =>
      match validate_param20 p attrs name v with
      | Ok true => validate_params20 p attrs r
      | other => other
      end
  end.
Definition task_validate20 (p : parser) (caps : list string) (attrs : dict attr) (t : task) : res bool :=
  if negb (mem (t_technique t) caps) then Ok false                          (* 427-429 *)
  else match t_params t with
       | None => Ok true                                                    (* 431-432 *)
       | Some l => validate_params20 p attrs l
       end.

(** [ModelDevice.prepare_task] (572-579): [set_attr] of every parameter in turn.
    [set] is the driver's own [set_attr], decorated with [coerce_val]; it sees the
    coerced value and may raise.  The result is the list of (attribute, value) pairs
    passed to it before the first exception, and that exception if there is one. *)
Fixpoint prepare_params (p : parser) (attrs : dict attr) (set : string -> pyval -> res unit)
    (l : dict pyval) : list (string * pyval) * option exn :=
  match l with
  | [] => ([], None)
  | (name, v) :: r =>
      match coerce_val p attrs name v with
      | Err e => ([], Some e)
      | Ok v' =>
          match set name v' with
          | Err e => ([(name, v')], Some e)
          | Ok tt => let (done, e) := prepare_params p attrs set r in ((name, v') :: done, e)
          end
      end
  end.
Definition prepare_task (p : parser) (attrs : dict attr) (set : string -> pyval -> res unit)
    (t : task) : list (string * pyval) * option exn :=
  match t_params t with None => ([], None) | Some l => prepare_params p attrs set l end.
