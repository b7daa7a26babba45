(** * SpecAttr: what it means for a value to be acceptable for an attribute

    Vocabulary for properties C49 and C50; independent of the checks of the code. *)
From Coq Require Import List String ZArith QArith Bool.
From Verif Require Import Base Types AttrModel.
Import ListNotations.
Open Scope Z_scope.

(** The ordinary order on the extended rationals; nan is not related to anything. *)
Definition fle (a b : pyfloat) : Prop :=
  match a, b with
  | FNan, _ | _, FNan => False
  | FNegInf, _ | _, FPosInf => True
  | FFin x, FFin y => (x <= y)%Q
  | _, _ => False
  end.

(** Equality of the extended rationals. *)
Definition feq (a b : pyfloat) : Prop := fle a b /\ fle b a.

(** The size of a number or quantity, in base units, and its dimension. *)
Definition size (v : pyval) : option pyfloat :=
  match v with
  | VBool b => Some (FFin (inject_Z (if b then 1 else 0)))
  | VInt z => Some (FFin (inject_Z z))
  | VFloat f => Some f
  | VQty (mkQty FNan _) => Some FNan
  | VQty (mkQty FPosInf _) => Some FPosInf
  | VQty (mkQty FNegInf _) => Some FNegInf
  | VQty (mkQty (FFin x) u) => Some (FFin (x * u_scale u)%Q)
  | _ => None
  end.
Definition bsize (b : bound) : pyfloat :=
  match b with
  | BNum f => f
  | BQty q => match size (VQty q) with Some f => f | None => FNan end
  end.
Definition dimension (v : pyval) : Z :=
  match v with VQty q => u_dim (q_unit q) | _ => 0 end.

(** [v] has the declared type. *)
Definition has_type (v : pyval) (t : atype) : Prop :=
  match t with
  | TStr => exists s, v = VStr s
  | TInt => (exists z, v = VInt z) \/ (exists b, v = VBool b)
  | TFloat => exists f, v = VFloat f
  | TQty => exists q, v = VQty q
  end.

(** A quantity has the dimension of the declared unit (no unit: dimensionless). *)
Definition right_dimension (props : attr) (v : pyval) : Prop :=
  forall q, v = VQty q ->
    u_dim (q_unit q) = match at_units props with Some u => u_dim u | None => 0 end.

(** A quantity has the declared unit itself. *)
Definition right_unit (props : attr) (v : pyval) : Prop :=
  forall q u, v = VQty q -> at_units props = Some u -> q_unit q = u.

(** The value lies between the declared minimum and maximum. *)
Definition in_range (props : attr) (v : pyval) : Prop :=
  (forall b, at_min props = Some b -> exists x, size v = Some x /\ fle (bsize b) x) /\
  (forall b, at_max props = Some b -> exists x, size v = Some x /\ fle x (bsize b)).

(** [v] is the same value as [w]: the same string, or the same size and dimension. *)
Definition same_value (v w : pyval) : Prop :=
  (exists s, v = VStr s /\ w = VStr s) \/
  (exists x y, size v = Some x /\ size w = Some y /\ feq x y /\ dimension v = dimension w).

(** The value is one of the declared options, if there are any. *)
Definition in_options (props : attr) (v : pyval) : Prop :=
  forall l, at_options props = Some l -> exists w, In w l /\ same_value v w.

(** All of C49. *)
Definition acceptable (attrs : dict attr) (name : string) (v : pyval) : Prop :=
  exists props, dget attrs name = Some props /\ at_rw props = true /\
    has_type v (at_type props) /\ right_dimension props v /\ right_unit props v /\
    in_range props v /\ in_options props v.

(** A value that is not a number: nan as a float or as the magnitude of a quantity. *)
Definition not_a_number (v : pyval) : Prop := size v = Some FNan.

(** The declared bounds are numbers. *)
Definition sane_bounds (props : attr) : Prop :=
  (forall b, at_min props = Some b -> bsize b <> FNan) /\
  (forall b, at_max props = Some b -> bsize b <> FNan).

(** The options of a quantity that has a unit are quantities of the dimension of
    that unit, which is not a dimensionless unit (such as percent). *)
Definition sane_options (props : attr) : Prop :=
  at_type props = TQty -> forall u l, at_units props = Some u -> at_options props = Some l ->
    u_dim u <> 0 /\ forall w, In w l -> dimension w = u_dim u.

(** The dimension in which an attribute is declared, and that of a bound. *)
Definition declared_dimension (props : attr) : Z :=
  match at_type props, at_units props with TQty, Some u => u_dim u | _, _ => 0 end.
Definition bound_dimension (b : bound) : Z :=
  match b with BNum _ => 0 | BQty q => u_dim (q_unit q) end.
(** The bounds are given in the dimension of the attribute. *)
Definition matching_bounds (props : attr) : Prop :=
  forall b, at_min props = Some b \/ at_max props = Some b -> bound_dimension b = declared_dimension props.
(** A quantity has a declared unit. *)
Definition has_units (props : attr) : Prop := at_type props = TQty -> at_units props <> None.
(** A plain number that is neither zero nor nan. *)
Definition plain_nonzero (b : bound) : Prop :=
  exists f, b = BNum f /\ f <> FNan /\ ~ feq f (FFin 0).

(** ** Tasks (C50) *)

(** A parameter that [set_attr] takes (before the driver's own code sees it). *)
Definition takes (p : parser) (attrs : dict attr) (nv : string * pyval) : Prop :=
  exists w, coerce_val p attrs (fst nv) (snd nv) = Ok w.
(** The parameter was converted and set. *)
Definition was_set (p : parser) (attrs : dict attr) (set : string -> pyval -> res unit)
    (nv d : string * pyval) : Prop :=
  fst d = fst nv /\ coerce_val p attrs (fst nv) (snd nv) = Ok (snd d) /\ set (fst d) (snd d) = Ok tt.
Definition params (t : task) : list (string * pyval) := match t_params t with Some l => l | None => [] end.
