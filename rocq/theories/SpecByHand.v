(** * SpecByHand: what commands by hand may do to the equipment (C123) *)
From Coq Require Import List String ZArith Bool.
From Verif Require Import Base Types AttrModel IfaceModel SpecIface WireModel PassataModel ByHandModel.
Import ListNotations.
Open Scope string_scope.
Open Scope Z_scope.

(** The place of a component with its driver. *)
Definition place (c : component) : key := (Some (c_address c), Some (c_channel c)).

(** From [net] to [net'], nothing but the component at [k] of the process at [port] changed; at
    most, the process is gone. *)
Definition only_there (port : Z) (k : key) (net net' : nodes) : Prop :=
  (forall p, p <> port -> net' p = net p) /\
  match net' port with
  | None => True
  | Some y => exists x, net port = Some x /\ pr_hw y = pr_hw x /\ pr_name y = pr_name x /\
                        others_same k (pr_iface x) (pr_iface y)
  end.

(** The same, but that component did not change either, and nothing was set. *)
Definition untouched (port : Z) (net net' : nodes) : Prop :=
  (forall p, p <> port -> net' p = net p) /\
  match net' port with
  | None => True
  | Some y => exists x, net port = Some x /\ pr_hw y = pr_hw x /\ pr_name y = pr_name x /\
                        i_devmap (pr_iface y) = i_devmap (pr_iface x) /\ i_log (pr_iface y) = i_log (pr_iface x) /\
                        i_ver (pr_iface y) = i_ver (pr_iface x)
  end.

(** The configured component [c] has a driver that announced [port], and is registered there as [v]. *)
Definition registered_at (cmps : dict component) (table : string -> option (option Z)) (net : nodes)
    (name : string) (c : component) (port : Z) (x : process) (v : device) : Prop :=
  dget cmps name = Some c /\ table (c_driver c) = Some (Some port) /\ net port = Some x /\
  kget (i_devmap (pr_iface x)) (place c) = Some v.

(** The commands about one component. *)
Definition command (name : string) (p : ppgm pret) : Prop :=
  In p [status name; attrs name; capabilities name; constants name; get_last_data name; measure name; register name] \/
  (exists f, p = reset name f) \/ (exists a v f, p = set_attr name a v f) \/ (exists l, p = get_attrs name l).
