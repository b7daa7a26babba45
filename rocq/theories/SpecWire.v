(** * SpecWire: what the equipment behind the drivers can do (C120, C121) *)
From Coq Require Import List String ZArith Bool.
From Verif Require Import Base Types World AttrModel SpecAttr SpecJob IfaceModel WireModel.
Import ListNotations.
Open Scope string_scope.
Open Scope Z_scope.

(** The driver processes by port. *)
Definition network : Type := Z -> option process.

(** The answers the world gives to the two questions of [find_matching_pipelines] are those of
    the processes of [net]. *)
Definition question (c : dcmd) : Prop :=
  match c with CCapabilities _ _ | CValidate _ _ _ => True | _ => False end.
Definition answered_by (w : world) (net : network) : Prop :=
  forall port c, question c ->
    match net port with
    | Some x => exists i, w_driver w port c = reply_of i x c
    | None => w_driver w port c = None
    end.

(** The techniques of a component do not depend on when the driver's code is asked. *)
Definition steady (net : network) : Prop :=
  forall port x n m k, net port = Some x -> h_caps (pr_hw x) n k = h_caps (pr_hw x) m k.

(** The task suits a component with the techniques [caps] and the attributes [attrs]: the
    technique is one of them, and every parameter is taken by the attribute of that name (for
    interface 2.0 in the sense of its own, more lenient, [task_validate]; see C84). *)
Definition suits (v : version) (p : parser) (caps : list string) (attrs : dict attr) (t : task) : Prop :=
  match v with
  | V21 => In (t_technique t) caps /\ Forall (takes p attrs) (params t)
  | V20 => task_validate20 p caps attrs t = Ok true
  end.

(** The component [cn] of the devices file is registered with the process at the port of its
    driver, and the task suits it. *)
Definition equipped (net : network) (w : world) (d : daemon) (t : task) (cn : string) : Prop :=
  exists cmp port x v caps,
    component_port w d cn cmp port /\ net port = Some x /\
    kget (i_devmap (pr_iface x)) (Some (c_address cmp), Some (c_channel cmp)) = Some v /\
    h_caps (pr_hw x) 0%nat (Some (c_address cmp), Some (c_channel cmp)) = Ok caps /\
    suits (i_ver (pr_iface x)) (h_parser (pr_hw x)) caps
          (h_attrs (pr_hw x) (Some (c_address cmp), Some (c_channel cmp))) t.

(** Every task of the method has such a component in its role. *)
Definition fully_equipped (net : network) (w : world) (d : daemon) (method : list task)
    (p : pipeline) : Prop :=
  forall t, In t method -> exists cn, In (t_role t, cn) (pp_components p) /\ equipped net w d t cn.

(** A component without a running or a waiting task and without data. *)
Definition idle (v : device) : Prop := v_running v = None /\ v_tasks v = [] /\ v_data v = [].
